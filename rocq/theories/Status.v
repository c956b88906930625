(** Model of spdmlib/src/error.rs: SpdmStatus and its u32 wire form. *)
From Verif Require Import Bytes Codec.
Local Open Scope N_scope.

(** StatusSeverity — error.rs:16-19 *)
Inductive severity := SevSuccess | SevError.
Definition sev_code (s : severity) : N := match s with SevSuccess => 0 | SevError => 8 end.
(** TryFrom<u8> for StatusSeverity — error.rs:27-37 *)
Definition sev_of (v : N) : option severity :=
  match v with 0 => Some SevSuccess | 8 => Some SevError | _ => None end.

(** StatusCodeCore — error.rs:43-64 *)
Inductive core_code :=
| CoreSuccess | INVALID_PARAMETER | UNSUPPORTED_CAP | INVALID_STATE_LOCAL | INVALID_STATE_PEER
| INVALID_MSG_FIELD | INVALID_MSG_SIZE | NEGOTIATION_FAIL | BUSY_PEER | NOT_READY_PEER
| ERROR_PEER | RESYNCH_PEER | BUFFER_FULL | BUFFER_TOO_SMALL | SESSION_NUMBER_EXCEED
| SESSION_MSG_ERROR | ACQUIRE_FAIL | SESSION_TRY_DISCARD_KEY_UPDATE | DECODE_AEAD_FAIL.
(** discriminants — error.rs:43-63 *)
Definition core_u16 (c : core_code) : N :=
  match c with
  | CoreSuccess => 0 | INVALID_PARAMETER => 1 | UNSUPPORTED_CAP => 2 | INVALID_STATE_LOCAL => 3
  | INVALID_STATE_PEER => 4 | INVALID_MSG_FIELD => 5 | INVALID_MSG_SIZE => 6 | NEGOTIATION_FAIL => 7
  | BUSY_PEER => 8 | NOT_READY_PEER => 9 | ERROR_PEER => 10 | RESYNCH_PEER => 11 | BUFFER_FULL => 12
  | BUFFER_TOO_SMALL => 13 | SESSION_NUMBER_EXCEED => 14 | SESSION_MSG_ERROR => 15 | ACQUIRE_FAIL => 16
  | SESSION_TRY_DISCARD_KEY_UPDATE => 17 | DECODE_AEAD_FAIL => 254
  end.
(** TryFrom<u16> for StatusCodeCore — error.rs:67-93 *)
Definition core_of (v : N) : option core_code :=
  match v with
  | 0 => Some CoreSuccess | 1 => Some INVALID_PARAMETER | 2 => Some UNSUPPORTED_CAP
  | 3 => Some INVALID_STATE_LOCAL | 4 => Some INVALID_STATE_PEER | 5 => Some INVALID_MSG_FIELD
  | 6 => Some INVALID_MSG_SIZE | 7 => Some NEGOTIATION_FAIL | 8 => Some BUSY_PEER
  | 9 => Some NOT_READY_PEER | 10 => Some ERROR_PEER | 11 => Some RESYNCH_PEER | 12 => Some BUFFER_FULL
  | 13 => Some BUFFER_TOO_SMALL | 14 => Some SESSION_NUMBER_EXCEED | 15 => Some SESSION_MSG_ERROR
  | 16 => Some ACQUIRE_FAIL | 17 => Some SESSION_TRY_DISCARD_KEY_UPDATE | 254 => Some DECODE_AEAD_FAIL
  | _ => None
  end.

(** StatusCodeCrypto — error.rs:105-125 *)
Inductive crypto_code := CRYPTO_ERROR | VERIF_FAIL | SEQUENCE_NUMBER_OVERFLOW | VERIF_NO_AUTHORITY.
Definition crypto_u16 (c : crypto_code) : N :=
  match c with CRYPTO_ERROR => 0 | VERIF_FAIL => 1 | SEQUENCE_NUMBER_OVERFLOW => 2 | VERIF_NO_AUTHORITY => 3 end.
Definition crypto_of (v : N) : option crypto_code :=
  match v with 0 => Some CRYPTO_ERROR | 1 => Some VERIF_FAIL | 2 => Some SEQUENCE_NUMBER_OVERFLOW
  | 3 => Some VERIF_NO_AUTHORITY | _ => None end.

(** StatusCodeCertParse — error.rs:137-151 *)
Inductive cert_code := INVALID_CERT.
Definition cert_u16 (c : cert_code) : N := match c with INVALID_CERT => 0 end.
Definition cert_of (v : N) : option cert_code := match v with 0 => Some INVALID_CERT | _ => None end.

(** StatusCodeTransport — error.rs:162-187 *)
Inductive transport_code := SEND_FAIL | RECEIVE_FAIL | DECAP_FAIL | DECAP_APP_FAIL | ENCAP_FAIL | ENCAP_APP_FAIL.
Definition transport_u16 (c : transport_code) : N :=
  match c with SEND_FAIL => 0 | RECEIVE_FAIL => 1 | DECAP_FAIL => 254 | DECAP_APP_FAIL => 253
  | ENCAP_FAIL => 252 | ENCAP_APP_FAIL => 251 end.
Definition transport_of (v : N) : option transport_code :=
  match v with 0 => Some SEND_FAIL | 1 => Some RECEIVE_FAIL | 254 => Some DECAP_FAIL
  | 253 => Some DECAP_APP_FAIL | 252 => Some ENCAP_FAIL | 251 => Some ENCAP_APP_FAIL | _ => None end.

(** StatusCodeMeasCollect — error.rs:199-214 *)
Inductive meas_code := MEAS_INVALID_INDEX | MEAS_INTERNAL_ERROR.
Definition meas_u16 (c : meas_code) : N := match c with MEAS_INVALID_INDEX => 0 | MEAS_INTERNAL_ERROR => 1 end.
Definition meas_of (v : N) : option meas_code :=
  match v with 0 => Some MEAS_INVALID_INDEX | 1 => Some MEAS_INTERNAL_ERROR | _ => None end.

(** StatusCodeRNG — error.rs:226-239 *)
Inductive rng_code := LOW_ENTROPY.
Definition rng_u16 (c : rng_code) : N := match c with LOW_ENTROPY => 0 end.
Definition rng_of (v : N) : option rng_code := match v with 0 => Some LOW_ENTROPY | _ => None end.

(** StatusCode — error.rs:250-258 *)
Inductive status_code :=
| SC_SUCCESS | SC_CORE (c : core_code) | SC_CRYPTO (c : crypto_code) | SC_CERT (c : cert_code)
| SC_TRANSPORT (c : transport_code) | SC_MEAS (c : meas_code) | SC_RNG (c : rng_code).

Definition omap {A B} (f : A -> B) (o : option A) : option B :=
  match o with Some a => Some (f a) | None => None end.

(** TryFrom<u24> for StatusCode — error.rs:266-285 *)
Definition sc_of (v : N) : option status_code :=
  let source := as_u8 (N.shiftr (N.land v 0xFF0000) 16) in
  let code := N.land v 0xFFFF in
  match source with
  | 0 => Some SC_SUCCESS
  | 1 => omap SC_CORE (core_of code)
  | 2 => omap SC_CRYPTO (crypto_of code)
  | 3 => omap SC_CERT (cert_of code)
  | 4 => omap SC_TRANSPORT (transport_of code)
  | 5 => omap SC_MEAS (meas_of code)
  | 6 => omap SC_RNG (rng_of code)
  | _ => None
  end.

(** TryInto<u24> for StatusCode — error.rs:287-301 *)
Definition sc_u24 (s : status_code) : N :=
  match s with
  | SC_SUCCESS => 0
  | SC_CORE c => 0x10000 + core_u16 c
  | SC_CRYPTO c => 0x20000 + crypto_u16 c
  | SC_CERT c => 0x30000 + cert_u16 c
  | SC_TRANSPORT c => 0x40000 + transport_u16 c
  | SC_MEAS c => 0x50000 + meas_u16 c
  | SC_RNG c => 0x60000 + rng_u16 c
  end.

(** SpdmStatus — error.rs:303-307 *)
Record status := mkStatus { st_sev : severity; st_code : status_code }.

(** the u32 assembled by [encode] / returned by [get_u32] — error.rs:310-318, 339-343 *)
Definition status_u32 (s : status) : N :=
  N.shiftl (N.land (sev_code (st_sev s)) 0x0F) 28 + sc_u24 (st_code s).
(** impl Codec for SpdmStatus, encode — error.rs:310-318 *)
Definition enc_status (s : status) : list bytes := e_u32 (status_u32 s).

(** decoding a u32 — error.rs:320-334 *)
Definition status_of_u32 (sc : N) : option status :=
  match sev_of (as_u8 (N.shiftr (N.land sc 0xF0000000) 28)) with
  | None => None
  | Some sev =>
      if N.land sc 0x0F000000 =? 0 then
        match sc_of (N.land sc 0x00FFFFFF) with
        | None => None
        | Some c => Some (mkStatus sev c)
        end
      else None
  end.
(** impl Codec for SpdmStatus, read — error.rs:320-334 *)
Definition p_status : parser status :=
  fun l => match p_u32 l with
           | None => None
           | Some (sc, r) => match status_of_u32 sc with Some s => Some (s, r) | None => None end
           end.
(** from_u32 — error.rs:346-348 *)
Definition status_from_u32 (v : N) : option status := omap fst (p_status (le_bytes 4 v)).

(** the constants — error.rs:410-618.  Note error.rs:416-419 defines
    SPDM_STATUS_INVALID_PARAMETER with the INVALID_STATE_LOCAL code. *)
Definition ST_SUCCESS := mkStatus SevSuccess SC_SUCCESS.
Definition st_core c := mkStatus SevError (SC_CORE c).
Definition ST_INVALID_PARAMETER := st_core INVALID_STATE_LOCAL.
Definition ST_UNSUPPORTED_CAP := st_core UNSUPPORTED_CAP.
Definition ST_INVALID_STATE_LOCAL := st_core INVALID_STATE_LOCAL.
Definition ST_INVALID_STATE_PEER := st_core INVALID_STATE_PEER.
Definition ST_INVALID_MSG_FIELD := st_core INVALID_MSG_FIELD.
Definition ST_INVALID_MSG_SIZE := st_core INVALID_MSG_SIZE.
Definition ST_NEGOTIATION_FAIL := st_core NEGOTIATION_FAIL.
Definition ST_BUSY_PEER := st_core BUSY_PEER.
Definition ST_NOT_READY_PEER := st_core NOT_READY_PEER.
Definition ST_ERROR_PEER := st_core ERROR_PEER.
Definition ST_RESYNCH_PEER := st_core RESYNCH_PEER.
Definition ST_BUFFER_FULL := st_core BUFFER_FULL.
Definition ST_BUFFER_TOO_SMALL := st_core BUFFER_TOO_SMALL.
Definition ST_SESSION_NUMBER_EXCEED := st_core SESSION_NUMBER_EXCEED.
Definition ST_SESSION_MSG_ERROR := st_core SESSION_MSG_ERROR.
Definition ST_DECODE_AEAD_FAIL := st_core DECODE_AEAD_FAIL.
Definition ST_CRYPTO_ERROR := mkStatus SevError (SC_CRYPTO CRYPTO_ERROR).
Definition ST_VERIF_FAIL := mkStatus SevError (SC_CRYPTO VERIF_FAIL).
Definition ST_SEQUENCE_NUMBER_OVERFLOW := mkStatus SevError (SC_CRYPTO SEQUENCE_NUMBER_OVERFLOW).
Definition ST_VERIF_NO_AUTHORITY := mkStatus SevError (SC_CRYPTO VERIF_NO_AUTHORITY).
Definition ST_INVALID_CERT := mkStatus SevError (SC_CERT INVALID_CERT).
Definition ST_SEND_FAIL := mkStatus SevError (SC_TRANSPORT SEND_FAIL).
Definition ST_RECEIVE_FAIL := mkStatus SevError (SC_TRANSPORT RECEIVE_FAIL).
Definition ST_DECAP_FAIL := mkStatus SevError (SC_TRANSPORT DECAP_FAIL).
Definition ST_DECAP_APP_FAIL := mkStatus SevError (SC_TRANSPORT DECAP_APP_FAIL).
Definition ST_ENCAP_FAIL := mkStatus SevError (SC_TRANSPORT ENCAP_FAIL).
Definition ST_ENCAP_APP_FAIL := mkStatus SevError (SC_TRANSPORT ENCAP_APP_FAIL).

(** Result of a Rust function returning [SpdmResult<A>]; a reachable panic
    (failed assert, slice out of bounds, arithmetic overflow in debug) is explicit. *)
Inductive outcome (A : Type) := Ok (a : A) | Err (s : status) | Panic.
Arguments Ok {A} a. Arguments Err {A} s. Arguments Panic {A}.
Definition obind {A B} (o : outcome A) (k : A -> outcome B) : outcome B :=
  match o with Ok a => k a | Err s => Err s | Panic => Panic end.
