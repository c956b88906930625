(** Model of spdmlib/src/common/key_schedule.rs.  No proofs here.
    Every derivation returns [Option] in Rust and every caller turns [None] into
    CRYPTO_ERROR (common/session.rs); the model folds the two. *)
From Verif Require Import Bytes Codec Parse Status Algo Crypto.
Local Open Scope N_scope.

(** ASCII *)
Definition c_space := 0x20. Definition c_dot := 0x2e. Definition c_0 := 0x30.
(** labels — key_schedule.rs:14-23 *)
Definition LBL_DERIVED : bytes := [0x64;0x65;0x72;0x69;0x76;0x65;0x64].                            (* derived *)
Definition LBL_REQ_HS : bytes := [0x72;0x65;0x71;c_space;0x68;0x73;c_space;0x64;0x61;0x74;0x61].    (* req hs data *)
Definition LBL_RSP_HS : bytes := [0x72;0x73;0x70;c_space;0x68;0x73;c_space;0x64;0x61;0x74;0x61].    (* rsp hs data *)
Definition LBL_REQ_APP : bytes := [0x72;0x65;0x71;c_space;0x61;0x70;0x70;c_space;0x64;0x61;0x74;0x61]. (* req app data *)
Definition LBL_RSP_APP : bytes := [0x72;0x73;0x70;c_space;0x61;0x70;0x70;c_space;0x64;0x61;0x74;0x61]. (* rsp app data *)
Definition LBL_KEY : bytes := [0x6b;0x65;0x79].                                                  (* key *)
Definition LBL_IV : bytes := [0x69;0x76].                                                        (* iv *)
Definition LBL_FINISHED : bytes := [0x66;0x69;0x6e;0x69;0x73;0x68;0x65;0x64].                    (* finished *)
Definition LBL_EXP : bytes := [0x65;0x78;0x70;c_space;0x6d;0x61;0x73;0x74;0x65;0x72].            (* exp master *)
Definition LBL_UPD : bytes := [0x74;0x72;0x61;0x66;0x66;0x69;0x63;c_space;0x75;0x70;0x64].       (* traffic upd *)

(** MAX_BIN_CONCAT_BUF_SIZE — key_schedule.rs:12 *)
Definition MAX_BIN_CONCAT : N := 2 + 8 + 12 + 64.

(** "spdm M.m " with the digits of the version — key_schedule.rs:24-26, 435-438 *)
Definition version_text (v : N) : bytes :=
  [0x73;0x70;0x64;0x6d; N.shiftr v 4 + c_0; c_dot; N.land v 0xF + c_0; c_space].

(** binconcat — key_schedule.rs:418-450, called with a buffer of MAX_BIN_CONCAT bytes *)
Definition binconcat (length : N) (version : N) (label : bytes) (context : option bytes) : option bytes :=
  let n := len label + match context with Some c => len c | None => 0 end in
  if MAX_BIN_CONCAT - 2 - 8 <? n then None
  else Some (le_bytes 2 length ++ version_text version ++ label ++
             match context with Some c => c | None => [] end).

(** from_spdm_hkdf_okm / from_spdm_hkdf_prk / from_input_keying_material — protocol/algo.rs:1244-1516:
    reject an empty or oversized secret *)
Definition sized (max : N) (b : bytes) : option bytes :=
  if (len b =? 0) || (max <? len b) then None else Some b.

Definition orc {A} (o : option A) : outcome A := match o with Some a => Ok a | None => Err ST_CRYPTO_ERROR end.
(** a panicking size lookup *)
Definition osz {A} (o : option A) : outcome A := match o with Some a => Ok a | None => Panic end.

(** hkdf_expand from a secret, [from_input_keying_material] included *)
Definition expand (cr : crypto) (hash : N) (secret info : bytes) (out : N) : outcome bytes :=
  obind (orc (sized 64 secret)) (fun prk => orc (cr_expand cr hash prk info out)).

(** derive_handshake_secret — key_schedule.rs:42-54 *)
Definition derive_handshake_secret (cr : crypto) (hash : N) (dhe : bytes) : outcome bytes :=
  obind (osz (hash_size hash)) (fun n =>
  obind (orc (cr_extract cr hash (fill (N.to_nat n) 0) dhe)) (fun prk => orc (sized 64 prk))).

(** derive_master_secret — key_schedule.rs:56-90 *)
Definition derive_master_secret (cr : crypto) (v hash : N) (hs : bytes) : outcome bytes :=
  obind (osz (hash_size hash)) (fun n =>
  obind (orc (binconcat n v LBL_DERIVED None)) (fun info =>
  obind (expand cr hash hs info n) (fun salt =>
  obind (orc (cr_extract cr hash salt (fill (N.to_nat n) 0))) (fun prk => orc (sized 64 prk))))).

(** a secret taken from the DHE root or from the PSK callback; [psk] is the callback,
    [hint] the session's hint, whose [unwrap] may panic *)
Definition from_root (cr : crypto) (psk : N -> N -> bytes -> bytes -> option bytes)
    (use_psk : bool) (v hash : N) (root : bytes) (hint : option bytes) (info : bytes) (n : N) : outcome bytes :=
  obind (if use_psk then match hint with None => Panic | Some h => orc (psk v hash h info) end
         else expand cr hash root info n) (fun okm => orc (sized 64 okm)).

(** derive_request_handshake_secret / derive_response_handshake_secret — key_schedule.rs:92-174 *)
Definition derive_hs_direction (cr : crypto) (label : bytes) (use_psk : bool) (v hash : N) (hs : bytes)
    (hint : option bytes) (th1 : bytes) : outcome bytes :=
  obind (osz (hash_size hash)) (fun n =>
  obind (orc (binconcat n v label (Some th1))) (fun info =>
  from_root cr (cr_psk_hs cr) use_psk v hash hs hint info n)).

(** derive_request_data_secret / derive_response_data_secret — key_schedule.rs:267-349 *)
Definition derive_data_direction (cr : crypto) (label : bytes) (use_psk : bool) (v hash : N) (ms : bytes)
    (hint : option bytes) (th2 : bytes) : outcome bytes :=
  obind (osz (hash_size hash)) (fun n =>
  obind (orc (binconcat n v label (Some th2))) (fun info =>
  from_root cr (cr_psk_ms cr) use_psk v hash ms hint info n)).

(** derive_export_master_secret — key_schedule.rs:351-390 *)
Definition derive_export (cr : crypto) (use_psk : bool) (v hash : N) (ms : bytes) (hint : option bytes) : outcome bytes :=
  obind (osz (hash_size hash)) (fun n =>
  obind (orc (binconcat n v LBL_EXP None)) (fun info =>
  from_root cr (cr_psk_ms cr) use_psk v hash ms hint info n)).

(** derive_finished_key — key_schedule.rs:176-200 *)
Definition derive_finished (cr : crypto) (v hash : N) (secret : bytes) : outcome bytes :=
  obind (osz (hash_size hash)) (fun n =>
  obind (orc (binconcat n v LBL_FINISHED None)) (fun info =>
  obind (expand cr hash secret info n) (fun okm => orc (sized 64 okm)))).

(** derive_aead_key_iv — key_schedule.rs:202-265.  The info string carries the algorithm's own
    key size, but the amount requested is always SPDM_MAX_AEAD_KEY_SIZE = 32 bytes (12 for the
    IV). *)
Definition derive_aead_key_iv (cr : crypto) (v hash aead : N) (secret : bytes) : outcome (bytes * bytes) :=
  obind (osz (aead_key_size aead)) (fun ks =>
  obind (orc (binconcat ks v LBL_KEY None)) (fun info =>
  obind (expand cr hash secret info 32) (fun okm =>
  obind (orc (sized 32 okm)) (fun key =>
  obind (osz (aead_iv_size aead)) (fun ivs =>
  obind (orc (binconcat ivs v LBL_IV None)) (fun info' =>
  obind (expand cr hash secret info' 12) (fun okm' =>
  obind (orc (sized 12 okm')) (fun iv => Ok (key, iv))))))))).

(** derive_update_secret — key_schedule.rs:392-416 *)
Definition derive_update (cr : crypto) (v hash : N) (secret : bytes) : outcome bytes :=
  obind (osz (hash_size hash)) (fun n =>
  obind (orc (binconcat n v LBL_UPD None)) (fun info =>
  obind (expand cr hash secret info n) (fun okm => orc (sized 64 okm)))).
