(** Model of spdmlib/src/protocol/{version,capability,algo}.rs and of the negotiated
    parameters (common/mod.rs:1061-1082).  No proofs here.

    A bitflags value is its [bits()], an [N].  An [enum_builder!] value is its wire
    code, an [N] (PropCodec.C04 shows code and value determine each other). *)
From Verif Require Import Bytes Codec Parse.
Local Open Scope N_scope.

(** SpdmVersion — protocol/version.rs:7-16; default Unknown(0) — 17-21 *)
Definition V10 : N := 0x10.
Definition V11 : N := 0x11.
Definition V12 : N := 0x12.
(** MAX_SPDM_VERSION_COUNT — version.rs:23 *)
Definition MAX_SPDM_VERSION_COUNT : N := 3.

(** bitflags [contains] *)
Definition contains (bits flag : N) : bool := N.land bits flag =? flag.
(** bitflags [from_bits]: [None] when an undefined bit is set *)
Definition from_bits (all bits : N) : option N :=
  if N.land bits all =? bits then Some bits else None.

(** ** Request capability flags — protocol/capability.rs:8-41 *)
Definition REQ_CERT : N := 0x2.
Definition REQ_CHAL : N := 0x4.
Definition REQ_ENCRYPT : N := 0x40.
Definition REQ_MAC : N := 0x80.
Definition REQ_MUT_AUTH : N := 0x100.
Definition REQ_KEY_EX : N := 0x200.
Definition REQ_PSK : N := 0x400.
Definition REQ_PSK_RSVD : N := 0x800.
Definition REQ_ENCAP : N := 0x1000.
Definition REQ_HBEAT : N := 0x2000.
Definition REQ_KEY_UPD : N := 0x4000.
Definition REQ_HS_CLEAR : N := 0x8000.
Definition REQ_PUB_KEY_ID : N := 0x10000.
Definition REQ_CHUNK : N := 0x20000.
(** VALID_MASK — capability.rs:25-39 *)
Definition REQ_CAP_MASK : N := 0x3FFC6.

(** ** Response capability flags — protocol/capability.rs:55-101 *)
Definition RSP_CACHE : N := 0x1.
Definition RSP_CERT : N := 0x2.
Definition RSP_CHAL : N := 0x4.
Definition RSP_MEAS_NO_SIG : N := 0x8.
Definition RSP_MEAS_SIG : N := 0x10.
Definition RSP_MEAS_FRESH : N := 0x20.
Definition RSP_ENCRYPT : N := 0x40.
Definition RSP_MAC : N := 0x80.
Definition RSP_MUT_AUTH : N := 0x100.
Definition RSP_KEY_EX : N := 0x200.
Definition RSP_PSK_WITHOUT_CTX : N := 0x400.
Definition RSP_PSK_WITH_CTX : N := 0x800.
Definition RSP_ENCAP : N := 0x1000.
Definition RSP_HBEAT : N := 0x2000.
Definition RSP_KEY_UPD : N := 0x4000.
Definition RSP_HS_CLEAR : N := 0x8000.
Definition RSP_PUB_KEY_ID : N := 0x10000.
Definition RSP_CHUNK : N := 0x20000.
Definition RSP_ALIAS_CERT : N := 0x40000.
Definition RSP_SET_CERT : N := 0x80000.
Definition RSP_CSR : N := 0x100000.
Definition RSP_CERT_INSTALL_RESET : N := 0x200000.
(** VALID_MASK — capability.rs:79-100 *)
Definition RSP_CAP_MASK : N := 0x3FFFFF.

(** ** Algorithm bit masks (VALID_MASK) — protocol/algo.rs *)
(** SpdmMeasurementSpecification — algo.rs:56-62 *)
Definition MSPEC_DMTF : N := 1.
Definition MSPEC_MASK : N := 1.
(** SpdmMeasurementHashAlgo — algo.rs:106-127; VALID_MASK repeats SHA3_256
    three times, so bits 0x20 (SHA3_384) and 0x40 (SHA3_512) are not in it *)
Definition MHASH_RAW : N := 1.
Definition MHASH_MASK : N := 0x9F.
(** SpdmBaseAsymAlgo — algo.rs:173-193, SpdmReqAsymAlgo — 487-506 *)
Definition ASYM_MASK : N := 0xFF.
(** SpdmBaseHashAlgo — algo.rs:256-267 *)
Definition HASH_MASK : N := 0x7.
(** SpdmDheAlgo — algo.rs:341-349 *)
Definition DHE_MASK : N := 0x18.
(** SpdmAeadAlgo — algo.rs:409-418 *)
Definition AEAD_MASK : N := 0x7.
(** SpdmKeyScheduleAlgo — algo.rs:574-579 *)
Definition KS_MASK : N := 1.
(** SpdmOpaqueSupport — common/opaque.rs:605-611 *)
Definition OPAQUE_FMT1 : N := 2.

(** is_no_more_than_one_selected — e.g. algo.rs:93-95 *)
Definition no_more_than_one (b : N) : bool := (b =? 0) || (N.land b (b - 1) =? 0).
(** is_valid — e.g. algo.rs:97-99 *)
Definition alg_valid (mask b : N) : bool := negb (N.land b mask =? 0).
(** is_valid_one_select — e.g. algo.rs:101-103 *)
Definition valid_one_select (mask b : N) : bool := no_more_than_one b && alg_valid mask b.

(** the priority loop of every [prioritize] — e.g. algo.rs:205-212 *)
Fixpoint prio_loop (tbl : list N) (self : N) : N :=
  match tbl with
  | [] => 0
  | v :: t => if negb (N.land self v =? 0) then v else prio_loop t self
  end.
(** [self.prioritize(peer)] with a given table — e.g. algo.rs:191-213 *)
Definition prioritize (tbl : list N) (self peer : N) : N := prio_loop tbl (N.land self peer).

(** the tables: algo.rs:79, 194-203, 271-275, 354, 423-427, 511-520, 585 *)
Definition mspec_prio : list N := [1].
Definition asym_prio : list N := [0x80; 0x10; 0x40; 0x8; 0x2; 0x20; 0x4; 0x1].
Definition hash_prio : list N := [0x4; 0x2; 0x1].
Definition dhe_prio : list N := [0x10; 0x8].
Definition aead_prio : list N := [0x2; 0x1; 0x4].
Definition req_asym_prio : list N := [0x80; 0x10; 0x40; 0x8; 0x2; 0x20; 0x4; 0x1].
Definition ks_prio : list N := [1].

(** ** sizes; [None] models the panic of an unselected algorithm *)
(** SpdmMeasurementHashAlgo::get_size — algo.rs:130-145 *)
Definition mhash_size (a : N) : option N :=
  match a with
  | 0x1 => Some 0 | 0x2 => Some 32 | 0x4 => Some 48 | 0x8 => Some 64
  | 0x10 => Some 32 | 0x20 => Some 48 | 0x40 => Some 64 | 0x80 => Some 32
  | _ => None
  end.
(** SpdmBaseAsymAlgo::get_size — algo.rs:214-228 *)
Definition asym_size (a : N) : option N :=
  match a with
  | 0x1 => Some 256 | 0x2 => Some 256 | 0x4 => Some 384 | 0x8 => Some 384
  | 0x10 => Some 64 | 0x20 => Some 512 | 0x40 => Some 512 | 0x80 => Some 96
  | _ => None
  end.
(** SpdmBaseHashAlgo::get_size — algo.rs:285-294 *)
Definition hash_size (a : N) : option N :=
  match a with 0x1 => Some 32 | 0x2 => Some 48 | 0x4 => Some 64 | _ => None end.
(** SpdmDheAlgo::get_size — algo.rs:365-373 *)
Definition dhe_size (a : N) : option N :=
  match a with 0x8 => Some 64 | 0x10 => Some 96 | _ => None end.
(** SpdmAeadAlgo::get_key_size — algo.rs:437-446 *)
Definition aead_key_size (a : N) : option N :=
  match a with 0x1 => Some 16 | 0x2 => Some 32 | 0x4 => Some 32 | _ => None end.
(** SpdmAeadAlgo::get_iv_size — algo.rs:447-456 *)
Definition aead_iv_size (a : N) : option N :=
  match a with 0x1 => Some 12 | 0x2 => Some 12 | 0x4 => Some 12 | _ => None end.
(** SpdmAeadAlgo::get_tag_size — algo.rs:457-466 *)
Definition aead_tag_size (a : N) : option N :=
  match a with 0x1 => Some 16 | 0x2 => Some 16 | 0x4 => Some 16 | _ => None end.

(** fixed sizes — algo.rs:46-54 and etc/config.json *)
Definition SPDM_NONCE_SIZE : nat := 32.
Definition SPDM_RANDOM_SIZE : nat := 32.
Definition SPDM_MAX_HASH_SIZE : nat := 64.
Definition SPDM_MAX_ASYM_KEY_SIZE : nat := 512.
Definition SPDM_MAX_DHE_KEY_SIZE : nat := 96.
Definition SPDM_MAX_SLOT_NUMBER : nat := 8.
Definition MAX_CERT_CHAIN_DATA_SIZE : nat := 4096.
Definition MAX_MEASUREMENT_RECORD_SIZE : nat := 4000.
Definition MAX_MEASUREMENT_VALUE_LEN : nat := 1024.
Definition MAX_PSK_CONTEXT_SIZE : nat := 64.
Definition MAX_PSK_HINT_SIZE : nat := 32.
Definition MAX_OPAQUE_SIZE : nat := 1024.

(** ** masked reads *)
(** Codec of the u8/u16/u32 bitflags: [from_bits(bits & VALID_MASK)], which
    always succeeds — e.g. algo.rs:64-75 *)
Definition d_flags8 (mask : N) : dec N := (b <- d_u8 ;; dret (N.land b mask))%dec.
Definition d_flags16 (mask : N) : dec N := (b <- d_u16 ;; dret (N.land b mask))%dec.
Definition d_flags32 (mask : N) : dec N := (b <- d_u32 ;; dret (N.land b mask))%dec.
(** [from_bits(bits)] without a mask *)
Definition d_flags8_strict (all : N) : dec N := (b <- d_u8 ;; dopt (from_bits all b))%dec.

(** ** SpdmAlgStruct — algo.rs:622-728 *)
Inductive alg :=
| ADhe (bits : N) | AAead (bits : N) | AReqAsym (bits : N) | AKeySched (bits : N) | AUnknown.
Record alg_struct := mkAlgStruct { as_type : N; as_alg : alg }.
(** derive(Default) — algo.rs:646-650, 662-666, 668-672 *)
Definition alg_struct_default := mkAlgStruct 0 AUnknown.

(** encode — algo.rs:675-702 *)
Definition enc_alg_struct (a : alg_struct) : enc :=
  x_u8 (as_type a) ++ x_u8 0x20 ++
  match as_alg a with
  | ADhe b | AAead b | AReqAsym b | AKeySched b => x_u16 b
  | AUnknown => []
  end.

(** read — algo.rs:704-735 *)
Definition dec_alg_struct : dec alg_struct :=
  (t <- d_u8 ;;
   c <- d_u8 ;;
   guard (N.land (N.shiftr c 4) 0xF =? 2) ;;
   guard (N.land c 0xF =? 0) ;;
   match t with
   | 2 => b <- d_flags16 DHE_MASK ;; dret (mkAlgStruct t (ADhe b))
   | 3 => b <- d_flags16 AEAD_MASK ;; dret (mkAlgStruct t (AAead b))
   | 4 => b <- d_flags16 ASYM_MASK ;; dret (mkAlgStruct t (AReqAsym b))
   | 5 => b <- d_flags16 KS_MASK ;; dret (mkAlgStruct t (AKeySched b))
   | _ => dnone
   end)%dec.

(** ** variable-size buffers [{data_size: u16, data: [u8; max]}]
    SpdmDigestStruct, SpdmSignatureStruct, SpdmDheExchangeStruct, ... — algo.rs:792-1160 *)
Record vbuf := mkV { v_size : N; v_data : bytes }.
(** Default *)
Definition v_default (max : nat) : vbuf := mkV 0 (fill max 0).
(** as_ref() *)
Definition v_bytes (v : vbuf) : bytes := firstn (N.to_nat (v_size v)) (v_data v).
(** From<&[u8]> for a slice not longer than the array *)
Definition v_of (max : nat) (b : bytes) : vbuf := mkV (len b) (pad_to max b).

(** ** SpdmNegotiateInfo — common/mod.rs:1061-1082 *)
Record nego := mkNego {
  n_version : N;
  n_req_cap : N;
  n_rsp_cap : N;
  n_req_ct : N;
  n_rsp_ct : N;
  n_mspec : N;
  n_mhash : N;
  n_hash : N;
  n_asym : N;
  n_dhe : N;
  n_aead : N;
  n_req_asym : N;
  n_ks : N;
  n_opaque : N;
  n_term_policy : bool;
  n_req_dts : N;
  n_req_max : N;
  n_rsp_dts : N;
  n_rsp_max : N
}.
(** derive(Default) *)
Definition nego_default : nego :=
  mkNego 0 0 0 0 0 0 0 0 0 0 0 0 0 0 false 0 0 0 0.

(** the part of SpdmContext the codecs look at: negotiate_info and the two
    runtime flags need_measurement_summary_hash / need_measurement_signature *)
Record cctx := mkCctx { c_nego : nego; c_need_sum : bool; c_need_sig : bool }.

(** get_hash_size / get_asym_key_size / get_dhe_key_size — common/mod.rs:167-175 *)
Definition c_hash_size (c : cctx) : option N := hash_size (n_hash (c_nego c)).
Definition c_asym_size (c : cctx) : option N := asym_size (n_asym (c_nego c)).
Definition c_dhe_size (c : cctx) : option N := dhe_size (n_dhe (c_nego c)).

Definition ver_ge (c : cctx) (v : N) : bool := v <=? n_version (c_nego c).
Definition req_has (c : cctx) (f : N) : bool := contains (n_req_cap (c_nego c)) f.
Definition rsp_has (c : cctx) (f : N) : bool := contains (n_rsp_cap (c_nego c)) f.

(** SpdmDigestStruct spdm_encode / spdm_read — common/spdm_codec.rs:36-55 *)
Definition enc_digest (c : cctx) (v : vbuf) : enc :=
  match c_hash_size c with
  | None => [EPanic]
  | Some n => x_assert (v_size v =? n) ++ x_arr_cnt (v_bytes v) (v_size v)
  end.
Definition dec_digest (c : cctx) : dec vbuf :=
  (n <- dsize (c_hash_size c) ;; b <- d_fixed SPDM_MAX_HASH_SIZE n ;; dret (mkV n b))%dec.

(** SpdmSignatureStruct — common/spdm_codec.rs:58-77 *)
Definition enc_signature (c : cctx) (v : vbuf) : enc :=
  match c_asym_size c with
  | None => [EPanic]
  | Some n => x_assert (v_size v =? n) ++ x_arr_cnt (v_bytes v) (v_size v)
  end.
Definition dec_signature (c : cctx) : dec vbuf :=
  (n <- dsize (c_asym_size c) ;; b <- d_fixed SPDM_MAX_ASYM_KEY_SIZE n ;; dret (mkV n b))%dec.

(** SpdmDheExchangeStruct — common/spdm_codec.rs:158-177 *)
Definition enc_exchange (v : vbuf) : enc := x_arr_cnt (v_bytes v) (v_size v).
Definition dec_exchange (c : cctx) : dec vbuf :=
  (n <- dsize (c_dhe_size c) ;; b <- d_fixed SPDM_MAX_DHE_KEY_SIZE n ;; dret (mkV n b))%dec.

(** SpdmNonceStruct / SpdmRandomStruct — algo.rs:747-790 *)
Definition enc_nonce (n : bytes) : enc := x_arr_cnt n (len n).
Definition dec_nonce : dec bytes := d_arr SPDM_NONCE_SIZE.
