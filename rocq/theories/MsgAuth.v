(** Model of spdmlib/src/message/{digest,certificate,challenge,measurement}.rs and of
    the measurement structures in common/spdm_codec.rs.  No proofs here.

    As everywhere, an [enum_builder!] value is its wire code and a bitflags value
    its bits; a fixed array with a size field is a [vbuf]. *)
From Verif Require Import Bytes Codec Parse Algo MsgConn.
Local Open Scope N_scope.

(** the optional digest of a response: read only when [b], else Default —
    e.g. challenge.rs:131-135 *)
Definition enc_opt (b : bool) (e : enc) : enc := if b then e else [].
Definition dec_opt {A} (b : bool) (d : dec A) (dflt : A) : dec A := if b then d else dret dflt.

(** SpdmOpaqueStruct spdm_encode / spdm_read — common/opaque.rs:545-573 *)
Definition enc_opaque (o : vbuf) : enc := x_u16 (v_size o) ++ x_arr (v_bytes o).
Definition dec_opaque : dec vbuf :=
  (n <- d_u16 ;; guard (n <=? N.of_nat MAX_OPAQUE_SIZE) ;;
   d <- d_fixed MAX_OPAQUE_SIZE n ;; dret (mkV n d))%dec.

(** the check on a measurement summary hash type — challenge.rs:50-68,
    key_exchange.rs:76-94, psk_exchange.rs:85-103 *)
Definition mhash_type_ok (c : cctx) (t : N) : bool :=
  (t =? 0) ||
  (((t =? 1) || (t =? 0xFF)) && (rsp_has c RSP_MEAS_SIG || rsp_has c RSP_MEAS_NO_SIG)).

(** ** GET_DIGESTS / DIGESTS — message/digest.rs *)
(** spdm_encode / spdm_read of a payload of two zero parameters — digest.rs:14-35 *)
Definition enc_empty : enc := x_u8 0 ++ x_u8 0.
Definition dec_empty : dec unit := (_ <- d_u8 ;; _ <- d_u8 ;; dret tt)%dec.

(** SpdmDigestsResponsePayload — digest.rs:37-41 *)
Record digests_rsp := mkDigests { dg_mask : N; dg_digests : list vbuf }.
(** the popcount loop [for i in 0..8] — digest.rs:55-60, 76-81 *)
Definition popcount8 (m : N) : N :=
  fold_left (fun n i => if N.testbit m i then n + 1 else n) [0;1;2;3;4;5;6;7] 0.
(** spdm_encode — digest.rs:44-67 *)
Definition enc_digests_rsp (c : cctx) (p : digests_rsp) : enc :=
  x_u8 0 ++ x_u8 (dg_mask p) ++
  concat (map (enc_digest c) (firstn (N.to_nat (popcount8 (dg_mask p))) (dg_digests p))).
(** spdm_read — digest.rs:69-91 *)
Definition dec_digests_rsp (c : cctx) : dec digests_rsp :=
  (_ <- d_u8 ;; m <- d_u8 ;;
   ds <- d_table SPDM_MAX_SLOT_NUMBER (v_default SPDM_MAX_HASH_SIZE) (popcount8 m) (dec_digest c) ;;
   dret (mkDigests m ds))%dec.

(** ** GET_CERTIFICATE / CERTIFICATE — message/certificate.rs *)
(** MAX_SPDM_CERT_PORTION_LEN — certificate.rs:10 *)
Definition MAX_CERT_PORTION : nat := 512.
(** SpdmGetCertificateRequestPayload — certificate.rs:12-17 *)
Record get_cert := mkGetCert { gc_slot : N; gc_offset : N; gc_length : N }.
(** certificate.rs:20-57 *)
Definition enc_get_cert (p : get_cert) : enc :=
  x_u8 (gc_slot p) ++ x_u8 0 ++ x_u16 (gc_offset p) ++ x_u16 (gc_length p).
Definition dec_get_cert : dec get_cert :=
  (s <- d_u8 ;; _ <- d_u8 ;; o <- d_u16 ;; l <- d_u16 ;; dret (mkGetCert s o l))%dec.

(** SpdmCertificateResponsePayload — certificate.rs:59-75 *)
Record cert_rsp := mkCertRsp { cr_slot : N; cr_portion : N; cr_remainder : N; cr_data : bytes }.
(** spdm_encode — certificate.rs:78-103 *)
Definition enc_cert_rsp (p : cert_rsp) : enc :=
  x_u8 (cr_slot p) ++ x_u8 0 ++ x_u16 (cr_portion p) ++ x_u16 (cr_remainder p) ++
  x_arr (firstn (N.to_nat (cr_portion p)) (cr_data p)).
(** spdm_read — certificate.rs:105-124 *)
Definition dec_cert_rsp : dec cert_rsp :=
  (s <- d_u8 ;; _ <- d_u8 ;; n <- d_u16 ;; r <- d_u16 ;;
   d <- d_fixed MAX_CERT_PORTION n ;; dret (mkCertRsp s n r d))%dec.

(** ** CHALLENGE / CHALLENGE_AUTH — message/challenge.rs *)
(** SpdmChallengeRequestPayload — challenge.rs:14-19 *)
Record challenge := mkChallenge { ch_slot : N; ch_hash_type : N; ch_nonce : bytes }.
(** spdm_encode — challenge.rs:22-42 *)
Definition enc_challenge (p : challenge) : enc :=
  x_u8 (ch_slot p) ++ x_u8 (ch_hash_type p) ++ enc_nonce (ch_nonce p).
(** spdm_read — challenge.rs:44-76 *)
Definition dec_challenge (c : cctx) : dec challenge :=
  (s <- d_u8 ;; t <- d_u8 ;; guard (mhash_type_ok c t) ;; n <- dec_nonce ;;
   dret (mkChallenge s t n))%dec.

(** SpdmChallengeAuthAttribute — challenge.rs:78-83 *)
Definition CHAL_ATTR_ALL : N := 0x80.
(** SpdmChallengeAuthResponsePayload — challenge.rs:85-95 *)
Record challenge_auth := mkChallengeAuth {
  ca_slot : N; ca_mask : N; ca_attr : N; ca_hash : vbuf; ca_nonce : bytes;
  ca_summary : vbuf; ca_opaque : vbuf; ca_sig : vbuf }.
(** [a + b] on u8 with the debug-profile overflow panic *)
Definition x_add_u8 (a b : N) : enc := if a + b <? 256 then x_u8 (a + b) else [EPanic].
(** spdm_encode — challenge.rs:98-121 *)
Definition enc_challenge_auth (c : cctx) (p : challenge_auth) : enc :=
  x_add_u8 (ca_slot p) (ca_attr p) ++ x_u8 (ca_mask p) ++
  enc_digest c (ca_hash p) ++ enc_nonce (ca_nonce p) ++
  enc_opt (c_need_sum c) (enc_digest c (ca_summary p)) ++
  enc_opaque (ca_opaque p) ++ enc_signature c (ca_sig p).
(** spdm_read — challenge.rs:123-152 *)
Definition dec_challenge_auth (c : cctx) : dec challenge_auth :=
  (p1 <- d_u8 ;;
   attr <- dopt (from_bits CHAL_ATTR_ALL (N.land p1 0xF0)) ;;
   m <- d_u8 ;; h <- dec_digest c ;; n <- dec_nonce ;;
   s <- dec_opt (c_need_sum c) (dec_digest c) (v_default SPDM_MAX_HASH_SIZE) ;;
   o <- dec_opaque ;; sg <- dec_signature c ;;
   dret (mkChallengeAuth (N.land p1 0xF) m attr h n s o sg))%dec.

(** ** DMTF measurement blocks — common/spdm_codec.rs:178-320 *)
(** SpdmDmtfMeasurementStructure — algo.rs:927-933; representation 0 = digest,
    0x80 = raw bit stream (918-925) *)
Record dmtf := mkDmtf { dm_type : N; dm_repr : N; dm_size : N; dm_value : bytes }.
(** spdm_encode — spdm_codec.rs:179-204 *)
Definition enc_dmtf (d : dmtf) : enc :=
  x_add_u8 (dm_type d) (dm_repr d) ++ x_u16 (dm_size d) ++
  x_arr (firstn (N.to_nat (dm_size d)) (dm_value d)).
(** types 5, 6, 7 exist only as raw bit streams — spdm_codec.rs:222-240 *)
Definition dmtf_type_ok (ty repr : N) : bool :=
  negb (((ty =? 5) || (ty =? 6) || (ty =? 7)) && (repr =? 0)).
(** spdm_read — spdm_codec.rs:205-265; get_size is evaluated only for the digest
    representation *)
Definition dec_dmtf (c : cctx) : dec dmtf :=
  (f <- d_u8 ;;
   guard (dmtf_type_ok (N.land f 0x7f) (N.land f 0x80)) ;;
   n <- d_u16 ;; guard (n <=? N.of_nat MAX_MEASUREMENT_VALUE_LEN) ;;
   _ <- (if N.land f 0x80 =? 0 then
           (s <- dsize (mhash_size (n_mhash (c_nego c))) ;;
            guard ((n =? s) && negb (n_mhash (c_nego c) =? MHASH_RAW)) ;; dret tt)%dec
         else dret tt) ;;
   v <- d_fixed MAX_MEASUREMENT_VALUE_LEN n ;;
   dret (mkDmtf (N.land f 0x7f) (N.land f 0x80) n v))%dec.

(** SpdmMeasurementBlockStructure — algo.rs:1005-1011 *)
Record mblock := mkBlock { mb_index : N; mb_spec : N; mb_size : N; mb_meas : dmtf }.
(** spdm_encode — spdm_codec.rs:268-294 *)
Definition enc_mblock (b : mblock) : enc :=
  x_u8 (mb_index b) ++ x_u8 (mb_spec b) ++ x_u16 (mb_size b) ++ enc_dmtf (mb_meas b).
(** spdm_read — spdm_codec.rs:295-319 *)
Definition dec_mblock (c : cctx) : dec mblock :=
  (i <- d_u8 ;; s <- d_flags8 MSPEC_MASK ;; guard (s =? MSPEC_DMTF) ;;
   n <- d_u16 ;; guard (n <=? 3 + N.of_nat MAX_MEASUREMENT_VALUE_LEN) ;;
   m <- dec_dmtf c ;; guard (n =? 3 + dm_size m) ;;
   dret (mkBlock i s n m))%dec.

(** SpdmMeasurementRecordStructure — algo.rs:1055-1061 *)
Record mrecord := mkRecord { mr_blocks : N; mr_length : N; mr_data : bytes }.

(** the loop of verify_measurement_record — spdm_codec.rs:84-98;
    the bytes left for the [any_left] test are the remainder *)
Fixpoint d_blocks (c : cctx) (n : nat) (cur : N) : dec (list mblock) :=
  match n with
  | O => dret []
  | S n' => (b <- dec_mblock c ;; guard (cur <? mb_index b) ;;
             bs <- d_blocks c n' (mb_index b) ;; dret (b :: bs))%dec
  end.
(** verify_measurement_record — spdm_codec.rs:80-102; [None] = panic *)
Definition verify_record (c : cctx) (m : mrecord) : option bool :=
  match d_blocks c (N.to_nat (mr_blocks m)) 0 (firstn (N.to_nat (mr_length m)) (mr_data m)) with
  | POk _ [] => Some true
  | POk _ (_ :: _) => Some false
  | PNone => Some false
  | PPanic => None
  end.

(** spdm_encode — spdm_codec.rs:106-127 *)
Definition enc_mrecord (m : mrecord) : enc :=
  x_u8 (mr_blocks m) ++ x_u24 (mr_length m) ++ x_arr (firstn (N.to_nat (mr_length m)) (mr_data m)).
(** spdm_read — spdm_codec.rs:129-155 *)
Definition dec_mrecord (c : cctx) : dec mrecord :=
  (b <- d_u8 ;; n <- d_u24 ;; guard (n <=? N.of_nat MAX_MEASUREMENT_RECORD_SIZE) ;;
   d <- d_fixed MAX_MEASUREMENT_RECORD_SIZE n ;;
   ok <- dsize (verify_record c (mkRecord b n d)) ;;
   guard ok ;; dret (mkRecord b n d))%dec.

(** ** GET_MEASUREMENTS / MEASUREMENTS — message/measurement.rs *)
(** SpdmMeasurementAttributes — measurement.rs:20-38 *)
Definition MEAS_ATTR_SIG : N := 1.
Definition MEAS_ATTR_ALL : N := 3.
(** SpdmGetMeasurementsRequestPayload — measurement.rs:54-60 *)
Record get_meas := mkGetMeas { gm_attr : N; gm_op : N; gm_nonce : bytes; gm_slot : N }.
(** spdm_encode — measurement.rs:63-95 *)
Definition enc_get_meas (c : cctx) (p : get_meas) : enc :=
  x_u8 (gm_attr p) ++ x_u8 (gm_op p) ++
  enc_opt (contains (gm_attr p) MEAS_ATTR_SIG)
    (enc_nonce (gm_nonce p) ++ enc_opt (ver_ge c V11) (x_u8 (gm_slot p))).
(** spdm_read — measurement.rs:97-124 *)
Definition dec_get_meas (c : cctx) : dec get_meas :=
  (a <- d_flags8_strict MEAS_ATTR_ALL ;; op <- d_u8 ;;
   n <- dec_opt (contains a MEAS_ATTR_SIG) dec_nonce (fill SPDM_NONCE_SIZE 0) ;;
   s <- dec_opt (contains a MEAS_ATTR_SIG && ver_ge c V11) d_u8 0 ;;
   dret (mkGetMeas a op n s))%dec.

(** SpdmMeasurementContentChanged — common/mod.rs:1395-1402 *)
Definition CONTENT_ALL : N := 0x30.
(** SpdmMeasurementsResponsePayload — measurement.rs:126-136 *)
Record meas_rsp := mkMeasRsp {
  ms_number : N; ms_changed : N; ms_slot : N; ms_record : mrecord; ms_nonce : bytes;
  ms_opaque : vbuf; ms_sig : vbuf }.
(** param2 — measurement.rs:154-172 *)
Definition meas_param2 (c : cctx) (p : meas_rsp) : N :=
  if ver_ge c V12 && c_need_sig c then N.lor (ms_slot p) (ms_changed p)
  else if ver_ge c V11 && c_need_sig c then ms_slot p else 0.
(** spdm_encode — measurement.rs:138-183 *)
Definition enc_meas_rsp (c : cctx) (p : meas_rsp) : enc :=
  x_u8 (if ms_number p =? 1 then 0 else ms_number p) ++ x_u8 (meas_param2 c p) ++
  enc_mrecord (ms_record p) ++ enc_nonce (ms_nonce p) ++ enc_opaque (ms_opaque p) ++
  enc_opt (c_need_sig c) (enc_signature c (ms_sig p)).
(** spdm_read — measurement.rs:185-216 *)
Definition dec_meas_rsp (c : cctx) : dec meas_rsp :=
  (n <- d_u8 ;; p2 <- d_u8 ;;
   ch <- dopt (from_bits CONTENT_ALL (N.land p2 0x30)) ;;
   r <- dec_mrecord c ;; nn <- dec_nonce ;; o <- dec_opaque ;;
   s <- dec_opt (c_need_sig c) (dec_signature c) (v_default SPDM_MAX_ASYM_KEY_SIZE) ;;
   dret (mkMeasRsp n ch (N.land p2 0xF) r nn o s))%dec.
