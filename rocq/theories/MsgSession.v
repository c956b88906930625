(** Model of spdmlib/src/message/{key_exchange,finish,psk_exchange,psk_finish,
    heartbeat,key_update,end_session}.rs.  No proofs here. *)
From Verif Require Import Bytes Codec Parse Algo MsgConn MsgAuth.
Local Open Scope N_scope.

(** ** KEY_EXCHANGE — message/key_exchange.rs:20-29 *)
Record key_ex := mkKeyEx {
  kx_hash_type : N; kx_slot : N; kx_session : N; kx_policy : N; kx_random : bytes;
  kx_exchange : vbuf; kx_opaque : vbuf }.
(** spdm_encode — key_exchange.rs:31-69 *)
Definition enc_key_ex (c : cctx) (p : key_ex) : enc :=
  x_u8 (kx_hash_type p) ++ x_u8 (kx_slot p) ++ x_u16 (kx_session p) ++
  (if ver_ge c V12 then x_u8 (kx_policy p) else x_u8 0) ++ x_u8 0 ++
  enc_nonce (kx_random p) ++ enc_exchange (kx_exchange p) ++ enc_opaque (kx_opaque p).
(** spdm_read — key_exchange.rs:71-110 *)
Definition dec_key_ex (c : cctx) : dec key_ex :=
  (t <- d_u8 ;; guard (mhash_type_ok c t) ;;
   s <- d_u8 ;; i <- d_u16 ;; p <- d_u8 ;; _ <- d_u8 ;;
   r <- dec_nonce ;; e <- dec_exchange c ;; o <- dec_opaque ;;
   dret (mkKeyEx t s i p r e o))%dec.

(** SpdmKeyExchangeMutAuthAttributes — key_exchange.rs:112-133 *)
Definition MUT_AUTH_ALL : N := 7.
(** KEY_EXCHANGE_RSP — key_exchange.rs:135-147 *)
Record key_ex_rsp := mkKeyExRsp {
  kr_heartbeat : N; kr_session : N; kr_mut_auth : N; kr_slot : N; kr_random : bytes;
  kr_exchange : vbuf; kr_summary : vbuf; kr_opaque : vbuf; kr_sig : vbuf; kr_verify : vbuf }.
(** in_clear_text — key_exchange.rs:180-188, 229-237, finish.rs:100-108 *)
Definition in_clear (c : cctx) : bool := req_has c REQ_HS_CLEAR && rsp_has c RSP_HS_CLEAR.
(** spdm_encode — key_exchange.rs:149-194 *)
Definition enc_key_ex_rsp (c : cctx) (p : key_ex_rsp) : enc :=
  x_u8 (kr_heartbeat p) ++ x_u8 0 ++ x_u16 (kr_session p) ++ x_u8 (kr_mut_auth p) ++
  x_u8 (kr_slot p) ++ enc_nonce (kr_random p) ++ enc_exchange (kr_exchange p) ++
  enc_opt (c_need_sum c) (enc_digest c (kr_summary p)) ++
  enc_opaque (kr_opaque p) ++ enc_signature c (kr_sig p) ++
  enc_opt (negb (in_clear c)) (enc_digest c (kr_verify p)).
(** the allowed mut_auth values — key_exchange.rs:207-213 *)
Definition mut_auth_ok (m : N) : bool := (m =? 0) || (m =? 1) || (m =? 2) || (m =? 4).
(** spdm_read — key_exchange.rs:196-255 *)
Definition dec_key_ex_rsp (c : cctx) : dec key_ex_rsp :=
  (h <- d_u8 ;; _ <- d_u8 ;; i <- d_u16 ;; m <- d_flags8_strict MUT_AUTH_ALL ;; s <- d_u8 ;;
   guard (mut_auth_ok m) ;;
   r <- dec_nonce ;; e <- dec_exchange c ;;
   sm <- dec_opt (c_need_sum c) (dec_digest c) (v_default SPDM_MAX_HASH_SIZE) ;;
   o <- dec_opaque ;; sg <- dec_signature c ;;
   v <- dec_opt (negb (in_clear c)) (dec_digest c) (v_default SPDM_MAX_HASH_SIZE) ;;
   dret (mkKeyExRsp h i m s r e sm o sg v))%dec.

(** ** FINISH / FINISH_RSP — message/finish.rs *)
(** SpdmFinishRequestAttributes — finish.rs:13-30 *)
Definition FINISH_SIG : N := 1.
(** finish.rs:32-38 *)
Record finish := mkFinish { fi_attr : N; fi_slot : N; fi_sig : vbuf; fi_verify : vbuf }.
(** spdm_encode — finish.rs:40-64 *)
Definition enc_finish (c : cctx) (p : finish) : enc :=
  x_u8 (fi_attr p) ++ x_u8 (fi_slot p) ++
  enc_opt (contains (fi_attr p) FINISH_SIG) (enc_signature c (fi_sig p)) ++
  enc_digest c (fi_verify p).
(** spdm_read — finish.rs:66-84 *)
Definition dec_finish (c : cctx) : dec finish :=
  (a <- d_flags8_strict FINISH_SIG ;; s <- d_u8 ;;
   sg <- dec_opt (contains a FINISH_SIG) (dec_signature c) (v_default SPDM_MAX_ASYM_KEY_SIZE) ;;
   v <- dec_digest c ;; dret (mkFinish a s sg v))%dec.

(** SpdmFinishResponsePayload, its only field verify_data — finish.rs:86-138 *)
Definition enc_finish_rsp (c : cctx) (v : vbuf) : enc :=
  x_u8 0 ++ x_u8 0 ++ enc_opt (in_clear c) (enc_digest c v).
Definition dec_finish_rsp (c : cctx) : dec vbuf :=
  (_ <- d_u8 ;; _ <- d_u8 ;;
   v <- dec_opt (in_clear c) (dec_digest c) (v_default SPDM_MAX_HASH_SIZE) ;; dret v)%dec.

(** ** PSK_EXCHANGE — message/psk_exchange.rs:16-23 *)
Record psk_ex := mkPskEx {
  px_hash_type : N; px_session : N; px_hint : vbuf; px_context : vbuf; px_opaque : vbuf }.
(** spdm_encode — psk_exchange.rs:26-78 *)
Definition enc_psk_ex (p : psk_ex) : enc :=
  x_u8 (px_hash_type p) ++ x_u8 0 ++ x_u16 (px_session p) ++
  x_u16 (v_size (px_hint p)) ++ x_u16 (v_size (px_context p)) ++ x_u16 (v_size (px_opaque p)) ++
  x_arr (v_bytes (px_hint p)) ++ x_arr (v_bytes (px_context p)) ++ x_arr (v_bytes (px_opaque p)).
(** spdm_read — psk_exchange.rs:80-144 *)
Definition dec_psk_ex (c : cctx) : dec psk_ex :=
  (t <- d_u8 ;; guard (mhash_type_ok c t) ;; _ <- d_u8 ;; i <- d_u16 ;;
   nh <- d_u16 ;; guard (nh <=? N.of_nat MAX_PSK_HINT_SIZE) ;;
   nc <- d_u16 ;; guard (nc <=? N.of_nat MAX_PSK_CONTEXT_SIZE) ;;
   no <- d_u16 ;; guard (no <=? N.of_nat MAX_OPAQUE_SIZE) ;;
   h <- d_fixed MAX_PSK_HINT_SIZE nh ;;
   x <- d_fixed MAX_PSK_CONTEXT_SIZE nc ;;
   o <- d_fixed MAX_OPAQUE_SIZE no ;;
   dret (mkPskEx t i (mkV nh h) (mkV nc x) (mkV no o)))%dec.

(** ** PSK_EXCHANGE_RSP — message/psk_exchange.rs:147-155 *)
Record psk_ex_rsp := mkPskExRsp {
  pr_heartbeat : N; pr_session : N; pr_summary : vbuf; pr_context : vbuf; pr_opaque : vbuf;
  pr_verify : vbuf }.
(** psk_without_context — psk_exchange.rs:175-178, 228-231 *)
Definition psk_no_ctx (c : cctx) : bool := rsp_has c RSP_PSK_WITHOUT_CTX.
(** spdm_encode — psk_exchange.rs:158-212 *)
Definition enc_psk_ex_rsp (c : cctx) (p : psk_ex_rsp) : enc :=
  x_u8 (pr_heartbeat p) ++ x_u8 0 ++ x_u16 (pr_session p) ++ x_u16 0 ++
  (if psk_no_ctx c then x_u16 0 else x_u16 (v_size (pr_context p))) ++
  x_u16 (v_size (pr_opaque p)) ++
  enc_opt (c_need_sum c) (enc_digest c (pr_summary p)) ++
  enc_opt (negb (psk_no_ctx c)) (x_arr (v_bytes (pr_context p))) ++
  x_arr (v_bytes (pr_opaque p)) ++ enc_digest c (pr_verify p).
(** spdm_read — psk_exchange.rs:214-272 *)
Definition dec_psk_ex_rsp (c : cctx) : dec psk_ex_rsp :=
  (h <- d_u8 ;; _ <- d_u8 ;; i <- d_u16 ;; _ <- d_u16 ;;
   nc <- d_u16 ;; guard (Bool.eqb (psk_no_ctx c) (nc =? 0)) ;;
   guard (nc <=? N.of_nat MAX_PSK_CONTEXT_SIZE) ;;
   no <- d_u16 ;; guard (no <=? N.of_nat MAX_OPAQUE_SIZE) ;;
   sm <- dec_opt (c_need_sum c) (dec_digest c) (v_default SPDM_MAX_HASH_SIZE) ;;
   x <- d_fixed MAX_PSK_CONTEXT_SIZE nc ;;
   o <- d_fixed MAX_OPAQUE_SIZE no ;;
   v <- dec_digest c ;;
   dret (mkPskExRsp h i sm (mkV nc x) (mkV no o) v))%dec.

(** ** PSK_FINISH (its only field verify_data) — message/psk_finish.rs:11-39.
    PSK_FINISH_RSP — 41-66 — and HEARTBEAT(_ACK), END_SESSION_ACK are [enc_empty]/[dec_empty]
    (heartbeat.rs:10-58, end_session.rs:62-85). *)
Definition enc_psk_finish (c : cctx) (v : vbuf) : enc := x_u8 0 ++ x_u8 0 ++ enc_digest c v.
Definition dec_psk_finish (c : cctx) : dec vbuf :=
  (_ <- d_u8 ;; _ <- d_u8 ;; v <- dec_digest c ;; dret v)%dec.

(** ** KEY_UPDATE / KEY_UPDATE_ACK — message/key_update.rs *)
(** SpdmKeyUpdateOperation — key_update.rs:11-24 *)
Definition KU_SINGLE : N := 1.
Definition KU_ALL : N := 2.
Definition KU_VERIFY : N := 3.
(** payloads — key_update.rs:26-30, 71-75 *)
Record key_update := mkKeyUpdate { ku_op : N; ku_tag : N }.
(** spdm_encode — key_update.rs:32-48, 77-93 *)
Definition enc_key_update (p : key_update) : enc := x_u8 (ku_op p) ++ x_u8 (ku_tag p).
(** spdm_read — key_update.rs:50-68, 95-113 *)
Definition dec_key_update : dec key_update :=
  (o <- d_u8 ;; t <- d_u8 ;;
   guard ((o =? KU_SINGLE) || (o =? KU_ALL) || (o =? KU_VERIFY)) ;; dret (mkKeyUpdate o t))%dec.

(** ** END_SESSION (its only field the attributes) — message/end_session.rs:10-60 *)
Definition END_PRESERVE : N := 1.
Definition enc_end_session (a : N) : enc := x_u8 a ++ x_u8 0.
Definition dec_end_session : dec N :=
  (a <- d_flags8_strict END_PRESERVE ;; _ <- d_u8 ;; dret a)%dec.
