(** Model of spdmlib/src/message/{error,vendor,encapsulated}.rs.  No proofs here. *)
From Verif Require Import Bytes Codec Parse Algo MsgConn MsgAuth.
Local Open Scope N_scope.

(** ** ERROR — message/error.rs *)
(** SpdmErrorCode — error.rs:11-40 *)
Definition ERR_INVALID_REQUEST : N := 0x1.
Definition ERR_BUSY : N := 0x3.
Definition ERR_UNEXPECTED_REQUEST : N := 0x4.
Definition ERR_UNSPECIFIED : N := 0x5.
Definition ERR_DECRYPT : N := 0x6.
Definition ERR_UNSUPPORTED_REQUEST : N := 0x7.
Definition ERR_INVALID_RESPONSE_CODE : N := 0x9.
Definition ERR_SESSION_LIMIT : N := 0xA.
Definition ERR_SESSION_REQUIRED : N := 0xB.
Definition ERR_RESPONSE_TOO_LARGE : N := 0xD.
Definition ERR_VERSION_MISMATCH : N := 0x41.
Definition ERR_NOT_READY : N := 0x42.
Definition ERR_RESYNCH : N := 0x43.
Definition ERR_VENDOR : N := 0xFF.

(** SpdmErrorResponseNotReadyExtData — error.rs:64-70 *)
Record not_ready := mkNotReady { nr_exponent : N; nr_request : N; nr_token : N; nr_rdtm : N }.
(** error.rs:96-138 *)
Definition enc_not_ready (p : not_ready) : enc :=
  x_u8 (nr_exponent p) ++ x_u8 (nr_request p) ++ x_u8 (nr_token p) ++ x_u8 (nr_rdtm p).
Definition dec_not_ready : dec not_ready :=
  (a <- d_u8 ;; b <- d_u8 ;; c <- d_u8 ;; d <- d_u8 ;; dret (mkNotReady a b c d))%dec.

(** SpdmErrorResponseVendorExtData — error.rs:140-180: writes data_size bytes of a
    32-byte array and reports data_size; reads up to 32 bytes, whatever is there *)
Definition enc_vendor_ext (v : vbuf) : enc := x_arr_cnt (v_bytes v) (v_size v).
Definition dec_vendor_ext : dec vbuf :=
  fun l => POk (mkV (len (firstn 32 l)) (pad_to 32 (firstn 32 l))) (skipn 32 l).

(** SpdmErrorResponseExtData — error.rs:182-192 *)
Inductive err_ext := XNone | XNotReady (p : not_ready) | XVendor (v : vbuf).
(** SpdmErrorResponsePayload — error.rs:194-199 *)
Record error_rsp := mkError { er_code : N; er_data : N; er_ext : err_ext }.
(** spdm_encode — error.rs:202-230 *)
Definition enc_error (p : error_rsp) : enc :=
  x_u8 (er_code p) ++ x_u8 (er_data p) ++
  match er_ext p with
  | XNone => []
  | XNotReady q => enc_not_ready q
  | XVendor v => enc_vendor_ext v
  end.
(** spdm_read — error.rs:232-263 *)
Definition dec_error : dec error_rsp :=
  (c <- d_u8 ;; d <- d_u8 ;;
   x <- (if c =? ERR_NOT_READY then (q <- dec_not_ready ;; dret (XNotReady q))%dec
         else if c =? ERR_VENDOR then (v <- dec_vendor_ext ;; dret (XVendor v))%dec
         else dret XNone) ;;
   dret (mkError c d x))%dec.

(** ** VENDOR_DEFINED request and response — message/vendor.rs *)
(** MAX_SPDM_VENDOR_DEFINED_PAYLOAD_SIZE = MAX_SPDM_MSG_SIZE - 7 - 2 — vendor.rs:17 *)
Definition MAX_VENDOR_PAYLOAD : nat := 4087.
(** MAX_SPDM_VENDOR_DEFINED_VENDOR_ID_LEN — vendor.rs:19 *)
Definition MAX_VENDOR_ID : nat := 255.
(** the request and the response payload have the same shape —
    vendor.rs:156-161, 205-210; VendorIDStruct 54-58, payload structs 85-89, 120-124 *)
Record vendor_msg := mkVendor { vd_standard : N; vd_id : vbuf; vd_payload : vbuf }.
(** vendor.rs:59-66 (id), 90-103 / 126-139 (payload), 163-186 / 212-235 (message) *)
Definition enc_vendor (p : vendor_msg) : enc :=
  x_u8 0 ++ x_u8 0 ++ x_u16 (vd_standard p) ++
  x_u8 (v_size (vd_id p)) ++ x_arr (v_bytes (vd_id p)) ++
  x_u16 (v_size (vd_payload p)) ++ x_arr (v_bytes (vd_payload p)).
(** vendor.rs:68-77 (id), 105-117 / 141-153 (payload), 188-203 / 237-252 (message) *)
Definition dec_vendor : dec vendor_msg :=
  (_ <- d_u8 ;; _ <- d_u8 ;; s <- d_u16 ;;
   ni <- d_u8 ;; i <- d_fixed MAX_VENDOR_ID ni ;;
   np <- d_u16 ;; p <- d_fixed MAX_VENDOR_PAYLOAD np ;;
   dret (mkVendor s (mkV ni i) (mkV np p)))%dec.

(** ** encapsulated request family — message/encapsulated.rs.
    GET_ENCAPSULATED_REQUEST (13-37) is [enc_empty]/[dec_empty]. *)
(** ENCAPSULATED_REQUEST and DELIVER_ENCAPSULATED_RESPONSE hold a request id —
    encapsulated.rs:39-68, 70-99 *)
Definition enc_encap_id (id : N) : enc := x_u8 id ++ x_u8 0.
Definition dec_encap_id : dec N := (i <- d_u8 ;; _ <- d_u8 ;; dret i)%dec.
(** ENCAPSULATED_RESPONSE_ACK — encapsulated.rs:101-156 *)
Record encap_ack := mkEncapAck { ek_id : N; ek_type : N; ek_ack_id : N }.
Definition enc_encap_ack (c : cctx) (p : encap_ack) : enc :=
  x_u8 (ek_id p) ++ x_u8 (ek_type p) ++
  enc_opt (ver_ge c V12) (x_u8 (ek_ack_id p) ++ x_u24 0).
Definition dec_encap_ack (c : cctx) : dec encap_ack :=
  (i <- d_u8 ;; t <- d_u8 ;;
   a <- dec_opt (ver_ge c V12) (a <- d_u8 ;; _ <- d_u24 ;; dret a)%dec 0 ;;
   dret (mkEncapAck i t a))%dec.
