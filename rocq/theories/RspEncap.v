(** Model of spdmlib/src/responder/{encap_rsp,encap_get_digest,encap_get_certificate}.rs, the
    mutual-authentication part of the responder (feature "mut-auth").  No proofs here. *)
From Verif Require Import Bytes Codec Parse Status Algo MsgConn MsgAuth MsgSession MsgOther Message
  Opaque Transport Crypto KeySchedule Session Signing Monad CertOps ChainVerify Context RspBase RspConn RspSess.
Local Open Scope N_scope.

(** [x.encode(writer)] of something that is not a whole message *)
Definition wput (e : enc) (w : bytes) : st ctx (bool * bytes) :=
  fun x => match emit e w with Some r => (Ok r, x) | None => (Panic, x) end.

(** encap_check_version_cap_state — encap_rsp.rs:126-156.  The error it writes stays in front of
    the reply the caller goes on to write. *)
Definition encap_check (E : env) (w : bytes) : st ctx bytes :=
  (x <-- sget ;;
   swhen (ver x <? 0x11)
     (e <-- write_err_data ERR_UNSUPPORTED_REQUEST RC_GET_ENCAP [] ;;
      scatch (send_message E e) (fun _ => sret tt)) ;;;
   y <-- sget ;;
   if negb (contains (n_req_cap (x_nego y)) REQ_ENCAP) || negb (contains (n_rsp_cap (x_nego y)) RSP_ENCAP)
   then write_err_data ERR_UNSUPPORTED_REQUEST RC_GET_ENCAP w
   else if x_conn y <? CONN_AFTER_CERTIFICATE then write_err ERR_UNEXPECTED_REQUEST w
   else sret w)%st.
(** the header check — encap_rsp.rs:40-49, 95-104 *)
Definition encap_version (b w : bytes) (k : bytes -> st ctx bytes) : st ctx bytes :=
  (x <-- sget ;;
   match read_header b with
   | None => write_err ERR_INVALID_REQUEST w
   | Some (h, r) => if negb (h_version h =? ver x) then write_err ERR_VERSION_MISMATCH w else k r
   end)%st.

(** write_encap_request_response — encap_rsp.rs:39-74; encode_encap_request_get_digest —
    encap_get_digest.rs:14-26 *)
Definition write_encap_request (b w : bytes) : st ctx bytes :=
  encap_version b w (fun _ =>
    (x <-- sget ;;
     r <-- wenc (mkMsg (mkHeader (ver x) RC_ENCAP_REQUEST) (PEncapReq (x_encap_id x))) w ;;
     if negb (fst r) then write_err ERR_UNSPECIFIED (snd r)
     else (q <-- wenc (mkMsg (mkHeader (ver x) RC_GET_DIGESTS) PGetDigests) (snd r) ;;
           if fst q then sret (snd q) else write_err ERR_INVALID_RESPONSE_CODE (snd q)))%st).
(** handle_get_encapsulated_request — encap_rsp.rs:25-37 *)
Definition handle_get_encap (E : env) (id : N) (b : bytes) : st ctx unit :=
  (w <-- encap_check E [] ;;
   w' <-- write_encap_request b w ;;
   send_secured_message E id w' false)%st.

(** encode_encap_requst_get_certificate — encap_get_certificate.rs:26-57.  The first component of
    the result is [true] when the encoding succeeded. *)
Definition encap_get_cert (w : bytes) : st ctx (bool * bytes) :=
  (smod (fun x => match x_peer_temp x with None => set_x_peer_temp (Some []) x | Some _ => x end) ;;;
   x <-- sget ;;
   t <-- sunwrap (x_peer_temp x) ;;
   wenc (mkMsg (mkHeader (ver x) RC_GET_CERTIFICATE)
           (PGetCert (mkGetCert (x_encap_slot x) (len t) (N.of_nat MAX_CERT_PORTION)))) w)%st.

(** the size checks of handle_encap_response_certificate — encap_get_certificate.rs:84-123 *)
Definition portion_ok (x : ctx) (offset : N) (p : cert_rsp) : bool :=
  (cr_portion p <=? N.of_nat MAX_CERT_PORTION) && (cr_portion p <=? 4096 - offset)
  && (cr_remainder p <? 4096 - offset - cr_portion p)
  && (cr_slot p =? x_encap_slot x).
(** handle_encap_response_certificate for a CERTIFICATE message — encap_get_certificate.rs:59-163.
    [r] is what follows the header.  (The ERROR branch of lines 136-141 cannot be reached: the only
    caller dispatches on the response code being CERTIFICATE.)  [Ok true]: more portions follow. *)
Definition encap_certificate (E : env) (r : bytes) : st ctx bool :=
  (q <-- rd (fun _ => dec_cert_rsp) r ;;
   match q with
   | None => serr ST_INVALID_MSG_FIELD
   | Some (p, _) =>
       (x <-- sget ;;
        t <-- sok ST_INVALID_STATE_LOCAL (x_peer_temp x) ;;
        let offset := len t in
        _ <-- sassert (offset <=? 4096) ;;
        _ <-- sfail_if (negb (portion_ok x offset p)) ST_INVALID_MSG_FIELD ;;
        swhen (offset =? 0) (smod (set_x_encap_size (cr_portion p + cr_remainder p))) ;;;
        y <-- sget ;;
        _ <-- sfail_if (negb (x_encap_size y =? 0) &&
                        negb (x_encap_size y =? offset + cr_portion p + cr_remainder p)) ST_INVALID_MSG_FIELD ;;
        let t' := t ++ firstn (N.to_nat (cr_portion p)) (cr_data p) in
        smod (set_x_peer_temp (Some t')) ;;;
        if x_encap_size y =? 0 then (smod (set_x_peer_temp None) ;;; serr ST_INVALID_CERT)
        else if negb (cr_remainder p =? 0) then sret true
        else
          scatch (sof (verify_chain (e_cr E) (n_hash (x_nego y)) (x_peer_root y) t')) (fun v =>
            match v with
            | Ok _ =>
                (_ <-- sassert (x_encap_slot y <? N.of_nat SPDM_MAX_SLOT_NUMBER) ;;
                 smod (fun x => set_x_peer_chain (set_slot (N.to_nat (x_encap_slot x)) (Some t') (x_peer_chain x)) x) ;;;
                 smod (set_x_pslot (x_encap_slot y)) ;;;
                 smod (set_x_peer_temp None) ;;; sret false)
            | Err e => (smod (set_x_peer_temp None) ;;; serr e)
            | Panic => spanic
            end))%st
   end)%st.

(** the reply of process_encapsulated_response: [Ok] or [Err], and the writer either way *)
Definition encap_fail (w : bytes) : st ctx (bool * bytes) := sret (false, w).
(** process_encapsulated_response — encap_rsp.rs:158-226; handle_encap_response_digest —
    encap_get_digest.rs:28-55.  (The NOT_READY_PEER branch of encap_rsp.rs:213-217 needs the ERROR
    branch above and cannot be reached either.)  [(true, w)] is Ok, [(false, w)] is Err with [w] written so far. *)
Definition process_encap (E : env) (ack : N) (b w : bytes) : st ctx (bool * bytes) :=
  (x <-- sget ;;
   match read_header b with
   | None => encap_fail w
   | Some (h, r) =>
       if negb (h_version h =? ver x) then encap_fail w
       else
         (hd <-- wput (enc_header (mkHeader (ver x) RC_ENCAP_RESPONSE_ACK)) w ;;
          let w := snd hd in
          let put_ack t w := (x <-- sget ;; wput (enc_encap_ack (xc x) (mkEncapAck (x_encap_id x) t ack)) w)%st in
          if h_code h =? RC_DIGESTS then
            (d <-- rd dec_digests_rsp r ;;
             match d with
             | None => encap_fail w
             | Some _ => (a <-- put_ack 1 w ;; encap_get_cert (snd a))%st
             end)
          else if h_code h =? RC_CERTIFICATE then
            scatch (encap_certificate E r) (fun v =>
              match v with
              | Ok true =>
                  (a <-- put_ack 1 w ;; if fst a then encap_get_cert (snd a) else encap_fail (snd a))%st
              | Ok false =>
                  (a <-- put_ack 2 w ;;
                   if fst a then (x <-- sget ;; wput (x_u8 (x_encap_slot x)) (snd a)) else encap_fail (snd a))%st
              | Err _ => encap_fail w
              | Panic => spanic
              end)
          else encap_fail w)%st
   end)%st.
(** write_encap_response_ack_response — encap_rsp.rs:94-124 *)
Definition write_encap_ack (E : env) (b w : bytes) : st ctx bytes :=
  encap_version b w (fun r =>
    (q <-- rd (fun _ => dec_encap_id) r ;;
     match q with
     | None => write_err ERR_INVALID_REQUEST w
     | Some (ack, rest) =>
         (v <-- process_encap E ack rest w ;;
          if fst v then sret (snd v) else write_err ERR_INVALID_RESPONSE_CODE (snd v))%st
     end)%st).
(** handle_deliver_encapsulated_reponse — encap_rsp.rs:76-92 *)
Definition handle_deliver_encap (E : env) (id : N) (b : bytes) : st ctx unit :=
  (w <-- encap_check E [] ;;
   w' <-- write_encap_ack E b w ;;
   send_secured_message E id w' false)%st.
