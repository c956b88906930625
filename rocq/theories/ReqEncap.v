(** Model of the requester built with the "mut-auth" feature: spdmlib/src/requester/{encap_req,
    encap_digest,encap_certificate,encap_error,mutual_authenticate}.rs, the part of
    key_exchange_req.rs the feature adds, and start_session of that build.  No proofs here. *)
From Verif Require Import Bytes Codec Parse Status Algo MsgConn MsgAuth MsgSession MsgOther Message
  Opaque Transport Crypto KeySchedule Session Signing Monad CertOps Context RspBase RspConn RspSess
  ChainVerify ReqBase ReqConn ReqSess.
Local Open Scope N_scope.

(** encode_encap_error_response — encap_error.rs:19-39: the message of responder/error_rsp.rs with
    error_data 0, appended to what the writer holds *)
Definition encap_error (code : N) (w : bytes) : st ctx bytes := write_err code w.
(** the checks both handlers start with — encap_digest.rs:26-71, encap_certificate.rs:21-66: the
    capability, then the version of the encapsulated header *)
Definition encap_checked (req w : bytes) (k : bytes -> st ctx bytes) : st ctx bytes :=
  (x <-- sget ;;
   if negb (contains (n_req_cap (x_nego x)) REQ_CERT) then encap_error ERR_UNSUPPORTED_REQUEST w
   else match read_header req with
        | None => encap_error ERR_INVALID_REQUEST w
        | Some (h, r) => if negb (h_version h =? ver x) then encap_error ERR_VERSION_MISMATCH w else k r
        end)%st.
(** encap_handle_get_digest — encap_digest.rs:26-128.  The message and the patch loop are those of
    digest_rsp.rs; here the loop works on the end of the whole DELIVER_ENCAPSULATED_RESPONSE. *)
Definition serve_digests (E : env) (req w : bytes) : st ctx bytes :=
  encap_checked req w (fun r =>
    (p <-- rd (fun _ => dec_empty) r ;;
     match p with
     | None => encap_error ERR_INVALID_REQUEST w
     | Some _ =>
         (x <-- sget ;;
          size <-- sunwrap (hash_size (n_hash (x_nego x))) ;;
          e <-- wenc (digests_msg (ver x) (mask_from 0 (x_my_chain x)) size) w ;;
          if negb (fst e) then encap_error ERR_UNSPECIFIED (snd e)
          else sof (patch_digests (e_cr E) (n_hash (x_nego x)) (x_my_chain x) (snd e)))%st
     end)%st).
(** encap_handle_get_certificate — encap_certificate.rs:20-141.  The portion is computed as in
    certificate_rsp.rs ([cert_msg]); a failing encoder is ignored (line 138). *)
Definition serve_certificate (E : env) (req w : bytes) : st ctx bytes :=
  encap_checked req w (fun r =>
    (p <-- rd (fun _ => dec_get_cert) r ;;
     match p with
     | None => encap_error ERR_INVALID_REQUEST w
     | Some (p, _) =>
         if negb (gc_slot p =? 0) then encap_error ERR_INVALID_REQUEST w
         else
           (x <-- sget ;;
            match slot_of (x_my_chain x) (gc_slot p) with
            | None => encap_error ERR_INVALID_REQUEST w
            | Some chain =>
                if len chain <? gc_offset p then encap_error ERR_INVALID_REQUEST w
                else (e <-- wenc (cert_msg (ver x) (gc_slot p) chain (gc_offset p) (gc_length p)) w ;; sret (snd e))%st
            end)%st
     end)%st).
(** process_encapsulated_request — encap_req.rs:175-216 *)
Definition process_encap_request (E : env) (id rid : N) (req : bytes) : st ctx unit :=
  (x <-- sget ;;
   d <-- wenc (mkMsg (mkHeader (ver x) RC_DELIVER_ENCAP) (PDeliverEncap rid)) [] ;;
   _ <-- sfail_if (negb (fst d)) ST_BUFFER_FULL ;;
   match read_header req with
   | None => serr ST_INVALID_MSG_FIELD
   | Some (h, _) =>
       (w <-- (if h_code h =? RC_GET_DIGESTS then serve_digests E req (snd d)
               else if h_code h =? RC_GET_CERTIFICATE then serve_certificate E req (snd d)
               else encap_error ERR_UNEXPECTED_REQUEST (snd d)) ;;
        req_send_secured E id w false)%st
   end)%st.

(** the zero-initialised MAX_SPDM_MSG_SIZE buffer a message is received into; the handlers below
    read the buffer, not just the message in it — encap_req.rs:95-97, 119-121 *)
Definition recv_buffer (b : bytes) : bytes := pad_to (N.to_nat MAX_SPDM_MSG_SIZE) b.
(** the header check — encap_req.rs:99-106, 123-130 *)
Definition encap_expect {A} (code : N) (b : bytes) (k : bytes -> st ctx A) : st ctx A :=
  (x <-- sget ;;
   match read_header b with
   | None => serr ST_INVALID_MSG_SIZE
   | Some (h, r) => if negb ((h_version h =? ver x) && (h_code h =? code)) then serr ST_INVALID_MSG_FIELD else k r
   end)%st.
(** send_get_encapsulated_request — encap_req.rs:79-92 *)
Definition send_get_encap (E : env) (id : N) : st ctx unit :=
  (x <-- sget ;;
   w <-- req_enc (mkMsg (mkHeader (ver x) RC_GET_ENCAP) PGetEncap) ;;
   req_send_secured E id w false)%st.
(** receive_encapsulated_request — encap_req.rs:94-116 *)
Definition recv_encap_request (E : env) (id : N) : st ctx unit :=
  (b <-- req_recv_secured E id false ;;
   encap_expect RC_ENCAP_REQUEST (recv_buffer b) (fun r =>
     (q <-- rd (fun _ => dec_encap_id) r ;;
      match q with
      | None => serr ST_INVALID_MSG_SIZE
      | Some (rid, rest) => process_encap_request E id rid rest
      end)%st))%st.
(** receive_encapsulated_response_ack — encap_req.rs:118-173; ENCAPSULATED_RESPONSE_ACK_HEADER_SIZE is
    8 — message/encapsulated.rs:11 *)
Definition recv_encap_ack (E : env) (id : N) : st ctx bool :=
  (b <-- req_recv_secured E id false ;;
   encap_expect RC_ENCAP_RESPONSE_ACK (recv_buffer b) (fun r =>
     (q <-- rd dec_encap_ack r ;;
      match q with
      | None => serr ST_INVALID_MSG_SIZE
      | Some (a, rest) =>
          if ek_type a =? 0 then (if len b =? 8 then sret false else serr ST_INVALID_MSG_SIZE)
          else if ek_type a =? 2 then
            (if len b =? 9 then
               (s <-- rd (fun _ => d_u8) rest ;;
                match s with
                | None => serr ST_INVALID_MSG_SIZE
                | Some (slot, _) =>
                    if 8 <=? slot then serr ST_INVALID_MSG_FIELD
                    else (smod (set_x_lslot slot) ;;; sret false)%st
                end)%st
             else serr ST_INVALID_MSG_SIZE)
          else (process_encap_request E id (ek_id a) rest ;;; sret true)%st
      end)%st))%st.
(** [while self.receive_encapsulated_response_ack(session_id)? {}] — encap_req.rs:75.  It need not end;
    [None] when it is still running after [fuel] rounds. *)
Fixpoint encap_loop (E : env) (id : N) (fuel : nat) : st ctx (option unit) :=
  match fuel with
  | O => sret None
  | S f => (more <-- recv_encap_ack E id ;; if more then encap_loop E id f else sret (Some tt))%st
  end.
(** get_encapsulated_request_response — encap_req.rs:29-77 *)
Definition encap_exchange (E : env) (id mut : N) (fuel : nat) : st ctx (option unit) :=
  (x <-- sget ;;
   _ <-- sfail_if (ver x <? 0x11) ST_UNSUPPORTED_CAP ;;
   _ <-- sfail_if (negb (contains (n_req_cap (x_nego x)) REQ_ENCAP) || negb (contains (n_rsp_cap (x_nego x)) RSP_ENCAP)) ST_UNSUPPORTED_CAP ;;
   (if mut =? 4 then
      (* the 4-byte buffer holds exactly the message, encap_req.rs:57-70 *)
      (w <-- req_enc (mkMsg (mkHeader (ver x) RC_GET_DIGESTS) PGetDigests) ;;
       process_encap_request E id 0 (pad_to 4 w))%st
    else (send_get_encap E id ;;; recv_encap_request E id)%st) ;;;
   encap_loop E id fuel)%st.
(** session_based_mutual_authenticate — mutual_authenticate.rs:13-31 *)
Definition mutual_authenticate (E : env) (id : N) (fuel : nat) : st ctx (option unit) :=
  (construct_my_cert_chain (e_cr E) ;;;
   x <-- sget ;;
   s <-- sok ST_INVALID_STATE_LOCAL (get_sess id x) ;;
   if s_mut_auth s =? 1 then sret (Some tt)
   else if (s_mut_auth s =? 2) || (s_mut_auth s =? 4) then encap_exchange E id (s_mut_auth s) fuel
   else serr ST_INVALID_MSG_FIELD)%st.

(** ** KEY_EXCHANGE of this build *)
(** what the feature adds to the handling of the answer — key_exchange_req.rs:225-249 *)
Definition take_mut_auth (p : key_ex_rsp) : st ctx unit :=
  if kr_mut_auth p =? 0 then sret tt
  else
    (x <-- sget ;;
     _ <-- sfail_if (negb (contains (n_req_cap (x_nego x)) REQ_MUT_AUTH) || negb (contains (n_rsp_cap (x_nego x)) RSP_MUT_AUTH)) ST_INVALID_MSG_FIELD ;;
     _ <-- sfail_if ((kr_mut_auth p =? 2) && (8 <=? kr_slot p)) ST_INVALID_MSG_FIELD ;;
     smod (set_x_lslot (N.land (kr_slot p) 0xF)))%st.
(** handle_spdm_key_exhcange_response — key_exchange_req.rs:133-416 *)
Definition handle_key_exchange_rsp_mut (E : env) (req slot t key : N) (s b : bytes) : st ctx N :=
  (set_summary t ;;;
   on_response RC_KEY_EXCHANGE_RSP None b (fun r =>
     reading dec_key_ex_rsp b r (fun p used =>
       (x <-- sget ;;
        final <-- sok ST_CRYPTO_ERROR (cr_dhe_final (e_cr E) (n_dhe (x_nego x)) key (v_bytes (kr_exchange p))) ;;
        chash <-- sok ST_INVALID_MSG_FIELD
                   (certchain_hash (e_cr E) (n_hash (x_nego x)) false (slot_of (x_peer_chain x) slot)) ;;
        take_mut_auth p ;;;
        let id := session_id (kr_session p) req in
        req_open_session E id p final chash ;;;
        finish_key_exchange E slot id s used p ;;;
        sret id)%st)))%st.
(** send_receive_spdm_key_exchange — key_exchange_req.rs:29-65 *)
Definition key_exchange_req_mut (E : env) (slot t : N) : st ctx N :=
  (_ <-- sfail_if (8 <=? slot) ST_INVALID_PARAMETER ;;
   x <-- sget ;;
   req <-- sof (get_next_half_session_id true x) ;;
   smod (reset_buffer RC_KEY_EXCHANGE None) ;;;
   ks <-- encode_key_exchange E req slot t ;;
   req_send E (snd ks) ;;;
   b <-- req_recv E false ;;
   handle_key_exchange_rsp_mut E req slot t (fst ks) (snd ks) b)%st.
(** start_session — context.rs:38-61; [None] when the encapsulated exchange is still running after
    [fuel] rounds *)
Definition start_session_mut (E : env) (use_psk : bool) (slot t : N) (fuel : nat) : st ctx (option N) :=
  if use_psk then
    (id <-- psk_exchange_req E t (v_default MAX_PSK_HINT_SIZE) ;; psk_finish_req E id ;;; sret (Some id))%st
  else
    (id <-- key_exchange_req_mut E slot t ;;
     m <-- mutual_authenticate E id fuel ;;
     match m with
     | None => sret None
     | Some _ => (x <-- sget ;; finish_req E (Some (x_lslot x)) id ;;; sret (Some id))%st
     end)%st.
