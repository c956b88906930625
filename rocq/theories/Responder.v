(** Model of spdmlib/src/responder/context.rs:142-461: dispatch and the responder's main entry
    point process_message.  No proofs here. *)
From Verif Require Import Bytes Codec Parse Status Algo MsgConn MsgAuth MsgSession MsgOther Message
  Opaque Transport Crypto KeySchedule Session Signing Monad CertOps ChainVerify Context RspBase RspConn RspSess RspEncap.
Local Open Scope N_scope.

Definition is_one_of (c : N) (l : list N) : bool := existsb (N.eqb c) l.

(** dispatch_secured_message, session in handshake — context.rs:238-302 *)
Definition dispatch_handshaking (E : env) (id : N) (b : bytes) : st ctx unit :=
  (x <-- sget ;;
   if in_clear (xc x) then serr ST_UNSUPPORTED_CAP
   else
     match read_header b with
     | None => serr ST_UNSUPPORTED_CAP
     | Some (h, _) =>
         let c := h_code h in
         if e_mut_auth E && (c =? RC_GET_ENCAP) then handle_get_encap E id b
         else if e_mut_auth E && (c =? RC_DELIVER_ENCAP) then handle_deliver_encap E id b
         else if c =? RC_FINISH then handle_finish E id b
         else if c =? RC_PSK_FINISH then handle_psk_finish E id b
         else if c =? RC_VENDOR_REQ then handle_vendor E (Some id) b
         else if is_one_of c [RC_GET_VERSION; RC_GET_CAPABILITIES; RC_NEGOTIATE_ALGORITHMS; RC_GET_DIGESTS;
                              RC_GET_CERTIFICATE; RC_CHALLENGE; RC_GET_MEASUREMENTS; RC_KEY_EXCHANGE;
                              RC_PSK_EXCHANGE; RC_HEARTBEAT; RC_KEY_UPDATE; RC_END_SESSION]
         then handle_error_request E ERR_UNEXPECTED_REQUEST (Some id) b
         else if c =? RC_RESPOND_IF_READY then handle_error_request E ERR_UNSUPPORTED_REQUEST (Some id) b
         else serr ST_UNSUPPORTED_CAP
     end)%st.
(** dispatch_secured_message, session established — context.rs:303-337 *)
Definition dispatch_established (E : env) (id : N) (b : bytes) : st ctx unit :=
  match read_header b with
  | None => serr ST_UNSUPPORTED_CAP
  | Some (h, _) =>
      let c := h_code h in
      if c =? RC_GET_DIGESTS then handle_digest E (Some id) b
      else if c =? RC_GET_CERTIFICATE then handle_certificate E (Some id) b
      else if c =? RC_GET_MEASUREMENTS then handle_measurement E (Some id) b
      else if c =? RC_HEARTBEAT then handle_heartbeat E id b
      else if c =? RC_KEY_UPDATE then handle_key_update E id b
      else if c =? RC_END_SESSION then handle_end_session E id b
      else if c =? RC_VENDOR_REQ then handle_vendor E (Some id) b
      else if is_one_of c [RC_GET_VERSION; RC_GET_CAPABILITIES; RC_NEGOTIATE_ALGORITHMS; RC_CHALLENGE;
                           RC_KEY_EXCHANGE; RC_PSK_EXCHANGE; RC_FINISH; RC_PSK_FINISH]
      then handle_error_request E ERR_UNEXPECTED_REQUEST (Some id) b
      else if c =? RC_RESPOND_IF_READY then handle_error_request E ERR_UNSUPPORTED_REQUEST (Some id) b
      else serr ST_UNSUPPORTED_CAP
  end.
(** dispatch_secured_message — context.rs:227-341 *)
Definition dispatch_secured (E : env) (id : N) (b : bytes) : st ctx unit :=
  (x <-- sget ;;
   match get_sess id x with
   | None => serr ST_UNSUPPORTED_CAP
   | Some s =>
       match s_state s with
       | SHandshaking => dispatch_handshaking E id b
       | SEstablished => dispatch_established E id b
       | _ => serr ST_UNSUPPORTED_CAP
       end
   end)%st.
(** dispatch_secured_app_message — context.rs:343-355.  The callback is given the context; the
    model assumes it leaves the context alone and returns its reply. *)
Definition dispatch_app (E : env) (id : N) (b : bytes) : st ctx unit :=
  match e_app E id b with
  | Ok reply =>
      (_ <-- sassert (len reply <=? MAX_SPDM_MSG_SIZE) ;; send_secured_message E id reply true)%st
  | _ => spanic
  end.
(** the plain FINISH branch — context.rs:394-424 *)
Definition dispatch_plain_finish (E : env) (b : bytes) : st ctx unit :=
  (x <-- sget ;;
   match (if in_clear (xc x) then x_last x else None) with
   | Some id =>
       match get_sess id x with
       | Some s => match s_state s with
                   | SHandshaking => handle_finish E id b
                   | _ => handle_error_request E ERR_UNEXPECTED_REQUEST None b
                   end
       | None => handle_error_request E ERR_UNEXPECTED_REQUEST None b
       end
   | None => handle_error_request E ERR_UNEXPECTED_REQUEST None b
   end)%st.
(** dispatch_message — context.rs:356-461 *)
Definition dispatch_message (E : env) (b : bytes) : st ctx unit :=
  match read_header b with
  | None => serr ST_UNSUPPORTED_CAP
  | Some (h, _) =>
      let c := h_code h in
      if c =? RC_GET_VERSION then handle_version E b
      else if c =? RC_GET_CAPABILITIES then handle_capability E b
      else if c =? RC_NEGOTIATE_ALGORITHMS then handle_algorithm E b
      else if c =? RC_GET_DIGESTS then handle_digest E None b
      else if c =? RC_GET_CERTIFICATE then handle_certificate E None b
      else if c =? RC_CHALLENGE then handle_challenge E b
      else if c =? RC_GET_MEASUREMENTS then handle_measurement E None b
      else if c =? RC_KEY_EXCHANGE then handle_key_exchange E b
      else if c =? RC_PSK_EXCHANGE then handle_psk_exchange E b
      else if c =? RC_VENDOR_REQ then handle_vendor E None b
      else if c =? RC_FINISH then dispatch_plain_finish E b
      else if is_one_of c [RC_PSK_FINISH; RC_HEARTBEAT; RC_KEY_UPDATE; RC_END_SESSION]
      then handle_error_request E ERR_UNEXPECTED_REQUEST None b
      else if c =? RC_RESPOND_IF_READY then handle_error_request E ERR_UNSUPPORTED_REQUEST None b
      else serr ST_UNSUPPORTED_CAP
  end.

(** [self.dispatch_X(...).is_ok()] *)
Definition is_ok (m : st ctx unit) : st ctx (option bool) :=
  scatch m (fun r => sret (Some (match r with Ok _ => true | _ => false end))).
(** u32::read at the start of a secured message *)
Definition read_session_id (b : bytes) : option N :=
  if len b <? 4 then None else Some (le_val (firstn 4 b)).
(** the secured half of process_message — context.rs:149-190 *)
Definition process_secured (E : env) (b : bytes) : st ctx (option bool) :=
  match read_session_id b with
  | None => sret None
  | Some id =>
      (x <-- sget ;;
       match get_sess id x with
       | None => sret None
       | Some _ =>
           scatch (on_sess id (decode_secured (e_cr E) true b BUFFER_SIZE)) (fun r =>
             match r with
             | Ok app =>
                 match tr_decap_app (e_tr E) MAX_SPDM_MSG_SIZE app with
                 | Panic => spanic
                 | Err _ => sret None
                 | Ok (m, true) => is_ok (dispatch_app E id m)
                 | Ok (m, false) => is_ok (dispatch_secured E id m)
                 end
             | _ => sret None
             end)
       end)%st
  end.
(** process_message on a received frame — context.rs:142-225.  [None]: the raw frame is handed
    back to the caller ([Err]); [Some ok]: the message was dispatched. *)
Definition process_frame (E : env) (f : bytes) : st ctx (option bool) :=
  match tr_decap (e_tr E) BUFFER_SIZE f with
  | Panic => spanic
  | Err _ => sret None
  | Ok (b, true) => process_secured E b
  | Ok (b, false) => is_ok (dispatch_message E b)
  end.
Definition process_message (E : env) : st ctx (option bool) :=
  (f <-- io_recv E ;;
   match f with
   | None => sret None
   | Some f => process_frame E f
   end)%st.
