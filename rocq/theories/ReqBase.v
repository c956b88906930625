(** Model of spdmlib/src/requester/{context,handle_error_response_req}.rs: sending and receiving,
    and the treatment of ERROR responses.  No proofs here. *)
From Verif Require Import Bytes Codec Parse Status Algo MsgConn MsgAuth MsgSession MsgOther Message
  Transport Crypto KeySchedule Session Monad CertOps Context RspBase.
Local Open Scope N_scope.

(** [request.spdm_encode(&mut self.common, &mut writer)?] on an empty MAX_SPDM_MSG_SIZE buffer and
    [&send_buffer[..send_used]], e.g. get_version_req.rs:17-19: [send_used] is the count the
    encoder returns, which may differ from the bytes written; slicing beyond the buffer panics *)
Definition req_enc (m : message) : st ctx bytes :=
  (x <-- sget ;;
   r <-- wenc m [] ;;
   _ <-- sfail_if (negb (fst r)) ST_BUFFER_FULL ;;
   let n := xcount (enc_message (xc x) m) in
   _ <-- sassert (n <=? MAX_SPDM_MSG_SIZE) ;;
   sret (firstn (N.to_nat n) (pad_to (N.to_nat MAX_SPDM_MSG_SIZE) (snd r))))%st.

(** [rsp_data_transfer_size_sel != 0 && len > rsp_data_transfer_size_sel] — context.rs:68-72, 84-89 *)
Definition req_too_large (x : ctx) (b : bytes) : bool :=
  negb (n_rsp_dts (x_nego x) =? 0) && (n_rsp_dts (x_nego x) <? len b).
(** send_message — context.rs:67-76 *)
Definition req_send (E : env) (b : bytes) : st ctx unit :=
  (x <-- sget ;;
   _ <-- sfail_if (req_too_large x b) ST_SEND_FAIL ;;
   t <-- sof (tr_encap (e_tr E) BUFFER_SIZE b false) ;;
   io_send E t)%st.
(** send_secured_message — context.rs:78-99 *)
Definition req_send_secured (E : env) (id : N) (b : bytes) (app : bool) : st ctx unit :=
  (x <-- sget ;;
   _ <-- sfail_if (negb app && req_too_large x b) ST_SEND_FAIL ;;
   t <-- encode_secured_message E id b true app ;;
   io_send E t)%st.
(** [2 << rsp_ct_exponent_sel] on a 64-bit usize panics from 64 on — context.rs:108-112, 132-136 *)
Definition req_timeout (crypto_request : bool) : st ctx unit :=
  (x <-- sget ;; sassert (negb crypto_request || (n_rsp_ct (x_nego x) <? 64)))%st.
(** receive_message — context.rs:101-122 *)
Definition req_recv (E : env) (crypto_request : bool) : st ctx bytes :=
  (_ <-- req_timeout crypto_request ;;
   o <-- io_recv E ;;
   t <-- sok ST_RECEIVE_FAIL o ;;
   decap E MAX_SPDM_MSG_SIZE t)%st.
(** receive_secured_message — context.rs:124-148 *)
Definition req_recv_secured (E : env) (id : N) (crypto_request : bool) : st ctx bytes :=
  (_ <-- req_timeout crypto_request ;;
   o <-- io_recv E ;;
   t <-- sok ST_RECEIVE_FAIL o ;;
   decode_secured_message E id MAX_SPDM_MSG_SIZE t)%st.
(** [match session_id { Some => send_secured_message, None => send_message }], e.g. get_digests_req.rs:20-27 *)
Definition req_send_on (E : env) (sid : option N) (b : bytes) : st ctx unit :=
  match sid with Some id => req_send_secured E id b false | None => req_send E b end.
Definition req_recv_on (E : env) (sid : option N) (crypto_request : bool) : st ctx bytes :=
  match sid with Some id => req_recv_secured E id crypto_request | None => req_recv E crypto_request end.

(** spdm_handle_simple_error_response — handle_error_response_req.rs:16-40 *)
Definition simple_error {A} (sid : option N) (code : N) : st ctx A :=
  if code =? ERR_NOT_READY then serr ST_NOT_READY_PEER
  else if code =? ERR_BUSY then serr ST_BUSY_PEER
  else if code =? ERR_RESYNCH then
    (_ <-- match sid with
           | None => sret tt
           | Some id =>
               (x <-- sget ;;
                match get_sess id x with
                | None => serr ST_INVALID_PARAMETER
                | Some _ => smod (mod_sess id (set_s_state SNotStarted))
                end)%st
           end ;;
     serr ST_INVALID_PARAMETER)%st
  else serr ST_ERROR_PEER.
(** spdm_handle_error_response_main — handle_error_response_req.rs:42-87.  It has no Ok return,
    so the callers' [Ok(()) => Err(ERROR_PEER)] is dead code. *)
Definition error_main {A} (sid : option N) (b : bytes) : st ctx A :=
  (x <-- sget ;;
   match read_header b with
   | None => serr ST_INVALID_MSG_FIELD
   | Some (h, r) =>
       if negb (h_version h =? ver x) then serr ST_INVALID_MSG_FIELD
       else if negb (h_code h =? RC_ERROR) then serr ST_INVALID_MSG_FIELD
       else match r with
       | p1 :: _ :: _ =>
           if p1 =? ERR_DECRYPT then
             (_ <-- match sid with
                    | None => sret tt
                    | Some id =>
                        match get_sess id x with
                        | None => serr ST_INVALID_PARAMETER
                        | Some _ => on_sess id (session_teardown id)
                        end
                    end ;;
              serr ST_SESSION_MSG_ERROR)%st
           else simple_error sid p1
       | _ => serr ST_INVALID_MSG_FIELD
       end
   end)%st.

(** the frame of the handle_spdm_X_response functions, e.g. get_digests_req.rs:62-103: header,
    version check, dispatch on the response code.  [k] gets the payload bytes. *)
Definition on_code {A} (code : N) (sid : option N) (b : bytes) (h : header) (r : bytes)
  (k : bytes -> st ctx A) : st ctx A :=
  if h_code h =? code then k r
  else if h_code h =? RC_ERROR then error_main sid b
  else serr ST_ERROR_PEER.
Definition on_response {A} (code : N) (sid : option N) (b : bytes) (k : bytes -> st ctx A) : st ctx A :=
  (x <-- sget ;;
   match read_header b with
   | None => serr ST_INVALID_MSG_FIELD
   | Some (h, r) =>
       if negb (h_version h =? ver x) then serr ST_INVALID_MSG_FIELD else on_code code sid b h r k
   end)%st.
(** the same without the version check — get_version_req.rs:44-116, finish_req.rs:210-311 *)
Definition on_response_any {A} (code : N) (sid : option N) (b : bytes) (k : bytes -> st ctx A) : st ctx A :=
  match read_header b with
  | None => serr ST_INVALID_MSG_FIELD
  | Some (h, r) => on_code code sid b h r k
  end.
(** [if let Some(p) = T::spdm_read(..) { .. } else { Err(INVALID_MSG_FIELD) }], with the bytes read *)
Definition reading {P A} (d : cctx -> dec P) (b r : bytes) (k : P -> bytes -> st ctx A) : st ctx A :=
  (p <-- rd d r ;;
   match p with
   | None => serr ST_INVALID_MSG_FIELD
   | Some (p, rest) => k p (used_of b rest)
   end)%st.
(** the measurement-summary flag — challenge_req.rs:81-90, key_exchange_req.rs:141-150,
    psk_exchange_req.rs:128-137 *)
Definition set_summary (t : N) : st ctx unit := smod (set_x_need_sum ((t =? 1) || (t =? 0xFF))).
