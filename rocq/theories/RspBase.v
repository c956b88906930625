(** Model of spdmlib/src/responder/{error_rsp,context}.rs: error replies and the two send
    functions.  No proofs here. *)
From Verif Require Import Bytes Codec Parse Status Algo MsgConn MsgAuth MsgSession MsgOther Message
  Transport Crypto KeySchedule Session Monad CertOps Context.
Local Open Scope N_scope.

(** [if m.is_err() { early; return }]: go on with the value, or take the early exit in the state
    [m] left behind *)
Definition tryelse {S A B} (m : st S A) (early : st S B) (k : A -> st S B) : st S B :=
  scatch m (fun r => match r with Ok a => k a | Err _ => early | Panic => spanic end).
Notation "x <-! m 'orelse' e ;; k" := (tryelse m e%st (fun x => k%st))
  (at level 61, m at next level, e at next level, right associativity) : st_scope.
Notation "'ensure' c 'orelse' e ;; k" := (if c then k%st else e%st)
  (at level 61, c at next level, e at next level, right associativity) : st_scope.

(** write_spdm_error — responder/error_rsp.rs:11-32.  [w] is what the writer already holds; the
    result of the encoding is ignored, so a partial encoding stays in the writer. *)
Definition error_msg (v code data : N) : message :=
  mkMsg (mkHeader v RC_ERROR) (PError (mkError code data XNone)).
Definition write_err_data (code data : N) (w : bytes) : st ctx bytes :=
  (x <-- sget ;; r <-- wenc (error_msg (ver x) code data) w ;; sret (snd r))%st.
Definition write_err (code : N) (w : bytes) : st ctx bytes := write_err_data code 0 w.
(** SpdmMessageHeader::read at the start of a request *)
Definition read_header (b : bytes) : option (header * bytes) :=
  match dec_header b with POk h r => Some (h, r) | _ => None end.

(** write_error_response — responder/error_rsp.rs:60-84 *)
Definition write_error_response (code : N) (b : bytes) : st ctx bytes :=
  (x <-- sget ;;
   match read_header b with
   | None => write_err ERR_INVALID_REQUEST []
   | Some (h, _) =>
       if negb (h_version h =? ver x) then write_err ERR_VERSION_MISMATCH []
       else write_err_data code (if code =? ERR_UNSUPPORTED_REQUEST then h_code h else 0) []
   end)%st.

(** the version check every handler but GET_VERSION and GET_CAPABILITIES starts with, e.g.
    digest_rsp.rs:42-52 *)
Definition with_version (b : bytes) (k : bytes -> st ctx bytes) : st ctx bytes :=
  (x <-- sget ;;
   match read_header b with
   | None => write_err ERR_INVALID_REQUEST []
   | Some (h, r) => if negb (h_version h =? ver x) then write_err ERR_VERSION_MISMATCH [] else k r
   end)%st.
(** the same check in the handlers returning a result, e.g. finish_rsp.rs:50-60; the error
    message written there is discarded by handle_spdm_finish *)
Definition with_version_r (b : bytes) (k : bytes -> st ctx bytes) : st ctx bytes :=
  (x <-- sget ;;
   match read_header b with
   | None => serr ST_INVALID_MSG_FIELD
   | Some (h, r) => if negb (h_version h =? ver x) then serr ST_INVALID_MSG_FIELD else k r
   end)%st.

(** [response.spdm_encode(&mut self.common, writer)] on an empty writer, Unspecified on failure,
    e.g. digest_rsp.rs:110-114 *)
Definition encode_or_err (m : message) (k : bytes -> st ctx bytes) : st ctx bytes :=
  (r <-- wenc m [] ;;
   if fst r then k (snd r) else write_err ERR_UNSPECIFIED (snd r))%st.
(** the same where a failure is returned instead *)
Definition encode_r (m : message) (k : bytes -> st ctx bytes) : st ctx bytes :=
  (r <-- wenc m [] ;;
   if fst r then k (snd r) else serr ST_INVALID_STATE_LOCAL)%st.

(** ** sending *)
(** [req_data_transfer_size_sel != 0 && len > req_data_transfer_size_sel] — context.rs:36-38, 105-107 *)
Definition too_large (x : ctx) (b : bytes) : bool :=
  negb (n_req_dts (x_nego x) =? 0) && (n_req_dts (x_nego x) <? len b).
(** [send_buffer[1]] *)
Definition opcode (b : bytes) : option N := nth_error b 1.

(** what a successful plain send does to the connection — context.rs:46-91 *)
Definition after_send (op : N) : st ctx unit :=
  if op =? RC_VERSION then smod (set_x_conn CONN_AFTER_VERSION)
  else if op =? RC_CAPABILITIES then smod (set_x_conn CONN_AFTER_CAPABILITIES)
  else if op =? RC_ALGORITHMS then smod (set_x_conn CONN_NEGOTIATED)
  else if op =? RC_DIGESTS then
    smod (fun x => if x_conn x <? CONN_AFTER_DIGEST then set_x_conn CONN_AFTER_DIGEST x else x)
  else if op =? RC_CERTIFICATE then
    smod (fun x => if x_conn x <? CONN_AFTER_CERTIFICATE then set_x_conn CONN_AFTER_CERTIFICATE x else x)
  else if op =? RC_CHALLENGE_AUTH then smod (set_x_conn CONN_AUTHENTICATED)
  else if op =? RC_FINISH_RSP then
    (x <-- sget ;;
     id <-- sunwrap (x_last x) ;;
     on_sess id (smod (set_s_state SEstablished)) ;;;
     smod (set_x_last None))%st
  else sret tt.
(** send_message below the size check — context.rs:43-94 *)
Definition send_raw (E : env) (b : bytes) : st ctx unit :=
  (t <-- sof (tr_encap (e_tr E) BUFFER_SIZE b false) ;;
   io_send E t ;;;
   op <-- sunwrap (opcode b) ;;
   after_send op)%st.
(** send_message — context.rs:35-95.  The replacement ERROR message is sent by a recursive call;
    if it is itself too large the recursion never ends (a stack overflow), modelled as a panic. *)
Definition send_message (E : env) (b : bytes) : st ctx unit :=
  (x <-- sget ;;
   if too_large x b then
     (e <-- write_err ERR_RESPONSE_TOO_LARGE [] ;;
      if too_large x e then spanic else send_raw E e)%st
   else send_raw E b)%st.
(** send_spdm_error — error_rsp.rs:34-40 *)
Definition send_spdm_error (E : env) (code : N) : st ctx unit :=
  (e <-- write_err code [] ;; scatch (send_message E e) (fun _ => sret tt))%st.

(** what a successful secured send does to the session — context.rs:121-137 *)
Definition after_secured_send (id op : N) : st ctx unit :=
  (swhen (op =? RC_END_SESSION_ACK) (on_sess id (session_teardown id)) ;;;
   swhen ((op =? RC_FINISH_RSP) || (op =? RC_PSK_FINISH_RSP))
     (on_sess id (smod (set_s_state SEstablished))))%st.
Definition send_secured_raw (E : env) (id : N) (b : bytes) (app : bool) : st ctx unit :=
  (t <-- encode_secured_message E id b false app ;;
   io_send E t ;;;
   op <-- sunwrap (opcode b) ;;
   after_secured_send id op)%st.
(** send_secured_message — context.rs:97-140 *)
Definition send_secured_message (E : env) (id : N) (b : bytes) (app : bool) : st ctx unit :=
  (x <-- sget ;;
   if negb app && too_large x b then
     (e <-- write_err ERR_RESPONSE_TOO_LARGE [] ;;
      if too_large x e then spanic else send_secured_raw E id e app)%st
   else send_secured_raw E id b app)%st.
(** [if let Some(session_id) ... send_secured_message else send_message], e.g. digest_rsp.rs:22-26 *)
Definition send_on (E : env) (sid : option N) (b : bytes) : st ctx unit :=
  match sid with
  | Some id => send_secured_message E id b false
  | None => send_message E b
  end.
(** handle_error_request — error_rsp.rs:43-58 *)
Definition handle_error_request (E : env) (code : N) (sid : option N) (b : bytes) : st ctx unit :=
  (w <-- write_error_response code b ;; send_on E sid w)%st.
