(** What the requester's properties talk about: the operations of its API, the responses they
    expect, and what it means that a message arrived as the response. *)
From Verif Require Import Bytes Status Codec Parse Algo Monad MsgConn MsgAuth MsgSession MsgOther Message
  Transport Crypto KeySchedule Session Context ReqBase ReqConn ReqSess.
Local Open Scope N_scope.

(** every request the requester can send on behalf of its user, one exchange each *)
Inductive operation :=
| OVersion | OCapabilities | OAlgorithms
| ODigests (sid : option N)
| OCertPart (sid : option N) (slot total offset length : N)
| OChallenge (slot summary : N)
| OMeasurements (sid : option N) (slot attributes index : N)
| OKeyExchange (slot summary : N)
| OFinish (req_slot : option N) (id : N)
| OPskExchange (summary : N) (hint : vbuf)
| OPskFinish (id : N)
| OHeartbeat (id : N)
| OKeyUpdateOp (id op tag : N)
| OEndSession (id : N)
| OVendor (sid : option N) (standard : N) (vid payload : vbuf).

(** running one, the returned value dropped *)
Definition drop {A} (m : st ctx A) : st ctx unit := (_ <-- m ;; sret tt)%st.
Definition run (E : env) (o : operation) : st ctx unit :=
  match o with
  | OVersion => get_version E
  | OCapabilities => get_capabilities E
  | OAlgorithms => negotiate_algorithms E
  | ODigests sid => get_digests E sid
  | OCertPart sid slot total offset length => drop (get_certificate_partial E sid slot total offset length)
  | OChallenge slot t => challenge_req E slot t
  | OMeasurements sid slot attr op => drop (get_measurements E sid slot attr op)
  | OKeyExchange slot t => drop (key_exchange_req E slot t)
  | OFinish rs id => finish_req E rs id
  | OPskExchange t hint => drop (psk_exchange_req E t hint)
  | OPskFinish id => psk_finish_req E id
  | OHeartbeat id => heartbeat_req E id
  | OKeyUpdateOp id op tag => key_update_op_req E id op tag
  | OEndSession id => end_session_req E id
  | OVendor sid st vid p => drop (vendor_req E sid st vid p)
  end.
(** the response code that answers the request *)
Definition expects (o : operation) : N :=
  match o with
  | OVersion => 0x04 | OCapabilities => 0x61 | OAlgorithms => 0x63 | ODigests _ => 0x01
  | OCertPart _ _ _ _ _ => 0x02 | OChallenge _ _ => 0x03 | OMeasurements _ _ _ _ => 0x60
  | OKeyExchange _ _ => 0x64 | OFinish _ _ => 0x65 | OPskExchange _ _ => 0x66 | OPskFinish _ => 0x67
  | OHeartbeat _ => 0x68 | OKeyUpdateOp _ _ _ => 0x69 | OEndSession _ => 0x6C | OVendor _ _ _ _ => 0x7E
  end.
(** the session the exchange runs in; FINISH runs outside when the handshake is in the clear *)
Definition runs_in (x : ctx) (o : operation) : option N :=
  match o with
  | ODigests sid | OCertPart sid _ _ _ _ | OMeasurements sid _ _ _ | OVendor sid _ _ _ => sid
  | OPskFinish id | OHeartbeat id | OKeyUpdateOp id _ _ | OEndSession id => Some id
  | OFinish _ id => if in_clear (xc x) then None else Some id
  | _ => None
  end.
(** the operations that do not look at the version of the response *)
Definition checks_version (o : operation) : bool :=
  match o with OVersion | OFinish _ _ => false | _ => true end.

(** message [m] inside the frame [t] the requester sends: plainly, or protected by session [id] *)
Definition sent_as (E : env) (sid : option N) (m t : bytes) : Prop :=
  match sid with
  | None => tr_encap (e_tr E) BUFFER_SIZE m false = Ok t
  | Some id => exists y y', encode_secured_message E id m true false y = (Ok t, y')
  end.
(** message [b] inside the frame [f]: plainly, or protected by session [id] *)
Definition plain_response (E : env) (f b : bytes) : Prop := tr_decap (e_tr E) MAX_SPDM_MSG_SIZE f = Ok (b, false).
Definition secured_response (E : env) (id : N) (f b : bytes) : Prop :=
  exists c s a s1 app, tr_decap (e_tr E) BUFFER_SIZE f = Ok (c, true) /\ s_id s = id /\
    decode_secured (e_cr E) false c BUFFER_SIZE s = (Ok a, s1) /\ tr_decap_app (e_tr E) MAX_SPDM_MSG_SIZE a = Ok (b, app).
Definition response_in (E : env) (sid : option N) (f b : bytes) : Prop :=
  match sid with None => plain_response E f b | Some id => secured_response E id f b end.
(** between [x] and [x'] the requester handed exactly one frame to the device, then took from it
    one frame, which contained [b] *)
Definition answered (E : env) (sid : option N) (x x' : ctx) (b : bytes) : Prop :=
  exists t f, x_sent x' = t :: x_sent x /\ x_io x' = x_io x + 2 /\ e_send E (x_io x) t = None /\
    e_recv E (x_io x + 1) (x_sent x') = Some f /\ response_in E sid f b.
(** the first two bytes of a message *)
Definition has_code (b : bytes) (c : N) : Prop := nth_error b 1 = Some c.
Definition has_version (b : bytes) (v : N) : Prop := nth_error b 0 = Some v.

(** a run of the requester: any operations one after the other, none of which panicked *)
Inductive ran (E : env) : ctx -> ctx -> Prop :=
| ran_none x : ran E x x
| ran_one x y z o r : ran E x y -> run E o y = (r, z) -> r <> Panic -> ran E x z.

(** what an operation does with the response [b] to its request [s].  ([half], [key]: the session
    half id and the key pair of a key exchange.) *)
Definition on_answer (E : env) (o : operation) (s : bytes) (half key : N) (b : bytes) : st ctx unit :=
  match o with
  | OVersion => handle_version_rsp s b
  | OCapabilities => handle_capabilities_rsp s b
  | OAlgorithms => handle_algorithms_rsp s b
  | ODigests sid => handle_digests_rsp E sid s b
  | OCertPart sid slot total offset length => drop (handle_certificate_rsp E sid slot total offset length s b)
  | OChallenge slot t => handle_challenge_auth E slot t s b
  | OMeasurements sid slot attr op => drop (handle_measurements E sid slot attr op s b)
  | OKeyExchange slot t => drop (handle_key_exchange_rsp E half slot t key s b)
  | OFinish _ id => handle_finish_rsp E id b
  | OPskExchange t hint => drop (handle_psk_exchange_rsp E half t hint s b)
  | OPskFinish id => handle_psk_finish_rsp E id b
  | OHeartbeat id => heartbeat_answer id b
  | OKeyUpdateOp id op _ => handle_key_update_ack id ((op =? KU_SINGLE) || (op =? KU_ALL)) (op =? KU_ALL) b
  | OEndSession id => end_session_answer id b
  | OVendor sid _ _ _ => drop (vendor_answer sid b)
  end.
(** the statuses an ERROR response is turned into; [known]: the session it concerns exists *)
Definition error_status (c : N) (known : bool) : status :=
  if c =? 0x42 (* ResponseNotReady *) then ST_NOT_READY_PEER
  else if c =? 0x03 (* Busy *) then ST_BUSY_PEER
  else if c =? 0x43 (* RequestResynch *) then ST_INVALID_PARAMETER
  else if c =? 0x06 (* DecryptError *) then (if known then ST_SESSION_MSG_ERROR else ST_INVALID_PARAMETER)
  else ST_ERROR_PEER.
(** the session an ERROR response to the operation concerns (0 before there is any) *)
Definition concerns (o : operation) : option N :=
  match o with
  | OVersion | OCapabilities | OAlgorithms | OChallenge _ _ => Some 0
  | OKeyExchange _ _ | OPskExchange _ _ => None
  | OFinish _ id => Some id
  | ODigests sid | OCertPart sid _ _ _ _ | OMeasurements sid _ _ _ | OVendor sid _ _ _ => sid
  | OPskFinish id | OHeartbeat id | OKeyUpdateOp id _ _ | OEndSession id => Some id
  end.
(** the response payload [r] (the message after its two header bytes) parses as what the operation
    expects; a measurement summary, a signature are expected if the request asked for them *)
Definition asked (o : operation) (x : ctx) : cctx :=
  match o with
  | OChallenge _ t | OKeyExchange _ t | OPskExchange t _ => mkCctx (x_nego x) ((t =? 1) || (t =? 0xFF)) (x_need_sig x)
  | OMeasurements _ _ attr _ => mkCctx (x_nego x) (x_need_sum x) (N.testbit attr 0)
  | _ => xc x
  end.
Definition parsed {A} (d : dec A) (r : bytes) : Prop := exists p rest, d r = POk p rest.
Definition parses (o : operation) (c : cctx) (r : bytes) : Prop :=
  match o with
  | OVersion => parsed dec_version_rsp r
  | OCapabilities => parsed (dec_capabilities c) r
  | OAlgorithms => parsed (dec_algs_rsp c) r
  | ODigests _ => parsed (dec_digests_rsp c) r
  | OCertPart _ _ _ _ _ => parsed dec_cert_rsp r
  | OChallenge _ _ => parsed (dec_challenge_auth c) r
  | OMeasurements _ _ _ _ => parsed (dec_meas_rsp c) r
  | OKeyExchange _ _ => parsed (dec_key_ex_rsp c) r
  | OFinish _ _ => parsed (dec_finish_rsp c) r
  | OPskExchange _ _ => parsed (dec_psk_ex_rsp c) r
  | OPskFinish _ | OHeartbeat _ | OEndSession _ => parsed dec_empty r
  | OKeyUpdateOp _ _ _ => parsed dec_key_update r
  | OVendor _ _ _ _ => parsed dec_vendor r
  end.
