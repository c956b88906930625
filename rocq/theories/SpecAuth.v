(** Vocabulary for the authentication properties of the requester (C40-C42): what was exchanged,
    the transcripts SPDM prescribes for it, and what a verified signature is. *)
From Verif Require Import Bytes Status Codec Parse Algo Monad MsgConn MsgAuth MsgSession MsgOther Message
  Transport Crypto KeySchedule Session Signing CertOps Context ReqBase ReqConn ReqSess SpecReq SpecSession.
Local Open Scope N_scope.

(** between [x] and [x'] the requester sent the message [s] (alone) and then received [b] *)
Definition exchanged (E : env) (sid : option N) (x x' : ctx) (s b : bytes) : Prop :=
  exists t f, sent_as E sid s t /\ e_send E (x_io x) t = None /\ x_sent x' = t :: x_sent x /\ x_io x' = x_io x + 2 /\
    e_recv E (x_io x + 1) (x_sent x') = Some f /\ response_in E sid f b.
(** [u] is the message that [b] starts with, as the operation reads it: the rest is what its parser
    leaves unread *)
Definition leaves {A} (d : dec A) (r rest : bytes) : Prop := exists p, d r = POk p rest.
Definition accepted (o : operation) (c : cctx) (b u : bytes) : Prop :=
  exists rest, b = u ++ rest /\
    match o with
    | OVersion => leaves dec_version_rsp (skipn 2 b) rest
    | OCapabilities => leaves (dec_capabilities c) (skipn 2 b) rest
    | OAlgorithms => leaves (dec_algs_rsp c) (skipn 2 b) rest
    | ODigests _ => leaves (dec_digests_rsp c) (skipn 2 b) rest
    | OCertPart _ _ _ _ _ => leaves dec_cert_rsp (skipn 2 b) rest
    | OChallenge _ _ => leaves (dec_challenge_auth c) (skipn 2 b) rest
    | OMeasurements _ _ _ _ => leaves (dec_meas_rsp c) (skipn 2 b) rest
    | OKeyExchange _ _ => leaves (dec_key_ex_rsp c) (skipn 2 b) rest
    | OFinish _ _ => leaves (dec_finish_rsp c) (skipn 2 b) rest
    | OPskExchange _ _ => leaves (dec_psk_ex_rsp c) (skipn 2 b) rest
    | OPskFinish _ | OHeartbeat _ | OEndSession _ => leaves dec_empty (skipn 2 b) rest
    | OKeyUpdateOp _ _ _ => leaves dec_key_update (skipn 2 b) rest
    | OVendor _ _ _ _ => leaves dec_vendor (skipn 2 b) rest
    end.

(** ** M1/M2 (DSP0274 10.10.2): A is VERSION .. ALGORITHMS, B is DIGESTS and CERTIFICATE *)
(** A, and A followed by B once B has begun (None before), after a successful exchange of [s] and [u] *)
Definition m1m2_after (o : operation) (s u A : bytes) (B : option bytes) : bytes * option bytes :=
  match o with
  | OVersion => (s ++ u, None)
  | OCapabilities | OAlgorithms => (A ++ s ++ u, B)
  | ODigests None => (A, Some (A ++ s ++ u))
  | OCertPart None _ _ _ _ => (A, Some (match B with Some d => d | None => A end ++ s ++ u))
  | OCertPart (Some _) _ _ _ _ => (A, B)
  | OVendor _ _ _ _ => ([], None)
  | _ => (A, None)
  end.
(** the operations that build A: when one fails, the connection has to start again with GET_VERSION,
    and nothing is said about A and B until then *)
Definition builds_a (o : operation) : bool :=
  match o with OVersion | OCapabilities | OAlgorithms => true | _ => false end.
(** the requester's history: [history E A B x] says that [x] is reached by some operations after
    which the transcripts prescribed are [A] and [B] (= A followed by B).  A failed operation leaves B or drops it
    (a failed certificate exchange leaves it). *)
Inductive history (E : env) : bytes -> option bytes -> ctx -> Prop :=
| h_start cfg cd mc root : history E [] None (ctx_new cfg cd mc root)
| h_ok A B x o s b u x' : history E A B x -> run E o x = (Ok tt, x') ->
    exchanged E (runs_in x o) x x' s b -> accepted o (asked o x) b u ->
    history E (fst (m1m2_after o s u A B)) (snd (m1m2_after o s u A B)) x'
| h_failed A B B' x o e x' : history E A B x -> run E o x = (Err e, x') -> builds_a o = false ->
    (B' = B \/ (B' = None /\ forall sid a t f l, o <> OCertPart sid a t f l)) ->
    history E (match o with OVendor _ _ _ _ => [] | _ => A end) B' x'
| h_restart A B A' B' x o e x' : history E A B x -> run E o x = (Err e, x') -> builds_a o = true -> history E A' B' x'
| h_cert_begin A B x sid : history E A B x -> (* the certificate retrieval, before and after its exchanges *)
    history E A B (set_x_peer_temp (Some []) (reset_m sid x))
| h_cert_end A B x chains : history E A B x -> history E A B (set_x_peer_temp None (set_x_peer_chain chains x)).
(** what the user of the requester can do *)
Inductive reached (E : env) : ctx -> Prop :=
| r_start cfg cd mc root : reached E (ctx_new cfg cd mc root)
| r_op x o r x' : reached E x -> run E o x = (r, x') -> r <> Panic -> reached E x'
| r_cert x fuel sid slot r x' : reached E x -> get_certificate E fuel sid slot x = (r, x') -> r <> Panic -> reached E x'.

(** ** L1/L2 (DSP0274 10.11.1): the measurement exchanges of one channel since the last signed one *)
(** the channel is the bare connection (None) or a session; from version 1.2 on it starts with A *)
Definition l1l2_start (x : ctx) : bytes := if 0x12 <=? ver x then x_msg_a x else [].
(** the channel an operation belongs to (a certificate exchange belongs to none: the retrieval as a
    whole does, see below); VENDOR_DEFINED concerns them all *)
Definition concerns (o : operation) (sid : option N) : Prop :=
  match o with
  | OVersion | OCapabilities | OAlgorithms | OChallenge _ _ | OKeyExchange _ _ | OPskExchange _ _ => sid = None
  | ODigests c | OMeasurements c _ _ _ => sid = c
  | OFinish _ id | OPskFinish id | OHeartbeat id | OKeyUpdateOp id _ _ | OEndSession id => sid = Some id
  | OCertPart _ _ _ _ _ => False
  | OVendor _ _ _ _ => True
  end.
(** a measurement request without signature *)
Definition unsigned (sid : option N) (o : operation) : Prop :=
  exists slot attr index, o = OMeasurements sid slot attr index /\ N.testbit attr 0 = false.
(** [measured E sid L x]: [L] is the L1/L2 of channel [sid] after the operations that led to [x],
    None when nothing was measured since it was last dropped.  Successful unsigned measurements add
    their request and response; any other successful operation of the channel, the signed measurement
    in particular, drops it; a failed one keeps or drops it; other channels' operations keep it
    (a session's may also vanish with the session). *)
Inductive measured (E : env) (sid : option N) : option bytes -> ctx -> Prop :=
| ms_start cfg cd mc root : measured E sid None (ctx_new cfg cd mc root)
| ms_add L x slot attr index s b u x' : measured E sid L x ->
    run E (OMeasurements sid slot attr index) x = (Ok tt, x') -> N.testbit attr 0 = false ->
    exchanged E sid x x' s b -> accepted (OMeasurements sid slot attr index) (asked (OMeasurements sid slot attr index) x) b u ->
    measured E sid (Some (match L with Some d => d | None => l1l2_start x end ++ s ++ u)) x'
| ms_drop L x o x' : measured E sid L x -> run E o x = (Ok tt, x') -> concerns o sid -> ~ unsigned sid o -> measured E sid None x'
| ms_failed L L' x o e x' : measured E sid L x -> run E o x = (Err e, x') -> concerns o sid -> L' = L \/ L' = None -> measured E sid L' x'
| ms_elsewhere L L' x o r x' : measured E sid L x -> run E o x = (r, x') -> r <> Panic -> ~ concerns o sid ->
    L' = L \/ (sid <> None /\ L' = None) -> measured E sid L' x'
| ms_cert_begin L x sid' : measured E sid L x -> (* the certificate retrieval, before and after its exchanges *)
    measured E sid (if match sid, sid' with Some a, Some b => a =? b | None, None => true | _, _ => false end then None else L)
      (set_x_peer_temp (Some []) (reset_m sid' x))
| ms_cert_end L x chains : measured E sid L x -> measured E sid L (set_x_peer_temp None (set_x_peer_chain chains x)).

(** ** a verified signature: [sig] verifies, under the leaf key of [chain] (the certificates follow
    the 4-byte header and the root hash), over the SPDM 1.2 signing string for the transcript [t] *)
Definition authentic (cr : crypto) (n : nego) (chain : bytes) (op : sig_op) (t sig : bytes) : Prop :=
  exists hl h, hash_size (n_hash n) = Some hl /\ 4 + hl <= len chain /\ cr_hash cr (n_hash n) t = Some h /\
    cr_verify cr (n_hash n) (n_asym n) (skipn (N.to_nat (4 + hl)) chain) (spec_prefix ++ spec_context op ++ h) sig = true.
