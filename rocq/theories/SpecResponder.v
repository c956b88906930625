(** What the responder's properties talk about, independently of how its handlers work. *)
From Verif Require Import Bytes Status Codec Parse Algo Monad MsgConn MsgAuth MsgSession MsgOther Message Crypto KeySchedule Session Context.
Local Open Scope N_scope.

(** the request code of a message: its second byte *)
Definition request_code (b : bytes) : option N := nth_error b 1.

(** Connection phases: 0 nothing, 1 VERSION sent, 2 CAPABILITIES sent, 3 ALGORITHMS sent,
    4 DIGESTS sent, 5 CERTIFICATE or CHALLENGE_AUTH sent.  The only phase changes a plain request
    with code [c] may cause: *)
Inductive phase_step : N -> N -> N -> Prop :=
| ps_same c p : phase_step c p p
| ps_reset p : phase_step 0x84 (* GET_VERSION *) p 0
| ps_version p : phase_step 0x84 p 1
| ps_caps : phase_step 0xE1 (* GET_CAPABILITIES *) 1 2
| ps_algs : phase_step 0xE3 (* NEGOTIATE_ALGORITHMS *) 2 3
| ps_digests p : 3 <= p -> phase_step 0x81 (* GET_DIGESTS *) p (N.max p 4)
| ps_cert p : 3 <= p -> phase_step 0x82 (* GET_CERTIFICATE *) p (N.max p 5)
| ps_challenge p : 3 <= p -> phase_step 0x83 (* CHALLENGE *) p 5.

(** the requests that belong to one phase, and the ones that need finished negotiation *)
Definition in_phase (c p : N) : bool :=
  if c =? 0xE1 then p =? 1
  else if c =? 0xE3 then p =? 2
  else if existsb (N.eqb c) [0x81; 0x82; 0x83; 0xE0; 0xE4; 0xE6] then 3 <=? p
  else true.

(** an ERROR message: version, 0x7F, error code, error data *)
Definition error_message (v code data : N) : bytes := [v; 0x7F; code; data].
(** one more frame handed to the device, which took it *)
Definition after_sending (t : bytes) (x : ctx) : ctx :=
  set_x_sent (t :: x_sent x) (set_x_io (x_io x + 1) x).
(** [m] is at most as long as the receiver said it can take (0: it did not say) *)
Definition fits (x : ctx) (m : bytes) : Prop := n_req_dts (x_nego x) = 0 \/ len m <= n_req_dts (x_nego x).
(** [f] ends with exactly one reply, the plain message [m], and no other effect *)
Definition just_replies (E : env) (x : ctx) (m : bytes) (out : outcome (option bool) * ctx) : Prop :=
  forall t, tr_encap (e_tr E) BUFFER_SIZE m false = Ok t -> e_send E (x_io x) t = None -> fits x m ->
            out = (Ok (Some true), after_sending t x).
(** nothing but the device counters may differ *)
Definition same_but_io (x x' : ctx) : Prop := exists n l, x' = set_x_sent l (set_x_io n x).

(** any number of rounds of the responder's main loop, none of which panicked *)
Inductive served (E : env) (process : st ctx (option bool)) : ctx -> ctx -> Prop :=
| served_none x : served E process x x
| served_one x y z r : served E process x y -> process y = (Ok r, z) -> served E process x z.
(** the plain message inside a frame, if the frame carries one *)
Definition plain_message (E : env) (f : bytes) : option bytes :=
  match tr_decap (e_tr E) BUFFER_SIZE f with Ok (b, false) => Some b | _ => None end.
(** eight certificate slots, filled or not *)
Definition eight_slots (x : ctx) : Prop := length (x_my_chain x) = 8%nat.
(** digests are as long as the algorithm says *)
Definition digest_sizes (cr : crypto) : Prop := forall alg d h, cr_hash cr alg d = Some h -> hash_size alg = Some (len h).

(** ** the session table *)
(** The table of a live responder: four slots; an unused slot (id 0) is idle; no two slots carry
    the same nonzero id. *)
Definition table_integrity (l : list session) : Prop :=
  length l = 4%nat /\
  (forall s, In s l -> s_id s = 0 -> s_state s = SNotStarted) /\
  (forall i j s t, nth_error l i = Some s -> nth_error l j = Some t -> s_id s = s_id t -> s_id s <> 0 -> i = j).
(** the frames the device delivers, and the messages the transport takes out of them, consist of bytes *)
Definition delivers_bytes (E : env) : Prop :=
  (forall n sent f, e_recv E n sent = Some f -> bytes_ok f) /\
  (forall room f b s, bytes_ok f -> tr_decap (e_tr E) room f = Ok (b, s) -> bytes_ok b).
(** the secured message inside a frame, if the frame carries one, and the session id it names *)
Definition secured_message (E : env) (f : bytes) : option bytes :=
  match tr_decap (e_tr E) BUFFER_SIZE f with Ok (b, true) => Some b | _ => None end.
Definition names_session (b : bytes) (id : N) : Prop := 4 <= len b /\ id = le_val (firstn 4 b).
(** The sessions a frame may change: the one a secured frame names; every session on GET_VERSION;
    an unused slot on KEY_EXCHANGE and PSK_EXCHANGE; the session whose handshake goes on in the
    clear on FINISH. *)
Inductive may_touch (E : env) (f : bytes) (x : ctx) (s : session) : Prop :=
| mt_named b : secured_message E f = Some b -> names_session b (s_id s) -> may_touch E f x s
| mt_version b : plain_message E f = Some b -> request_code b = Some 0x84 -> may_touch E f x s
| mt_exchange b c : plain_message E f = Some b -> request_code b = Some c -> c = 0xE4 \/ c = 0xE6 -> s_id s = 0 -> may_touch E f x s
| mt_finish b : plain_message E f = Some b -> request_code b = Some 0xE5 -> x_last x = Some (s_id s) -> may_touch E f x s.

(** ** sizes *)
(** what a frame on the wire carries: a plain message, or a message of a session *)
Inductive carries (E : env) (t : bytes) : bytes -> bool (* application data *) -> Prop :=
| ca_plain m : tr_encap (e_tr E) BUFFER_SIZE m false = Ok t -> carries E t m false
| ca_secured id m app x x' : encode_secured_message E id m false app x = (Ok t, x') -> carries E t m app.
(** the frames sent between [x] and [x'], the last one first *)
Definition sent_between (x x' : ctx) (l : list bytes) : Prop := x_sent x' = l ++ x_sent x.

(** ** requests inside a session *)
(** which request codes a session serves, by its phase: while handshaking FINISH, PSK_FINISH and
    (when mutual authentication is compiled in) the encapsulated requests; once established
    GET_DIGESTS, GET_CERTIFICATE, GET_MEASUREMENTS, HEARTBEAT, KEY_UPDATE, END_SESSION; in both
    VENDOR_DEFINED_REQUEST *)
Definition session_serves (mut : bool) (p : sstate) (c : N) : bool :=
  match p with
  | SHandshaking => existsb (N.eqb c) [0xE5; 0xE7; 0xFE] || (mut && existsb (N.eqb c) [0xEA; 0xEB])
  | SEstablished => existsb (N.eqb c) [0x81; 0x82; 0xE0; 0xE8; 0xE9; 0xEC; 0xFE]
  | _ => false
  end.
(** ... except that a handshake carried on in the clear serves nothing inside the session *)
Definition serves (E : env) (x : ctx) (s : session) (m : bytes) : bool :=
  match request_code m with
  | Some c => session_serves (e_mut_auth E) (s_state s) c && negb (in_clear (xc x) && match s_state s with SHandshaking => true | _ => false end)
  | None => false
  end.
(** the answer to a request that is not served: ERROR(UnexpectedRequest), for RESPOND_IF_READY
    ERROR(UnsupportedRequest), for the wrong version ERROR(VersionMismatch); codes that are no
    requests get none *)
Definition refusal (v : N) (m : bytes) : option bytes :=
  match m with
  | h :: c :: _ =>
      if existsb (N.eqb c) [0x81; 0x82; 0x83; 0x84; 0xE0; 0xE1; 0xE3; 0xE4; 0xE5; 0xE6; 0xE7; 0xE8; 0xE9; 0xEC; 0xFF]
      then Some (if negb (h =? v) then error_message v 0x41 0
                 else if c =? 0xFF then error_message v 7 c else error_message v 4 0)
      else None
  | _ => None
  end.
(** a session with its sequence numbers cleared, a context with the device counters cleared as well *)
Definition without_seq (s : session) : session :=
  let z d := mkDir (d_key d) (d_salt d) 0 in
  set_s_hs (set_h_req_dir (z (h_req_dir (s_hs s))) (set_h_rsp_dir (z (h_rsp_dir (s_hs s))) (s_hs s)))
    (set_s_app (set_a_req_dir (z (a_req_dir (s_app s))) (set_a_rsp_dir (z (a_rsp_dir (s_app s))) (s_app s))) s).
Definition without_counters (x : ctx) : ctx :=
  set_x_sent [] (set_x_io 0 (set_x_sess (map without_seq (x_sess x)) x)).
(** nothing but the device counters and the sequence numbers of session [id] differs *)
Definition only_counters (id : N) (x x' : ctx) : Prop :=
  without_counters x' = without_counters x /\
  Forall2 (fun s s' => s' = s \/ s_id s = id) (x_sess x) (x_sess x').
