(** What C15, C32 and C69-C71 say. *)
From Verif Require Import Bytes Status Monad Algo MsgConn Crypto Session Context Transcript.
Local Open Scope N_scope.

(** ** C15 *)
Inductive bop := BAppend (m : bytes) | BReset.
(** a history of one buffer: every call with whether it succeeded *)
Fixpoint buffer_run (ops : list bop) (b : mbuf) : list (bop * bool) * mbuf :=
  match ops with
  | [] => ([], b)
  | BAppend m :: r =>
      let (o, b') := mb_append m b in
      let (t, e) := buffer_run r b' in ((BAppend m, match o with Some _ => true | None => false end) :: t, e)
  | BReset :: r => let (t, e) := buffer_run r (mb_reset b) in ((BReset, true) :: t, e)
  end.
(** a buffer some history led to *)
Definition buffer_of (cap : nat) (b : mbuf) : Prop := exists ops t, buffer_run ops (mb_new cap) = (t, b).
(** the messages that went in since the last reset, in order *)
Fixpoint held (acc : list bytes) (t : list (bop * bool)) : list bytes :=
  match t with
  | [] => acc
  | (BAppend m, true) :: r => held (acc ++ [m]) r
  | (BAppend _, false) :: r => held acc r
  | (BReset, _) :: r => held [] r
  end.
(** ** C32, the challenge transcript: the calls on a connection *)
Inductive cop := CA (m : bytes) | CB (m : bytes) | CC (m : bytes) | CDone | CRestart.
(** messages of kind A come before those of kind B, those before C; CDone (B and C reset together) and
    CRestart (everything reset) start over *)
Fixpoint orderly (phase : nat) (ops : list cop) : Prop :=
  match ops with
  | [] => True
  | CA _ :: r => phase = 0%nat /\ orderly 0 r
  | CB _ :: r => (phase <= 1)%nat /\ orderly 1 r
  | CC _ :: r => orderly 2 r
  | CDone :: r | CRestart :: r => orderly 0 r
  end.
(** the same calls in the two builds; a failed append ends the run *)
Definition plain_call (o : cop) : st plain_rt unit :=
  match o with
  | CA m => p_append_a m | CB m => p_append_b m | CC m => p_append_c m
  | CDone => smod (fun p => p_reset_c (p_reset_b p))
  | CRestart => smod (fun p => p_reset_c (p_reset_b (p_reset_a p)))
  end.
Definition hashed_call (cr : crypto) (o : cop) : st ctx unit :=
  match o with
  | CA m => append_a m | CB m => append_b cr m | CC m => append_c cr m
  | CDone => smod (fun x => reset_c (reset_b x))
  | CRestart => smod (fun x => reset_c (reset_b (reset_a x)))
  end.
Fixpoint all_of {S A} (f : A -> st S unit) (l : list A) : st S unit :=
  match l with [] => sret tt | a :: r => (f a ;;; all_of f r)%st end.
(** the two builds hold the same challenge transcript: nothing, or the same bytes *)
Definition same_m1m2 (p : plain_rt) (x : ctx) : Prop :=
  match x_m1m2 x with
  | None => mb_ref (pr_b p) = [] /\ mb_ref (pr_c p) = []
  | Some w => plain_m1m2 p = Ok w
  end.
(** ** C32, the key-exchange transcript of the specification *)
Definition part (o : option bytes) : bytes := match o with Some b => b | None => [] end.
Definition TH (a : bytes) (rsp_chain_hash : option bytes) (k : list bytes) (req_chain_hash : option bytes) (f : list bytes) : bytes :=
  a ++ part rsp_chain_hash ++ concat k ++ match f with [] => [] | _ => part req_chain_hash end ++ concat f.
(** what the two ends share when a session began: the connection messages, the responder's chain as the
    requester has it, and with mutual authentication the requester's chain as the responder has it *)
Definition rsp_hash (cr : crypto) (alg : N) (psk : bool) (chain : option bytes) : option bytes :=
  if psk then None else match chain with Some c => cr_hash cr alg c | None => None end.
(** a session that has seen no message yet *)
Definition untouched (s : session) : Prop := s_th s = None /\ s_f_init s = false.
(** the chain whose hash opens the F part at this end, if any is wanted *)
Definition mut_hash (cr : crypto) (req : bool) (s : session) (x : ctx) : option bytes :=
  if s_use_psk s || (s_mut_auth s =? 0) then None
  else match (if req then slot_of (x_my_chain x) (x_lslot x) else slot_of (x_peer_chain x) (x_pslot x)) with
       | Some c => cr_hash cr (n_hash (x_nego x)) c
       | None => None
       end.
(** ... and whether it can be had *)
Definition mut_ready (cr : crypto) (req : bool) (s : session) (x : ctx) : Prop :=
  s_use_psk s = true \/ s_mut_auth s = 0 \/ mut_hash cr req s x <> None.
(** the chains and slots of a context *)
Definition chains_of (x : ctx) : chains := mkChains (n_hash (x_nego x)) (x_my_chain x) (x_peer_chain x) (x_lslot x) (x_pslot x).
