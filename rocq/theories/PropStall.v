(** Certificate retrieval need not end: the device answers every request with an empty portion and
    announces one more byte.  And cases for PropRetr.v. *)
From Verif Require Import Bytes BytesFacts Status Codec Parse Algo Monad MsgConn MsgAuth Message Transport Crypto KeySchedule Session CertOps ChainVerify Context
  RspBase RspConn RspSess Responder ToyCrypto PropPhase ExRun ReqBase ReqConn ReqSess SpecReq Pair ExPair ReqFrame SpecAuth ExReach SpecRetr ReqTrans PropRetr.
From Coq Require Import Lia.
Local Open Scope N_scope.
(** connects honestly (three requests), then stalls *)
Definition stall_env : env := mkEnv toy mctp_transport (fun _ _ => None)
  (fun i sent => if Nat.leb (length sent) 3 then e_recv pr_env i sent else Some [5; 0x12; 0x02; 0; 0; 0; 0; 1; 0]) (fun _ b => Ok b) (fun b => Ok b) false.
Definition stall1 : ctx := snd (init_connection stall_env pr_req).
Lemma reached_stall1 : reached stall_env stall1.
Proof. unfold stall1. apply reached_init'; [unfold pr_req; apply r_start|vm_compute; reflexivity]. Qed.
Definition stal (d : option bytes) (io : N) (sent : list bytes) : ctx :=
  set_x_m1m2 d (set_x_io io (set_x_sent sent (set_x_peer_temp (Some []) (reset_buffer RC_GET_CERTIFICATE None stall1)))).
Lemma stall_step total want d io a b c l : (total = 0 /\ want = 512) \/ (total = 1 /\ want = 1) ->
  exists d' io' a' b' c' l', get_certificate_partial stall_env None 0 total 0 want (stal (Some d) io (a :: b :: c :: l)) = (Ok (0, 1), stal (Some d') io' (a' :: b' :: c' :: l')).
Proof. intros [[-> ->]|[-> ->]]; eexists _, _, _, _, _, _; vm_compute; reflexivity. Qed.
Lemma stall_loop fuel : forall d io a b c l, exists x',
  certificate_loop stall_env None 0 fuel 1 0 1 (stal (Some d) io (a :: b :: c :: l)) = (Ok None, x').
Proof.
  induction fuel as [|fuel IH]; intros d io a b c l; cbn [certificate_loop]; change (1 =? 0) with false; cbv beta iota; [eexists; reflexivity|].
  destruct (stall_step 1 1 d io a b c l (or_intror (conj eq_refl eq_refl))) as (d' & io' & a' & b' & c' & l' & H). unfold sbind. rewrite H. cbn [fst snd].
  change (N.min 1 512) with 1. change (0 + 0) with 0. apply IH.
Qed.
Definition sent3 (x : ctx) : bool := match x_sent x with _ :: _ :: _ :: _ => true | _ => false end.
Lemma sent3_inv x : sent3 x = true -> exists a b c l, x_sent x = a :: b :: c :: l.
Proof. unfold sent3. destruct (x_sent x) as [|a [|b [|c l]]]; try discriminate. eauto. Qed.
Lemma stall_first : exists d io a b c l, get_certificate_partial stall_env None 0 0 0 512 (set_x_peer_temp (Some []) (reset_buffer RC_GET_CERTIFICATE None stall1)) = (Ok (0, 1), stal (Some d) io (a :: b :: c :: l)).
Proof. eexists _, _, _, _, _, _. vm_compute. reflexivity. Qed.
Lemma stalls fuel : exists x', get_certificate stall_env fuel None 0 stall1 = (Ok None, x').
Proof.
  unfold get_certificate. rewrite bind_fail. change (8 <=? 0) with false. cbv beta iota. rewrite bind_mod, bind_mod.
  set (y := set_x_peer_temp (Some []) (reset_buffer RC_GET_CERTIFICATE None stall1)).
  assert (L : exists x', certificate_loop stall_env None 0 fuel 0 0 512 y = (Ok None, x')).
  { destruct fuel as [|fuel]; cbn [certificate_loop]; change (512 =? 0) with false; cbv beta iota; [eexists; reflexivity|].
    destruct stall_first as (d & io & a & b & c & l & H). fold y in H. unfold sbind. rewrite H. cbn [fst snd]. change (0 =? 0) with true. cbv beta iota.
    change (N.min 1 512) with 1. change (0 + 0) with 0. change (0 + 1) with 1. apply stall_loop. }
  destruct L as [x' L]. clearbody y. unfold sbind at 1. rewrite L. eexists. reflexivity.
Qed.
Theorem C65_certificate_retrieval_ends_refuted :
  ~ (forall E x, reached E x -> exists fuel r x', get_certificate E fuel None 0 x = (r, x') /\ r <> Ok None).
Proof.
  intro H. destruct (H stall_env stall1 reached_stall1) as (fuel & r & x' & G & N). destruct (stalls fuel) as [z S]. congruence.
Qed.
Print Assumptions C65_certificate_retrieval_ends_refuted.

(** Cases: the pair of ExPair.v retrieves a chain of 960 bytes in two portions; the stalling device
    meets the premise of [C36_ends_if_portions_are_not_empty]. *)
Definition chain_of (x : ctx) (slot : N) : bytes := match slot_of (x_peer_chain x) slot with Some c => c | None => [] end.
Definition someb (o : option bytes) : bool := match o with Some _ => true | None => false end.
Example C37_case : okb (fst (get_certificate pr_env 10 None 0 pr2)) = true /\ reached pr_env pr3 /\ someb (slot_of (x_peer_chain pr3) 0) = true /\
  len (chain_of pr3 0) = 960 /\ length (x_peer_chain pr2) = 8%nat /\ (exists x', get_certificate stall_env 5000 None 0 stall1 = (Ok None, x')).
Proof.
  split; [vm_compute; reflexivity|]. split; [exact reached_pr3|]. split; [vm_compute; reflexivity|]. split; [vm_compute; reflexivity|]. split; [vm_compute; reflexivity|]. apply stalls.
Qed.
