(** C25 and C44 for the requester. *)
From Verif Require Import Bytes BytesFacts Status Codec Parse ParseProofs Algo Monad.
From Verif Require Import MsgConn MsgAuth MsgSession MsgOther Message Opaque Transport Crypto KeySchedule Session Signing CertOps ChainVerify Context
  RspBase RspConn RspSess RspEncap Responder StRel RspFrame RspCalm RspOpcode RspPass RspSlots RspTable RspIso RspEst ReqBase ReqConn ReqSess SpecReq ReqFrame ReqAnswer ReqTrans SpecAuth ReqSplit ReqHist ReqTable ReqOpen ReqAuth.
From Verif Require Import PropSess ToyCrypto Pair ExPair ExReach.
From Coq Require Import Lia.
Local Open Scope N_scope.

(** ** C25: the half id the requester offers is not the requester half of any live session *)
Definition requester_half (id : N) : N := id mod 65536.
Theorem C25_requester_half_ids_fresh : forall E x, reached E x ->
  match get_next_half_session_id true x with
  | Ok h => h <> 0 /\ h < 65536 /\ (exists s, In s (x_sess x) /\ s_id s = 0) /\
            forall s, In s (x_sess x) -> s_id s <> 0 -> requester_half (s_id s) <> h
  | Err e => e = ST_SESSION_NUMBER_EXCEED /\ forall s, In s (x_sess x) -> s_id s <> 0
  | Panic => False
  end.
Proof.
  intros E x R. pose proof (reached_rtok _ _ R) as T. destruct (get_next_half_session_id true x) as [h|e|] eqn:Nx.
  - destruct (half_split x h T Nx) as (l1 & s0 & l2 & S & Z & K & U & L). split; [lia|]. split; [lia|]. split.
    + exists s0. split; [rewrite S; apply in_or_app; right; now left|exact Z].
    + intros s Hs Hz E'. destruct T as [_ F]. rewrite S in F, Hs. apply rfine_app in F as [F1 F2]. cbn [rfine_from] in F2. destruct F2 as [_ F2]. unfold requester_half in E'.
      apply in_app_or in Hs as [Hs|[<-|Hs]]; [|contradiction|].
      * destruct (rfine_low _ _ _ F1 Hs Hz) as (j & J & Kj). rewrite Kj in E'. lia.
      * destruct (rfine_low _ _ _ F2 Hs Hz) as (j & J & Kj). rewrite Kj in E'. lia.
  - unfold get_next_half_session_id, MAX_SESSION_COUNT in Nx. destruct T as [L F]. rewrite firstn_all2 in Nx by lia.
    destruct (next_half true 0 (x_sess x)) eqn:N0; [discriminate|]. split; [congruence|]. exact (next_half_none _ _ N0).
  - unfold get_next_half_session_id in Nx. destruct (next_half _ _ _); discriminate.
Qed.
Print Assumptions C25_requester_half_ids_fresh.
(** and no two live sessions share an id *)
Theorem C25_requester_ids_unique : forall E x i j s t, reached E x ->
  nth_error (x_sess x) i = Some s -> nth_error (x_sess x) j = Some t -> s_id s <> 0 -> s_id s = s_id t -> i = j.
Proof.
  intros E x i j s t R Hi Hj Hz Heq. pose proof (reached_rtok _ _ R) as T.
  assert (W : forall i j s t, nth_error (x_sess x) i = Some s -> nth_error (x_sess x) j = Some t -> s_id s <> 0 -> s_id s = s_id t -> ~ (i < j)%nat).
  { clear i j s t Hi Hj Hz Heq. intros i j s t Hi Hj Hz Heq Lt. destruct (nth_error_split _ _ Hi) as (l1 & l2 & S & L1). destruct (rtok_unique x l1 s l2 T S Hz) as [_ U].
    apply (U t); [|congruence]. rewrite S, nth_error_app2 in Hj by lia. replace (j - length l1)%nat with (Datatypes.S (j - length l1 - 1)) in Hj by lia. cbn [nth_error] in Hj. exact (nth_error_In _ _ Hj). }
  assert (~ (i < j)%nat) by (eapply W; eauto). assert (~ (j < i)%nat) by (eapply (W j i t s); eauto; congruence). lia.
Qed.
Print Assumptions C25_requester_ids_unique.
(** Case: after the handshake of ExPair.v, slot 0 is taken and the next half id is 0xFFFC. *)
Example C25_requester_case : reached pr_env pr7 /\ map s_id (x_sess pr7) = [0xFFFDFFFD; 0; 0; 0] /\ get_next_half_session_id true pr7 = Ok 0xFFFC.
Proof. split; [exact reached_pr7|]. vm_compute. auto. Qed.

(** ** C44: END_SESSION at the requester *)
Definition ot (id : N) (x y : ctx) : Prop := map s_id (x_sess y) = map s_id (x_sess x) /\ others (Some id) (x_sess x) (x_sess y).
Lemma others_trans id l m n : map s_id m = map s_id l -> others (Some id) l m -> others (Some id) m n -> others (Some id) l n.
Proof.
  intros I A. revert n I. induction A as [|a b l m P A IH]; intros n I B; inversion B as [|? c ? n' Q B']; subst; constructor; cbn in I.
  - destruct P as [->|P]; [exact Q|right; exact P].
  - apply IH; [congruence|exact B'].
Qed.
Lemma ot_pre id : preorder (ot id).
Proof.
  split; [intro x; split; [reflexivity|apply others_refl]|]. intros x y z [A B] [C D]. split; [congruence|exact (others_trans _ _ _ _ A B D)].
Qed.
Lemma ot_on_sess {A} id (m : st session A) : skeep m -> rel (ot id) (on_sess id m).
Proof. intros H x r x' Hx. pose proof (keys_on_sess id m H _ _ _ Hx) as K. unfold keys in K. split; [exact (map_skey_id _ _ K)|]. apply (calm_on_sess id m H) in Hx. apply Hx. Qed.
Lemma ot_field id x y : x_sess y = x_sess x -> ot id x y.
Proof. intro H. split; rewrite H; [reflexivity|apply others_refl]. Qed.
Lemma ot_send E id b : rel (ot id) (req_send_secured E id b false).
Proof.
  unfold req_send_secured, encode_secured_message. rl (ot_pre id); first [apply ot_on_sess, skeep_encode|intros x r x' H; apply ot_field; exact (io_send_sess _ _ _ _ _ H)].
Qed.
Lemma ot_recv E id c : rel (ot id) (req_recv_secured E id c).
Proof.
  unfold req_recv_secured, req_timeout, decode_secured_message. rl (ot_pre id); first [apply ot_on_sess, skeep_decode|intros x r x' H; apply ot_field; exact (io_recv_sess _ _ _ _ H)].
Qed.
Lemma ot_reset_buffer c id x : ot id x (reset_buffer c (Some id) x).
Proof.
  unfold reset_buffer. cbv zeta. apply (proj2 (ot_pre id) _ (if c =? RC_GET_MEASUREMENTS then x else reset_m (Some id) x)).
  - destruct (_ =? _); [apply ot_pre|]. split; [apply (upd_map s_id); reflexivity|apply others_upd].
  - set (y := if c =? RC_GET_MEASUREMENTS then x else reset_m (Some id) x). clearbody y. destruct (existsb _ _); [destruct (_ <? _)|destruct (_ =? _)]; apply ot_field; reflexivity.
Qed.
Ltac bad H := cbv beta iota in H; match type of H with (?o, ?z) = (?r, ?y) => replace r with o by congruence; replace y with z by congruence; split; [first [left; reflexivity|right; eexists; reflexivity]|first [reflexivity|assumption]] end.
Lemma refused_send E id b app x r y : get_sess id x = None -> req_send_secured E id b app x = (r, y) -> (r = Panic \/ exists e, r = Err e) /\ y = x.
Proof.
  intros G H. unfold req_send_secured in H. rewrite bind_get in H. rewrite bind_fail in H. destruct (_ && _)%bool; [bad H|].
  unfold encode_secured_message in H. rewrite sbind_assoc in H. unfold sbind at 1 in H. unfold sof in H. destruct (tr_encap_app _ _ _ _) as [a|e|]; [|bad H|bad H].
  rewrite sbind_assoc, bind_get, G in H. unfold sbind, serr in H. bad H.
Qed.
Lemma refused_recv E id c x r y : get_sess id x = None -> req_recv_secured E id c x = (r, y) -> (r = Panic \/ exists e, r = Err e) /\ x_sess y = x_sess x.
Proof.
  intros G H.
  unfold req_recv_secured in H. unfold sbind at 1 in H. unfold req_timeout in H. rewrite bind_get in H. unfold sassert in H. destruct (_ || _)%bool; [|unfold spanic in H; bad H].
  unfold sret in H. unfold sbind at 1 in H. destruct (io_recv E x) as [[o|e|] y1] eqn:I; pose proof (io_recv_sess _ _ _ _ I) as S; [|bad H|bad H].
  unfold sbind at 1 in H. unfold sok in H. destruct o as [t|]; [|unfold serr in H; bad H]. unfold sret in H.
  unfold decode_secured_message in H. unfold sbind at 1 in H. unfold sof in H. destruct (tr_decap _ _ t) as [p|e|]; [|bad H|bad H].
  destruct (negb (snd p)); [unfold serr in H; bad H|]. rewrite bind_get in H. unfold get_sess in H, G. rewrite S, G in H. unfold serr in H. bad H.
Qed.
Lemma teardown_slot id x r x' : rtok x -> id <> 0 -> get_sess id x <> None -> on_sess id (session_teardown id) x = (r, x') -> torn id (x_sess x) (x_sess x') /\ get_sess id x' = None.
Proof.
  intros T Hid Hg H. unfold on_sess in H. destruct (get_sess id x) as [s|] eqn:G; [|congruence]. unfold get_sess in G. clear Hg.
  destruct (find_split _ _ _ G) as (l1 & l2 & E1 & Is & N1). unfold session_teardown in H. rewrite (proj2 (N.eqb_eq _ _) Is) in H.
  assert (Sx : x_sess x' = l1 ++ session_set_default s :: l2).
  { match type of H with (_, ?q) = _ => assert (x' = q) as -> by congruence end. unfold mod_sess. cbn [x_sess set_x_sess]. rewrite E1. exact (upd_split id (fun _ => session_set_default s) l1 s l2 Is N1). }
  clear H. destruct (rtok_unique x l1 s l2 T E1 ltac:(congruence)) as [_ N2]. rewrite Is in N2. split.
  - unfold torn. rewrite Sx, E1. apply Forall2_app; [|constructor].
    + clear -N1. induction l1; constructor; [rewrite (proj2 (N.eqb_neq _ _)) by (apply N1; now left); reflexivity|apply IHl1; intros t Ht; apply N1; now right].
    + rewrite (proj2 (N.eqb_eq _ _) Is). exists (s_slot s). reflexivity.
    + clear -N2. induction l2; constructor; [rewrite (proj2 (N.eqb_neq _ _)) by (apply N2; now left); reflexivity|apply IHl2; intros t Ht; apply N2; now right].
  - unfold get_sess, find_sess. rewrite Sx. destruct (find _ _) as [t|] eqn:F; [|reflexivity]. exfalso. apply find_some in F as [Fi Fe]. apply N.eqb_eq in Fe.
    apply in_app_or in Fi as [Fi|[<-|Fi]]; [exact (N1 _ Fi Fe)|cbn in Fe; congruence|exact (N2 _ Fi Fe)].
Qed.
Theorem C44_requester_end_session_erases : forall E x id u x', reached E x -> id <> 0 ->
  end_session E id x = (Ok u, x') ->
  (** END_SESSION went out in the session and an answer that starts with END_SESSION_ACK came back *)
  (exists b rest, exchanged E (Some id) x x' [ver x; 0xEC; 0; 0] b /\ b = ver x :: 0x6C :: rest) /\
  (** the session's slot is as new (up to the certificate slot number), the others are as before *)
  torn id (x_sess x) (x_sess x') /\ get_sess id x' = None /\
  (** nothing can be sent or received in it any more *)
  (forall b app r y, req_send_secured E id b app x' = (r, y) -> (r = Panic \/ exists e, r = Err e) /\ y = x') /\
  (forall c r y, req_recv_secured E id c x' = (r, y) -> (r = Panic \/ exists e, r = Err e) /\ x_sess y = x_sess x').
Proof.
  intros E x id u x' R Hz H. unfold end_session in H. pose proof (reached_rtok _ _ R) as T. pose proof (split_end _ _ _ _ _ H) as Sp.
  destruct Sp as (s & hf & key & b & z & X & An & _ & _). cbn [runs_in] in X.
  unfold end_session_req in H. bi H. apply mod_inv in P as ->. bg H. bi H. pose proof (q_enc _ _ _ _ P) as ->. bi H. bi H.
  assert (Tz : rtok y0).
  { refine (rtok_dk None None _ _ _ T). apply (proj2 (dk_pre None None) _ _ _ (dk_reset_buffer _ _ RC_END_SESSION (Some id) x)).
    apply (proj2 (dk_pre None None) _ y); [exact (eqk_dk _ _ _ _ (eqk_send_s _ _ _ _ _ _ P0))|exact (eqk_dk _ _ _ _ (eqk_recv_s _ _ _ _ _ _ P1))]. }
  assert (Oz : ot id x y0). { apply (proj2 (ot_pre id) _ _ _ (ot_reset_buffer RC_END_SESSION id x)). apply (proj2 (ot_pre id) _ y); [exact (ot_send _ _ _ _ _ _ P0)|exact (ot_recv _ _ _ _ _ _ P1)]. }
  assert (Qe : rel quiet (end_session_answer id v2)) by (unfold end_session_answer; qq). assert (Vz : ver y0 = ver x).
  { assert (K : same_nego x y0). { apply (proj2 sn_pre _ _ _ (sn_reset_buffer RC_END_SESSION (Some id) x)). apply (proj2 sn_pre _ y); apply keeps_sn; [exact (keeps_send_on _ (Some id) _ _ _ _ P0)|exact (keeps_recv_on _ (Some id) _ _ _ _ P1)]. }
    unfold same_nego in K. unfold ver. congruence. }
  assert (Ex : exchanged E (Some id) x x' v0 v2).
  { refine (exchanged_by E (Some id) false x _ _ _ _ _ _ _ x' (quiet_reset_buffer _ _ _) P0 (q_refl _) P1 (Qe _ _ _ H)). }
  unfold end_session_answer in H. apply on_response_ok in H as (r & Hb & H). apply reading_ok in H as (p & rest & D & H). bg H. bi H. apply ok_inv in P2 as [G ->].
  destruct (teardown_slot id y0 _ _ Tz Hz ltac:(congruence) H) as [To Gn]. destruct Oz as [O1 O2].
  assert (Hs : v0 = [ver x; 0xEC; 0; 0]).
  { assert (Vr : ver (reset_buffer RC_END_SESSION (Some id) x) = ver x) by (pose proof (sn_reset_buffer RC_END_SESSION (Some id) x) as K; unfold same_nego in K; unfold ver; congruence).
    refine (req_enc_exact _ _ _ _ _ _ _ P); rewrite Vr; reflexivity. }
  subst v0. split; [exists v2, r; split; [exact Ex|rewrite Hb, Vz; reflexivity]|]. split; [exact (torn_calm _ _ _ _ O1 O2 To)|]. split; [exact Gn|]. split.
  - intros. eapply refused_send; eauto.
  - intros. eapply refused_recv; eauto.
Qed.
Print Assumptions C44_requester_end_session_erases.
(** Case: the session of ExPair.v ended right after its handshake. *)
Example C44_requester_case : reached pr_env pr7 /\ pr_id <> 0 /\ get_sess pr_id pr7 <> None /\ exists u, end_session pr_env pr_id pr7 = (Ok u, snd (end_session pr_env pr_id pr7)).
Proof.
  split; [exact reached_pr7|]. split; [vm_compute; discriminate|]. split; [vm_compute; discriminate|]. apply okb_ok. vm_compute. reflexivity.
Qed.
