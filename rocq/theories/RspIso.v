(** Which sessions a frame can reach, and how a session comes to be established. *)
From Verif Require Import Bytes BytesFacts Status Codec Parse ParseProofs Algo Monad.
From Verif Require Import MsgConn MsgAuth MsgSession MsgOther Message Opaque Transport Crypto KeySchedule Session CertOps ChainVerify Context
  RspBase RspConn RspSess RspEncap Responder StRel RspFrame RspCalm RspOpcode RspSend SpecResponder RspPhase RspPass RspSlots RspTable.
From Coq Require Import Lia.
Local Open Scope N_scope.

Lemma Forall2_refl {A} (R : A -> A -> Prop) l : (forall a, R a a) -> Forall2 R l l.
Proof. intro H. induction l; constructor; auto. Qed.
Lemma Forall2_trans {A} (R : A -> A -> Prop) : (forall a b c, R a b -> R b c -> R a c) ->
  forall l1 l2 l3, Forall2 R l1 l2 -> Forall2 R l2 l3 -> Forall2 R l1 l3.
Proof. intros H l1 l2 l3 H1. revert l3. induction H1; intros l3 H2; inversion H2; subst; constructor; eauto. Qed.
Lemma Forall2_mono {A} (R R' : A -> A -> Prop) l l' : (forall a b, R a b -> R' a b) -> Forall2 R l l' -> Forall2 R' l l'.
Proof. intros H F. induction F; constructor; auto. Qed.

Lemma Forall2_len {A} (R : A -> A -> Prop) l l' : Forall2 R l l' -> length l' = length l.
Proof. induction 1; cbn; congruence. Qed.

(** ** slot by slot relations *)
Definition slotwise (D : session -> session -> Prop) (x x' : ctx) : Prop := Forall2 D (x_sess x) (x_sess x').
Lemma slotwise_pre (D : session -> session -> Prop) : (forall s, D s s) -> (forall a b c, D a b -> D b c -> D a c) -> preorder (slotwise D).
Proof. intros A B. split; intros; [now apply Forall2_refl|eapply Forall2_trans; eauto]. Qed.
Lemma slotwise_field (D : session -> session -> Prop) x x' : (forall s, D s s) -> x_sess x' = x_sess x -> slotwise D x x'.
Proof. intros A B. unfold slotwise. rewrite B. now apply Forall2_refl. Qed.
Lemma upd_slotwise (D : session -> session -> Prop) id s1 l : (forall s, D s s) -> (forall s, find_sess id l = Some s -> s_id s = id -> D s s1) -> Forall2 D l (upd_sess id (fun _ => s1) l).
Proof.
  intros HD. unfold find_sess. induction l as [|s l IH]; intro H; cbn; [constructor|]. cbn in H. destruct (N.eqb_spec (s_id s) id) as [Z|Z].
  - constructor; [now apply H|now apply Forall2_refl].
  - constructor; [apply HD|exact (IH H)].
Qed.
Lemma slotwise_on_sess (D : session -> session -> Prop) {A} id (m : st session A) : (forall s, D s s) -> (forall s r s', s_id s = id -> m s = (r, s') -> D s s') -> rel (slotwise D) (on_sess id m).
Proof.
  intros HD Hm x r x' E. unfold on_sess in E. destruct (get_sess id x) as [s|] eqn:G; [|replace x' with x by congruence; now apply Forall2_refl].
  destruct (m s) as [o s1] eqn:M. replace x' with (mod_sess id (fun _ => s1) x) by congruence. unfold slotwise, mod_sess. cbn [x_sess set_x_sess].
  apply upd_slotwise; [exact HD|]. intros s2 Hs Hid. unfold get_sess in G. replace s2 with s in * by congruence. exact (Hm _ _ _ Hid M).
Qed.
Lemma slotwise_calm (D : session -> session -> Prop) sid : (forall s s', skey s' = skey s -> (s' = s \/ Some (s_id s) = sid) -> D s s') -> forall x x', calm sid x x' -> slotwise D x x'.
Proof.
  intros H x x' [A B]. unfold outline in A. assert (K : map skey (x_sess x') = map skey (x_sess x)) by congruence. clear A. unfold slotwise.
  unfold others in B. revert K. induction B; intro K; constructor; cbn in K; [apply H; [congruence|assumption]|apply IHB; congruence].
Qed.

(** ** reach: [T] holds of the sessions the frame may change *)
Section reach.
  Context (T : session -> Prop).
  Definition kept (s s' : session) : Prop := s' = s \/ T s.
  Definition reach : ctx -> ctx -> Prop := slotwise kept.
  Lemma kept_refl s : kept s s. Proof using. now left. Qed.
  Lemma reach_pre : preorder reach.
  Proof using. apply slotwise_pre; [apply kept_refl|]. intros a b c [->|H1] [->|H2]; unfold kept; auto. Qed.
  Lemma reach_field x x' : x_sess x' = x_sess x -> reach x x'.
  Proof using. intro H. apply slotwise_field; [apply kept_refl|exact H]. Qed.
  Lemma reach_calm sid : (forall s, Some (s_id s) = sid -> T s) -> forall x x', calm sid x x' -> reach x x'.
  Proof using. intros H. apply slotwise_calm. intros s s' _ [->|K]; [now left|right; auto]. Qed.
  Lemma reach_on_sess {A} id (m : st session A) : (forall s, s_id s = id -> T s) -> rel reach (on_sess id m).
  Proof using. intros H. apply slotwise_on_sess; [apply kept_refl|]. intros s r s' Z _. right. auto. Qed.
  Lemma reach_io : io_ok reach.
  Proof using. intros E b. apply (rel_mono (calm None)); [apply reach_calm; discriminate|apply calm_io_send]. Qed.
  Lemma reach_send_secured E id w app : (forall s, s_id s = id -> T s) -> rel reach (send_secured_message E id w app).
  Proof using.
    intro H. apply rel_send_secured; [apply reach_pre|apply reach_io|intro; now apply reach_on_sess|].
    intros op _. unfold after_secured_send. rl reach_pre; now apply reach_on_sess.
  Qed.
  Lemma reach_opened (Q : sstate -> Prop) x x' : (forall s, s_id s = 0 -> T s) -> opened Q x x' -> reach x x'.
  Proof using.
    intros H [(K & _)|(l1 & s0 & l2 & id & S0 & Z & _ & (_ & s1 & S1 & _))]; [now apply reach_field|].
    unfold reach, slotwise. rewrite S0, S1. apply Forall2_app; [apply Forall2_refl, kept_refl|]. constructor; [right; auto|apply Forall2_refl, kept_refl].
  Qed.
  Lemma reach_all : (forall s, T s) -> forall x x', length (x_sess x') = length (x_sess x) -> reach x x'.
  Proof using.
    intros H x x'. unfold reach, slotwise. generalize (x_sess x) (x_sess x'). induction l as [|a l IH]; intros [|b l'] L; try discriminate; constructor; [right; auto|].
    apply IH. cbn in L. congruence.
  Qed.
End reach.
Ltac rc1 :=
  first [ apply rel_mod; intro; apply reach_field; reflexivity
        | apply rel_mod; intro; apply (reach_calm _ None); [discriminate|apply calm_reset_buffer]
        | apply (rel_mono (calm None)); [apply reach_calm; discriminate|first [apply calm_append_a|apply calm_random|apply calm_summary]]
        | (intros ? ? ? KK; unfold construct_my_cert_chain in KK; destruct (construct_slots _ _ _ _);
           match type of KK with (_, ?y) = _ => match goal with |- reach _ _ ?z => replace z with y by congruence end end; apply reach_field; reflexivity) ].
Lemma reach_capability T b : rel (reach T) (write_capability b).
Proof. unfold write_capability, then_append. rl (reach_pre T); try rc1. Qed.
Lemma reach_algorithm T E b : rel (reach T) (write_algorithm E b).
Proof. unfold write_algorithm, then_append. rl (reach_pre T); try rc1. Qed.
Lemma reach_version (T : session -> Prop) b : (forall s, T s) -> rel (reach T) (write_version b).
Proof.
  intro H. unfold write_version, then_append. rl (reach_pre T); try rc1.
  apply rel_mod. intro x. apply reach_all; [exact H|]. unfold reset_context. cbn [x_sess set_x_sess]. apply map_length.
Qed.
Lemma read_names b id : read_session_id b = Some id -> names_session b id.
Proof. unfold read_session_id, names_session. destruct (N.ltb_spec (len b) 4); [discriminate|]. intro H0. split; [assumption|congruence]. Qed.
Theorem frame_reach E f x r x' : hash_lengths (e_cr E) -> (forall b, plain_message E f = Some b -> bytes_ok b) -> slots8 x -> tok x ->
  process_frame E f x = (r, x') -> reach (may_touch E f x) x x'.
Proof.
  intros HL HB S8 Tx. set (T := may_touch E f x).
  apply pass_frame with (P := fun b y => y = x /\ plain_message E f = Some b) (F := fun id b _ y => forall s, s_id s = id -> T s)
    (G := fun sid => forall s, Some (s_id s) = sid -> T s); auto using reach_pre.
  - discriminate.
  - intros sid y y' Hs C. exact (reach_calm _ _ Hs _ _ C).
  - intros; now apply reach_field.
  - intros b y r0 y' [_ Hb] Hc K. revert K. apply reach_version. intro s. now apply (mt_version E f x s b).
  - intros; eapply reach_capability; eassumption.
  - intros; eapply reach_algorithm; eassumption.
  - intros b y r0 y' [-> Hb] Hc K. eapply (reach_opened T kx_states); [|eapply opens_key_exchange; eauto].
    intros s Hs. apply (mt_exchange E f x s b 0xE4); auto.
  - intros b y r0 y' [-> Hb] Hc K. eapply (reach_opened T (px_states x)); [|eapply opens_psk_exchange; eauto].
    intros s Hs. apply (mt_exchange E f x s b 0xE6); auto.
  - intros id b y r0 y' s Fs _ LI _ _ H. unfold handle_finish in H. unfold sbind at 1, sget at 1 in H.
    assert (W : rel (calm (Some id)) (write_finish E id b)) by apply calm_write_finish.
    assert (RC : forall u v, calm (Some id) u v -> reach T u v) by (apply reach_calm; intros; apply Fs; congruence).
    unfold sbind in H. destruct (write_finish E id b y) as [[w|e|] z] eqn:WF; pose proof (W _ _ _ WF) as C;
      [|replace y' with z by congruence; auto|replace y' with z by congruence; auto].
    eapply reach_pre; [exact (RC _ _ C)|]. destruct (in_clear (xc y)); [|exact (reach_send_secured T E id w false Fs _ _ _ H)].
    assert (K : lastid id z). { left. rewrite <- (LI eq_refl). destruct C as [C _]. unfold outline in C. congruence. }
    apply (clear_finish_send (reach T) E id w (reach_pre T)) in H; [exact (proj1 (H K))|apply reach_calm; discriminate|..].
    + intros; now apply reach_field.
    + intros; now apply reach_field.
    + now apply reach_on_sess.
  - intros id b y r0 y' s Fs _ _ _. unfold handle_psk_finish.
    apply (rel_bind (reach T)); [apply reach_pre|apply (rel_mono (calm (Some id))); [apply reach_calm; intros; apply Fs; congruence|apply calm_write_psk_finish]|].
    intro w. now apply reach_send_secured.
  - intros id b y r0 y' s Fs _ _ _. unfold handle_end_session.
    apply (rel_bind (reach T)); [apply reach_pre|apply (rel_mono (calm (Some id))); [apply reach_calm; intros; apply Fs; congruence|apply calm_write_end_session]|].
    intro w. now apply reach_send_secured.
  - intros id b y r0 y' s Fs _. unfold dispatch_app. destruct (e_app E id b); try apply (rel_panic (reach T)), reach_pre.
    apply (rel_bind (reach T)); [apply reach_pre|apply rel_assert, reach_pre|intro; now apply reach_send_secured].
  - intros b Hb. split; [reflexivity|]. unfold plain_message. rewrite Hb. reflexivity.
  - intros b id Hb Hc _ Hl s Hs. apply (mt_finish E f x s b); [unfold plain_message; rewrite Hb; reflexivity|exact Hc|congruence].
  - intros b id Hb Hr s Hs. apply (mt_named E f x s b); [unfold secured_message; rewrite Hb; reflexivity|]. replace (s_id s) with id by congruence. now apply read_names.
  - intros b id s0 a s1 m app Hb Hr _ _ _ s Hs. apply (mt_named E f x s b); [unfold secured_message; rewrite Hb; reflexivity|]. rewrite Hs. now apply read_names.
Qed.
