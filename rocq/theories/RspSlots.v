(** The responder always keeps eight certificate slots. *)
From Verif Require Import Bytes BytesFacts Status Codec Parse ParseProofs Algo Monad.
From Verif Require Import MsgConn MsgAuth MsgSession MsgOther Message Transport Crypto KeySchedule Session CertOps ChainVerify Context
  RspBase RspConn RspSess RspEncap Responder StRel RspFrame RspCalm RspOpcode RspSend RspPhase RspPass.
Local Open Scope N_scope.

Definition nslots (x x' : ctx) : Prop := length (x_my_chain x') = length (x_my_chain x).
Lemma nslots_pre : preorder nslots. Proof. split; unfold nslots; congruence. Qed.
Lemma nslots_calm sid x x' : calm sid x x' -> nslots x x'.
Proof. intros [H _]. unfold outline in H. unfold nslots. congruence. Qed.
Lemma construct_length cr hash d m r m' : construct_slots cr hash m d = (r, m') -> length m' = length m.
Proof.
  revert d r m'. induction m as [|a m IH]; intros d r m' H; cbn in H; [congruence|].
  destruct d as [|b d]; [congruence|]. destruct (construct_slot cr hash a b) as [c| |]; try (replace m' with (a :: m) by congruence; reflexivity).
  destruct (construct_slots cr hash m d) as [r1 l1] eqn:K. replace m' with (c :: l1) by congruence. cbn. f_equal. exact (IH _ _ _ K).
Qed.
Lemma nslots_construct cr : rel nslots (construct_my_cert_chain cr).
Proof.
  intros x r x' H. unfold construct_my_cert_chain in H. destruct (construct_slots _ _ _ _) as [r1 l] eqn:K.
  apply construct_length in K. replace x' with (set_x_my_chain l x) by congruence. exact K.
Qed.
Lemma nslots_on_sess {A} id (m : st session A) : rel nslots (on_sess id m).
Proof.
  intros x r x' E. unfold on_sess in E. destruct (get_sess id x) as [s|]; [destruct (m s)|];
    match type of E with (_, ?y) = _ => replace x' with y by congruence end; reflexivity.
Qed.
Ltac nsp :=
  first [ apply nslots_on_sess | apply nslots_construct
        | apply (rel_mono (calm None)); [intros; eapply nslots_calm; eassumption|first [apply calm_append_a|apply calm_random|apply calm_summary]]
        | match goal with |- rel nslots (append_k ?c ?i ?m) => apply (rel_mono (calm (Some i))); [intros; eapply nslots_calm; eassumption|apply calm_append_k] end
        | apply rel_mod; intro; apply (nslots_calm None), calm_reset_buffer | apply rel_mod; intro; reflexivity ].
Ltac ns := rl nslots_pre; try nsp.
Lemma nslots_version b : rel nslots (write_version b).
Proof. unfold write_version, then_append. ns. Qed.
Lemma nslots_capability b : rel nslots (write_capability b).
Proof. unfold write_capability, then_append. ns. Qed.
Lemma nslots_algorithm E b : rel nslots (write_algorithm E b).
Proof. unfold write_algorithm, then_append. ns. Qed.
Lemma nslots_key_exchange E b : rel nslots (write_key_exchange E b).
Proof. unfold write_key_exchange, exchange_start, open_session, key_exchange_finishing, rsp_hmac, or_abandon, abandon. ns. Qed.
Lemma nslots_psk_exchange E b : rel nslots (write_psk_exchange E b).
Proof. unfold write_psk_exchange, exchange_start, open_psk_session, psk_exchange_finishing, psk_context, rsp_hmac, or_abandon, abandon. ns. Qed.
Lemma nslots_after_secured id op : rel nslots (after_secured_send id op).
Proof. unfold after_secured_send. ns. Qed.
Lemma nslots_io : io_ok nslots.
Proof. intros E b. apply (rel_mono (calm None)); [intros; eapply nslots_calm; eassumption|apply calm_io_send]. Qed.
Lemma nslots_send_secured E id w app : rel nslots (send_secured_message E id w app).
Proof. apply rel_send_secured; [apply nslots_pre|apply nslots_io|intro; apply nslots_on_sess|intros; apply nslots_after_secured]. Qed.
Lemma nslots_after op : rel nslots (after_send op).
Proof.
  unfold after_send. ns; unfold smod; intros x r x' H.
  all: match type of H with (_, ?y) = _ => replace x' with y by congruence end.
  all: match goal with |- nslots _ (if ?c then _ else _) => destruct c end; reflexivity.
Qed.
Theorem frame_slots E f x r x' : hash_lengths (e_cr E) -> slots8 x -> process_frame E f x = (r, x') -> slots8 x'.
Proof.
  intros HL S8 H. unfold slots8. rewrite <- S8. revert H. revert S8.
  assert (K : slots8 x -> process_frame E f x = (r, x') -> nslots x x'); [|exact K].
  apply pass_frame with (P := fun _ _ => True) (F := fun _ _ _ _ => True) (G := fun _ => True); auto using nslots_pre.
  - intros sid y y' _ C. exact (nslots_calm _ _ _ C).
  - reflexivity.
  - intros; eapply nslots_version; eassumption.
  - intros; eapply nslots_capability; eassumption.
  - intros; eapply nslots_algorithm; eassumption.
  - intros; eapply nslots_key_exchange; eassumption.
  - intros; eapply nslots_psk_exchange; eassumption.
  - intros id b y r0 y' s _ _ _ _ _ K. unfold handle_finish in K. revert K. apply (rel_bind _ nslots_pre _ _ (rel_get _ nslots_pre)).
    intro z. apply rel_bind; [apply nslots_pre|apply (rel_mono (calm (Some id))); [intros; eapply nslots_calm; eassumption|apply calm_write_finish]|].
    intro w. destruct (in_clear _); [|apply nslots_send_secured].
    apply rel_send_message; [apply nslots_pre|apply nslots_io|intros; apply nslots_after].
  - intros id b y r0 y' s _ _ _ _. apply rel_bind; [apply nslots_pre| |intro; apply nslots_send_secured].
    apply (rel_mono (calm (Some id))); [intros; eapply nslots_calm; eassumption|apply calm_write_psk_finish].
  - intros id b y r0 y' s _ _ _ _. apply rel_bind; [apply nslots_pre| |intro; apply nslots_send_secured].
    apply (rel_mono (calm (Some id))); [intros; eapply nslots_calm; eassumption|apply calm_write_end_session].
  - intros id b y r0 y' s _ _. unfold dispatch_app. destruct (e_app E id b); try apply rel_panic, nslots_pre.
    apply rel_bind; [apply nslots_pre|apply rel_assert, nslots_pre|intro; apply nslots_send_secured].
Qed.
Lemma recv_slots E f x x' : slots8 x -> io_recv E x = (Ok f, x') -> slots8 x'.
Proof. unfold io_recv. intros H K. match type of K with (_, ?y) = _ => replace x' with y by congruence end. exact H. Qed.
