(** The responder never changes its own configuration. *)
From Verif Require Import Bytes BytesFacts Status Codec Parse ParseProofs Algo Monad.
From Verif Require Import MsgConn MsgAuth MsgSession MsgOther Message Transport Crypto KeySchedule Session CertOps ChainVerify Context
  RspBase RspConn RspSess RspEncap Responder StRel RspFrame RspCalm RspOpcode RspSend RspPhase RspPass.
Local Open Scope N_scope.

Definition ncfg (x x' : ctx) : Prop := x_cfg x' = x_cfg x.
Lemma ncfg_pre : preorder ncfg. Proof. split; unfold ncfg; congruence. Qed.
Lemma ncfg_calm sid x x' : calm sid x x' -> ncfg x x'.
Proof. intros [H _]. unfold outline in H. unfold ncfg. congruence. Qed.
Lemma ncfg_construct cr : rel ncfg (construct_my_cert_chain cr).
Proof.
  intros x r x' H. unfold construct_my_cert_chain in H. destruct (construct_slots _ _ _ _) as [r1 l] eqn:K.
  replace x' with (set_x_my_chain l x) by congruence. reflexivity.
Qed.
Lemma ncfg_on_sess {A} id (m : st session A) : rel ncfg (on_sess id m).
Proof.
  intros x r x' E. unfold on_sess in E. destruct (get_sess id x) as [s|]; [destruct (m s)|];
    match type of E with (_, ?y) = _ => replace x' with y by congruence end; reflexivity.
Qed.
Ltac nsp :=
  first [ apply ncfg_on_sess | apply ncfg_construct
        | apply (rel_mono (calm None)); [intros; eapply ncfg_calm; eassumption|first [apply calm_append_a|apply calm_random|apply calm_summary]]
        | match goal with |- rel ncfg (append_k ?c ?i ?m) => apply (rel_mono (calm (Some i))); [intros; eapply ncfg_calm; eassumption|apply calm_append_k] end
        | apply rel_mod; intro; apply (ncfg_calm None), calm_reset_buffer | apply rel_mod; intro; reflexivity ].
Ltac ns := rl ncfg_pre; try nsp.
Lemma ncfg_version b : rel ncfg (write_version b).
Proof. unfold write_version, then_append. ns. Qed.
Lemma ncfg_capability b : rel ncfg (write_capability b).
Proof. unfold write_capability, then_append. ns. Qed.
Lemma ncfg_algorithm E b : rel ncfg (write_algorithm E b).
Proof. unfold write_algorithm, then_append. ns. Qed.
Lemma ncfg_key_exchange E b : rel ncfg (write_key_exchange E b).
Proof. unfold write_key_exchange, exchange_start, open_session, key_exchange_finishing, rsp_hmac, or_abandon, abandon. ns. Qed.
Lemma ncfg_psk_exchange E b : rel ncfg (write_psk_exchange E b).
Proof. unfold write_psk_exchange, exchange_start, open_psk_session, psk_exchange_finishing, psk_context, rsp_hmac, or_abandon, abandon. ns. Qed.
Lemma ncfg_after_secured id op : rel ncfg (after_secured_send id op).
Proof. unfold after_secured_send. ns. Qed.
Lemma ncfg_io : io_ok ncfg.
Proof. intros E b. apply (rel_mono (calm None)); [intros; eapply ncfg_calm; eassumption|apply calm_io_send]. Qed.
Lemma ncfg_send_secured E id w app : rel ncfg (send_secured_message E id w app).
Proof. apply rel_send_secured; [apply ncfg_pre|apply ncfg_io|intro; apply ncfg_on_sess|intros; apply ncfg_after_secured]. Qed.
Lemma ncfg_after op : rel ncfg (after_send op).
Proof.
  unfold after_send. ns; unfold smod; intros x r x' H.
  all: match type of H with (_, ?y) = _ => replace x' with y by congruence end.
  all: match goal with |- ncfg _ (if ?c then _ else _) => destruct c end; reflexivity.
Qed.
Theorem frame_cfg E f x r x' : hash_lengths (e_cr E) -> slots8 x -> process_frame E f x = (r, x') -> x_cfg x' = x_cfg x.
Proof.
  intros HL S8 H. revert H. revert S8.
  assert (K : slots8 x -> process_frame E f x = (r, x') -> ncfg x x'); [|exact K].
  apply pass_frame with (P := fun _ _ => True) (F := fun _ _ _ _ => True) (G := fun _ => True); auto using ncfg_pre.
  - intros sid y y' _ C. exact (ncfg_calm _ _ _ C).
  - reflexivity.
  - intros; eapply ncfg_version; eassumption.
  - intros; eapply ncfg_capability; eassumption.
  - intros; eapply ncfg_algorithm; eassumption.
  - intros; eapply ncfg_key_exchange; eassumption.
  - intros; eapply ncfg_psk_exchange; eassumption.
  - intros id b y r0 y' s _ _ _ _ _ K. unfold handle_finish in K. revert K. apply (rel_bind _ ncfg_pre _ _ (rel_get _ ncfg_pre)).
    intro z. apply rel_bind; [apply ncfg_pre|apply (rel_mono (calm (Some id))); [intros; eapply ncfg_calm; eassumption|apply calm_write_finish]|].
    intro w. destruct (in_clear _); [|apply ncfg_send_secured].
    apply rel_send_message; [apply ncfg_pre|apply ncfg_io|intros; apply ncfg_after].
  - intros id b y r0 y' s _ _ _ _. apply rel_bind; [apply ncfg_pre| |intro; apply ncfg_send_secured].
    apply (rel_mono (calm (Some id))); [intros; eapply ncfg_calm; eassumption|apply calm_write_psk_finish].
  - intros id b y r0 y' s _ _ _ _. apply rel_bind; [apply ncfg_pre| |intro; apply ncfg_send_secured].
    apply (rel_mono (calm (Some id))); [intros; eapply ncfg_calm; eassumption|apply calm_write_end_session].
  - intros id b y r0 y' s _ _. unfold dispatch_app. destruct (e_app E id b); try apply rel_panic, ncfg_pre.
    apply rel_bind; [apply ncfg_pre|apply rel_assert, ncfg_pre|intro; apply ncfg_send_secured].
Qed.
