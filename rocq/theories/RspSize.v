(** How long the messages are that the responder sends. *)
From Verif Require Import Bytes BytesFacts Status Codec Parse ParseProofs Algo Monad.
From Verif Require Import MsgConn MsgAuth MsgSession MsgOther Message Transport Crypto KeySchedule Session CertOps ChainVerify Context
  RspBase RspConn RspSess RspEncap Responder StRel RspFrame RspCalm RspOpcode RspSend SpecResponder.
From Coq Require Import Lia.
Local Open Scope N_scope.

Definition dts (x : ctx) : N := n_req_dts (x_nego x).
Definition sized (E : env) (d : N) (t : bytes) : Prop :=
  exists m app, carries E t m app /\ (app = true \/ d = 0 \/ len m <= d).
Definition says (E : env) (x x' : ctx) : Prop :=
  dts x' = dts x /\ exists l, x_sent x' = l ++ x_sent x /\ Forall (sized E (dts x')) l.
Lemma says_pre E : preorder (says E).
Proof.
  split; [intro x; split; [reflexivity|exists []; split; [reflexivity|constructor]]|].
  intros x y z (A1 & l1 & A2 & A3) (B1 & l2 & B2 & B3). split; [congruence|]. exists (l2 ++ l1). split; [rewrite B2, A2; apply app_assoc|].
  apply Forall_app. split; [exact B3|]. rewrite B1. exact A3.
Qed.
Lemma says_field E x x' : x_sent x' = x_sent x -> dts x' = dts x -> says E x x'.
Proof. intros A B. split; [exact B|]. exists []. split; [exact A|constructor]. Qed.
Lemma calm_dts sid x x' : calm sid x x' -> dts x' = dts x.
Proof. intros [K _]. unfold outline, dts in *. congruence. Qed.
Lemma says_qc {A} E sid (m : st ctx A) : rel quiet m -> rel (calm sid) m -> rel (says E) m.
Proof. intros H1 H2 x r x' H. apply says_field; [exact (proj1 (H1 _ _ _ H))|exact (calm_dts sid _ _ (H2 _ _ _ H))]. Qed.
Lemma says_on_sess {A} E id (m : st session A) : rel (says E) (on_sess id m).
Proof.
  intros x r x' H. unfold on_sess in H. destruct (get_sess id x) as [s|]; [destruct (m s) as [r1 s1]|];
    match type of H with (_, ?y) = _ => replace x' with y by congruence end; apply says_field; reflexivity.
Qed.
Lemma says_reset_buffer E c sid x : says E x (reset_buffer c sid x).
Proof. apply says_field; [apply quiet_reset_buffer|apply (calm_dts sid), calm_reset_buffer]. Qed.
Ltac says_field := apply rel_mod; intro; apply says_field; reflexivity.
Ltac sy1 :=
  first [ apply (says_qc _ None); [apply quiet_append_m1m2|apply calm_append_m1m2]
        | match goal with |- rel _ (append_m _ ?sid _) => apply (says_qc _ sid); [apply quiet_append_m|apply calm_append_m] end
        | apply (says_qc _ None); [apply quiet_append_a|apply calm_append_a]
        | apply (says_qc _ None); [apply quiet_random|apply calm_random]
        | apply (says_qc _ None); [apply quiet_summary|apply calm_summary]
        | match goal with |- rel _ (append_f _ _ ?id _) => apply (says_qc _ (Some id)); [apply quiet_append_f|apply calm_append_f] end
        | apply says_on_sess
        | apply rel_mod; intro; apply says_reset_buffer
        | match goal with |- rel _ (smod (reset_m ?sid)) => apply rel_mod; intro; destruct sid; apply says_field; reflexivity end
        | says_field ].
Ltac sy E := rl (says_pre E); try sy1.

(** ** sending *)
Lemma says_after E op : rel (says E) (after_send op).
Proof. unfold after_send. sy E. apply rel_mod. intro x. destruct (_ <? _); apply says_field; reflexivity. apply rel_mod. intro x. destruct (_ <? _); apply says_field; reflexivity. Qed.
Lemma says_after_secured E id op : rel (says E) (after_secured_send id op).
Proof. unfold after_secured_send. sy E. Qed.
Lemma too_large_fits x b : too_large x b = false -> dts x = 0 \/ len b <= dts x.
Proof. unfold too_large, dts. destruct (N.eqb_spec (n_req_dts (x_nego x)) 0); [now left|]. cbn. intro H. right. now apply N.ltb_ge. Qed.
Lemma io_send_says E b x r x' (P : dts x = dts x) : sized E (dts x) b -> io_send E b x = (r, x') -> says E x x'.
Proof.
  intros Z H. unfold io_send in H. destruct (e_send E (x_io x) b);
    match type of H with (_, ?y) = _ => replace x' with y by congruence end.
  - apply says_field; reflexivity.
  - split; [reflexivity|]. exists [b]. split; [reflexivity|]. constructor; [exact Z|constructor].
Qed.
Lemma says_send_raw E b x r x' : dts x = 0 \/ len b <= dts x -> send_raw E b x = (r, x') -> says E x x'.
Proof.
  intros F H. unfold send_raw in H. unfold sbind at 1, sof at 1 in H. destruct (tr_encap _ _ b false) as [t| |] eqn:T.
  2,3: replace x' with x by congruence; apply says_pre.
  unfold sbind at 1 in H. destruct (io_send E t x) as [o y] eqn:S.
  assert (Y : says E x y) by (refine (io_send_says E t x _ _ eq_refl _ S); exists b, false; split; [now constructor|now right]).
  destruct o; [|replace x' with y by congruence; exact Y|replace x' with y by congruence; exact Y].
  eapply says_pre; [exact Y|]. revert H. apply (rel_bind _ (says_pre E)); [apply rel_unwrap, says_pre|intro; apply says_after].
Qed.
Lemma says_send_message E b : rel (says E) (send_message E b).
Proof.
  intros x r x' H. unfold send_message in H. unfold sbind at 1, sget at 1 in H. destruct (too_large x b) eqn:T.
  - unfold sbind in H. unfold write_err in H. rewrite write_err_nil in H. destruct (too_large x (error_bytes _ _ _)) eqn:T2.
    + replace x' with x by (unfold spanic in H; congruence). apply says_pre.
    + exact (says_send_raw _ _ _ _ _ (too_large_fits _ _ T2) H).
  - exact (says_send_raw _ _ _ _ _ (too_large_fits _ _ T) H).
Qed.
Lemma says_encode E id b req app : rel (says E) (encode_secured_message E id b req app).
Proof. apply rel_encode_secured; [apply says_pre|]. intro. apply says_on_sess. Qed.
Lemma says_secured_raw E id b app x r x' : app = true \/ dts x = 0 \/ len b <= dts x -> send_secured_raw E id b app x = (r, x') -> says E x x'.
Proof.
  intros F H. unfold send_secured_raw in H. unfold sbind at 1 in H. destruct (encode_secured_message E id b false app x) as [[t| |] y] eqn:T.
  2,3: replace x' with y by congruence; exact (says_encode _ _ _ _ _ _ _ _ T).
  pose proof (says_encode _ _ _ _ _ _ _ _ T) as Y. eapply says_pre; [exact Y|]. clear Y. unfold sbind at 1 in H. destruct (io_send E t y) as [o z] eqn:S.
  assert (Z : says E y z).
  { refine (io_send_says E t y _ _ eq_refl _ S). exists b, app. split; [econstructor; exact T|]. rewrite (proj1 (says_encode _ _ _ _ _ _ _ _ T)). exact F. }
  destruct o; [|replace x' with z by congruence; exact Z|replace x' with z by congruence; exact Z].
  eapply says_pre; [exact Z|]. revert H. apply (rel_bind _ (says_pre E)); [apply rel_unwrap, says_pre|intro; apply says_after_secured].
Qed.
Lemma says_send_secured E id b app : rel (says E) (send_secured_message E id b app).
Proof.
  intros x r x' H. unfold send_secured_message in H. unfold sbind at 1, sget at 1 in H. destruct (negb app && too_large x b) eqn:T.
  - unfold sbind in H. unfold write_err in H. rewrite write_err_nil in H. destruct (too_large x (error_bytes _ _ _)) eqn:T2.
    + replace x' with x by (unfold spanic in H; congruence). apply says_pre.
    + exact (says_secured_raw _ _ _ _ _ _ _ (or_intror (too_large_fits _ _ T2)) H).
  - refine (says_secured_raw _ _ _ _ _ _ _ _ H). destruct app; [now left|]. right. apply too_large_fits, T.
Qed.
Lemma says_send_on E sid b : rel (says E) (send_on E sid b).
Proof. destruct sid; [apply says_send_secured|apply says_send_message]. Qed.
Lemma says_spdm_error E c : rel (says E) (send_spdm_error E c).
Proof. unfold send_spdm_error. apply rel_write_err_bind. intro v. sy E. apply says_send_message. Qed.

(** ** the handlers *)
Ltac sy2 E := repeat (progress (sy E; try apply says_send_message; try apply says_send_secured; try apply says_send_on; try apply says_spdm_error)).
Lemma says_algorithm E b : rel (says E) (handle_algorithm E b).
Proof.
  unfold handle_algorithm, write_algorithm, then_append. sy2 E.
  - apply rel_mod. intro x. apply says_field; [reflexivity|]. unfold dts, modn, take_offer. cbn [x_nego set_x_nego].
    enough (G : forall l n, n_req_dts (fold_left take_alg l n) = n_req_dts n) by (rewrite G; reflexivity).
    clear. induction l as [|a l IH]; intro n; [reflexivity|]. cbn [fold_left]. rewrite IH. unfold take_alg. repeat match goal with |- context [match ?e with _ => _ end] => destruct e end; reflexivity.
  - intros x r0 x' H. unfold construct_my_cert_chain in H. destruct (construct_slots _ _ _ _); match type of H with (_, ?y) = _ => replace x' with y by congruence end; apply says_field; reflexivity.
Qed.
Lemma says_digest E sid b : rel (says E) (handle_digest E sid b).
Proof. unfold handle_digest, write_digest, append_b_on, append_b, then_append. sy2 E. Qed.
Lemma says_certificate E sid b : rel (says E) (handle_certificate E sid b).
Proof. unfold handle_certificate, write_certificate, append_b_on, append_b, then_append. sy2 E. Qed.
Lemma says_challenge E b : rel (says E) (handle_challenge E b).
Proof. unfold handle_challenge, write_challenge, append_c, then_append. sy2 E. Qed.
Lemma says_measurement E sid b : rel (says E) (handle_measurement E sid b).
Proof. unfold handle_measurement, write_measurement, measure, then_append. sy2 E. Qed.
Lemma says_key_exchange E b : rel (says E) (handle_key_exchange E b).
Proof. unfold handle_key_exchange, write_key_exchange, exchange_start, open_session, key_exchange_finishing, rsp_hmac, or_abandon, abandon. sy2 E. Qed.
Lemma says_psk_exchange E b : rel (says E) (handle_psk_exchange E b).
Proof. unfold handle_psk_exchange, write_psk_exchange, exchange_start, open_psk_session, psk_exchange_finishing, psk_context, rsp_hmac, or_abandon, abandon. sy2 E. Qed.
Lemma says_vendor E sid b : rel (says E) (handle_vendor E sid b).
Proof. unfold handle_vendor, write_vendor. sy2 E. Qed.
Lemma says_error E c sid b : rel (says E) (handle_error_request E c sid b).
Proof. unfold handle_error_request, write_error_response. sy2 E. Qed.
Lemma says_finish E id b : rel (says E) (handle_finish E id b).
Proof. unfold handle_finish, write_finish, check_finish, verify_finish_signature, finish_reply, data_keys. sy2 E. Qed.
Lemma says_psk_finish E id b : rel (says E) (handle_psk_finish E id b).
Proof. unfold handle_psk_finish, write_psk_finish, check_psk_finish, data_keys. sy2 E. Qed.
Lemma says_heartbeat E id b : rel (says E) (handle_heartbeat E id b).
Proof. unfold handle_heartbeat, write_heartbeat. sy2 E. Qed.
Lemma says_key_update E id b : rel (says E) (handle_key_update E id b).
Proof. unfold handle_key_update, write_key_update, key_update_op. sy2 E. Qed.
Lemma says_end_session E id b : rel (says E) (handle_end_session E id b).
Proof. unfold handle_end_session, write_end_session. sy2 E. Qed.
Lemma says_get_encap E id b : rel (says E) (handle_get_encap E id b).
Proof. unfold handle_get_encap, write_encap_request, encap_version, encap_check, encap_fail, encap_get_cert. sy2 E. Qed.
Lemma says_deliver_encap E id b : rel (says E) (handle_deliver_encap E id b).
Proof. unfold handle_deliver_encap, write_encap_ack, encap_version, encap_check, process_encap, encap_fail, encap_get_cert, encap_certificate. sy2 E;
  apply rel_mod; intro x; destruct (x_peer_temp x); apply says_field; reflexivity.
Qed.
Lemma says_app E id b : rel (says E) (dispatch_app E id b).
Proof. unfold dispatch_app. sy2 E. Qed.
Lemma says_dispatch_secured E id b : rel (says E) (dispatch_secured E id b).
Proof.
  unfold dispatch_secured, dispatch_handshaking, dispatch_established. sy E; auto using says_get_encap, says_deliver_encap, says_finish, says_psk_finish, says_vendor, says_error,
    says_digest, says_certificate, says_measurement, says_heartbeat, says_key_update, says_end_session.
Qed.
Lemma says_is_ok E m : rel (says E) m -> rel (says E) (is_ok m).
Proof. intro H. unfold is_ok. sy E. exact H. Qed.
Lemma says_process_secured E b : rel (says E) (process_secured E b).
Proof.
  unfold process_secured. sy E; apply says_is_ok; [apply says_app|apply says_dispatch_secured].
Qed.

(** ** a frame: GET_VERSION and GET_CAPABILITIES set the size, and send afterwards *)
Definition ends_sized (E : env) (x x' : ctx) : Prop := exists l, x_sent x' = l ++ x_sent x /\ Forall (sized E (dts x')) l.
Lemma says_ends E x x' : says E x x' -> ends_sized E x x'. Proof. intros [_ H]. exact H. Qed.
Lemma quiet_then {A} E (m : st ctx A) (k : A -> st ctx unit) x r x' : rel quiet m -> (forall a, rel (says E) (k a)) -> sbind m k x = (r, x') -> ends_sized E x x'.
Proof.
  intros Hm Hk H. unfold sbind in H. destruct (m x) as [[a|e|] y] eqn:M; pose proof (Hm _ _ _ M) as [Q _].
  - destruct (Hk a _ _ _ H) as (_ & l & L1 & L2). exists l. split; [congruence|exact L2].
  - replace x' with y by congruence. exists []. split; [exact Q|constructor].
  - replace x' with y by congruence. exists []. split; [exact Q|constructor].
Qed.
Ltac qu :=
  first [ apply quiet_append_a | apply rel_mod; intro; apply quiet_reset_buffer | apply rel_mod; intro; split; reflexivity ].
Lemma quiet_version b : rel quiet (write_version b).
Proof. unfold write_version, then_append. rl quiet_pre; try qu. Qed.
Lemma quiet_capability b : rel quiet (write_capability b).
Proof. unfold write_capability, then_append. rl quiet_pre; try qu. Qed.
Theorem frame_sized E f x r x' : process_frame E f x = (r, x') -> ends_sized E x x'.
Proof.
  unfold process_frame. destruct (tr_decap _ _ f) as [[b [|]]| |].
  - intro H. exact (says_ends _ _ _ (says_process_secured E b _ _ _ H)).
  - unfold is_ok, scatch. destruct (dispatch_message E b x) as [o y] eqn:D. intro H.
    assert (x' = y) as -> by (destruct o; unfold sret in H; congruence). clear H. revert D.
    unfold dispatch_message. destruct (read_header b) as [[h t]|]; [|intro H; replace y with x by (unfold serr in H; congruence); apply says_ends, says_pre]. cbv zeta.
    destruct (_ =? RC_GET_VERSION). { apply quiet_then; [apply quiet_version|apply says_send_message]. }
    destruct (_ =? RC_GET_CAPABILITIES). { apply quiet_then; [apply quiet_capability|apply says_send_message]. }
    intro D. apply says_ends. revert D. match goal with |- ?m x = _ -> _ => enough (G : rel (says E) m) by (exact (G _ _ _)) end.
    unfold dispatch_plain_finish. sy E; auto using says_finish, says_vendor, says_error, says_algorithm, says_digest, says_certificate, says_challenge, says_measurement, says_key_exchange, says_psk_exchange.
  - intro H. replace x' with x by (unfold sret in H; congruence). apply says_ends, says_pre.
  - intro H. replace x' with x by (unfold spanic in H; congruence). apply says_ends, says_pre.
Qed.
