(** Connection phases of the responder. *)
From Verif Require Import Bytes BytesFacts Status Codec Parse ParseProofs Algo Monad.
From Verif Require Import MsgConn MsgAuth MsgSession MsgOther Message Transport Crypto KeySchedule Session CertOps ChainVerify Context
  RspBase RspConn RspSess RspEncap Responder StRel RspFrame RspCalm RspOpcode RspSend SpecResponder.
From Coq Require Import Lia.
Local Open Scope N_scope.

Definition conn_eq (x x' : ctx) : Prop := x_conn x' = x_conn x.
Lemma conn_pre : preorder conn_eq. Proof. split; unfold conn_eq; congruence. Qed.
Lemma conn_calm sid x x' : calm sid x x' -> conn_eq x x'.
Proof. intros [H _]. unfold outline in H. unfold conn_eq. congruence. Qed.
Lemma rel_conn {A} sid (m : st ctx A) : rel (calm sid) m -> rel conn_eq m.
Proof. apply rel_mono. apply conn_calm. Qed.
Lemma conn_on_sess {A} id (m : st session A) : rel conn_eq (on_sess id m).
Proof.
  intros x r x' E. unfold on_sess in E. destruct (get_sess id x) as [s|]; [destruct (m s)|];
    match type of E with (_, ?y) = _ => replace x' with y by congruence end; reflexivity.
Qed.
Lemma conn_construct cr : rel conn_eq (construct_my_cert_chain cr).
Proof.
  intros x r x' E. unfold construct_my_cert_chain in E. destruct (construct_slots _ _ _ _).
  match type of E with (_, ?y) = _ => replace x' with y by congruence end; reflexivity.
Qed.
Lemma conn_reset_buffer c sid x : conn_eq x (reset_buffer c sid x).
Proof. apply (conn_calm sid), calm_reset_buffer. Qed.
Lemma conn_summary E t : rel conn_eq (summary E t).
Proof. exact (rel_conn None _ (calm_summary E t None)). Qed.
Lemma conn_append_a m : rel conn_eq (append_a m).
Proof. exact (rel_conn None _ (calm_append_a m None)). Qed.
Lemma conn_append_k cr id m : rel conn_eq (append_k cr id m).
Proof. exact (rel_conn _ _ (calm_append_k cr id m)). Qed.
Lemma conn_random cr n : rel conn_eq (get_random cr n).
Proof. exact (rel_conn None _ (calm_random cr n None)). Qed.
Ltac cnprim :=
  first [ apply conn_append_a | apply conn_append_k | apply conn_random | apply conn_summary | apply conn_on_sess
        | apply conn_construct | apply rel_mod; intro; apply conn_reset_buffer | apply rel_mod; intro; reflexivity ].
Ltac cn := rl conn_pre; try cnprim.

Lemma conn_write_capability b : rel conn_eq (write_capability b).
Proof. unfold write_capability, then_append. cn. Qed.
Lemma conn_write_algorithm E b : rel conn_eq (write_algorithm E b).
Proof. unfold write_algorithm, then_append. cn. Qed.
Lemma conn_write_key_exchange E b : rel conn_eq (write_key_exchange E b).
Proof.
  unfold write_key_exchange, exchange_start, open_session, key_exchange_finishing, rsp_hmac, or_abandon, abandon. cn.
Qed.
Lemma conn_write_psk_exchange E b : rel conn_eq (write_psk_exchange E b).
Proof.
  unfold write_psk_exchange, exchange_start, open_psk_session, psk_exchange_finishing, psk_context, rsp_hmac, or_abandon, abandon. cn.
Qed.
Lemma conn_io : io_ok conn_eq.
Proof. intros E b. exact (rel_conn None _ (calm_io_send E b None)). Qed.
(** replies that do not move the connection *)
Lemma conn_after op : op <> RC_VERSION -> op <> RC_CAPABILITIES -> op <> RC_ALGORITHMS -> op <> RC_DIGESTS ->
  op <> RC_CERTIFICATE -> op <> RC_CHALLENGE_AUTH -> rel conn_eq (after_send op).
Proof.
  intros. unfold after_send. repeat (rewrite (proj2 (N.eqb_neq op _)) by assumption). cn.
Qed.
Lemma conn_after_secured id op : rel conn_eq (after_secured_send id op).
Proof. unfold after_secured_send. cn. Qed.
Lemma conn_encode_secured E id b req app : rel conn_eq (encode_secured_message E id b req app).
Proof. apply rel_encode_secured; [apply conn_pre|intro; apply conn_on_sess]. Qed.
Lemma conn_send_secured E id b app : rel conn_eq (send_secured_message E id b app).
Proof.
  apply rel_send_secured; [apply conn_pre|apply conn_io|intro; apply conn_on_sess|intros; apply conn_after_secured].
Qed.
Lemma conn_send_rop E n b : n <> RC_VERSION -> n <> RC_CAPABILITIES -> n <> RC_ALGORITHMS -> n <> RC_DIGESTS ->
  n <> RC_CERTIFICATE -> n <> RC_CHALLENGE_AUTH -> rop n b -> rel conn_eq (send_message E b).
Proof.
  intros H1 H2 H3 H4 H5 H6 O. apply rel_send_message; [apply conn_pre|apply conn_io|]. intros op Hop.
  destruct O as [O|O]; rewrite O in Hop; injection Hop as <-; now apply conn_after.
Qed.
Lemma conn_handle_error E c sid b : rel conn_eq (handle_error_request E c sid b).
Proof.
  unfold handle_error_request. destruct sid as [id|].
  - apply rel_bind; [apply conn_pre|exact (rel_conn None _ (calm_error_response None c b))|intro; apply conn_send_secured].
  - apply (rel_bind_any _ conn_pre _ _ (rop RC_ERROR));
      [exact (rel_conn None _ (calm_error_response None c b))|apply op_error_response|].
    intros w O. now apply (conn_send_rop E RC_ERROR).
Qed.
Ltac cwr H := exact (rel_conn _ _ H).
Lemma conn_plain_write E b (m : st ctx bytes) n : n <> RC_VERSION -> n <> RC_CAPABILITIES -> n <> RC_ALGORITHMS ->
  n <> RC_DIGESTS -> n <> RC_CERTIFICATE -> n <> RC_CHALLENGE_AUTH ->
  rel conn_eq m -> val anyc m (rop n) -> rel conn_eq (sbind m (fun w => send_on E b w)).
Proof.
  intros H1 H2 H3 H4 H5 H6 Hm Hv. apply (rel_bind_any _ conn_pre _ _ (rop n)); [exact Hm|exact Hv|].
  intros w O. destruct b; [apply conn_send_secured|now apply (conn_send_rop E n)].
Qed.
Lemma conn_sec_write E id (m : st ctx bytes) app : rel conn_eq m -> rel conn_eq (sbind m (fun w => send_secured_message E id w app)).
Proof. intro Hm. apply rel_bind; [apply conn_pre|exact Hm|intro; apply conn_send_secured]. Qed.

Lemma conn_measurement E sid b : rel conn_eq (handle_measurement E sid b).
Proof.
  apply (conn_plain_write E sid _ RC_MEASUREMENTS); try discriminate;
    [cwr (calm_write_measurement E sid b)|apply op_measurement].
Qed.
Lemma conn_vendor E sid b : rel conn_eq (handle_vendor E sid b).
Proof.
  apply (conn_plain_write E sid _ RC_VENDOR_RSP); try discriminate; [cwr (calm_write_vendor E sid b)|apply op_vendor].
Qed.
Lemma conn_key_exchange E b : rel conn_eq (handle_key_exchange E b).
Proof.
  apply (conn_plain_write E None _ RC_KEY_EXCHANGE_RSP); try discriminate; [apply conn_write_key_exchange|].
  apply (val_mono _ _ _ _ (fun w H => or_intror H)), op_key_exchange.
Qed.
Lemma conn_psk_exchange E b : rel conn_eq (handle_psk_exchange E b).
Proof.
  apply (conn_plain_write E None _ RC_PSK_EXCHANGE_RSP); try discriminate; [apply conn_write_psk_exchange|].
  apply (val_mono _ _ _ _ (fun w H => or_intror H)), op_psk_exchange.
Qed.
Lemma conn_finish E id b : rel conn_eq (handle_finish E id b).
Proof.
  unfold handle_finish. apply rel_bind; [apply conn_pre|apply rel_get, conn_pre|intro x].
  apply (rel_bind_any _ conn_pre _ _ (rop RC_FINISH_RSP)); [cwr (calm_write_finish E id b)| |].
  - apply (val_mono _ _ _ _ (fun w H => or_intror H)), op_finish.
  - intros w O. destruct (in_clear _); [|apply conn_send_secured]. apply (conn_send_rop E RC_FINISH_RSP); try discriminate. exact O.
Qed.
Lemma conn_plain_finish E b : rel conn_eq (dispatch_plain_finish E b).
Proof.
  unfold dispatch_plain_finish. apply rel_bind; [apply conn_pre|apply rel_get, conn_pre|intro x].
  destruct (if in_clear (xc x) then x_last x else None) as [id|]; [|apply conn_handle_error].
  destruct (get_sess id x) as [s|]; [|apply conn_handle_error].
  destruct (s_state s); try apply conn_handle_error. apply conn_finish.
Qed.
Lemma conn_encap_check E w : rel conn_eq (encap_check E w).
Proof. cwr (calm_encap_check E w None). Qed.

(** inside a session the connection phase never moves *)
Lemma conn_dispatch_secured E id b : rel conn_eq (dispatch_secured E id b).
Proof.
  unfold dispatch_secured. apply rel_bind; [apply conn_pre|apply rel_get, conn_pre|intro x].
  destruct (get_sess id x) as [s|]; [|apply rel_err, conn_pre].
  destruct (s_state s); try apply rel_err, conn_pre.
  - unfold dispatch_handshaking. apply rel_bind; [apply conn_pre|apply rel_get, conn_pre|intro y].
    destruct (in_clear _); [apply rel_err, conn_pre|]. destruct (read_header b) as [[h r]|]; [|apply rel_err, conn_pre].
    cbv zeta. repeat match goal with |- rel _ (if ?c then _ else _) => destruct c end;
      try apply conn_handle_error; try apply rel_err, conn_pre; try apply conn_finish; try apply conn_vendor.
    + unfold handle_get_encap. apply rel_bind; [apply conn_pre|apply conn_encap_check|intro].
      apply conn_sec_write. cwr (calm_write_encap_request b a None).
    + unfold handle_deliver_encap. apply rel_bind; [apply conn_pre|apply conn_encap_check|intro].
      apply conn_sec_write. cwr (calm_write_encap_ack E b a None).
    + apply conn_sec_write. cwr (calm_write_psk_finish E id b).
  - unfold dispatch_established. destruct (read_header b) as [[h r]|]; [|apply rel_err, conn_pre].
    cbv zeta. repeat match goal with |- rel _ (if ?c then _ else _) => destruct c end;
      try apply conn_handle_error; try apply rel_err, conn_pre; try apply conn_vendor; try apply conn_measurement.
    + apply (conn_sec_write E id _ false). cwr (calm_write_digest E (Some id) b).
    + apply (conn_sec_write E id _ false). cwr (calm_write_certificate E (Some id) b).
    + apply (conn_sec_write E id _ false). cwr (calm_write_heartbeat id b).
    + apply (conn_sec_write E id _ false). cwr (calm_write_key_update E id b).
    + apply (conn_sec_write E id _ false). cwr (calm_write_end_session id b).
Qed.
Lemma conn_dispatch_app E id b : rel conn_eq (dispatch_app E id b).
Proof.
  unfold dispatch_app. destruct (e_app E id b); try apply rel_panic, conn_pre.
  apply rel_bind; [apply conn_pre|apply rel_assert, conn_pre|intro; apply conn_send_secured].
Qed.
Lemma rel_is_ok R (HR : preorder R) m : rel R m -> rel R (is_ok m).
Proof. intro H. unfold is_ok. apply rel_catch; [exact HR|exact H|intro; apply rel_ret, HR]. Qed.
Lemma conn_process_secured E b : rel conn_eq (process_secured E b).
Proof.
  unfold process_secured. destruct (read_session_id b) as [id|]; [|apply rel_ret, conn_pre].
  apply rel_bind; [apply conn_pre|apply rel_get, conn_pre|intro x]. destruct (get_sess id x); [|apply rel_ret, conn_pre].
  apply rel_catch; [apply conn_pre|apply conn_on_sess|]. intros [a| |]; try apply rel_ret, conn_pre.
  destruct (tr_decap_app _ _ _) as [[m [|]]| |]; try apply rel_ret, conn_pre; try apply rel_panic, conn_pre;
    apply rel_is_ok; try apply conn_pre; [apply conn_dispatch_app|apply conn_dispatch_secured].
Qed.

(** ** the requests that move the phase *)
Definition conn_to (p : N -> N -> Prop) (x x' : ctx) : Prop := p (x_conn x) (x_conn x').
Lemma phase_version E b : rel (conn_to (fun p p' => p' = p \/ p' = 0 \/ p' = 1)) (handle_version E b).
Proof.
  set (R := conn_to _). assert (HR : preorder R) by (split; unfold R, conn_to; [auto|intros x y z; intuition congruence]).
  assert (C : forall A (m : st ctx A), rel conn_eq m -> rel R m)
    by (intros A m; apply rel_mono; unfold conn_eq, R, conn_to; auto).
  unfold handle_version. apply (rel_bind_any _ HR _ _ (rop RC_VERSION)); [|apply op_version|].
  - unfold write_version, then_append. rl HR;
      try (apply C; apply conn_append_a); try (apply C; apply rel_mod; intro; apply conn_reset_buffer).
    apply rel_mod. intro x. right. left. reflexivity.
  - intros w O. apply rel_send_message; [exact HR|intros ? ?; apply C, conn_io|]. intros op Hop.
    destruct O as [O|O]; rewrite O in Hop; injection Hop as <-; [apply rel_after_error, HR|].
    unfold after_send. cbn [N.eqb]. apply rel_mod. intro x. right. right. reflexivity.
Qed.
Lemma phase_capability E b x r x' : handle_capability E b x = (r, x') -> x_conn x = 1 -> x_conn x' = 1 \/ x_conn x' = 2.
Proof.
  intros H Hx. set (R := conn_to (fun p p' => p' = p \/ p' = 2)).
  assert (HR : preorder R) by (split; unfold R, conn_to; [auto|intros ? y z; intuition congruence]).
  assert (C : forall A (m : st ctx A), rel conn_eq m -> rel R m)
    by (intros A m; apply rel_mono; unfold conn_eq, R, conn_to; auto).
  assert (K : rel R (handle_capability E b)).
  { unfold handle_capability. apply (rel_bind_any _ HR _ _ (rop RC_CAPABILITIES)); [apply C, conn_write_capability|apply op_capability|].
    intros w O. apply rel_send_message; [exact HR|intros ? ?; apply C, conn_io|]. intros op Hop.
    destruct O as [O|O]; rewrite O in Hop; injection Hop as <-; [apply rel_after_error, HR|].
    apply rel_mod. intro. right. reflexivity. }
  apply K in H. destruct H as [H|H]; rewrite H; auto.
Qed.
Lemma phase_algorithm E b x r x' : handle_algorithm E b x = (r, x') -> x_conn x = 2 -> x_conn x' = 2 \/ x_conn x' = 3.
Proof.
  intros H Hx. set (R := conn_to (fun p p' => p' = p \/ p' = 3)).
  assert (HR : preorder R) by (split; unfold R, conn_to; [auto|intros ? y z; intuition congruence]).
  assert (C : forall A (m : st ctx A), rel conn_eq m -> rel R m)
    by (intros A m; apply rel_mono; unfold conn_eq, R, conn_to; auto).
  assert (K : rel R (handle_algorithm E b)).
  { unfold handle_algorithm. apply (rel_bind_any _ HR _ _ (rop RC_ALGORITHMS)); [apply C, conn_write_algorithm|apply op_algorithm|].
    intros w O. apply rel_send_message; [exact HR|intros ? ?; apply C, conn_io|]. intros op Hop.
    destruct O as [O|O]; rewrite O in Hop; injection Hop as <-; [apply rel_after_error, HR|].
    apply rel_mod. intro. right. reflexivity. }
  apply K in H. destruct H as [H|H]; rewrite H; auto.
Qed.
Definition Rmax (k : N) := conn_to (fun p p' => p' = p \/ p' = N.max p k).
Lemma Rmax_pre k : preorder (Rmax k).
Proof. split; unfold Rmax, conn_to; [auto|]. intros x y z [->| ->] [->| ->]; auto. right. lia. Qed.
Lemma Rmax_conn k A (m : st ctx A) : rel conn_eq m -> rel (Rmax k) m.
Proof. apply rel_mono. unfold conn_eq, Rmax, conn_to. auto. Qed.
Lemma phase_digest E b x r x' : hash_lengths (e_cr E) -> slots8 x -> handle_digest E None b x = (r, x') ->
  x_conn x' = x_conn x \/ x_conn x' = N.max (x_conn x) 4.
Proof.
  intros HL S8. revert r x'.
  assert (K := rel_bind_val (Rmax 4) (Rmax_pre 4) slots8 (write_digest E None b) (fun w => send_on E None w) (rop RC_DIGESTS)).
  intros r x' H. refine (K _ (op_digest E None b HL) _ x r x' S8 H).
  - apply Rmax_conn. cwr (calm_write_digest E None b).
  - intros w O. apply rel_send_message; [apply Rmax_pre|intros ? ?; apply Rmax_conn, conn_io|]. intros op Hop.
    destruct O as [O|O]; rewrite O in Hop; injection Hop as <-; [apply rel_after_error, Rmax_pre|].
    apply rel_mod. intro y. unfold Rmax, conn_to. destruct (N.ltb_spec (x_conn y) CONN_AFTER_DIGEST) as [L|L].
    + right. cbn. unfold CONN_AFTER_DIGEST in *. lia.
    + now left.
Qed.
Lemma phase_certificate E b : rel (Rmax 5) (handle_certificate E None b).
Proof.
  apply (rel_bind_any _ (Rmax_pre 5) _ _ (rop RC_CERTIFICATE)); [apply Rmax_conn; cwr (calm_write_certificate E None b)|apply op_certificate|].
  intros w O. apply rel_send_message; [apply Rmax_pre|intros ? ?; apply Rmax_conn, conn_io|]. intros op Hop.
  destruct O as [O|O]; rewrite O in Hop; injection Hop as <-; [apply rel_after_error, Rmax_pre|].
  apply rel_mod. intro y. unfold Rmax, conn_to. destruct (N.ltb_spec (x_conn y) CONN_AFTER_CERTIFICATE) as [L|L].
  - right. cbn. unfold CONN_AFTER_CERTIFICATE in *. lia.
  - now left.
Qed.
Lemma phase_challenge E b : rel (conn_to (fun p p' => p' = p \/ p' = 5)) (handle_challenge E b).
Proof.
  set (R := conn_to _). assert (HR : preorder R) by (split; unfold R, conn_to; [auto|intros x y z; intuition congruence]).
  assert (C : forall A (m : st ctx A), rel conn_eq m -> rel R m)
    by (intros A m; apply rel_mono; unfold conn_eq, R, conn_to; auto).
  apply (rel_bind_any _ HR _ _ (rop RC_CHALLENGE_AUTH)); [apply C; cwr (calm_write_challenge E b)|apply op_challenge|].
  intros w O. apply rel_send_message; [exact HR|intros ? ?; apply C, conn_io|]. intros op Hop.
  destruct O as [O|O]; rewrite O in Hop; injection Hop as <-; [apply rel_after_error, HR|].
  apply rel_mod. intro. right. reflexivity.
Qed.

(** ** out of phase *)
Lemma capability_unexpected E b x : x_conn x <> 1 ->
  handle_capability E b x = send_message E (error_bytes (ver x) ERR_UNEXPECTED_REQUEST 0) x.
Proof.
  intro H. unfold handle_capability, write_capability, sbind, sget. change CONN_AFTER_VERSION with 1.
  rewrite (proj2 (N.eqb_neq _ _) H). unfold write_err. rewrite write_err_nil. reflexivity.
Qed.
Lemma algorithm_unexpected E b x : x_conn x <> 2 ->
  handle_algorithm E b x = send_message E (error_bytes (ver x) ERR_UNEXPECTED_REQUEST 0) x.
Proof.
  intro H. unfold handle_algorithm, write_algorithm, sbind, sget. change CONN_AFTER_CAPABILITIES with 2.
  rewrite (proj2 (N.eqb_neq _ _) H). unfold write_err. rewrite write_err_nil. reflexivity.
Qed.
Lemma not_negotiated x : x_conn x < 3 -> negotiated x = false.
Proof. intro H. unfold negotiated. apply N.leb_gt. exact H. Qed.
Ltac unexp H := rewrite (not_negotiated _ H); unfold write_err; rewrite write_err_nil; reflexivity.
Lemma digest_unexpected E b x : x_conn x < 3 ->
  handle_digest E None b x = send_message E (error_bytes (ver x) ERR_UNEXPECTED_REQUEST 0) x.
Proof. intro H. unfold handle_digest, write_digest, sbind, sget. unexp H. Qed.
Lemma certificate_unexpected E b x : x_conn x < 3 ->
  handle_certificate E None b x = send_message E (error_bytes (ver x) ERR_UNEXPECTED_REQUEST 0) x.
Proof. intro H. unfold handle_certificate, write_certificate, sbind, sget. unexp H. Qed.
Lemma challenge_unexpected E b x : x_conn x < 3 ->
  handle_challenge E b x = send_message E (error_bytes (ver x) ERR_UNEXPECTED_REQUEST 0) x.
Proof. intro H. unfold handle_challenge, write_challenge, sbind, sget. unexp H. Qed.
Lemma measurement_unexpected E b x : x_conn x < 3 ->
  handle_measurement E None b x = send_message E (error_bytes (ver x) ERR_UNEXPECTED_REQUEST 0) x.
Proof. intro H. unfold handle_measurement, write_measurement, sbind, sget. unexp H. Qed.
Lemma key_exchange_unexpected E b x : x_conn x < 3 -> handle_key_exchange E b x = (Err ST_INVALID_STATE_PEER, x).
Proof.
  intro H. unfold handle_key_exchange, write_key_exchange, exchange_start, sbind, sget.
  rewrite (not_negotiated _ H). reflexivity.
Qed.
Lemma psk_exchange_unexpected E b x : x_conn x < 3 -> handle_psk_exchange E b x = (Err ST_INVALID_STATE_PEER, x).
Proof.
  intro H. unfold handle_psk_exchange, write_psk_exchange, exchange_start, sbind, sget.
  rewrite (not_negotiated _ H). reflexivity.
Qed.
(** sending an ERROR message *)
Lemma send_error_same E v c d x r x' : send_message E (error_bytes v c d) x = (r, x') -> same_but_io x x'.
Proof.
  set (R := same_but_io).
  assert (HR : preorder R).
  { split; unfold R, same_but_io.
    - intro y. exists (x_io y), (x_sent y). destruct y; reflexivity.
    - intros y z w (n & l & ->) (n' & l' & ->). exists n', l'. reflexivity. }
  assert (Hio : io_ok R).
  { intros E0 b y r0 y' H. unfold io_send in H. destruct (e_send _ _ _);
      match type of H with (_, ?z) = _ => replace y' with z by congruence end; unfold R, same_but_io.
    - exists (x_io y + 1), (x_sent y). destruct y; reflexivity.
    - eexists _, _. reflexivity. }
  revert r x'. revert x. change (rel R (send_message E (error_bytes v c d))).
  apply rel_send_message; [exact HR|exact Hio|]. intros op Hop. change (Some RC_ERROR = Some op) in Hop.
  replace op with RC_ERROR by congruence. apply rel_after_error, HR.
Qed.
Lemma fits_not_too_large x m : fits x m -> too_large x m = false.
Proof.
  intros [H|H]; unfold too_large.
  - rewrite H. reflexivity.
  - rewrite (proj2 (N.ltb_ge _ _) H). apply Bool.andb_false_r.
Qed.
Lemma send_error_ok E v c d x t : tr_encap (e_tr E) BUFFER_SIZE (error_bytes v c d) false = Ok t ->
  e_send E (x_io x) t = None -> fits x (error_bytes v c d) ->
  send_message E (error_bytes v c d) x = (Ok tt, after_sending t x).
Proof.
  intros Ht Hs Hf. unfold send_message, sbind, sget. rewrite (fits_not_too_large _ _ Hf).
  unfold send_raw, sbind, sof. rewrite Ht. unfold io_send. rewrite Hs. reflexivity.
Qed.
