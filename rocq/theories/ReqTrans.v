(** The requester's M1/M2 transcript follows its history. *)
From Verif Require Import Bytes BytesFacts Status Codec Parse ParseProofs Algo Monad.
From Verif Require Import MsgConn MsgAuth MsgSession MsgOther Message Opaque Transport Crypto KeySchedule Session Signing CertOps ChainVerify Context
  RspBase RspConn RspSess RspEncap Responder StRel RspFrame RspCalm RspOpcode RspPass RspEst ReqBase ReqConn ReqSess SpecReq ReqFrame ReqAnswer SpecSession SpecAuth.
From Verif Require Import MsgLocal.
From Coq Require Import Lia.
Local Open Scope N_scope.

(** ** exchanges *)
Lemma exchanged_by E sid c x y s u y1 z b z1 x' : quiet x y -> req_send_on E sid s y = (Ok u, y1) -> quiet y1 z ->
  req_recv_on E sid c z = (Ok b, z1) -> quiet z1 x' -> exchanged E sid x x' s b.
Proof.
  intros [Q1 Q1'] S [Q2 Q2'] R [Q3 Q3']. apply send_on_ok in S as (t & S1 & S2 & S3 & S4). apply recv_on_ok in R as (f & R1 & R2 & R3 & R4).
  exists t, f. split; [exact S4|]. split; [rewrite <- Q1'; exact S1|]. split; [congruence|]. split; [lia|]. split; [|exact R2].
  replace (x_sent x') with (x_sent z) by congruence. replace (x_io x + 1) with (x_io z) by lia. exact R1.
Qed.
Lemma used_split (b u r : bytes) : b = u ++ r -> used_of b r = u.
Proof.
  intros ->. unfold used_of. rewrite app_length. replace (length u + length r - length r)%nat with (length u) by lia.
  rewrite firstn_app, Nat.sub_diag, firstn_all, firstn_O, app_nil_r. reflexivity.
Qed.
Lemma local_used {A} (d : dec A) v c r p rest : dlocal d -> d r = POk p rest -> v :: c :: r = used_of (v :: c :: r) rest ++ rest.
Proof.
  intros L H. destruct (L _ _ _ H) as (w & -> & _). rewrite (used_split (v :: c :: w ++ rest) (v :: c :: w) rest eq_refl). reflexivity.
Qed.

(** ** A, M1/M2 and the connection state are kept *)
Definition tk (x x' : ctx) : Prop := x_msg_a x' = x_msg_a x /\ x_m1m2 x' = x_m1m2 x /\ x_conn x' = x_conn x.
Lemma tk_pre : preorder tk.
Proof. split; unfold tk; [auto|intuition congruence]. Qed.
Lemma keeps_tk x x' : keeps x x' -> tk x x'.
Proof. unfold keeps, tk. intros ->. repeat split; reflexivity. Qed.
Lemma tk_on_sess {A} id (m : st session A) : rel tk (on_sess id m).
Proof. intros x r x' H. apply keeps_tk. exact (keeps_on_sess _ _ _ _ _ H). Qed.
Ltac tf := apply rel_mod; intro; repeat split; reflexivity.
Lemma tk_append_m cr sid m : rel tk (append_m cr sid m).
Proof.
  intros x r x' H. unfold append_m in H. destruct sid as [id|].
  - destruct (get_sess id x) as [s|]; [|replace x' with x by congruence; repeat split; reflexivity].
    destruct (s_l1l2 s); [|destruct (hash_ok _ _)]; match type of H with (_, ?z) = _ => replace x' with z by congruence end; repeat split; reflexivity.
  - destruct (x_l1l2 x); [|destruct (hash_ok _ _)]; match type of H with (_, ?z) = _ => replace x' with z by congruence end; repeat split; reflexivity.
Qed.
Lemma tk_append_k cr id m : rel tk (append_k cr id m).
Proof. apply tk_on_sess. Qed.
Lemma tk_append_f cr r id m : rel tk (append_f cr r id m).
Proof. unfold append_f. rl tk_pre; tf. Qed.
Lemma tk_random cr n : rel tk (get_random cr n).
Proof. intros x r x' H. unfold get_random in H. match type of H with (_, ?z) = _ => replace x' with z by congruence end; repeat split; reflexivity. Qed.
Lemma tk_reset_m sid x : tk x (reset_m sid x).
Proof. destruct sid; repeat split; reflexivity. Qed.
Lemma tk_error_main {A} sid b : rel tk (@error_main A sid b).
Proof. unfold error_main, simple_error. rl tk_pre; try apply tk_on_sess; try tf. Qed.
Lemma tk_verify_peer E slot op h sg : rel tk (verify_peer_signature E slot op h sg).
Proof. unfold verify_peer_signature. rl tk_pre. Qed.
Lemma tk_finalize E a o : rel tk (finalize E a o).
Proof. unfold finalize. rl tk_pre. Qed.
Lemma tk_meas_sig E sid slot sg : rel tk (verify_measurement_sig E sid slot sg).
Proof. unfold verify_measurement_sig. rl tk_pre; try apply tk_finalize; try apply tk_verify_peer. Qed.
Lemma tk_chal_sig E slot sg : rel tk (verify_challenge_sig E slot sg).
Proof. unfold verify_challenge_sig. rl tk_pre; try apply tk_finalize; try apply tk_verify_peer. Qed.
Lemma tk_abandon {A} id e : rel tk (@req_abandon A id e).
Proof. unfold req_abandon. rl tk_pre. apply tk_on_sess. Qed.
Lemma tk_check_rsp_hmac E id m : rel tk (check_rsp_hmac E id m).
Proof. unfold check_rsp_hmac. rl tk_pre; try apply tk_abandon. apply tk_append_k. Qed.
Lemma tk_open E id p a b : rel tk (req_open_session E id p a b).
Proof. unfold req_open_session. rl tk_pre; try apply tk_on_sess; try tf. Qed.
Lemma tk_open_psk E id h : rel tk (req_open_psk_session E id h).
Proof. unfold req_open_psk_session. rl tk_pre; try apply tk_on_sess; try tf. Qed.
Lemma tk_finish_kx E slot id s u p : rel tk (finish_key_exchange E slot id s u p).
Proof.
  unfold finish_key_exchange, verify_key_exchange_sig. rl tk_pre;
    first [apply tk_append_k|apply tk_verify_peer|apply tk_on_sess|apply tk_check_rsp_hmac|tf].
Qed.
Lemma tk_finish_psk E id s u p : rel tk (finish_psk_exchange E id s u p).
Proof. unfold finish_psk_exchange. rl tk_pre; first [apply tk_append_k|apply tk_on_sess|apply tk_check_rsp_hmac|tf]. Qed.
Lemma tk_send_on E sid b : rel tk (req_send_on E sid b).
Proof. intros x r x' H. apply keeps_tk. exact (keeps_send_on _ _ _ _ _ _ H). Qed.
Lemma tk_recv_on E sid c : rel tk (req_recv_on E sid c).
Proof. intros x r x' H. apply keeps_tk. exact (keeps_recv_on _ _ _ _ _ _ H). Qed.
Lemma tk_send E b : rel tk (req_send E b). Proof. exact (tk_send_on E None b). Qed.
Lemma tk_send_s E id b : rel tk (req_send_secured E id b false). Proof. exact (tk_send_on E (Some id) b). Qed.
Lemma tk_recv E c : rel tk (req_recv E c). Proof. exact (tk_recv_on E None c). Qed.
Lemma tk_recv_s E id c : rel tk (req_recv_secured E id c). Proof. exact (tk_recv_on E (Some id) c). Qed.
Ltac tt :=
  rl tk_pre;
  first [apply tk_error_main|apply tk_append_m|apply tk_append_k|apply tk_append_f
        |apply tk_chal_sig|apply tk_meas_sig|apply tk_on_sess|apply tk_check_rsp_hmac|apply tk_open|apply tk_open_psk|apply tk_finish_kx|apply tk_finish_psk
        |apply tk_random|apply tk_abandon|apply tk_send_on|apply tk_recv_on|apply tk_send|apply tk_recv|apply tk_send_s|apply tk_recv_s
        |apply rel_on_response; [exact tk_pre|intro; tt|apply tk_error_main]
        |apply rel_on_response_any; [exact tk_pre|intro; tt|apply tk_error_main]
        |apply rel_reading; [exact tk_pre|intros; tt]
        |apply (rel_req_enc _ tk_pre)
        |apply rel_mod; intro; apply tk_reset_m
        |tf|idtac].
(** the operations that only have B dropped by [reset_buffer] *)
Definition drops (x : ctx) (sid : option N) : Prop := forall c, 
  existsb (N.eqb c) [RC_GET_MEASUREMENTS; RC_KEY_EXCHANGE; RC_FINISH; RC_PSK_EXCHANGE; RC_PSK_FINISH; RC_KEY_UPDATE; RC_HEARTBEAT; RC_END_SESSION] = true ->
  let y := reset_buffer c sid x in x_msg_a y = x_msg_a x /\ x_m1m2 y = None /\ x_conn y = x_conn x.
Lemma drops_all x sid : x_conn x = CONN_NOT_STARTED -> drops x sid.
Proof.
  intros C c Hc. cbv zeta. unfold reset_buffer. cbv zeta. rewrite Hc.
  assert (T : tk x (if c =? RC_GET_MEASUREMENTS then x else reset_m sid x)).
  { destruct (_ =? _); [apply tk_pre|apply tk_reset_m]. }
  destruct T as (T1 & T2 & T3). rewrite T3, C. change (CONN_NOT_STARTED <? CONN_AUTHENTICATED) with true. cbn iota.
  unfold reset_c, reset_b. cbn [x_msg_a x_m1m2 x_conn set_x_m1m2]. rewrite <- C. auto.
Qed.
(** kept, or M1/M2 dropped *)
Definition td (x x' : ctx) : Prop := x_msg_a x' = x_msg_a x /\ (x_m1m2 x' = x_m1m2 x \/ x_m1m2 x' = None) /\ x_conn x' = x_conn x.
Lemma td_pre : preorder td.
Proof. split; unfold td; [auto|intuition congruence]. Qed.
Lemma tk_td x x' : tk x x' -> td x x'.
Proof. intros (A & B & C). split; [exact A|]. split; [left; exact B|exact C]. Qed.
Lemma td_of {A} (m : st ctx A) : rel tk m -> rel td m.
Proof. intros H x r x' E. apply tk_td. exact (H _ _ _ E). Qed.
Lemma td_reset_buffer c sid x : td x (reset_buffer c sid x).
Proof.
  unfold reset_buffer. cbv zeta. assert (T : tk x (if c =? RC_GET_MEASUREMENTS then x else reset_m sid x)).
  { destruct (_ =? _); [apply tk_pre|apply tk_reset_m]. }
  set (y := if c =? RC_GET_MEASUREMENTS then x else reset_m sid x) in *. clearbody y. destruct T as (T1 & T2 & T3).
  destruct (existsb _ _); [destruct (_ <? _)|destruct (_ =? _)]; unfold td, reset_b, reset_c; cbn [x_msg_a x_m1m2 x_conn set_x_m1m2]; intuition congruence.
Qed.
(** an operation that resets and then keeps *)
Definition resets (E : env) (o : operation) : Prop := forall x r x', run E o x = (r, x') -> td x x' /\ (forall u, r = Ok u -> x_conn x = CONN_NOT_STARTED -> x_m1m2 x' = None).
Lemma after_reset {A} c sid (k : unit -> st ctx A) x r x' :
  existsb (N.eqb c) [RC_GET_MEASUREMENTS; RC_KEY_EXCHANGE; RC_FINISH; RC_PSK_EXCHANGE; RC_PSK_FINISH; RC_KEY_UPDATE; RC_HEARTBEAT; RC_END_SESSION] = true ->
  (forall u, rel tk (k u)) -> sbind (smod (reset_buffer c sid)) k x = (r, x') ->
  td x x' /\ (x_conn x = CONN_NOT_STARTED -> x_m1m2 x' = None).
Proof.
  intros Hc K H. unfold sbind, smod in H. pose proof (K _ _ _ _ H) as (K1 & K2 & K3). split.
  - apply (proj2 td_pre _ (reset_buffer c sid x)); [apply td_reset_buffer|apply tk_td; repeat split; assumption].
  - intro C. rewrite K2. apply (drops_all x sid C c Hc).
Qed.
Lemma drop_td {A} (m : st ctx A) : (forall x r x', m x = (r, x') -> td x x' /\ (forall u, r = Ok u -> x_conn x = CONN_NOT_STARTED -> x_m1m2 x' = None)) ->
  forall x r x', drop m x = (r, x') -> td x x' /\ (forall u, r = Ok u -> x_conn x = CONN_NOT_STARTED -> x_m1m2 x' = None).
Proof.
  intros M x r x' H. unfold drop, sbind in H. destruct (m x) as [o y] eqn:F. destruct (M _ _ _ F) as [T N0].
  destruct o; unfold sret in H; replace x' with y by congruence; split; auto; intros ? ?; try congruence. eapply N0. reflexivity.
Qed.
Lemma fail_any {S} c e (x : S) r x' : sfail_if c e x = (r, x') -> x' = x /\ ((c = true /\ r = Err e) \/ (c = false /\ r = Ok tt)).
Proof. unfold sfail_if. destruct c; unfold serr, sret; intro H; split; try congruence; [left|right]; split; congruence. Qed.
Lemma weaken (x x' : ctx) (r : outcome unit) : td x x' /\ (x_conn x = CONN_NOT_STARTED -> x_m1m2 x' = None) ->
  td x x' /\ (forall u, r = Ok u -> x_conn x = CONN_NOT_STARTED -> x_m1m2 x' = None).
Proof. intros [A B]. split; auto. Qed.
Lemma bind_get {S A} (k : S -> st S A) x : sbind sget k x = k x x.
Proof. reflexivity. Qed.
Lemma bind_fail {S A} c e (k : unit -> st S A) x : sbind (sfail_if c e) k x = if c then (Err e, x) else k tt x.
Proof. unfold sbind, sfail_if. destruct c; reflexivity. Qed.
Lemma resets_measurements E sid a t o : resets E (OMeasurements sid a t o).
Proof.
  unfold resets. change (run E (OMeasurements sid a t o)) with (drop (get_measurements E sid a t o)). apply drop_td. intros x r x' H.
  unfold get_measurements in H. rewrite bind_fail in H. destruct (8 <=? a).
  - replace x' with x by congruence. split; [apply td_pre|intros; congruence].
  - apply after_reset in H as [A B]; [split; auto|reflexivity|]. intros _. unfold handle_measurements. cbv zeta. tt.
    apply rel_mod. intro y. destruct (_ <=? _); repeat split; reflexivity.
Qed.
Lemma resets_kx E a t : resets E (OKeyExchange a t).
Proof.
  unfold resets. change (run E (OKeyExchange a t)) with (drop (key_exchange_req E a t)). apply drop_td. intros x r x' H.
  unfold key_exchange_req in H. rewrite bind_fail in H. destruct (8 <=? a).
  - replace x' with x by congruence. split; [apply td_pre|intros; congruence].
  - rewrite bind_get in H. unfold sbind at 1 in H. unfold sof at 1 in H. destruct (get_next_half_session_id true x) as [q|e|].
    + apply after_reset in H as [A B]; [split; auto|reflexivity|]. intros _. unfold encode_key_exchange, handle_key_exchange_rsp, set_summary. tt.
    + replace x' with x by congruence. split; [apply td_pre|intros; congruence].
    + replace x' with x by congruence. split; [apply td_pre|intros; congruence].
Qed.
Lemma resets_psk E t h : resets E (OPskExchange t h).
Proof.
  unfold resets. change (run E (OPskExchange t h)) with (drop (psk_exchange_req E t h)). apply drop_td. intros x r x' H.
  unfold psk_exchange_req in H. apply after_reset in H as [A B]; [split; auto|reflexivity|]. intros _. unfold encode_psk_exchange, handle_psk_exchange_rsp, set_summary. tt.
Qed.
Lemma tk_or_teardown {A} id (m : st ctx A) : rel tk m -> rel tk (or_teardown id m).
Proof. intro M. unfold or_teardown. rl tk_pre; [exact M|apply tk_abandon]. Qed.
Lemma tk_or_teardown_if {A} id (m : st ctx A) : rel tk m -> rel tk (or_teardown_if id m).
Proof. intro M. unfold or_teardown_if. rl tk_pre; [exact M|apply tk_abandon]. Qed.
Lemma resets_finish E rs id : resets E (OFinish rs id).
Proof.
  intros x r x' H. cbn [run] in H. unfold finish_req in H. rewrite bind_get in H. cbv zeta in H.
  unfold sbind at 1 in H.
  match type of H with (let (_, _) := ?m x in _) = _ => set (mm := m) in H; assert (Q : exists o, mm x = (o, x)) end.
  { unfold mm. destruct rs as [sl|]; [|eexists; reflexivity]. destruct (8 <=? sl); [eexists; reflexivity|]. destruct (slot_of _ _); eexists; reflexivity. }
  destruct Q as [o Q]. rewrite Q in H. destruct o as [sl|e|]; try (replace x' with x by congruence; split; [apply td_pre|intros; congruence]).
  unfold sbind at 1 in H. unfold sok in H. destruct (get_sess id x); unfold sret, serr in H;
    [|replace x' with x by congruence; split; [apply td_pre|intros; congruence]].
  apply after_reset in H as [A B]; [split; auto|reflexivity|]. intros _.
  apply (rel_bind _ tk_pre); [apply tk_or_teardown; unfold encode_finish, finish_signature; tt|intro w].
  apply (rel_bind _ tk_pre); [apply tk_or_teardown; tt|intro]. apply (rel_bind _ tk_pre); [apply tk_or_teardown; tt|intro].
  apply tk_or_teardown_if. unfold handle_finish_rsp. tt.
Qed.
Lemma resets_psk_finish E id : resets E (OPskFinish id).
Proof.
  intros x r x' H. cbn [run] in H. unfold psk_finish_req in H. rewrite bind_get in H.
  unfold sbind at 1 in H. unfold sok in H. destruct (get_sess id x); unfold sret, serr in H;
    [|replace x' with x by congruence; split; [apply td_pre|intros; congruence]].
  apply after_reset in H as [A B]; [split; auto|reflexivity|]. intros _.
  apply (rel_bind _ tk_pre); [apply tk_or_teardown; unfold encode_psk_finish; tt|intro w].
  apply (rel_bind _ tk_pre); [apply tk_or_teardown; tt|intro]. apply (rel_bind _ tk_pre); [apply tk_or_teardown; tt|intro].
  apply tk_or_teardown_if. unfold handle_psk_finish_rsp. tt.
Qed.
Lemma resets_heartbeat E id : resets E (OHeartbeat id).
Proof.
  intros x r x' H. cbn [run] in H. unfold heartbeat_req in H. apply after_reset in H as [A B]; [split; auto|reflexivity|]. intros _. unfold heartbeat_answer. tt.
Qed.
Lemma resets_ku E id op tag : resets E (OKeyUpdateOp id op tag).
Proof.
  intros x r x' H. cbn [run] in H. unfold key_update_op_req in H. apply after_reset in H as [A B]; [split; auto|reflexivity|]. intros _. unfold handle_key_update_ack. tt.
Qed.
Lemma resets_end E id : resets E (OEndSession id).
Proof.
  intros x r x' H. cbn [run] in H. unfold end_session_req in H. apply after_reset in H as [A B]; [split; auto|reflexivity|]. intros _. unfold end_session_answer. tt.
Qed.
