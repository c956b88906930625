(** The requester's transcripts are those of its history. *)
From Verif Require Import Bytes BytesFacts Status Codec Parse ParseProofs Algo Monad.
From Verif Require Import MsgConn MsgAuth MsgSession MsgOther Message Opaque Transport Crypto KeySchedule Session Signing CertOps ChainVerify Context
  RspBase RspConn RspSess RspEncap Responder StRel RspFrame RspCalm RspOpcode RspPass RspEst ReqBase ReqConn ReqSess SpecReq ReqFrame ReqAnswer SpecSession SpecAuth ReqTrans ReqSplit.
From Verif Require Import MsgLocal.
From Coq Require Import Lia.
Local Open Scope N_scope.

Definition base (x : ctx) : bytes := match x_m1m2 x with Some d => d | None => x_msg_a x end.
(** ** appending *)
Lemma base_set d x : base (set_x_m1m2 (Some d) x) = d.
Proof. reflexivity. Qed.
Lemma append_a_ok m x u x' : append_a m x = (Ok u, x') -> x' = set_x_msg_a (x_msg_a x ++ m) x.
Proof. unfold append_a. destruct (_ <? _); [discriminate|congruence]. Qed.
Lemma append_m1m2_ok cr e m x u x' : append_m1m2 cr e m x = (Ok u, x') -> x' = set_x_m1m2 (Some (base x ++ m)) x.
Proof. unfold append_m1m2, base. destruct (x_m1m2 x); [congruence|]. destruct (hash_ok _ _); [congruence|discriminate]. Qed.
Lemma append_m1m2_err cr e m x e' x' : append_m1m2 cr e m x = (Err e', x') -> x' = x.
Proof. unfold append_m1m2. destruct (x_m1m2 x); [discriminate|]. destruct (hash_ok _ _); [discriminate|congruence]. Qed.
Lemma append_m1m2_some cr e m x d : x_m1m2 x = Some d -> append_m1m2 cr e m x = (Ok tt, set_x_m1m2 (Some (d ++ m)) x).
Proof. intro H. unfold append_m1m2. rewrite H. reflexivity. Qed.
Lemma append_both cr e s u x : 
  (exists x', (append_m1m2 cr e s ;;; append_m1m2 cr e u)%st x = (Ok tt, x') /\ x' = set_x_m1m2 (Some (base x ++ s ++ u)) x) \/
  (exists e', (append_m1m2 cr e s ;;; append_m1m2 cr e u)%st x = (Err e', x)).
Proof.
  unfold sbind. destruct (append_m1m2 cr e s x) as [[a|e1|] y] eqn:P.
  - apply append_m1m2_ok in P as ->. rewrite (append_m1m2_some _ _ _ _ (base x ++ s)) by reflexivity. left. eexists. split; [reflexivity|].
    rewrite <- app_assoc. destruct x. reflexivity.
  - apply append_m1m2_err in P as ->. right. eauto.
  - unfold append_m1m2 in P. destruct (x_m1m2 x); [discriminate|]. destruct (hash_ok _ _); discriminate.
Qed.

(** ** what a successful handler did *)
Definition effect (o : operation) (s u : bytes) (z x' : ctx) : Prop :=
  match o with
  | OVersion => x_msg_a x' = s ++ u /\ x_m1m2 x' = None /\ x_conn x' = CONN_NOT_STARTED
  | OCapabilities | OAlgorithms => x_msg_a x' = x_msg_a z ++ s ++ u /\ x_m1m2 x' = x_m1m2 z /\ x_conn x' = x_conn z
  | ODigests None | OCertPart None _ _ _ _ => x_msg_a x' = x_msg_a z /\ x_m1m2 x' = Some (base z ++ s ++ u) /\ x_conn x' = x_conn z
  | ODigests (Some _) | OCertPart (Some _) _ _ _ _ | OVendor _ _ _ _ => tk z x'
  | OChallenge _ _ => x_msg_a x' = x_msg_a z /\ x_m1m2 x' = None /\ x_conn x' = x_conn z
  | _ => True
  end.
Ltac acc D L := eexists; split; [exact (local_used _ _ _ _ _ _ L D)|]; cbn [skipn]; eexists; exact D.
Lemma answer_effect E o s half key b z x' : on_answer E o s half key b z = (Ok tt, x') ->
  exists u, accepted o (asked o z) b u /\ effect o s u z x'.
Proof.
  intro H. destruct o; cbn [on_answer] in H; try apply drop_ok in H as [w H]; unfold accepted, asked, effect.
  - apply on_response_any_ok in H as (v & r & -> & H). apply reading_ok in H as (p & rest & D & H). eexists. split; [acc D dl_version_rsp|].
    bi H. apply mod_inv in P as ->. bg H. bi H. apply fail_inv in P as [_ ->]. bi H. apply mod_inv in P as ->. bi H. apply append_a_ok in P as ->. apply append_a_ok in H as ->.
    repeat split; reflexivity.
  - apply on_response_ok in H as (r & -> & H). apply reading_ok in H as (p & rest & D & H). eexists. split; [acc D (dl_capabilities (xc z))|].
    bi H. apply mod_inv in P as ->. bi H. apply append_a_ok in P as ->. apply append_a_ok in H as ->. split; [|split; reflexivity]. cbn [x_msg_a set_x_msg_a modn set_x_nego]. rewrite <- app_assoc. reflexivity.
  - apply on_response_ok in H as (r & -> & H). apply reading_ok in H as (p & rest & D & H). eexists. split; [acc D (dl_algs (xc z))|].
    bi H. apply mod_inv in P as ->. bi H. apply fail_inv in P as [_ ->]. bi H. apply mod_inv in P as ->. bi H. apply fail_inv in P as [_ ->].
    bi H. apply mod_inv in P as ->. bi H. apply mod_inv in P as ->. bi H. apply append_a_ok in P as ->. apply append_a_ok in H as ->.
    split; [|split; reflexivity]. cbn [x_msg_a set_x_msg_a modn set_x_nego]. rewrite <- app_assoc. reflexivity.
  - apply on_response_ok in H as (r & -> & H). apply reading_ok in H as (p & rest & D & H). eexists. split; [acc D (dl_digests (xc z))|].
    destruct sid; unfold append_b_both in H; [apply ret_inv in H as [_ ->]; apply tk_refl|]. unfold append_b in H. bi H. apply append_m1m2_ok in P as ->. apply append_m1m2_ok in H as ->.
    rewrite base_set. cbn [x_msg_a x_m1m2 x_conn set_x_m1m2]. rewrite <- app_assoc. auto.
  - apply on_response_ok in H as (r & -> & H). apply reading_ok in H as (p & rest & D & H). eexists. split; [acc D dl_cert|].
    bi H. apply assert_inv in P as [_ ->]. bi H. apply fail_inv in P as [_ ->]. bg H. bi H. apply ok_inv in P as [_ ->]. bi H. apply mod_inv in P as ->. bi H. apply ret_inv in H as [_ ->].
    destruct sid; unfold append_b_both in P; [apply ret_inv in P as [_ ->]; repeat split; reflexivity|]. unfold append_b in P. bi P. apply append_m1m2_ok in P0 as ->. apply append_m1m2_ok in P as ->.
    rewrite base_set. cbn [x_msg_a x_m1m2 x_conn set_x_m1m2 set_x_peer_temp]. rewrite <- app_assoc. auto.
  - unfold handle_challenge_auth in H. bi H. apply mod_inv in P as ->. apply on_response_ok in H as (r & -> & H). apply reading_ok in H as (p & rest & D & H).
    eexists. split; [acc D (dl_challenge_auth (mkCctx (x_nego z) ((summary =? 1) || (summary =? 255)) (x_need_sig z)))|].
    bg H. bi H. apply unwrap_inv in P as [_ ->]. bi H. apply of_inv in P as [_ ->]. bi H. apply append_m1m2_ok in P as ->. bi H. apply append_m1m2_ok in P as ->.
    unfold scatch in H. match type of H with context [verify_challenge_sig ?a ?b ?c ?d] => destruct (verify_challenge_sig a b c d) as [res q] eqn:V end.
    apply tk_chal_sig in V as (V1 & V2 & V3). destruct res as [a| |]; [|cbn [sbind smod] in H; discriminate|discriminate].
    bi H. apply mod_inv in P as ->. apply ret_inv in H as [_ ->]. unfold reset_b, reset_c. cbn [x_msg_a x_m1m2 x_conn set_x_m1m2]. auto.
  - unfold handle_measurements in H. cbv zeta in H. bi H. apply mod_inv in P as ->. apply on_response_ok in H as (r & -> & H). apply reading_ok in H as (p & rest & D & _).
    rewrite contains_bit in D. eexists. split; [acc D (dl_meas (mkCctx (x_nego z) (x_need_sum z) (N.testbit attributes 0)))|exact I].
  - unfold handle_key_exchange_rsp in H. bi H. apply mod_inv in P as ->. apply on_response_ok in H as (r & -> & H). apply reading_ok in H as (p & rest & D & _).
    eexists. split; [acc D (dl_key_ex_rsp (mkCctx (x_nego z) ((summary =? 1) || (summary =? 255)) (x_need_sig z)))|exact I].
  - unfold handle_finish_rsp in H. bg H. bi H. apply ok_inv in P as [_ ->]. apply on_response_any_ok in H as (v0 & r & -> & H). apply reading_ok in H as (p & rest & D & _).
    eexists. split; [acc D (dl_finish_rsp (xc z))|exact I].
  - unfold handle_psk_exchange_rsp in H. bi H. apply mod_inv in P as ->. apply on_response_ok in H as (r & -> & H). apply reading_ok in H as (p & rest & D & _).
    eexists. split; [acc D (dl_psk_ex_rsp (mkCctx (x_nego z) ((summary =? 1) || (summary =? 255)) (x_need_sig z)))|exact I].
  - apply on_response_ok in H as (r & -> & H). apply reading_ok in H as (p & rest & D & _). eexists. split; [acc D dl_empty|exact I].
  - apply on_response_ok in H as (r & -> & H). apply reading_ok in H as (p & rest & D & _). eexists. split; [acc D dl_empty|exact I].
  - apply on_response_ok in H as (r & -> & H). bi H. pose proof (rd_state _ _ _ _ _ P). subst y. bg H. bi H. apply ok_inv in P0 as [_ ->]. unfold rd in P.
    destruct (dec_key_update r) as [p rest| |] eqn:D; try discriminate; [eexists; split; [acc D dl_key_update|exact I]|].
    assert (v = None) as -> by congruence. bi H. discriminate.
  - apply on_response_ok in H as (r & -> & H). apply reading_ok in H as (p & rest & D & _). eexists. split; [acc D dl_empty|exact I].
  - apply on_response_ok in H as (r & -> & H). apply reading_ok in H as (p & rest & D & H). eexists. split; [acc D dl_vendor|].
    apply ret_inv in H as [_ ->]. apply tk_refl.
Qed.

(** ** failed operations *)
Definition errs {A} (R : ctx -> ctx -> Prop) (m : st ctx A) : Prop := forall x e x', m x = (Err e, x') -> R x x'.
Section errs.
  Variable R : ctx -> ctx -> Prop.
  Hypothesis HR : preorder R.
  Lemma errs_rel {A} (m : st ctx A) : rel R m -> errs R m.
  Proof using. intros H x e x' E. exact (H _ _ _ E). Qed.
  Lemma errs_bind {A B} (m : st ctx A) (k : A -> st ctx B) : rel R m -> (forall a, errs R (k a)) -> errs R (sbind m k).
  Proof using HR.
    intros M K x e x' H. unfold sbind in H. destruct (m x) as [[a|f|] y] eqn:F.
    - apply (proj2 HR x y); [exact (M _ _ _ F)|exact (K _ _ _ _ H)].
    - replace x' with y by congruence. exact (M _ _ _ F).
    - discriminate.
  Qed.
  Lemma errs_on_response {A} c sid b (k : bytes -> st ctx A) : (forall r, errs R (k r)) -> rel R (@error_main A sid b) -> errs R (on_response c sid b k).
  Proof using HR.
    intros K EM. unfold on_response. apply errs_bind; [apply rel_get, HR|intro x]. destruct (read_header b) as [[h r]|]; [|apply errs_rel, rel_err, HR].
    destruct (negb _); [apply errs_rel, rel_err, HR|]. unfold on_code. destruct (_ =? _); [apply K|]. apply errs_rel. destruct (_ =? _); [exact EM|apply rel_err, HR].
  Qed.
  Lemma errs_reading {P A} (d : cctx -> dec P) b r (k : P -> bytes -> st ctx A) : (forall p u, errs R (k p u)) -> errs R (reading d b r k).
  Proof using HR.
    intros K. unfold reading. apply errs_bind; [apply rel_rd, HR|intro o]. destruct o as [[p rest]|]; [apply K|apply errs_rel, rel_err, HR].
  Qed.
End errs.
Lemma errs_append_b_both E sid s u : errs tk (append_b_both E sid s u).
Proof.
  unfold append_b_both. destruct sid; [apply errs_rel, (rel_ret _ tk_pre)|]. intros x e x' H.
  destruct (append_both (e_cr E) ST_INVALID_STATE_LOCAL s u x) as [(y & F & _)|(e' & F)]; unfold append_b in H; rewrite F in H; [discriminate|].
  replace x' with x by congruence. apply tk_refl.
Qed.
Lemma errs_cert E sid a t o l : errs tk (get_certificate_partial E sid a t o l).
Proof.
  unfold get_certificate_partial. apply (errs_bind _ tk_pre); [apply (rel_get _ tk_pre)|intro x0]. apply (errs_bind _ tk_pre); [apply (rel_req_enc _ tk_pre)|intro s].
  apply (errs_bind _ tk_pre); [apply tk_send_on|intros _]. apply (errs_bind _ tk_pre); [apply tk_recv_on|intro b].
  unfold handle_certificate_rsp. apply (errs_on_response _ tk_pre); [intro r|apply tk_error_main]. apply (errs_reading _ tk_pre). intros p u.
  apply (errs_bind _ tk_pre); [apply (rel_assert _ tk_pre)|intros _]. apply (errs_bind _ tk_pre); [apply (rel_fail_if _ tk_pre)|intros _].
  apply (errs_bind _ tk_pre); [apply (rel_get _ tk_pre)|intro x1]. apply (errs_bind _ tk_pre); [apply (rel_ok _ tk_pre)|intro tt0].
  apply (errs_bind _ tk_pre); [tf|intros _]. intros x e x' H. unfold sbind in H.
  destruct (append_b_both E sid s u x) as [[v|f|] y] eqn:F; [unfold sret in H; discriminate| |discriminate]. replace x' with y by congruence. exact (errs_append_b_both _ _ _ _ _ _ _ F).
Qed.
Lemma errs_digests E sid : errs td (get_digests E sid).
Proof.
  unfold get_digests. apply (errs_bind _ td_pre); [apply rel_mod; intro; apply td_reset_buffer|intros _]. apply (errs_bind _ td_pre); [apply (rel_get _ td_pre)|intro x0].
  apply (errs_bind _ td_pre); [apply (rel_req_enc _ td_pre)|intro s].
  apply (errs_bind _ td_pre); [apply td_of, tk_send_on|intros _]. apply (errs_bind _ td_pre); [apply td_of, tk_recv_on|intro b].
  unfold handle_digests_rsp. apply (errs_on_response _ td_pre); [intro r|apply td_of, tk_error_main]. apply (errs_reading _ td_pre). intros p u.
  intros x e x' H. apply tk_td. exact (errs_append_b_both _ _ _ _ _ _ _ H).
Qed.
Lemma errs_challenge E a t : errs td (challenge_req E a t).
Proof.
  unfold challenge_req. apply (errs_bind _ td_pre); [apply (rel_fail_if _ td_pre)|intros _]. apply (errs_bind _ td_pre); [apply rel_mod; intro; apply td_reset_buffer|intros _].
  apply (errs_bind _ td_pre); [apply td_of, tk_random|intro n]. apply (errs_bind _ td_pre); [apply (rel_ok _ td_pre)|intro nonce].
  apply (errs_bind _ td_pre); [apply (rel_get _ td_pre)|intro x0]. apply (errs_bind _ td_pre); [apply (rel_req_enc _ td_pre)|intro s].
  apply (errs_bind _ td_pre); [apply td_of, tk_send|intros _]. apply (errs_bind _ td_pre); [apply td_of, tk_recv|intro b].
  unfold handle_challenge_auth, set_summary. apply (errs_bind _ td_pre); [apply td_of; tf|intros _].
  apply (errs_on_response _ td_pre); [intro r|apply td_of, tk_error_main]. apply (errs_reading _ td_pre). intros p u.
  apply (errs_bind _ td_pre); [apply (rel_get _ td_pre)|intro x1]. apply (errs_bind _ td_pre); [apply (rel_unwrap _ td_pre)|intro sg]. apply (errs_bind _ td_pre); [apply (rel_of _ td_pre)|intro w].
  intros x e x' H.
  assert (forall y, (append_c (e_cr E) s ;;; append_c (e_cr E) w)%st x = (Ok tt, y) -> x_msg_a y = x_msg_a x /\ x_conn y = x_conn x) as K.
  { intros y F. destruct (append_both (e_cr E) ST_CRYPTO_ERROR s w x) as [(z & G & ->)|(e' & G)]; unfold append_c in F; rewrite G in F; [|discriminate].
    replace y with (set_x_m1m2 (Some (base x ++ s ++ w)) x) by congruence. split; reflexivity. }
  unfold sbind in H at 1. unfold sbind at 1 in K. destruct (append_c (e_cr E) s x) as [[v|f|] y] eqn:F.
  - unfold sbind in H at 1. destruct (append_c (e_cr E) w y) as [[v'|f|] y'] eqn:F'.
    + destruct v'. destruct (K _ eq_refl) as [K1 K2]. unfold scatch in H.
      destruct (verify_challenge_sig E a (v_bytes (ca_sig p)) y') as [res q] eqn:V. apply tk_chal_sig in V as (V1 & V2 & V3).
      assert (x' = reset_c (reset_b q)) as ->. { destruct res; cbn [sbind smod serr] in H; try discriminate. unfold sbind, smod, serr in H. congruence. }
      unfold td, reset_b, reset_c. cbn [x_msg_a x_m1m2 x_conn set_x_m1m2]. split; [congruence|]. split; [right; reflexivity|congruence].
    + unfold append_c in F, F'. apply append_m1m2_ok in F. rewrite F in F'. rewrite (append_m1m2_some _ _ _ _ (base x ++ s)) in F' by reflexivity. discriminate.
    + discriminate.
  - replace x' with y by congruence. unfold append_c in F. apply append_m1m2_err in F as ->. apply td_pre.
  - discriminate.
Qed.
Lemma errs_vendor E sid st vid pl x e x' : vendor_req E sid st vid pl x = (Err e, x') -> x_msg_a x' = [] /\ x_m1m2 x' = None /\ x_conn x' = CONN_NOT_STARTED.
Proof.
  unfold vendor_req. intro H. unfold sbind at 1 2 in H. unfold smod in H. cbv beta iota in H.
  assert (K : tk (reset_context (reset_buffer RC_VENDOR_REQ sid x)) x').
  { revert H. match goal with |- ?m ?y = _ -> _ => assert (rel tk m) as Q by (unfold vendor_answer; tt) end. intro H. exact (Q _ _ _ H). }
  destruct K as (K1 & K2 & K3). rewrite K1, K2, K3. repeat split; reflexivity.
Qed.
(** the connection state of the requester never moves *)
Definition ck (x x' : ctx) : Prop := x_conn x = CONN_NOT_STARTED -> x_conn x' = CONN_NOT_STARTED.
Lemma ck_pre : preorder ck.
Proof. split; unfold ck; auto. Qed.
Lemma tk_ck {A} (m : st ctx A) : rel tk m -> rel ck m.
Proof. intros H x r x' E C. destruct (H _ _ _ E) as (_ & _ & ->). exact C. Qed.
Lemma ck_append_a m : rel ck (append_a m).
Proof. intros x r x' H C. unfold append_a in H. destruct (_ <? _); match type of H with (_, ?z) = _ => replace x' with z by congruence end; exact C. Qed.
Lemma ck_reset_buffer c sid : rel ck (smod (reset_buffer c sid)).
Proof. apply rel_mod. intros x C. destruct (td_reset_buffer c sid x) as (_ & _ & ->). exact C. Qed.
Lemma ck_builds E o : builds_a o = true -> rel ck (run E o).
Proof.
  intro B. destruct o; try discriminate B; cbn [run].
  - unfold get_version. rl ck_pre; [apply ck_reset_buffer|apply (rel_req_enc _ ck_pre)|apply tk_ck, tk_send|apply tk_ck, tk_recv|].
    unfold handle_version_rsp. apply (rel_on_response_any _ ck_pre); [intro|apply tk_ck, tk_error_main]. apply (rel_reading _ ck_pre). intros. rl ck_pre; try apply ck_append_a.
    + apply rel_mod. intros x C. exact C.
    + apply rel_mod. intros x C. reflexivity.
  - unfold get_capabilities. rl ck_pre; [apply ck_reset_buffer|apply (rel_req_enc _ ck_pre)|apply tk_ck, tk_send|apply tk_ck, tk_recv|].
    unfold handle_capabilities_rsp. apply (rel_on_response _ ck_pre); [intro|apply tk_ck, tk_error_main]. apply (rel_reading _ ck_pre). intros. rl ck_pre; try apply ck_append_a.
    apply rel_mod. intros x C. exact C.
  - unfold negotiate_algorithms. rl ck_pre; [apply ck_reset_buffer|apply (rel_req_enc _ ck_pre)|apply tk_ck, tk_send|apply tk_ck, tk_recv|].
    unfold handle_algorithms_rsp. apply (rel_on_response _ ck_pre); [intro|apply tk_ck, tk_error_main]. apply (rel_reading _ ck_pre). intros. rl ck_pre; try apply ck_append_a;
    apply rel_mod; intros x C; exact C.
Qed.

(** ** the invariant *)
Definition follows (E : env) (x : ctx) : Prop := history E (x_msg_a x) (x_m1m2 x) x /\ x_conn x = CONN_NOT_STARTED.
Lemma asked_xk o x z : xc z = xc x -> asked o z = asked o x.
Proof.
  intro H. assert (x_nego z = x_nego x) as N1 by (apply (f_equal c_nego) in H; exact H). assert (x_need_sum z = x_need_sum x) as N2 by (apply (f_equal c_need_sum) in H; exact H).
  assert (x_need_sig z = x_need_sig x) as N3 by (apply (f_equal c_need_sig) in H; exact H). unfold asked. destruct o; rewrite ?N1, ?N2, ?N3, ?H; reflexivity.
Qed.
Lemma accepted_vendor o c c' b u : vendor o = true -> accepted o c b u -> accepted o c' b u.
Proof. destruct o; try discriminate. auto. Qed.
Definition plain_op (o : operation) : bool :=
  match o with OVersion | OCapabilities | OAlgorithms | ODigests _ | OCertPart _ _ _ _ _ | OChallenge _ _ | OVendor _ _ _ _ => true | _ => false end.
Lemma resets_rest E o : plain_op o = false -> resets E o.
Proof.
  destruct o; try discriminate; intros _; [apply resets_measurements|apply resets_kx|apply resets_finish|apply resets_psk|apply resets_psk_finish|apply resets_heartbeat|apply resets_ku|apply resets_end].
Qed.
Lemma after_ok o x x' s u z : x_conn x = CONN_NOT_STARTED -> begins o x z -> effect o s u z x' -> plain_op o = true ->
  x_msg_a x' = fst (m1m2_after o s u (x_msg_a x) (x_m1m2 x)) /\ x_m1m2 x' = snd (m1m2_after o s u (x_msg_a x) (x_m1m2 x)) /\ x_conn x' = CONN_NOT_STARTED.
Proof.
  intros C B F Pl. destruct o; try discriminate Pl; cbn [begins effect m1m2_after] in *.
  - destruct F as (-> & -> & ->). auto.
  - destruct F as (-> & -> & ->). destruct B as (-> & -> & ->). auto.
  - destruct F as (-> & -> & ->). destruct B as (-> & -> & ->). auto.
  - destruct B as (B1 & B2 & B3). cbn [reset_b x_msg_a x_m1m2 x_conn set_x_m1m2] in B1, B2, B3. unfold reset_b in B1, B2, B3. cbn [x_msg_a x_m1m2 x_conn set_x_m1m2] in B1, B2, B3. destruct sid.
    + destruct F as (-> & -> & ->). rewrite B1, B2, B3. auto.
    + destruct F as (-> & -> & ->). unfold base. rewrite B1, B2, B3. auto.
  - destruct B as (B1 & B2 & B3). destruct sid.
    + destruct F as (-> & -> & ->). rewrite B1, B2, B3. auto.
    + destruct F as (-> & -> & ->). unfold base. rewrite B1, B2, B3. auto.
  - destruct B as (B1 & B2 & B3). destruct F as (-> & -> & ->). rewrite B1, B3. auto.
  - destruct F as (-> & -> & ->). destruct B as (-> & -> & ->). repeat split; reflexivity.
Qed.
Lemma drop_err {A} (m : st ctx A) x e x' : drop m x = (Err e, x') -> m x = (Err e, x').
Proof. unfold drop, sbind. destruct (m x) as [[a|f|] y]; unfold sret; intro H; try discriminate. congruence. Qed.
Lemma follows_step E o x r x' : follows E x -> run E o x = (r, x') -> r <> Panic -> follows E x'.
Proof.
  intros [H C] R NP. destruct r as [[]|e|]; [| |congruence].
  - destruct (run_split _ _ _ _ _ R) as (s & half & key & b & z & X & An & Xk & Bg). destruct (answer_effect _ _ _ _ _ _ _ _ An) as (u & Ac & Ef).
    assert (Ac' : accepted o (asked o x) b u).
    { destruct (vendor o) eqn:V; [exact (accepted_vendor _ _ _ _ _ V Ac)|]. destruct (Xk eq_refl) as [Xk1 _]. rewrite <- (asked_xk o _ _ Xk1). exact Ac. }
    pose proof (h_ok _ _ _ _ _ _ _ _ _ H R X Ac') as H'.
    destruct (plain_op o) eqn:Pl.
    + destruct (after_ok _ _ _ _ _ _ C Bg Ef Pl) as (E1 & E2 & E3). split; [rewrite E1, E2; exact H'|exact E3].
    + destruct (resets_rest E o Pl _ _ _ R) as [(T1 & _ & T3) T2]. specialize (T2 tt eq_refl C). split; [|congruence]. rewrite T1, T2.
      destruct o; try discriminate Pl; exact H'.
  - destruct (builds_a o) eqn:Bu.
    + split; [exact (h_restart _ _ _ _ _ _ _ _ _ H R Bu)|exact (ck_builds E o Bu _ _ _ R C)].
    + assert (T : vendor o = true /\ x_msg_a x' = [] /\ x_m1m2 x' = None /\ x_conn x' = CONN_NOT_STARTED \/
                  vendor o = false /\ td x x' /\ ((exists sid a t f l, o = OCertPart sid a t f l) -> tk x x')).
      { destruct o; try discriminate Bu; cbn [run] in R; try apply drop_err in R.
        - right. split; [reflexivity|]. split; [exact (errs_digests _ _ _ _ _ R)|intros (? & ? & ? & ? & ? & ?); discriminate].
        - right. split; [reflexivity|]. apply errs_cert in R. split; [apply tk_td, R|intros _; exact R].
        - right. split; [reflexivity|]. split; [exact (errs_challenge _ _ _ _ _ _ R)|intros (? & ? & ? & ? & ? & ?); discriminate].
        - right. split; [reflexivity|]. split; [apply (resets_measurements E sid slot attributes index x (Err e) x'); cbn [run]; unfold drop, sbind; rewrite R; reflexivity|intros (? & ? & ? & ? & ? & ?); discriminate].
        - right. split; [reflexivity|]. split; [apply (resets_kx E slot summary x (Err e) x'); cbn [run]; unfold drop, sbind; rewrite R; reflexivity|intros (? & ? & ? & ? & ? & ?); discriminate].
        - right. split; [reflexivity|]. split; [apply (resets_finish E _ _ _ _ _ R)|intros (? & ? & ? & ? & ? & ?); discriminate].
        - right. split; [reflexivity|]. split; [apply (resets_psk E summary hint x (Err e) x'); cbn [run]; unfold drop, sbind; rewrite R; reflexivity|intros (? & ? & ? & ? & ? & ?); discriminate].
        - right. split; [reflexivity|]. split; [apply (resets_psk_finish E _ _ _ _ R)|intros (? & ? & ? & ? & ? & ?); discriminate].
        - right. split; [reflexivity|]. split; [apply (resets_heartbeat E _ _ _ _ R)|intros (? & ? & ? & ? & ? & ?); discriminate].
        - right. split; [reflexivity|]. split; [apply (resets_ku E _ _ _ _ _ _ R)|intros (? & ? & ? & ? & ? & ?); discriminate].
        - right. split; [reflexivity|]. split; [apply (resets_end E _ _ _ _ R)|intros (? & ? & ? & ? & ? & ?); discriminate].
        - left. split; [reflexivity|]. exact (errs_vendor _ _ _ _ _ _ _ _ R). }
      destruct T as [(V & T1 & T2 & T3)|(V & (T1 & T2 & T3) & T4)].
      * split; [|exact T3]. rewrite T1, T2. assert (NC : forall sid a t f l, o <> OCertPart sid a t f l) by (intros ? ? ? ? ? ->; discriminate V).
        pose proof (h_failed E _ _ None _ _ _ _ H R Bu (or_intror (conj eq_refl NC))) as K.
        destruct o; try discriminate V. exact K.
      * split; [|congruence]. rewrite T1.
        assert (K : x_m1m2 x' = x_m1m2 x \/ (x_m1m2 x' = None /\ forall sid a t f l, o <> OCertPart sid a t f l)).
        { destruct T2 as [T2|T2]; [left; exact T2|]. destruct (plain_op o) eqn:Pl; [destruct o; try discriminate Pl|]; try (right; split; [exact T2|intros; discriminate]).
          - left. apply T4. eauto 10.
          - right. split; [exact T2|]. intros ? ? ? ? ? ->. discriminate Pl. }
        pose proof (h_failed E _ _ _ _ _ _ _ H R Bu K) as K'. destruct o; try exact K'. discriminate V.
Qed.
Lemma follows_loop E sid slot fuel : forall total offset l x r x', follows E x -> certificate_loop E sid slot fuel total offset l x = (r, x') -> r <> Panic -> follows E x'.
Proof.
  induction fuel as [|f IH]; intros total offset l x r x' F H NP; cbn [certificate_loop] in H; destruct (l =? 0).
  - apply ret_inv in H as [_ ->]. exact F.
  - apply ret_inv in H as [_ ->]. exact F.
  - apply ret_inv in H as [_ ->]. exact F.
  - unfold sbind in H at 1. destruct (get_certificate_partial E sid slot total offset l x) as [[p|e|] y] eqn:G; [| |congruence].
    + assert (follows E y) as Fy. { apply (follows_step E (OCertPart sid slot total offset l) x (Ok tt) y F); [cbn [run]; exact (drop_run _ _ _ _ G)|discriminate]. }
      exact (IH _ _ _ _ _ _ Fy H NP).
    + replace x' with y by congruence. apply (follows_step E (OCertPart sid slot total offset l) x (Err e) y F); [cbn [run]; unfold drop, sbind; rewrite G; reflexivity|discriminate].
Qed.
Lemma set_chain_same x : set_x_peer_chain (x_peer_chain x) x = x.
Proof. destruct x. reflexivity. Qed.
Lemma follows_end E x ch : follows E x -> follows E (set_x_peer_temp None (set_x_peer_chain ch x)).
Proof. intros [H C]. split; [|exact C]. exact (h_cert_end _ _ _ _ ch H). Qed.
Lemma follows_end' E x : follows E x -> follows E (set_x_peer_temp None x).
Proof. intro F. apply (follows_end E x (x_peer_chain x)) in F. rewrite set_chain_same in F. exact F. Qed.
Lemma follows_cert E fuel sid slot x r x' : follows E x -> get_certificate E fuel sid slot x = (r, x') -> r <> Panic -> follows E x'.
Proof.
  intros F H NP. unfold get_certificate in H. rewrite bind_fail in H. destruct (8 <=? slot); [replace x' with x by congruence; exact F|].
  unfold sbind at 1 2 in H. unfold smod at 1 2 in H.
  set (x1 := set_x_peer_temp (Some []) (reset_buffer RC_GET_CERTIFICATE sid x)) in H.
  assert (F1 : follows E x1).
  { destruct F as [H0 C]. replace x1 with (set_x_peer_temp (Some []) (reset_m sid x)) by reflexivity. destruct (tk_reset_m sid x) as (T1 & T2 & T3). split.
    - cbn [x_msg_a x_m1m2 set_x_peer_temp]. rewrite T1, T2. exact (h_cert_begin _ _ _ _ sid H0).
    - cbn [x_conn set_x_peer_temp]. congruence. }
  clearbody x1. clear F. unfold sbind at 1 in H. destruct (certificate_loop E sid slot fuel 0 0 512 x1) as [[t|e|] y] eqn:L; [| |congruence].
  - assert (Fy : follows E y) by (apply (follows_loop _ _ _ _ _ _ _ _ _ _ F1 L); discriminate). destruct t as [total|]; [|apply ret_inv in H as [_ ->]; exact Fy].
    destruct (total =? 0).
    + unfold sbind, smod, serr in H. replace x' with (set_x_peer_temp None y) by congruence. apply follows_end', Fy.
    + rewrite bind_get in H. unfold sbind at 1 in H. unfold sok in H. destruct (x_peer_temp y) as [chain|]; unfold sret at 1, serr at 1 in H; [|replace x' with y by congruence; exact Fy].
      destruct (verify_chain _ _ _ _) as [v|e|].
      * unfold sbind, smod, sret in H. match type of H with (_, ?z) = _ => replace x' with z by congruence end. apply follows_end, Fy.
      * unfold sbind, smod, serr in H. replace x' with (set_x_peer_temp None y) by congruence. apply follows_end', Fy.
      * unfold spanic in H. congruence.
  - replace x' with y by congruence. apply (follows_loop _ _ _ _ _ _ _ _ _ _ F1 L). discriminate.
Qed.
Theorem reached_follows E x : reached E x -> follows E x.
Proof.
  induction 1 as [cfg cd mc root|x o r x' _ IH R NP|x fuel sid slot r x' _ IH R NP].
  - split; [apply h_start|reflexivity].
  - exact (follows_step _ _ _ _ _ IH R NP).
  - exact (follows_cert _ _ _ _ _ _ _ IH R NP).
Qed.
