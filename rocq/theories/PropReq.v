(** C39: ERROR responses never succeed. *)
From Verif Require Import Bytes BytesFacts Status Codec Parse ParseProofs Algo Monad.
From Verif Require Import MsgConn MsgAuth MsgSession MsgOther Message Opaque Transport Crypto KeySchedule Session Signing CertOps ChainVerify Context
  RspBase RspConn RspSess RspEncap Responder StRel RspFrame RspCalm RspOpcode RspPass RspEst SpecResponder RspTable RspIso RspDeliver RspRefuse ReqBase ReqConn ReqSess SpecReq ReqFrame ReqAnswer ToyCrypto PropPhase ExRun Pair ExPair.
From Coq Require Import List Lia.
Local Open Scope N_scope.

(** An operation that succeeds sent one request and received, through the session it runs in, one
    response with the expected code (and, where checked, the negotiated version). *)
Theorem C39_success_needs_the_response :
  forall E o x u x', run E o x = (Ok u, x') ->
  exists b, answered E (runs_in x o) x x' b /\ has_code b (expects o) /\ (checks_version o = true -> has_version b (ver x')).
Proof. intros E o x u x' H. destruct (run_done E o x u x' H) as (b & A & B & C). exists b. auto. Qed.
Print Assumptions C39_success_needs_the_response.
(** Hence: if what arrives is an ERROR, or anything else than the expected response, it fails. *)
Theorem C39_wrong_response_fails :
  forall E o x r x' f, run E o x = (r, x') -> e_recv E (x_io x + 1) (x_sent x') = Some f ->
  (forall b, response_in E (runs_in x o) f b -> ~ has_code b (expects o)) -> forall u, r <> Ok u.
Proof.
  intros E o x r x' f H F W u ->. destruct (C39_success_needs_the_response E o x u x' H) as (b & (t & f' & _ & _ & _ & A & B) & C & _).
  assert (f' = f) as -> by congruence. exact (W b B C).
Qed.
Print Assumptions C39_wrong_response_fails.

(** ** what an ERROR response is turned into *)
Lemma drop_err {A} (m : st ctx A) x e : fst (m x) = Err e -> fst (drop m x) = Err e /\ snd (drop m x) = snd (m x).
Proof. unfold drop, sbind. destruct (m x) as [[a| |] y]; cbn; intro H; try discriminate. split; congruence. Qed.
Definition known (o : operation) (x : ctx) : bool :=
  match concerns o with None => true | Some id => match get_sess id x with Some _ => true | None => false end end.
Definition sknown (sid : option N) (x : ctx) : bool :=
  match sid with None => true | Some id => match get_sess id x with Some _ => true | None => false end end.
Lemma on_sess_teardown id x s : get_sess id x = Some s -> on_sess id (session_teardown id) x = (Ok tt, mod_sess id (fun _ => session_set_default s) x).
Proof. intro G. unfold on_sess. rewrite G. unfold session_teardown. rewrite (RspDeliver.get_sess_id _ _ _ G), N.eqb_refl. reflexivity. Qed.
(** the effect of an ERROR response on the table *)
Definition erased (sid : option N) (c : N) (x : ctx) : list session :=
  match sid with
  | None => x_sess x
  | Some id =>
      match get_sess id x with
      | None => x_sess x
      | Some s => if c =? 6 then upd_sess id (fun _ => session_set_default s) (x_sess x)
                  else if c =? 0x43 then upd_sess id (set_s_state SNotStarted) (x_sess x)
                  else x_sess x
      end
  end.
Lemma error_main_table {A} sid x c d rest :
  @error_main A sid (ver x :: 0x7F :: c :: d :: rest) x = (Err (error_status c (sknown sid x)), set_x_sess (erased sid c x) x).
Proof.
  assert (X : set_x_sess (x_sess x) x = x) by (destruct x; reflexivity).
  unfold error_main, sbind, sget, ReqBase.error_main. rewrite RspRefuse.read_two. cbv beta iota zeta. cbn [h_version h_code].
  rewrite N.eqb_refl. cbn [negb]. change (0x7F =? RC_ERROR) with true. cbn [negb]. change ERR_DECRYPT with 6.
  unfold erased, error_status. destruct (N.eqb_spec c 6) as [->|Hd].
  - cbn [N.eqb]. change (6 =? 66) with false. change (6 =? 3) with false. change (6 =? 67) with false. change (6 =? 6) with true. cbv beta iota.
    unfold sknown. destruct sid as [id|].
    + destruct (get_sess id x) as [s|] eqn:G; cbv beta iota.
      * rewrite (on_sess_teardown id x s G). reflexivity.
      * unfold serr. rewrite X. reflexivity.
    + unfold sret, serr. rewrite X. reflexivity.
  - unfold simple_error. change ERR_NOT_READY with 66. change ERR_BUSY with 3. change ERR_RESYNCH with 67.
    destruct (N.eqb_spec c 66) as [->|]; [|destruct (N.eqb_spec c 3) as [->|]; [|destruct (N.eqb_spec c 67) as [->|]]]; cbv beta iota.
    + change (66 =? 6) with false. change (66 =? 67) with false. cbv beta iota. unfold serr. destruct sid as [id|]; [destruct (get_sess id x)|]; rewrite X; reflexivity.
    + change (3 =? 6) with false. change (3 =? 67) with false. cbv beta iota. unfold serr. destruct sid as [id|]; [destruct (get_sess id x)|]; rewrite X; reflexivity.
    + unfold sbind, sget. destruct sid as [id|]; [destruct (get_sess id x) as [s|] eqn:G|]; cbv beta iota.
      * reflexivity.
      * unfold serr. rewrite X. reflexivity.
      * unfold sret, serr. rewrite X. reflexivity.
    + unfold serr. destruct sid as [id|]; [destruct (get_sess id x)|]; rewrite X; reflexivity.
Qed.
Lemma on_response_error {A} code sid x c d rest (k : bytes -> st ctx A) : code <> 0x7F ->
  on_response code sid (ver x :: 0x7F :: c :: d :: rest) k x = (Err (error_status c (sknown sid x)), set_x_sess (erased sid c x) x).
Proof.
  intro H. rewrite <- (@error_main_table A sid x c d rest). unfold on_response, sbind at 1, sget at 1. rewrite RspRefuse.read_two. cbv beta iota. cbn [h_version].
  rewrite N.eqb_refl. cbn [negb]. unfold on_code. cbn [h_code]. destruct (N.eqb_spec 0x7F code) as [K|_]; [congruence|]. reflexivity.
Qed.
Lemma on_response_any_error {A} code sid x c d rest (k : bytes -> st ctx A) : code <> 0x7F ->
  on_response_any code sid (ver x :: 0x7F :: c :: d :: rest) k x = (Err (error_status c (sknown sid x)), set_x_sess (erased sid c x) x).
Proof.
  intro H. rewrite <- (@error_main_table A sid x c d rest). unfold on_response_any. rewrite RspRefuse.read_two. cbv beta iota.
  unfold on_code. cbn [h_code]. destruct (N.eqb_spec 0x7F code) as [K|_]; [congruence|]. reflexivity.
Qed.
(** An ERROR response of the negotiated version: every operation returns the status belonging to
    the error code; the session it concerns, if there is one, is erased on DecryptError, put back
    to "not started" on RequestResynch, and untouched otherwise. *)
Theorem C39_error_statuses :
  forall E o s half key x c d rest r x',
  (forall rs id, o = OFinish rs id -> get_sess id x <> None) ->
  on_answer E o s half key (ver x :: 0x7F (* ERROR *) :: c :: d :: rest) x = (r, x') ->
  r = Err (error_status c (known o x)) /\ x_sess x' = erased (concerns o) c x.
Proof.
  intros E o s half key x c d rest r x' F H.
  assert (W : forall (m : outcome unit * ctx), m = (r, x') -> m = (Err (error_status c (sknown (concerns o) x)), set_x_sess (erased (concerns o) c x) x) ->
     r = Err (error_status c (known o x)) /\ x_sess x' = erased (concerns o) c x).
  { intros m H1 H2. assert (R : r = Err (error_status c (sknown (concerns o) x))) by congruence.
    assert (X : x' = set_x_sess (erased (concerns o) c x) x) by congruence. split; [exact R|]. rewrite X. reflexivity. }
  assert (D : forall A (m : st ctx A), drop m x = (r, x') -> m x = (Err (error_status c (sknown (concerns o) x)), set_x_sess (erased (concerns o) c x) x) ->
     r = Err (error_status c (known o x)) /\ x_sess x' = erased (concerns o) c x).
  { intros A m H1 H2. unfold drop, sbind in H1. rewrite H2 in H1. exact (W _ H1 eq_refl). }
  assert (D2 : forall A (m : st ctx A) f (y : ctx), drop (smod f ;;; m)%st x = (r, x') -> y = f x -> ver y = ver x -> x_sess y = x_sess x ->
     m y = (Err (error_status c (sknown (concerns o) y)), set_x_sess (erased (concerns o) c y) y) ->
     r = Err (error_status c (known o x)) /\ x_sess x' = erased (concerns o) c x).
  { intros A m f y H1 -> Hv Hs H2. unfold drop, sbind, smod in H1. rewrite H2 in H1. assert (R : r = Err (error_status c (sknown (concerns o) (f x)))) by congruence.
    assert (X : x' = set_x_sess (erased (concerns o) c (f x)) (f x)) by congruence. unfold sknown, erased, get_sess, known in *. rewrite Hs in *. split; [exact R|]. rewrite X. reflexivity. }
  destruct o; cbn [on_answer] in H.
  - apply (W _ H). apply on_response_any_error. discriminate.
  - apply (W _ H). apply on_response_error. discriminate.
  - apply (W _ H). apply on_response_error. discriminate.
  - apply (W _ H). apply on_response_error. discriminate.
  - apply (D _ _ H). apply on_response_error. discriminate.
  - unfold handle_challenge_auth, set_summary in H. unfold sbind at 1, smod at 1 in H. set (y := set_x_need_sum _ x) in H.
    change (ver x) with (ver y) in H. rewrite on_response_error in H; [|discriminate]. 
    assert (R : r = Err (error_status c (sknown (Some 0) y))) by congruence. assert (X : x' = set_x_sess (erased (Some 0) c y) y) by congruence. split; [exact R|rewrite X; reflexivity].
  - unfold handle_measurements in H. cbv zeta in H. refine (D2 _ _ _ _ H eq_refl eq_refl eq_refl _). apply (on_response_error _ _ (set_x_need_sig _ x)). discriminate.
  - unfold handle_key_exchange_rsp, set_summary in H. refine (D2 _ _ _ _ H eq_refl eq_refl eq_refl _). apply (on_response_error _ _ (set_x_need_sum _ x)). discriminate.
  - unfold handle_finish_rsp in H. unfold sbind at 1, sget at 1 in H. specialize (F _ _ eq_refl). destruct (get_sess id x) as [ss|] eqn:G; [|contradiction].
    unfold sbind at 1 in H. cbn [sok] in H. unfold sret at 1 in H. cbv beta iota in H.
    apply (W _ H). apply on_response_any_error. discriminate.
  - unfold handle_psk_exchange_rsp, set_summary in H. refine (D2 _ _ _ _ H eq_refl eq_refl eq_refl _). apply (on_response_error _ _ (set_x_need_sum _ x)). discriminate.
  - apply (W _ H). apply on_response_error. discriminate.
  - apply (W _ H). apply on_response_error. discriminate.
  - apply (W _ H). apply on_response_error. discriminate.
  - apply (W _ H). apply on_response_error. discriminate.
  - apply (D _ _ H). apply on_response_error. discriminate.
Qed.
Print Assumptions C39_error_statuses.
(** DecryptError: with distinct session ids, no session of that id is left *)
Theorem C39_decrypt_error_erases :
  forall E o s half key x d rest r x' id,
  table_integrity (x_sess x) -> concerns o = Some id -> id <> 0 -> get_sess id x <> None ->
  on_answer E o s half key (ver x :: 0x7F :: 6 (* DecryptError *) :: d :: rest) x = (r, x') ->
  r = Err ST_SESSION_MSG_ERROR /\ get_sess id x' = None.
Proof.
  intros E o s half key x d rest r x' id T C Z G H.
  destruct (C39_error_statuses E o s half key x 6 d rest r x') as [-> X]; [|exact H|].
  - intros rs i ->. cbn in C. assert (i = id) as -> by congruence. exact G.
  - unfold known. rewrite C. destruct (get_sess id x) as [ss|] eqn:Gs; [|contradiction]. split; [reflexivity|].
    unfold get_sess. rewrite X, C. unfold erased. rewrite Gs. change (6 =? 6) with true. cbv iota.
    destruct T as (_ & _ & T). unfold get_sess in Gs. revert T Gs. generalize (x_sess x) as l. induction l as [|a l IH]; intros T Gs; [discriminate|].
    cbn [upd_sess]. unfold find_sess in Gs. cbn [find] in Gs. destruct (N.eqb_spec (s_id a) id) as [Ia|Ia].
    + assert (ss = a) as -> by congruence. unfold find_sess. cbn [find]. change (s_id (session_set_default a)) with 0. destruct (N.eqb_spec 0 id) as [K|_]; [congruence|].
      destruct (find _ l) as [w|] eqn:Fw; [|reflexivity]. exfalso. apply find_some in Fw as [Fi Fw]. apply N.eqb_eq in Fw. apply In_nth_error in Fi as [j Fj].
      assert (0%nat = S j) by (apply (T 0%nat (S j) a w); [reflexivity|exact Fj|congruence|congruence]). discriminate.
    + unfold find_sess. cbn [find]. destruct (N.eqb_spec (s_id a) id) as [K|_]; [congruence|]. apply IH; [|exact Gs].
      intros i j a1 a2 N1 N2 Q1 Q2. assert (S i = S j) by (apply (T (S i) (S j) a1 a2); assumption). congruence.
Qed.
Print Assumptions C39_decrypt_error_erases.

(** ** malformed responses *)
(** An operation accepts only what has the expected code and parses. *)
Theorem C39_accepted_responses_parse :
  forall E o s half key b x u x', on_answer E o s half key b x = (Ok u, x') ->
  has_code b (expects o) /\ (checks_version o = true -> has_version b (ver x)) /\ parses o (asked o x) (skipn 2 b).
Proof.
  intros E o s half key b x u x' H. destruct o; cbn [on_answer] in H; try apply drop_ok in H as [w H]; unfold parses, parsed, asked.
  - apply on_response_any_ok in H as (v & r & -> & H). apply reading_ok in H as (p & rest & D & _). split; [reflexivity|split; [discriminate|eauto]].
  - apply on_response_ok in H as (r & -> & H). apply reading_ok in H as (p & rest & D & _). split; [reflexivity|split; [reflexivity|eauto]].
  - apply on_response_ok in H as (r & -> & H). apply reading_ok in H as (p & rest & D & _). split; [reflexivity|split; [reflexivity|eauto]].
  - apply on_response_ok in H as (r & -> & H). apply reading_ok in H as (p & rest & D & _). split; [reflexivity|split; [reflexivity|eauto]].
  - apply on_response_ok in H as (r & -> & H). apply reading_ok in H as (p & rest & D & _). split; [reflexivity|split; [reflexivity|eauto]].
  - unfold handle_challenge_auth in H. bi H. apply mod_inv in P as ->. apply on_response_ok in H as (r & -> & H). apply reading_ok in H as (p & rest & D & _). split; [reflexivity|split; [reflexivity|eauto]].
  - unfold handle_measurements in H. cbv zeta in H. rewrite contains_bit in H. bi H. apply mod_inv in P as ->. apply on_response_ok in H as (r & -> & H). apply reading_ok in H as (p & rest & D & _). split; [reflexivity|split; [reflexivity|eauto]].
  - unfold handle_key_exchange_rsp in H. bi H. apply mod_inv in P as ->. apply on_response_ok in H as (r & -> & H). apply reading_ok in H as (p & rest & D & _). split; [reflexivity|split; [reflexivity|eauto]].
  - unfold handle_finish_rsp in H. bg H. bi H. apply ok_inv in P as [_ ->]. apply on_response_any_ok in H as (v0 & r & -> & H). apply reading_ok in H as (p & rest & D & _). split; [reflexivity|split; [discriminate|eauto]].
  - unfold handle_psk_exchange_rsp in H. bi H. apply mod_inv in P as ->. apply on_response_ok in H as (r & -> & H). apply reading_ok in H as (p & rest & D & _). split; [reflexivity|split; [reflexivity|eauto]].
  - apply on_response_ok in H as (r & -> & H). apply reading_ok in H as (p & rest & D & _). split; [reflexivity|split; [reflexivity|eauto]].
  - apply on_response_ok in H as (r & -> & H). apply reading_ok in H as (p & rest & D & _). split; [reflexivity|split; [reflexivity|eauto]].
  - apply on_response_ok in H as (r & -> & H). bi H. pose proof (rd_state _ _ _ _ _ P). subst y. bg H. bi H. apply ok_inv in P0 as [_ ->]. unfold rd in P.
    split; [reflexivity|split; [reflexivity|]]. destruct (dec_key_update r) as [p rest| |] eqn:D; try discriminate; [cbn [skipn]; rewrite D; eauto|].
    assert (v = None) as -> by congruence. bi H. discriminate.
  - apply on_response_ok in H as (r & -> & H). apply reading_ok in H as (p & rest & D & _). split; [reflexivity|split; [reflexivity|eauto]].
  - apply on_response_ok in H as (r & -> & H). apply reading_ok in H as (p & rest & D & _). split; [reflexivity|split; [reflexivity|eauto]].
Qed.
Print Assumptions C39_accepted_responses_parse.

(** Cases.  The pair of ExPair.v: HEARTBEAT succeeds in the established session; against a peer
    that only sends ERROR messages CHALLENGE fails. *)
Definition err_env : env := mkEnv toy mctp_transport (fun _ _ => None) (fun _ _ => Some [5; 0x12; 0x7F; 3; 0]) (fun _ b => Ok b) (fun b => Ok b) false.
Example C39_case :
  okb (fst (run pr_env (OHeartbeat pr_id) pr8)) = true /\ okb (fst (run pr_env (OChallenge 0 1) pr3)) = true /\
  plain_response err_env [5; 0x12; 0x7F; 3; 0] [0x12; 0x7F; 3; 0] /\
  fst (run err_env (OChallenge 0 1) pr3) = Err ST_BUSY_PEER /\
  fst (run pr_env (OEndSession pr_id) pr3) = Err ST_INVALID_PARAMETER.
Proof. split; [|split; [|split; [|split]]]; vm_compute; try reflexivity; split; reflexivity. Qed.
Definition sessb (id : N) (x : ctx) : bool := match get_sess id x with Some _ => true | None => false end.
Example C39_decrypt_case :
  sessb pr_id pr8 = true /\
  okb (fst (on_answer pr_env (OHeartbeat pr_id) [] 0 0 (ver pr8 :: 0x7F :: 6 :: 0 :: []) pr8)) = false /\
  sessb pr_id (snd (on_answer pr_env (OHeartbeat pr_id) [] 0 0 (ver pr8 :: 0x7F :: 6 :: 0 :: []) pr8)) = false.
Proof. split; [|split]; vm_compute; reflexivity. Qed.
