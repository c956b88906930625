(** C93: requests that cannot be made are refused before anything is sent, and FINISH names the slot asked for. *)
From Verif Require Import Bytes BytesFacts Status Codec Parse ParseProofs Algo Monad MsgConn MsgAuth MsgSession MsgOther Message SpecMsg MsgProofs.
From Verif Require Import Transport Crypto KeySchedule Session Signing CertOps ChainVerify Context
  RspBase RspConn RspSess RspEncap Responder StRel RspFrame RspCalm RspOpcode RspSend RspPass RspEst ReqBase ReqConn ReqSess SpecReq ReqFrame ReqAnswer ReqTrans SpecAuth ReqSplit ReqHist ReqAuth ReqOpen ReqMeas SpecHand RspTable RspIso ReqHand ReqHand2 ReqHand3 PropReqTable PropRetr PropDigest PropMut.
From Verif Require Import ToyCrypto Pair ExPair.
From Coq Require Import Lia.
Local Open Scope N_scope.

(** the session an operation is asked to run in *)
Definition asked_in (o : operation) : option N :=
  match o with
  | ODigests sid | OCertPart sid _ _ _ _ | OMeasurements sid _ _ _ | OVendor sid _ _ _ => sid
  | OFinish _ id | OPskFinish id | OHeartbeat id | OKeyUpdateOp id _ _ | OEndSession id => Some id
  | _ => None
  end.
(** no slot of the session table holds session [id] *)
Definition no_session (id : N) (x : ctx) : Prop := id <> 0 /\ forall s, In s (x_sess x) -> s_id s <> id.
Lemma no_get id x : no_session id x -> get_sess id x = None.
Proof.
  intros [_ N]. unfold get_sess, find_sess. destruct (find _ _) as [s|] eqn:F; [|reflexivity]. apply find_some in F as [I J]. apply N.eqb_eq in J. exfalso. exact (N s I J).
Qed.
Lemma no_reset_buffer c sid id x : no_session id x -> no_session id (reset_buffer c sid x).
Proof.
  intros [Z N]. split; [exact Z|]. intros s Hs.
  assert (K : exists t, In t (x_sess x) /\ s_id t = s_id s).
  { unfold reset_buffer in Hs. remember (if c =? RC_GET_MEASUREMENTS then x else reset_m sid x) as x0 eqn:X0.
    assert (H0 : In s (x_sess x0)). { destruct (existsb _ _); [destruct (x_conn x0 <? _)|destruct (c =? RC_GET_DIGESTS)]; exact Hs. }
    rewrite X0 in H0. clear Hs X0 x0. destruct (c =? _); [eauto|]. destruct sid as [i|]; [|exists s; split; [exact H0|reflexivity]].
    cbn [reset_m] in H0. unfold mod_sess in H0. cbn [x_sess set_x_sess] in H0. clear -H0. induction (x_sess x) as [|a l IH]; [contradiction|]. cbn [upd_sess] in H0. destruct (s_id a =? i).
    - destruct H0 as [<-|H0]; [exists a; split; [now left|destruct a; reflexivity]|exists s; split; [now right|reflexivity]].
    - destruct H0 as [<-|H0]; [exists a; split; [now left|reflexivity]|]. destruct (IH H0) as (t & T & I). exists t. split; [now right|exact I]. }
  destruct K as (t & T & I). rewrite <- I. exact (N t T).
Qed.
Lemma no_reset_context id x : no_session id x -> no_session id (reset_context x).
Proof.
  intros [Z N]. split; [exact Z|]. intros s Hs. unfold reset_context in Hs. cbn [x_sess set_x_sess] in Hs. apply in_map_iff in Hs as (t & <- & _). cbn. congruence.
Qed.
Lemma no_same id x y : x_sess y = x_sess x -> no_session id x -> no_session id y.
Proof. intros S [Z N]. split; [exact Z|]. rewrite S. exact N. Qed.
(** running [m] from [x] fails with nothing sent *)
Definition stops {A} (m : st ctx A) (x : ctx) : Prop := forall r x', m x = (r, x') -> (forall a, r <> Ok a) /\ quiet x x'.
Lemma stops_bind {A B} (m : st ctx A) (k : A -> st ctx B) x :
  rel quiet m -> (forall a x1, m x = (Ok a, x1) -> stops (k a) x1) -> stops (sbind m k) x.
Proof.
  intros Q K r x' H. unfold sbind in H. destruct (m x) as [o x1] eqn:M. pose proof (Q _ _ _ M) as Q1. destruct o as [a|e|].
  - destruct (K a x1 eq_refl r x' H) as [N Q2]. split; [exact N|exact (q_trans _ _ _ Q1 Q2)].
  - replace r with (@Err B e) by congruence. replace x' with x1 by congruence. split; [discriminate|exact Q1].
  - replace r with (@Panic B) by congruence. replace x' with x1 by congruence. split; [discriminate|exact Q1].
Qed.
Lemma stops_first {A B} (m : st ctx A) (k : A -> st ctx B) x : stops m x -> stops (sbind m k) x.
Proof.
  intros S r x' H. unfold sbind in H. destruct (m x) as [o x1] eqn:M. destruct (S o x1 M) as [N Q]. destruct o as [a|e|]; [exfalso; exact (N a eq_refl)| |].
  - replace r with (@Err B e) by congruence. replace x' with x1 by congruence. split; [discriminate|exact Q].
  - replace r with (@Panic B) by congruence. replace x' with x1 by congruence. split; [discriminate|exact Q].
Qed.
Lemma stops_send E id b x : no_session id x -> stops (req_send_secured E id b false) x.
Proof. intros N r x' H. destruct (refused_send _ _ _ _ _ _ _ (no_get _ _ N) H) as [R ->]. split; [|exact (q_refl _)]. destruct R as [->|[e ->]]; discriminate. Qed.
Lemma stops_encoded {B} m x (k : bytes -> st ctx B) : (forall s, stops (k s) x) -> stops (sbind (req_enc m) k) x.
Proof. intro K. apply stops_bind; [apply (rel_req_enc _ quiet_pre)|]. intros s x1 H. pose proof (q_enc _ _ _ _ H) as ->. apply K. Qed.
Lemma stops_get {B} (k : ctx -> st ctx B) x : stops (k x) x -> stops (sbind sget k) x.
Proof. intros S r x' H. rewrite bind_get in H. exact (S r x' H). Qed.
Lemma stops_mod {B} f (k : unit -> st ctx B) x : quiet x (f x) -> stops (k tt) (f x) -> stops (sbind (smod f) k) x.
Proof. intros Q S r x' H. rewrite bind_mod in H. destruct (S r x' H) as [N Q']. split; [exact N|exact (q_trans _ _ _ Q Q')]. Qed.

Lemma finish_stops E rs id x : get_sess id x = None -> exists e, finish_req E rs id x = (Err e, x).
Proof.
  intro G. unfold finish_req. rewrite bind_get. cbv zeta. unfold sbind at 1. destruct rs as [s|].
  - destruct (8 <=? s); [eexists; reflexivity|]. destruct (slot_of _ _); [|eexists; reflexivity]. unfold sret. unfold sbind. rewrite G. eexists; reflexivity.
  - unfold sret. unfold sbind. rewrite G. eexists; reflexivity.
Qed.
Lemma all_stop E o id x : asked_in o = Some id -> no_session id x -> stops (run E o) x.
Proof.
  intros A N. destruct o; cbn [asked_in] in A; try discriminate; cbn [run]; unfold drop.
  - subst sid. unfold get_digests. apply stops_mod; [apply quiet_reset_buffer|]. apply stops_get. pose proof (no_reset_buffer RC_GET_DIGESTS (Some id) _ _ N) as N'. apply stops_encoded. intro s. apply stops_first, (stops_send _ _ _ _ N').
  - subst sid. apply stops_first. unfold get_certificate_partial. apply stops_get. apply stops_encoded. intro s. apply stops_first, (stops_send _ _ _ _ N).
  - subst sid. apply stops_first. unfold get_measurements. destruct (8 <=? slot); [intros r x' H; unfold sfail_if, sbind, serr in H; replace r with (@Err (BinNums.N * mrecord) ST_INVALID_PARAMETER) by congruence; replace x' with x by congruence; split; [discriminate|exact (q_refl _)]|].
    apply stops_bind; [intros y r y' H; unfold sfail_if, sret in H; replace y' with y by congruence; apply q_refl|]. intros a x1 H. replace x1 with x by (unfold sfail_if, sret in H; congruence). clear a x1 H.
    apply stops_mod; [apply quiet_reset_buffer|]. pose proof (no_reset_buffer RC_GET_MEASUREMENTS (Some id) _ _ N) as N'.
    apply stops_bind; [intros y r y' H; unfold get_random in H; replace y' with (set_x_rng (x_rng y + 1) y) by congruence; split; reflexivity|]. intros a x1 H. assert (N1 : no_session id x1) by (apply (no_same id (reset_buffer RC_GET_MEASUREMENTS (Some id) x)); [unfold get_random in H; replace x1 with (set_x_rng (x_rng (reset_buffer RC_GET_MEASUREMENTS (Some id) x) + 1) (reset_buffer RC_GET_MEASUREMENTS (Some id) x)) by congruence; reflexivity|exact N']). clear H.
    apply stops_bind; [apply (rel_ok _ quiet_pre)|]. intros b x2 H. apply ok_inv in H as [_ ->]. apply stops_get. apply stops_encoded. intro s. apply stops_first, (stops_send _ _ _ _ N1).
  - injection A as ->. intros r x' H. destruct (finish_stops E req_slot id x (no_get _ _ N)) as [e F]. replace r with (@Err unit e) by congruence. replace x' with x by congruence. split; [discriminate|exact (q_refl _)].
  - injection A as ->. intros r x' H. unfold psk_finish_req in H. rewrite bind_get, (no_get _ _ N) in H. unfold sok, sbind, serr in H. replace r with (@Err unit ST_INVALID_PARAMETER) by congruence. replace x' with x by congruence. split; [discriminate|exact (q_refl _)].
  - injection A as ->. unfold heartbeat_req. apply stops_mod; [apply quiet_reset_buffer|]. apply stops_get. pose proof (no_reset_buffer RC_HEARTBEAT (Some id) _ _ N) as N'. apply stops_encoded. intro s. apply stops_first, (stops_send _ _ _ _ N').
  - injection A as ->. unfold key_update_op_req. apply stops_mod; [apply quiet_reset_buffer|]. apply stops_get. pose proof (no_reset_buffer RC_KEY_UPDATE (Some id) _ _ N) as N'. apply stops_encoded. intro s. apply stops_first, (stops_send _ _ _ _ N').
  - injection A as ->. unfold end_session_req. apply stops_mod; [apply quiet_reset_buffer|]. apply stops_get. pose proof (no_reset_buffer RC_END_SESSION (Some id) _ _ N) as N'. apply stops_encoded. intro s. apply stops_first, (stops_send _ _ _ _ N').
  - subst sid. apply stops_first. unfold vendor_req. apply stops_mod; [apply quiet_reset_buffer|]. apply stops_mod; [split; reflexivity|]. apply stops_get. pose proof (no_reset_context _ _ (no_reset_buffer RC_VENDOR_REQ (Some id) _ _ N)) as N'. apply stops_encoded. intro s. apply stops_first, (stops_send _ _ _ _ N').
Qed.

(** A request in a session that does not exist is refused, and nothing is sent or received. *)
Theorem C93_unknown_session_refused : forall E o id x r x', asked_in o = Some id -> no_session id x -> run E o x = (r, x') ->
  r <> Ok tt /\ x_sent x' = x_sent x /\ x_io x' = x_io x.
Proof. intros E o id x r x' A N H. destruct (all_stop E o id x A N r x' H) as [F [S I]]. split; [exact (F tt)|split; [exact S|exact I]]. Qed.
Print Assumptions C93_unknown_session_refused.
(** A certificate slot there is not is refused with nothing changed, *)
Theorem C93_bad_slot_refused : forall E slot x, 8 <= slot ->
  (forall fuel sid, exists e, get_certificate E fuel sid slot x = (Err e, x)) /\
  (forall t, exists e, challenge_req E slot t x = (Err e, x)) /\
  (forall sid attr op, exists e, get_measurements E sid slot attr op x = (Err e, x)) /\
  (forall t, exists e, key_exchange_req E slot t x = (Err e, x)) /\
  (forall t, exists e, start_session E false slot t x = (Err e, x)) /\
  (forall id, exists e, finish_req E (Some slot) id x = (Err e, x)).
Proof.
  intros E slot x H. apply N.leb_le in H.
  split; [|split; [|split; [|split; [|split]]]]; intros; [unfold get_certificate|unfold challenge_req|unfold get_measurements|unfold key_exchange_req|unfold start_session, key_exchange_req|unfold finish_req; rewrite bind_get; cbv zeta];
    rewrite H; eexists; reflexivity.
Qed.
Print Assumptions C93_bad_slot_refused.
(** so is FINISH with a slot the requester has no chain in, *)
Theorem C93_finish_needs_chain : forall E s id x, nth (N.to_nat s) (x_my_chain x) None = None -> exists e, finish_req E (Some s) id x = (Err e, x).
Proof.
  intros E s id x H. unfold finish_req. rewrite bind_get. cbv zeta. destruct (8 <=? s); [eexists; reflexivity|]. unfold slot_of. rewrite H. eexists; reflexivity.
Qed.
Print Assumptions C93_finish_needs_chain.
(** and a KEY_UPDATE that is neither of one key nor of all *)
Theorem C93_key_update_needs_operation : forall E id op x, op <> 1 -> op <> 2 -> exists e, key_update_req E id op x = (Err e, x).
Proof.
  intros E id op x N1 N2. unfold key_update_req, KU_ALL, KU_SINGLE. apply N.eqb_neq in N1, N2. rewrite N1, N2. eexists; reflexivity.
Qed.
Print Assumptions C93_key_update_needs_operation.

(** FINISH *)
Lemma xwire_some a b t : xwire (a ++ b) = Some t -> exists u w, xwire a = Some u /\ xwire b = Some w /\ t = u ++ w.
Proof. rewrite xwire_app. destruct (xwire a) as [u|]; [|discriminate]. destruct (xwire b) as [w|]; [|discriminate]. intro H. exists u, w. split; [reflexivity|split; [reflexivity|congruence]]. Qed.
Lemma finish_enc_head v attr slot sg vd n x w x' : hash_size (n_hash (x_nego x)) = Some n -> v_size vd = n ->
  req_enc (mkMsg (mkHeader v RC_FINISH) (PFinish (mkFinish attr slot sg vd))) x = (Ok w, x') ->
  exists tl, w = [v; 0xE5; attr; slot] ++ tl /\ n <= len tl.
Proof.
  intros Hn Sz H. unfold req_enc in H. rewrite bind_get in H. set (m := mkMsg _ _) in *. apply sbind_inv in H as (r & y & P & H).
  unfold wenc in P. destruct (emit _ []) as [[ok w1]|] eqn:Em; [|discriminate]. assert (r = (ok, w1)) as -> by congruence.
  apply sbind_inv in H as (u & y0 & F & H). apply fail_inv in F as [N0 ->]. cbn [fst snd] in *. apply Bool.negb_false_iff in N0 as ->.
  apply emit_true in Em as (t & T & ->). cbn [app] in H. cbv zeta in H. apply sbind_inv in H as (u' & y1 & A & H). apply assert_inv in A as [L ->]. apply N.leb_le in L. apply ret_inv in H as [H _].
  assert (Ew : w = firstn (N.to_nat (xcount (enc_message (xc x) m))) (pad_to (N.to_nat MAX_SPDM_MSG_SIZE) t)) by congruence. clear H.
  unfold enc_message, m in T, Ew, L. cbn [m_header m_payload] in T, Ew, L. unfold enc_header, enc_payload, enc_finish in T, Ew, L. cbn [h_version h_code fi_attr fi_slot fi_sig fi_verify] in T, Ew, L.
  assert (Nd : xcount (enc_digest (xc x) vd) = n).
  { unfold enc_digest, c_hash_size. change (c_nego (xc x)) with (x_nego x). rewrite Hn, Sz, N.eqb_refl. unfold x_assert. rewrite xcount_app, xcount_arr_cnt. reflexivity. }
  set (mid := enc_opt (contains attr FINISH_SIG) (enc_signature (xc x) sg)) in *. clearbody mid.
  rewrite !xcount_app, !xch8, Nd in Ew, L. apply xwire_some in T as (h2 & rest & T1 & T2 & ->). rewrite xwire_app, !xwh8 in T1. cbn [app] in T1. assert (h2 = [v; RC_FINISH]) as -> by congruence. clear T1.
  apply xwire_some in T2 as (a1 & r1 & T1 & T2 & ->). rewrite xwh8 in T1. assert (a1 = [attr]) as -> by congruence. clear T1.
  apply xwire_some in T2 as (a1 & r2 & T1 & T2 & ->). rewrite xwh8 in T1. assert (a1 = [slot]) as -> by congruence. clear T1.
  set (k := (N.to_nat (xcount mid + n))%nat) in *. replace (N.to_nat (1 + 1 + (1 + (1 + (xcount mid + n))))) with (4 + k)%nat in Ew by lia.
  assert (Mx : N.to_nat MAX_SPDM_MSG_SIZE = (4 + N.to_nat 4092)%nat) by (unfold MAX_SPDM_MSG_SIZE; lia). rewrite Mx in Ew.
  assert (Kb : (k <= N.to_nat 4092)%nat) by (unfold k, MAX_SPDM_MSG_SIZE in *; lia). clear Mx L. set (q := N.to_nat 4092) in *. clearbody q.
  unfold pad_to in Ew. cbn [app length Nat.add firstn] in Ew. change RC_FINISH with 0xE5 in Ew.
  eexists. split; [exact Ew|]. unfold len. rewrite firstn_length, app_length, firstn_length. unfold fill. rewrite repeat_length. subst k. lia.
Qed.

Lemma patch_at4_head sg a b c d w w' n : patch_at4 sg ([a; b; c; d] ++ w) = Ok w' -> n <= len w -> exists tl, w' = [a; b; c; d] ++ tl /\ n <= len tl.
Proof.
  unfold patch_at4. destruct (_ <? _) eqn:L; [discriminate|]. apply N.ltb_ge in L. intros H K. eexists. split; [assert (w' = firstn 4 ([a; b; c; d] ++ w) ++ sg ++ skipn (4 + length sg) ([a; b; c; d] ++ w)) as -> by congruence; reflexivity|].
  cbn [app] in *. unfold len in *. rewrite app_length, skipn_length. cbn [length] in *. lia.
Qed.
Lemma patch_last_head n h a b c d tl w : patch_last n h ([a; b; c; d] ++ tl) = Ok w -> n <= len tl -> exists t, w = [a; b; c; d] ++ t.
Proof.
  unfold patch_last. intros H L. destruct (N.eqb_spec (len h) n) as [K|]; [|discriminate]. cbn [andb] in H. destruct (_ <=? _); [|discriminate]. assert (w = patch (length ([a; b; c; d] ++ tl) - length h) h ([a; b; c; d] ++ tl)) as -> by congruence.
  unfold patch, len in *. rewrite app_length. cbn [length]. replace (4 + length tl - length h)%nat with (4 + (length tl - length h))%nat by lia. cbn [Nat.add app firstn]. eexists. reflexivity.
Qed.
Lemma encode_finish_head E id slot x w x' : encode_finish E id slot x = (Ok w, x') -> exists attr tl, w = [ver x; 0xE5; attr; slot] ++ tl.
Proof.
  unfold encode_finish. intro H. rewrite bind_get in H. apply sbind_inv in H as (s & y & P & H). apply ok_inv in P as [_ ->]. cbv zeta in H.
  apply sbind_inv in H as (sg & y & P & H). assert (y = x) as ->. { destruct (negb _); [apply unwrap_inv in P; apply P|apply ret_inv in P; apply P]. } clear P.
  apply sbind_inv in H as (n & y & P & H). apply unwrap_inv in P as [Hn ->]. apply sbind_inv in H as (w0 & y & P & H). pose proof (q_enc _ _ _ _ P) as ->.
  destruct (finish_enc_head _ _ _ _ (mkV n (fill 64 0xcc)) _ _ _ _ Hn eq_refl P) as (tl & -> & Ln). clear P. set (attr := if negb (s_mut_auth s =? 0) then FINISH_SIG else 0) in *. clearbody attr. exists attr.
  apply sbind_inv in H as (u & y & P & H). clear P. apply sbind_inv in H as (w1 & y1 & P & H).
  assert (K : exists tl', w1 = [ver x; 0xE5; attr; slot] ++ tl' /\ n <= len tl').
  { destruct (negb _).
    - apply sbind_inv in P as (sg' & y2 & _ & P). apply sbind_inv in P as (w' & y3 & P1 & P). apply of_inv in P1 as [P1 ->]. apply sbind_inv in P as (u' & y4 & _ & P). apply ret_inv in P as [P _]. assert (w1 = w') as -> by congruence. exact (patch_at4_head _ _ _ _ _ _ _ _ P1 Ln).
    - apply ret_inv in P as [P _]. exists tl. split; [congruence|exact Ln]. }
  clear P Ln tl. destruct K as (tl & -> & Ln). apply sbind_inv in H as (th & y2 & _ & H). apply sbind_inv in H as (s1 & y3 & _ & H). apply sbind_inv in H as (h & y4 & _ & H). apply sbind_inv in H as (u2 & y5 & _ & H).
  apply of_inv in H as [H _]. exact (patch_last_head _ _ _ _ _ _ _ _ H Ln).
Qed.
Lemma abandon_quiet {A} id e x r x' : @req_abandon A id e x = (r, x') -> quiet x x' /\ (forall a, r <> Ok a).
Proof.
  intro H. split; [exact (quiet_abandon _ _ _ _ _ H)|]. intros a ->. unfold req_abandon in H. bi H. discriminate.
Qed.
Lemma or_teardown_cases {A} id (m : st ctx A) x r x' : or_teardown id m x = (r, x') ->
  (exists a, r = Ok a /\ m x = (Ok a, x')) \/ (forall a, r <> Ok a) /\ exists o y, m x = (o, y) /\ quiet y x' /\ (forall a, o <> Ok a).
Proof.
  unfold or_teardown, scatch. destruct (m x) as [[b|e|] y]; intro H.
  - left. exists b. unfold sret in H. split; congruence.
  - right. destruct (abandon_quiet _ _ _ _ _ H) as [Q F]. split; [exact F|]. exists (Err e), y. split; [reflexivity|]. split; [exact Q|discriminate].
  - right. unfold spanic in H. split; [intros a F; congruence|]. exists Panic, y. split; [reflexivity|]. replace x' with y by congruence. split; [apply q_refl|discriminate].
Qed.
Lemma req_send_on_says E sid m x r z : req_send_on E sid m x = (r, z) -> x_sent z = x_sent x \/ exists t, sent_as E sid m t /\ x_sent z = t :: x_sent x.
Proof.
  intro H. destruct sid as [id|]; cbn [req_send_on] in H.
  - destruct (PropMut.send_secured_says E id m x _ z H) as [_ [[S _]|S]]; [left; exact S|right; exact S].
  - unfold req_send in H. rewrite bind_get in H. rewrite bind_fail in H. destruct (req_too_large x m); [left; congruence|].
    unfold sbind, sof in H. destruct (tr_encap (e_tr E) BUFFER_SIZE m false) as [t|e|] eqn:T; [|left; congruence|left; congruence].
    destruct (PropDigest.io_send_cases _ _ _ _ _ H) as [[S _]|[S _]]; [left; exact S|right]. exists t. split; [exact T|exact S].
Qed.
(** no frame sent *)
Definition mute (x x' : ctx) : Prop := x_sent x' = x_sent x.
Lemma mute_pre : preorder mute. Proof. split; unfold mute; congruence. Qed.
Lemma mute_quiet {A} (m : st ctx A) : rel quiet m -> rel mute m. Proof. intros Q x r x' H. exact (proj1 (Q _ _ _ H)). Qed.
Lemma mute_recv E sid c : rel mute (req_recv_on E sid c).
Proof.
  unfold req_recv_on, req_recv, req_recv_secured, req_timeout, decap, decode_secured_message.
  rl mute_pre; first [apply mute_quiet, quiet_on_sess|intros x r x' H; unfold io_recv in H; match type of H with (_, ?z) = _ => replace x' with z by congruence end; reflexivity].
Qed.
Lemma mute_teardown {A} id (m : st ctx A) : rel mute m -> rel mute (or_teardown id m).
Proof. intro M. unfold or_teardown. rl mute_pre; [exact M|apply mute_quiet, quiet_abandon]. Qed.
Lemma mute_teardown_if {A} id (m : st ctx A) : rel mute m -> rel mute (or_teardown_if id m).
Proof. intro M. unfold or_teardown_if. rl mute_pre; [exact M|apply mute_quiet, quiet_abandon]. Qed.
(** FINISH names the slot asked for, slot 0 unless one is; whatever comes of it, nothing else is sent *)
Theorem C93_finish_names_slot : forall E rs id x r x', finish_req E rs id x = (r, x') ->
  x_sent x' = x_sent x \/
  exists attr tl t, sent_as E (if in_clear (xc x) then None else Some id) ([ver x; 0xE5; attr; match rs with Some s => s | None => 0 end] ++ tl) t /\ x_sent x' = t :: x_sent x.
Proof.
  intros E rs id x r x' H. unfold finish_req in H. rewrite bind_get in H. cbv zeta in H. rewrite recv_if in H. set (slot := match rs with Some s => s | None => 0 end).
  unfold sbind at 1 in H. match type of H with (let (_, _) := ?m in _) = _ => destruct m as [o y] eqn:Sl end.
  assert (S : y = x /\ (forall a, o = Ok a -> a = slot)).
  { subst slot. destruct rs as [s|]; [destruct (8 <=? s); [|destruct (slot_of _ _)]|]; unfold serr, sret in Sl; (split; [congruence|intros a F; congruence]). }
  destruct S as [-> S]. destruct o as [a|e|]; [|left; congruence|left; congruence]. assert (a = slot) as -> by (apply S; reflexivity). clear S Sl.
  unfold sbind at 1 in H. destruct (get_sess id x) as [s|]; [|unfold sok, serr in H; left; congruence]. unfold sok, sret at 1 in H. rewrite bind_mod in H.
  set (x0 := reset_buffer RC_FINISH (Some id) x) in *. destruct (quiet_reset_buffer RC_FINISH (Some id) x) as [S0 _]. fold x0 in S0.
  assert (V0 : ver x0 = ver x) by (pose proof (sn_reset_buffer RC_FINISH (Some id) x) as K; unfold same_nego in K; unfold ver; subst x0; congruence). clearbody x0.
  unfold sbind at 1 in H. destruct (or_teardown id (encode_finish E id slot) x0) as [o x1] eqn:En.
  pose proof (mute_teardown id _ (mute_quiet _ (quiet_encode_finish E id slot)) _ _ _ En) as S1. unfold mute in S1. destruct o as [w|e|]; [|left; congruence|left; congruence].
  apply or_teardown_ok in En. apply encode_finish_head in En as (attr & tl & ->). rewrite send_if in H.
  unfold sbind at 1 in H. match type of H with (let (_, _) := ?m in _) = _ => destruct m as [o x2] eqn:Se end.
  assert (S2 : x_sent x2 = x_sent x \/ exists t, sent_as E (if in_clear (xc x) then None else Some id) ([ver x; 0xE5; attr; slot] ++ tl) t /\ x_sent x2 = t :: x_sent x).
  { rewrite V0 in Se. unfold or_teardown, scatch in Se. destruct (req_send_on _ _ _ x1) as [o1 y1] eqn:S2. assert (Q : x_sent x2 = x_sent y1).
    { destruct o1 as [b|e|]; [unfold sret in Se; congruence|exact (proj1 (quiet_abandon _ _ _ _ _ Se))|unfold spanic in Se; congruence]. }
    rewrite Q. destruct (req_send_on_says _ _ _ _ _ _ S2) as [K|(t & A & K)]; [left; congruence|right; exists t; split; [exact A|congruence]]. }
  assert (S3 : x_sent x' = x_sent x2).
  { destruct o as [u|e|]; [|congruence|congruence]. unfold sbind at 1 in H. match type of H with (let (_, _) := ?m in _) = _ => destruct m as [o x3] eqn:Rc end.
    pose proof (mute_teardown id _ (mute_recv _ _ _) _ _ _ Rc) as S3. unfold mute in S3. destruct o as [b|e|]; [|congruence|congruence].
    pose proof (mute_teardown_if id _ (mute_quiet _ (quiet_handle_finish E id b)) _ _ _ H) as S4. unfold mute in S4. congruence. }
  rewrite S3. destruct S2 as [K|(t & A & K)]; [left; exact K|right]. exists attr, tl, t. split; [exact A|exact K].
Qed.
Print Assumptions C93_finish_names_slot.
(** Cases: at the requester of ExPair.v, connected and with one session; FINISH in it was sent. *)
Example C93_case : no_session 5 pr7 /\ asked_in (OHeartbeat 5) = Some 5 /\ fst (heartbeat_req pr_env 5 pr7) = Err ST_INVALID_PARAMETER /\ fst (heartbeat_req pr_env pr_id pr7) = Ok tt /\
  nth 3 (x_my_chain pr7) None = None /\ fst (finish_req pr_env (Some 3) pr_id pr6) = Err ST_INVALID_STATE_LOCAL /\ length (x_sent pr7) = S (length (x_sent pr6)).
Proof.
  split; [split; [discriminate|intros s Hs; intro F; assert (K : existsb (fun i => i =? 5) (map s_id (x_sess pr7)) = true) by (apply existsb_exists; exists (s_id s); split; [apply in_map; exact Hs|apply N.eqb_eq; exact F]); vm_compute in K; discriminate K]|].
  split; [reflexivity|]. split; [vm_compute; reflexivity|]. split; [vm_compute; reflexivity|]. split; [vm_compute; reflexivity|]. split; vm_compute; reflexivity.
Qed.
