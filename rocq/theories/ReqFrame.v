(** What the requester's operations leave alone, and how they exchange messages. *)
From Verif Require Import Bytes BytesFacts Status Codec Parse ParseProofs Algo Monad.
From Verif Require Import MsgConn MsgAuth MsgSession MsgOther Message Opaque Transport Crypto KeySchedule Session Signing CertOps ChainVerify Context
  RspBase RspConn RspSess RspEncap Responder StRel RspFrame RspCalm RspOpcode RspPass RspEst ReqBase ReqConn ReqSess SpecReq.
From Coq Require Import Lia.
Local Open Scope N_scope.

Ltac got H := match type of H with sget ?x = (Ok ?v, ?y) =>
  let H1 := fresh in let H2 := fresh in
  assert (H1 : v = x) by (unfold sget in H; congruence); assert (H2 : y = x) by (unfold sget in H; congruence); clear H; subst v; subst y end.
Ltac bg H := let P := fresh "P" in let v := fresh "v" in let y := fresh "y" in
  apply sbind_inv in H as (v & y & P & H); got P.
Lemma mod_inv {S} (f : S -> S) x r x' : smod f x = (r, x') -> x' = f x.
Proof. unfold smod. congruence. Qed.
Lemma ret_inv {S A} (a : A) (x : S) r x' : sret a x = (r, x') -> r = Ok a /\ x' = x.
Proof. unfold sret. split; congruence. Qed.
Lemma ok_inv {S A} e (o : option A) (x : S) a x' : sok e o x = (Ok a, x') -> o = Some a /\ x' = x.
Proof. unfold sok. destruct o; unfold sret, serr; intro H; [split; congruence|discriminate]. Qed.
Lemma of_inv {S A} (o : outcome A) (x : S) a x' : sof o x = (Ok a, x') -> o = Ok a /\ x' = x.
Proof. unfold sof. split; congruence. Qed.
Lemma assert_inv {S} c (x : S) a x' : sassert c x = (Ok a, x') -> c = true /\ x' = x.
Proof. unfold sassert. destruct c; unfold sret, spanic; intro H; [split; congruence|discriminate]. Qed.

(** ** quiet: no device I/O *)
Ltac qf := apply rel_mod; intro; split; reflexivity.
Section rules.
  Context (R : ctx -> ctx -> Prop) (HR : preorder R).
  Lemma rel_req_enc m : rel R (req_enc m).
  Proof using HR. unfold req_enc. rl HR. Qed.
  Lemma rel_on_response {A} c sid b (k : bytes -> st ctx A) : (forall r, rel R (k r)) -> rel R (@error_main A sid b) -> rel R (on_response c sid b k).
  Proof using HR. intros Hk He. unfold on_response, on_code. rl HR; auto. Qed.
  Lemma rel_on_response_any {A} c sid b (k : bytes -> st ctx A) : (forall r, rel R (k r)) -> rel R (@error_main A sid b) -> rel R (on_response_any c sid b k).
  Proof using HR. intros Hk He. unfold on_response_any, on_code. rl HR; auto. Qed.
  Lemma rel_reading {P A} (d : cctx -> dec P) b r (k : P -> bytes -> st ctx A) : (forall p u, rel R (k p u)) -> rel R (reading d b r k).
  Proof using HR. intros Hk. unfold reading. rl HR; auto. Qed.
End rules.
Lemma quiet_mod f : (forall x, x_sent (f x) = x_sent x /\ x_io (f x) = x_io x) -> rel quiet (smod f).
Proof. intro H. apply rel_mod. intro. apply H. Qed.
Lemma quiet_error_main {A} sid b : rel quiet (@error_main A sid b).
Proof. unfold error_main, simple_error. rl quiet_pre; try apply quiet_on_sess; try qf. Qed.
Lemma quiet_append_b_both E sid s u : rel quiet (append_b_both E sid s u).
Proof. unfold append_b_both. rl quiet_pre; apply quiet_append_m1m2. Qed.
Lemma quiet_verify_peer E slot op h sg : rel quiet (verify_peer_signature E slot op h sg).
Proof. unfold verify_peer_signature. rl quiet_pre. Qed.
Lemma quiet_finalize E a o : rel quiet (finalize E a o).
Proof. unfold finalize. rl quiet_pre. Qed.
Lemma quiet_meas_sig E sid slot sg : rel quiet (verify_measurement_sig E sid slot sg).
Proof. unfold verify_measurement_sig. rl quiet_pre; try apply quiet_finalize; try apply quiet_verify_peer. Qed.
Lemma quiet_chal_sig E slot sg : rel quiet (verify_challenge_sig E slot sg).
Proof. unfold verify_challenge_sig. rl quiet_pre; try apply quiet_finalize; try apply quiet_verify_peer. Qed.
Lemma quiet_reset_m sid x : quiet x (reset_m sid x).
Proof. destruct sid; split; reflexivity. Qed.
Lemma quiet_abandon {A} id e : rel quiet (@req_abandon A id e).
Proof. unfold req_abandon. rl quiet_pre. apply quiet_on_sess. Qed.
Lemma quiet_check_rsp_hmac E id m : rel quiet (check_rsp_hmac E id m).
Proof. unfold check_rsp_hmac. rl quiet_pre; try apply quiet_abandon. apply quiet_append_k. Qed.
Lemma quiet_open E id p a b : rel quiet (req_open_session E id p a b).
Proof. unfold req_open_session. rl quiet_pre; try apply quiet_on_sess; try qf. Qed.
Lemma quiet_open_psk E id h : rel quiet (req_open_psk_session E id h).
Proof. unfold req_open_psk_session. rl quiet_pre; try apply quiet_on_sess; try qf. Qed.
Lemma quiet_finish_kx E slot id s u p : rel quiet (finish_key_exchange E slot id s u p).
Proof.
  unfold finish_key_exchange, verify_key_exchange_sig. rl quiet_pre;
    first [apply quiet_append_k|apply quiet_verify_peer|apply quiet_on_sess|apply quiet_check_rsp_hmac|qf].
Qed.
Lemma quiet_finish_psk E id s u p : rel quiet (finish_psk_exchange E id s u p).
Proof. unfold finish_psk_exchange. rl quiet_pre; first [apply quiet_append_k|apply quiet_on_sess|apply quiet_check_rsp_hmac|qf]. Qed.
Ltac qq :=
  rl quiet_pre;
  first [apply quiet_error_main|apply quiet_append_b_both|apply quiet_append_a|apply quiet_append_m1m2|apply quiet_append_m|apply quiet_append_k|apply quiet_append_f
        |apply quiet_chal_sig|apply quiet_meas_sig|apply quiet_on_sess|apply quiet_check_rsp_hmac|apply quiet_open|apply quiet_open_psk|apply quiet_finish_kx|apply quiet_finish_psk
        |apply quiet_random|apply quiet_abandon
        |apply rel_on_response; [exact quiet_pre|intro; qq|apply quiet_error_main]
        |apply rel_on_response_any; [exact quiet_pre|intro; qq|apply quiet_error_main]
        |apply rel_reading; [exact quiet_pre|intros; qq]
        |apply (rel_req_enc _ quiet_pre)
        |apply rel_mod; intro; apply quiet_reset_buffer
        |apply rel_mod; intro; apply quiet_reset_m
        |qf|idtac].
Lemma quiet_handle_version s b : rel quiet (handle_version_rsp s b).
Proof. unfold handle_version_rsp. qq. Qed.
Lemma quiet_handle_capabilities s b : rel quiet (handle_capabilities_rsp s b).
Proof. unfold handle_capabilities_rsp. qq. Qed.
Lemma quiet_handle_algorithms s b : rel quiet (handle_algorithms_rsp s b).
Proof. unfold handle_algorithms_rsp. qq. Qed.
Lemma quiet_handle_digests E sid s b : rel quiet (handle_digests_rsp E sid s b).
Proof. unfold handle_digests_rsp. qq. Qed.
Lemma quiet_handle_certificate E sid a t o l s b : rel quiet (handle_certificate_rsp E sid a t o l s b).
Proof. unfold handle_certificate_rsp. qq. Qed.
Lemma quiet_handle_challenge E a t s b : rel quiet (handle_challenge_auth E a t s b).
Proof. unfold handle_challenge_auth, set_summary. qq. Qed.
Lemma quiet_handle_measurements E sid a t o s b : rel quiet (handle_measurements E sid a t o s b).
Proof.
  unfold handle_measurements. cbv zeta. qq. apply rel_mod. intro x. destruct (_ <=? _); split; reflexivity.
Qed.
Lemma quiet_handle_kx E a t o k s b : rel quiet (handle_key_exchange_rsp E a t o k s b).
Proof. unfold handle_key_exchange_rsp, set_summary. qq. Qed.
Lemma quiet_handle_psk E a t h s b : rel quiet (handle_psk_exchange_rsp E a t h s b).
Proof. unfold handle_psk_exchange_rsp, set_summary. qq. Qed.
Lemma quiet_handle_finish E id b : rel quiet (handle_finish_rsp E id b).
Proof. unfold handle_finish_rsp. qq. Qed.
Lemma quiet_handle_psk_finish E id b : rel quiet (handle_psk_finish_rsp E id b).
Proof. unfold handle_psk_finish_rsp. qq. Qed.
Lemma quiet_handle_ku id a c b : rel quiet (handle_key_update_ack id a c b).
Proof. unfold handle_key_update_ack. qq. Qed.
Lemma quiet_encode_finish E id slot : rel quiet (encode_finish E id slot).
Proof. unfold encode_finish, finish_signature. qq. Qed.
Lemma quiet_encode_psk_finish E id : rel quiet (encode_psk_finish E id).
Proof. unfold encode_psk_finish. qq. Qed.
Lemma quiet_encode_kx E r slot t : rel quiet (encode_key_exchange E r slot t).
Proof. unfold encode_key_exchange. qq. Qed.
Lemma quiet_encode_psk E r t h : rel quiet (encode_psk_exchange E r t h).
Proof. unfold encode_psk_exchange. qq. Qed.

(** ** exchanges *)
(** everything but the session table, the device counters: what sending and receiving leave alone *)
Definition keeps (x x' : ctx) : Prop :=
  x' = set_x_sent (x_sent x') (set_x_io (x_io x') (set_x_sess (x_sess x') x)).
Lemma keeps_pre : preorder keeps.
Proof.
  split; [intros []; reflexivity|]. intros x y z H1 H2. unfold keeps in *. rewrite H1 in H2. rewrite H2 at 1. destruct x. reflexivity.
Qed.
Lemma keeps_on_sess {A} id (m : st session A) : rel keeps (on_sess id m).
Proof.
  intros x r x' E. unfold on_sess in E. destruct (get_sess id x) as [s|] eqn:F.
  - destruct (m s) as [r1 s1] eqn:M. match type of E with (_, ?z) = _ => replace x' with z by congruence end. destruct x. reflexivity.
  - replace x' with x by congruence. apply keeps_pre.
Qed.
Lemma keeps_io_send E t : rel keeps (io_send E t).
Proof.
  intros x r x' H. unfold io_send in H. destruct (e_send _ _ _);
    match type of H with (_, ?z) = _ => replace x' with z by congruence end; destruct x; reflexivity.
Qed.
Lemma keeps_io_recv E : rel keeps (io_recv E).
Proof.
  intros x r x' H. unfold io_recv in H. match type of H with (_, ?z) = _ => replace x' with z by congruence end. destruct x; reflexivity.
Qed.
Lemma keeps_send_on E sid b : rel keeps (req_send_on E sid b).
Proof.
  unfold req_send_on, req_send, req_send_secured, encode_secured_message. rl keeps_pre; first [apply keeps_io_send|apply keeps_on_sess].
Qed.
Lemma keeps_recv_on E sid c : rel keeps (req_recv_on E sid c).
Proof.
  unfold req_recv_on, req_recv, req_recv_secured, req_timeout, decap, decode_secured_message. rl keeps_pre; first [apply keeps_io_recv|apply keeps_on_sess].
Qed.
(** the table itself: ids and states stay *)
Definition keys (x x' : ctx) : Prop := map skey (x_sess x') = map skey (x_sess x).
Lemma keys_pre : preorder keys.
Proof. split; unfold keys; congruence. Qed.
Lemma keys_on_sess {A} id (m : st session A) : skeep m -> rel keys (on_sess id m).
Proof.
  intros Hm x r x' H. apply (calm_on_sess id m Hm) in H. destruct H as [H _]. unfold outline in H. unfold keys. congruence.
Qed.
Lemma io_send_sess E t x r x' : io_send E t x = (r, x') -> x_sess x' = x_sess x.
Proof. unfold io_send. destruct (e_send _ _ _); intro H; match type of H with (_, ?z) = _ => replace x' with z by congruence end; reflexivity. Qed.
Lemma io_recv_sess E x r x' : io_recv E x = (r, x') -> x_sess x' = x_sess x.
Proof. unfold io_recv. intro H; match type of H with (_, ?z) = _ => replace x' with z by congruence end; reflexivity. Qed.
Lemma keys_send_on E sid b : rel keys (req_send_on E sid b).
Proof.
  unfold req_send_on, req_send, req_send_secured, encode_secured_message. rl keys_pre;
   first [apply keys_on_sess, skeep_encode|intros x r x' H; apply io_send_sess in H; unfold keys; congruence].
Qed.
Lemma keys_recv_on E sid c : rel keys (req_recv_on E sid c).
Proof.
  unfold req_recv_on, req_recv, req_recv_secured, req_timeout, decap, decode_secured_message. rl keys_pre;
   first [apply keys_on_sess, skeep_decode|intros x r x' H; apply io_recv_sess in H; unfold keys; congruence].
Qed.

Lemma io_send_ok E t x u x' : io_send E t x = (Ok u, x') -> e_send E (x_io x) t = None /\ x_sent x' = t :: x_sent x /\ x_io x' = x_io x + 1.
Proof.
  unfold io_send. destruct (e_send _ _ _); [discriminate|]. intro H. match type of H with (_, ?z) = _ => replace x' with z by congruence end. auto.
Qed.
Lemma io_recv_ok E x o x' : io_recv E x = (Ok (Some o), x') -> e_recv E (x_io x) (x_sent x) = Some o /\ x_sent x' = x_sent x /\ x_io x' = x_io x + 1 /\ len o <= BUFFER_SIZE.
Proof.
  unfold io_recv. destruct (e_recv _ _ _) as [f|]; [|discriminate]. destruct (N.ltb_spec BUFFER_SIZE (len f)); [discriminate|]. intro H1.
  match type of H1 with (_, ?z) = _ => replace x' with z by congruence end. assert (o = f) as -> by congruence. repeat split; exact H.
Qed.
Lemma quiet_encode_secured E id b q a : rel quiet (encode_secured_message E id b q a).
Proof. unfold encode_secured_message. rl quiet_pre. apply quiet_on_sess. Qed.
Lemma send_on_ok E sid m x u x' : req_send_on E sid m x = (Ok u, x') ->
  exists t, e_send E (x_io x) t = None /\ x_sent x' = t :: x_sent x /\ x_io x' = x_io x + 1 /\ sent_as E sid m t.
Proof.
  intro H. destruct sid as [id|]; unfold req_send_on in H.
  - unfold req_send_secured in H. bg H. bi H. apply fail_inv in P as [_ ->]. bi H. apply io_send_ok in H as (A & B & C).
    assert (Q : quiet x y) by exact (quiet_encode_secured _ _ _ _ _ _ _ _ P).
    destruct Q as [Q1 Q2]. exists v0. rewrite <- Q1, <- Q2. repeat split; auto. cbn. exists x, y. exact P.
  - unfold req_send in H. bg H. bi H. apply fail_inv in P as [_ ->]. bi H. apply of_inv in P as [P ->]. apply io_send_ok in H as (A & B & C). exists v0. auto.
Qed.
Lemma timeout_inv c x u x' : req_timeout c x = (Ok u, x') -> x' = x.
Proof. unfold req_timeout. intro H. bg H. apply assert_inv in H. apply H. Qed.
Lemma recv_on_ok E sid c x b x' : req_recv_on E sid c x = (Ok b, x') ->
  exists f, e_recv E (x_io x) (x_sent x) = Some f /\ response_in E sid f b /\ x_sent x' = x_sent x /\ x_io x' = x_io x + 1.
Proof.
  intro H. destruct sid as [id|]; unfold req_recv_on in H.
  - unfold req_recv_secured in H. bi H. apply timeout_inv in P as ->. bi H. bi H. apply ok_inv in P0 as [-> ->]. apply io_recv_ok in P as (A & B & C & _).
    exists v1. split; [exact A|]. unfold decode_secured_message in H. bi H. apply of_inv in P as [P ->]. destruct v0 as [c0 [|]]; cbn [negb snd fst] in H; [|discriminate].
    bg H. destruct (get_sess id _) as [s|] eqn:G; [|discriminate]. bi H. bi H. apply of_inv in P1 as [P1 ->]. apply ret_inv in H as [H ->].
    pose proof (quiet_on_sess _ _ _ _ _ P0) as [Q1 Q2]. split; [|split; congruence].
    unfold on_sess in P0. rewrite G in P0. destruct (decode_secured _ _ _ _ s) as [r1 s1] eqn:D. assert (r1 = Ok v0) as -> by congruence.
    destruct v2 as [b2 app]. exists c0, s, v0, s1, app. cbn [fst] in H. assert (b = b2) as -> by congruence. repeat split; auto.
    unfold get_sess, find_sess in G. apply find_some in G as [_ G]. apply N.eqb_eq in G. exact G.
  - unfold req_recv in H. bi H. apply timeout_inv in P as ->. bi H. bi H. apply ok_inv in P0 as [-> ->]. apply io_recv_ok in P as (A & B & C & _).
    exists v1. split; [exact A|]. unfold decap in H. bi H. apply of_inv in P as [P ->]. destruct v0 as [c0 [|]]; cbn [snd fst] in H; [discriminate|].
    apply ret_inv in H as [H ->]. assert (b = c0) as -> by congruence. split; [exact P|auto].
Qed.
(** one exchange, with quiet work before, between and after *)
Lemma answered_by E sid c x y s u y1 z b z1 x' : quiet x y -> req_send_on E sid s y = (Ok u, y1) -> quiet y1 z ->
  req_recv_on E sid c z = (Ok b, z1) -> quiet z1 x' -> answered E sid x x' b.
Proof.
  intros [Q1 Q1'] S [Q2 Q2'] R [Q3 Q3']. apply send_on_ok in S as (t & S1 & S2 & S3 & _). apply recv_on_ok in R as (f & R1 & R2 & R3 & R4).
  exists t, f. assert (x_sent x' = t :: x_sent x) as -> by congruence. assert (x_io z = x_io x + 1) as Z by congruence.
  split; [reflexivity|]. split; [rewrite Q3', R4, Z; lia|]. split; [congruence|]. split; [|exact R2]. rewrite <- Z. congruence.
Qed.

(** ** an accepted response carries the expected code *)
Lemma error_main_ok {A} sid b x (a : A) x' : error_main sid b x = (Ok a, x') -> False.
Proof.
  unfold error_main, simple_error. intro H. bg H. destruct (read_header b) as [[h r]|]; [|discriminate]. destruct (negb _); [discriminate|]. destruct (negb _); [discriminate|].
  destruct r as [|p1 [|p2 r]]; try discriminate. destruct (_ =? _); [bi H; discriminate|]. destruct (_ =? _); [discriminate|]. destruct (_ =? _); [discriminate|].
  destruct (_ =? _); [bi H; discriminate|discriminate].
Qed.
Lemma read_header_some b h r : read_header b = Some (h, r) -> b = h_version h :: h_code h :: r.
Proof.
  destruct b as [|v [|c b]]; [discriminate|discriminate|]. change (read_header (v :: c :: b)) with (Some (mkHeader v c, b)). intro H.
  assert (h = mkHeader v c) as -> by congruence. assert (r = b) as -> by congruence. reflexivity.
Qed.
Lemma on_code_ok {A} c sid b h r (k : bytes -> st ctx A) x a x' : on_code c sid b h r k x = (Ok a, x') -> h_code h = c /\ k r x = (Ok a, x').
Proof.
  unfold on_code. destruct (N.eqb_spec (h_code h) c); [auto|]. destruct (_ =? _); [|discriminate]. intro H. apply error_main_ok in H. destruct H.
Qed.
Lemma on_response_ok {A} c sid b (k : bytes -> st ctx A) x a x' : on_response c sid b k x = (Ok a, x') ->
  exists r, b = ver x :: c :: r /\ k r x = (Ok a, x').
Proof.
  unfold on_response. intro H. bg H. destruct (read_header b) as [[h r]|] eqn:Hd; [|discriminate]. apply read_header_some in Hd.
  destruct (N.eqb_spec (h_version h) (ver x)) as [V|]; [|discriminate]. cbn [negb] in H. apply on_code_ok in H as [C H]. exists r. split; congruence.
Qed.
Lemma on_response_any_ok {A} c sid b (k : bytes -> st ctx A) x a x' : on_response_any c sid b k x = (Ok a, x') ->
  exists v r, b = v :: c :: r /\ k r x = (Ok a, x').
Proof.
  unfold on_response_any. intro H. destruct (read_header b) as [[h r]|] eqn:Hd; [|discriminate]. apply read_header_some in Hd.
  apply on_code_ok in H as [C H]. exists (h_version h), r. split; congruence.
Qed.
Lemma reading_ok {P A} (d : cctx -> dec P) b r (k : P -> bytes -> st ctx A) x a x' : reading d b r k x = (Ok a, x') ->
  exists p rest, d (xc x) r = POk p rest /\ k p (used_of b rest) x = (Ok a, x').
Proof.
  unfold reading. intro H. bi H. pose proof (rd_state _ _ _ _ _ P0). subst y. unfold rd in P0. destruct (d (xc x) r) as [p rest| |]; try discriminate.
  - assert (v = Some (p, rest)) as -> by congruence. exists p, rest. auto.
  - assert (v = None) as -> by congruence. discriminate.
Qed.

(** ** every operation *)
Definition checked (o : operation) (b : bytes) (x : ctx) : Prop :=
  has_code b (expects o) /\ (checks_version o = true -> has_version b (ver x)).
Lemma drop_ok {A} (m : st ctx A) x u x' : drop m x = (Ok u, x') -> exists a, m x = (Ok a, x').
Proof. unfold drop. intro H. bi H. apply ret_inv in H as [_ ->]. eauto. Qed.
Lemma drop_inv {A} (m : st ctx A) x r x' : drop m x = (r, x') -> exists r', m x = (r', x') /\ (r = Panic <-> r' = Panic).
Proof.
  unfold drop, sbind. destruct (m x) as [o y]. destruct o; unfold sret; intro H; (eexists; split; [f_equal; congruence|]); split; intro; congruence.
Qed.
(** version and code survive the handler *)
Definition same_version (x x' : ctx) : Prop := ver x' = ver x.
Lemma sv_pre : preorder same_version.
Proof. split; unfold same_version; congruence. Qed.
Definition same_nego (x x' : ctx) : Prop := x_nego x' = x_nego x.
Lemma sn_pre : preorder same_nego.
Proof. split; unfold same_nego; congruence. Qed.
Lemma keeps_sn x x' : keeps x x' -> same_nego x x'.
Proof. unfold keeps, same_nego. intros ->. reflexivity. Qed.
Lemma sn_sv x x' : same_nego x x' -> same_version x x'.
Proof. unfold same_version, same_nego, ver. congruence. Qed.
Lemma sn_on_sess {A} id (m : st session A) : rel same_nego (on_sess id m).
Proof. intros x r x' H. apply keeps_sn. exact (keeps_on_sess _ _ _ _ _ H). Qed.
Ltac sf := apply rel_mod; intro; reflexivity.
Lemma sn_append_m1m2 cr e m : rel same_nego (append_m1m2 cr e m).
Proof. intros x r x' H. unfold append_m1m2 in H. destruct (x_m1m2 x); [|destruct (hash_ok _ _)]; match type of H with (_, ?z) = _ => replace x' with z by congruence end; reflexivity. Qed.
Lemma sn_append_a m : rel same_nego (append_a m).
Proof. intros x r x' H. unfold append_a in H. destruct (_ <? _); match type of H with (_, ?z) = _ => replace x' with z by congruence end; reflexivity. Qed.
Lemma sn_append_m cr sid m : rel same_nego (append_m cr sid m).
Proof.
  intros x r x' H. unfold append_m in H. destruct sid as [id|].
  - destruct (get_sess id x) as [s|]; [|replace x' with x by congruence; reflexivity].
    destruct (s_l1l2 s); [|destruct (hash_ok _ _)]; match type of H with (_, ?z) = _ => replace x' with z by congruence end; reflexivity.
  - destruct (x_l1l2 x); [|destruct (hash_ok _ _)]; match type of H with (_, ?z) = _ => replace x' with z by congruence end; reflexivity.
Qed.
Lemma sn_append_k cr id m : rel same_nego (append_k cr id m).
Proof. apply sn_on_sess. Qed.
Lemma sn_append_f cr r id m : rel same_nego (append_f cr r id m).
Proof. unfold append_f. rl sn_pre; sf. Qed.
Lemma sn_random cr n : rel same_nego (get_random cr n).
Proof. intros x r x' H. unfold get_random in H. match type of H with (_, ?z) = _ => replace x' with z by congruence end; reflexivity. Qed.
Lemma sn_reset_m sid x : same_nego x (reset_m sid x).
Proof. destruct sid; reflexivity. Qed.
Lemma sn_error_main {A} sid b : rel same_nego (@error_main A sid b).
Proof. unfold error_main, simple_error. rl sn_pre; try apply sn_on_sess; try sf. Qed.
Lemma sn_append_b_both E sid s u : rel same_nego (append_b_both E sid s u).
Proof. unfold append_b_both. rl sn_pre; apply sn_append_m1m2. Qed.
Lemma sn_verify_peer E slot op h sg : rel same_nego (verify_peer_signature E slot op h sg).
Proof. unfold verify_peer_signature. rl sn_pre. Qed.
Lemma sn_finalize E a o : rel same_nego (finalize E a o).
Proof. unfold finalize. rl sn_pre. Qed.
Lemma sn_meas_sig E sid slot sg : rel same_nego (verify_measurement_sig E sid slot sg).
Proof. unfold verify_measurement_sig. rl sn_pre; try apply sn_finalize; try apply sn_verify_peer. Qed.
Lemma sn_chal_sig E slot sg : rel same_nego (verify_challenge_sig E slot sg).
Proof. unfold verify_challenge_sig. rl sn_pre; try apply sn_finalize; try apply sn_verify_peer. Qed.
Lemma sn_abandon {A} id e : rel same_nego (@req_abandon A id e).
Proof. unfold req_abandon. rl sn_pre. apply sn_on_sess. Qed.
Lemma sn_check_rsp_hmac E id m : rel same_nego (check_rsp_hmac E id m).
Proof. unfold check_rsp_hmac. rl sn_pre; try apply sn_abandon. apply sn_append_k. Qed.
Lemma sn_open E id p a b : rel same_nego (req_open_session E id p a b).
Proof. unfold req_open_session. rl sn_pre; try apply sn_on_sess; try sf. Qed.
Lemma sn_open_psk E id h : rel same_nego (req_open_psk_session E id h).
Proof. unfold req_open_psk_session. rl sn_pre; try apply sn_on_sess; try sf. Qed.
Lemma sn_finish_kx E slot id s u p : rel same_nego (finish_key_exchange E slot id s u p).
Proof.
  unfold finish_key_exchange, verify_key_exchange_sig. rl sn_pre;
    first [apply sn_append_k|apply sn_verify_peer|apply sn_on_sess|apply sn_check_rsp_hmac|sf].
Qed.
Lemma sn_finish_psk E id s u p : rel same_nego (finish_psk_exchange E id s u p).
Proof. unfold finish_psk_exchange. rl sn_pre; first [apply sn_append_k|apply sn_on_sess|apply sn_check_rsp_hmac|sf]. Qed.
Lemma sn_reset_buffer c sid x : same_nego x (reset_buffer c sid x).
Proof.
  unfold reset_buffer. cbv zeta. destruct (c =? RC_GET_MEASUREMENTS), (existsb _ _), (c =? RC_GET_DIGESTS); cbn [negb];
   repeat match goal with |- context [if ?b then _ else _] => destruct b end; destruct sid; reflexivity.
Qed.
