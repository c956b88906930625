(** Every successful requester operation was answered with the response it expects. *)
From Verif Require Import Bytes BytesFacts Status Codec Parse ParseProofs Algo Monad.
From Verif Require Import MsgConn MsgAuth MsgSession MsgOther Message Opaque Transport Crypto KeySchedule Session Signing CertOps ChainVerify Context
  RspBase RspConn RspSess RspEncap Responder StRel RspFrame RspCalm RspOpcode RspPass RspEst ReqBase ReqConn ReqSess SpecReq ReqFrame.
From Coq Require Import Lia.
Local Open Scope N_scope.

Ltac q1 := first [exact quiet_pre|apply quiet_reset_buffer|split; reflexivity].
Lemma q_trans x y z : quiet x y -> quiet y z -> quiet x z.
Proof. exact (proj2 quiet_pre x y z). Qed.
Lemma q_refl x : quiet x x.
Proof. exact (proj1 quiet_pre x). Qed.
Lemma q_enc m x r x' : req_enc m x = (r, x') -> x' = x.
Proof. exact (rel_req_enc (fun x x' => x' = x) ltac:(split; congruence) m x r x'). Qed.
Definition done (E : env) (o : operation) (x x' : ctx) : Prop :=
  exists b, answered E (runs_in x o) x x' b /\ checked o b x'.
Lemma or_teardown_ok {A} id (m : st ctx A) x a x' : or_teardown id m x = (Ok a, x') -> m x = (Ok a, x').
Proof.
  unfold or_teardown, scatch. destruct (m x) as [[b|e|] y]; unfold sret, spanic; intro H; try congruence.
  unfold req_abandon in H. bi H. discriminate.
Qed.
Lemma or_teardown_if_ok {A} id (m : st ctx A) x a x' : or_teardown_if id m x = (Ok a, x') -> m x = (Ok a, x').
Proof.
  unfold or_teardown_if, scatch. destruct (m x) as [[b|e|] y]; unfold sret, spanic; intro H; try congruence.
  bg H. destruct (get_sess id y); [|discriminate]. unfold req_abandon in H. bi H. discriminate.
Qed.
Lemma quiet_mid {A} id (m : st session A) y u z : on_sess id m y = (u, z) -> quiet y z.
Proof. apply quiet_on_sess. Qed.

Lemma done_version E x u x' : get_version E x = (Ok u, x') -> done E OVersion x x'.
Proof.
  unfold get_version. intro H. bi H. apply mod_inv in P as ->. bi H. apply q_enc in P as ->. bi H. bi H.
  pose proof (quiet_handle_version _ _ _ _ _ H) as Q. eexists. split.
  - refine (answered_by E None false x _ _ _ _ _ _ _ x' _ P (q_refl _) P0 Q). apply quiet_reset_buffer.
  - apply on_response_any_ok in H as (w & r & -> & _). split; [reflexivity|discriminate].
Qed.
Lemma sv_handle_capabilities s b x u x' : handle_capabilities_rsp s b x = (Ok u, x') -> has_code b 0x61 /\ ver x' = ver x /\ has_version b (ver x).
Proof.
  intro H. apply on_response_ok in H as (r & -> & H). split; [reflexivity|]. split; [|reflexivity].
  apply reading_ok in H as (p & rest & _ & H). bi H. apply mod_inv in P as ->. bi H. apply sn_append_a in P. apply sn_append_a in H.
  apply sn_sv in P. apply sn_sv in H. unfold same_version in *. rewrite H, P. unfold ver, modn, take_capabilities. cbn.
  destruct (_ <=? _); reflexivity.
Qed.
Lemma done_capabilities E x u x' : get_capabilities E x = (Ok u, x') -> done E OCapabilities x x'.
Proof.
  unfold get_capabilities. intro H. bi H. apply mod_inv in P as ->. bg H. bi H. apply q_enc in P as ->. bi H. bi H.
  pose proof (quiet_handle_capabilities _ _ _ _ _ H) as Q. eexists. split.
  - refine (answered_by E None false x _ _ _ _ _ _ _ x' _ P (q_refl _) P0 Q). apply quiet_reset_buffer.
  - apply sv_handle_capabilities in H as (A & V & B). split; [exact A|intros _; rewrite V; exact B].
Qed.
Lemma take_alg_version n a : n_version (take_alg n a) = n_version n.
Proof. unfold take_alg. destruct (as_alg a); reflexivity. Qed.
Lemma take_algs_version l n : n_version (fold_left take_alg l n) = n_version n.
Proof. revert n. induction l as [|a l IH]; intro n; [reflexivity|]. cbn [fold_left]. rewrite IH. apply take_alg_version. Qed.
Lemma sv_handle_algorithms s b x u x' : handle_algorithms_rsp s b x = (Ok u, x') -> has_code b 0x63 /\ ver x' = ver x /\ has_version b (ver x).
Proof.
  intro H. apply on_response_ok in H as (r & -> & H). split; [reflexivity|]. split; [|reflexivity].
  apply reading_ok in H as (p & rest & _ & H).
  bi H. apply mod_inv in P as ->. bi H. apply fail_inv in P as [_ ->]. bi H. apply mod_inv in P as ->. bi H. apply fail_inv in P as [_ ->].
  bi H. apply mod_inv in P as ->. bi H. apply mod_inv in P as ->. bi H. apply sn_append_a in P. apply sn_append_a in H.
  apply sn_sv in P. apply sn_sv in H. unfold same_version in *. rewrite H, P. unfold ver, modn. cbn [x_nego set_x_nego]. rewrite take_algs_version. reflexivity.
Qed.
Lemma done_algorithms E x u x' : negotiate_algorithms E x = (Ok u, x') -> done E OAlgorithms x x'.
Proof.
  unfold negotiate_algorithms. intro H. bi H. apply mod_inv in P as ->. bg H. bi H. apply q_enc in P as ->. bi H. bi H.
  pose proof (quiet_handle_algorithms _ _ _ _ _ H) as Q. eexists. split.
  - refine (answered_by E None false x _ _ _ _ _ _ _ x' _ P (q_refl _) P0 Q). apply quiet_reset_buffer.
  - apply sv_handle_algorithms in H as (A & V & B). split; [exact A|intros _; rewrite V; exact B].
Qed.
Ltac snn :=
  rl sn_pre;
  first [apply sn_error_main|apply sn_append_b_both|apply sn_append_a|apply sn_append_m1m2|apply sn_append_m|apply sn_append_k|apply sn_append_f
        |apply sn_chal_sig|apply sn_meas_sig|apply sn_on_sess|apply sn_check_rsp_hmac|apply sn_open|apply sn_open_psk|apply sn_finish_kx|apply sn_finish_psk
        |apply sn_random|apply sn_abandon
        |apply rel_on_response; [exact sn_pre|intro; snn|apply sn_error_main]
        |apply rel_on_response_any; [exact sn_pre|intro; snn|apply sn_error_main]
        |apply rel_reading; [exact sn_pre|intros; snn]
        |apply (rel_req_enc _ sn_pre)
        |apply rel_mod; intro; apply sn_reset_buffer
        |apply rel_mod; intro; apply sn_reset_m
        |sf|idtac].
(** a handler of the usual shape *)
Lemma checked_by {A} (m : st ctx A) c sid b k x a x' :
  (forall x a x', m x = (Ok a, x') -> on_response c sid b k x = (Ok a, x')) -> rel same_nego m -> m x = (Ok a, x') ->
  has_code b c /\ has_version b (ver x').
Proof.
  intros M R H. pose proof (R _ _ _ H) as V. apply M in H. apply on_response_ok in H as (r & -> & _).
  apply sn_sv in V. unfold same_version in V. rewrite V. split; reflexivity.
Qed.
Lemma done_digests E sid x u x' : get_digests E sid x = (Ok u, x') -> done E (ODigests sid) x x'.
Proof.
  unfold get_digests. intro H. bi H. apply mod_inv in P as ->. bg H. bi H. apply q_enc in P as ->. bi H. bi H.
  pose proof (quiet_handle_digests _ _ _ _ _ _ _ H) as Q. eexists. split.
  - refine (answered_by E sid false x _ _ _ _ _ _ _ x' _ P (q_refl _) P0 Q). apply quiet_reset_buffer.
  - unfold handle_digests_rsp in H. eapply checked_by in H as [A B]; [split; [exact A|intros _; exact B]|intros ? ? ? K; exact K|snn].
Qed.
Lemma done_cert E sid a t o l x p x' : get_certificate_partial E sid a t o l x = (Ok p, x') -> done E (OCertPart sid a t o l) x x'.
Proof.
  unfold get_certificate_partial. intro H. bg H. bi H. apply q_enc in P as ->. bi H. bi H.
  pose proof (quiet_handle_certificate _ _ _ _ _ _ _ _ _ _ _ H) as Q. eexists. split.
  - exact (answered_by E sid false x _ _ _ _ _ _ _ x' (q_refl _) P (q_refl _) P0 Q).
  - unfold handle_certificate_rsp in H. eapply checked_by in H as [A B]; [split; [exact A|intros _; exact B]|intros ? ? ? K; exact K|snn].
Qed.
Lemma done_challenge E a t x p x' : challenge_req E a t x = (Ok p, x') -> done E (OChallenge a t) x x'.
Proof.
  unfold challenge_req. intro H. bi H. apply fail_inv in P as [_ ->]. bi H. apply mod_inv in P as ->. bi H. bi H. apply ok_inv in P0 as [_ ->].
  bg H. bi H. apply q_enc in P0 as ->. bi H. bi H.
  pose proof (quiet_handle_challenge _ _ _ _ _ _ _ _ H) as Q. eexists. split.
  - refine (answered_by E None true x _ _ _ _ _ _ _ x' _ P0 (q_refl _) P1 Q). eapply q_trans; [apply quiet_reset_buffer|]. exact (quiet_random _ _ _ _ _ P).
  - unfold handle_challenge_auth in H. bi H. apply mod_inv in P2 as ->.
    eapply checked_by in H as [A B]; [split; [exact A|intros _; exact B]|intros ? ? ? K; exact K|snn].
Qed.
Lemma done_measurements E sid a t o x p x' : get_measurements E sid a t o x = (Ok p, x') -> done E (OMeasurements sid a t o) x x'.
Proof.
  unfold get_measurements. intro H. bi H. apply fail_inv in P as [_ ->]. bi H. apply mod_inv in P as ->. bi H. bi H. apply ok_inv in P0 as [_ ->].
  bg H. bi H. apply q_enc in P0 as ->. bi H. bi H.
  pose proof (quiet_handle_measurements _ _ _ _ _ _ _ _ _ _ H) as Q. eexists. split.
  - refine (answered_by E sid true x _ _ _ _ _ _ _ x' _ P0 (q_refl _) P1 Q). eapply q_trans; [apply quiet_reset_buffer|]. exact (quiet_random _ _ _ _ _ P).
  - unfold handle_measurements in H. cbv zeta in H. bi H. apply mod_inv in P2 as ->.
    eapply checked_by in H as [A B]; [split; [exact A|intros _; exact B]|intros ? ? ? K; exact K|].
    snn. apply rel_mod. intro. destruct (_ <=? _); reflexivity.
Qed.
Lemma done_kx E a t x p x' : key_exchange_req E a t x = (Ok p, x') -> done E (OKeyExchange a t) x x'.
Proof.
  unfold key_exchange_req. intro H. bi H. apply fail_inv in P as [_ ->]. bg H. bi H. apply of_inv in P as [_ ->]. bi H. apply mod_inv in P as ->. bi H. bi H. bi H.
  pose proof (quiet_handle_kx _ _ _ _ _ _ _ _ _ _ H) as Q. eexists. split.
  - refine (answered_by E None false x _ _ _ _ _ _ _ x' _ P0 (q_refl _) P1 Q). eapply q_trans; [apply quiet_reset_buffer|]. exact (quiet_encode_kx _ _ _ _ _ _ _ P).
  - unfold handle_key_exchange_rsp in H. bi H. apply mod_inv in P2 as ->.
    eapply checked_by in H as [A B]; [split; [exact A|intros _; exact B]|intros ? ? ? K; exact K|snn].
Qed.
Lemma done_psk E t h x p x' : psk_exchange_req E t h x = (Ok p, x') -> done E (OPskExchange t h) x x'.
Proof.
  unfold psk_exchange_req. intro H. bi H. apply mod_inv in P as ->. bg H. bi H. apply of_inv in P as [_ ->]. bi H. bi H. bi H.
  pose proof (quiet_handle_psk _ _ _ _ _ _ _ _ _ H) as Q. eexists. split.
  - refine (answered_by E None false x _ _ _ _ _ _ _ x' _ P0 (q_refl _) P1 Q). eapply q_trans; [apply quiet_reset_buffer|]. exact (quiet_encode_psk _ _ _ _ _ _ _ P).
  - unfold handle_psk_exchange_rsp in H. bi H. apply mod_inv in P2 as ->.
    eapply checked_by in H as [A B]; [split; [exact A|intros _; exact B]|intros ? ? ? K; exact K|snn].
Qed.
Lemma send_if E id w (c : bool) : (if c then req_send E w else req_send_secured E id w false) = req_send_on E (if c then None else Some id) w.
Proof. destruct c; reflexivity. Qed.
Lemma recv_if E id (c : bool) : (if c then req_recv E false else req_recv_secured E id false) = req_recv_on E (if c then None else Some id) false.
Proof. destruct c; reflexivity. Qed.
Lemma done_finish E rs id x p x' : finish_req E rs id x = (Ok p, x') -> done E (OFinish rs id) x x'.
Proof.
  unfold finish_req. intro H. bg H. cbv zeta in H. rewrite recv_if in H.
  bi H. assert (y = x) as ->.
  { destruct rs as [sl|]; [|apply ret_inv in P; apply P]. destruct (8 <=? sl); [discriminate|]. destruct (slot_of _ _); [|discriminate]. apply ret_inv in P; apply P. }
  clear P. bi H. apply ok_inv in P as [_ ->]. bi H. apply mod_inv in P as ->. bi H. apply or_teardown_ok in P. rewrite send_if in H.
  bi H. apply or_teardown_ok in P0. bi H. apply or_teardown_ok in P1. apply or_teardown_if_ok in H.
  pose proof (quiet_handle_finish _ _ _ _ _ _ H) as Q. eexists. split.
  - unfold runs_in. refine (answered_by E _ false x _ _ _ _ _ _ _ x' _ P0 (q_refl _) P1 Q). eapply q_trans; [apply quiet_reset_buffer|]. exact (quiet_encode_finish _ _ _ _ _ _ P).
  - unfold handle_finish_rsp in H. bg H. bi H. apply ok_inv in P2 as [_ ->]. apply on_response_any_ok in H as (w & r & -> & _). split; [reflexivity|discriminate].
Qed.
Lemma done_psk_finish E id x p x' : psk_finish_req E id x = (Ok p, x') -> done E (OPskFinish id) x x'.
Proof.
  unfold psk_finish_req. intro H. bg H. bi H. apply ok_inv in P as [_ ->]. bi H. apply mod_inv in P as ->. bi H. apply or_teardown_ok in P.
  bi H. apply or_teardown_ok in P0. bi H. apply or_teardown_ok in P1. apply or_teardown_if_ok in H.
  pose proof (quiet_handle_psk_finish _ _ _ _ _ _ H) as Q. eexists. split.
  - refine (answered_by E (Some id) false x _ _ _ _ _ _ _ x' _ P0 (q_refl _) P1 Q). eapply q_trans; [apply quiet_reset_buffer|]. exact (quiet_encode_psk_finish _ _ _ _ _ P).
  - unfold handle_psk_finish_rsp in H.
    eapply checked_by in H as [A B]; [split; [exact A|intros _; exact B]|intros ? ? ? K; exact K|snn].
Qed.
Lemma done_heartbeat E id x p x' : heartbeat_req E id x = (Ok p, x') -> done E (OHeartbeat id) x x'.
Proof.
  unfold heartbeat_req, heartbeat_answer. intro H. bi H. apply mod_inv in P as ->. bg H. bi H. apply q_enc in P as ->. bi H. bi H.
  match type of H with ?m _ = _ => assert (Q : rel quiet m) by qq end. apply Q in H as H'. eexists. split.
  - refine (answered_by E (Some id) false x _ _ _ _ _ _ _ x' _ P (q_refl _) P0 H'). apply quiet_reset_buffer.
  - eapply checked_by in H as [A B]; [split; [exact A|intros _; exact B]|intros ? ? ? K; exact K|snn].
Qed.
Lemma done_end E id x p x' : end_session_req E id x = (Ok p, x') -> done E (OEndSession id) x x'.
Proof.
  unfold end_session_req, end_session_answer. intro H. bi H. apply mod_inv in P as ->. bg H. bi H. apply q_enc in P as ->. bi H. bi H.
  match type of H with ?m _ = _ => assert (Q : rel quiet m) by qq end. apply Q in H as H'. eexists. split.
  - refine (answered_by E (Some id) false x _ _ _ _ _ _ _ x' _ P (q_refl _) P0 H'). apply quiet_reset_buffer.
  - eapply checked_by in H as [A B]; [split; [exact A|intros _; exact B]|intros ? ? ? K; exact K|snn].
Qed.
Lemma done_vendor E sid st vid pl x p x' : vendor_req E sid st vid pl x = (Ok p, x') -> done E (OVendor sid st vid pl) x x'.
Proof.
  unfold vendor_req, vendor_answer. intro H. bi H. apply mod_inv in P as ->. bi H. apply mod_inv in P as ->. bg H. bi H. apply q_enc in P as ->. bi H. bi H.
  match type of H with ?m _ = _ => assert (Q : rel quiet m) by qq end. apply Q in H as H'. eexists. split.
  - refine (answered_by E sid false x _ _ _ _ _ _ _ x' _ P (q_refl _) P0 H'). eapply q_trans; [apply quiet_reset_buffer|split; reflexivity].
  - eapply checked_by in H as [A B]; [split; [exact A|intros _; exact B]|intros ? ? ? K; exact K|snn].
Qed.
Lemma done_key_update E id op tag x p x' : key_update_op_req E id op tag x = (Ok p, x') -> done E (OKeyUpdateOp id op tag) x x'.
Proof.
  unfold key_update_op_req. intro H. bi H. apply mod_inv in P as ->. bg H. bi H. apply q_enc in P as ->. bi H. bg H. bi H. apply ok_inv in P0 as [_ ->].
  cbv zeta in H. bi H. bi H.
  pose proof (quiet_handle_ku _ _ _ _ _ _ _ H) as Q. eexists. split.
  - refine (answered_by E (Some id) false x _ _ _ _ _ _ _ x' _ P (quiet_on_sess _ _ _ _ _ P0) P1 Q). apply quiet_reset_buffer.
  - unfold handle_key_update_ack in H. eapply checked_by in H as [A B]; [split; [exact A|intros _; exact B]|intros ? ? ? K; exact K|snn].
Qed.
Theorem run_done E o x u x' : run E o x = (Ok u, x') -> done E o x x'.
Proof.
  intro H. destruct o; unfold run in H; try apply drop_ok in H as [w H].
  - exact (done_version _ _ _ _ H).
  - exact (done_capabilities _ _ _ _ H).
  - exact (done_algorithms _ _ _ _ H).
  - exact (done_digests _ _ _ _ _ H).
  - exact (done_cert _ _ _ _ _ _ _ _ _ H).
  - exact (done_challenge _ _ _ _ _ _ H).
  - exact (done_measurements _ _ _ _ _ _ _ _ H).
  - exact (done_kx _ _ _ _ _ _ H).
  - exact (done_finish _ _ _ _ _ _ H).
  - exact (done_psk _ _ _ _ _ _ H).
  - exact (done_psk_finish _ _ _ _ _ H).
  - exact (done_heartbeat _ _ _ _ _ H).
  - exact (done_key_update _ _ _ _ _ _ _ H).
  - exact (done_end _ _ _ _ _ H).
  - exact (done_vendor _ _ _ _ _ _ _ _ H).
Qed.
Lemma contains_bit a : contains a MEAS_ATTR_SIG = N.testbit a 0.
Proof.
  unfold contains, MEAS_ATTR_SIG. destruct a as [|[p|p|]]; try reflexivity.
Qed.
