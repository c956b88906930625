(** The requester's session table: ids, states and measurement transcripts. *)
From Verif Require Import Bytes BytesFacts Status Codec Parse ParseProofs Algo Monad.
From Verif Require Import MsgConn MsgAuth MsgSession MsgOther Message Opaque Transport Crypto KeySchedule Session Signing CertOps ChainVerify Context
  RspBase RspConn RspSess RspEncap Responder StRel RspFrame RspCalm RspOpcode RspPass RspSlots RspTable RspIso RspEst ReqBase ReqConn ReqSess SpecReq ReqFrame ReqAnswer ReqTrans.
From Coq Require Import Lia.
Local Open Scope N_scope.

(** ** session methods that keep the id, the state and L1/L2 *)
Definition sk3 (s : session) : N * sstate * option bytes := (s_id s, s_state s, s_l1l2 s).
Definition same3 (s s' : session) : Prop := sk3 s' = sk3 s.
Lemma same3_pre : preorder same3.
Proof. split; unfold same3; congruence. Qed.
Ltac s3 := rl same3_pre; try (apply rel_mod; intro; reflexivity).
Lemma s3_hs cr v th : rel same3 (generate_handshake_secret cr v th).
Proof. unfold generate_handshake_secret. s3. Qed.
Lemma s3_data cr v th : rel same3 (generate_data_secret cr v th).
Proof. unfold generate_data_secret. s3. Qed.
Lemma s3_create cr v a b : rel same3 (create_data_secret_update cr v a b).
Proof. unfold create_data_secret_update, update_req, update_rsp. s3. Qed.
Lemma s3_activate a b c s : sk3 (activate_data_secret_update a b c s) = sk3 s.
Proof. destruct a, b, c; reflexivity. Qed.
Lemma s3_dhe cr v d : rel same3 (set_dhe_secret cr v d).
Proof. unfold set_dhe_secret. s3. Qed.
Lemma s3_set_dir r d s : sk3 (set_dir r d s) = sk3 s.
Proof. unfold set_dir. destruct (s_state s) eqn:E, r; cbn; unfold sk3; cbn; congruence. Qed.
Lemma s3_encode cr r a n : rel same3 (encode_secured cr r a n).
Proof.
  intros s o s' H. unfold same3. unfold encode_secured, bump in H.
  destruct (s_state s); try (replace s' with s by congruence; reflexivity);
    (destruct (encode_msg _ _ _ _ _);
     try (destruct (_ =? _)); match goal with |- sk3 s' = _ => idtac end;
     first [replace s' with s by congruence; reflexivity
           | injection H as _ <-; apply s3_set_dir]).
Qed.
Lemma s3_decode cr r a n : rel same3 (decode_secured cr r a n).
Proof.
  intros s o s' H. unfold same3. unfold decode_secured, bump in H.
  destruct (s_state s); try (replace s' with s by congruence; reflexivity);
    (destruct (decode_msg _ _ _ _ _);
     try (destruct (_ =? _)); match goal with |- sk3 s' = _ => idtac end;
     first [replace s' with s by congruence; reflexivity
           | injection H as _ <-; apply s3_set_dir]).
Qed.
Lemma s3_append_k cr d : rel same3 (fun s : session =>
    match s_th s with
    | Some d0 => (Ok tt, set_s_th (Some (d0 ++ d)) s)
    | None => if hash_ok cr (s_hash s)
              then (Ok tt, set_s_th (Some (s_msg_a s ++ match s_rsp_hash s with Some h => h | None => [] end ++ d)) s)
              else (Err ST_CRYPTO_ERROR, s)
    end).
Proof.
  intros s r s' H. unfold same3. destruct (s_th s); [|destruct (hash_ok _ _)]; match type of H with (_, ?z) = _ => replace s' with z by congruence end; reflexivity.
Qed.

(** ** the whole context: what operations that open no session do.
    [ex] is the one measurement transcript that may change otherwise, [sx] the session whose state may *)
Definition D3 (ex : option (option N)) (sx : option N) (s s' : session) : Prop :=
  (s_id s' = 0 /\ (s_state s' = SNotStarted \/ sx = Some 0)) \/
  (s_id s' = s_id s /\ (s_state s' = s_state s \/ s_state s' = SNotStarted \/ sx = Some (s_id s)) /\
   (s_l1l2 s' = s_l1l2 s \/ s_l1l2 s' = None \/ ex = Some (Some (s_id s)))).
Lemma D3_refl ex sx s : D3 ex sx s s.
Proof. right. auto. Qed.
Lemma D3_trans ex sx a b c : D3 ex sx a b -> D3 ex sx b c -> D3 ex sx a c.
Proof.
  unfold D3. intros H1 H2. destruct H2 as [H2|(H2 & H3 & H4)]; [now left|]. destruct H1 as [[H1 H1']|(H1 & H5 & H6)]; [left|right].
  - split; [congruence|]. destruct H3 as [H3|[H3|H3]]; [|auto|right; congruence]. destruct H1'; [left; congruence|auto].
  - split; [congruence|]. split.
    + destruct H3 as [H3|[H3|H3]]; [|auto|right; right; congruence]. destruct H5 as [H5|[H5|H5]]; [left|right; left|right; right]; congruence.
    + destruct H4 as [H4|[H4|H4]]; [|auto|right; right; congruence]. destruct H6 as [H6|[H6|H6]]; [left|right; left|right; right]; congruence.
Qed.
Lemma D3_same ex sx s s' : same3 s s' -> D3 ex sx s s'.
Proof. unfold same3, sk3. intro H. right. split; [congruence|]. split; left; congruence. Qed.
Definition dk (ex : option (option N)) (sx : option N) (x x' : ctx) : Prop :=
  slotwise (D3 ex sx) x x' /\ (x_l1l2 x' = x_l1l2 x \/ x_l1l2 x' = None \/ ex = Some None).
Lemma dk_pre ex sx : preorder (dk ex sx).
Proof.
  assert (P : preorder (slotwise (D3 ex sx))) by (apply slotwise_pre; [apply D3_refl|apply D3_trans]). split.
  - intro x. split; [apply P|auto].
  - intros x y z [H1 H2] [H3 H4]. split; [exact (proj2 P _ _ _ H1 H3)|]. destruct H4 as [H4|[H4|H4]]; [|tauto|tauto]. destruct H2 as [H2|[H2|H2]]; [left|right; left|right; right]; congruence.
Qed.
(** nothing at all *)
Definition eqk (x x' : ctx) : Prop := map sk3 (x_sess x') = map sk3 (x_sess x) /\ x_l1l2 x' = x_l1l2 x.
Lemma eqk_pre : preorder eqk.
Proof. split; unfold eqk; intuition congruence. Qed.
Lemma eqk_dk ex sx x x' : eqk x x' -> dk ex sx x x'.
Proof.
  intros [H1 H2]. split; [|auto]. unfold slotwise. revert H1. generalize (x_sess x'). generalize (x_sess x). clear.
  induction l as [|s l IH]; intros [|s' l'] H; try discriminate; constructor; cbn [map] in H.
  - apply D3_same. unfold same3. congruence.
  - apply IH. congruence.
Qed.
Lemma eqk_of {A} ex sx (m : st ctx A) : rel eqk m -> rel (dk ex sx) m.
Proof. apply rel_mono. intros x y. apply eqk_dk. Qed.
Lemma upd_map {B} (g : session -> B) id f l : (forall s, g (f s) = g s) -> map g (upd_sess id f l) = map g l.
Proof. intro H. induction l as [|s l IH]; [reflexivity|]. cbn. destruct (_ =? _); cbn; [rewrite H|rewrite IH]; reflexivity. Qed.
Lemma eqk_mod_sess id f x : (forall s, sk3 (f s) = sk3 s) -> eqk x (mod_sess id f x).
Proof. intro H. split; [|reflexivity]. unfold mod_sess. cbn [x_sess set_x_sess]. apply upd_map, H. Qed.
Lemma eqk_on_sess {A} id (m : st session A) : rel same3 m -> rel eqk (on_sess id m).
Proof.
  intros H x r x' E. unfold on_sess in E. destruct (get_sess id x) as [s|] eqn:G; [|replace x' with x by congruence; apply eqk_pre].
  destruct (m s) as [o s1] eqn:M. apply H in M. unfold same3 in M. replace x' with (mod_sess id (fun _ => s1) x) by congruence. split; [|reflexivity].
  unfold mod_sess. cbn [x_sess set_x_sess]. unfold get_sess, find_sess in G. revert G. generalize (x_sess x).
  induction l as [|t l IH]; cbn; [discriminate|]. destruct (s_id t =? id); intro G; cbn.
  - f_equal. congruence.
  - f_equal. apply IH, G.
Qed.
Lemma eqk_field x x' : x_sess x' = x_sess x -> x_l1l2 x' = x_l1l2 x -> eqk x x'.
Proof. intros A B. split; congruence. Qed.
Ltac ef := apply rel_mod; intro; apply eqk_field; reflexivity.
Lemma eqk_send_on E sid b : rel eqk (req_send_on E sid b).
Proof.
  unfold req_send_on, req_send, req_send_secured, encode_secured_message. rl eqk_pre;
   first [apply eqk_on_sess, s3_encode|intros x r x' H; apply eqk_field; [exact (io_send_sess _ _ _ _ _ H)|pose proof (keeps_io_send _ _ _ _ _ H) as K; rewrite K; reflexivity]].
Qed.
Lemma eqk_recv_on E sid c : rel eqk (req_recv_on E sid c).
Proof.
  unfold req_recv_on, req_recv, req_recv_secured, req_timeout, decap, decode_secured_message. rl eqk_pre;
   first [apply eqk_on_sess, s3_decode|intros x r x' H; apply eqk_field; [exact (io_recv_sess _ _ _ _ H)|pose proof (keeps_io_recv _ _ _ _ H) as K; rewrite K; reflexivity]].
Qed.
Lemma eqk_send E b : rel eqk (req_send E b). Proof. exact (eqk_send_on E None b). Qed.
Lemma eqk_send_s E id b : rel eqk (req_send_secured E id b false). Proof. exact (eqk_send_on E (Some id) b). Qed.
Lemma eqk_recv E c : rel eqk (req_recv E c). Proof. exact (eqk_recv_on E None c). Qed.
Lemma eqk_recv_s E id c : rel eqk (req_recv_secured E id c). Proof. exact (eqk_recv_on E (Some id) c). Qed.
Lemma eqk_append_k cr id m : rel eqk (append_k cr id m).
Proof. apply eqk_on_sess, s3_append_k. Qed.
Lemma eqk_append_f cr r id m : rel eqk (append_f cr r id m).
Proof. unfold append_f. rl eqk_pre; apply rel_mod; intro; apply eqk_mod_sess; intro; reflexivity. Qed.
Lemma eqk_append_m1m2 cr e m : rel eqk (append_m1m2 cr e m).
Proof.
  intros x r x' H. unfold append_m1m2 in H. destruct (x_m1m2 x); [|destruct (hash_ok _ _)]; match type of H with (_, ?z) = _ => replace x' with z by congruence end; apply eqk_field; reflexivity.
Qed.
Lemma eqk_append_a m : rel eqk (append_a m).
Proof. intros x r x' H. unfold append_a in H. destruct (_ <? _); match type of H with (_, ?z) = _ => replace x' with z by congruence end; apply eqk_field; reflexivity. Qed.
Lemma eqk_append_b_both E sid s u : rel eqk (append_b_both E sid s u).
Proof. unfold append_b_both, append_b. rl eqk_pre; apply eqk_append_m1m2. Qed.
Lemma eqk_append_c cr m : rel eqk (append_c cr m).
Proof. apply eqk_append_m1m2. Qed.
Lemma eqk_random cr n : rel eqk (get_random cr n).
Proof. intros x r x' H. unfold get_random in H. match type of H with (_, ?z) = _ => replace x' with z by congruence end; apply eqk_field; reflexivity. Qed.
Lemma eqk_verify_peer E slot op h sg : rel eqk (verify_peer_signature E slot op h sg).
Proof. unfold verify_peer_signature. rl eqk_pre. Qed.
Lemma eqk_finalize E a o : rel eqk (finalize E a o).
Proof. unfold finalize. rl eqk_pre. Qed.
Lemma eqk_meas_sig E sid slot sg : rel eqk (verify_measurement_sig E sid slot sg).
Proof. unfold verify_measurement_sig. rl eqk_pre; try apply eqk_finalize; try apply eqk_verify_peer. Qed.
Lemma eqk_chal_sig E slot sg : rel eqk (verify_challenge_sig E slot sg).
Proof. unfold verify_challenge_sig. rl eqk_pre; try apply eqk_finalize; try apply eqk_verify_peer. Qed.

(** ** teardown and resets *)
Lemma dk_on_sess {A} ex sx id (m : st session A) : (forall s r s', s_id s = id -> m s = (r, s') -> D3 ex sx s s') -> rel (dk ex sx) (on_sess id m).
Proof.
  intros H x r x' E. split; [exact (slotwise_on_sess _ id m (D3_refl ex sx) H _ _ _ E)|]. left. pose proof (keeps_on_sess _ _ _ _ _ E) as K. rewrite K. reflexivity.
Qed.
Lemma dk_teardown ex sx id : rel (dk ex sx) (on_sess id (session_teardown id)).
Proof.
  apply dk_on_sess. intros s r s' Z H. unfold session_teardown in H. rewrite Z, N.eqb_refl in H. replace s' with (session_set_default s) by congruence. left. split; [reflexivity|left; reflexivity].
Qed.
Lemma dk_mod_sess ex sx id f x : (forall s, D3 ex sx s (f s)) -> dk ex sx x (mod_sess id f x).
Proof.
  intro H. split; [|left; reflexivity]. unfold slotwise, mod_sess. cbn [x_sess set_x_sess]. generalize (x_sess x). clear x.
  induction l as [|s l IH]; cbn; [constructor|]. destruct (_ =? _); constructor; [apply H| |apply D3_refl|exact IH]. apply Forall2_refl. intro. apply D3_refl.
Qed.
Lemma dk_reset_m ex sx sid x : dk ex sx x (reset_m sid x).
Proof. destruct sid; cbn [reset_m]; [apply dk_mod_sess; intro; right; auto|]. split; [|auto]. apply slotwise_field; [apply D3_refl|reflexivity]. Qed.
Lemma dk_reset_buffer ex sx c sid x : dk ex sx x (reset_buffer c sid x).
Proof.
  unfold reset_buffer. cbv zeta. apply (proj2 (dk_pre ex sx) _ (if c =? RC_GET_MEASUREMENTS then x else reset_m sid x)).
  - destruct (_ =? _); [apply dk_pre|apply dk_reset_m].
  - set (y := if c =? RC_GET_MEASUREMENTS then x else reset_m sid x). clearbody y. apply eqk_dk.
    destruct (existsb _ _); [destruct (_ <? _)|destruct (_ =? _)]; apply eqk_field; reflexivity.
Qed.
Lemma dk_reset_context ex sx x : dk ex sx x (reset_context x).
Proof.
  split; [|right; left; reflexivity]. unfold slotwise, reset_context. cbn [x_sess set_x_sess]. change (x_sess (reset_peer_info (reset_negotiate_info (reset_runtime_info x)))) with (x_sess x).
  generalize (x_sess x). clear x. induction l as [|s l IH]; cbn [map]; constructor; [|exact IH]. left. split; [reflexivity|left; reflexivity].
Qed.
Lemma dk_error_main ex sx {A} sid b : rel (dk ex sx) (@error_main A sid b).
Proof.
  unfold error_main, simple_error. rl (dk_pre ex sx); first [apply dk_teardown|idtac].
  apply rel_mod. intro. apply dk_mod_sess. intro. right. auto.
Qed.
Lemma dk_abandon ex sx {A} id e : rel (dk ex sx) (@req_abandon A id e).
Proof. unfold req_abandon. rl (dk_pre ex sx). apply dk_teardown. Qed.
Lemma dk_check_rsp_hmac ex sx E id m : rel (dk ex sx) (check_rsp_hmac E id m).
Proof. unfold check_rsp_hmac. rl (dk_pre ex sx); try apply dk_abandon. apply eqk_of, eqk_append_k. Qed.
Lemma eqk_mod_field f : (forall x, x_sess (f x) = x_sess x /\ x_l1l2 (f x) = x_l1l2 x) -> rel eqk (smod f).
Proof. intro H. apply rel_mod. intro x. destruct (H x). apply eqk_field; assumption. Qed.
Lemma dk_append_m sx cr sid m : rel (dk (Some sid) sx) (append_m cr sid m).
Proof.
  intros x r x' H. unfold append_m in H. destruct sid as [id|].
  - destruct (get_sess id x) as [s|] eqn:G; [|replace x' with x by congruence; apply dk_pre].
    assert (K : forall v, dk (Some (Some id)) sx x (mod_sess id (set_s_l1l2 v) x)).
    { intro v. split; [|left; reflexivity]. unfold slotwise, mod_sess. cbn [x_sess set_x_sess]. generalize (x_sess x). 
      induction l as [|t l IH]; cbn; [constructor|]. destruct (N.eqb_spec (s_id t) id) as [Z|Z]; constructor; [right; rewrite Z; auto| |apply D3_refl|exact IH].
      apply Forall2_refl. intro. apply D3_refl. }
    destruct (s_l1l2 s); [|destruct (hash_ok _ _)]; match type of H with (_, ?z) = _ => replace x' with z by congruence end; first [apply K|apply dk_pre].
  - assert (K : forall v, dk (Some None) sx x (set_x_l1l2 v x)). { intro v. split; [|auto]. apply slotwise_field; [apply D3_refl|reflexivity]. }
    destruct (x_l1l2 x); [|destruct (hash_ok _ _)]; match type of H with (_, ?z) = _ => replace x' with z by congruence end; first [apply K|apply dk_pre].
Qed.
(** ** the operations *)
Ltac dd ex sx :=
  rl (dk_pre ex sx);
  first [apply dk_error_main|apply dk_append_m|apply dk_check_rsp_hmac|apply dk_abandon|apply dk_teardown
        |apply eqk_of; first [apply eqk_append_k|apply eqk_append_f|apply eqk_append_a|apply eqk_append_b_both|apply eqk_append_c
             |apply eqk_chal_sig|apply eqk_meas_sig|apply eqk_random|apply eqk_verify_peer
             |apply eqk_send_on|apply eqk_recv_on|apply eqk_send|apply eqk_recv|apply eqk_send_s|apply eqk_recv_s
             |apply eqk_on_sess; first [apply s3_hs|apply s3_data|apply s3_create|apply s3_dhe|apply rel_mod; intro; apply s3_activate]
             |apply eqk_mod_field; intro; split; reflexivity
             |apply rel_mod; intro; apply eqk_mod_sess; intro; reflexivity]
        |apply rel_on_response; [exact (dk_pre ex sx)|intro; dd ex sx|apply dk_error_main]
        |apply rel_on_response_any; [exact (dk_pre ex sx)|intro; dd ex sx|apply dk_error_main]
        |apply rel_reading; [exact (dk_pre ex sx)|intros; dd ex sx]
        |apply (rel_req_enc _ (dk_pre ex sx))
        |apply rel_mod; intro; first [apply dk_reset_m|apply dk_reset_buffer|apply dk_reset_context]
        |idtac].
Lemma dk_version ex sx E : rel (dk ex sx) (get_version E).
Proof.
  unfold get_version, handle_version_rsp. dd ex sx. apply rel_mod. intro x. split; [|right; left; reflexivity]. apply slotwise_field; [apply D3_refl|reflexivity].
Qed.
Lemma dk_capabilities ex sx E : rel (dk ex sx) (get_capabilities E).
Proof. unfold get_capabilities, handle_capabilities_rsp. dd ex sx. Qed.
Lemma dk_algorithms ex sx E : rel (dk ex sx) (negotiate_algorithms E).
Proof. unfold negotiate_algorithms, handle_algorithms_rsp. dd ex sx. Qed.
Lemma dk_digests ex sx E sid : rel (dk ex sx) (get_digests E sid).
Proof. unfold get_digests, handle_digests_rsp. dd ex sx. Qed.
Lemma dk_cert ex sx E sid a t o l : rel (dk ex sx) (get_certificate_partial E sid a t o l).
Proof. unfold get_certificate_partial, handle_certificate_rsp. dd ex sx. Qed.
Lemma dk_challenge ex sx E a t : rel (dk ex sx) (challenge_req E a t).
Proof. unfold challenge_req, handle_challenge_auth, set_summary. dd ex sx. Qed.
Lemma dk_measurements sx E sid a t o : rel (dk (Some sid) sx) (get_measurements E sid a t o).
Proof. unfold get_measurements, handle_measurements. dd (Some sid) sx.
  - apply eqk_of, eqk_mod_field. intro x. destruct (_ <=? _); split; reflexivity.
Qed.
Lemma dk_heartbeat ex sx E id : rel (dk ex sx) (heartbeat_req E id).
Proof. unfold heartbeat_req, heartbeat_answer. dd ex sx. Qed.
Lemma dk_ku ex sx E id op tag : rel (dk ex sx) (key_update_op_req E id op tag).
Proof. unfold key_update_op_req, handle_key_update_ack. dd ex sx. Qed.
Lemma dk_end ex sx E id : rel (dk ex sx) (end_session_req E id).
Proof. unfold end_session_req, end_session_answer. dd ex sx. Qed.
Lemma dk_vendor ex sx E sid st vid pl : rel (dk ex sx) (vendor_req E sid st vid pl).
Proof. unfold vendor_req, vendor_answer. dd ex sx. Qed.
Lemma dk_set_state ex id f : (forall s, s_id (f s) = s_id s /\ s_l1l2 (f s) = s_l1l2 s) -> rel (dk ex (Some id)) (on_sess id (smod f)).
Proof.
  intro H. apply dk_on_sess. intros s r s' Z M. apply mod_inv in M as ->. destruct (H s) as [H1 H2]. right. split; [exact H1|]. split; [right; right; congruence|left; exact H2].
Qed.
Ltac ds id :=
  repeat first [apply dk_set_state; intro; split; reflexivity | progress (dd (@None (option N)) (Some id))].
Lemma dk_finish_kx E slot id s u p : rel (dk None (Some id)) (finish_key_exchange E slot id s u p).
Proof. unfold finish_key_exchange, verify_key_exchange_sig. ds id. Qed.
Lemma dk_finish_psk E id s u p : rel (dk None (Some id)) (finish_psk_exchange E id s u p).
Proof. unfold finish_psk_exchange. ds id. Qed.
Lemma eqk_encode_finish E id slot : rel eqk (encode_finish E id slot).
Proof. unfold encode_finish, finish_signature. rl eqk_pre; first [apply eqk_append_f|apply (rel_req_enc _ eqk_pre)|idtac]. Qed.
Lemma eqk_encode_psk_finish E id : rel eqk (encode_psk_finish E id).
Proof. unfold encode_psk_finish. rl eqk_pre; first [apply eqk_append_f|apply (rel_req_enc _ eqk_pre)|idtac]. Qed.
Lemma dk_handle_finish E id b : rel (dk None (Some id)) (handle_finish_rsp E id b).
Proof. unfold handle_finish_rsp. ds id. Qed.
Lemma dk_handle_psk_finish E id b : rel (dk None (Some id)) (handle_psk_finish_rsp E id b).
Proof. unfold handle_psk_finish_rsp. ds id. Qed.
Lemma dk_or_teardown {A} ex sx id (m : st ctx A) : rel (dk ex sx) m -> rel (dk ex sx) (or_teardown id m).
Proof. intro H. unfold or_teardown. rl (dk_pre ex sx); [exact H|apply dk_abandon]. Qed.
Lemma dk_or_teardown_if {A} ex sx id (m : st ctx A) : rel (dk ex sx) m -> rel (dk ex sx) (or_teardown_if id m).
Proof. intro H. unfold or_teardown_if. rl (dk_pre ex sx); [exact H|apply dk_abandon]. Qed.
Lemma dk_finish E rs id : rel (dk None (Some id)) (finish_req E rs id).
Proof.
  unfold finish_req. rl (dk_pre None (Some id)); first [apply dk_or_teardown_if, dk_handle_finish | apply dk_or_teardown | apply rel_mod; intro; apply dk_reset_buffer];
  first [apply eqk_of, eqk_encode_finish | destruct (in_clear _)]; apply eqk_of; first [apply eqk_send|apply eqk_send_s|apply eqk_recv|apply eqk_recv_s].
Qed.
Lemma dk_psk_finish E id : rel (dk None (Some id)) (psk_finish_req E id).
Proof.
  unfold psk_finish_req. rl (dk_pre None (Some id)); first [apply dk_or_teardown_if, dk_handle_psk_finish | apply dk_or_teardown | apply rel_mod; intro; apply dk_reset_buffer];
  first [apply eqk_of, eqk_encode_psk_finish | apply eqk_of; first [apply eqk_send_s|apply eqk_recv_s]].
Qed.
