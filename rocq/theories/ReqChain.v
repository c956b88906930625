(** The requester's stored peer chains change only by certificate retrieval and by forgetting them all. *)
From Verif Require Import Bytes BytesFacts Status Codec Parse ParseProofs Algo Monad.
From Verif Require Import MsgConn MsgAuth MsgSession MsgOther Message Opaque Transport Crypto KeySchedule Session Signing CertOps ChainVerify Context
  RspBase RspConn RspSess RspEncap Responder StRel RspFrame RspCalm RspOpcode RspPass RspEst ReqBase ReqConn ReqSess SpecReq ReqFrame ReqAnswer SpecSession SpecAuth ReqTrans.
From Coq Require Import Lia.
Local Open Scope N_scope.

Definition pk (x x' : ctx) : Prop :=
  (x_peer_chain x' = x_peer_chain x \/ x_peer_chain x' = repeat None 8) /\ x_peer_root x' = x_peer_root x.
Lemma pk_pre : preorder pk.
Proof. split; unfold pk; [auto|]. intros x y z [[A|A] B] [[C|C] D]; (split; [|congruence]); [left; congruence|right; exact C|right; congruence|right; exact C]. Qed.
Lemma pk_keeps x x' : keeps x x' -> pk x x'. Proof. unfold keeps, pk. intros ->. split; [left|]; reflexivity. Qed.
Lemma pk_on_sess {A} id (m : st session A) : rel pk (on_sess id m). Proof. intros x r x' H. apply pk_keeps. exact (keeps_on_sess _ _ _ _ _ H). Qed.
Lemma pk_send E sid s : rel pk (req_send_on E sid s). Proof. intros x r x' H. apply pk_keeps. exact (keeps_send_on _ _ _ _ _ _ H). Qed.
Lemma pk_recv E sid c : rel pk (req_recv_on E sid c). Proof. intros x r x' H. apply pk_keeps. exact (keeps_recv_on _ _ _ _ _ _ H). Qed.
Lemma pk_send0 E b : rel pk (req_send E b). Proof. exact (pk_send E None b). Qed.
Lemma pk_send1 E id b : rel pk (req_send_secured E id b false). Proof. exact (pk_send E (Some id) b). Qed.
Lemma pk_recv0 E c : rel pk (req_recv E c). Proof. exact (pk_recv E None c). Qed.
Lemma pk_recv1 E id c : rel pk (req_recv_secured E id c). Proof. exact (pk_recv E (Some id) c). Qed.
Ltac pm := apply rel_mod; intro; split; [left|]; reflexivity.
Lemma pk_error_main {A} sid b : rel pk (@error_main A sid b).
Proof. unfold error_main, simple_error. rl pk_pre; try apply pk_on_sess; try pm. Qed.
Lemma pk_append_m1m2 cr e m : rel pk (append_m1m2 cr e m).
Proof. intros x r x' H. unfold append_m1m2 in H. destruct (x_m1m2 x); [|destruct (hash_ok _ _)]; match type of H with (_, ?z) = _ => replace x' with z by congruence end; (split; [left|]; reflexivity). Qed.
Lemma pk_append_b E sid s u : rel pk (append_b_both E sid s u).
Proof. unfold append_b_both, append_b. rl pk_pre; apply pk_append_m1m2. Qed.
Lemma pk_append_c cr m : rel pk (append_c cr m). Proof. apply pk_append_m1m2. Qed.
Lemma pk_append_a m : rel pk (append_a m).
Proof. intros x r x' H. unfold append_a in H. destruct (_ <? _); match type of H with (_, ?z) = _ => replace x' with z by congruence end; (split; [left|]; reflexivity). Qed.
Lemma pk_append_m cr sid m : rel pk (append_m cr sid m).
Proof.
  intros x r x' H. unfold append_m in H. destruct sid as [id|].
  - destruct (get_sess id x) as [s|]; [|replace x' with x by congruence; apply pk_pre].
    destruct (s_l1l2 s); [|destruct (hash_ok _ _)]; match type of H with (_, ?z) = _ => replace x' with z by congruence end; (split; [left|]; reflexivity).
  - destruct (x_l1l2 x); [|destruct (hash_ok _ _)]; match type of H with (_, ?z) = _ => replace x' with z by congruence end; (split; [left|]; reflexivity).
Qed.
Lemma pk_append_k cr id m : rel pk (append_k cr id m). Proof. apply pk_on_sess. Qed.
Lemma pk_append_f cr r id m : rel pk (append_f cr r id m). Proof. unfold append_f. rl pk_pre; try pm. Qed.
Lemma pk_random cr n : rel pk (get_random cr n).
Proof. intros x r x' H. unfold get_random in H. match type of H with (_, ?z) = _ => replace x' with z by congruence end; (split; [left|]; reflexivity). Qed.
Lemma pk_verify_peer E slot op h sg : rel pk (verify_peer_signature E slot op h sg). Proof. unfold verify_peer_signature. rl pk_pre. Qed.
Lemma pk_finalize E a o : rel pk (finalize E a o). Proof. unfold finalize. rl pk_pre. Qed.
Lemma pk_meas_sig E sid slot sg : rel pk (verify_measurement_sig E sid slot sg).
Proof. unfold verify_measurement_sig. rl pk_pre; try apply pk_finalize; try apply pk_verify_peer. Qed.
Lemma pk_chal_sig E slot sg : rel pk (verify_challenge_sig E slot sg).
Proof. unfold verify_challenge_sig. rl pk_pre; try apply pk_finalize; try apply pk_verify_peer. Qed.
Lemma pk_abandon {A} id e : rel pk (@req_abandon A id e). Proof. unfold req_abandon. rl pk_pre. apply pk_on_sess. Qed.
Lemma pk_check_rsp_hmac E id m : rel pk (check_rsp_hmac E id m).
Proof. unfold check_rsp_hmac. rl pk_pre; try apply pk_abandon. apply pk_append_k. Qed.
Lemma pk_reset_m sid x : pk x (reset_m sid x). Proof. destruct sid; split; [left| |left|]; reflexivity. Qed.
Lemma pk_reset_buffer c sid x : pk x (reset_buffer c sid x).
Proof.
  unfold reset_buffer. cbv zeta. apply (proj2 pk_pre _ (if c =? RC_GET_MEASUREMENTS then x else reset_m sid x)).
  - destruct (_ =? _); [apply pk_pre|apply pk_reset_m].
  - set (y := if c =? RC_GET_MEASUREMENTS then x else reset_m sid x). clearbody y.
    destruct (existsb _ _); [destruct (_ <? _)|destruct (_ =? _)]; first [apply pk_pre|split; [left|]; reflexivity].
Qed.
Lemma pk_reset_context x : pk x (reset_context x). Proof. split; [right|]; reflexivity. Qed.
Ltac pp :=
  rl pk_pre;
  first [apply pk_error_main|apply pk_append_m|apply pk_check_rsp_hmac|apply pk_abandon|apply pk_on_sess
        |apply pk_append_k|apply pk_append_f|apply pk_append_a|apply pk_append_b|apply pk_append_c
        |apply pk_chal_sig|apply pk_meas_sig|apply pk_random|apply pk_verify_peer|apply pk_finalize
        |apply pk_send|apply pk_recv|apply pk_send0|apply pk_recv0|apply pk_send1|apply pk_recv1
        |apply rel_on_response; [exact pk_pre|intro; pp|apply pk_error_main]
        |apply rel_on_response_any; [exact pk_pre|intro; pp|apply pk_error_main]
        |apply rel_reading; [exact pk_pre|intros; pp]
        |apply (rel_req_enc _ pk_pre)
        |apply rel_mod; intro; first [apply pk_reset_m|apply pk_reset_buffer|apply pk_reset_context|split; [left|]; reflexivity]
        |idtac].
Lemma pk_version E : rel pk (get_version E).
Proof. unfold get_version, handle_version_rsp. pp. Qed.
Lemma pk_capabilities E : rel pk (get_capabilities E).
Proof. unfold get_capabilities, handle_capabilities_rsp. pp. Qed.
Lemma pk_algorithms E : rel pk (negotiate_algorithms E).
Proof. unfold negotiate_algorithms, handle_algorithms_rsp. pp. Qed.
Lemma pk_digests E sid : rel pk (get_digests E sid).
Proof. unfold get_digests, handle_digests_rsp. pp. Qed.
Lemma pk_cert E sid a t o l : rel pk (get_certificate_partial E sid a t o l).
Proof. unfold get_certificate_partial, handle_certificate_rsp. pp. Qed.
Lemma pk_challenge E a t : rel pk (challenge_req E a t).
Proof. unfold challenge_req, handle_challenge_auth, set_summary. pp. Qed.
Lemma pk_measurements E sid a t o : rel pk (get_measurements E sid a t o).
Proof. unfold get_measurements, handle_measurements. pp. apply rel_mod. intro. destruct (_ <=? _); (split; [left|]; reflexivity). Qed.
Lemma pk_heartbeat E id : rel pk (heartbeat_req E id).
Proof. unfold heartbeat_req, heartbeat_answer. pp. Qed.
Lemma pk_ku E id op tag : rel pk (key_update_op_req E id op tag).
Proof. unfold key_update_op_req, handle_key_update_ack. pp. Qed.
Lemma pk_end E id : rel pk (end_session_req E id).
Proof. unfold end_session_req, end_session_answer. pp. Qed.
Lemma pk_vendor E sid st vid pl : rel pk (vendor_req E sid st vid pl).
Proof. unfold vendor_req, vendor_answer. pp. Qed.
Lemma pk_open E id p a b : rel pk (req_open_session E id p a b).
Proof. unfold req_open_session. pp. Qed.
Lemma pk_open_psk E id h : rel pk (req_open_psk_session E id h).
Proof. unfold req_open_psk_session. pp. Qed.
Lemma pk_finish_kx E slot id s u p : rel pk (finish_key_exchange E slot id s u p).
Proof. unfold finish_key_exchange, verify_key_exchange_sig. pp. Qed.
Lemma pk_finish_psk E id s u p : rel pk (finish_psk_exchange E id s u p).
Proof. unfold finish_psk_exchange. pp. Qed.
Lemma pk_encode_finish E id slot : rel pk (encode_finish E id slot).
Proof. unfold encode_finish, finish_signature. pp. Qed.
Lemma pk_encode_psk_finish E id : rel pk (encode_psk_finish E id).
Proof. unfold encode_psk_finish. pp. Qed.
Lemma pk_handle_finish E id b : rel pk (handle_finish_rsp E id b).
Proof. unfold handle_finish_rsp. pp. Qed.
Lemma pk_handle_psk_finish E id b : rel pk (handle_psk_finish_rsp E id b).
Proof. unfold handle_psk_finish_rsp. pp. Qed.
Lemma pk_or_teardown {A} id (m : st ctx A) : rel pk m -> rel pk (or_teardown id m).
Proof. intro H. unfold or_teardown. rl pk_pre; [exact H|apply pk_abandon]. Qed.
Lemma pk_or_teardown_if {A} id (m : st ctx A) : rel pk m -> rel pk (or_teardown_if id m).
Proof. intro H. unfold or_teardown_if. rl pk_pre; [exact H|apply pk_abandon]. Qed.
Lemma pk_finish E rs id : rel pk (finish_req E rs id).
Proof.
  unfold finish_req. rl pk_pre; first [apply pk_or_teardown_if, pk_handle_finish | apply pk_or_teardown | apply rel_mod; intro; apply pk_reset_buffer];
  first [apply pk_encode_finish | destruct (in_clear _)]; pp.
Qed.
Lemma pk_psk_finish E id : rel pk (psk_finish_req E id).
Proof.
  unfold psk_finish_req. rl pk_pre; first [apply pk_or_teardown_if, pk_handle_psk_finish | apply pk_or_teardown | apply rel_mod; intro; apply pk_reset_buffer];
  first [apply pk_encode_psk_finish | pp].
Qed.
Lemma pk_encode_kx E r slot t : rel pk (encode_key_exchange E r slot t).
Proof. unfold encode_key_exchange. pp. Qed.
Lemma pk_encode_psk E r t h : rel pk (encode_psk_exchange E r t h).
Proof. unfold encode_psk_exchange. pp. Qed.
Lemma pk_kx E a t : rel pk (key_exchange_req E a t).
Proof.
  unfold key_exchange_req, handle_key_exchange_rsp, set_summary. rl pk_pre; first [apply pk_encode_kx|apply pk_open|apply pk_finish_kx|idtac]; pp; first [apply pk_open|apply pk_finish_kx].
Qed.
Lemma pk_psk E t h : rel pk (psk_exchange_req E t h).
Proof.
  unfold psk_exchange_req, handle_psk_exchange_rsp, set_summary. rl pk_pre; first [apply pk_encode_psk|apply pk_open_psk|apply pk_finish_psk|idtac]; pp; first [apply pk_open_psk|apply pk_finish_psk].
Qed.
Lemma run_pk E o : rel pk (run E o).
Proof.
  destruct o; cbn [run]; intros x r x' H; try apply drop_inv in H as (r' & H & _);
  first [exact (pk_version _ _ _ _ H)|exact (pk_capabilities _ _ _ _ H)|exact (pk_algorithms _ _ _ _ H)|exact (pk_digests _ _ _ _ _ H)|exact (pk_cert _ _ _ _ _ _ _ _ _ H)
        |exact (pk_challenge _ _ _ _ _ _ H)|exact (pk_measurements _ _ _ _ _ _ _ _ H)|exact (pk_kx _ _ _ _ _ _ H)|exact (pk_finish _ _ _ _ _ _ H)|exact (pk_psk _ _ _ _ _ _ H)
        |exact (pk_psk_finish _ _ _ _ _ H)|exact (pk_heartbeat _ _ _ _ _ H)|exact (pk_ku _ _ _ _ _ _ _ H)|exact (pk_end _ _ _ _ _ H)|exact (pk_vendor _ _ _ _ _ _ _ _ H)].
Qed.
