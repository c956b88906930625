(** What the responder knows of the requester's certificates changes only by delivered encapsulated
    responses and by forgetting all of it. *)
From Verif Require Import Bytes BytesFacts Status Codec Parse ParseProofs Algo Monad.
From Verif Require Import MsgConn MsgAuth MsgSession MsgOther Message Opaque Transport Crypto KeySchedule Session Signing CertOps ChainVerify Context
  RspBase RspConn RspSess RspEncap Responder StRel RspFrame RspCalm RspOpcode RspPass RspEst.
Local Open Scope N_scope.

Definition ek (x x' : ctx) : Prop :=
  (x_encap_slot x' = x_encap_slot x /\ x_encap_size x' = x_encap_size x /\ x_peer_root x' = x_peer_root x) /\
  ((x_peer_temp x' = x_peer_temp x /\ x_peer_chain x' = x_peer_chain x) \/ (x_peer_temp x' = None /\ x_peer_chain x' = repeat None 8)).
Lemma ek_pre : preorder ek.
Proof.
  split; unfold ek; [auto 6|]. intros x y z [A B] [C D]. split; [intuition congruence|].
  destruct D as [[D1 D2]|D]; [|right; exact D]. destruct B as [[B1 B2]|[B1 B2]]; [left|right]; split; congruence.
Qed.
Ltac es := split; [repeat split; reflexivity|left; split; reflexivity].
Ltac ew H := match type of H with (_, ?z) = _ => match goal with |- ek _ ?x' => replace x' with z by congruence end end; es.
Lemma ek_on_sess {A} id (m : st session A) : rel ek (on_sess id m).
Proof. intros x r x' H. unfold on_sess in H. destruct (get_sess id x) as [s|]; [destruct (m s)|]; ew H. Qed.
Lemma ek_append_m1m2 cr e m : rel ek (append_m1m2 cr e m).
Proof. intros x r x' H. unfold append_m1m2 in H. destruct (x_m1m2 x); [|destruct (hash_ok _ _)]; ew H. Qed.
Lemma ek_append_a m : rel ek (append_a m).
Proof. intros x r x' H. unfold append_a in H. destruct (_ <? _); ew H. Qed.
Lemma ek_append_m cr sid m : rel ek (append_m cr sid m).
Proof.
  intros x r x' H. unfold append_m in H. destruct sid as [id|].
  - destruct (get_sess id x) as [s|]; [|ew H]. destruct (s_l1l2 s); [|destruct (hash_ok _ _)]; ew H.
  - destruct (x_l1l2 x); [|destruct (hash_ok _ _)]; ew H.
Qed.
Lemma ek_append_k cr id m : rel ek (append_k cr id m). Proof. apply ek_on_sess. Qed.
Lemma ek_append_f cr r id m : rel ek (append_f cr r id m). Proof. unfold append_f. rl ek_pre; apply rel_mod; intro; es. Qed.
Lemma ek_random cr n : rel ek (get_random cr n).
Proof. intros x r x' H. unfold get_random in H. ew H. Qed.
Lemma ek_io E b : rel ek (io_send E b).
Proof. intros x r x' H. unfold io_send in H. destruct (e_send E _ _); ew H. Qed.
Lemma ek_construct cr : rel ek (construct_my_cert_chain cr).
Proof. intros x r x' H. unfold construct_my_cert_chain in H. destruct (construct_slots _ _ _ _) as [r1 l]. ew H. Qed.
Lemma ek_reset_m sid x : ek x (reset_m sid x). Proof. destruct sid; es. Qed.
Lemma ek_reset_buffer c sid x : ek x (reset_buffer c sid x).
Proof.
  unfold reset_buffer. cbv zeta. apply (proj2 ek_pre _ (if c =? RC_GET_MEASUREMENTS then x else reset_m sid x)).
  - destruct (_ =? _); [apply ek_pre|apply ek_reset_m].
  - set (y := if c =? RC_GET_MEASUREMENTS then x else reset_m sid x). clearbody y.
    destruct (existsb _ _); [destruct (_ <? _)|destruct (_ =? _)]; first [apply ek_pre|es].
Qed.
Lemma ek_reset_context x : ek x (reset_context x). Proof. split; [repeat split; reflexivity|right; split; reflexivity]. Qed.
Ltac ep :=
  rl ek_pre;
  first [apply ek_on_sess|apply ek_append_m1m2|apply ek_append_a|apply ek_append_m|apply ek_append_k|apply ek_append_f
        |apply ek_random|apply ek_io|apply ek_construct
        |apply rel_mod; intro; first [apply ek_reset_m|apply ek_reset_buffer|apply ek_reset_context|es]
        |idtac].
Lemma ek_after op : rel ek (after_send op).
Proof. unfold after_send. ep. all: intros x r x' H; unfold smod in H; match type of H with (_, ?z) = _ => replace x' with z by congruence end; match goal with |- ek _ (if ?c then _ else _) => destruct c end; es. Qed.
Lemma ek_send_raw E b : rel ek (send_raw E b). Proof. unfold send_raw. ep; apply ek_after. Qed.
Lemma ek_send E b : rel ek (send_message E b). Proof. unfold send_message. ep; apply ek_send_raw. Qed.
Lemma ek_send_err E c : rel ek (send_spdm_error E c). Proof. unfold send_spdm_error. ep; apply ek_send. Qed.
Lemma ek_send_sec E id b a : rel ek (send_secured_message E id b a).
Proof. unfold send_secured_message, send_secured_raw, after_secured_send, encode_secured_message. ep. Qed.
Lemma ek_send_on E sid b : rel ek (send_on E sid b).
Proof. unfold send_on. destruct sid; [apply ek_send_sec|apply ek_send]. Qed.
Ltac eh := ep; first [apply ek_send|apply ek_send_sec|apply ek_send_on|apply ek_send_err|apply ek_send_raw|idtac].
Lemma ek_summary E t : rel ek (summary E t). Proof. unfold summary. eh. Qed.
Ltac ej := eh; first [apply ek_summary|idtac].
Lemma ek_version E b : rel ek (handle_version E b). Proof. unfold handle_version, write_version, then_append. ej. Qed.
Lemma ek_capability E b : rel ek (handle_capability E b). Proof. unfold handle_capability, write_capability, then_append. ej. Qed.
Lemma ek_algorithm E b : rel ek (handle_algorithm E b). Proof. unfold handle_algorithm, write_algorithm, then_append. ej. Qed.
Lemma ek_digest E sid b : rel ek (handle_digest E sid b). Proof. unfold handle_digest, write_digest, append_b_on, append_b, then_append. ej. Qed.
Lemma ek_certificate E sid b : rel ek (handle_certificate E sid b). Proof. unfold handle_certificate, write_certificate, append_b_on, append_b, then_append. ej. Qed.
Lemma ek_challenge E b : rel ek (handle_challenge E b). Proof. unfold handle_challenge, write_challenge, append_c, then_append. ej. Qed.
Lemma ek_measurement E sid b : rel ek (handle_measurement E sid b). Proof. unfold handle_measurement, write_measurement, measure, then_append. ej. Qed.
Lemma ek_kx E b : rel ek (handle_key_exchange E b).
Proof. unfold handle_key_exchange, write_key_exchange, exchange_start, open_session, key_exchange_finishing, rsp_hmac, or_abandon, abandon. ej. Qed.
Lemma ek_psk E b : rel ek (handle_psk_exchange E b).
Proof. unfold handle_psk_exchange, write_psk_exchange, exchange_start, open_psk_session, psk_exchange_finishing, psk_context, rsp_hmac, or_abandon, abandon. ej. Qed.
Lemma ek_finish E id b : rel ek (handle_finish E id b).
Proof. unfold handle_finish, write_finish, finish_reply, check_finish, verify_finish_signature, data_keys, rsp_hmac, or_abandon, abandon. ej. Qed.
Lemma ek_psk_finish E id b : rel ek (handle_psk_finish E id b).
Proof. unfold handle_psk_finish, write_psk_finish, check_psk_finish, data_keys, or_abandon, abandon. ej. Qed.
Lemma ek_heartbeat E id b : rel ek (handle_heartbeat E id b). Proof. unfold handle_heartbeat, write_heartbeat. ej. Qed.
Lemma ek_key_update E id b : rel ek (handle_key_update E id b). Proof. unfold handle_key_update, write_key_update, key_update_op. ej. Qed.
Lemma ek_end E id b : rel ek (handle_end_session E id b). Proof. unfold handle_end_session, write_end_session. ej. Qed.
Lemma ek_vendor E sid b : rel ek (handle_vendor E sid b). Proof. unfold handle_vendor, write_vendor. ej. Qed.
Lemma ek_error E c sid b : rel ek (handle_error_request E c sid b). Proof. unfold handle_error_request, write_error_response. ej. Qed.
Lemma ek_get_encap E id b : rel ek (handle_get_encap E id b).
Proof. unfold handle_get_encap, encap_check, write_encap_request, encap_version. ej. Qed.

(** ** sending forgets nothing *)
Definition ek0 (x x' : ctx) : Prop :=
  x_encap_slot x' = x_encap_slot x /\ x_encap_size x' = x_encap_size x /\ x_peer_root x' = x_peer_root x /\
  x_peer_temp x' = x_peer_temp x /\ x_peer_chain x' = x_peer_chain x /\ x_nego x' = x_nego x.
Lemma ek0_pre : preorder ek0.
Proof. split; unfold ek0; [auto 6|]. intuition congruence. Qed.
Lemma ek0_ek x x' : ek0 x x' -> ek x x'. Proof. unfold ek0, ek. tauto. Qed.
Ltac ew0 H := match type of H with (_, ?z) = _ => match goal with |- ek0 _ ?x' => replace x' with z by congruence end end; repeat split; reflexivity.
Lemma ek0_on_sess {A} id (m : st session A) : rel ek0 (on_sess id m).
Proof. intros x r x' H. unfold on_sess in H. destruct (get_sess id x) as [s|]; [destruct (m s)|]; ew0 H. Qed.
Lemma ek0_io E b : rel ek0 (io_send E b).
Proof. intros x r x' H. unfold io_send in H. destruct (e_send E _ _); ew0 H. Qed.
Lemma ek0_after op : rel ek0 (after_send op).
Proof. unfold after_send. rl ek0_pre; try apply ek0_on_sess. all: try (apply rel_mod; intro; repeat split; reflexivity). all: intros x r x' H; unfold smod in H; match type of H with (_, ?z) = _ => replace x' with z by congruence end; match goal with |- ek0 _ (if ?c then _ else _) => destruct c end; repeat split; reflexivity. Qed.
Lemma ek0_send E b : rel ek0 (send_message E b). Proof. unfold send_message, send_raw. rl ek0_pre; first [apply ek0_after|apply ek0_io]. Qed.
Lemma ek0_send_sec E id b a : rel ek0 (send_secured_message E id b a).
Proof. unfold send_secured_message, send_secured_raw, after_secured_send, encode_secured_message. rl ek0_pre; first [apply ek0_on_sess|apply ek0_io]. Qed.
Lemma ek0_encap_check E w : rel ek0 (encap_check E w).
Proof. unfold encap_check. rl ek0_pre; apply ek0_send. Qed.
