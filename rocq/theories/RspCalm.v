(** Every responder handler that is not part of connection negotiation or session creation leaves
    the outline of the context alone while it builds its reply. *)
From Verif Require Import Bytes BytesFacts Status Codec Parse Algo Monad.
From Verif Require Import MsgConn MsgAuth MsgSession MsgOther Message Transport Crypto KeySchedule Session CertOps ChainVerify Context
  RspBase RspConn RspSess RspEncap Responder StRel RspFrame.
Local Open Scope N_scope.

(** ** ERROR messages *)
(** the four bytes of an ERROR message without extended data *)
Definition error_bytes (v code data : N) : bytes := [v; 0x7F; code; data].
Lemma write_err_nil c d x : write_err_data c d [] x = (Ok (error_bytes (ver x) c d), x).
Proof. reflexivity. Qed.
Lemma sunwrap_some {S A} (a : A) (s : S) : sunwrap (Some a) s = (Ok a, s).
Proof. reflexivity. Qed.

(** ** sending *)
Lemma calm_io_send E b sid : rel (calm sid) (io_send E b).
Proof.
  intros x r x' H. unfold io_send in H. destruct (e_send E _ _);
    match type of H with (_, ?y) = _ => replace x' with y by congruence end; byfield.
Qed.
Lemma calm_send_raw_error E v c d sid : rel (calm sid) (send_raw E (error_bytes v c d)).
Proof.
  unfold send_raw.
  apply rel_bind; [apply calm_pre|apply rel_of, calm_pre|intro].
  apply rel_bind; [apply calm_pre|apply calm_io_send|intro].
  exact (rel_ret _ (calm_pre sid) tt).
Qed.
(** [write_err code []] just returns the bytes *)
Lemma rel_write_err_bind {B} (R : ctx -> ctx -> Prop) c d (k : bytes -> st ctx B) :
  (forall v, rel R (k (error_bytes v c d))) -> rel R (sbind (write_err_data c d []) k).
Proof. intros Hk x r x' H. unfold sbind in H. rewrite write_err_nil in H. exact (Hk _ _ _ _ H). Qed.
Lemma calm_send_error_bytes E v c d sid : rel (calm sid) (send_message E (error_bytes v c d)).
Proof.
  unfold send_message. apply rel_bind; [apply calm_pre|apply rel_get, calm_pre|intro x].
  destruct (too_large _ _); [|apply calm_send_raw_error].
  apply rel_write_err_bind. intro v'. destruct (too_large _ _); [apply rel_panic, calm_pre|apply calm_send_raw_error].
Qed.
Lemma calm_send_spdm_error E c sid : rel (calm sid) (send_spdm_error E c).
Proof.
  unfold send_spdm_error. apply rel_write_err_bind. intro v.
  apply rel_catch; [apply calm_pre|apply calm_send_error_bytes|intro; apply rel_ret, calm_pre].
Qed.

(** ** the handlers *)
Lemma skeep_activate a b c : skeep (smod (activate_data_secret_update a b c)).
Proof. intros s r s' H. unfold smod in H. injection H as _ <-. apply skey_activate. Qed.
Ltac cprim :=
  first [ apply calm_append_m1m2 | apply calm_append_m | apply calm_append_a | apply calm_append_k | apply calm_append_f
        | apply calm_random | apply calm_summary | apply calm_send_spdm_error | apply calm_io_send
        | apply rel_mod; intro; apply calm_reset_buffer
        | apply rel_mod; intro; apply calm_reset_m
        | apply rel_mod; byfield ].
Ltac cm sid := rl (calm_pre sid); try cprim.

Lemma calm_append_b_on E sid m : rel (calm sid) (append_b_on E sid m).
Proof. unfold append_b_on, append_b. destruct sid as [id|]; [cm (Some id)|cm (@None N)]. Qed.
Lemma calm_then_append sid m w : rel (calm sid) m -> rel (calm sid) (then_append m w).
Proof. intro H. unfold then_append. cm sid. exact H. Qed.
Ltac cm2 sid := repeat (progress (cm sid; try apply calm_append_b_on; try apply calm_then_append)).

Lemma calm_write_digest E sid b : rel (calm sid) (write_digest E sid b).
Proof. unfold write_digest. cm2 sid. Qed.
Lemma calm_write_certificate E sid b : rel (calm sid) (write_certificate E sid b).
Proof. unfold write_certificate. cm2 sid. Qed.
Lemma calm_write_challenge E b : rel (calm None) (write_challenge E b).
Proof. unfold write_challenge, append_c. cm2 (@None N). Qed.
Lemma calm_write_measurement E sid b : rel (calm sid) (write_measurement E sid b).
Proof. unfold write_measurement, measure. cm2 sid. Qed.
Lemma calm_write_heartbeat id b : rel (calm (Some id)) (write_heartbeat id b).
Proof. unfold write_heartbeat. cm2 (Some id). Qed.
Lemma calm_write_key_update E id b : rel (calm (Some id)) (write_key_update E id b).
Proof.
  unfold write_key_update, key_update_op. cm2 (Some id);
    apply calm_on_sess; first [apply skeep_create | apply skeep_activate].
Qed.
Lemma calm_write_end_session id b : rel (calm (Some id)) (write_end_session id b).
Proof. unfold write_end_session. cm2 (Some id). Qed.
Lemma calm_write_vendor E sid b : rel (calm sid) (write_vendor E sid b).
Proof. unfold write_vendor. cm2 sid. Qed.
Lemma calm_check_finish E id b p : rel (calm (Some id)) (check_finish E id b p).
Proof. unfold check_finish, verify_finish_signature. cm2 (Some id). Qed.
Lemma calm_data_keys E id : rel (calm (Some id)) (data_keys E id).
Proof. unfold data_keys. cm2 (Some id). apply calm_on_sess, skeep_data. Qed.
Lemma calm_finish_reply E id : rel (calm (Some id)) (finish_reply E id).
Proof. unfold finish_reply. cm2 (Some id); apply calm_data_keys. Qed.
Lemma calm_write_finish E id b : rel (calm (Some id)) (write_finish E id b).
Proof. unfold write_finish. cm2 (Some id); [apply calm_check_finish|apply calm_finish_reply]. Qed.
Lemma calm_check_psk_finish E id b r v : rel (calm (Some id)) (check_psk_finish E id b r v).
Proof. unfold check_psk_finish. cm2 (Some id). Qed.
Lemma calm_write_psk_finish E id b : rel (calm (Some id)) (write_psk_finish E id b).
Proof. unfold write_psk_finish. cm2 (Some id); [apply calm_check_psk_finish|apply calm_data_keys]. Qed.
Lemma calm_error_response sid c b : rel (calm sid) (write_error_response c b).
Proof. unfold write_error_response. cm2 sid. Qed.
Lemma calm_encap_check E w sid : rel (calm sid) (encap_check E w).
Proof.
  unfold encap_check. apply rel_bind; [apply calm_pre|apply rel_get, calm_pre|intro x].
  apply rel_bind; [apply calm_pre| |intro; cm2 sid].
  apply rel_when; [apply calm_pre|]. apply rel_write_err_bind. intro v.
  apply rel_catch; [apply calm_pre|apply calm_send_error_bytes|intro; apply rel_ret, calm_pre].
Qed.
Lemma calm_encap_get_cert w sid : rel (calm sid) (encap_get_cert w).
Proof. unfold encap_get_cert. cm2 sid. apply rel_mod. intro x. destruct (x_peer_temp x); byfield. Qed.
Lemma calm_encap_certificate E r sid : rel (calm sid) (encap_certificate E r).
Proof. unfold encap_certificate. cm2 sid. Qed.
Lemma calm_process_encap E a b w sid : rel (calm sid) (process_encap E a b w).
Proof.
  unfold process_encap, encap_fail. cm2 sid; first [apply calm_encap_get_cert | apply calm_encap_certificate].
Qed.
Lemma calm_write_encap_request b w sid : rel (calm sid) (write_encap_request b w).
Proof. unfold write_encap_request, encap_version. cm2 sid. Qed.
Lemma calm_write_encap_ack E b w sid : rel (calm sid) (write_encap_ack E b w).
Proof. unfold write_encap_ack, encap_version. cm2 sid. apply calm_process_encap. Qed.
