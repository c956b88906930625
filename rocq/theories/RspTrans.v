(** The responder's M1/M2 changes only in the requests that build it: any other frame keeps A and
    keeps or drops B. *)
From Verif Require Import Bytes BytesFacts Status Codec Parse ParseProofs Algo Monad.
From Verif Require Import MsgConn MsgAuth MsgSession MsgOther Message Opaque Transport Crypto KeySchedule Session Signing CertOps ChainVerify Context
  RspBase RspConn RspSess RspEncap Responder StRel RspFrame RspCalm RspOpcode RspPass RspEst.
Local Open Scope N_scope.

(** A is kept, B is kept or dropped *)
Definition tk (x x' : ctx) : Prop := x_msg_a x' = x_msg_a x /\ (x_m1m2 x' = x_m1m2 x \/ x_m1m2 x' = None).
Lemma tk_pre : preorder tk.
Proof. split; unfold tk; [auto|]. intros x y z [A B] [C D]. split; [congruence|]. destruct D as [D|D]; [|right; exact D]. destruct B as [B|B]; [left|right]; congruence. Qed.
Ltac es := split; [reflexivity|first [left; reflexivity|right; reflexivity]].
Ltac ew H := match type of H with (_, ?z) = _ => match goal with |- tk _ ?x' => replace x' with z by congruence end end; es.
Lemma tk_on_sess {A} id (m : st session A) : rel tk (on_sess id m).
Proof. intros x r x' H. unfold on_sess in H. destruct (get_sess id x) as [s|]; [destruct (m s)|]; ew H. Qed.
Lemma tk_append_m cr sid m : rel tk (append_m cr sid m).
Proof.
  intros x r x' H. unfold append_m in H. destruct sid as [id|].
  - destruct (get_sess id x) as [s|]; [|ew H]. destruct (s_l1l2 s); [|destruct (hash_ok _ _)]; ew H.
  - destruct (x_l1l2 x); [|destruct (hash_ok _ _)]; ew H.
Qed.
Lemma tk_append_k cr id m : rel tk (append_k cr id m). Proof. apply tk_on_sess. Qed.
Lemma tk_append_f cr r id m : rel tk (append_f cr r id m). Proof. unfold append_f. rl tk_pre; apply rel_mod; intro; es. Qed.
Lemma tk_random cr n : rel tk (get_random cr n).
Proof. intros x r x' H. unfold get_random in H. ew H. Qed.
Lemma tk_io E b : rel tk (io_send E b).
Proof. intros x r x' H. unfold io_send in H. destruct (e_send E _ _); ew H. Qed.
Lemma tk_construct cr : rel tk (construct_my_cert_chain cr).
Proof. intros x r x' H. unfold construct_my_cert_chain in H. destruct (construct_slots _ _ _ _) as [r1 l]. ew H. Qed.
Lemma tk_reset_m sid x : tk x (reset_m sid x). Proof. destruct sid; es. Qed.
Lemma tk_reset_buffer c sid x : tk x (reset_buffer c sid x).
Proof.
  unfold reset_buffer. cbv zeta. apply (proj2 tk_pre _ (if c =? RC_GET_MEASUREMENTS then x else reset_m sid x)).
  - destruct (_ =? _); [apply tk_pre|apply tk_reset_m].
  - set (y := if c =? RC_GET_MEASUREMENTS then x else reset_m sid x). clearbody y.
    destruct (existsb _ _); [destruct (_ <? _)|destruct (_ =? _)]; first [apply tk_pre|es].
Qed.
Ltac ep :=
  rl tk_pre;
  first [apply tk_on_sess|apply tk_append_m|apply tk_append_k|apply tk_append_f
        |apply tk_random|apply tk_io|apply tk_construct
        |apply rel_mod; intro; first [apply tk_reset_m|apply tk_reset_buffer|es]
        |idtac].
Lemma tk_after op : rel tk (after_send op).
Proof. unfold after_send. ep. all: intros x r x' H; unfold smod in H; match type of H with (_, ?z) = _ => replace x' with z by congruence end; match goal with |- tk _ (if ?c then _ else _) => destruct c end; es. Qed.
Lemma tk_send_raw E b : rel tk (send_raw E b). Proof. unfold send_raw. ep; apply tk_after. Qed.
Lemma tk_send E b : rel tk (send_message E b). Proof. unfold send_message. ep; apply tk_send_raw. Qed.
Lemma tk_send_err E c : rel tk (send_spdm_error E c). Proof. unfold send_spdm_error. ep; apply tk_send. Qed.
Lemma tk_send_sec E id b a : rel tk (send_secured_message E id b a).
Proof. unfold send_secured_message, send_secured_raw, after_secured_send, encode_secured_message. ep. Qed.
Lemma tk_send_on E sid b : rel tk (send_on E sid b).
Proof. unfold send_on. destruct sid; [apply tk_send_sec|apply tk_send]. Qed.
Ltac eh := ep; first [apply tk_send|apply tk_send_sec|apply tk_send_on|apply tk_send_err|apply tk_send_raw|idtac].
Lemma tk_summary E t : rel tk (summary E t). Proof. unfold summary. eh. Qed.
Ltac ej := eh; first [apply tk_summary|idtac].
Lemma tk_digest E id b : rel tk (handle_digest E (Some id) b). Proof. unfold handle_digest, write_digest, append_b_on, append_b, then_append. ej. Qed.
Lemma tk_certificate E id b : rel tk (handle_certificate E (Some id) b). Proof. unfold handle_certificate, write_certificate, append_b_on, append_b, then_append. ej. Qed.
Lemma tk_measurement E sid b : rel tk (handle_measurement E sid b). Proof. unfold handle_measurement, write_measurement, measure, then_append. ej. Qed.
Lemma tk_kx E b : rel tk (handle_key_exchange E b).
Proof. unfold handle_key_exchange, write_key_exchange, exchange_start, open_session, key_exchange_finishing, rsp_hmac, or_abandon, abandon. ej. Qed.
Lemma tk_psk E b : rel tk (handle_psk_exchange E b).
Proof. unfold handle_psk_exchange, write_psk_exchange, exchange_start, open_psk_session, psk_exchange_finishing, psk_context, rsp_hmac, or_abandon, abandon. ej. Qed.
Lemma tk_finish E id b : rel tk (handle_finish E id b).
Proof. unfold handle_finish, write_finish, finish_reply, check_finish, verify_finish_signature, data_keys, rsp_hmac, or_abandon, abandon. ej. Qed.
Lemma tk_psk_finish E id b : rel tk (handle_psk_finish E id b).
Proof. unfold handle_psk_finish, write_psk_finish, check_psk_finish, data_keys, or_abandon, abandon. ej. Qed.
Lemma tk_heartbeat E id b : rel tk (handle_heartbeat E id b). Proof. unfold handle_heartbeat, write_heartbeat. ej. Qed.
Lemma tk_key_update E id b : rel tk (handle_key_update E id b). Proof. unfold handle_key_update, write_key_update, key_update_op. ej. Qed.
Lemma tk_end E id b : rel tk (handle_end_session E id b). Proof. unfold handle_end_session, write_end_session. ej. Qed.
Lemma tk_error E c sid b : rel tk (handle_error_request E c sid b). Proof. unfold handle_error_request, write_error_response. ej. Qed.
Lemma tk_get_encap E id b : rel tk (handle_get_encap E id b).
Proof. unfold handle_get_encap, encap_check, write_encap_request, encap_version. ej. Qed.

Lemma tk_encap_certificate E r : rel tk (encap_certificate E r). Proof. unfold encap_certificate. ej. Qed.
Lemma tk_wput e w : rel tk (wput e w).
Proof. intros x r x' H. unfold wput in H. destruct (emit e w); ew H. Qed.
Lemma tk_process_encap E a b w : rel tk (process_encap E a b w). Proof. unfold process_encap, encap_get_cert, encap_fail. ej; first [apply tk_encap_certificate|apply tk_wput|apply rel_mod; intro y; destruct (x_peer_temp y); [apply tk_pre|es]|idtac].
Qed.
Lemma tk_deliver E id b : rel tk (handle_deliver_encap E id b). Proof. unfold handle_deliver_encap, encap_check, write_encap_ack, encap_version. ej; apply tk_process_encap. Qed.
Lemma tk_vendor E sid b : rel tk (handle_vendor E sid b). Proof. unfold handle_vendor, write_vendor. ej. Qed.
Lemma tk_secured E id b : rel tk (dispatch_secured E id b).
Proof.
  unfold dispatch_secured, dispatch_handshaking, dispatch_established. rl tk_pre;
    first [apply tk_digest|apply tk_certificate|apply tk_measurement|apply tk_heartbeat|apply tk_key_update|apply tk_end|apply tk_vendor|apply tk_error|apply tk_get_encap|apply tk_deliver|apply tk_finish|apply tk_psk_finish].
Qed.
Lemma tk_app E id b : rel tk (dispatch_app E id b). Proof. unfold dispatch_app. rl tk_pre; apply tk_send_sec. Qed.
Lemma tk_plain_finish E b : rel tk (dispatch_plain_finish E b). Proof. unfold dispatch_plain_finish. rl tk_pre; first [apply tk_finish|apply tk_error]. Qed.
Lemma tk_is_ok m : rel tk m -> rel tk (is_ok m).
Proof. intros R x r x' H. unfold is_ok, scatch in H. destruct (m x) as [[u|e|] y] eqn:M; unfold sret in H; match type of H with (_, ?z) = _ => replace x' with z by congruence end; exact (R _ _ _ M). Qed.
Lemma tk_process_secured E b : rel tk (process_secured E b).
Proof.
  intros x r x' H. unfold process_secured in H. destruct (read_session_id b) as [id|]; [|unfold sret in H; replace x' with x by congruence; apply tk_pre].
  unfold sbind at 1, sget at 1 in H. destruct (get_sess id x); [|unfold sret in H; replace x' with x by congruence; apply tk_pre].
  unfold scatch at 1 in H. destruct (on_sess id (decode_secured (e_cr E) true b BUFFER_SIZE) x) as [o y] eqn:O. pose proof (tk_on_sess _ _ _ _ _ O) as K.
  apply (proj2 tk_pre x y x' K). destruct o as [a|e|]; [|unfold sret in H; replace x' with y by congruence; apply tk_pre|].
  - destruct (tr_decap_app (e_tr E) MAX_SPDM_MSG_SIZE a) as [[m [|]]|e|].
    + exact (tk_is_ok _ (tk_app E id m) _ _ _ H).
    + exact (tk_is_ok _ (tk_secured E id m) _ _ _ H).
    + unfold sret in H; replace x' with y by congruence; apply tk_pre.
    + unfold spanic in H; replace x' with y by congruence; apply tk_pre.
  - unfold sret in H. replace x' with y by congruence. apply tk_pre.
Qed.
(** any frame but a plain GET_VERSION, GET_CAPABILITIES, NEGOTIATE_ALGORITHMS, GET_DIGESTS,
    GET_CERTIFICATE or CHALLENGE *)
Lemma tk_frame E f x r x' : (forall b, tr_decap (e_tr E) BUFFER_SIZE f = Ok (b, false) -> forall c, nth_error b 1 = Some c -> ~ In c [0x84; 0xE1; 0xE3; 0x81; 0x82; 0x83]) ->
  process_frame E f x = (r, x') -> tk x x'.
Proof.
  intros Hb H. unfold process_frame in H. destruct (tr_decap (e_tr E) BUFFER_SIZE f) as [[b [|]]|e|] eqn:D.
  - exact (tk_process_secured E b _ _ _ H).
  - specialize (Hb b eq_refl). revert H. apply tk_is_ok. unfold dispatch_message. destruct (read_header b) as [[h t]|] eqn:Rh; [|apply (rel_err _ tk_pre)].
    assert (Hc : nth_error b 1 = Some (h_code h)). { destruct b as [|v [|d b]]; cbn in Rh; try discriminate. injection Rh as <- <-. reflexivity. }
    specialize (Hb _ Hc). cbn [In] in Hb.
    destruct (N.eqb_spec (h_code h) RC_GET_VERSION) as [K|_]; [exfalso; apply Hb; rewrite K; unfold RC_GET_VERSION; tauto|].
    destruct (N.eqb_spec (h_code h) RC_GET_CAPABILITIES) as [K|_]; [exfalso; apply Hb; rewrite K; unfold RC_GET_CAPABILITIES; tauto|].
    destruct (N.eqb_spec (h_code h) RC_NEGOTIATE_ALGORITHMS) as [K|_]; [exfalso; apply Hb; rewrite K; unfold RC_NEGOTIATE_ALGORITHMS; tauto|].
    destruct (N.eqb_spec (h_code h) RC_GET_DIGESTS) as [K|_]; [exfalso; apply Hb; rewrite K; unfold RC_GET_DIGESTS; tauto|].
    destruct (N.eqb_spec (h_code h) RC_GET_CERTIFICATE) as [K|_]; [exfalso; apply Hb; rewrite K; unfold RC_GET_CERTIFICATE; tauto|].
    destruct (N.eqb_spec (h_code h) RC_CHALLENGE) as [K|_]; [exfalso; apply Hb; rewrite K; unfold RC_CHALLENGE; tauto|].
    rl tk_pre; first [apply tk_measurement|apply tk_kx|apply tk_psk|apply tk_vendor|apply tk_plain_finish|apply tk_error].
  - unfold sret in H. replace x' with x by congruence. apply tk_pre.
  - unfold spanic in H. replace x' with x by congruence. apply tk_pre.
Qed.
