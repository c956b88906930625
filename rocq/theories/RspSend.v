(** Sending, in general: what a relation must satisfy to hold across the responder's send
    functions, and the messages the encapsulated-request handlers build. *)
From Verif Require Import Bytes BytesFacts Status Codec Parse ParseProofs Algo Monad.
From Verif Require Import MsgConn MsgAuth MsgSession MsgOther Message Transport Crypto KeySchedule Session CertOps ChainVerify Context
  RspBase RspConn RspSess RspEncap Responder StRel RspFrame RspCalm RspOpcode.
From Coq Require Import Lia.
Local Open Scope N_scope.

Lemma rel_unwrap_bind {S A B} (R : S -> S -> Prop) (HR : preorder R) (o : option A) (k : A -> st S B) :
  (forall a, o = Some a -> rel R (k a)) -> rel R (sbind (sunwrap o) k).
Proof.
  intros H x r x' E. destruct o as [a|]; [exact (H a eq_refl x r x' E)|].
  replace x' with x by (unfold sbind, sunwrap, spanic in E; congruence). apply HR.
Qed.
(** the value a program returns, used under [rel] *)
Lemma rel_bind_val {A B} (R : ctx -> ctx -> Prop) (HR : preorder R) (I : ctx -> Prop) (m : st ctx A) (k : A -> st ctx B) Q :
  rel R m -> val I m Q -> (forall a, Q a -> rel R (k a)) ->
  forall x r x', I x -> sbind m k x = (r, x') -> R x x'.
Proof.
  intros Hm Hv Hk x r x' Hi H. unfold sbind in H. destruct (m x) as [[a| |] x1] eqn:Em.
  - eapply HR; [exact (Hm _ _ _ Em)|]. exact (Hk a (Hv _ _ _ Hi Em) _ _ _ H).
  - replace x' with x1 by congruence. exact (Hm _ _ _ Em).
  - replace x' with x1 by congruence. exact (Hm _ _ _ Em).
Qed.
Lemma rel_bind_any {A B} (R : ctx -> ctx -> Prop) (HR : preorder R) (m : st ctx A) (k : A -> st ctx B) Q :
  rel R m -> val anyc m Q -> (forall a, Q a -> rel R (k a)) -> rel R (sbind m k).
Proof. intros Hm Hv Hk x r x' H. exact (rel_bind_val R HR anyc m k Q Hm Hv Hk x r x' I H). Qed.

(** the device accepts or refuses a frame *)
Definition io_ok (R : ctx -> ctx -> Prop) : Prop := forall E b, rel R (io_send E b).
(** an ERROR message changes nothing once sent *)
Lemma after_error x : after_send RC_ERROR x = (Ok tt, x).
Proof. reflexivity. Qed.
Lemma after_secured_error id x : after_secured_send id RC_ERROR x = (Ok tt, x).
Proof. reflexivity. Qed.

Section send.
  Context (R : ctx -> ctx -> Prop) (HR : preorder R) (Hio : io_ok R) (E : env).
  Lemma rel_send_raw b : (forall op, opcode b = Some op -> rel R (after_send op)) -> rel R (send_raw E b).
  Proof using HR Hio.
    intro H. unfold send_raw. apply rel_bind; [exact HR|apply rel_of, HR|intro].
    apply rel_bind; [exact HR|apply Hio|intro]. now apply rel_unwrap_bind.
  Qed.
  Lemma rel_after_error : rel R (after_send RC_ERROR).
  Proof using HR. intros x r x' H. rewrite after_error in H. replace x' with x by congruence. apply HR. Qed.
  Lemma rel_send_message b : (forall op, opcode b = Some op -> rel R (after_send op)) -> rel R (send_message E b).
  Proof using HR Hio.
    intro H. unfold send_message. apply rel_bind; [exact HR|apply rel_get, HR|intro x].
    destruct (too_large x b); [|now apply rel_send_raw].
    apply rel_write_err_bind. intro v. destruct (too_large _ _); [apply rel_panic, HR|].
    apply rel_send_raw. intros op Hop. change (Some RC_ERROR = Some op) in Hop. replace op with RC_ERROR by congruence. apply rel_after_error.
  Qed.
  Lemma rel_after_sec_error id : rel R (after_secured_send id RC_ERROR).
  Proof using HR. intros x r x' H. rewrite after_secured_error in H. replace x' with x by congruence. apply HR. Qed.
  Lemma rel_encode_secured id b req app :
    (forall a, rel R (on_sess id (encode_secured (e_cr E) req a BUFFER_SIZE))) ->
    rel R (encode_secured_message E id b req app).
  Proof using HR.
    intro H. unfold encode_secured_message. apply rel_bind; [exact HR|apply rel_of, HR|intro a].
    apply rel_bind; [exact HR|apply rel_get, HR|intro x]. destruct (get_sess id x); [|apply rel_err, HR].
    apply rel_bind; [exact HR|apply H|intro]. apply rel_of, HR.
  Qed.
  Lemma rel_send_secured_raw id b app :
    (forall a, rel R (on_sess id (encode_secured (e_cr E) false a BUFFER_SIZE))) ->
    (forall op, opcode b = Some op -> rel R (after_secured_send id op)) -> rel R (send_secured_raw E id b app).
  Proof using HR Hio.
    intros He H. unfold send_secured_raw. apply rel_bind; [exact HR|now apply rel_encode_secured|intro].
    apply rel_bind; [exact HR|apply Hio|intro]. now apply rel_unwrap_bind.
  Qed.
  Lemma rel_send_secured id b app :
    (forall a, rel R (on_sess id (encode_secured (e_cr E) false a BUFFER_SIZE))) ->
    (forall op, opcode b = Some op -> rel R (after_secured_send id op)) -> rel R (send_secured_message E id b app).
  Proof using HR Hio.
    intros He H. unfold send_secured_message. apply rel_bind; [exact HR|apply rel_get, HR|intro x].
    destruct (negb app && too_large x b); [|now apply rel_send_secured_raw].
    apply rel_write_err_bind. intro v. destruct (too_large _ _); [apply rel_panic, HR|].
    apply rel_send_secured_raw; [exact He|]. intros op Hop. change (Some RC_ERROR = Some op) in Hop. replace op with RC_ERROR by congruence.
    apply rel_after_sec_error.
  Qed.
End send.

(** ** the replies of the encapsulated-request handlers *)
Definition wop (n : N) (w : bytes) : Prop := w = [] \/ rop n w.
Lemma rop_app n w t : rop n w -> rop n (w ++ t).
Proof. intros [H|H]; [left|right]; now apply opcode_app. Qed.
Lemma val_err_wop (J : ctx -> Prop) c d w n : wop n w -> val J (write_err_data c d w) (rop n).
Proof.
  intros [->|[O|O]]; [apply val_err_nil| |now apply val_err_app].
  apply (val_mono J _ (rop RC_ERROR)); [intros a [H|H]; left; exact H|]. now apply val_err_app.
Qed.
Lemma encap_check_wop E w n : wop n w -> val anyc (encap_check E w) (wop n).
Proof.
  intro W. unfold encap_check. vl1. vl1. vl1. vl1; [|vl1].
  - apply (val_mono anyc _ (rop n)); [intros; now right|]. now apply val_err_wop.
  - apply (val_mono anyc _ (rop n)); [intros; now right|]. now apply val_err_wop.
  - vl. exact W.
Qed.
Lemma val_wenc m w n : h_code (m_header m) = n -> wop n w -> val anyc (wenc m w) (fun r => rop n (snd r)).
Proof.
  intros Hc W x [b w'] x' _ H. unfold wenc in H. destruct (emit _ w) as [[b0 w0]|] eqn:F; [|discriminate].
  assert (w' = w0) as -> by congruence. cbn [snd]. destruct W as [->|W].
  - apply emit_opcode in F. right. congruence.
  - apply emit_prefix in F as [t ->]. now apply rop_app.
Qed.
Lemma val_wenc_app m w n : rop n w -> val anyc (wenc m w) (fun r => rop n (snd r)).
Proof.
  intros W x [b w'] x' _ H. unfold wenc in H. destruct (emit _ w) as [[b0 w0]|] eqn:F; [|discriminate].
  apply emit_prefix in F as [t ->]. assert (w' = w ++ t) as -> by congruence. now apply rop_app.
Qed.
Lemma op_encap_request b w : wop RC_ENCAP_REQUEST w -> val anyc (write_encap_request b w) (rop RC_ENCAP_REQUEST).
Proof.
  intro W. unfold write_encap_request, encap_version. vl1. vl1; [|now apply val_err_wop]. vl1.
  vl1; [now apply val_err_wop|]. vl1.
  apply (val_bind_r anyc _ _ (fun r => rop RC_ENCAP_REQUEST (snd r))); [apply steady_any|now apply val_wenc|].
  intros q Hq. vl1; [now apply val_err_wop; right|].
  apply (val_bind_r anyc _ _ (fun r => rop RC_ENCAP_REQUEST (snd r))); [apply steady_any|now apply val_wenc_app|].
  intros q' Hq'. vl1; [now apply val_ret|]. apply val_err_wop. now right.
Qed.
Lemma val_wput_app e w n : rop n w -> val anyc (wput e w) (fun r => rop n (snd r)).
Proof.
  intros W x [b w'] x' _ H. unfold wput in H. destruct (emit _ w) as [[b0 w0]|] eqn:F; [|discriminate].
  apply emit_prefix in F as [t ->]. assert (w' = w ++ t) as -> by congruence. now apply rop_app.
Qed.
Lemma val_encap_get_cert w n : rop n w -> val anyc (encap_get_cert w) (fun r => rop n (snd r)).
Proof. intro W. unfold encap_get_cert. vl1. vl1. vl1. now apply val_wenc_app. Qed.
Lemma val_wput_header v n w : wop n w -> val anyc (wput (enc_header (mkHeader v n)) w) (fun r => rop n (snd r)).
Proof.
  intros [->|W]; [|now apply val_wput_app]. intros x [b w'] x' _ H. right. unfold wput in H.
  change (emit (enc_header (mkHeader v n)) []) with (Some (true, [v; n])) in H.
  assert (w' = [v; n]) as -> by congruence. reflexivity.
Qed.
(** a failed step may leave the writer empty, a successful one does not *)
Definition pop (n : N) (r : bool * bytes) : Prop := wop n (snd r) /\ (fst r = true -> rop n (snd r)).
Lemma pop_rop n r : rop n (snd r) -> pop n r.
Proof. intro H. split; [now right|auto]. Qed.
Lemma pop_fail n w : wop n w -> pop n (false, w).
Proof. intro H. split; [exact H|discriminate]. Qed.
Lemma op_process_encap E a b w : wop RC_ENCAP_RESPONSE_ACK w ->
  val anyc (process_encap E a b w) (pop RC_ENCAP_RESPONSE_ACK).
Proof.
  intro W. unfold process_encap, encap_fail.
  vl1. vl1; [|now apply val_ret, pop_fail]. vl1. vl1; [now apply val_ret, pop_fail|].
  apply (val_bind_r anyc _ _ (fun r => rop RC_ENCAP_RESPONSE_ACK (snd r))); [apply steady_any|now apply val_wput_header|].
  intros q Hq. cbv zeta.
  apply (val_mono anyc _ (fun r => rop RC_ENCAP_RESPONSE_ACK (snd r))); [apply pop_rop|].
  vl1; [|vl1].
  - vl1. vl1; [|now apply val_ret].
    apply (val_bind_r anyc _ _ (fun r => rop RC_ENCAP_RESPONSE_ACK (snd r))); [apply steady_any|vl1; now apply val_wput_app|].
    intros u Hu. now apply val_encap_get_cert.
  - vl1. vl1; [vl1|now apply val_ret|vl1].
    + apply (val_bind_r anyc _ _ (fun r => rop RC_ENCAP_RESPONSE_ACK (snd r))); [apply steady_any|vl1; now apply val_wput_app|].
      intros u Hu. vl1; [now apply val_encap_get_cert|now apply val_ret].
    + apply (val_bind_r anyc _ _ (fun r => rop RC_ENCAP_RESPONSE_ACK (snd r))); [apply steady_any|vl1; now apply val_wput_app|].
      intros u Hu. vl1; [vl1; now apply val_wput_app|now apply val_ret].
  - now apply val_ret.
Qed.
Lemma op_encap_ack E b w : wop RC_ENCAP_RESPONSE_ACK w -> val anyc (write_encap_ack E b w) (rop RC_ENCAP_RESPONSE_ACK).
Proof.
  intro W. unfold write_encap_ack, encap_version. vl1. vl1; [|now apply val_err_wop]. vl1.
  vl1; [now apply val_err_wop|]. vl1. vl1; [|now apply val_err_wop]. vl1.
  apply (val_bind_r anyc _ _ (pop RC_ENCAP_RESPONSE_ACK)); [apply steady_any|now apply op_process_encap|].
  intros [[|] w'] [Hq1 Hq2]; cbn [fst snd] in *.
  - apply val_ret. now apply Hq2.
  - now apply val_err_wop.
Qed.
