(** What happens to a secured frame once it is decrypted. *)
From Verif Require Import Bytes BytesFacts Status Codec Parse ParseProofs Algo Monad.
From Verif Require Import MsgConn MsgAuth MsgSession MsgOther Message Opaque Transport Crypto KeySchedule Session Signing CertOps ChainVerify Context
  RspBase RspConn RspSess RspEncap Responder StRel RspFrame RspCalm RspOpcode RspSend SpecResponder SpecFinish RspPhase RspPass RspSlots RspSize RspTable RspIso RspEst.
From Coq Require Import List Lia.
Local Open Scope N_scope.

Lemma get_sess_id id x s : get_sess id x = Some s -> s_id s = id.
Proof. unfold get_sess, find_sess. intro H. apply find_some in H. apply N.eqb_eq, H. Qed.
Lemma names_read b id : names_session b id -> read_session_id b = Some id.
Proof. intros [A ->]. unfold read_session_id. rewrite (proj2 (N.ltb_ge _ _)) by exact A. reflexivity. Qed.
Lemma frame_delivered E f x id m app s : delivered E f x id m app -> get_sess id x = Some s ->
  exists s1, skey s1 = skey s /\ get_sess id (mod_sess id (fun _ => s1) x) = Some s1 /\ calm (Some id) x (mod_sess id (fun _ => s1) x) /\
    process_frame E f x = is_ok (if app then dispatch_app E id m else dispatch_secured E id m) (mod_sess id (fun _ => s1) x).
Proof.
  intros (b & s0 & a & s1 & H1 & H2 & H3 & H4 & H5) G. assert (s0 = s) as -> by congruence. exists s1.
  pose proof (skeep_decode _ _ _ _ _ _ _ H4) as K. split; [exact K|]. pose proof (get_sess_id _ _ _ G) as I.
  assert (I1 : s_id s1 = id) by (unfold skey in K; congruence).
  split; [apply (get_sess_upd id s (fun _ => s1)); [exact G|exact I1]|].
  assert (OS : on_sess id (decode_secured (e_cr E) true b BUFFER_SIZE) x = (Ok a, mod_sess id (fun _ => s1) x)) by (unfold on_sess; rewrite G, H4; reflexivity).
  split; [exact (calm_on_sess id _ (skeep_decode _ _ _ _) _ _ _ OS)|].
  unfold process_frame, secured_message in *. destruct (tr_decap _ _ f) as [[c [|]]| |]; try discriminate. assert (c = b) as -> by congruence.
  unfold process_secured. rewrite (names_read _ _ H2). unfold sbind, sget. rewrite G. unfold scatch. rewrite OS. rewrite H5. destruct app; reflexivity.
Qed.
(** frames for a session that does not exist change nothing *)
Lemma frame_unknown E f x b id : secured_message E f = Some b -> names_session b id -> get_sess id x = None -> process_frame E f x = (Ok None, x).
Proof.
  intros H1 H2 G. unfold process_frame, secured_message in *. destruct (tr_decap _ _ f) as [[c [|]]| |]; try discriminate. assert (c = b) as -> by congruence.
  unfold process_secured. rewrite (names_read _ _ H2). unfold sbind, sget. rewrite G. reflexivity.
Qed.

(** ** ERROR replies inside a session *)
Definition error_reply (b : bytes) (v code : N) : bytes :=
  match b with
  | h :: c :: _ => if h =? v then error_message v code (if code =? 7 then c else 0) else error_message v 0x41 0
  | _ => error_message v 1 0
  end.
Lemma error_response_ok code b x : write_error_response code b x = (Ok (error_reply b (ver x) code), x).
Proof.
  unfold write_error_response, sbind at 1, sget at 1. unfold read_header. destruct b as [|h [|c b]]; [apply write_err_nil|apply write_err_nil|].
  change (dec_header (h :: c :: b)) with (POk (mkHeader h c) b). cbv beta iota. cbn [h_version h_code error_reply].
  destruct (h =? ver x); cbn [negb]; [|apply write_err_nil]. rewrite write_err_nil. reflexivity.
Qed.
Lemma error_reply_shape b v code : exists c d, error_reply b v code = error_message v c d.
Proof. unfold error_reply. destruct b as [|h [|c b]]; [eauto|eauto|]. destruct (h =? v); eauto. Qed.
Lemma calm_ver sid x x' : calm sid x x' -> ver x' = ver x.
Proof. intros [K _]. unfold outline, ver in *. congruence. Qed.
Lemma sent_io n x : x_sent (set_x_io n x) = x_sent x. Proof. reflexivity. Qed.
Lemma sent_set l x : x_sent (set_x_sent l x) = l. Proof. reflexivity. Qed.
Lemma send_secured_error E id v c d x r x' : send_secured_message E id (error_message v c d) false x = (r, x') ->
  calm (Some id) x x' /\ (x_sent x' = x_sent x \/ (exists t, x_sent x' = t :: x_sent x /\ carries E t (error_message v c d) false)) /\
  (r = Ok tt -> x_sent x' <> x_sent x).
Proof.
  intro H. split; [refine (calm_send_secured E id _ RC_ERROR false _ _ _ _ _ H); [tm|left; reflexivity]|].
  unfold send_secured_message in H. unfold sbind at 1, sget at 1 in H. cbn [negb andb] in H. destruct (too_large x _) eqn:TL.
  { unfold sbind, write_err in H. rewrite write_err_nil in H. replace (too_large x (error_bytes _ _ _)) with true in H by (symmetry; exact TL).
    unfold spanic in H. assert (x' = x) as -> by congruence. split; [now left|]. intro K. congruence. }
  unfold send_secured_raw in H. unfold sbind at 1 in H. destruct (encode_secured_message E id _ false false x) as [[t| |] y] eqn:EC;
    pose proof (says_encode E id _ false false _ _ _ EC) as (_ & l & L1 & L2); assert (Q : x_sent y = x_sent x)
      by (unfold encode_secured_message, sbind, sof, sget in EC; clear -EC;
          destruct (tr_encap_app _ _ _ _); [|congruence|congruence]; destruct (get_sess id x); [|unfold serr in EC; congruence];
          destruct (on_sess id _ x) as [o z] eqn:OS; pose proof (proj1 (quiet_on_sess _ _ _ _ _ OS)); destruct o;
          [destruct (tr_encap _ _ _ _); unfold sof, sret, serr, spanic in EC|..]; congruence).
  2,3: assert (x' = y) as -> by congruence; split; [left; exact Q|intro; congruence].
  unfold sbind at 1, io_send in H. destruct (e_send E (x_io y) t); cbv beta iota in H.
  - assert (x' = set_x_io (x_io y + 1) y) as -> by congruence. split; [left; exact Q|intro; congruence].
  - assert (K : x' = set_x_sent (t :: x_sent y) (set_x_io (x_io y + 1) y)).
    { unfold sbind, sunwrap, sret, opcode in H. cbn [nth_error error_message] in H. rewrite after_secured_error, sent_io in H. congruence. }
    assert (S : x_sent x' = t :: x_sent x) by (rewrite K, sent_set; congruence). clear K. split.
    + right. exists t. split; [exact S|]. econstructor; exact EC.
    + intros _ Z. rewrite S in Z. apply (f_equal (@length bytes)) in Z. cbn in Z. lia.
Qed.
