(** What a secured request that is not served does. *)
From Verif Require Import Bytes BytesFacts Status Codec Parse ParseProofs Algo Monad.
From Verif Require Import MsgConn MsgAuth MsgSession MsgOther Message Opaque Transport Crypto KeySchedule Session Signing CertOps ChainVerify Context SpecSession SessionProofs NonceProofs
  RspBase RspConn RspSess RspEncap Responder StRel RspFrame RspCalm RspOpcode RspSend SpecResponder SpecFinish RspPhase RspPass RspSlots RspSize RspTable RspIso RspEst RspDeliver PropPhase.
From Coq Require Import List Lia.
Local Open Scope N_scope.

Lemma counters_pre id : preorder (only_counters id).
Proof.
  split; [intro x; split; [reflexivity|apply RspIso.Forall2_refl; auto]|].
  intros x y z [A1 A2] [B1 B2]. split; [congruence|]. revert A2 B2.
  assert (I : map s_id (x_sess y) = map s_id (x_sess x)).
  { apply (f_equal x_sess) in A1. cbn in A1. apply (f_equal (map s_id)) in A1. rewrite !map_map in A1. exact A1. }
  revert I. generalize (x_sess x) (x_sess y) (x_sess z). intros l m n I A B. revert n B I.
  induction A as [|s t l m P A IH]; intros n B I; inversion B as [|? u ? n' Q B']; subst; constructor.
  - cbn in I. injection I as I1 I2. destruct P as [->|P]; [|auto]. destruct Q as [->|Q]; [auto|right; congruence].
  - apply IH; [exact B'|]. cbn in I. now injection I.
Qed.
Lemma upd_without_seq id s s1 l : find_sess id l = Some s -> without_seq s1 = without_seq s -> map without_seq (upd_sess id (fun _ => s1) l) = map without_seq l.
Proof.
  intros G M. induction l as [|t l IH]; [reflexivity|]. cbn in G |- *. destruct (s_id t =? id); cbn; [|f_equal; now apply IH].
  replace t with s by congruence. now rewrite M.
Qed.
Lemma without_mod id f x : without_counters (mod_sess id f x) = set_x_sent [] (set_x_io 0 (set_x_sess (map without_seq (upd_sess id f (x_sess x))) x)).
Proof. reflexivity. Qed.
Lemma counters_on_sess {A} id (m : st session A) : (forall s r s', m s = (r, s') -> without_seq s' = without_seq s) -> rel (only_counters id) (on_sess id m).
Proof.
  intros H x r x' E. unfold on_sess, get_sess in E. destruct (find_sess id (x_sess x)) as [s|] eqn:G.
  2:{ replace x' with x by congruence. apply counters_pre. }
  destruct (m s) as [r1 s1] eqn:M. replace x' with (mod_sess id (fun _ => s1) x) by congruence. apply H in M. split.
  - rewrite without_mod, (upd_without_seq id s s1) by assumption. reflexivity.
  - unfold mod_sess. cbn. pose proof (others_upd id (fun _ => s1) (x_sess x)) as K. clear -K. induction K; constructor; auto. destruct H; [auto|right; congruence].
Qed.
Lemma without_seq_lane l n s : without_seq (let d := lane_dir l s in with_lane l (mkDir (d_key d) (d_salt d) n) s) = without_seq s.
Proof. destruct l; reflexivity. Qed.
Lemma seq_decode cr req b n s r s' : decode_secured cr req b n s = (r, s') -> without_seq s' = without_seq s.
Proof. intro H. apply decode_cases in H as [->|[_ ->]]; [reflexivity|apply without_seq_lane]. Qed.
Lemma seq_encode cr req b n s r s' : encode_secured cr req b n s = (r, s') -> without_seq s' = without_seq s.
Proof. intro H. apply encode_cases in H as [->|[_ ->]]; [reflexivity|apply without_seq_lane]. Qed.
Lemma counters_encode E id b req app : rel (only_counters id) (encode_secured_message E id b req app).
Proof.
  unfold encode_secured_message. rl (counters_pre id). apply counters_on_sess. intros ? ? ?. apply seq_encode.
Qed.
Lemma counters_io E id t : rel (only_counters id) (io_send E t).
Proof.
  intros x r x' H. unfold io_send in H. destruct (e_send E (x_io x) t); match type of H with (_, ?y) = _ => replace x' with y by congruence end;
    (split; [reflexivity|apply RspIso.Forall2_refl; auto]).
Qed.
Lemma counters_send_error E id v c d : rel (only_counters id) (send_secured_message E id (error_message v c d) false).
Proof.
  intros x r x' H. unfold send_secured_message in H. unfold sbind at 1, sget at 1 in H. cbn [negb andb] in H. destruct (too_large x _) eqn:TL.
  { unfold sbind, write_err in H. rewrite write_err_nil in H. replace (too_large x (error_bytes _ _ _)) with true in H by (symmetry; exact TL).
    unfold spanic in H. replace x' with x by congruence. apply counters_pre. }
  revert x r x' H TL. intros x r x' H _. revert x r x' H. change (rel (only_counters id) (send_secured_raw E id (error_message v c d) false)).
  unfold send_secured_raw. apply (rel_bind (only_counters id) (counters_pre id)); [apply counters_encode|]. intro t.
  apply (rel_bind (only_counters id) (counters_pre id)); [apply counters_io|]. intros [].
  change (sunwrap (opcode (error_message v c d))) with (@sret ctx N RC_ERROR). intros x r x' H. unfold sbind, sret in H.
  rewrite after_secured_error in H. replace x' with x by congruence. apply counters_pre.
Qed.

Definition refused (E : env) (id : N) (x : ctx) (o : option bytes) (r : outcome unit) (x' : ctx) : Prop :=
  only_counters id x x' /\
  match o with
  | None => x_sent x' = x_sent x
  | Some e => (x_sent x' = x_sent x \/ exists t, x_sent x' = t :: x_sent x /\ carries E t e false) /\ (r = Ok tt -> x_sent x' <> x_sent x)
  end.
Lemma refused_error E id code h c m x r x' e :
  e = (if negb (h =? ver x) then error_message (ver x) 0x41 0 else error_message (ver x) code (if code =? 7 then c else 0)) ->
  handle_error_request E code (Some id) (h :: c :: m) x = (r, x') -> refused E id x (Some e) r x'.
Proof.
  intros He H. unfold handle_error_request in H. unfold sbind at 1 in H. rewrite error_response_ok in H. cbv beta iota in H. unfold send_on in H.
  assert (Q : error_reply (h :: c :: m) (ver x) code = e) by (subst e; unfold error_reply; destruct (h =? ver x); reflexivity).
  destruct (error_reply_shape (h :: c :: m) (ver x) code) as (c1 & d1 & Sh). rewrite Sh in H. rewrite Q in Sh. subst e. rewrite Sh. split; [exact (counters_send_error _ _ _ _ _ _ _ _ H)|].
  exact (proj2 (send_secured_error _ _ _ _ _ _ _ _ H)).
Qed.
Lemma refused_none E id x : forall e, refused E id x None (Err e) x.
Proof. intro e. split; [apply counters_pre|reflexivity]. Qed.
Lemma read_two h c m : read_header (h :: c :: m) = Some (mkHeader h c, m). Proof. reflexivity. Qed.
Lemma dispatch_refuses E id h c m x s r x' : get_sess id x = Some s -> serves E x s (h :: c :: m) = false ->
  (s_state s = SHandshaking -> in_clear (xc x) = false) -> s_state s = SHandshaking \/ s_state s = SEstablished ->
  dispatch_secured E id (h :: c :: m) x = (r, x') -> refused E id x (refusal (ver x) (h :: c :: m)) r x'.
Proof.
  intros G Hs Hc Hst H. unfold dispatch_secured in H. unfold sbind at 1, sget at 1 in H. rewrite G in H.
  unfold serves in Hs. cbn [request_code nth_error] in Hs.
  destruct Hst as [St|St]; rewrite St in *; cbn [session_serves] in Hs.
  - rewrite (Hc eq_refl) in Hs. cbn [andb negb] in Hs. rewrite Bool.andb_true_r in Hs. apply Bool.orb_false_iff in Hs as [H1 H2].
    cbn [existsb] in H1. repeat rewrite Bool.orb_false_iff in H1. destruct H1 as (H11 & H12 & H13 & _).
    unfold dispatch_handshaking in H. unfold sbind at 1, sget at 1 in H. rewrite (Hc eq_refl), read_two in H. cbv zeta in H. cbn [h_code] in H.
    assert (K1 : e_mut_auth E && (c =? RC_GET_ENCAP) = false).
    { destruct (e_mut_auth E); [|reflexivity]. cbn [andb existsb] in H2 |- *. repeat rewrite Bool.orb_false_iff in H2. apply H2. }
    assert (K2 : e_mut_auth E && (c =? RC_DELIVER_ENCAP) = false).
    { destruct (e_mut_auth E); [|reflexivity]. cbn [andb existsb] in H2 |- *. repeat rewrite Bool.orb_false_iff in H2. apply H2. }
    rewrite K1, K2 in H. clear K1 K2. change (c =? RC_FINISH) with (c =? 0xE5) in H. change (c =? RC_PSK_FINISH) with (c =? 0xE7) in H. change (c =? RC_VENDOR_REQ) with (c =? 0xFE) in H.
    rewrite H11, H12, H13 in H. unfold refusal.
    destruct (is_one_of c _) eqn:One in H.
    + assert (K : existsb (N.eqb c) [0x81; 0x82; 0x83; 0x84; 0xE0; 0xE1; 0xE3; 0xE4; 0xE5; 0xE6; 0xE7; 0xE8; 0xE9; 0xEC; 0xFF] = true /\ c <> 0xFF).
      { unfold is_one_of in One. apply existsb_exists in One as (q & Hq & Eq). apply N.eqb_eq in Eq as <-. cbn in Hq. split.
        - apply existsb_exists. exists c. split; [|apply N.eqb_refl]. cbn. intuition.
        - intros ->. repeat (destruct Hq as [Hq|Hq]; [discriminate|]). exact Hq. }
      destruct K as [K1 K2]. rewrite K1, (proj2 (N.eqb_neq _ _) K2). exact (refused_error E id _ h c m x r x' _ eq_refl H).
    + destruct (N.eqb_spec c 0xFF) as [->|NF].
      * exact (refused_error E id _ h 0xFF m x r x' _ eq_refl H).
      * change (c =? RC_RESPOND_IF_READY) with (c =? 0xFF) in H. rewrite (proj2 (N.eqb_neq _ _) NF) in H.
        assert (K : existsb (N.eqb c) [0x81; 0x82; 0x83; 0x84; 0xE0; 0xE1; 0xE3; 0xE4; 0xE5; 0xE6; 0xE7; 0xE8; 0xE9; 0xEC; 0xFF] = false).
        { unfold is_one_of in One. cbn [existsb] in One |- *. repeat rewrite Bool.orb_false_iff in One. repeat rewrite Bool.orb_false_iff.
          pose proof (proj2 (N.eqb_neq _ _) NF). intuition. }
        rewrite K. unfold serr in H. replace x' with x by congruence. replace r with (@Err unit ST_UNSUPPORTED_CAP) by congruence. apply refused_none.
  - rewrite Bool.andb_false_r in Hs. cbn [negb] in Hs. rewrite Bool.andb_true_r in Hs. cbn [existsb] in Hs. repeat rewrite Bool.orb_false_iff in Hs.
    destruct Hs as (H1 & H2 & H3 & H4 & H5 & H6 & H7 & _).
    unfold dispatch_established in H. rewrite read_two in H. cbv zeta in H. cbn [h_code] in H.
    change (c =? RC_GET_DIGESTS) with (c =? 0x81) in H. change (c =? RC_GET_CERTIFICATE) with (c =? 0x82) in H.
    change (c =? RC_GET_MEASUREMENTS) with (c =? 0xE0) in H. change (c =? RC_HEARTBEAT) with (c =? 0xE8) in H.
    change (c =? RC_KEY_UPDATE) with (c =? 0xE9) in H. change (c =? RC_END_SESSION) with (c =? 0xEC) in H. change (c =? RC_VENDOR_REQ) with (c =? 0xFE) in H.
    rewrite H1, H2, H3, H4, H5, H6, H7 in H. unfold refusal.
    destruct (is_one_of c _) eqn:One in H.
    + assert (K : existsb (N.eqb c) [0x81; 0x82; 0x83; 0x84; 0xE0; 0xE1; 0xE3; 0xE4; 0xE5; 0xE6; 0xE7; 0xE8; 0xE9; 0xEC; 0xFF] = true /\ c <> 0xFF).
      { unfold is_one_of in One. apply existsb_exists in One as (q & Hq & Eq). apply N.eqb_eq in Eq as <-. cbn in Hq. split.
        - apply existsb_exists. exists c. split; [|apply N.eqb_refl]. cbn. intuition.
        - intros ->. repeat (destruct Hq as [Hq|Hq]; [discriminate|]). exact Hq. }
      destruct K as [K1 K2]. rewrite K1, (proj2 (N.eqb_neq _ _) K2). exact (refused_error E id _ h c m x r x' _ eq_refl H).
    + destruct (N.eqb_spec c 0xFF) as [->|NF].
      * exact (refused_error E id _ h 0xFF m x r x' _ eq_refl H).
      * change (c =? RC_RESPOND_IF_READY) with (c =? 0xFF) in H. rewrite (proj2 (N.eqb_neq _ _) NF) in H.
        assert (K : existsb (N.eqb c) [0x81; 0x82; 0x83; 0x84; 0xE0; 0xE1; 0xE3; 0xE4; 0xE5; 0xE6; 0xE7; 0xE8; 0xE9; 0xEC; 0xFF] = false).
        { unfold is_one_of in One. cbn [existsb] in One |- *. repeat rewrite Bool.orb_false_iff in One. repeat rewrite Bool.orb_false_iff.
          pose proof (proj2 (N.eqb_neq _ _) NF). intuition. }
        rewrite K. unfold serr in H. replace x' with x by congruence. replace r with (@Err unit ST_UNSUPPORTED_CAP) by congruence. apply refused_none.
Qed.
