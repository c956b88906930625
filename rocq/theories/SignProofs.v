(** C33, C34, C53: signed strings, key-schedule strings, and the AES-128 key size. *)
From Coq Require Import Lia String.
From Verif Require Import Bytes BytesFacts Status Algo Crypto KeySchedule Session Signing Monad SpecSession SessionProofs.
Local Open Scope N_scope.

Lemma sig_context_spec op : sig_context op = spec_context op.
Proof. destruct op; reflexivity. Qed.
Lemma prefix_spec : SIGNING_PREFIX = spec_prefix.
Proof. reflexivity. Qed.
Lemma sig_context_len op : length (sig_context op) = 36%nat.
Proof. destruct op; reflexivity. Qed.
Lemma sig_context_inj op op' : sig_context op = sig_context op' -> op = op'.
Proof. destruct op, op'; intro H; try reflexivity; discriminate. Qed.
Lemma sign_input_ok v op h : 0x12 <= v -> len h <= 64 ->
  sign_input v op h = Ok (spec_prefix ++ spec_context op ++ h).
Proof.
  intros Hv Hh. unfold sign_input. destruct (v <? 0x12) eqn:E; [apply N.ltb_lt in E; lia|].
  rewrite !len_app. unfold len at 1 2. rewrite sig_context_len.
  change (length SIGNING_PREFIX) with 64%nat.
  destruct (MAX_12SIGN <? _) eqn:E2; [apply N.ltb_lt in E2; unfold MAX_12SIGN in E2; lia|].
  rewrite prefix_spec, sig_context_spec. reflexivity.
Qed.
Lemma sign_input_inj v v' op op' h h' m :
  sign_input v op h = Ok m -> sign_input v' op' h' = Ok m -> op = op' /\ h = h'.
Proof.
  unfold sign_input. intros H H'. destruct (v <? 0x12); [discriminate|]. destruct (v' <? 0x12); [discriminate|].
  destruct (MAX_12SIGN <? _); [discriminate|]. destruct (MAX_12SIGN <? _); [discriminate|].
  assert (X : SIGNING_PREFIX ++ sig_context op ++ h = SIGNING_PREFIX ++ sig_context op' ++ h') by congruence.
  apply app_inv_head in X. apply app_inj_len in X; [|rewrite !sig_context_len; reflexivity].
  destruct X as [X Y]. split; [apply sig_context_inj, X|exact Y].
Qed.
Lemma sign_input_old v op h : v < 0x12 -> sign_input v op h = Err ST_INVALID_STATE_LOCAL.
Proof. intro. unfold sign_input. apply N.ltb_lt in H. now rewrite H. Qed.

(** ** key schedule strings *)
Lemma labels_spec : map (fun x => x) [LBL_DERIVED; LBL_REQ_HS; LBL_RSP_HS; LBL_REQ_APP; LBL_RSP_APP; LBL_KEY; LBL_IV; LBL_FINISHED; LBL_EXP; LBL_UPD] = spec_labels.
Proof. reflexivity. Qed.
Lemma labels_prefix_free a b x y : In a spec_labels -> In b spec_labels -> a ++ x = b ++ y -> a = b /\ x = y.
Proof.
  intros Ha Hb H.
  assert (X : forallb (fun a => forallb (fun b => (bytes_eqb a b) ||
      negb (bytes_eqb (firstn (Nat.min (List.length a) (List.length b)) a) (firstn (Nat.min (List.length a) (List.length b)) b))) spec_labels) spec_labels = true) by reflexivity.
  rewrite forallb_forall in X. specialize (X a Ha). rewrite forallb_forall in X. specialize (X b Hb).
  apply Bool.orb_true_iff in X as [X|X].
  - apply bytes_eqb_eq in X. subst b. split; auto. eapply app_inv_head; eauto.
  - exfalso. apply Bool.negb_true_iff, bytes_eqb_neq in X. apply X.
    set (n := Nat.min _ _).
    assert (E : firstn n (a ++ x) = firstn n (b ++ y)) by congruence.
    rewrite !firstn_app in E.
    replace (n - List.length a)%nat with 0%nat in E by (unfold n; lia).
    replace (n - List.length b)%nat with 0%nat in E by (unfold n; lia).
    cbn [firstn] in E. now rewrite !app_nil_r in E.
Qed.
Lemma version_text_inj v v' : v < 256 -> v' < 256 -> version_text v = version_text v' -> v = v'.
Proof.
  intros Hv Hv' H. unfold version_text in H.
  assert (H1 : N.shiftr v 4 + c_0 = N.shiftr v' 4 + c_0) by congruence.
  assert (H2 : N.land v 0xF + c_0 = N.land v' 0xF + c_0) by congruence.
  rewrite !N.shiftr_div_pow2 in H1. change 0xF with (N.ones 4) in H2. rewrite !N.land_ones in H2.
  change (2 ^ 4) with 16 in *. unfold c_0 in *.
  rewrite (N.div_mod v 16), (N.div_mod v' 16) by discriminate. lia.
Qed.
Definition ctx_bytes (c : option bytes) : bytes := match c with Some b => b | None => [] end.
Lemma some_inj {A} (a b : A) : Some a = Some b -> a = b.
Proof. congruence. Qed.
Lemma binconcat_inj n n' v v' a b x y s :
  n < 65536 -> n' < 65536 -> v < 256 -> v' < 256 -> In a spec_labels -> In b spec_labels ->
  binconcat n v a x = Some s -> binconcat n' v' b y = Some s ->
  n = n' /\ v = v' /\ a = b /\ ctx_bytes x = ctx_bytes y.
Proof.
  intros Hn Hn' Hv Hv' Ha Hb H H'. unfold binconcat in *.
  destruct (_ <? _); [discriminate|]. destruct (_ <? _); [discriminate|].
  change (match x with Some c => c | None => [] end) with (ctx_bytes x) in H.
  change (match y with Some c => c | None => [] end) with (ctx_bytes y) in H'.
  pose proof (eq_trans H (eq_sym H')) as X. apply some_inj in X.
  apply app_inj_len in X; [|rewrite !le_bytes_length; reflexivity]. destruct X as [X1 X].
  apply app_inj_len in X; [|reflexivity]. destruct X as [X2 X].
  apply labels_prefix_free in X; auto. destruct X as [X3 X4].
  apply le_bytes_inj in X1; auto. apply version_text_inj in X2; auto.
Qed.
Lemma binconcat_fits n v a x : In a spec_labels -> len (ctx_bytes x) <= 64 -> binconcat n v a x <> None.
Proof.
  intros Ha Hx. unfold binconcat.
  replace (match x with Some c => len c | None => 0 end) with (len (ctx_bytes x)) by (destruct x; reflexivity).
  assert (len a <= 12).
  { assert (X : forallb (fun a => len a <=? 12) spec_labels = true) by reflexivity.
    rewrite forallb_forall in X. apply N.leb_le, X, Ha. }
  destruct (_ <? _) eqn:E; [|discriminate]. apply N.ltb_lt in E. unfold MAX_BIN_CONCAT in E. lia.
Qed.
Lemma binconcat_fails n v a x : binconcat n v a x = None <-> 76 < len a + len (ctx_bytes x).
Proof.
  unfold binconcat. replace (match x with Some c => len c | None => 0 end) with (len (ctx_bytes x)) by (destruct x; reflexivity).
  change (MAX_BIN_CONCAT - 2 - 8) with 76.
  destruct (_ <? _) eqn:E; [apply N.ltb_lt in E|apply N.ltb_ge in E]; split; try lia; try discriminate; auto.
Qed.

(** ** AES-128-GCM *)
Lemma derive_key_32 cr v hash aead sec k iv :
  expand_exact cr -> derive_aead_key_iv cr v hash aead sec = Ok (k, iv) -> len k = 32 /\ len iv = 12.
Proof.
  intros Hx H. unfold derive_aead_key_iv, expand in H.
  repeat match type of H with
  | obind (orc ?o) _ = Ok _ => let E := fresh "E" in destruct o eqn:E; cbn [obind orc] in H; [|discriminate]
  | obind (osz ?o) _ = Ok _ => let E := fresh "E" in destruct o eqn:E; cbn [obind osz] in H; [|discriminate]
  | obind (obind (orc ?o) _) _ = Ok _ => let E := fresh "E" in destruct o eqn:E; cbn [obind orc] in H; [|discriminate]
  end.
  repeat match goal with
  | E : cr_expand _ _ _ _ _ = Some _ |- _ => apply Hx in E
  end.
  repeat match goal with
  | E : sized _ _ = Some _ |- _ => unfold sized in E; destruct (_ || _) in E; [discriminate|]
  end.
  split; congruence.
Qed.
Lemma data_secret_keys cr v th s s' u :
  expand_exact cr -> generate_data_secret cr v th s = (Ok u, s') ->
  len (d_key (a_req_dir (s_app s'))) = 32 /\ len (d_key (a_rsp_dir (s_app s'))) = 32 /\ s_aead s' = s_aead s /\ s_state s' = s_state s.
Proof.
  intros Hx H. unfold generate_data_secret in H. st_inv H.
  repeat match goal with
  | E : derive_aead_key_iv _ _ _ _ _ = Ok ?k |- _ => destruct k; apply derive_key_32 in E; [|exact Hx]
  end.
  destruct s; destruct s_app; cbn in *. tauto.
Qed.
Lemma aes128_useless cr v th s s' u :
  expand_exact cr -> s_aead s = 1 -> s_state s <> SHandshaking ->
  generate_data_secret cr v th s = (Ok u, s') ->
  forall req app room w, fst (encode_secured cr req app room s') <> Ok w.
Proof.
  intros Hx Ha Hs H req app room w He. apply data_secret_keys in H as (K1 & K2 & K3 & K4); [|exact Hx].
  destruct (encode_secured cr req app room s') as [r s2] eqn:E. cbn in He. subst r.
  apply encode_secured_ok in E as (_ & E & _). apply encode_msg_ok in E as (tag & c & t & _ & _ & E & _).
  rewrite K3, Ha in E. cbn in E. rewrite get_dir_lane in E.
  assert (L : len (d_key (lane_dir (cur_lane req s') s')) = 32).
  { unfold cur_lane. destruct (s_state s') eqn:Es; destruct req; cbn; auto; exfalso; apply Hs; congruence. }
  rewrite L in E. discriminate.
Qed.
