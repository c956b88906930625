(** Proofs about common/session.rs (C26-C29, C31, C33, C34, C53-C55). *)
From Coq Require Import Lia.
From Verif Require Import Bytes BytesFacts Codec CodecProofs Parse ParseProofs MsgRound2 Status Algo Crypto KeySchedule Session Signing Monad SpecSession.
Local Open Scope N_scope.

(** ** nonces *)
Lemma xor_bytes_low a b : xor_bytes a b = xor_low a b.
Proof. revert b; induction a as [|x a IH]; intros [|y b]; cbn; try reflexivity; now rewrite IH. Qed.
Lemma nonce_wire salt seq : nonce_of salt seq = wire_nonce salt seq.
Proof. apply xor_bytes_low. Qed.
Lemma xor_low_length a b : length (xor_low a b) = length a.
Proof. revert b; induction a as [|x a IH]; intros [|y b]; cbn; auto. Qed.
Lemma xor_low_inj iv a b : (length a = length b)%nat -> (length a <= length iv)%nat ->
  xor_low iv a = xor_low iv b -> a = b.
Proof.
  revert a b; induction iv as [|x iv IH]; intros [|y a] [|z b] Hl Hle; cbn in *; auto; try lia.
  intro H. assert (N.lxor x y = N.lxor x z /\ xor_low iv a = xor_low iv b) as [H1 H2] by (split; congruence).
  f_equal.
  - assert (N.lxor x (N.lxor x y) = N.lxor x (N.lxor x z)) as H3 by congruence.
    rewrite <- !N.lxor_assoc, N.lxor_nilpotent, !N.lxor_0_l in H3. exact H3.
  - apply IH; auto; lia.
Qed.
Lemma wire_nonce_inj iv a b : (8 <= length iv)%nat -> a < 2 ^ 64 -> b < 2 ^ 64 ->
  wire_nonce iv a = wire_nonce iv b -> a = b.
Proof.
  intros Hl Ha Hb H. apply xor_low_inj in H; rewrite ?le_bytes_length; auto.
  apply (le_bytes_inj 8); auto.
Qed.
Lemma wire_nonce_length iv a : length (wire_nonce iv a) = length iv.
Proof. apply xor_low_length. Qed.

(** ** lanes *)
Lemma get_dir_lane req s : get_dir req s = lane_dir (cur_lane req s) s.
Proof. unfold get_dir, cur_lane. destruct (s_state s), req; reflexivity. Qed.
Lemma lane_eq_dec (a b : lane) : {a = b} + {a <> b}.
Proof. decide equality. Defined.
Lemma lane_set_dir req d s l :
  lane_dir l (set_dir req d s) = if lane_eq_dec l (cur_lane req s) then d else lane_dir l s.
Proof.
  unfold set_dir, cur_lane. destruct s; cbn. destruct s_state, req, l; cbn; reflexivity.
Qed.
Lemma set_dir_frame req d s :
  s_id (set_dir req d s) = s_id s /\ s_aead (set_dir req d s) = s_aead s /\
  s_seq_count (set_dir req d s) = s_seq_count s /\ s_state (set_dir req d s) = s_state s /\
  s_backup (set_dir req d s) = s_backup s.
Proof. unfold set_dir. destruct s; cbn. destruct s_state, req; cbn; auto. Qed.
Lemma cur_set_dir req r d s : cur_lane r (set_dir req d s) = cur_lane r s.
Proof. unfold cur_lane. destruct (set_dir_frame req d s) as (_ & _ & _ & -> & _). reflexivity. Qed.
Lemma lane_cur_set_dir req d s : lane_dir (cur_lane req (set_dir req d s)) (set_dir req d s) = d.
Proof. rewrite cur_set_dir, lane_set_dir. destruct (lane_eq_dec _ _); congruence. Qed.
Lemma in_lanes l : In l lanes.
Proof. destruct l; cbn; tauto. Qed.

(** ** encoding *)
Lemma encode_msg_ok cr s d app room w :
  encode_msg cr s d app room = Ok w ->
  exists tag c t,
    aead_tag_size (s_aead s) = Some tag /\ aead_iv_size (s_aead s) = Some (len (d_salt d)) /\
    aead_key_size (s_aead s) = Some (len (d_key d)) /\
    d_seq d <> U64_MAX /\ s_seq_count s <= 8 /\ len app + 2 <= BUFFER_SIZE /\
    cr_seal cr (s_aead s) (d_key d) (wire_nonce (d_salt d) (d_seq d))
       (wire_header (s_id s) (N.to_nat (s_seq_count s)) (d_seq d) (len app) tag) (wire_plain app) = Some (c, t) /\
    len c = len app + 2 /\ len t = tag /\ 6 + s_seq_count s + len app + 2 + tag <= room /\
    w = wire_header (s_id s) (N.to_nat (s_seq_count s)) (d_seq d) (len app) tag ++ c ++ t.
Proof.
  unfold encode_msg. intro H. destruct (aead_tag_size (s_aead s)) as [tag|] eqn:Et; [|discriminate].
  destruct (65535 <? _) eqn:E1; [discriminate|]. destruct (d_seq d =? U64_MAX) eqn:E2; [discriminate|].
  destruct (8 <? _) eqn:E3; [discriminate|].
  destruct (BUFFER_SIZE <? len app + 2) eqn:E4; [discriminate|]. cbn [orb] in H.
  assert (Hb : len app + 2 <= 4160) by (unfold BUFFER_SIZE in E4; apply N.ltb_ge in E4; exact E4).
  rewrite (N.mod_small (len app + 2)) in * by lia. rewrite (N.mod_small (len app)) in H by lia.
  assert (Hh : le_bytes 4 (s_id s) ++ le_bytes (N.to_nat (s_seq_count s)) (d_seq d) ++ le_bytes 2 (len app + 2 + tag)
     = wire_header (s_id s) (N.to_nat (s_seq_count s)) (d_seq d) (len app) tag).
  { unfold wire_header. do 3 f_equal. lia. }
  rewrite Hh in H. destruct (room <? _) eqn:E5; [discriminate|].
  rewrite nonce_wire in H. fold (wire_plain app) in H.
  unfold aead_encrypt in H. rewrite Et in H.
  destruct (aead_key_size (s_aead s)) as [ks|] eqn:Ek; [|discriminate].
  destruct (aead_iv_size (s_aead s)) as [ivs|] eqn:Ei; [|discriminate].
  destruct (len (d_key d) =? ks) eqn:E6; [|discriminate]. cbn [negb] in H.
  destruct (len (wire_nonce _ _) =? ivs) eqn:E7; [|discriminate]. cbn [negb] in H.
  rewrite N.eqb_refl in H. cbn [negb] in H.
  destruct (cr_seal _ _ _ _ _ _) as [[c t]|] eqn:Es; [|discriminate].
  destruct ((len c =? _) && _) eqn:E8; [|discriminate]. apply andb_prop in E8 as [E8 E9].
  apply N.eqb_eq in E6, E7, E8, E9. apply N.eqb_neq in E2. apply N.ltb_ge in E3, E5.
  cbn [obind fst snd] in H. exists tag, c, t.
  unfold len in E7. rewrite wire_nonce_length in E7. fold (len (d_salt d)) in E7.
  assert (Hl : len (wire_header (s_id s) (N.to_nat (s_seq_count s)) (d_seq d) (len app) tag) = 6 + s_seq_count s).
  { unfold wire_header. rewrite !len_app. unfold len. rewrite !le_bytes_length. lia. }
  rewrite Hl in E5.
  assert (Hp : len (wire_plain app) = len app + 2).
  { unfold wire_plain. rewrite len_app. unfold len at 1. rewrite le_bytes_length. lia. }
  repeat split; auto; try congruence; try lia; try (unfold BUFFER_SIZE; lia).
Qed.

Lemma bump_eq req s s' : bump req s = Some s' ->
  d_seq (get_dir req s) <> U64_MAX /\
  s' = set_dir req (set_d_seq (d_seq (get_dir req s) + 1) (get_dir req s)) s.
Proof.
  unfold bump. destruct (_ =? _) eqn:E; [discriminate|]. apply N.eqb_neq in E. intro H.
  split; congruence.
Qed.
Lemma encode_secured_ok cr req app room s w s' :
  encode_secured cr req app room s = (Ok w, s') ->
  live s /\ encode_msg cr s (get_dir req s) app room = Ok w /\
  s' = set_dir req (set_d_seq (d_seq (get_dir req s) + 1) (get_dir req s)) s.
Proof.
  unfold encode_secured, live. intro H.
  destruct (s_state s) eqn:Es; try discriminate;
  (destruct (encode_msg _ _ _ _ _) as [w0|e0|] eqn:E; [| |discriminate];
   destruct (bump req s) as [s1|] eqn:Eb; try discriminate; apply bump_eq in Eb as [_ Eb];
   repeat split; auto; congruence).
Qed.

(** ** decoding *)
Lemma check_seq_honest n : forall i seq rest, i + N.of_nat n <= 8 ->
  check_seq n i seq (le_bytes n (seq / 2 ^ (8 * i)) ++ rest) = POk tt rest.
Proof.
  induction n as [|n IH]; intros i seq rest Hi; [reflexivity|].
  cbn [le_bytes check_seq app].
  destruct (8 <=? i) eqn:E; [apply N.leb_le in E; lia|]. rewrite N.eqb_refl.
  replace (seq / 2 ^ (8 * i) / 256) with (seq / 2 ^ (8 * (i + 1))).
  - apply IH. lia.
  - rewrite N.div_div by (try apply N.pow_nonzero; lia). f_equal.
    replace (8 * (i + 1)) with (8 * i + 8) by lia. rewrite N.pow_add_r. reflexivity.
Qed.
Lemma check_seq_honest0 n seq rest : N.of_nat n <= 8 -> check_seq n 0 seq (le_bytes n seq ++ rest) = POk tt rest.
Proof. intro H. rewrite <- (check_seq_honest n 0 seq rest) by lia. do 3 f_equal. cbn. now rewrite N.div_1_r. Qed.
(** an accepted sequence field consists of the low bytes of the counter *)
Lemma check_seq_inv n : forall i seq l l', check_seq n i seq l = POk tt l' ->
  l = le_bytes n (seq / 2 ^ (8 * i)) ++ l'.
Proof.
  induction n as [|n IH]; intros i seq l l' H; cbn [check_seq] in H; [cbn; congruence|].
  destruct l as [|b l]; [discriminate|]. destruct (8 <=? i); [discriminate|].
  destruct (b =? _) eqn:E; [|discriminate]. apply N.eqb_eq in E. subst b. apply IH in H. subst l.
  cbn [le_bytes app]. f_equal. do 2 f_equal.
  rewrite N.div_div by (try apply N.pow_nonzero; lia). f_equal.
  replace (8 * (i + 1)) with (8 * i + 8) by lia. rewrite N.pow_add_r. reflexivity.
Qed.

Lemma wire_plain_len app : len (wire_plain app) = len app + 2.
Proof. unfold wire_plain. rewrite len_app. unfold len at 1. rewrite le_bytes_length. lia. Qed.
Lemma wire_header_len id k seq a t : len (wire_header id k seq a t) = 6 + N.of_nat k.
Proof. unfold wire_header. rewrite !len_app. unfold len. rewrite !le_bytes_length. lia. Qed.
Lemma unwrap_plain app : len app < 65536 ->
  le_val (firstn 2 (wire_plain app ++ [0; 0])) = len app /\ firstn (N.to_nat (len app)) (skipn 2 (wire_plain app)) = app.
Proof.
  intro H. unfold wire_plain. rewrite <- app_assoc, firstn_app_exact by apply le_bytes_length.
  rewrite skipn_app_exact by apply le_bytes_length. split; [apply le_val_bytes; exact H|].
  unfold len. rewrite Nnat.Nat2N.id. apply firstn_all.
Qed.
Lemma d_u32_le v l : v < 2 ^ 32 -> d_u32 (le_bytes 4 v ++ l) = POk v l.
Proof. intro. apply dlift_le. exact H. Qed.
Lemma d_u16_le' v l : v < 65536 -> d_u16 (le_bytes 2 v ++ l) = POk v l.
Proof. intro. apply dlift_le. exact H. Qed.

(** the receiver undoes the sender *)
Lemma decode_encode_msg cr s d app room w room' :
  aead_correct cr -> s_id s < 2 ^ 32 ->
  encode_msg cr s d app room = Ok w -> len app <= room' ->
  decode_msg cr s d w room' = Ok app.
Proof.
  intros Hc Hid He Hr. apply encode_msg_ok in He as (tag & c & t & Ht & Hi & Hk & Hs & Hq & Ha & Hseal & Hlc & Hlt & Hroom & Hw).
  unfold BUFFER_SIZE in Ha.
  assert (Htag : tag = 16).
  { unfold aead_tag_size in Ht. destruct (s_aead s) as [|p]; [discriminate|].
    destruct p as [p|p|]; try discriminate; try (destruct p as [p|p|]; try discriminate; try (destruct p; try discriminate));
    congruence. }
  unfold decode_msg. rewrite Ht. destruct (d_seq d =? U64_MAX) eqn:E; [apply N.eqb_eq in E; contradiction|].
  rewrite Hw. unfold wire_header. rewrite <- !app_assoc.
  rewrite d_u32_le by exact Hid. rewrite N.eqb_refl. cbn [negb].
  rewrite check_seq_honest0 by (rewrite Nnat.N2Nat.id; exact Hq).
  rewrite d_u16_le' by lia.
  replace (len _ <? 2 + len app + tag + (6 + s_seq_count s)) with false.
  2:{ symmetry. apply N.ltb_ge. rewrite !len_app. unfold len in *. rewrite !le_bytes_length. lia. }
  destruct (2 + len app + tag <? tag) eqn:E2; [apply N.ltb_lt in E2; lia|].
  replace (2 + len app + tag - tag) with (len c) by lia.
  destruct (BUFFER_SIZE <? len c) eqn:E3; [apply N.ltb_lt in E3; unfold BUFFER_SIZE in E3; lia|].
  assert (Hf : firstn (N.to_nat (6 + s_seq_count s))
     (le_bytes 4 (s_id s) ++ le_bytes (N.to_nat (s_seq_count s)) (d_seq d) ++ le_bytes 2 (2 + len app + tag) ++ c ++ t)
     = wire_header (s_id s) (N.to_nat (s_seq_count s)) (d_seq d) (len app) tag).
  { unfold wire_header. rewrite !app_assoc. rewrite <- (app_assoc _ c t). apply firstn_app_exact.
    rewrite !app_length, !le_bytes_length. lia. }
  rewrite Hf.
  rewrite firstn_app_exact by (unfold len; lia). rewrite skipn_app_exact by (unfold len; lia).
  replace (firstn (N.to_nat tag) t) with t by (symmetry; apply firstn_all2; unfold len in Hlt; lia).
  unfold aead_decrypt. rewrite Hk, Hi, Ht, N.eqb_refl. cbn [negb].
  rewrite nonce_wire.
  replace (len (wire_nonce (d_salt d) (d_seq d)) =? len (d_salt d)) with true
    by (symmetry; apply N.eqb_eq; unfold len; now rewrite wire_nonce_length).
  rewrite Hlt, N.eqb_refl. cbn [negb].
  destruct (Hc _ _ _ _ _ _ _ Hseal) as [Hlp Ho]. rewrite Ho.
  replace (len c <=? len (wire_plain app)) with true by (symmetry; apply N.leb_le; lia).
  cbn [obind]. replace (firstn (length c) (wire_plain app)) with (wire_plain app)
    by (symmetry; apply firstn_all2; unfold len in Hlp; lia).
  destruct (unwrap_plain app) as [Hu1 Hu2]; [lia|]. rewrite Hu1, Hu2.
  destruct (len (wire_plain app) <? len app + 2) eqn:E4; [apply N.ltb_lt in E4; rewrite wire_plain_len in E4; lia|].
  destruct (room' <? len app) eqn:E5; [apply N.ltb_lt in E5; lia|]. reflexivity.
Qed.

Lemma cur_lane_state req a b : s_state a = s_state b -> cur_lane req a = cur_lane req b.
Proof. unfold cur_lane. intros ->. reflexivity. Qed.
Lemma decode_msg_cong cr a b d m room :
  s_id a = s_id b -> s_aead a = s_aead b -> s_seq_count a = s_seq_count b ->
  decode_msg cr a d m room = decode_msg cr b d m room.
Proof. unfold decode_msg. intros -> -> ->. reflexivity. Qed.

Lemma secured_roundtrip cr req a b app room room' w a' :
  aead_correct cr -> s_id a < 2 ^ 32 -> in_step req a b -> len app <= room' ->
  encode_secured cr req app room a = (Ok w, a') ->
  exists b', decode_secured cr req w room' b = (Ok app, b') /\ in_step req a' b'.
Proof.
  intros Hc Hid (H1 & H2 & H3 & H4 & H5) Hr He.
  apply encode_secured_ok in He as (Hl & He & Ha').
  assert (Hd : get_dir req a = get_dir req b) by (rewrite !get_dir_lane; exact H5).
  assert (Hdec : decode_msg cr b (get_dir req b) w room' = Ok app).
  { rewrite <- Hd. rewrite <- (decode_msg_cong cr a b _ w room') by auto.
    eapply decode_encode_msg; eauto. }
  assert (Hseq : d_seq (get_dir req b) <> U64_MAX).
  { apply encode_msg_ok in He as (tag & c & t & _ & _ & _ & Hs & _). rewrite <- Hd. exact Hs. }
  assert (Hb : bump req b = Some (set_dir req (set_d_seq (d_seq (get_dir req b) + 1) (get_dir req b)) b)).
  { unfold bump. destruct (_ =? _) eqn:E; [apply N.eqb_eq in E; contradiction|reflexivity]. }
  eexists. split.
  - unfold decode_secured. destruct Hl as [Hl|Hl]; rewrite <- H4, Hl, Hdec, Hb; reflexivity.
  - subst a'. destruct (set_dir_frame req (set_d_seq (d_seq (get_dir req a) + 1) (get_dir req a)) a) as (F1 & F2 & F3 & F4 & _).
    destruct (set_dir_frame req (set_d_seq (d_seq (get_dir req b) + 1) (get_dir req b)) b) as (G1 & G2 & G3 & G4 & _).
    repeat split; try congruence.
    rewrite !lane_cur_set_dir, Hd. reflexivity.
Qed.

(** ** what an accepted message proves *)
Lemma d_le_split n l v l' : bytes_ok l -> dlift (p_le n) l = POk v l' -> l = le_bytes n v ++ l'.
Proof. intros Hok H. now apply (d_le_inv n l v l' Hok) in H. Qed.
Lemma aead_sizes alg tag : aead_tag_size alg = Some tag -> tag = 16 /\ aead_iv_size alg = Some 12 /\
  exists k, aead_key_size alg = Some k /\ 16 <= k.
Proof.
  intro Ht. unfold aead_tag_size in Ht. unfold aead_iv_size, aead_key_size.
  destruct alg as [|p]; [discriminate|].
  destruct p as [p|p|]; try discriminate; try (destruct p as [p|p|]; try discriminate; try (destruct p; try discriminate));
  (repeat split; [congruence|eexists; split; [reflexivity|lia]]).
Qed.
Lemma decode_msg_ok cr s d m room p :
  bytes_ok m -> decode_msg cr s d m room = Ok p ->
  exists c t plain rest,
    m = le_bytes 4 (s_id s) ++ le_bytes (N.to_nat (s_seq_count s)) (d_seq d) ++ le_bytes 2 (len c + len t) ++ c ++ t ++ rest /\
    aead_tag_size (s_aead s) = Some (len t) /\ len (d_salt d) = 12 /\ d_seq d <> U64_MAX /\
    len c <= BUFFER_SIZE /\
    cr_open cr (s_aead s) (d_key d) (wire_nonce (d_salt d) (d_seq d))
       (le_bytes 4 (s_id s) ++ le_bytes (N.to_nat (s_seq_count s)) (d_seq d) ++ le_bytes 2 (len c + len t)) c t = Some plain /\
    (len plain = len c -> le_val (firstn 2 (plain ++ [0;0])) = len p /\ len p + 2 <= len plain /\ p = firstn (length p) (skipn 2 plain)).
Proof.
  intros Hok H. unfold decode_msg in H. destruct (aead_tag_size (s_aead s)) as [tag|] eqn:Et; [|discriminate].
  destruct (d_seq d =? U64_MAX) eqn:Es; [discriminate|]. apply N.eqb_neq in Es.
  destruct (d_u32 m) as [id l1| |] eqn:E1; try discriminate.
  destruct (id =? s_id s) eqn:E2; [|discriminate]. cbn [negb] in H. apply N.eqb_eq in E2. subst id.
  apply d_le_split in E1; [|exact Hok]. subst m. apply bytes_ok_app in Hok as [_ Hok].
  destruct (check_seq _ _ _ _) as [[] l2| |] eqn:E3; try discriminate.
  apply check_seq_inv in E3. rewrite N.mul_0_r, N.pow_0_r, N.div_1_r in E3. subst l1. apply bytes_ok_app in Hok as [_ Hok].
  destruct (d_u16 l2) as [L l3| |] eqn:E4; try discriminate. apply d_le_split in E4; [|exact Hok]. subst l2.
  rewrite !len_app in H. unfold len at 1 2 3 in H. rewrite !le_bytes_length in H.
  destruct (_ <? L + _) eqn:E5; [discriminate|]. apply N.ltb_ge in E5.
  destruct (L <? tag) eqn:E6; [discriminate|]. apply N.ltb_ge in E6.
  destruct (BUFFER_SIZE <? _) eqn:E7; [discriminate|]. apply N.ltb_ge in E7.
  rewrite (app_assoc (le_bytes 4 _)), app_assoc in H.
  rewrite firstn_app_exact in H by (rewrite !app_length, !le_bytes_length; lia).
  rewrite <- app_assoc in H.
  set (c := firstn (N.to_nat (L - tag)) l3) in *.
  set (t := firstn (N.to_nat tag) (skipn (N.to_nat (L - tag)) l3)) in *.
  assert (Hc : len c = L - tag) by (unfold c, len in *; rewrite firstn_length_le; lia).
  assert (Ht : len t = tag) by (unfold t, len in *; rewrite firstn_length_le; rewrite ?skipn_length; lia).
  assert (HL : L = len c + len t) by lia.
  assert (Hl3 : l3 = c ++ t ++ skipn (N.to_nat tag) (skipn (N.to_nat (L - tag)) l3)).
  { unfold c, t. rewrite firstn_skipn, firstn_skipn. reflexivity. }
  set (rest := skipn (N.to_nat tag) (skipn (N.to_nat (L - tag)) l3)) in *.
  destruct (aead_sizes _ _ Et) as (H16 & Hiv & k & Hk & Hk16).
  unfold aead_decrypt in H. rewrite Hk, Hiv, Et in H.
  destruct (len (d_key d) =? k); [|discriminate]. cbn [negb] in H.
  rewrite nonce_wire in H. destruct (len (wire_nonce _ _) =? 12) eqn:E8; [|discriminate]. cbn [negb] in H.
  destruct (len t =? tag); [|discriminate]. cbn [negb] in H.
  destruct (cr_open _ _ _ _ _ _ _) as [plain|] eqn:Eo; [|discriminate].
  destruct (len c <=? len plain) eqn:E9; [|discriminate]. cbn [obind] in H.
  exists c, t, plain, rest. split; [|split; [|split; [|split; [|split; [|split]]]]].
  - rewrite <- HL, <- Hl3. reflexivity.
  - congruence.
  - apply N.eqb_eq in E8. unfold len in E8. rewrite wire_nonce_length in E8. exact E8.
  - exact Es.
  - lia.
  - rewrite <- HL. exact Eo.
  - intro Hlen. replace (firstn (length c) plain) with plain in H by (symmetry; apply firstn_all2; unfold len in Hlen; lia).
    destruct (len plain <? _) eqn:E10; [discriminate|]. apply N.ltb_ge in E10.
    destruct (room <? _) eqn:E11; [discriminate|].
    set (al := le_val (firstn 2 (plain ++ [0; 0]))) in *.
    assert (Hp : p = firstn (N.to_nat al) (skipn 2 plain)) by congruence.
    assert (Hlp : len p = al).
    { rewrite Hp. unfold len in *. rewrite firstn_length_le; [lia|]. rewrite skipn_length. lia. }
    split; [congruence|]. split; [lia|]. rewrite Hp at 1. f_equal. unfold len in Hlp. lia.
Qed.

Lemma seal_log_nth id k iv tag apps : forall seq nonce aad p,
  In (nonce, aad, p) (seal_log id k iv tag seq apps) ->
  exists i a, nth_error apps i = Some a /\ nonce = wire_nonce iv (seq + N.of_nat i) /\ p = wire_plain a.
Proof.
  induction apps as [|a apps IH]; intros seq nonce aad p H; cbn [seal_log In] in H; [contradiction|].
  destruct H as [H|H].
  - exists 0%nat, a. change (N.of_nat 0) with 0. rewrite N.add_0_r. split; [reflexivity|]. split; congruence.
  - apply IH in H as (i & b & H1 & H2 & H3). exists (S i), b. cbn [nth_error].
    repeat split; auto. rewrite H2. f_equal. lia.
Qed.

(** one decode under an unforgeable key: only the message with the receiver's number comes out *)
Lemma decode_msg_only cr s d m room p id k tag seq0 apps i :
  bytes_ok m ->
  opens_only cr (s_aead s) (d_key d) (seal_log id k (d_salt d) tag seq0 apps) ->
  seq0 + N.of_nat (length apps) <= 2 ^ 64 ->
  d_seq d = seq0 + N.of_nat i -> d_seq d < 2 ^ 64 ->
  decode_msg cr s d m room = Ok p -> nth_error apps i = Some p.
Proof.
  intros Hok Hu Hn Hd Hlt H. apply decode_msg_ok in H as (c & t & plain & rest & _ & _ & Hsalt & _ & Hb & Ho & Hp); [|exact Hok].
  apply Hu in Ho as [Hlen Hin]. apply Hp in Hlen as Hp'. destruct Hp' as (Hp1 & Hp2 & Hp3).
  apply seal_log_nth in Hin as (j & a & Hj & Hnon & Hpl).
  assert (Hj' : (j < length apps)%nat) by (apply nth_error_Some; congruence).
  apply wire_nonce_inj in Hnon; [| unfold len in Hsalt; lia | exact Hlt | lia].
  assert (i = j) by lia. subst j. rewrite Hj. f_equal.
  subst plain. unfold BUFFER_SIZE in Hb. rewrite wire_plain_len in *.
  destruct (unwrap_plain a) as [Hu1 Hu2]; [lia|]. rewrite Hu1 in Hp1.
  rewrite Hp3. rewrite <- Hu2 at 1. f_equal. unfold len in Hp1. unfold len. lia.
Qed.

Lemma decode_secured_cases cr req m room s r s' :
  decode_secured cr req m room s = (r, s') ->
  (~ live s /\ r = Err ST_INVALID_STATE_LOCAL /\ s' = s) \/
  (live s /\ r = Panic /\ s' = s) \/
  (live s /\ r = decode_msg cr s (get_dir req s) m room /\ r <> Panic /\ d_seq (get_dir req s) <> U64_MAX /\
   s' = set_dir req (set_d_seq (d_seq (get_dir req s) + 1) (get_dir req s)) s).
Proof.
  unfold decode_secured, live. intro H. destruct (s_state s) eqn:Es;
  try (left; repeat split; [intros [X|X]; discriminate|congruence|congruence]); right;
  (destruct (decode_msg _ _ _ _ _) as [p|e|] eqn:E;
   [|  |left; repeat split; auto; congruence];
   (destruct (bump req s) as [s1|] eqn:Eb; [|left; repeat split; auto; congruence];
    apply bump_eq in Eb as [Hne Eb]; right; repeat split; auto; congruence)).
Qed.

Lemma decode_run_only cr req room id k tag apps ins : forall s i0 rs s' seq0,
  Forall bytes_ok ins -> live s ->
  (let d := lane_dir (cur_lane req s) s in
   opens_only cr (s_aead s) (d_key d) (seal_log id k (d_salt d) tag seq0 apps) /\
   d_seq d = seq0 + N.of_nat i0 /\ d_seq d < 2 ^ 64) ->
  seq0 + N.of_nat (length apps) <= 2 ^ 64 ->
  decode_run cr req room ins s = (rs, s') ->
  forall j p, nth_error rs j = Some (Ok p) -> nth_error apps (i0 + j) = Some p.
Proof.
  induction ins as [|m ins IH]; intros s i0 rs s' seq0 Hok Hlive Hd Hn Hrun j p Hj; cbn [decode_run] in Hrun.
  - assert (rs = []) by congruence. subst rs. destruct j; discriminate.
  - destruct (decode_secured cr req m room s) as [r s1] eqn:Er.
    inversion Hok as [|x l Hm Hok']. subst x l.
    cbn zeta in Hd. destruct Hd as (Hu & Hseq & Hlt).
    apply decode_secured_cases in Er as [(X & _)|[(_ & X & _)|(_ & X & Hnp & Hne & ->)]];
      [contradiction| subst r; assert (rs = [Panic]) by congruence; subst rs; destruct j as [|[|j]]; discriminate|].
    set (s1 := set_dir _ _ _) in *.
    destruct (decode_run cr req room ins s1) as [rs2 s2] eqn:Er2.
    assert (rs = r :: rs2) by (destruct r; congruence). subst rs.
    destruct j as [|j].
    + cbn in Hj. assert (r = Ok p) by congruence. subst r.
      symmetry in H. rewrite get_dir_lane in H. rewrite Nat.add_0_r.
      eapply decode_msg_only; eauto.
    + cbn [nth_error] in Hj. replace (i0 + S j)%nat with (S i0 + j)%nat by lia.
      destruct (set_dir_frame req (set_d_seq (d_seq (get_dir req s) + 1) (get_dir req s)) s) as (F1 & F2 & F3 & F4 & _).
      eapply (IH s1 (S i0)); [exact Hok'| | |exact Hn|exact Er2|exact Hj].
      * unfold live in *. unfold s1. rewrite F4. exact Hlive.
      * cbn zeta. unfold s1.
        rewrite lane_cur_set_dir, F2, get_dir_lane. cbn [d_key d_salt d_seq set_d_seq].
        rewrite get_dir_lane in Hne. unfold U64_MAX in Hne.
        split; [exact Hu|split; lia].
Qed.

(** ** frames *)
Lemma with_lane_set_dir req d s : set_dir req d s = with_lane (cur_lane req s) d s.
Proof. unfold set_dir, cur_lane. destruct s; cbn. destruct s_state, req; reflexivity. Qed.
Lemma decode_frame cr req m room s r s' :
  decode_secured cr req m room s = (r, s') ->
  s' = s \/
  s' = (let d := lane_dir (cur_lane req s) s in with_lane (cur_lane req s) (mkDir (d_key d) (d_salt d) (d_seq d + 1)) s).
Proof.
  intro H. apply decode_secured_cases in H as [(_ & _ & ->)|[(_ & _ & ->)|(_ & _ & _ & _ & ->)]]; auto.
  right. rewrite with_lane_set_dir, get_dir_lane. reflexivity.
Qed.
Lemma decode_live_step cr req m room s r s' :
  decode_secured cr req m room s = (r, s') -> live s -> r <> Panic ->
  s' = (let d := lane_dir (cur_lane req s) s in with_lane (cur_lane req s) (mkDir (d_key d) (d_salt d) (d_seq d + 1)) s).
Proof.
  intros H Hl Hp. apply decode_secured_cases in H as [(X & _)|[(_ & X & _)|(_ & _ & _ & _ & ->)]]; try contradiction.
  rewrite with_lane_set_dir, get_dir_lane. reflexivity.
Qed.

(** ** panic freedom of decoding *)
Lemma decode_msg_no_panic cr s d m room :
  aead_tag_size (s_aead s) <> None -> s_seq_count s <= 8 -> len m <= BUFFER_SIZE -> BUFFER_SIZE <= room ->
  (forall alg key nonce aad c t p, cr_open cr alg key nonce aad c t = Some p -> len p = len c) ->
  decode_msg cr s d m room <> Panic.
Proof.
  intros Ht Hq Hm Hr Hlaw. unfold decode_msg.
  destruct (aead_tag_size (s_aead s)) as [tag|] eqn:Et; [|contradiction].
  destruct (aead_sizes _ _ Et) as (H16 & Hiv & k & Hk & Hk16).
  destruct (_ =? _); [discriminate|].
  destruct (d_u32 m) as [id l1| |] eqn:E1; try discriminate.
  2:{ unfold d_u32, dlift in E1. destruct (p_u32 m) as [[? ?]|]; discriminate. }
  destruct (negb _); [discriminate|].
  assert (Hcs : forall n i seq l, i + N.of_nat n <= 8 -> check_seq n i seq l <> PPanic).
  { induction n as [|n IH]; intros i seq l Hi; cbn [check_seq]; [discriminate|].
    destruct l; [discriminate|]. destruct (8 <=? i) eqn:E; [apply N.leb_le in E; lia|].
    destruct (_ =? _); [|discriminate]. apply IH. lia. }
  destruct (check_seq _ _ _ _) as [[] l2| |] eqn:E3; try discriminate.
  2:{ apply Hcs in E3; [contradiction|lia]. }
  destruct (d_u16 l2) as [L l3| |] eqn:E4; try discriminate.
  2:{ unfold d_u16, dlift in E4. destruct (p_u16 l2) as [[? ?]|]; discriminate. }
  destruct (_ <? _) eqn:E5; [discriminate|]. apply N.ltb_ge in E5.
  destruct (L <? tag) eqn:E6; [discriminate|]. apply N.ltb_ge in E6.
  destruct (BUFFER_SIZE <? _) eqn:E7; [apply N.ltb_lt in E7; lia|]. apply N.ltb_ge in E7.
  unfold aead_decrypt. rewrite Hk, Hiv, Et.
  repeat match goal with |- context [negb ?b] => destruct b; cbn [negb]; [|discriminate] end.
  destruct (cr_open _ _ _ _ _ _ _) as [p|] eqn:Eo; [|discriminate].
  apply Hlaw in Eo. rewrite Eo, N.leb_refl. cbn [obind].
  rewrite (firstn_all2 p) by (unfold len in Eo; lia).
  destruct (_ <? _) eqn:E8; [discriminate|]. apply N.ltb_ge in E8.
  destruct (room <? _) eqn:E9; [|discriminate]. apply N.ltb_lt in E9.
  assert (len (firstn (N.to_nat (L - tag)) l3) <= L - tag) by (unfold len; rewrite firstn_length; lia).
  unfold len in *. lia.
Qed.
Lemma decode_secured_no_panic cr req m room s :
  aead_tag_size (s_aead s) <> None -> s_seq_count s <= 8 -> len m <= BUFFER_SIZE -> BUFFER_SIZE <= room ->
  (forall alg key nonce aad c t p, cr_open cr alg key nonce aad c t = Some p -> len p = len c) ->
  d_seq (lane_dir (cur_lane req s) s) <> U64_MAX ->
  fst (decode_secured cr req m room s) <> Panic.
Proof.
  intros H1 H2 H3 H4 H5 H6. unfold decode_secured.
  pose proof (decode_msg_no_panic cr s (get_dir req s) m room H1 H2 H3 H4 H5) as Hnp.
  assert (Hb : bump req s <> None).
  { unfold bump. rewrite get_dir_lane. destruct (_ =? _) eqn:E; [apply N.eqb_eq in E; contradiction|discriminate]. }
  destruct (s_state s); cbn; try discriminate;
  (destruct (decode_msg _ _ _ _ _); [| |contradiction]; destruct (bump req s); cbn; congruence).
Qed.
(** ... and at the last sequence number it does panic: the counter is incremented after the
    overflow error was reported *)
Lemma decode_secured_overflow cr req m room s :
  live s -> aead_tag_size (s_aead s) <> None -> d_seq (lane_dir (cur_lane req s) s) = U64_MAX ->
  fst (decode_secured cr req m room s) = Panic.
Proof.
  intros Hl Ht Hs. unfold decode_secured, decode_msg, bump. rewrite get_dir_lane, Hs, N.eqb_refl.
  destruct (aead_tag_size (s_aead s)); [|contradiction].
  destruct Hl as [Hl|Hl]; rewrite Hl; reflexivity.
Qed.

(** ** key update *)
Ltac run_st :=
  repeat match goal with
  | H : (sbind _ _ _) = _ |- _ => unfold sbind in H at 1
  | H : context [sof ?o ?s] |- _ => unfold sof in H
  | H : context [smod ?f ?s] |- _ => unfold smod in H
  | H : context [sget ?s] |- _ => unfold sget in H
  end.
Lemma sbind_ok {S A B} (m : st S A) (k : A -> st S B) s b s' :
  sbind m k s = (Ok b, s') -> exists a s1, m s = (Ok a, s1) /\ k a s1 = (Ok b, s').
Proof. unfold sbind. destruct (m s) as [[a|e|] s1]; intro H; try discriminate. eauto. Qed.
Lemma sof_ok {S A} (o : outcome A) (s s' : S) a : sof o s = (Ok a, s') -> o = Ok a /\ s' = s.
Proof. unfold sof. intro H. split; congruence. Qed.
Lemma smod_ok {S} (f : S -> S) s s' u : smod f s = (Ok u, s') -> s' = f s.
Proof. unfold smod. congruence. Qed.
Lemma sget_ok {S} (s s' a : S) : sget s = (Ok a, s') -> a = s /\ s' = s.
Proof. unfold sget. intro H. split; congruence. Qed.
Ltac st_inv H :=
  match type of H with
  | sbind _ _ _ = (Ok _, _) =>
      let a := fresh "a" in let s1 := fresh "s" in let H1 := fresh "Hm" in
      apply sbind_ok in H; destruct H as (a & s1 & H1 & H); st_inv H1; st_inv H
  | sof _ _ = _ => apply sof_ok in H; destruct H as [H ?]; subst
  | smod _ _ = _ => apply smod_ok in H; subst
  | sget _ = _ => apply sget_ok in H; destruct H as [? ?]; subst
  | _ => idtac
  end.

Lemma update_req_ok cr v s s' u : update_req cr v s = (Ok u, s') ->
  exists sec k, derive_update cr v (s_hash s) (a_req_secret (s_app s)) = Ok sec /\
    derive_aead_key_iv cr v (s_hash s) (s_aead s) sec = Ok k /\
    s' = set_s_backup (set_a_req_secret (a_req_secret (s_app s)) (set_a_req_dir (a_req_dir (s_app s)) (s_backup s)))
         (set_s_app (set_a_req_secret sec (set_a_req_dir (mkDir (fst k) (snd k) 0) (s_app s))) s).
Proof.
  unfold update_req. intro H. st_inv H. eexists _, _. destruct s; destruct s_app, s_backup; cbn in *.
  split; [eassumption|]. split; [eassumption|]. reflexivity.
Qed.
Lemma update_rsp_ok cr v s s' u : update_rsp cr v s = (Ok u, s') ->
  exists sec k, derive_update cr v (s_hash s) (a_rsp_secret (s_app s)) = Ok sec /\
    derive_aead_key_iv cr v (s_hash s) (s_aead s) sec = Ok k /\
    s' = set_s_backup (set_a_rsp_secret (a_rsp_secret (s_app s)) (set_a_rsp_dir (a_rsp_dir (s_app s)) (s_backup s)))
         (set_s_app (set_a_rsp_secret sec (set_a_rsp_dir (mkDir (fst k) (snd k) 0) (s_app s))) s).
Proof.
  unfold update_rsp. intro H. st_inv H. eexists _, _. destruct s; destruct s_app, s_backup; cbn in *.
  split; [eassumption|]. split; [eassumption|]. reflexivity.
Qed.

Lemma rollback_restores cr v a b s s1 :
  create_data_secret_update cr v a b s = (Ok tt, s1) ->
  forall s2, s_backup s2 = s_backup s1 ->
  let s3 := activate_data_secret_update a b false s2 in
  (a = true -> a_req_secret (s_app s3) = a_req_secret (s_app s) /\ lane_dir AppReq s3 = lane_dir AppReq s) /\
  (b = true -> a_rsp_secret (s_app s3) = a_rsp_secret (s_app s) /\ lane_dir AppRsp s3 = lane_dir AppRsp s) /\
  (a = false -> a_req_secret (s_app s3) = a_req_secret (s_app s2) /\ lane_dir AppReq s3 = lane_dir AppReq s2) /\
  (b = false -> a_rsp_secret (s_app s3) = a_rsp_secret (s_app s2) /\ lane_dir AppRsp s3 = lane_dir AppRsp s2) /\
  set_s_app (s_app s2) s3 = s2.
Proof.
  unfold create_data_secret_update. intro H. apply sbind_ok in H as (u & s' & H1 & H2).
  intros s2 Hb. unfold activate_data_secret_update. cbn [negb].
  destruct a, b; cbn [swhen] in H1, H2; unfold sret in *.
  - apply update_req_ok in H1 as (sec & k & _ & _ & ->). apply update_rsp_ok in H2 as (sec' & k' & _ & _ & ->).
    destruct s2, s; cbn in *. subst. destruct s_app, s_app0, s_backup0; cbn. repeat split; discriminate.
  - apply update_req_ok in H1 as (sec & k & _ & _ & ->). assert (s1 = set_s_backup (set_a_req_secret (a_req_secret (s_app s)) (set_a_req_dir (a_req_dir (s_app s)) (s_backup s)))
         (set_s_app (set_a_req_secret sec (set_a_req_dir (mkDir (fst k) (snd k) 0) (s_app s))) s)) by congruence. subst s1.
    destruct s2, s; cbn in *. subst. destruct s_app, s_app0, s_backup0; cbn. repeat split; discriminate.
  - assert (s' = s) by congruence. subst s'. apply update_rsp_ok in H2 as (sec' & k' & _ & _ & ->).
    destruct s2, s; cbn in *. subst. destruct s_app, s_app0, s_backup0; cbn. repeat split; discriminate.
  - destruct s2, s; cbn in *. repeat split; discriminate.
Qed.
Lemma commit_discards a b s :
  let s1 := activate_data_secret_update a b true s in
  s_app s1 = s_app s /\
  forall s2, s_backup s2 = s_backup s1 ->
  let s3 := activate_data_secret_update a b false s2 in
  (a = true -> lane_dir AppReq s3 = mkDir [] [] 0 /\ a_req_secret (s_app s3) = []) /\
  (b = true -> lane_dir AppRsp s3 = mkDir [] [] 0 /\ a_rsp_secret (s_app s3) = []).
Proof.
  unfold activate_data_secret_update. cbn [negb]. destruct s; destruct s_app, s_backup; cbn. 
  destruct a, b; cbn; (split; [reflexivity|]); intros s2 Hb; destruct s2; cbn in Hb; subst; cbn;
  repeat split; discriminate.
Qed.
Lemma empty_key_useless cr s d app room w : d_key d = [] -> encode_msg cr s d app room <> Ok w.
Proof.
  intros Hk H. apply encode_msg_ok in H as (tag & c & t & Ht & _ & H & _).
  apply aead_sizes in Ht as (_ & _ & k & Hks & Hk16). rewrite Hk, Hks in H. cbn in H.
  assert (k = 0) by congruence. lia.
Qed.
