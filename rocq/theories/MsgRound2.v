(** Round trips of the authentication, session and remaining messages; measurement records. *)
From Coq Require Import Sorting.Sorted.
From Verif Require Import Bytes BytesFacts Codec CodecProofs Parse ParseProofs Algo MsgConn MsgAuth MsgSession MsgOther Message SpecMsg MsgProofs MsgRound.
Local Open Scope N_scope.

(** ** digests *)
Lemma popcount8_bits m : N.to_nat (popcount8 m) = bits_set m.
Proof.
  unfold popcount8, bits_set. cbn [fold_left filter].
  destruct (N.testbit m 0), (N.testbit m 1), (N.testbit m 2), (N.testbit m 3),
           (N.testbit m 4), (N.testbit m 5), (N.testbit m 6), (N.testbit m 7); reflexivity.
Qed.
Lemma filter_len {A} (f : A -> bool) l : (length (filter f l) <= length l)%nat.
Proof. induction l as [|a l IH]; cbn; auto. destruct (f a); cbn; lia. Qed.
Lemma bits_set_le m : (bits_set m <= 8)%nat.
Proof. unfold bits_set. etransitivity; [apply filter_len|]. cbn. lia. Qed.

Lemma rt_digests c p : ok_digests c p -> rt (enc_digests_rsp c p) (dec_digests_rsp c) p.
Proof.
  intros (Hm & ds & HL & HF & HD). pose proof (bits_set_le (dg_mask p)).
  unfold enc_digests_rsp, dec_digests_rsp. do 2 rt1.
  eapply rt_bind_last.
  { eapply rt_table with (l := ds); try exact HD.
    - rewrite popcount8_bits; auto.
    - unfold SPDM_MAX_SLOT_NUMBER. lia.
    - eapply Forall_impl; [|exact HF]. intros; apply rt_digest; auto. }
  destruct p; apply rt_ret.
Qed.
Lemma xw_digests c p : ok_digests c p -> xwire (enc_digests_rsp c p) = Some (wire_digests p).
Proof.
  intros (Hm & ds & HL & HF & HD). unfold enc_digests_rsp, wire_digests.
  rewrite popcount8_bits. eapply xw_eq.
  - xwa. apply (xw_concat (enc_digest c) content).
    rewrite HD, firstn_app_exact by auto.
    eapply Forall_impl; [|exact HF]. intros; apply xw_digest; auto.
  - reflexivity.
Qed.

(** ** certificates *)
Lemma rt_get_cert p : ok_get_cert p -> rt (enc_get_cert p) dec_get_cert p.
Proof.
  intros (H1 & H2 & H3). ranges. unfold enc_get_cert, dec_get_cert. do 4 rt1. destruct p; apply rt_ret.
Qed.
Lemma xw_get_cert p : xwire (enc_get_cert p) = Some (wire_get_cert p).
Proof. unfold enc_get_cert. eapply xw_eq; [xwa|reflexivity]. Qed.

Lemma rt_cert p : ok_cert p -> rt (enc_cert_rsp p) dec_cert_rsp p.
Proof.
  intros (H1 & H2 & H3 & b & Hb & HD). ranges. unfold enc_cert_rsp, dec_cert_rsp. do 4 rt1.
  eapply rt_bind_last; [eapply rt_fixed_trunc; eauto|]. destruct p; apply rt_ret.
Qed.
Lemma firstn_min {A} n m (l : list A) : length l = m -> firstn (Nat.min n m) l = firstn n l.
Proof.
  intro H. destruct (Nat.le_gt_cases n m).
  - replace (Nat.min n m) with n by lia. reflexivity.
  - replace (Nat.min n m) with m by lia. rewrite !firstn_all2 by lia. reflexivity.
Qed.
Lemma xw_cert p : ok_cert p -> xwire (enc_cert_rsp p) = Some (wire_cert p).
Proof.
  intros (_ & _ & _ & b & Hb & HD). unfold enc_cert_rsp, wire_cert.
  rewrite firstn_min.
  - eapply xw_eq; [xwa|reflexivity].
  - rewrite HD, app_length, fill_length. lia.
Qed.

(** ** challenge *)
Lemma mhash_type_ok_spec c t : summary_type_ok c t <-> mhash_type_ok c t = true.
Proof.
  unfold summary_type_ok, mhash_type_ok, rsp_has, peer_has.
  rewrite orb_true_iff, andb_true_iff, !orb_true_iff, !N.eqb_eq, !contains_has. reflexivity.
Qed.
Lemma summary_type_u8 c t : summary_type_ok c t -> t < 256.
Proof. unfold summary_type_ok. lia. Qed.

Lemma rt_challenge c p : ok_challenge c p -> rt (enc_challenge p) (dec_challenge c) p.
Proof.
  intros (H1 & H2 & H3). unfold enc_challenge, dec_challenge. do 2 rt1.
  apply rt_guard; [apply mhash_type_ok_spec; auto|]. rt1. destruct p; apply rt_ret.
Qed.
Lemma xw_challenge p : xwire (enc_challenge p) = Some (wire_challenge p).
Proof. unfold enc_challenge. eapply xw_eq; [xwa|reflexivity]. Qed.

Lemma land_F0 s : s < 16 -> N.land s 0xF0 = 0 /\ N.land s 0xF = s.
Proof.
  intro H. change 0xF with (N.ones 4). rewrite N.land_ones. split; [|apply N.mod_small; exact H].
  apply N.bits_inj. intro k. rewrite N.land_spec, N.bits_0.
  destruct (N.lt_ge_cases k 4).
  - assert (N.testbit 0xF0 k = false) as ->.
    { assert (k = 0 \/ k = 1 \/ k = 2 \/ k = 3) as [->|[->|[->| ->]]] by lia; reflexivity. }
    apply Bool.andb_false_r.
  - replace (N.testbit s k) with false; auto. symmetry.
    destruct (N.eq_dec s 0) as [->|]; [apply N.bits_0|].
    apply N.bits_above_log2. apply N.log2_lt_pow2; [lia|].
    eapply N.lt_le_trans; [exact H|]. change 16 with (2 ^ 4). apply N.pow_le_mono_r; lia.
Qed.

(** nibble arithmetic, by enumeration of the low nibble *)
Lemma small16 (P : N -> Prop) : (forall n, In n [0;1;2;3;4;5;6;7;8;9;10;11;12;13;14;15] -> P n) ->
  forall s, s < 16 -> P s.
Proof.
  intros H s Hs. apply H.
  assert (s = 0 \/ s = 1 \/ s = 2 \/ s = 3 \/ s = 4 \/ s = 5 \/ s = 6 \/ s = 7 \/ s = 8 \/ s = 9 \/
          s = 10 \/ s = 11 \/ s = 12 \/ s = 13 \/ s = 14 \/ s = 15) by lia.
  cbn. intuition.
Qed.
Lemma nibbles s a : s < 16 -> In a [0; 0x10; 0x20; 0x30; 0x80] ->
  s + a < 256 /\ N.land (s + a) 0xF = s /\ N.land (s + a) 0xF0 = a /\ N.lor s a = s + a /\
  N.land (s + a) 0x30 = N.land a 0x30.
Proof.
  revert s. apply (small16 (fun s => In a [0; 0x10; 0x20; 0x30; 0x80] ->
    s + a < 256 /\ N.land (s + a) 0xF = s /\ N.land (s + a) 0xF0 = a /\ N.lor s a = s + a /\
    N.land (s + a) 0x30 = N.land a 0x30)).
  intros n Hn Ha. cbn in Hn, Ha.
  repeat (destruct Hn as [<-|Hn]; [repeat (destruct Ha as [<-|Ha]; [vm_compute; repeat split; reflexivity|]); contradiction|]).
  contradiction.
Qed.

Lemma rt_challenge_auth c p : ok_challenge_auth c p -> rt (enc_challenge_auth c p) (dec_challenge_auth c) p.
Proof.
  intros (H1 & H2 & H3 & H4 & H5 & H6 & H7 & H8).
  assert (HA : In (ca_attr p) [0; 0x10; 0x20; 0x30; 0x80]) by (cbn; intuition).
  destruct (nibbles _ _ H1 HA) as (N1 & N2 & N3 & _).
  unfold enc_challenge_auth, dec_challenge_auth, x_add_u8.
  replace (ca_slot p + ca_attr p <? 256) with true by (symmetry; apply N.ltb_lt; exact N1).
  rt1. eapply rt_opt with (n := ca_attr p).
  { rewrite N3. unfold from_bits. destruct H2 as [->| ->]; reflexivity. }
  do 6 rt1. destruct p. cbn in *. rewrite N2. apply rt_ret.
Qed.
Lemma xw_opt_digest c b v : present b (digest_ok c v) (absent 64 v) ->
  xwire (enc_opt b (enc_digest c v)) = Some (when b (content v)).
Proof. intro H. apply xw_opt. intros ->. apply xw_digest; exact H. Qed.
Lemma xw_opt_sig c b v : present b (sig_ok c v) (absent 512 v) ->
  xwire (enc_opt b (enc_signature c v)) = Some (when b (content v)).
Proof. intro H. apply xw_opt. intros ->. apply xw_signature; exact H. Qed.
Lemma xw_challenge_auth c p : ok_challenge_auth c p ->
  xwire (enc_challenge_auth c p) = Some (wire_challenge_auth c p).
Proof.
  intros (H1 & H2 & H3 & H4 & H5 & H6 & H7 & H8).
  assert (HA : In (ca_attr p) [0; 0x10; 0x20; 0x30; 0x80]) by (cbn; intuition).
  destruct (nibbles _ _ H1 HA) as (N1 & _).
  unfold enc_challenge_auth, x_add_u8.
  replace (ca_slot p + ca_attr p <? 256) with true by (symmetry; apply N.ltb_lt; exact N1).
  eapply xw_eq; [xwa; apply xw_opt_digest; exact H6|reflexivity].
Qed.

(** ** measurement blocks *)
Definition to_mblock (b : block) : mblock :=
  mkBlock (b_index b) 1 (3 + len (b_value b))
    (mkDmtf (b_type b) (if b_raw b then 0x80 else 0) (len (b_value b)) (pad_to 1024 (b_value b))).

Lemma land_128 f : N.land f 0x7f = f mod 128.
Proof. change 0x7f with (N.ones 7). apply N.land_ones. Qed.
Lemma land_80 f : f < 256 -> N.land f 0x80 = if f <? 128 then 0 else 128.
Proof.
  intro H. assert (E : f = f mod 128 + 128 * (f / 128)) by lia.
  assert (f / 128 = 0 \/ f / 128 = 1) as Hd by lia.
  assert (HL : N.land f 0x80 = N.shiftl (N.shiftr (N.land f 0x80) 7) 7).
  { apply N.bits_inj. intro k. rewrite N.land_spec. destruct (N.lt_ge_cases k 7).
    - rewrite N.shiftl_spec_low by auto. change 0x80 with (2 ^ 7).
      rewrite N.pow2_bits_false by lia. apply Bool.andb_false_r.
    - rewrite N.shiftl_spec_high by lia. rewrite N.shiftr_spec by lia.
      rewrite N.sub_add by lia. symmetry. apply N.land_spec. }
  rewrite HL, N.shiftr_land. change (N.shiftr 0x80 7) with (N.ones 1). rewrite N.land_ones, N.shiftr_div_pow2, N.shiftl_mul_pow2.
  change (2 ^ 7) with 128. change (2 ^ 1) with 2.
  destruct (N.ltb_spec f 128); destruct Hd as [Hd|Hd]; rewrite Hd; try lia; reflexivity.
Qed.

Lemma type_byte b : b_type b < 128 ->
  let f := b_type b + (if b_raw b then 128 else 0) in
  N.land f 0x7f = b_type b /\ N.land f 0x80 = (if b_raw b then 0x80 else 0).
Proof.
  intros H f. split.
  - rewrite land_128. subst f. destruct (b_raw b); [|rewrite N.add_0_r; apply N.mod_small; auto].
    rewrite <- (N.mul_1_l 128) at 1. rewrite N.mod_add by lia. apply N.mod_small; auto.
  - rewrite land_80 by (subst f; destruct (b_raw b); lia). subst f.
    destruct (b_raw b).
    + replace (b_type b + 128 <? 128) with false by (symmetry; apply N.ltb_ge; lia). reflexivity.
    + replace (b_type b + 0 <? 128) with true by (symmetry; apply N.ltb_lt; lia). reflexivity.
Qed.

Lemma d_u8_cons b l : d_u8 (b :: l) = POk b l. Proof. reflexivity. Qed.
Lemma d_u16_le v l : v < 65536 -> d_u16 (le_bytes 2 v ++ l) = POk v l.
Proof. intro H. apply dlift_le. exact H. Qed.
Lemma d_fixed_pad max b l : (length b <= max)%nat -> d_fixed max (len b) (b ++ l) = POk (pad_to max b) l.
Proof.
  intro H. unfold d_fixed. rewrite d_arr_app; [reflexivity|]. unfold len. rewrite Nat2N.id. lia.
Qed.

Lemma land_1_testbit s : N.land s 1 = if N.testbit s 0 then 1 else 0.
Proof. change 1 with (N.ones 1). rewrite N.land_ones. change (2 ^ 1) with 2. rewrite <- N.bit0_mod. destruct (N.testbit s 0); reflexivity. Qed.

Lemma dec_wire_block c s b rest :
  N.testbit s 0 = true -> block_ok c b -> dec_mblock c (wire_block s b ++ rest) = POk (to_mblock b) rest.
Proof.
  intros Hs (H1 & H2 & H3 & H4). ranges. destruct (type_byte b H2) as [T1 T2].
  unfold wire_block, dec_mblock. rewrite <- !app_assoc. cbn [app].
  unfold dbind at 1. rewrite d_u8_cons. unfold d_flags8, dbind at 1. unfold dbind at 1. rewrite d_u8_cons.
  unfold MSPEC_MASK. rewrite land_1_testbit, Hs. cbn [dret].
  unfold dguard at 1. cbn [N.eqb MSPEC_DMTF Pos.eqb].
  unfold dbind at 1. rewrite d_u16_le by lia.
  unfold dguard at 1. replace (3 + len (b_value b) <=? 3 + N.of_nat MAX_MEASUREMENT_VALUE_LEN) with true
    by (symmetry; apply N.leb_le; unfold MAX_MEASUREMENT_VALUE_LEN; lia).
  unfold dbind at 1. unfold dec_dmtf. unfold dbind at 1. rewrite d_u8_cons.
  rewrite T1, T2.
  assert (HT : dmtf_type_ok (b_type b) (if b_raw b then 128 else 0) = true).
  { unfold dmtf_type_ok. destruct (b_raw b); [rewrite andb_false_r; reflexivity|].
    destruct (H4 eq_refl) as (A1 & A2 & A3 & _).
    apply N.eqb_neq in A1, A2, A3. rewrite A1, A2, A3. reflexivity. }
  unfold dguard at 1. rewrite HT.
  unfold dbind at 1. rewrite d_u16_le by lia.
  unfold dguard at 1. replace (len (b_value b) <=? N.of_nat MAX_MEASUREMENT_VALUE_LEN) with true
    by (symmetry; apply N.leb_le; unfold MAX_MEASUREMENT_VALUE_LEN; lia).
  unfold dbind at 1.
  set (q := (if (if b_raw b then 128 else 0) =? 0 then _ else dret tt)).
  assert (HQ : forall l, q l = POk tt l).
  { intro l. unfold q. destruct (b_raw b); [reflexivity|]. cbn [N.eqb].
    destruct (H4 eq_refl) as (_ & _ & _ & A4 & A5). rewrite A5. unfold dbind, dsize, dret, dguard.
    rewrite N.eqb_refl. apply N.eqb_neq in A4. unfold MHASH_RAW. rewrite A4. reflexivity. }
  rewrite HQ. unfold dbind at 1. rewrite d_fixed_pad by (unfold len in H3; unfold MAX_MEASUREMENT_VALUE_LEN; lia).
  unfold dret. unfold dguard. cbn [dm_size]. rewrite N.eqb_refl. reflexivity.
Qed.

(** inversions *)
Lemma d_u8_inv l a r : d_u8 l = POk a r -> l = a :: r.
Proof. destruct l; cbn; intro H; [discriminate|]. inversion H; reflexivity. Qed.
Lemma d_le_inv n l a r : bytes_ok l -> dlift (p_le n) l = POk a r ->
  l = le_bytes n a ++ r /\ a < 256 ^ N.of_nat n.
Proof.
  intros HB H. unfold dlift, p_le in H. destruct (ptake n l) as [[b s]|] eqn:E; [|discriminate].
  apply ptake_Some in E as [-> HL]. assert (le_val b = a /\ s = r) as [<- ->] by (split; congruence).
  apply bytes_ok_app in HB as [HB _]. split.
  - rewrite <- HL, le_bytes_val; auto.
  - pose proof (le_val_lt b HB). unfold len in H0. rewrite HL in H0. exact H0.
Qed.
Lemma d_arr_inv n l a r : d_arr n l = POk a r -> l = a ++ r /\ length a = n.
Proof.
  unfold d_arr, dlift. rewrite p_arr_ptake. destruct (ptake n l) as [[b s]|] eqn:E; [|discriminate].
  intro H. inversion H; subst. apply ptake_Some in E. exact E.
Qed.
Lemma d_fixed_inv max n l a r : n <= N.of_nat max -> d_fixed max n l = POk a r ->
  exists b, l = b ++ r /\ len b = n /\ a = pad_to max b.
Proof.
  intros HM. unfold d_fixed. destruct (d_arr _ l) as [b s| |] eqn:E; try discriminate.
  intro H. inversion H; subst. apply d_arr_inv in E as [-> HL]. exists b. repeat split.
  unfold len. rewrite HL. lia.
Qed.
Lemma dsize_ok {A} (o : option A) l a r : dsize o l = POk a r <-> o = Some a /\ r = l.
Proof.
  destruct o as [x|]; cbn [dsize dopt]; unfold dret, dpanic; (split; [intro H|intros [H1 H2]]).
  - split; congruence.
  - congruence.
  - discriminate.
  - discriminate.
Qed.
Lemma dopt_ok {A} (o : option A) l a r : dopt o l = POk a r <-> o = Some a /\ r = l.
Proof.
  destruct o as [x|]; cbn [dsize dopt]; unfold dret, dnone; (split; [intro H|intros [H1 H2]]).
  - split; congruence.
  - congruence.
  - discriminate.
  - discriminate.
Qed.

Lemma dec_mblock_inv c l m r : bytes_ok l -> dec_mblock c l = POk m r ->
  exists s b, u8 s /\ N.testbit s 0 = true /\ block_ok c b /\ l = wire_block s b ++ r /\ m = to_mblock b.
Proof.
  intros HB H. unfold dec_mblock in H.
  apply dbind_ok in H as (i & l1 & E1 & H). apply d_u8_inv in E1. subst l.
  inversion HB as [|? ? Hi HB1]; subst.
  apply dbind_ok in H as (sp & l2 & E2 & H).
  unfold d_flags8 in E2. apply dbind_ok in E2 as (s & l2' & E2 & E3). apply d_u8_inv in E2. subst l1.
  apply dret_ok in E3 as [-> <-]. inversion HB1 as [|? ? Hs HB2]; subst.
  apply dguard_ok in H as [G H]. unfold MSPEC_MASK, MSPEC_DMTF in G. rewrite land_1_testbit in *.
  destruct (N.testbit s 0) eqn:ES; [|discriminate].
  apply dbind_ok in H as (n & l3 & E4 & H). apply (d_le_inv 2) in E4 as [-> Hn]; auto.
  apply bytes_ok_app in HB2 as [_ HB3].
  apply dguard_ok in H as [G2 H]. apply N.leb_le in G2.
  apply dbind_ok in H as (d & l4 & E5 & H).
  apply dguard_ok in H as [G3 H]. apply N.eqb_eq in G3. apply dret_ok in H as [-> <-].
  unfold dec_dmtf in E5.
  apply dbind_ok in E5 as (f & l5 & E6 & H). apply d_u8_inv in E6. subst l3.
  inversion HB3 as [|? ? Hf HB4]; subst.
  apply dguard_ok in H as [G4 H].
  apply dbind_ok in H as (vn & l6 & E7 & H). apply (d_le_inv 2) in E7 as [-> Hvn]; auto.
  apply bytes_ok_app in HB4 as [_ HB5].
  apply dguard_ok in H as [G5 H]. apply N.leb_le in G5.
  apply dbind_ok in H as (u & l7 & E8 & H).
  apply dbind_ok in H as (v & l8 & E9 & H). apply dret_ok in H as [-> ->]. cbn [dm_size] in *.
  apply d_fixed_inv in E9 as (b & -> & Hb & ->); [|exact G5].
  unfold byte_ok in *.
  set (raw := negb (f <? 128)).
  assert (HF : f = f mod 128 + (if raw then 128 else 0)).
  { unfold raw. destruct (N.ltb_spec f 128); cbn [negb]; lia. }
  assert (H80 : N.land f 0x80 = if raw then 0x80 else 0).
  { rewrite land_80 by auto. unfold raw. destruct (f <? 128); reflexivity. }
  rewrite land_128, H80 in *.
  assert (l6 = b ++ l8 /\ (raw = false -> n_mhash (c_nego c) <> 1 /\ mhash_size (n_mhash (c_nego c)) = Some vn)) as [-> HM].
  { destruct raw; cbn [N.eqb] in E8.
    - apply dret_ok in E8 as [_ E8]. split; [congruence|discriminate].
    - apply dbind_ok in E8 as (sz & l9 & E8 & E10). apply dsize_ok in E8 as [E8 ->].
      apply dguard_ok in E10 as [G6 E10]. apply dret_ok in E10 as [_ E10].
      apply andb_true_iff in G6 as [G6 G7]. apply N.eqb_eq in G6. apply negb_true_iff, N.eqb_neq in G7.
      split; [congruence|]. intros _. split; auto. rewrite E8, G6. reflexivity. }
  exists s, (mkSBlock i (f mod 128) raw b). repeat split; cbn [b_index b_type b_raw b_value].
  - exact Hs.
  - exact ES.
  - exact Hi.
  - apply N.mod_lt. lia.
  - rewrite Hb. exact G5.
  - cbn [b_raw] in H; unfold dmtf_type_ok in G4; rewrite H in G4. cbn [N.eqb] in G4. rewrite andb_true_r in G4.
    intro E. rewrite E in G4. discriminate.
  - cbn [b_raw] in H; unfold dmtf_type_ok in G4; rewrite H in G4. cbn [N.eqb] in G4. rewrite andb_true_r in G4.
    intro E. rewrite E in G4. discriminate.
  - cbn [b_raw] in H; unfold dmtf_type_ok in G4; rewrite H in G4. cbn [N.eqb] in G4. rewrite andb_true_r in G4.
    intro E. rewrite E in G4. discriminate.
  - apply HM; auto.
  - rewrite Hb. apply HM; auto.
  - unfold wire_block. cbn [b_index b_type b_raw b_value]. rewrite <- !app_assoc. cbn [app].
    rewrite <- HF, Hb. reflexivity.
  - unfold to_mblock. cbn [b_index b_type b_raw b_value]. rewrite Hb. reflexivity.
Qed.

Definition wire_blocks (bs : list (N * block)) : bytes := flat_map (fun sb => wire_block (fst sb) (snd sb)) bs.
Definition blocks_ok c (bs : list (N * block)) : Prop :=
  Forall (fun sb => u8 (fst sb) /\ N.testbit (fst sb) 0 = true /\ block_ok c (snd sb)) bs.

Lemma d_blocks_wire c bs : forall cur rest,
  blocks_ok c bs -> StronglySorted N.lt (cur :: map (fun sb => b_index (snd sb)) bs) ->
  d_blocks c (length bs) cur (wire_blocks bs ++ rest) = POk (map (fun sb => to_mblock (snd sb)) bs) rest.
Proof.
  induction bs as [|[s b] bs IH]; intros cur rest HO HS; [reflexivity|].
  inversion HO as [|? ? (_ & Hs & Hb) HO']; subst. inversion HS as [|? ? HS' HF]; subst.
  cbn [wire_blocks flat_map d_blocks length map fst snd] in *.
  rewrite <- app_assoc. unfold dbind at 1. rewrite dec_wire_block by auto.
  inversion HF as [|? ? Hc _]; subst. unfold dguard.
  replace (cur <? mb_index (to_mblock b)) with true by (symmetry; apply N.ltb_lt; exact Hc).
  unfold dbind at 1. unfold wire_blocks in IH. change (mb_index (to_mblock b)) with (b_index b).
  rewrite IH; auto.
Qed.

Lemma ss_cons_lt (cur : N) l : StronglySorted N.lt l -> (match l with [] => True | x :: _ => cur < x end) ->
  StronglySorted N.lt (cur :: l).
Proof.
  intros H HL. constructor; auto. destruct l as [|x l]; constructor; auto.
  inversion H as [|? ? _ HF]; subst. rewrite Forall_forall in *. intros y Hy. specialize (HF y Hy). lia.
Qed.

Lemma d_blocks_inv c n : forall cur l ms r,
  bytes_ok l -> d_blocks c n cur l = POk ms r ->
  exists bs, length bs = n /\ blocks_ok c bs /\ l = wire_blocks bs ++ r /\
    StronglySorted N.lt (cur :: map (fun sb => b_index (snd sb)) bs).
Proof.
  induction n as [|n IH]; intros cur l ms r HB H; cbn [d_blocks] in H.
  - apply dret_ok in H as [_ ->]. exists []. repeat split; constructor; constructor.
  - apply dbind_ok in H as (b & l1 & E1 & H). apply dguard_ok in H as [G H]. apply N.ltb_lt in G.
    apply dbind_ok in H as (bs & l2 & E2 & H). apply dret_ok in H as [-> ->].
    destruct (dec_mblock_inv _ _ _ _ HB E1) as (s & b' & A1 & A2 & A3 & -> & ->).
    apply bytes_ok_app in HB as [_ HB].
    destruct (IH _ _ _ _ HB E2) as (bs' & B1 & B2 & -> & B4).
    exists ((s, b') :: bs'). cbn [length wire_blocks flat_map map fst snd].
    rewrite app_assoc. repeat split; auto.
    + constructor; auto.
    + apply ss_cons_lt; [exact B4|exact G].
Qed.

(** verify_measurement_record accepts exactly the well-formed records *)
Lemma verify_record_complete c m b :
  length b = N.to_nat (mr_length m) -> firstn (N.to_nat (mr_length m)) (mr_data m) = b ->
  record_bytes_ok c (mr_blocks m) b -> verify_record c m = Some true.
Proof.
  intros HL HF (bs & H1 & H2 & H3 & H4). unfold verify_record. rewrite HF, H2, <- H1.
  rewrite <- (app_nil_r (flat_map _ bs)).
  pose proof (d_blocks_wire c bs 0 [] H3 H4) as E. unfold wire_blocks in E. rewrite E. reflexivity.
Qed.
Lemma verify_record_sound c m :
  bytes_ok (mr_data m) -> verify_record c m = Some true ->
  record_bytes_ok c (mr_blocks m) (firstn (N.to_nat (mr_length m)) (mr_data m)).
Proof.
  intros HB H. unfold verify_record in H.
  destruct (d_blocks c _ 0 _) as [ms [|x r]| |] eqn:E; try discriminate.
  apply d_blocks_inv in E as (bs & H1 & H2 & H3 & H4); [|apply bytes_ok_firstn; auto].
  rewrite app_nil_r in H3. exists bs. auto.
Qed.

Lemma rt_mrecord c m : ok_mrecord c m -> rt (enc_mrecord m) (dec_mrecord c) m.
Proof.
  intros (H1 & H2 & b & HL & HD & HR).
  assert (HP : padded 4000 (mr_length m) (mr_data m)).
  { exists b. repeat split; auto; [lia|]. rewrite HD. unfold pad_to. rewrite firstn_all2 by lia. reflexivity. }
  unfold enc_mrecord, dec_mrecord. rt1. eapply rt_bind; [apply rt_u24; lia|].
  apply rt_guard; [apply N.leb_le; unfold MAX_MEASUREMENT_RECORD_SIZE; lia|].
  eapply rt_bind_last; [apply rt_fixed; exact HP|].
  eapply rt_size.
  { eapply verify_record_complete; cbn [mr_length mr_data mr_blocks]; [exact HL| |exact HR].
    rewrite HD. apply firstn_app_exact; auto. }
  apply rt_guard; [reflexivity|]. destruct m; apply rt_ret.
Qed.
Lemma xw_mrecord m : xwire (enc_mrecord m) = Some (wire_mrecord m).
Proof. unfold enc_mrecord. eapply xw_eq; [xwa|reflexivity]. Qed.

(** ** measurement messages *)
Lemma contains_1 a : contains a 1 = N.testbit a 0.
Proof. unfold contains. rewrite land_1_testbit. destruct (N.testbit a 0); reflexivity. Qed.

Lemma rt_get_meas c p : ok_get_meas c p -> rt (enc_get_meas c p) (dec_get_meas c) p.
Proof.
  intros (H1 & H2 & H3 & H4). unfold enc_get_meas, dec_get_meas.
  eapply rt_bind.
  { apply rt_flags8_strict. assert (gm_attr p = 0 \/ gm_attr p = 1 \/ gm_attr p = 2 \/ gm_attr p = 3) as [->|[->|[->| ->]]] by lia; reflexivity. }
  rt1. unfold MEAS_ATTR_SIG. rewrite contains_1. destruct (N.testbit (gm_attr p) 0).
  - destruct H4 as [H4 H5]. cbn [enc_opt dec_opt andb].
    eapply rt_bind; [apply rt_nonce; exact H4|]. rewrite ver_ge_spec.
    eapply rt_bind_last.
    { apply (rt_dec_opt (V11 <=? version_of c) (x_u8 (gm_slot p)) d_u8 0 (gm_slot p)).
      - intros _. apply rt_u8.
      - intro L. apply N.leb_gt in L. auto. }
    destruct p; apply rt_ret.
  - destruct H4 as [H4 H5]. cbn [enc_opt dec_opt andb]. do 2 apply rt_retbind.
    destruct p; cbn in *; subst. apply rt_ret.
Qed.
Lemma xw_get_meas c p : xwire (enc_get_meas c p) = Some (wire_get_meas c p).
Proof.
  unfold enc_get_meas, MEAS_ATTR_SIG. rewrite contains_1. eapply xw_eq.
  - xwa. apply xw_opt. intros _. xwa. apply xw_opt. intros _. apply xw_u8.
  - reflexivity.
Qed.

Lemma meas_param2_eq c p : ok_meas c p -> meas_param2 c p = ms_slot p + ms_changed p.
Proof.
  intros (_ & _ & H1 & H2 & H3 & H4 & _). unfold meas_param2. rewrite !ver_ge_spec.
  assert (HI : In (ms_changed p) [0; 0x10; 0x20; 0x30; 0x80]) by (cbn in *; intuition).
  destruct (nibbles _ _ H1 HI) as (_ & _ & _ & N4 & _).
  destruct (N.leb_spec V12 (version_of c)) as [L|L].
  - destruct (N.leb_spec V11 (version_of c)) as [L'|L']; [|unfold V11, V12 in *; lia].
    destruct (c_need_sig c); cbn [andb].
    + exact N4.
    + rewrite H3, H4 by (intros [? ?]; congruence). reflexivity.
  - rewrite H3 by (intros [? ?]; lia). rewrite N.add_0_r. cbn [andb].
    destruct (N.leb_spec V11 (version_of c)) as [L'|L']; destruct (c_need_sig c); cbn [andb]; auto;
      symmetry; apply H4; intros [? ?]; (congruence || lia).
Qed.

Lemma rt_meas c p : ok_meas c p -> rt (enc_meas_rsp c p) (dec_meas_rsp c) p.
Proof.
  intro H. pose proof (meas_param2_eq _ _ H) as E.
  destruct H as (H0 & H1 & H2 & H3 & _ & _ & H6 & H7 & H8 & H9).
  assert (HI : In (ms_changed p) [0; 0x10; 0x20; 0x30; 0x80]) by (cbn in *; intuition).
  destruct (nibbles _ _ H2 HI) as (_ & N2 & _ & _ & N5).
  unfold enc_meas_rsp, dec_meas_rsp. rewrite E.
  replace (ms_number p =? 1) with false by (symmetry; apply N.eqb_neq; auto).
  do 2 rt1. eapply rt_opt with (n := ms_changed p).
  { rewrite N5. cbn in H3. destruct H3 as [<-|[<-|[<-|[<-|[]]]]]; reflexivity. }
  eapply rt_bind; [apply rt_mrecord; exact H6|]. do 3 rt1.
  rewrite N2. destruct p; apply rt_ret.
Qed.
Lemma xw_meas c p : ok_meas c p -> xwire (enc_meas_rsp c p) = Some (wire_meas c p).
Proof.
  intro H. pose proof (meas_param2_eq _ _ H) as E.
  destruct H as (H0 & H1 & H2 & H3 & _ & _ & H6 & H7 & H8 & H9).
  unfold enc_meas_rsp. rewrite E.
  replace (ms_number p =? 1) with false by (symmetry; apply N.eqb_neq; auto).
  eapply xw_eq; [xwa; first [apply xw_mrecord | apply xw_opt_sig; exact H9]|reflexivity].
Qed.

(** ** sessions *)
Lemma in_clear_spec c : in_clear c = clear_handshake c. Proof. reflexivity. Qed.

Lemma rt_key_ex c p : ok_key_ex c p -> rt (enc_key_ex c p) (dec_key_ex c) p.
Proof.
  intros (H1 & H2 & H3 & H4 & H5 & H6 & H7 & H8). ranges. unfold enc_key_ex, dec_key_ex. rt1.
  apply rt_guard; [apply mhash_type_ok_spec; auto|]. do 2 rt1.
  rewrite ver_ge_spec. destruct (N.leb_spec V12 (version_of c)).
  - do 5 rt1. destruct p; apply rt_ret.
  - specialize (H5 H). rewrite H5 in *. do 5 rt1. destruct p; cbn in *; subst; apply rt_ret.
Qed.
Lemma xw_key_ex c p : ok_key_ex c p -> xwire (enc_key_ex c p) = Some (wire_key_ex p).
Proof.
  intros (H1 & H2 & H3 & H4 & H5 & H6 & H7 & H8). unfold enc_key_ex.
  rewrite ver_ge_spec. unfold wire_key_ex. destruct (N.leb_spec V12 (version_of c)).
  - eapply xw_eq; [xwa|reflexivity].
  - specialize (H5 H). rewrite H5 in *. eapply xw_eq; [xwa|reflexivity].
Qed.

Lemma present_neg (b : bool) P Q : present b P Q -> present (negb b) Q P.
Proof. destruct b; auto. Qed.

Lemma rt_key_ex_rsp c p : ok_key_ex_rsp c p -> rt (enc_key_ex_rsp c p) (dec_key_ex_rsp c) p.
Proof.
  intros (H1 & H2 & H3 & H4 & H5 & H6 & H7 & H8 & H9 & H10). ranges. apply present_neg in H10.
  unfold enc_key_ex_rsp, dec_key_ex_rsp. rewrite in_clear_spec. do 3 rt1.
  eapply rt_bind.
  { apply rt_flags8_strict. cbn in H3. destruct H3 as [<-|[<-|[<-|[<-|[]]]]]; reflexivity. }
  rt1. apply rt_guard.
  { cbn in H3. destruct H3 as [<-|[<-|[<-|[<-|[]]]]]; reflexivity. }
  do 6 rt1. destruct p; apply rt_ret.
Qed.
Lemma xw_key_ex_rsp c p : ok_key_ex_rsp c p -> xwire (enc_key_ex_rsp c p) = Some (wire_key_ex_rsp c p).
Proof.
  intros (H1 & H2 & H3 & H4 & H5 & H6 & H7 & H8 & H9 & H10). apply present_neg in H10.
  unfold enc_key_ex_rsp. rewrite in_clear_spec.
  eapply xw_eq; [xwa; [apply xw_opt_digest; exact H7|apply xw_opt_digest; exact H10]|reflexivity].
Qed.

Lemma rt_finish c p : ok_finish c p -> rt (enc_finish c p) (dec_finish c) p.
Proof.
  intros (H1 & H2 & H3). unfold enc_finish, dec_finish.
  eapply rt_bind; [apply rt_flags8_strict; destruct H1 as [[-> _]|[-> _]]; reflexivity|]. rt1.
  eapply rt_bind.
  { apply rt_opt_sig. unfold FINISH_SIG. destruct H1 as [[-> H]|[-> H]]; exact H. }
  rt1. destruct p; apply rt_ret.
Qed.
Lemma xw_finish c p : ok_finish c p -> xwire (enc_finish c p) = Some (wire_finish p).
Proof.
  intros (H1 & H2 & H3). unfold enc_finish, wire_finish.
  destruct H1 as [[-> H]|[-> H]]; change (contains 0 FINISH_SIG) with false; change (contains 1 FINISH_SIG) with true; cbn [enc_opt].
  - rewrite (absent_content _ _ H). eapply xw_eq; [xwa; reflexivity|reflexivity].
  - eapply xw_eq; [xwa|reflexivity].
Qed.
Lemma rt_finish_rsp c v : ok_finish_rsp c v -> rt (enc_finish_rsp c v) (dec_finish_rsp c) v.
Proof.
  intro H. unfold enc_finish_rsp, dec_finish_rsp. rewrite in_clear_spec. do 2 rt1.
  eapply rt_bind_last; [apply rt_opt_digest; exact H|apply rt_ret].
Qed.
Lemma xw_finish_rsp c v : ok_finish_rsp c v -> xwire (enc_finish_rsp c v) = Some (wire_finish_rsp v).
Proof.
  intro H. unfold enc_finish_rsp, wire_finish_rsp. rewrite in_clear_spec. unfold ok_finish_rsp in H.
  eapply xw_eq; [xwa; apply xw_opt_digest; exact H|].
  destruct (clear_handshake c); cbn [when present] in *; [reflexivity|].
  rewrite (absent_content _ _ H). reflexivity.
Qed.

Lemma buf_ok_le max v : buf_ok max v -> v_size v <= N.of_nat max.
Proof. intros (b & H1 & H2 & _). lia. Qed.

Lemma rt_psk_ex c p : ok_psk_ex c p -> rt (enc_psk_ex p) (dec_psk_ex c) p.
Proof.
  intros (H1 & H2 & H3 & H4 & H5). ranges.
  pose proof (buf_ok_le _ _ H3). pose proof (buf_ok_le _ _ H4). pose proof (buf_ok_le _ _ H5).
  unfold enc_psk_ex, dec_psk_ex. rt1.
  apply rt_guard; [apply mhash_type_ok_spec; auto|]. do 2 rt1.
  rt1; apply rt_guard; [apply N.leb_le; assumption|].
  rt1; apply rt_guard; [apply N.leb_le; assumption|].
  rt1; apply rt_guard; [apply N.leb_le; assumption|].
  eapply rt_bind; [apply rt_fixed, buf_ok_padded; exact H3|].
  eapply rt_bind; [apply rt_fixed, buf_ok_padded; exact H4|].
  eapply rt_bind_last; [apply rt_fixed, buf_ok_padded; exact H5|].
  destruct p as [? ? [] [] []]; apply rt_ret.
Qed.
Lemma xw_psk_ex p : xwire (enc_psk_ex p) = Some (wire_psk_ex p).
Proof. unfold enc_psk_ex. eapply xw_eq; [xwa|reflexivity]. Qed.

Lemma psk_ctx_size c p : ok_psk_ex_rsp c p -> psk_no_ctx c = (v_size (pr_context p) =? 0).
Proof.
  intros (_ & _ & _ & _ & H & _). unfold psk_no_ctx, rsp_has. unfold peer_has in H.
  rewrite <- contains_has in H. destruct (contains _ RSP_PSK_WITHOUT_CTX).
  - symmetry. apply N.eqb_eq. tauto.
  - symmetry. apply N.eqb_neq. intro E. apply H in E. discriminate.
Qed.
Lemma psk_ctx_size_enc c p : ok_psk_ex_rsp c p ->
  (if psk_no_ctx c then x_u16 0 else x_u16 (v_size (pr_context p))) = x_u16 (v_size (pr_context p)).
Proof.
  intro H. rewrite (psk_ctx_size c p H). destruct (N.eqb_spec (v_size (pr_context p)) 0) as [->|]; reflexivity.
Qed.
Lemma psk_ctx_data_enc c p : ok_psk_ex_rsp c p ->
  enc_opt (negb (psk_no_ctx c)) (x_arr (v_bytes (pr_context p))) = x_arr (v_bytes (pr_context p)).
Proof.
  intro H. rewrite (psk_ctx_size c p H). unfold v_bytes.
  destruct (N.eqb_spec (v_size (pr_context p)) 0) as [->|]; reflexivity.
Qed.
Lemma rt_psk_ex_rsp c p : ok_psk_ex_rsp c p -> rt (enc_psk_ex_rsp c p) (dec_psk_ex_rsp c) p.
Proof.
  intro H. unfold enc_psk_ex_rsp, dec_psk_ex_rsp.
  rewrite psk_ctx_size_enc, psk_ctx_data_enc by auto.
  pose proof (psk_ctx_size _ _ H) as E.
  destruct H as (H1 & H2 & H3 & H4 & _ & H6 & H7). ranges.
  pose proof (buf_ok_le _ _ H4). pose proof (buf_ok_le _ _ H6).
  do 4 rt1. rt1. apply rt_guard; [rewrite E; apply Bool.eqb_reflx|].
  apply rt_guard; [apply N.leb_le; assumption|].
  rt1. apply rt_guard; [apply N.leb_le; assumption|].
  rt1.
  eapply rt_bind; [apply rt_fixed, buf_ok_padded; exact H4|].
  eapply rt_bind; [apply rt_fixed, buf_ok_padded; exact H6|].
  rt1. destruct p as [? ? ? [] [] ?]; apply rt_ret.
Qed.
Lemma xw_psk_ex_rsp c p : ok_psk_ex_rsp c p -> xwire (enc_psk_ex_rsp c p) = Some (wire_psk_ex_rsp c p).
Proof.
  intro H. unfold enc_psk_ex_rsp. rewrite psk_ctx_size_enc, psk_ctx_data_enc by auto.
  destruct H as (H1 & H2 & H3 & H4 & _ & H6 & H7).
  eapply xw_eq; [xwa; apply xw_opt_digest; exact H3|reflexivity].
Qed.

Lemma rt_psk_finish c v : digest_ok c v -> rt (enc_psk_finish c v) (dec_psk_finish c) v.
Proof. intro H. unfold enc_psk_finish, dec_psk_finish. do 3 rt1. rt1. Qed.
Lemma xw_psk_finish c v : digest_ok c v -> xwire (enc_psk_finish c v) = Some (wire_psk_finish v).
Proof. intro H. unfold enc_psk_finish. eapply xw_eq; [xwa|reflexivity]. Qed.

Lemma rt_key_update p : ok_key_update p -> rt (enc_key_update p) dec_key_update p.
Proof.
  intros [H1 H2]. unfold enc_key_update, dec_key_update. do 2 rt1.
  apply rt_guard; [cbn in H1; destruct H1 as [<-|[<-|[<-|[]]]]; reflexivity|]. destruct p; apply rt_ret.
Qed.
Lemma xw_key_update p : xwire (enc_key_update p) = Some (wire_key_update p).
Proof. reflexivity. Qed.
Lemma rt_end_session a : ok_end_session a -> rt (enc_end_session a) dec_end_session a.
Proof.
  intro H. unfold enc_end_session, dec_end_session.
  eapply rt_bind; [apply rt_flags8_strict; destruct H as [->| ->]; reflexivity|]. do 2 rt1.
Qed.
Lemma xw_end_session a : xwire (enc_end_session a) = Some (wire_end_session a).
Proof. reflexivity. Qed.

(** ** errors, vendor, encapsulated *)
Lemma rt_not_ready q : rt (enc_not_ready q) dec_not_ready q.
Proof. unfold enc_not_ready, dec_not_ready. do 4 rt1. destruct q; apply rt_ret. Qed.

(** an ERROR with vendor extended data takes all that follows (up to 32 bytes) as data,
    so it round-trips only at the end of the input, or when its data fills the array *)
Definition open_ended (p : error_rsp) : Prop :=
  match er_ext p with XVendor v => v_size v < 32 | _ => False end.

Lemma rt_error p : ok_error p -> ~ open_ended p -> rt (enc_error p) dec_error p.
Proof.
  intros (H1 & H2 & H3) HO. unfold enc_error, dec_error. do 2 rt1.
  unfold open_ended in HO. destruct p as [code data ext]; cbn [er_code er_data er_ext] in *.
  destruct ext as [|q|v].
  - destruct H3 as [A B]. replace (code =? ERR_NOT_READY) with false by (symmetry; apply N.eqb_neq; auto).
    replace (code =? ERR_VENDOR) with false by (symmetry; apply N.eqb_neq; auto).
    apply rt_retbind. apply rt_ret.
  - destruct H3 as [-> _]. cbn [N.eqb ERR_NOT_READY Pos.eqb].
    eapply rt_bind_last.
    { eapply rt_bind_last; [apply rt_not_ready|apply rt_ret]. }
    apply rt_ret.
  - destruct H3 as [-> H3]. change (0xFF =? ERR_NOT_READY) with false. change (0xFF =? ERR_VENDOR) with true. cbn iota.
    eapply rt_bind_last; [|apply rt_ret].
    eapply rt_bind_last; [|apply rt_ret].
    pose proof (buf_ok_le _ _ H3). destruct v as [n d]. cbn [v_size] in *.
    assert (n = 32) as -> by lia. destruct H3 as (b & B1 & B2 & B3). cbn [v_size v_data] in *.
    change (N.to_nat 32) with 32%nat in *. rewrite B1 in B3. cbn [Nat.sub fill repeat] in B3. rewrite app_nil_r in B3. subst d.
    exists b. unfold enc_vendor_ext, v_bytes. cbn [v_size v_data]. rewrite xwire_arr_cnt, xcount_arr_cnt.
    change (N.to_nat 32) with 32%nat. rewrite (firstn_all2 b) by lia. repeat split.
    + unfold len. rewrite B1. reflexivity.
    + intro rest. unfold dec_vendor_ext. rewrite firstn_app_exact, skipn_app_exact by auto.
      unfold len, pad_to. rewrite B1, (firstn_all2 b) by lia. cbn [Nat.sub fill repeat]. rewrite app_nil_r. reflexivity.
Qed.
Lemma xw_error p : xwire (enc_error p) = Some (wire_error p).
Proof.
  unfold enc_error. destruct p as [code data ext]; cbn [er_code er_data er_ext].
  destruct ext as [|q|v].
  - eapply xw_eq; [xwa; reflexivity|reflexivity].
  - eapply xw_eq; [xwa; unfold enc_not_ready; xwa|reflexivity].
  - eapply xw_eq; [xwa; apply xwire_arr_cnt|reflexivity].
Qed.
Lemma xcount_error p : ok_error p -> xcount (enc_error p) = len (wire_error p).
Proof.
  intros (_ & _ & H). unfold enc_error. destruct p as [code data ext]; cbn [er_code er_data er_ext] in *.
  unfold wire_error. cbn [er_code er_data er_ext]. destruct ext as [|q|v]; try reflexivity.
  rewrite !xcount_app. unfold enc_vendor_ext. rewrite xcount_arr_cnt, len_app.
  destruct H as [_ (b & B1 & B2 & B3)]. unfold content. rewrite B3, firstn_app_exact by auto.
  unfold len. rewrite B1. cbn [xcount x_u8 x_of map length e_u8 app]. cbn [len]. unfold len. cbn [length]. lia.
Qed.
Lemma dec_error_end p : ok_error p -> dec_error (wire_error p) = POk p [].
Proof.
  intros (H1 & H2 & H3). unfold wire_error, dec_error. cbn [app].
  destruct p as [code data ext]; cbn [er_code er_data er_ext] in *.
  unfold dbind at 1. rewrite d_u8_cons. unfold dbind at 1. rewrite d_u8_cons.
  destruct ext as [|q|v].
  - destruct H3 as [A B]. replace (code =? ERR_NOT_READY) with false by (symmetry; apply N.eqb_neq; auto).
    replace (code =? ERR_VENDOR) with false by (symmetry; apply N.eqb_neq; auto). reflexivity.
  - destruct H3 as [-> _]. destruct q; reflexivity.
  - destruct H3 as [-> (b & B1 & B2 & B3)]. change (0xFF =? ERR_NOT_READY) with false. change (0xFF =? ERR_VENDOR) with true. cbn iota.
    unfold content. destruct v as [n d]. cbn [v_size v_data] in *. subst d. rewrite firstn_app_exact by auto.
    unfold dbind, dec_vendor_ext. rewrite firstn_all2, skipn_all2 by lia. unfold dret, pad_to.
    rewrite firstn_all2 by lia. repeat f_equal. unfold len. lia.
Qed.

Lemma rt_vendor p : ok_vendor p -> rt (enc_vendor p) dec_vendor p.
Proof.
  intros (H1 & H2 & H3 & H4 & b & B1 & B2). ranges. unfold enc_vendor, dec_vendor. do 4 rt1.
  eapply rt_bind; [apply rt_fixed, buf_ok_padded; exact H3|]. rt1.
  eapply rt_bind_last; [eapply rt_fixed_trunc; eauto|]. destruct p as [? [] []]; apply rt_ret.
Qed.
Lemma xw_vendor p : xwire (enc_vendor p) = Some (wire_vendor p).
Proof. unfold enc_vendor. eapply xw_eq; [xwa|reflexivity]. Qed.

Lemma rt_encap_id i : rt (enc_encap_id i) dec_encap_id i.
Proof. unfold enc_encap_id, dec_encap_id. do 3 rt1. Qed.
Lemma rt_encap_ack c p : ok_encap_ack c p -> rt (enc_encap_ack c p) (dec_encap_ack c) p.
Proof.
  intros (H1 & H2 & H3 & H4). unfold enc_encap_ack, dec_encap_ack. do 2 rt1.
  eapply rt_bind_last with (a := ek_ack_id p).
  { apply rt_dec_opt; intro E; rewrite ver_ge_spec in E.
    - rt1. eapply rt_bind_last; [apply rt_u24; lia|apply rt_ret].
    - apply N.leb_gt in E. auto. }
  destruct p; apply rt_ret.
Qed.
Lemma xw_encap_ack c p : xwire (enc_encap_ack c p) = Some (wire_encap_ack c p).
Proof.
  unfold enc_encap_ack. eapply xw_eq; [xwa; apply xw_opt; intros _; xwa|reflexivity].
Qed.
