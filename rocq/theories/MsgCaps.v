(** Capability checks (C16), algorithm priorities (C17), algorithm prerequisites (C51). *)
From Coq Require Import Sorting.Sorted.
From Verif Require Import Bytes BytesFacts Codec CodecProofs Parse ParseProofs Algo MsgConn MsgAuth MsgSession MsgOther Message SpecMsg MsgProofs MsgRound MsgRound2 MsgLocal.
Local Open Scope N_scope.

Definition table_of (f : family) : list N :=
  match f with FMeasSpec => mspec_prio | FAsym => asym_prio | FHash => hash_prio | FDhe => dhe_prio
             | FAead => aead_prio | FReqAsym => req_asym_prio | FKeySched => ks_prio end.

Lemma table_pref f : table_of f = preference f. Proof. destruct f; reflexivity. Qed.
Lemma pref_bits f x : In x (preference f) -> one_bit (family_mask f) x.
Proof.
  intro H. unfold one_bit, within.
  destruct f; cbn in H; repeat (destruct H as [<-|H]; [
    first [exists 0; split; reflexivity | exists 1; split; reflexivity | exists 2; split; reflexivity
          |exists 3; split; reflexivity |exists 4; split; reflexivity |exists 5; split; reflexivity
          |exists 6; split; reflexivity |exists 7; split; reflexivity]|]); contradiction.
Qed.
Lemma land_bit s k : N.land s (2 ^ k) = if N.testbit s k then 2 ^ k else 0.
Proof.
  apply N.bits_inj. intro i. rewrite N.land_spec. destruct (N.eq_dec i k) as [->|Hn].
  - rewrite N.pow2_bits_true. rewrite Bool.andb_true_r. destruct (N.testbit s k); [rewrite N.pow2_bits_true|]; reflexivity.
  - rewrite N.pow2_bits_false by congruence. rewrite Bool.andb_false_r.
    destruct (N.testbit s k); [rewrite N.pow2_bits_false by congruence|]; reflexivity.
Qed.
Lemma has_bit s k : has s (2 ^ k) <-> N.testbit s k = true.
Proof.
  unfold has. rewrite land_bit. pose proof (N.pow_nonzero 2 k ltac:(lia)).
  destruct (N.testbit s k); split; intro; auto; try congruence; discriminate.
Qed.
Lemma both_bit a b mask x : one_bit mask x -> (N.land (N.land a b) x <> 0 <-> has a x /\ has b x).
Proof.
  intros (k & -> & _). rewrite !has_bit, land_bit, N.land_spec. pose proof (N.pow_nonzero 2 k ltac:(lia)).
  destruct (N.testbit a k), (N.testbit b k); cbn [andb]; intuition congruence.
Qed.
Lemma prio_loop_spec mask s tbl :
  (prio_loop tbl s = 0 /\ Forall (fun x => N.land s x = 0) tbl) \/
  (exists b w, tbl = b ++ prio_loop tbl s :: w /\ N.land s (prio_loop tbl s) <> 0 /\ Forall (fun x => N.land s x = 0) b)
  \/ ~ Forall (fun x => one_bit mask x) tbl.
Proof.
  induction tbl as [|x t IH]; cbn [prio_loop]; [auto|].
  destruct (N.eqb_spec (N.land s x) 0) as [E|E]; cbn [negb].
  - destruct IH as [[H1 H2]|[(b & w & H1 & H2 & H3)|H]].
    + left; auto.
    + right; left. exists (x :: b), w. cbn [app]. rewrite <- H1. auto.
    + right; right. intro F. inversion F; auto.
  - right; left. exists [], t. auto.
Qed.
Lemma pow2_ne0 mask x : one_bit mask x -> x <> 0.
Proof. intros (k & -> & _). apply N.pow_nonzero. lia. Qed.

Lemma prioritize_best f a b : best_common f a b (prioritize (table_of f) a b).
Proof.
  unfold prioritize, best_common. rewrite table_pref.
  destruct (prio_loop_spec (family_mask f) (N.land a b) (preference f)) as [[H1 H2]|[(p & w & H1 & H2 & H3)|H]].
  - left. split; auto. intros x Hx. rewrite Forall_forall in H2. specialize (H2 x Hx).
    rewrite <- (both_bit a b _ x (pref_bits f x Hx)). tauto.
  - right. exists p, w. split; auto.
    assert (HI : In (prio_loop (preference f) (N.land a b)) (preference f)) by (rewrite H1 at 2; apply in_or_app; right; left; auto).
    pose proof (pref_bits f _ HI) as HB. apply (both_bit a b _ _ HB) in H2 as [A B]. repeat split; auto.
    intros x Hx. rewrite Forall_forall in H3. specialize (H3 x Hx).
    assert (HX : In x (preference f)) by (rewrite H1; apply in_or_app; left; auto).
    rewrite <- (both_bit a b _ x (pref_bits f x HX)). tauto.
  - exfalso. apply H. rewrite Forall_forall. apply pref_bits.
Qed.
Lemma land_fold s tbl : N.land s (fold_right N.lor 0 tbl) = 0 <-> Forall (fun x => N.land s x = 0) tbl.
Proof.
  induction tbl as [|x t IH]; cbn [fold_right].
  - rewrite N.land_0_r. split; auto.
  - rewrite N.land_lor_distr_r, N.lor_eq_0_iff, IH. split; [intros [A B]; auto|intro F; inversion F; auto].
Qed.
Lemma mask_fold f : family_mask f = fold_right N.lor 0 (preference f). Proof. destruct f; reflexivity. Qed.
Lemma prioritize_zero f a b : prioritize (table_of f) a b = 0 <-> shared f a b = 0.
Proof.
  unfold shared. rewrite mask_fold, land_fold. destruct (prioritize_best f a b) as [[H1 H2]|(p & w & H1 & A & B & HB & _)].
  - split; auto. intros _. rewrite Forall_forall. intros x Hx. specialize (H2 x Hx).
    rewrite <- (both_bit a b _ x (pref_bits f x Hx)) in H2. destruct (N.eq_dec (N.land (N.land a b) x) 0); tauto.
  - pose proof (pow2_ne0 _ _ HB) as HN. split; [intro; contradiction|]. intro F. exfalso.
    assert (HI : In (prioritize (table_of f) a b) (preference f)) by (rewrite H1; apply in_or_app; right; left; auto).
    rewrite Forall_forall in F. specialize (F _ HI). apply (both_bit a b _ _ HB) in F; auto.
Qed.

(** ** C16 *)
Lemma d_u32_le v l : u32 v -> d_u32 (le_bytes 4 v ++ l) = POk v l.
Proof. intro H. apply dlift_le. exact H. Qed.
Lemma d_u16_2 a b l : d_u16 (a :: b :: l) = POk (le_val [a; b]) l. Proof. reflexivity. Qed.

Lemma dec_sizes c d m rest : u32 d -> u32 m ->
  (if ver_ge c V12 then (d <- d_u32 ;; m <- d_u32 ;; guard (sizes_ok d m) ;; dret (d, m))%dec else dret (0, 0))
    (when (V12 <=? version_of c) (le_bytes 4 d ++ le_bytes 4 m) ++ rest) =
  if V12 <=? version_of c then if sizes_ok d m then POk (d, m) rest else PNone else POk (0, 0) rest.
Proof.
  intros Hd Hm. rewrite ver_ge_spec. destruct (V12 <=? version_of c); cbn [when].
  - unfold dbind at 1. rewrite <- app_assoc, d_u32_le by auto. unfold dbind at 1. rewrite d_u32_le by auto.
    unfold dguard. destruct (sizes_ok d m); reflexivity.
  - reflexivity.
Qed.
Lemma sizes_ok_iff d m : u32 m -> (sizes_ok d m = true <-> sizes_consistent d m).
Proof.
  intro Hm. unfold sizes_ok, sizes_consistent. rewrite Bool.negb_true_iff, Bool.orb_false_iff, !N.ltb_ge. tauto.
Qed.

Lemma get_caps_iff c r ct f d m rest p : V11 <= version_of c -> u32 f -> u32 d -> u32 m ->
  (dec_get_capabilities c (get_caps_bytes c r ct f d m ++ rest) = POk p rest <->
   req_caps_consistent (version_of c) (N.land f REQ_CAP_MASK) /\
   (V12 <= version_of c -> sizes_consistent d m) /\ p = decoded_caps c REQ_CAP_MASK ct f d m).
Proof.
  intros HV Hf Hd Hm. destruct r as [[[[r1 r2] r3] r4] r5]. unfold get_caps_bytes, dec_get_capabilities.
  rewrite <- !app_assoc. cbn [app]. unfold dbind at 1. rewrite d_u8_cons. unfold dbind at 1. rewrite d_u8_cons.
  rewrite (ver_ge_spec c V11). replace (V11 <=? version_of c) with true by (symmetry; apply N.leb_le; auto).
  cbn iota. unfold dbind at 1.
  assert (E : (_ <- d_u8;; ct <- d_u8;; _ <- d_u16;; f <- d_flags32 REQ_CAP_MASK;;
      guard req_flags_ok (n_version (c_nego c)) f;; dret (ct, f))%dec
     (r3 :: ct :: r4 :: r5 :: le_bytes 4 f ++ when (V12 <=? version_of c) (le_bytes 4 d ++ le_bytes 4 m) ++ rest) =
     if req_flags_ok (version_of c) (N.land f REQ_CAP_MASK)
     then POk (ct, N.land f REQ_CAP_MASK) (when (V12 <=? version_of c) (le_bytes 4 d ++ le_bytes 4 m) ++ rest) else PNone).
  { unfold dbind at 1. rewrite d_u8_cons. unfold dbind at 1. rewrite d_u8_cons. unfold dbind at 1. rewrite d_u16_2.
    unfold dbind at 1. unfold d_flags32, dbind at 1. rewrite d_u32_le by auto. unfold dret at 1. unfold dguard.
    change (n_version (c_nego c)) with (version_of c). destruct (req_flags_ok _ _); reflexivity. }
  rewrite E. clear E. rewrite <- req_flags_ok_spec. destruct (req_flags_ok _ _).
  2: { split; [discriminate|intros [? _]; discriminate]. }
  unfold dbind at 1. rewrite dec_sizes by auto. unfold decoded_caps.
  destruct (N.leb_spec V12 (version_of c)) as [L|L].
  - rewrite <- sizes_ok_iff by auto. destruct (sizes_ok d m); cbn [fst snd dret]; unfold dret; split; intro H.
    + split; [|split]; auto. congruence.
    + destruct H as (_ & _ & ->). reflexivity.
    + discriminate.
    + destruct H as (_ & H & _). specialize (H L). discriminate.
  - cbn [fst snd dret]. unfold dret. split; intro H.
    + split; [|split]; auto; [lia|congruence].
    + destruct H as (_ & _ & ->). reflexivity.
Qed.

Lemma caps_iff c r ct f d m rest p : u32 f -> u32 d -> u32 m ->
  (dec_capabilities c (get_caps_bytes c r ct f d m ++ rest) = POk p rest <->
   rsp_caps_consistent (version_of c) (N.land f RSP_CAP_MASK) /\
   (V12 <= version_of c -> sizes_consistent d m) /\ p = decoded_caps c RSP_CAP_MASK ct f d m).
Proof.
  intros Hf Hd Hm. destruct r as [[[[r1 r2] r3] r4] r5]. unfold get_caps_bytes, dec_capabilities.
  rewrite <- !app_assoc. cbn [app]. do 4 (unfold dbind at 1; rewrite d_u8_cons). unfold dbind at 1. rewrite d_u16_2.
  unfold dbind at 1. unfold d_flags32, dbind at 1. rewrite d_u32_le by auto. unfold dret at 1. unfold dguard at 1.
  change (n_version (c_nego c)) with (version_of c).
  rewrite <- rsp_flags_ok_spec. destruct (rsp_flags_ok _ _).
  2: { unfold dnone. split; [discriminate|intros [? _]; discriminate]. }
  unfold dbind at 1. rewrite dec_sizes by auto. unfold decoded_caps.
  destruct (N.leb_spec V12 (version_of c)) as [L|L].
  - rewrite <- sizes_ok_iff by auto. destruct (sizes_ok d m); cbn [fst snd dret]; unfold dret; split; intro H.
    + split; [|split]; auto. congruence.
    + destruct H as (_ & _ & ->). reflexivity.
    + discriminate.
    + destruct H as (_ & H & _). specialize (H L). discriminate.
  - cbn [fst snd dret]. unfold dret. split; intro H.
    + split; [|split]; auto; [lia|congruence].
    + destruct H as (_ & _ & ->). reflexivity.
Qed.

(** every accepted GET_CAPABILITIES / CAPABILITIES payload, whatever the bytes *)
Lemma get_caps_accepted c l p r : V11 <= version_of c -> bytes_ok l -> dec_get_capabilities c l = POk p r ->
  req_caps_consistent (version_of c) (cp_flags p) /\ (V12 <= version_of c -> sizes_consistent (cp_dts p) (cp_max p)).
Proof.
  intros HV HB H. unfold dec_get_capabilities in H.
  apply dbind_ok in H as (x1 & l1 & E1 & H). apply d_u8_inv in E1. subst l. inversion HB as [|? ? _ HB1]; subst.
  apply dbind_ok in H as (x2 & l2 & E2 & H). apply d_u8_inv in E2. subst l1. inversion HB1 as [|? ? _ HB2]; subst.
  rewrite (ver_ge_spec c V11) in H. replace (V11 <=? version_of c) with true in H by (symmetry; apply N.leb_le; auto).
  cbn iota in H. apply dbind_ok in H as (cf & l3 & E3 & H).
  apply dbind_ok in E3 as (x3 & l4 & E4 & E3). apply d_u8_inv in E4. subst l2. inversion HB2 as [|? ? _ HB3]; subst.
  apply dbind_ok in E3 as (ct & l5 & E4 & E3). apply d_u8_inv in E4. subst l4. inversion HB3 as [|? ? _ HB4]; subst.
  apply dbind_ok in E3 as (x4 & l6 & E4 & E3). apply (d_le_inv 2) in E4 as [-> _]; auto. apply bytes_ok_app in HB4 as [_ HB5].
  apply dbind_ok in E3 as (f & l7 & E4 & E3). unfold d_flags32 in E4. apply dbind_ok in E4 as (f0 & l8 & E4 & E5).
  apply (d_le_inv 4) in E4 as [-> _]; auto. apply bytes_ok_app in HB5 as [_ HB6]. apply dret_ok in E5 as [-> ->].
  apply dguard_ok in E3 as [G E3]. apply dret_ok in E3 as [-> ->].
  apply dbind_ok in H as (sz & l9 & E6 & H). apply dret_ok in H as [-> ->]. cbn [cp_flags cp_dts cp_max fst snd].
  split; [apply req_flags_ok_spec; exact G|]. intro L. rewrite ver_ge_spec in E6.
  replace (V12 <=? version_of c) with true in E6 by (symmetry; apply N.leb_le; auto). cbn iota in E6.
  apply dbind_ok in E6 as (d & l10 & E7 & E6). apply (d_le_inv 4) in E7 as [-> Hd]; auto. apply bytes_ok_app in HB6 as [_ HB7].
  apply dbind_ok in E6 as (m & l11 & E8 & E6). apply (d_le_inv 4) in E8 as [-> Hm]; auto.
  apply dguard_ok in E6 as [G2 E6]. apply dret_ok in E6 as [-> _]. cbn [fst snd]. apply sizes_ok_iff; auto.
Qed.
Lemma caps_accepted c l p r : bytes_ok l -> dec_capabilities c l = POk p r ->
  rsp_caps_consistent (version_of c) (cp_flags p) /\ (V12 <= version_of c -> sizes_consistent (cp_dts p) (cp_max p)).
Proof.
  intros HB H. unfold dec_capabilities in H.
  apply dbind_ok in H as (x1 & l1 & E1 & H). apply d_u8_inv in E1. subst l. inversion HB as [|? ? _ HB1]; subst.
  apply dbind_ok in H as (x2 & l2 & E2 & H). apply d_u8_inv in E2. subst l1. inversion HB1 as [|? ? _ HB2]; subst.
  apply dbind_ok in H as (x3 & l4 & E4 & H). apply d_u8_inv in E4. subst l2. inversion HB2 as [|? ? _ HB3]; subst.
  apply dbind_ok in H as (ct & l5 & E4 & H). apply d_u8_inv in E4. subst l4. inversion HB3 as [|? ? _ HB4]; subst.
  apply dbind_ok in H as (x4 & l6 & E4 & H). apply (d_le_inv 2) in E4 as [-> _]; auto. apply bytes_ok_app in HB4 as [_ HB5].
  apply dbind_ok in H as (f & l7 & E4 & H). unfold d_flags32 in E4. apply dbind_ok in E4 as (f0 & l8 & E4 & E5).
  apply (d_le_inv 4) in E4 as [-> _]; auto. apply bytes_ok_app in HB5 as [_ HB6]. apply dret_ok in E5 as [-> ->].
  apply dguard_ok in H as [G H].
  apply dbind_ok in H as (sz & l9 & E6 & H). apply dret_ok in H as [-> ->]. cbn [cp_flags cp_dts cp_max fst snd].
  split; [apply rsp_flags_ok_spec; exact G|]. intro L. rewrite ver_ge_spec in E6.
  replace (V12 <=? version_of c) with true in E6 by (symmetry; apply N.leb_le; auto). cbn iota in E6.
  apply dbind_ok in E6 as (d & l10 & E7 & E6). apply (d_le_inv 4) in E7 as [-> Hd]; auto. apply bytes_ok_app in HB6 as [_ HB7].
  apply dbind_ok in E6 as (m & l11 & E8 & E6). apply (d_le_inv 4) in E8 as [-> Hm]; auto.
  apply dguard_ok in E6 as [G2 E6]. apply dret_ok in E6 as [-> _]. cbn [fst snd]. apply sizes_ok_iff; auto.
Qed.

(** ** C38 *)
Lemma verify_record_iff c n data :
  bytes_ok data -> verify_record c (mkRecord n (len data) data) = Some true <-> record_bytes_ok c n data.
Proof.
  intro HB. assert (E : firstn (N.to_nat (len data)) data = data).
  { unfold len. rewrite Nat2N.id. apply firstn_all. }
  split; intro H.
  - apply verify_record_sound in H; cbn [mr_data mr_blocks mr_length] in *; auto. rewrite E in H. exact H.
  - eapply verify_record_complete; cbn [mr_data mr_blocks mr_length]; eauto.
    unfold len. rewrite Nat2N.id. reflexivity.
Qed.
Lemma mrecord_accepted c l m r : bytes_ok l -> dec_mrecord c l = POk m r ->
  exists data, mr_data m = data ++ fill (4000 - length data) 0 /\ len data = mr_length m /\ mr_length m <= 4000 /\
    l = [mr_blocks m] ++ le_bytes 3 (mr_length m) ++ data ++ r /\ record_bytes_ok c (mr_blocks m) data.
Proof.
  intros HB H. unfold dec_mrecord in H.
  apply dbind_ok in H as (n & l1 & E1 & H). apply d_u8_inv in E1. subst l. inversion HB as [|? ? _ HB1]; subst.
  apply dbind_ok in H as (sz & l2 & E2 & H). apply (d_le_inv 3) in E2 as [-> _]; auto. apply bytes_ok_app in HB1 as [_ HB2].
  apply dguard_ok in H as [G H]. apply N.leb_le in G.
  apply dbind_ok in H as (d & l3 & E3 & H). apply d_fixed_inv in E3 as (b & -> & Hb & ->); auto.
  apply bytes_ok_app in HB2 as [HB2 HB3].
  apply dbind_ok in H as (ok & l4 & E4 & H). apply dsize_ok in E4 as [E4 ->].
  apply dguard_ok in H as [-> H]. apply dret_ok in H as [-> ->]. cbn [mr_data mr_blocks mr_length].
  assert (HL : (length b <= 4000)%nat) by (unfold len, MAX_MEASUREMENT_RECORD_SIZE in *; lia).
  exists b. split; [unfold pad_to, MAX_MEASUREMENT_RECORD_SIZE; rewrite firstn_all2 by lia; reflexivity|].
  split; auto. split; [exact G|]. split; [reflexivity|].
  apply verify_record_sound in E4; cbn [mr_data mr_blocks mr_length] in *.
  - assert (EF : firstn (N.to_nat sz) (pad_to MAX_MEASUREMENT_RECORD_SIZE b) = b).
    { rewrite <- Hb. unfold len. rewrite Nat2N.id. apply pad_to_firstn. exact HL. }
    rewrite EF in E4. exact E4.
  - unfold pad_to. apply bytes_ok_app. split.
    + apply bytes_ok_firstn. exact HB2.
    + apply Forall_forall. intros x Hx. apply repeat_spec in Hx. subst. reflexivity.
Qed.

(** ** C51 *)
Lemma needs_spec c code :
  (In code carries_digest -> hash_selected c) -> (In code carries_signature -> asym_selected c) ->
  (In code carries_dhe -> dhe_selected c) -> (In code carries_measurements -> mhash_selected c) -> needs c code.
Proof.
  unfold hash_selected, asym_selected, dhe_selected, mhash_selected. intros H1 H2 H3 H4.
  split; [|split; [|split]]; intro H.
  - specialize (H1 H). cbn [In] in H1. repeat (destruct H1 as [<-|H1]; [discriminate|]). contradiction.
  - specialize (H2 H). cbn [In] in H2. repeat (destruct H2 as [<-|H2]; [discriminate|]). contradiction.
  - specialize (H3 H). cbn [In] in H3. repeat (destruct H3 as [<-|H3]; [discriminate|]). contradiction.
  - specialize (H4 H). cbn [In] in H4. repeat (destruct H4 as [<-|H4]; [discriminate|]). contradiction.
Qed.
