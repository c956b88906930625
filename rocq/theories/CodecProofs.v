(** Lemmas about Codec.v *)
From Verif Require Import Bytes BytesFacts Codec.
Local Open Scope N_scope.

(** ** bit facts *)
Lemma as_u8_lt v : as_u8 v < 256.
Proof. apply N.mod_lt; discriminate. Qed.

Lemma shiftr8_div v k : N.shiftr v (8 * k) = v / 256 ^ k.
Proof.
  rewrite N.shiftr_div_pow2, N.pow_mul_r. reflexivity.
Qed.

Lemma lor_disjoint_add a b k : a < 2 ^ k -> N.lor a (N.shiftl b k) = a + b * 2 ^ k.
Proof.
  intro H. rewrite N.shiftl_mul_pow2.
  rewrite <- N.lxor_lor; [rewrite <- N.add_nocarry_lxor; auto|];
  apply N.bits_inj_iff; intro n; rewrite N.land_spec, N.bits_0.
  all: destruct (N.lt_ge_cases n k) as [Hn|Hn];
    [ rewrite N.mul_pow2_bits_low by auto; apply andb_false_r
    | replace (N.testbit a n) with false; [reflexivity|];
      symmetry; destruct (N.eq_dec a 0) as [->|Ha]; [apply N.bits_0|];
      apply N.bits_above_log2; apply N.log2_lt_pow2; [lia|];
      apply N.lt_le_trans with (2 ^ k); auto; apply N.pow_le_mono_r; lia ].
Qed.

Lemma put_u16_le v : put_u16 v = le_bytes 2 v.
Proof.
  unfold put_u16, as_u8. change 8 with (8 * 1). rewrite shiftr8_div. reflexivity.
Qed.

Lemma div256_pow v k : v / 256 ^ k / 256 = v / 256 ^ (k + 1).
Proof. rewrite N.div_div by (try apply N.pow_nonzero; discriminate). rewrite N.pow_add_r. reflexivity. Qed.

Lemma put_u64_le v : put_u64 v = le_bytes 8 v.
Proof.
  unfold put_u64, as_u8.
  change 16 with (8 * 2); change 24 with (8 * 3); change 32 with (8 * 4); change 40 with (8 * 5);
  change 48 with (8 * 6); change 56 with (8 * 7).
  replace (N.shiftr v 8) with (v / 256 ^ 1) by (rewrite <- shiftr8_div; reflexivity).
  rewrite !shiftr8_div. cbn [le_bytes].
  replace (v / 256) with (v / 256 ^ 1) by reflexivity.
  rewrite !div256_pow. reflexivity.
Qed.

Lemma byte_lt_pow b k : 8 <= k -> b < 256 -> b < 2 ^ k.
Proof.
  intros. apply N.lt_le_trans with (2 ^ 8); auto. apply N.pow_le_mono_r; lia.
Qed.

Lemma decode_u16_le b0 b1 : b0 < 256 -> decode_u16 [b0; b1] = le_val [b0; b1].
Proof.
  intros H. unfold decode_u16. cbn [nth]. rewrite lor_disjoint_add by (apply byte_lt_pow; lia).
  cbn [le_val]. change (2 ^ 8) with 256. lia.
Qed.

Lemma decode_u24_le b0 b1 b2 : b0 < 256 -> b1 < 256 -> decode_u24 [b0; b1; b2] = le_val [b0; b1; b2].
Proof.
  intros H0 H1. unfold decode_u24. cbn [nth].
  rewrite (lor_disjoint_add b0) by (apply byte_lt_pow; lia).
  rewrite lor_disjoint_add by (change (2^8) with 256; change (2^16) with 65536; lia).
  cbn [le_val]. change (2 ^ 8) with 256. change (2^16) with 65536. lia.
Qed.

Lemma decode_u32_le b0 b1 b2 b3 :
  b0 < 256 -> b1 < 256 -> b2 < 256 -> decode_u32 [b0; b1; b2; b3] = le_val [b0; b1; b2; b3].
Proof.
  intros H0 H1 H2. unfold decode_u32. cbn [nth].
  rewrite (lor_disjoint_add b0) by (apply byte_lt_pow; lia).
  rewrite (lor_disjoint_add _ b2) by (change (2^8) with 256; change (2^16) with 65536; lia).
  rewrite lor_disjoint_add by (change (2^8) with 256; change (2^16) with 65536; change (2^24) with 16777216; lia).
  cbn [le_val]. change (2 ^ 8) with 256. change (2^16) with 65536. change (2^24) with 16777216. lia.
Qed.

Lemma decode_u64_le b0 b1 b2 b3 b4 b5 b6 b7 :
  bytes_ok [b0; b1; b2; b3; b4; b5; b6; b7] ->
  decode_u64 [b0; b1; b2; b3; b4; b5; b6; b7] = le_val [b0; b1; b2; b3; b4; b5; b6; b7].
Proof.
  intro H. repeat (inversion H as [|? ? ?Hb H']; subst; clear H; rename H' into H).
  unfold byte_ok in *. unfold decode_u64. cbn [nth].
  assert (P8 : 2 ^ 8 = 256) by reflexivity.
  assert (P16 : 2 ^ 16 = 65536) by reflexivity.
  assert (P24 : 2 ^ 24 = 16777216) by reflexivity.
  assert (P32 : 2 ^ 32 = 4294967296) by reflexivity.
  assert (P40 : 2 ^ 40 = 1099511627776) by reflexivity.
  assert (P48 : 2 ^ 48 = 281474976710656) by reflexivity.
  assert (P56 : 2 ^ 56 = 72057594037927936) by reflexivity.
  rewrite (lor_disjoint_add b0) by lia.
  rewrite (lor_disjoint_add _ b2) by lia.
  rewrite (lor_disjoint_add _ b3) by lia.
  rewrite (lor_disjoint_add _ b4) by lia.
  rewrite (lor_disjoint_add _ b5) by lia.
  rewrite (lor_disjoint_add _ b6) by lia.
  rewrite (lor_disjoint_add _ b7) by lia.
  cbn [le_val]. lia.
Qed.

(** ** Reader *)
Definition reader_ok (r : reader) : Prop := (r_offs r <= length (r_buf r))%nat.

Lemma r_take_spec r n :
  reader_ok r ->
  match r_take r n with
  | None => (r_left r < n)%nat
  | Some (b, r') =>
      reader_ok r' /\ r_buf r' = r_buf r /\ r_offs r' = (r_offs r + n)%nat /\ length b = n /\
      skipn (r_offs r) (r_buf r) = b ++ skipn (r_offs r') (r_buf r')
  end.
Proof.
  intro H. unfold r_take, r_left, reader_ok in *.
  destruct (Nat.ltb_spec (length (r_buf r) - r_offs r) n); auto.
  cbn [r_buf r_offs]. repeat split; try lia.
  - apply slice_length. lia.
  - unfold slice. rewrite <- skipn_skipn, firstn_skipn. reflexivity.
Qed.

Lemma ptake_app n a rest : length a = n -> ptake n (a ++ rest) = Some (a, rest).
Proof.
  intro H. unfold ptake. rewrite app_length.
  destruct (Nat.ltb_spec (length a + length rest) n); [lia|].
  rewrite firstn_app_exact, skipn_app_exact; auto.
Qed.

Lemma ptake_Some n l a r : ptake n l = Some (a, r) <-> l = a ++ r /\ length a = n.
Proof.
  unfold ptake. destruct (Nat.ltb_spec (length l) n).
  - split; [discriminate|]. intros [-> ?]. rewrite app_length in *. lia.
  - split.
    + intro E; inversion E; subst. split; [symmetry; apply firstn_skipn|]. rewrite firstn_length; lia.
    + intros [-> <-]. rewrite firstn_app_exact, skipn_app_exact; auto.
Qed.

(** the Reader's [take] and the suffix [ptake] are the same operation *)
Lemma r_take_ptake r n : reader_ok r -> r_take r n = run_reader (ptake n) r.
Proof.
  intro H. unfold reader_ok in H. unfold r_take, run_reader, ptake, r_left.
  rewrite skipn_length.
  destruct (Nat.ltb_spec (length (r_buf r) - r_offs r) n); auto.
  unfold slice. f_equal. f_equal. f_equal.
  rewrite skipn_length, skipn_length. lia.
Qed.

Lemma p_u8_app b rest : p_u8 (b :: rest) = Some (b, rest).
Proof. reflexivity. Qed.

Lemma p_le_app n v rest : v < 256 ^ N.of_nat n -> p_le n (le_bytes n v ++ rest) = Some (v, rest).
Proof.
  intro H. unfold p_le. rewrite ptake_app by apply le_bytes_length.
  rewrite le_val_bytes; auto.
Qed.

Lemma p_arr_ptake n l : p_arr n l = ptake n l.
Proof.
  revert l; induction n as [|n IH]; intro l; simpl.
  - unfold pret, ptake. simpl. reflexivity.
  - unfold pbind at 1. destruct l as [|b l]; simpl; auto.
    unfold pbind. rewrite IH. unfold ptake, pret. simpl.
    change (Datatypes.S (length l) <? Datatypes.S n)%nat with (length l <? n)%nat.
    destruct (length l <? n)%nat; auto.
Qed.

Lemma p_arr_app n a rest : length a = n -> p_arr n (a ++ rest) = Some (a, rest).
Proof. intro. rewrite p_arr_ptake. apply ptake_app; auto. Qed.

(** reading integers with the real Reader *)
Lemma read_gen (n : nat) (dec : bytes -> N) r :
  reader_ok r -> bytes_ok (r_buf r) ->
  (forall b, length b = n -> bytes_ok b -> dec b = le_val b) ->
  match r_take r n with None => None | Some (b, r') => Some (dec b, r') end = run_reader (p_le n) r.
Proof.
  intros H HB HD. rewrite r_take_ptake by auto. unfold run_reader, p_le.
  destruct (ptake n (skipn (r_offs r) (r_buf r))) as [[b rest]|] eqn:E; auto.
  apply ptake_Some in E as [E1 E2]. rewrite HD; auto.
  assert (HS : bytes_ok (skipn (r_offs r) (r_buf r))) by (apply bytes_ok_skipn; auto).
  rewrite E1 in HS. apply bytes_ok_app in HS. tauto.
Qed.

Lemma length1 {A} (l : list A) : length l = 1%nat -> exists a, l = [a].
Proof. destruct l as [|a [|]]; simpl; try discriminate; eauto. Qed.
Lemma length2 {A} (l : list A) : length l = 2%nat -> exists a b, l = [a; b].
Proof. destruct l as [|a [|b [|]]]; simpl; try discriminate; eauto. Qed.
Lemma length3 {A} (l : list A) : length l = 3%nat -> exists a b c, l = [a; b; c].
Proof. destruct l as [|a [|b [|c [|]]]]; simpl; try discriminate; eauto. Qed.
Lemma length4 {A} (l : list A) : length l = 4%nat -> exists a b c d, l = [a; b; c; d].
Proof. destruct l as [|a [|b [|c [|d [|]]]]]; simpl; try discriminate; eauto. Qed.
Lemma length8 {A} (l : list A) : length l = 8%nat ->
  exists a b c d e f g h, l = [a; b; c; d; e; f; g; h].
Proof.
  destruct l as [|a [|b [|c [|d [|e [|f [|g [|h [|]]]]]]]]]; simpl; try discriminate.
  intros _. exists a, b, c, d, e, f, g, h. reflexivity.
Qed.

Ltac inv_ok :=
  repeat match goal with
  | H : bytes_ok (_ :: _) |- _ => inversion H; subst; clear H
  | H : Forall byte_ok (_ :: _) |- _ => inversion H; subst; clear H
  end; unfold byte_ok in *.

Lemma read_u8_spec r : reader_ok r -> bytes_ok (r_buf r) -> read_u8 r = run_reader (p_le 1) r.
Proof.
  intros. apply read_gen; auto. intros b Hb Hok. apply length1 in Hb as [a ->]. unfold decode_u8. simpl. lia.
Qed.
Lemma read_u16_spec r : reader_ok r -> bytes_ok (r_buf r) -> read_u16 r = run_reader p_u16 r.
Proof.
  intros. apply read_gen; auto. intros b Hb Hok. apply length2 in Hb as (a & c & ->). inv_ok.
  apply decode_u16_le; auto.
Qed.
Lemma read_u24_spec r : reader_ok r -> bytes_ok (r_buf r) -> read_u24 r = run_reader p_u24 r.
Proof.
  intros. apply read_gen; auto. intros b Hb Hok. apply length3 in Hb as (a & c & d & ->). inv_ok.
  apply decode_u24_le; auto.
Qed.
Lemma read_u32_spec r : reader_ok r -> bytes_ok (r_buf r) -> read_u32 r = run_reader p_u32 r.
Proof.
  intros. apply read_gen; auto. intros b Hb Hok. apply length4 in Hb as (a & c & d & e & ->). inv_ok.
  apply decode_u32_le; auto.
Qed.
Lemma read_u64_spec r : reader_ok r -> bytes_ok (r_buf r) -> read_u64 r = run_reader p_u64 r.
Proof.
  intros. apply read_gen; auto. intros b Hb Hok.
  apply length8 in Hb as (a & c & d & e & f & g & h & i & ->).
  apply decode_u64_le; auto.
Qed.
Lemma read_u128_spec r : reader_ok r -> bytes_ok (r_buf r) -> read_u128 r = run_reader p_u128 r.
Proof. intros. apply read_gen; auto. Qed.

Lemma p_u8_le l : p_u8 l = p_le 1 l.
Proof.
  unfold p_le, ptake. destruct l as [|b l]; simpl; auto. do 2 f_equal. lia.
Qed.

(** ** Writer *)
Definition writer_ok (w : writer) : Prop := (w_offs w <= length (w_buf w))%nat.

Lemma patch_split pre mid post d :
  length d = length mid -> patch (length pre) d (pre ++ mid ++ post) = pre ++ d ++ post.
Proof.
  intro H. unfold patch. rewrite firstn_app_exact by reflexivity.
  rewrite <- skipn_skipn, skipn_app_exact by reflexivity.
  rewrite skipn_app_exact by auto. reflexivity.
Qed.

Lemma split_at_3 (buf : bytes) (a n : nat) :
  (a + n <= length buf)%nat ->
  exists pre mid post, buf = pre ++ mid ++ post /\ length pre = a /\ length mid = n.
Proof.
  intro H. exists (firstn a buf), (firstn n (skipn a buf)), (skipn n (skipn a buf)).
  rewrite firstn_skipn, firstn_skipn, !firstn_length, skipn_length. repeat split; lia.
Qed.

Lemma write_loop_split pre mid post v :
  length v = length mid -> write_loop (pre ++ mid ++ post) (length pre) v = pre ++ v ++ post.
Proof.
  revert pre mid; induction v as [|b v IH]; intros pre [|m mid] H; simpl in H; try discriminate; auto.
  cbn [write_loop].
  rewrite (patch_split pre [m] (mid ++ post) [b] eq_refl : patch _ _ (pre ++ (m :: mid) ++ post) = _).
  replace (pre ++ [b] ++ mid ++ post) with ((pre ++ [b]) ++ mid ++ post) by (rewrite <- app_assoc; reflexivity).
  replace (S (length pre)) with (length (pre ++ [b])) by (rewrite app_length; simpl; lia).
  rewrite IH by lia. rewrite <- app_assoc. reflexivity.
Qed.

Lemma write_loop_patch buf at_ v :
  (at_ + length v <= length buf)%nat -> write_loop buf at_ v = patch at_ v buf.
Proof.
  intro H. destruct (split_at_3 buf at_ (length v) H) as (pre & mid & post & -> & <- & Hm).
  rewrite write_loop_split, patch_split; auto.
Qed.

(** [extend_from_slice]: all or nothing, in bounds, nothing else touched *)
Lemma w_extend_spec w v :
  writer_ok w ->
  match w_extend w v with
  | None => (w_left w < length v)%nat
  | Some w' =>
      writer_ok w' /\ length (w_buf w') = length (w_buf w) /\
      w_offs w' = (w_offs w + length v)%nat /\
      w_used_slice w' = w_used_slice w ++ v /\
      skipn (w_offs w') (w_buf w') = skipn (w_offs w') (w_buf w)
  end.
Proof.
  intro H. unfold w_extend, w_left, writer_ok, w_used_slice in *.
  destruct (Nat.ltb_spec (length (w_buf w) - w_offs w) (length v)) as [|HL]; auto.
  cbn [w_buf w_offs].
  rewrite write_loop_patch by lia.
  destruct (split_at_3 (w_buf w) (w_offs w) (length v) ltac:(lia)) as (pre & mid & post & E & Hp & Hm).
  rewrite E, <- Hp. rewrite patch_split by auto.
  rewrite !app_length in *. repeat split; try lia.
  - rewrite (firstn_app_exact pre (mid ++ post)) by reflexivity.
    rewrite app_assoc. apply firstn_app_exact. rewrite app_length; lia.
  - rewrite !app_assoc.
    rewrite !skipn_app_exact by (rewrite app_length; lia). reflexivity.
Qed.

Lemma w_push_extend w v : writer_ok w -> w_push w v = w_extend w [v].
Proof.
  intro H. unfold w_push, w_extend. simpl length.
  destruct (w_left w <? 1)%nat; auto.
Qed.

Lemma enc_u8_emit v w : writer_ok w -> enc_u8 v w = emit (e_u8 v) w.
Proof.
  intro H. unfold enc_u8, e_u8. rewrite w_push_extend by auto. cbn [emit]. destruct (w_extend w [v]); reflexivity.
Qed.

Lemma emit_ok cs w : writer_ok w -> writer_ok (wres_writer (emit cs w)).
Proof.
  revert w; induction cs as [|c cs IH]; intros w H; cbn [emit]; auto.
  pose proof (w_extend_spec w c H) as HS. unfold of_opt.
  destruct (w_extend w c) as [w'|]; cbn [wthen wres_writer]; auto. apply IH. tauto.
Qed.

Lemma emit_app a b w : emit (a ++ b) w = wthen (emit a w) (emit b).
Proof.
  revert w; induction a as [|c a IH]; intro w; cbn [emit app wthen]; auto.
  destruct (of_opt w (w_extend w c)); cbn [wthen]; auto.
Qed.

Lemma e_slice_emit v w : emit (e_slice v) w = of_opt w (w_extend w v).
Proof. cbn [emit e_slice]. destruct (w_extend w v); reflexivity. Qed.

Lemma enc_u16_emit v w : enc_u16 v w = emit (e_u16 v) w.
Proof. unfold enc_u16, e_u16. rewrite <- e_slice_emit. reflexivity. Qed.
Lemma enc_u64_emit v w : enc_u64 v w = emit (e_u64 v) w.
Proof. unfold enc_u64, e_u64. rewrite <- e_slice_emit. reflexivity. Qed.
Lemma enc_u128_emit v w : enc_u128 v w = emit (e_u128 v) w.
Proof. unfold enc_u128, e_u128. rewrite <- e_slice_emit. reflexivity. Qed.

Lemma wthen_emit_ext r k1 k2 :
  writer_ok (wres_writer r) -> (forall w, writer_ok w -> k1 w = k2 w) -> wthen r k1 = wthen r k2.
Proof. destruct r; cbn; auto. Qed.

Lemma enc_u24_emit v w : writer_ok w -> enc_u24 v w = emit (e_u24 v) w.
Proof.
  intro H. unfold enc_u24, e_u24.
  change [[as_u8 v]; [as_u8 (N.shiftr v 8)]; [as_u8 (N.shiftr v 16)]]
    with (e_u8 (as_u8 v) ++ e_u8 (as_u8 (N.shiftr v 8)) ++ e_u8 (as_u8 (N.shiftr v 16))).
  rewrite !emit_app, enc_u8_emit by auto. apply wthen_emit_ext; [apply emit_ok; auto|]. intros w1 H1.
  rewrite !emit_app, enc_u8_emit by auto. apply wthen_emit_ext; [apply emit_ok; auto|]. intros w2 H2.
  apply enc_u8_emit; auto.
Qed.

Lemma enc_u32_emit v w : writer_ok w -> enc_u32 v w = emit (e_u32 v) w.
Proof.
  intro H. unfold enc_u32, e_u32.
  change [[as_u8 v]; [as_u8 (N.shiftr v 8)]; [as_u8 (N.shiftr v 16)]; [as_u8 (N.shiftr v 24)]]
    with (e_u8 (as_u8 v) ++ e_u8 (as_u8 (N.shiftr v 8)) ++ e_u8 (as_u8 (N.shiftr v 16)) ++ e_u8 (as_u8 (N.shiftr v 24))).
  rewrite !emit_app, enc_u8_emit by auto. apply wthen_emit_ext; [apply emit_ok; auto|]. intros w1 H1.
  rewrite !emit_app, enc_u8_emit by auto. apply wthen_emit_ext; [apply emit_ok; auto|]. intros w2 H2.
  rewrite !emit_app, enc_u8_emit by auto. apply wthen_emit_ext; [apply emit_ok; auto|]. intros w3 H3.
  apply enc_u8_emit; auto.
Qed.

(** An encoder succeeds exactly when its bytes fit; then it appends exactly them.
    When it fails, what was appended is a strict prefix of its bytes. *)
Lemma emit_spec cs w :
  writer_ok w ->
  match emit cs w with
  | WOk w' =>
      (length (wire cs) <= w_left w)%nat /\
      writer_ok w' /\ length (w_buf w') = length (w_buf w) /\
      w_offs w' = (w_offs w + length (wire cs))%nat /\
      w_used_slice w' = w_used_slice w ++ wire cs /\
      skipn (w_offs w') (w_buf w') = skipn (w_offs w') (w_buf w)
  | WErr w' =>
      (w_left w < length (wire cs))%nat /\
      writer_ok w' /\ length (w_buf w') = length (w_buf w) /\
      (exists done todo, wire cs = done ++ todo /\ todo <> [] /\
         w_offs w' = (w_offs w + length done)%nat /\
         w_used_slice w' = w_used_slice w ++ done) /\
      skipn (w_offs w') (w_buf w') = skipn (w_offs w') (w_buf w)
  end.
Proof.
  revert w; induction cs as [|c cs IH]; intros w H; cbn [emit wire concat].
  - repeat split; simpl; auto; try lia. rewrite app_nil_r; auto.
  - pose proof (w_extend_spec w c H) as HS. unfold of_opt.
    destruct (w_extend w c) as [w1|] eqn:E1; cbn [wthen].
    + destruct HS as (O1 & L1 & F1 & U1 & S1).
      specialize (IH w1 O1). unfold w_left in *. fold (wire cs).
      destruct (emit cs w1) as [w2|w2].
      * destruct IH as (HL & O2 & L2 & F2 & U2 & S2). unfold writer_ok in *.
        rewrite app_length. repeat split; try lia.
        -- rewrite U2, U1, app_assoc; reflexivity.
        -- rewrite S2, F2, <- !(skipn_skipn (length (wire cs))), S1. reflexivity.
      * destruct IH as (HL & O2 & L2 & (dn & td & Hd & Ht & F2 & U2) & S2). unfold writer_ok in *.
        rewrite app_length. repeat split; try lia.
        -- exists (c ++ dn), td. rewrite Hd, app_length, <- app_assoc. repeat split; auto; try lia.
           rewrite U2, U1, app_assoc; reflexivity.
        -- rewrite S2, F2, <- !(skipn_skipn (length dn)), S1. reflexivity.
    + fold (wire cs). rewrite app_length. repeat split; auto; try lia.
      exists [], (c ++ wire cs). repeat split; simpl; auto.
      * intro E. apply app_eq_nil in E as [-> _]. simpl in HS. lia.
      * rewrite app_nil_r; auto.
Qed.

(** wire form of the primitive encoders *)
Lemma wire_app a b : wire (a ++ b) = wire a ++ wire b.
Proof. apply concat_app. Qed.
Lemma wire_nil : wire [] = [].
Proof. reflexivity. Qed.
Lemma wire_u8 v : wire (e_u8 v) = [v].
Proof. reflexivity. Qed.
Lemma wire_u16 v : wire (e_u16 v) = le_bytes 2 v.
Proof. unfold wire, e_u16. cbn [concat]. rewrite app_nil_r. apply put_u16_le. Qed.
Lemma wire_u24 v : wire (e_u24 v) = le_bytes 3 v.
Proof.
  unfold wire, e_u24, as_u8. cbn [concat app]. change 16 with (8 * 2).
  replace (N.shiftr v 8) with (v / 256 ^ 1) by (rewrite <- shiftr8_div; reflexivity).
  rewrite shiftr8_div. cbn [le_bytes]. replace (v / 256) with (v / 256 ^ 1) by reflexivity.
  rewrite !div256_pow. reflexivity.
Qed.
Lemma wire_u32 v : wire (e_u32 v) = le_bytes 4 v.
Proof.
  unfold wire, e_u32, as_u8. cbn [concat app]. change 16 with (8 * 2). change 24 with (8 * 3).
  replace (N.shiftr v 8) with (v / 256 ^ 1) by (rewrite <- shiftr8_div; reflexivity).
  rewrite !shiftr8_div. cbn [le_bytes]. replace (v / 256) with (v / 256 ^ 1) by reflexivity.
  rewrite !div256_pow. reflexivity.
Qed.
Lemma wire_u64 v : wire (e_u64 v) = le_bytes 8 v.
Proof. unfold wire, e_u64. cbn [concat]. rewrite app_nil_r. apply put_u64_le. Qed.
Lemma wire_u128 v : wire (e_u128 v) = le_bytes 16 v.
Proof. unfold wire, e_u128. cbn [concat]. apply app_nil_r. Qed.
Lemma wire_arr l : wire (e_arr l) = l.
Proof. apply concat_singletons. Qed.
Lemma wire_slice l : wire (e_slice l) = l.
Proof. apply app_nil_r. Qed.

(** ** enums *)
Lemma enum_find_ge tbl i x j : enum_find tbl i x = Some j -> (i <= j)%nat /\ nth_error tbl (j - i) = Some x.
Proof.
  revert i; induction tbl as [|v t IH]; intros i H; cbn [enum_find] in H; [discriminate|].
  destruct (N.eqb_spec x v) as [->|].
  - inversion H; subst. rewrite Nat.sub_diag. auto.
  - apply IH in H as [H1 H2]. split; [lia|]. replace (j - i)%nat with (S (j - S i)) by lia. exact H2.
Qed.

Lemma enum_find_None tbl i x : enum_find tbl i x = None <-> ~ In x tbl.
Proof.
  revert i; induction tbl as [|v t IH]; intro i; cbn [enum_find In]; [tauto|].
  destruct (N.eqb_spec x v) as [->|Hn].
  - split; [discriminate|]. intro H; exfalso; auto.
  - rewrite IH. split; intros H; [intros [?|?]; auto|]. intro; apply H; auto.
Qed.

Lemma enum_get_of tbl x : enum_get tbl (enum_of tbl x) = x.
Proof.
  unfold enum_of. destruct (enum_find tbl 0 x) as [i|] eqn:E; cbn [enum_get]; auto.
  apply enum_find_ge in E as [_ E]. rewrite Nat.sub_0_r in E. apply nth_error_nth; auto.
Qed.

Lemma enum_find_nth tbl i j :
  NoDup tbl -> (j < length tbl)%nat -> enum_find tbl i (nth j tbl 0) = Some (i + j)%nat.
Proof.
  revert i j; induction tbl as [|v t IH]; intros i j HN HJ; cbn [length] in HJ; [lia|].
  inversion HN; subst. destruct j as [|j]; cbn [nth enum_find].
  - rewrite N.eqb_refl. f_equal; lia.
  - destruct (N.eqb_spec (nth j t 0) v) as [E|].
    + exfalso. apply H1. rewrite <- E. apply nth_In. lia.
    + rewrite IH by (auto; lia). f_equal; lia.
Qed.

(** value read back from its own code: a named variant, or an unknown not in the table *)
Definition enum_canonical (tbl : list N) (e : enum_val) : Prop :=
  match e with EnumKnown i => (i < length tbl)%nat | EnumUnknown x => ~ In x tbl end.

Lemma enum_of_get tbl e : NoDup tbl -> enum_canonical tbl e -> enum_of tbl (enum_get tbl e) = e.
Proof.
  intros HN HC. unfold enum_of. destruct e as [i|x]; cbn [enum_get enum_canonical] in *.
  - rewrite enum_find_nth by auto. reflexivity.
  - apply enum_find_None with (i := 0%nat) in HC. rewrite HC. reflexivity.
Qed.

Lemma enum_collision tbl x : In x tbl -> enum_of tbl (enum_get tbl (EnumUnknown x)) <> EnumUnknown x.
Proof.
  intros H E. cbn [enum_get] in E. unfold enum_of in E.
  destruct (enum_find tbl 0 x) as [i|] eqn:EF; [discriminate|].
  apply enum_find_None in EF. auto.
Qed.
