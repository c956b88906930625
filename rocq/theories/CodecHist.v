(** Proofs behind PropCodec.v *)
From Verif Require Import Bytes BytesFacts Codec CodecProofs Status SpecCodec.
Local Open Scope N_scope.

Lemma le_spec_bytes n v : le_spec n v = le_bytes n v.
Proof.
  revert v. unfold le_spec. induction n as [|n IH]; intro v; [reflexivity|].
  cbn [seq map le_bytes]. f_equal; [change (256 ^ N.of_nat 0) with 1; rewrite N.div_1_r; auto|].
  rewrite <- IH, <- seq_shift, map_map. apply map_ext. intro i.
  rewrite N.div_div by (try discriminate; apply N.pow_nonzero; discriminate).
  do 2 f_equal. rewrite <- (N.pow_succ_r 256) by lia. f_equal. lia.
Qed.

Definition e_int (k : width) : N -> list bytes :=
  match k with W8 => e_u8 | W16 => e_u16 | W24 => e_u24 | W32 => e_u32 | W64 => e_u64 | W128 => e_u128 end.

Lemma enc_int_emit k v w : writer_ok w -> enc_int k v w = emit (e_int k v) w.
Proof.
  intro H. destruct k; cbn [enc_int e_int]; auto using enc_u8_emit, enc_u24_emit, enc_u32_emit,
    enc_u16_emit, enc_u64_emit, enc_u128_emit.
Qed.

Lemma wire_e_int k v : v < 256 ^ N.of_nat (width_bytes k) -> wire (e_int k v) = le_spec (width_bytes k) v.
Proof.
  intro H. rewrite le_spec_bytes. destruct k; cbn [e_int width_bytes] in *.
  - rewrite wire_u8. cbn [le_bytes]. f_equal. change (256 ^ N.of_nat 1) with 256 in H.
    symmetry; apply N.mod_small; auto.
  - apply wire_u16.
  - apply wire_u24.
  - apply wire_u32.
  - apply wire_u64.
  - apply wire_u128.
Qed.

Lemma read_int_spec k r : reader_ok r -> bytes_ok (r_buf r) ->
  read_int k r = run_reader (p_le (width_bytes k)) r.
Proof.
  intros H1 H2. destruct k; cbn [read_int width_bytes];
  [apply read_u8_spec|apply read_u16_spec|apply read_u24_spec|apply read_u32_spec|apply read_u64_spec|apply read_u128_spec]; auto.
Qed.

Lemma le_spec_length n v : length (le_spec n v) = n.
Proof. rewrite le_spec_bytes. apply le_bytes_length. Qed.

Lemma writer_ext (w w' : writer) : w_buf w = w_buf w' -> w_offs w = w_offs w' -> w = w'.
Proof. destruct w, w'; cbn; congruence. Qed.

Lemma int_roundtrip k v :
  v < 256 ^ N.of_nat (width_bytes k) ->
  (forall buf offs, (offs + width_bytes k <= length buf)%nat ->
     enc_int k v (mkWriter buf offs) =
     WOk (mkWriter (firstn offs buf ++ le_spec (width_bytes k) v ++ skipn (offs + width_bytes k) buf)
                   (offs + width_bytes k))) /\
  (forall buf offs, (offs <= length buf < offs + width_bytes k)%nat ->
     exists w', enc_int k v (mkWriter buf offs) = WErr w') /\
  (forall pre post, bytes_ok pre -> bytes_ok post ->
     let buf := pre ++ le_spec (width_bytes k) v ++ post in
     read_int k (mkReader buf (length pre)) = Some (v, mkReader buf (length pre + width_bytes k))).
Proof.
  intro H. split; [|split].
  - intros buf offs HL. rewrite enc_int_emit by (unfold writer_ok; cbn; lia).
    pose proof (emit_spec (e_int k v) (mkWriter buf offs) ltac:(unfold writer_ok; cbn; lia)) as HS.
    rewrite wire_e_int in HS by auto. rewrite le_spec_length in HS. unfold w_left in HS. cbn [w_buf w_offs] in HS.
    destruct (emit _ _) as [w|w]; [|lia].
    destruct HS as (_ & _ & HL' & HO & HU & HR). f_equal. apply writer_ext; cbn [w_buf w_offs]; [|auto].
    rewrite <- (firstn_skipn (w_offs w) (w_buf w)). unfold w_used_slice in HU. rewrite HU, HR, HO.
    cbn [w_buf w_offs]. rewrite <- app_assoc. reflexivity.
  - intros buf offs HL. rewrite enc_int_emit by (unfold writer_ok; cbn; lia).
    pose proof (emit_spec (e_int k v) (mkWriter buf offs) ltac:(unfold writer_ok; cbn; lia)) as HS.
    rewrite wire_e_int in HS by auto. rewrite le_spec_length in HS. unfold w_left in HS. cbn [w_buf w_offs] in HS.
    destruct (emit _ _) as [w|w]; [lia|eauto].
  - intros pre post HP HQ buf. subst buf. rewrite read_int_spec.
    + unfold run_reader. cbn [r_buf r_offs]. rewrite skipn_app_exact by reflexivity.
      rewrite le_spec_bytes, p_le_app by auto. f_equal. f_equal. f_equal.
      rewrite !app_length, le_bytes_length. lia.
    + unfold reader_ok. cbn. rewrite app_length. lia.
    + cbn. rewrite !bytes_ok_app. rewrite le_spec_bytes. split; [|split]; auto using le_bytes_ok.
Qed.

Lemma u24_new_panics v : u24_new v = None <-> 2 ^ 24 <= v.
Proof.
  unfold u24_new. rewrite N.shiftr_div_pow2. destruct (N.eqb_spec (v / 2 ^ 24) 0) as [E|E].
  - split; [discriminate|]. intro. change (2^24) with 16777216 in *. lia.
  - split; auto. intros _. change (2^24) with 16777216 in *. lia.
Qed.
Lemma u24_new_value v : v < 2 ^ 24 -> u24_new v = Some v.
Proof.
  intro H. unfold u24_new. rewrite N.shiftr_div_pow2, N.div_small by auto. reflexivity.
Qed.

(** *** Reader histories *)
Lemma run_reader_take n r : reader_ok r -> run_reader (p_le n) r =
  match r_take r n with Some (b, r') => Some (le_val b, r') | None => None end.
Proof.
  intro H. rewrite r_take_ptake by auto. unfold run_reader, p_le.
  destruct (ptake n _) as [[b rest]|]; reflexivity.
Qed.

Lemma rop_step_spec r o :
  reader_ok r -> bytes_ok (r_buf r) ->
  let (x, r') := rop_step r o in
  reader_ok r' /\ r_buf r' = r_buf r /\
  match x with
  | None => r' = r /\ match o with RTake n | RSub n => (r_left r < n)%nat | RRest => False | RInt k => (r_left r < width_bytes k)%nat end
  | Some b => skipn (r_offs r) (r_buf r) = b ++ skipn (r_offs r') (r_buf r') /\
              r_offs r' = (r_offs r + length b)%nat /\
              match o with RTake n | RSub n => length b = n | RRest => length b = r_left r | RInt k => length b = width_bytes k end
  end.
Proof.
  intros H HB. destruct o as [n| |n|k]; cbn [rop_step].
  - pose proof (r_take_spec r n H) as S. destruct (r_take r n) as [[b r']|].
    + destruct S as (S1 & S2 & S3 & S4 & S5). rewrite S4. repeat split; auto.
    + auto.
  - unfold r_rest, reader_ok, r_left in *. cbn [r_buf r_offs]. rewrite skipn_all, app_nil_r, skipn_length.
    repeat split; auto; lia.
  - unfold r_sub. pose proof (r_take_spec r n H) as S. destruct (r_take r n) as [[b r']|].
    + destruct S as (S1 & S2 & S3 & S4 & S5). cbn [r_init r_buf]. rewrite S4. repeat split; auto.
    + auto.
  - rewrite read_int_spec, run_reader_take by auto.
    pose proof (r_take_spec r (width_bytes k) H) as S. destruct (r_take r (width_bytes k)) as [[b r']|].
    + destruct S as (S1 & S2 & S3 & S4 & S5). rewrite le_spec_length.
      assert (Hb : bytes_ok b).
      { assert (bytes_ok (skipn (r_offs r) (r_buf r))) by (apply bytes_ok_skipn; auto).
        rewrite S5 in H0. apply bytes_ok_app in H0. tauto. }
      repeat split; auto. rewrite le_spec_bytes, <- S4, le_bytes_val; auto.
    + auto.
Qed.

Lemma rop_run_spec os r :
  reader_ok r -> bytes_ok (r_buf r) ->
  let (xs, r') := rop_run r os in
  reader_ok r' /\ r_buf r' = r_buf r /\
  skipn (r_offs r) (r_buf r) = given xs ++ skipn (r_offs r') (r_buf r') /\
  r_offs r' = (r_offs r + length (given xs))%nat.
Proof.
  revert r; induction os as [|o os IH]; intros r H HB; cbn [rop_run].
  - cbn. rewrite Nat.add_0_r. auto.
  - pose proof (rop_step_spec r o H HB) as S. destruct (rop_step r o) as [x r1].
    destruct S as (S1 & S2 & S3). rewrite <- S2 in HB. specialize (IH r1 S1 HB).
    destruct (rop_run r1 os) as [xs r2]. destruct IH as (I1 & I2 & I3 & I4).
    split; auto. split; [congruence|]. unfold given. cbn [map concat]. fold (given xs).
    rewrite S2 in I3. destruct x as [b|].
    + destruct S3 as (E & O & _). rewrite E, app_length, <- app_assoc. rewrite S2.
      rewrite I3. split; auto. lia.
    + destruct S3 as [-> _]. cbn [app]. split; [rewrite I3; auto|lia].
Qed.

Lemma reader_history buf os :
  bytes_ok buf ->
  let (xs, r) := rop_run (r_init buf) os in
  buf = given xs ++ fst (r_rest r) /\
  r_used r = length (given xs) /\ (r_used r + r_left r = length buf)%nat /\ r_buf r = buf.
Proof.
  intro HB. pose proof (rop_run_spec os (r_init buf) ltac:(unfold reader_ok; cbn; lia) HB) as S.
  destruct (rop_run (r_init buf) os) as [xs r]. destruct S as (S1 & S2 & S3 & S4).
  cbn [r_init r_buf r_offs skipn Nat.add] in *. unfold r_used, r_left, reader_ok, r_rest in *. cbn [fst]. repeat split; auto.
  rewrite S2 in *. lia.
Qed.

(** *** Writer histories *)
Lemma emit_single c w : emit [c] w = of_opt w (w_extend w c).
Proof. cbn [emit]. destruct (of_opt w (w_extend w c)); reflexivity. Qed.

Lemma wop_step_spec w o :
  writer_ok w -> wop_ok o ->
  let (ok, w') := wop_step w o in
  writer_ok w' /\ length (w_buf w') = length (w_buf w) /\
  ok = (length (wop_bytes o) <=? w_left w)%nat /\
  exists d, appended o ok d /\
    w_buf w' = w_used_slice w ++ d ++ skipn (w_offs w + length d) (w_buf w) /\
    w_offs w' = (w_offs w + length d)%nat.
Proof.
  intros H HO.
  assert (EXT : forall b, 
    let (ok, w') := match w_extend w b with Some w' => (true, w') | None => (false, w) end in
    writer_ok w' /\ length (w_buf w') = length (w_buf w) /\
    ok = (length b <=? w_left w)%nat /\
    exists d, (if ok then d = b else d = []) /\
      w_buf w' = w_used_slice w ++ d ++ skipn (w_offs w + length d) (w_buf w) /\
      w_offs w' = (w_offs w + length d)%nat).
  { intro b. pose proof (w_extend_spec w b H) as S. destruct (w_extend w b) as [w'|] eqn:E.
    - destruct S as (S1 & S2 & S3 & S4 & S5). split; auto. split; auto. split.
      + unfold w_extend in E. destruct (Nat.ltb_spec (w_left w) (length b)); [discriminate|]. symmetry. apply Nat.leb_le; lia.
      + exists b. split; auto. split; auto.
        rewrite <- (firstn_skipn (w_offs w') (w_buf w')). unfold w_used_slice in S4. rewrite S4, S5, S3, <- app_assoc. reflexivity.
    - split; auto. split; auto. split; [symmetry; apply Nat.leb_gt; lia|]. exists []. split; auto.
      cbn [app length]. rewrite Nat.add_0_r. split; auto. unfold w_used_slice. rewrite firstn_skipn. auto. }
  destruct o as [b|b|k v]; cbn [wop_step wop_bytes].
  - pose proof (EXT b) as E. destruct (w_extend w b); cbn [appended wop_bytes]; auto.
  - rewrite w_push_extend by auto. pose proof (EXT [b]) as E. destruct (w_extend w [b]); cbn [appended wop_bytes]; auto.
  - rewrite enc_int_emit by auto. pose proof (emit_spec (e_int k v) w H) as S.
    cbn [wop_ok] in HO. rewrite wire_e_int in S by auto.
    destruct (emit (e_int k v) w) as [w'|w'] eqn:EE.
    + destruct S as (S0 & S1 & S2 & S3 & S4 & S5). split; auto. split; auto. split; [symmetry; apply Nat.leb_le; lia|].
      exists (le_spec (width_bytes k) v). cbn [appended wop_bytes]. split; auto. split; auto.
      rewrite <- (firstn_skipn (w_offs w') (w_buf w')). unfold w_used_slice in S4. rewrite S4, S5, S3, <- app_assoc. reflexivity.
    + destruct S as (S0 & S1 & S2 & (dn & td & D1 & D2 & D3 & D4) & S5). split; auto. split; auto.
      split; [symmetry; apply Nat.leb_gt; lia|].
      exists dn. split; [|split; auto].
      * cbn [appended wop_bytes].
        assert (SL : forall c, e_int k v = [c] -> dn = []).
        { intros c Ec. rewrite Ec, emit_single in EE. unfold of_opt in EE. destruct (w_extend w c); [discriminate|].
          inversion EE; subst w'. destruct dn; auto. cbn [length] in D3. lia. }
        destruct k; first [exact (SL _ eq_refl) | exists td; split; auto].
      * rewrite <- (firstn_skipn (w_offs w') (w_buf w')) at 1. unfold w_used_slice in D4. rewrite D4, S5, D3, <- app_assoc. reflexivity.
Qed.

(** a history of writer operations: [hist w os ds] lists what each operation appended *)
Lemma wop_run_spec os w :
  writer_ok w -> Forall wop_ok os ->
  let (oks, w') := wop_run w os in
  exists ds, Forall2 (fun (p : wop * bool) d => appended (fst p) (snd p) d) (combine os oks) ds /\
    length oks = length os /\
    writer_ok w' /\ length (w_buf w') = length (w_buf w) /\
    w_offs w' = (w_offs w + length (concat ds))%nat /\
    w_buf w' = w_used_slice w ++ concat ds ++ skipn (w_offs w') (w_buf w).
Proof.
  revert w; induction os as [|o os IH]; intros w H HO; cbn [wop_run].
  - exists []. cbn. repeat split; auto. unfold w_used_slice. rewrite firstn_skipn; auto.
  - inversion HO; subst. pose proof (wop_step_spec w o H H2) as S. destruct (wop_step w o) as [ok w1].
    destruct S as (S1 & S2 & _ & d & S3 & S4 & S5). specialize (IH w1 S1 H3).
    destruct (wop_run w1 os) as [oks w2]. destruct IH as (ds & I1 & I2 & I3 & I4 & I5 & I6).
    exists (d :: ds). cbn [combine concat length]. rewrite app_length. split; [constructor; auto|].
    split; [lia|]. split; auto. split; [congruence|]. split; [lia|].
    rewrite I6, <- !app_assoc.
    assert (EU : w_used_slice w1 = w_used_slice w ++ d).
    { unfold w_used_slice at 1. rewrite S4, S5, app_assoc. apply firstn_app_exact.
      rewrite app_length. unfold w_used_slice. rewrite firstn_length. unfold writer_ok in *. lia. }
    rewrite EU, <- app_assoc. do 3 f_equal.
    rewrite S4, app_assoc. rewrite I5, S5, <- Nat.add_assoc.
    rewrite Nat.add_assoc, <- (skipn_skipn (length (concat ds)) (w_offs w + length d)).
    rewrite skipn_app_exact.
    2:{ rewrite app_length. unfold w_used_slice. rewrite firstn_length. unfold writer_ok in *. lia. }
    rewrite skipn_skipn. f_equal. 
Qed.

Lemma writer_history buf os :
  Forall wop_ok os ->
  let (oks, w) := wop_run (w_init buf) os in
  exists ds, length oks = length os /\
    Forall2 (fun (p : wop * bool) d => appended (fst p) (snd p) d) (combine os oks) ds /\
    w_used w = length (concat ds) /\ (w_used w <= length buf)%nat /\
    w_buf w = concat ds ++ skipn (w_used w) buf /\
    w_used_slice w = concat ds.
Proof.
  intro HO. pose proof (wop_run_spec os (w_init buf) ltac:(unfold writer_ok; cbn; lia) HO) as S.
  destruct (wop_run (w_init buf) os) as [oks w]. destruct S as (ds & S1 & S2 & S3 & S4 & S5 & S6).
  exists ds. unfold w_used in *. cbn [w_init w_buf w_offs Nat.add] in *. unfold writer_ok in S3.
  repeat split; auto; try lia.
  unfold w_used_slice. rewrite S6. cbn [w_used_slice w_init w_buf w_offs firstn app].
  apply firstn_app_exact. auto.
Qed.

Lemma writer_step_exact w o :
  (w_offs w <= length (w_buf w))%nat -> wop_ok o ->
  fst (wop_step w o) = (length (wop_bytes o) <=? w_left w)%nat.
Proof.
  intros H HO. pose proof (wop_step_spec w o H HO) as S. destruct (wop_step w o). cbn. tauto.
Qed.

From Verif Require Import StatusProofs.
Lemma status_roundtrip_all s rest :
  p_status (le_spec 4 (status_u32 s) ++ rest) = Some (s, rest) /\
  wire (enc_status s) = le_spec 4 (status_u32 s) /\ status_from_u32 (status_u32 s) = Some s.
Proof.
  assert (E : wire (enc_status s) = le_spec 4 (status_u32 s)).
  { unfold enc_status. rewrite wire_u32, le_spec_bytes. reflexivity. }
  rewrite <- E. split; [apply p_status_roundtrip|]. split; auto. apply status_from_get.
Qed.
Lemma status_not_injective : exists v w s, v <> w /\ status_of_u32 v = Some s /\ status_of_u32 w = Some s.
Proof. exists 0x80000001, 0x80000002, (mkStatus SevError SC_SUCCESS). repeat split. discriminate. Qed.
