(** Proofs about Opaque.v. *)
From Verif Require Import Bytes BytesFacts Codec CodecProofs Parse ParseProofs Status Algo MsgConn MsgAuth
  SpecMsg MsgProofs MsgRound MsgRound2 Opaque SpecOpaque.
Local Open Scope N_scope.

Lemma nib_val hi lo : hi < 16 -> lo < 16 -> nib hi lo = hi * 16 + lo.
Proof. intros. unfold nib. rewrite N.mod_small by lia. reflexivity. Qed.
Lemma shiftr4 m : N.shiftr m 4 = m / 16.
Proof. rewrite N.shiftr_div_pow2. reflexivity. Qed.
Lemma land15 m : N.land m 0xF = m mod 16.
Proof. change 0xF with (N.ones 4). rewrite N.land_ones. reflexivity. Qed.

Lemma rt_smv v : ok_smv v -> rt (enc_smv v) dec_smv v.
Proof.
  intros (H1 & H2 & H3 & H4). unfold enc_smv, dec_smv. rewrite !nib_val by assumption.
  apply rt_assert; [apply N.ltb_lt; lia|]. eapply rt_bind; [apply rt_u8|].
  apply rt_assert; [apply N.ltb_lt; lia|]. eapply rt_bind_last; [apply rt_u8|].
  rewrite !shiftr4, !land15.
  replace ((sv_major v * 16 + sv_minor v) / 16) with (sv_major v) by lia.
  replace ((sv_major v * 16 + sv_minor v) mod 16) with (sv_minor v) by lia.
  replace ((sv_update v * 16 + sv_alpha v) / 16) with (sv_update v) by lia.
  replace ((sv_update v * 16 + sv_alpha v) mod 16) with (sv_alpha v) by lia.
  destruct v; apply rt_ret.
Qed.

Lemma rt_many {A} (P : A -> Prop) (e : A -> enc) (d : dec A) l :
  (forall a, P a -> rt (e a) d a) -> Forall P l -> rt (concat (map e l)) (d_many d (length l)) l.
Proof.
  intros HP. induction 1 as [|x l Hx _ IH]; cbn [map concat length d_many]; [apply rt_ret|].
  eapply rt_bind; [apply HP, Hx|]. eapply rt_bind_last; [apply IH|]. apply rt_ret.
Qed.

Lemma repeat_of_Forall {A} (x : A) l : Forall (fun v => v = x) l -> l = repeat x (length l).
Proof. induction 1 as [|y l -> _ IH]; cbn; congruence. Qed.

Lemma rt_table {A} (P : A -> Prop) (e : A -> enc) (d : dec A) max dflt n l :
  (forall a, P a -> rt (e a) d a) -> n <= N.of_nat max -> length l = max ->
  Forall P (firstn (N.to_nat n) l) -> Forall (fun v => v = dflt) (skipn (N.to_nat n) l) ->
  rt (x_indexed e n l) (d_table max dflt d n) l.
Proof.
  intros HP HN HL F1 F2. unfold x_indexed, d_table.
  assert (HF : length (firstn (N.to_nat n) l) = N.to_nat n) by (rewrite firstn_length; lia).
  replace (n <=? len l) with true by (symmetry; apply N.leb_le; unfold len; lia).
  cbn [x_assert]. rewrite app_nil_r, Nat.min_l by lia.
  rewrite <- HF at 2. eapply rt_bind_last; [eapply rt_many; eauto|].
  rewrite HF. apply repeat_of_Forall in F2. rewrite skipn_length, HL in F2.
  rewrite <- F2, firstn_skipn. apply rt_ret.
Qed.

Lemma rt_svl l : ok_svl l -> rt (enc_svl l) dec_svl l.
Proof.
  intros (H1 & H2 & H3 & H4). unfold enc_svl, dec_svl. eapply rt_bind; [apply rt_u8|].
  eapply rt_bind_last; [eapply rt_table; eauto using rt_smv|]. destruct l; apply rt_ret.
Qed.

Lemma rt_general c t e : enc_general c t = Some e -> rt e (dec_general c) t.
Proof.
  unfold enc_general, dec_general. destruct (n_version (c_nego c) <? V12).
  - intro H. assert (e = x_u32 DMTF_SPEC_ID ++ x_u8 DMTF_OPAQUE_VERSION ++ x_u8 t ++ x_u16 0) as -> by congruence.
    eapply rt_bind; [apply rt_u32; reflexivity|]. apply rt_guard; [reflexivity|].
    eapply rt_bind; [apply rt_u8|]. apply rt_guard; [reflexivity|].
    eapply rt_bind; [apply rt_u8|]. eapply rt_bind_last; [apply rt_u16; reflexivity|]. apply rt_ret.
  - destruct (n_opaque (c_nego c) =? OPAQUE_FMT1); [|discriminate].
    intro H. assert (e = x_u8 t ++ x_u8 0 ++ x_u16 0) as -> by congruence.
    eapply rt_bind; [apply rt_u8|]. eapply rt_bind; [apply rt_u8|].
    exists [0; 0]. repeat split.
Qed.

Lemma known_format_enc c t : known_format c <-> exists e, enc_general c t = Some e.
Proof.
  unfold known_format, enc_general, V12, OPAQUE_FMT1. destruct (N.ltb_spec (n_version (c_nego c)) 0x12).
  - split; [eauto|auto].
  - destruct (N.eqb_spec (n_opaque (c_nego c)) 2); split; eauto.
    + intros [?|?]; [lia|contradiction].
    + intros [e He]; discriminate.
Qed.

Lemma rt_sel_elem v : ok_smv v -> rt (enc_sel_elem v) dec_sel_elem v.
Proof.
  intro H. unfold enc_sel_elem, dec_sel_elem.
  eapply rt_bind; [apply rt_u8|]. eapply rt_bind; [apply rt_u8|]. eapply rt_bind; [apply rt_u16; reflexivity|].
  eapply rt_bind; [apply rt_u8|]. eapply rt_bind; [apply rt_u8|]. apply rt_smv, H.
Qed.

Lemma sel_round_trip c s : ok_dmtf_sel s -> known_format c ->
  exists e w, enc_dmtf_sel c s = Some e /\ xwire e = Some w /\ forall rest, dec_dmtf_sel c (w ++ rest) = POk s rest.
Proof.
  intros (H1 & H2 & H3 & H4) HK. apply (known_format_enc c (ds_total s)) in HK as [h Hh].
  unfold enc_dmtf_sel. rewrite Hh.
  destruct (rt_bind h (x_indexed enc_sel_elem (ds_total s) (ds_list s)) (dec_general c)
             (fun t => (l <- d_table MAX_OPAQUE_LIST_ELEMENTS_COUNT smv_default dec_sel_elem t ;; dret (mkDsel t l))%dec)
             (ds_total s) s) as (w & W & _ & D).
  - apply rt_general, Hh.
  - eapply rt_bind_last; [eapply rt_table; eauto using rt_sel_elem|]. destruct s; apply rt_ret.
  - eexists _, w. repeat split; eauto.
Qed.

(** ** the supported-version list: position-dependent padding *)
(** a decoder that knows the total slice length, at position [used] *)
Definition rtp {A} (used : N) (e : enc) (d : N -> dec A) (a : A) : Prop :=
  exists w, xwire e = Some w /\ xcount e = len w /\
    forall rest, d (used + len w + len rest) (w ++ rest) = POk a rest.

Lemma rt_rtp {A} used e (d : dec A) a : rt e d a -> rtp used e (fun _ => d) a.
Proof. intros (w & W & C & D). exists w. repeat split; auto. Qed.
Lemma rtp_bind {A B} used e1 e2 (d : N -> dec A) (k : N -> A -> dec B) a b :
  rtp used e1 d a -> rtp (used + xcount e1) e2 (fun t => k t a) b ->
  rtp used (e1 ++ e2) (fun t => dbind (d t) (k t)) b.
Proof.
  intros (w1 & W1 & C1 & D1) (w2 & W2 & C2 & D2). exists (w1 ++ w2).
  rewrite xwire_app, W1, W2, xcount_app, C1, C2, len_app. repeat split; auto.
  intro rest. unfold dbind. rewrite <- app_assoc.
  replace (used + (len w1 + len w2) + len rest) with (used + len w1 + len (w2 ++ rest)) by (rewrite len_app; lia).
  rewrite D1. rewrite <- C1.
  replace (used + xcount e1 + len (w2 ++ rest)) with (used + xcount e1 + len w2 + len rest) by (rewrite len_app; lia).
  apply D2.
Qed.
Lemma rtp_bind_last {A B} used e1 (d : N -> dec A) (k : N -> A -> dec B) a b :
  rtp used e1 d a -> rtp (used + xcount e1) [] (fun t => k t a) b ->
  rtp used e1 (fun t => dbind (d t) (k t)) b.
Proof. intros H1 H2. rewrite <- (app_nil_r e1). eapply rtp_bind; eauto. Qed.
Lemma rtp_used used (e : enc) {B} (k : N -> N -> dec B) b :
  rtp used e (fun t => k t used) b -> rtp used e (fun t => dbind (d_used t) (k t)) b.
Proof.
  intros (w & W & C & D). exists w. repeat split; auto. intro rest. unfold dbind, d_used.
  replace (used + len w + len rest - len (w ++ rest)) with used by (rewrite len_app; lia). apply D.
Qed.
Lemma rtp_ret {A} used (a : A) : rtp used [] (fun _ => dret a) a.
Proof. apply rt_rtp, rt_ret. Qed.

Lemma app5 {A} (a b c d e f : list A) : a ++ b ++ c ++ d ++ e ++ f = (a ++ b ++ c ++ d ++ e) ++ f.
Proof. rewrite !app_assoc. reflexivity. Qed.

Lemma rtp_sup_elem used l : ok_svl l -> rtp used (enc_sup_elem used l) (fun t => dec_sup_elem t) l.
Proof.
  intros H. pose proof H as (H1 & _). unfold enc_sup_elem, dec_sup_elem.
  set (body := x_u8 0 ++ _). set (pad := x_arr _).
  assert (HX : forall X : enc, body ++ X = x_u8 0 ++ x_u8 0 ++ x_u16 (3 + 2 * sl_count l) ++ x_u8 1 ++ x_u8 1 ++ enc_svl l ++ X).
  { intro X. unfold body. rewrite <- !app_assoc. reflexivity. }
  rewrite HX.
  eapply rtp_bind; [apply rt_rtp, rt_u8|]. eapply rtp_bind; [apply rt_rtp, rt_u8|].
  eapply rtp_bind; [apply rt_rtp, rt_u16; lia|].
  eapply rtp_bind; [apply rt_rtp, rt_u8|]. eapply rtp_bind; [apply rt_rtp, rt_u8|].
  eapply rtp_bind; [apply rt_rtp, rt_svl, H|].
  assert (HB : xcount body = xcount (x_u8 0) + (xcount (x_u8 0) + (xcount (x_u16 (3 + 2 * sl_count l)) + (xcount (x_u8 1) + (xcount (x_u8 1) + xcount (enc_svl l)))))).
  { unfold body. rewrite !xcount_app. reflexivity. }
  apply rtp_used. apply rt_rtp.
  replace (used + xcount (x_u8 0) + xcount (x_u8 0) + xcount (x_u16 (3 + 2 * sl_count l)) + xcount (x_u8 1) + xcount (x_u8 1) + xcount (enc_svl l))
    with (used + xcount body) by lia.
  eapply rt_bind_last; [apply rt_arr, fill_length|]. apply rt_ret.
Qed.

Lemma rtp_sup_elems ls : forall used, Forall ok_svl ls ->
  rtp used (enc_sup_elems used ls) (fun t => d_many (dec_sup_elem t) (length ls)) ls.
Proof.
  induction ls as [|l ls IH]; intros used HF; cbn [enc_sup_elems length d_many]; [apply rtp_ret|].
  inversion_clear HF. eapply rtp_bind; [apply rtp_sup_elem; assumption|].
  eapply rtp_bind_last; [apply IH; assumption|]. apply rtp_ret.
Qed.

Lemma sup_round_trip c s : ok_dmtf_sup s -> known_format c ->
  exists e w, enc_dmtf_sup 0 c s = Some e /\ xwire e = Some w /\
    forall rest, dec_dmtf_sup (len (w ++ rest)) c (w ++ rest) = POk s rest.
Proof.
  intros (H1 & H2 & H3 & H4) HK. apply (known_format_enc c (dp_total s)) in HK as [h Hh].
  unfold enc_dmtf_sup. rewrite Hh. set (els := enc_sup_elems _ _).
  replace (dp_total s <=? len (dp_list s)) with true by (symmetry; apply N.leb_le; unfold len; lia).
  cbn [x_assert]. rewrite app_nil_r.
  assert (HF : length (firstn (N.to_nat (dp_total s)) (dp_list s)) = N.to_nat (dp_total s)) by (rewrite firstn_length; lia).
  assert (R : rtp 0 (h ++ els) (fun t => dec_dmtf_sup t c) s).
  { unfold dec_dmtf_sup. eapply rtp_bind; [apply rt_rtp, rt_general, Hh|].
    replace (dp_total s <=? N.of_nat MAX_OPAQUE_LIST_ELEMENTS_COUNT) with true
      by (symmetry; apply N.leb_le; unfold MAX_OPAQUE_LIST_ELEMENTS_COUNT; lia).
    cbn [dguard]. unfold d_table.
    assert (HM : Nat.min (N.to_nat (dp_total s)) MAX_OPAQUE_LIST_ELEMENTS_COUNT = length (firstn (N.to_nat (dp_total s)) (dp_list s)))
      by (rewrite HF; unfold MAX_OPAQUE_LIST_ELEMENTS_COUNT; lia).
    rewrite HM. eapply rtp_bind_last.
    - eapply rtp_bind_last; [apply rtp_sup_elems; assumption|]. apply rtp_ret.
    - apply repeat_of_Forall in H4. rewrite skipn_length, H2 in H4. rewrite HF.
      unfold MAX_OPAQUE_LIST_ELEMENTS_COUNT. rewrite <- H4, firstn_skipn. destruct s; apply rtp_ret. }
  destruct R as (w & W & _ & D). exists (h ++ els), w. split; [reflexivity|]. split; [exact W|].
  intro rest. rewrite len_app. apply (D rest).
Qed.

(** ** parsing a supported-version list *)
Definition smv_of (p : N * N) : smv :=
  mkSmv (N.shiftr (snd p) 4) (N.land (snd p) 0xF) (N.shiftr (fst p) 4) (N.land (fst p) 0xF).
Definition flat (p : N * N) : bytes := [fst p; snd p].

Lemma smv_of_u8 p : snd p < 256 -> smv_u8 (smv_of p) = Some (snd p).
Proof.
  intro H. unfold smv_u8, smv_of. cbn [sv_major sv_minor]. rewrite shiftr4, land15, nib_val by lia.
  replace (snd p / 16 * 16 + snd p mod 16) with (snd p) by lia.
  apply N.ltb_lt in H. rewrite H. reflexivity.
Qed.

Lemma many_smv n : forall l xs r, d_many dec_smv n l = POk xs r ->
  exists ps, length ps = n /\ l = concat (map flat ps) ++ r /\ xs = map smv_of ps.
Proof.
  induction n as [|n IH]; intros l xs r H; cbn [d_many] in H.
  - apply dret_ok in H as [-> ->]. exists []. auto.
  - apply dbind_ok in H as (x & l1 & H0 & H). apply dbind_ok in H as (ys & l2 & H1 & H).
    apply dret_ok in H as [-> ->]. apply IH in H1 as (ps & HL & -> & ->).
    unfold dec_smv in H0. apply dbind_ok in H0 as (u & l3 & A & H0). apply dbind_ok in H0 as (m & l4 & B & H0).
    apply dret_ok in H0 as [-> E]. apply d_u8_inv in A, B. subst.
    exists ((u, m) :: ps). repeat split; cbn; auto.
Qed.

Lemma nth_flat ps : forall i, (i < length ps)%nat -> forall r,
  nth (1 + 2 * i) (concat (map flat ps) ++ r) 0 = snd (nth i ps (0, 0)).
Proof.
  induction ps as [|p ps IH]; intros i Hi r; cbn [length] in Hi; [lia|].
  destruct i as [|i]; [reflexivity|].
  replace (1 + 2 * S i)%nat with (S (S (1 + 2 * i))) by lia.
  cbn [map concat flat app nth]. apply IH. lia.
Qed.

Lemma d_many_length {A} (d : dec A) n : forall l xs r, d_many d n l = POk xs r -> length xs = n.
Proof.
  induction n as [|n IH]; intros l xs r H; cbn [d_many] in H.
  - apply dret_ok in H as [-> _]. reflexivity.
  - apply dbind_ok in H as (x & l1 & _ & H). apply dbind_ok in H as (ys & l2 & H1 & H).
    apply dret_ok in H as [-> _]. cbn. f_equal. eauto.
Qed.

Lemma dec_general_inv c l t r : bytes_ok l -> dec_general c l = POk t r ->
  exists h, l = h ++ r /\ length h = header_len c /\ known_format c.
Proof.
  intro HB. unfold dec_general, header_len, known_format, V12, OPAQUE_FMT1.
  destruct (N.ltb_spec (n_version (c_nego c)) 0x12).
  - intro H0. apply dbind_ok in H0 as (a & l1 & A & H0). apply dguard_ok in H0 as [_ H0].
    apply dbind_ok in H0 as (b & l2 & B & H0). apply dguard_ok in H0 as [_ H0].
    apply dbind_ok in H0 as (t' & l3 & C & H0). apply dbind_ok in H0 as (z & l4 & D & H0).
    apply dret_ok in H0 as [-> ->].
    apply (d_le_inv 4) in A as [E1 _]; auto. apply d_u8_inv in B. apply d_u8_inv in C.
    subst l. apply bytes_ok_app in HB as [_ HB]. subst l1 l2.
    apply (d_le_inv 2) in D as [E2 _]; [|inversion_clear HB as [|? ? ? HB2]; inversion_clear HB2; assumption].
    subst l3. exists (le_bytes 4 a ++ b :: t' :: le_bytes 2 z). split; [|split; [|tauto]].
    + rewrite <- app_assoc. reflexivity.
    + rewrite app_length. cbn [length]. rewrite !le_bytes_length. reflexivity.
  - destruct (N.eqb_spec (n_opaque (c_nego c)) 2) as [E|]; [|discriminate].
    intro H0. apply dbind_ok in H0 as (a & l1 & A & H0). apply dbind_ok in H0 as (b & l2 & B & H0).
    apply dbind_ok in H0 as (t' & l3 & C & H0). apply dbind_ok in H0 as (z & l4 & D & H0).
    apply dret_ok in H0 as [-> ->]. apply d_u8_inv in A, B, C, D. subst.
    eexists [_; _; _; _]. split; [reflexivity|]. split; [reflexivity|tauto].
Qed.

Lemma dec_svl_inv l sl r : dec_svl l = POk sl r ->
  exists ps, length ps = Nat.min (N.to_nat (sl_count sl)) 2 /\ l = sl_count sl :: concat (map flat ps) ++ r /\
    firstn (length ps) (sl_list sl) = map smv_of ps /\ length (sl_list sl) = 2%nat.
Proof.
  unfold dec_svl. intro H. apply dbind_ok in H as (n & l1 & A & H). apply dbind_ok in H as (xs & l2 & B & H).
  apply dret_ok in H as [-> ->]. apply d_u8_inv in A. subst l. cbn [sl_count sl_list].
  unfold d_table in B. apply dbind_ok in B as (ys & l3 & C & B). apply dret_ok in B as [-> ->].
  apply many_smv in C as (ps & HL & -> & ->). unfold MAX_SECURE_SPDM_VERSION_COUNT in *. exists ps. repeat split; auto.
  - rewrite <- (map_length smv_of ps) at 1. rewrite firstn_app, firstn_all, Nat.sub_diag. apply app_nil_r.
  - rewrite app_length, repeat_length, map_length. lia.
Qed.

Lemma rsp_get_list_inv c o l : bytes_ok (v_bytes o) -> rsp_get_list c o = Some l ->
  (l = svl_default) \/
  (sl_count l = offered_count c (v_bytes o) /\ known_format c /\
   exists ps, length ps = Nat.min (N.to_nat (sl_count l)) 2 /\ Forall (fun p => snd p < 256) ps /\
     firstn (length ps) (sl_list l) = map smv_of ps /\
     forall i, (i < length ps)%nat -> offered c (v_bytes o) i = snd (nth i ps (0, 0))).
Proof.
  intros HB. unfold rsp_get_list. destruct (dec_dmtf_sup (v_size o) c (v_bytes o)) as [s r| |] eqn:E; try discriminate.
  intro H. assert (l = nth 0 (dp_list s) svl_default) as -> by congruence. clear H.
  unfold dec_dmtf_sup in E. apply dbind_ok in E as (t & l1 & A & E). apply dguard_ok in E as [HT E].
  apply dbind_ok in E as (xs & l2 & B & E). apply dret_ok in E as [-> ->]. cbn [dp_list].
  apply dec_general_inv in A as (h & EH & HL & HK); auto.
  unfold d_table in B. apply dbind_ok in B as (ys & l3 & C & B). apply dret_ok in B as [-> ->].
  destruct (Nat.min (N.to_nat t) MAX_OPAQUE_LIST_ELEMENTS_COUNT) as [|n] eqn:EN.
  - cbn [d_many] in C. apply dret_ok in C as [-> ->]. left. reflexivity.
  - right. cbn [d_many] in C. apply dbind_ok in C as (x & l4 & D & C). apply dbind_ok in C as (zs & l5 & F & C).
    apply dret_ok in C as [-> ->]. cbn [app nth].
    unfold dec_sup_elem in D. apply dbind_ok in D as (q1 & m1 & Q1 & D). apply dbind_ok in D as (q2 & m2 & Q2 & D).
    apply dbind_ok in D as (q3 & m3 & Q3 & D). apply dbind_ok in D as (q4 & m4 & Q4 & D).
    apply dbind_ok in D as (q5 & m5 & Q5 & D). apply dbind_ok in D as (sl & m6 & Q6 & D).
    apply dbind_ok in D as (u & m7 & _ & D). apply dbind_ok in D as (q7 & m8 & _ & D).
    apply dret_ok in D as [-> _].
    apply d_u8_inv in Q1, Q2. subst l1 m1. rewrite EH in HB. apply bytes_ok_app in HB as [_ HB].
    assert (HB2 : bytes_ok m2) by (inversion_clear HB as [|? ? ? HB']; inversion_clear HB'; assumption).
    apply (d_le_inv 2) in Q3 as [-> _]; [|exact HB2]. apply d_u8_inv in Q4, Q5. subst m3 m4.
    apply dec_svl_inv in Q6 as (ps & HPL & -> & HPF & HSL).
    apply bytes_ok_app in HB2 as [_ HB2].
    assert (HB3 : bytes_ok (concat (map flat ps) ++ m6))
      by (inversion_clear HB2 as [|? ? ? X]; inversion_clear X as [|? ? ? Y]; inversion_clear Y; assumption).
    apply bytes_ok_app in HB3 as [HB3 _].
    assert (POS : v_bytes o = (h ++ [q1; q2] ++ le_bytes 2 q3 ++ [q4; q5]) ++ sl_count sl :: concat (map flat ps) ++ m6).
    { rewrite EH. repeat rewrite <- app_assoc. reflexivity. }
    assert (PL : length (h ++ [q1; q2] ++ le_bytes 2 q3 ++ [q4; q5]) = (header_len c + 6)%nat).
    { rewrite !app_length, le_bytes_length, HL. reflexivity. }
    split; [|split; [exact HK|]].
    + unfold offered_count. rewrite POS, <- PL, app_nth2, Nat.sub_diag by lia. reflexivity.
    + exists ps. repeat split; auto.
      * clear -HB3. induction ps as [|p ps IH]; constructor.
        -- inversion_clear HB3 as [|? ? _ X]. inversion_clear X. assumption.
        -- apply IH. cbn in HB3. inversion_clear HB3 as [|? ? _ X]. inversion_clear X. assumption.
      * intros i Hi. unfold offered. rewrite POS, app_nth2 by lia. rewrite PL.
        replace (header_len c + 8 + 2 * i - (header_len c + 6))%nat with (S (1 + 2 * i)) by lia.
        cbn [nth]. apply nth_flat; assumption.
Qed.

(** ** the responder's choice *)
Definition answers (c : cctx) (v : N) : vbuf :=
  if n_version (c_nego c) <? V12 then sel_blob RSP_BLOB_DSP0277 v else sel_blob RSP_BLOB_FMT1 v.

Lemma rsp_answer_known c v : known_format c -> rsp_answer c v = Ok (answers c v).
Proof.
  unfold known_format, rsp_answer, answers, V12, OPAQUE_FMT1.
  destruct (N.ltb_spec (n_version (c_nego c)) 0x12); [reflexivity|]. intros [?|E]; [lia|].
  rewrite E, N.eqb_refl. reflexivity.
Qed.

Lemma sel_inner_spec c b locals : known_format c -> forall acc,
  sel_inner c b locals acc = Ok (if existsb (N.eqb b) locals then answers c b else acc).
Proof.
  intro HK. induction locals as [|v ls IH]; intro acc; cbn [sel_inner existsb]; [reflexivity|].
  destruct (N.eqb_spec b v) as [<-|]; cbn [orb].
  - rewrite rsp_answer_known by assumption. cbn [obind]. rewrite IH. destruct (existsb _ ls); reflexivity.
  - apply IH.
Qed.

(** last offered version that is configured *)
Definition choice (locals : list N) (vs : list N) : option N :=
  fold_left (fun acc b => if existsb (N.eqb b) locals then Some b else acc) vs None.

Lemma sel_outer_spec c locals ps : known_format c -> Forall (fun p => snd p < 256) ps -> forall acc a,
  acc = match a with Some b => answers c b | None => v_default MAX_OPAQUE_SIZE end ->
  sel_outer c (map smv_of ps) locals acc =
  Ok (match fold_left (fun acc b => if existsb (N.eqb b) locals then Some b else acc) (map snd ps) a with
      | Some b => answers c b | None => v_default MAX_OPAQUE_SIZE end).
Proof.
  intros HK. induction 1 as [|p ps Hp _ IH]; intros acc a ->; cbn [map sel_outer fold_left]; [destruct a; reflexivity|].
  rewrite smv_of_u8 by assumption. rewrite sel_inner_spec by assumption. cbn [obind].
  apply IH. destruct (existsb _ locals); reflexivity.
Qed.

Lemma choice_some locals vs : forall a b,
  fold_left (fun acc b => if existsb (N.eqb b) locals then Some b else acc) vs a = Some b ->
  a = Some b \/ In b vs /\ In b locals.
Proof.
  induction vs as [|v vs IH]; intros a b; cbn [fold_left]; [auto|].
  intro H. apply IH in H as [H|[H1 H2]]; [|right; split; [right|]; assumption].
  destruct (existsb (N.eqb v) locals) eqn:E; [|auto].
  right. assert (v = b) as -> by congruence. apply existsb_exists in E as (x & Hx & Ex).
  apply N.eqb_eq in Ex. subst x. split; [left; reflexivity|exact Hx].
Qed.
Lemma choice_none locals vs : forall a,
  fold_left (fun acc b => if existsb (N.eqb b) locals then Some b else acc) vs a = None ->
  a = None /\ forall b, In b vs -> ~ In b locals.
Proof.
  induction vs as [|v vs IH]; intros a; cbn [fold_left]; [intros ->; split; [reflexivity|intros b []]|].
  intro H. apply IH in H as [H1 H2]. destruct (existsb (N.eqb v) locals) eqn:E; [discriminate|].
  split; [exact H1|]. intros b [<-|Hb]; [|apply H2, Hb].
  intro Hin. assert (existsb (N.eqb v) locals = true); [|congruence].
  apply existsb_exists. exists v. split; [exact Hin|apply N.eqb_refl].
Qed.

Lemma in_nth_ps (b : N) ps : In b (map snd ps) -> exists i, (i < length ps)%nat /\ snd (nth i ps (0, 0)) = b.
Proof.
  intro H. apply in_map_iff in H as (p & <- & Hp). apply (In_nth _ _ (0, 0)) in Hp as (i & Hi & E).
  exists i. rewrite E. auto.
Qed.

Lemma select_sound c locals o r : bytes_ok (v_bytes o) -> rsp_select_version c locals o = Ok r ->
  r = v_default MAX_OPAQUE_SIZE \/
  exists i, N.of_nat i < offered_count c (v_bytes o) /\ offered_count c (v_bytes o) <= 2 /\
    In (offered c (v_bytes o) i) locals /\ r = answers c (offered c (v_bytes o) i).
Proof.
  intros HB. unfold rsp_select_version. destruct (rsp_get_list c o) as [l|] eqn:E; [|left; congruence].
  destruct (N.ltb_spec (N.of_nat MAX_SECURE_SPDM_VERSION_COUNT) (sl_count l)) as [|HC]; [discriminate|].
  unfold MAX_SECURE_SPDM_VERSION_COUNT in HC.
  apply rsp_get_list_inv in E as [->|(HN & HK & ps & HL & HF & HX & HO)]; auto.
  - cbn [sl_count svl_default N.to_nat firstn sel_outer]. intro H. left. congruence.
  - assert (EL : length ps = N.to_nat (sl_count l)) by (rewrite HL; lia).
    rewrite <- EL, HX, (sel_outer_spec c locals ps HK HF _ None) by reflexivity.
    destruct (fold_left _ (map snd ps) None) as [b|] eqn:EF; intro H; [|left; congruence].
    right. apply choice_some in EF as [EF|[H1 H2]]; [discriminate|].
    apply in_nth_ps in H1 as (i & Hi & Eb). rewrite <- HO in Eb by assumption.
    exists i. rewrite <- HN, Eb. repeat split; auto; try lia. congruence.
Qed.

Lemma select_complete c locals o l i : bytes_ok (v_bytes o) -> rsp_get_list c o = Some l ->
  offered_count c (v_bytes o) <= 2 -> N.of_nat i < sl_count l -> In (offered c (v_bytes o) i) locals ->
  exists j, N.of_nat j < offered_count c (v_bytes o) /\ In (offered c (v_bytes o) j) locals /\
    rsp_select_version c locals o = Ok (answers c (offered c (v_bytes o) j)).
Proof.
  intros HB E HC HI HIn. unfold rsp_select_version. rewrite E.
  apply rsp_get_list_inv in E as [->|(HN & HK & ps & HL & HF & HX & HO)]; auto; [cbn in HI; lia|].
  rewrite <- HN in HC.
  destruct (N.ltb_spec (N.of_nat MAX_SECURE_SPDM_VERSION_COUNT) (sl_count l)) as [X|_];
    [unfold MAX_SECURE_SPDM_VERSION_COUNT in X; lia|].
  assert (EL : length ps = N.to_nat (sl_count l)) by (rewrite HL; lia).
  rewrite <- EL, HX, (sel_outer_spec c locals ps HK HF _ None) by reflexivity.
  destruct (fold_left _ (map snd ps) None) as [b|] eqn:EF.
  - apply choice_some in EF as [EF|[H1 H2]]; [discriminate|].
    apply in_nth_ps in H1 as (j & Hj & Eb). rewrite <- HO in Eb by assumption.
    exists j. rewrite <- HN, Eb. repeat split; auto. lia.
  - apply choice_none in EF as [_ EF]. exfalso. apply (EF (offered c (v_bytes o) i)); [|exact HIn].
    rewrite HO by lia. apply in_map, nth_In. lia.
Qed.

Lemma select_no_panic c locals o : bytes_ok (v_bytes o) -> rsp_select_version c locals o <> Panic.
Proof.
  intros HB. unfold rsp_select_version. destruct (rsp_get_list c o) as [l|] eqn:E; [|discriminate].
  destruct (N.ltb_spec (N.of_nat MAX_SECURE_SPDM_VERSION_COUNT) (sl_count l)) as [|HC]; [discriminate|].
  unfold MAX_SECURE_SPDM_VERSION_COUNT in HC.
  apply rsp_get_list_inv in E as [->|(HN & HK & ps & HL & HF & HX & HO)]; auto; [discriminate|].
  assert (EL : length ps = N.to_nat (sl_count l)) by (rewrite HL; lia).
  rewrite <- EL, HX, (sel_outer_spec c locals ps HK HF _ None) by reflexivity. discriminate.
Qed.

(** what the requester reads back from the responder's answer *)
Lemma fmt1_answer_read c v : v < 256 -> 0x12 <= n_version (c_nego c) -> n_opaque (c_nego c) = 2 ->
  req_secure_version c (answers c v) = v.
Proof.
  intros HV H1 H2. unfold req_secure_version, req_get_sel, dec_dmtf_sel, dec_general, answers, V12, OPAQUE_FMT1.
  apply N.ltb_ge in H1. rewrite H1, H2.
  change (v_bytes (sel_blob RSP_BLOB_FMT1 v)) with [1;0;0;0; 0;0;4;0; 1;0;0;v].
  change (2 =? 2) with true. cbv iota.
  change (smv_u8 (smv_of (0, v))) with (smv_u8 (smv_of (0, v))).
  assert (E : (t <- (t <- d_u8 ;; _a <- d_u8 ;; _b <- d_u8 ;; _c <- d_u8 ;; dret t) ;;
      l <- d_table MAX_OPAQUE_LIST_ELEMENTS_COUNT smv_default dec_sel_elem t ;; dret (mkDsel t l))%dec
      [1;0;0;0; 0;0;4;0; 1;0;0;v] = POk (mkDsel 1 [smv_of (0, v); smv_default; smv_default]) []) by reflexivity.
  rewrite E. cbn [ds_list nth]. rewrite (smv_of_u8 (0, v)) by exact HV. reflexivity.
Qed.
Lemma dsp0277_answer_unread c v : n_version (c_nego c) < 0x12 -> req_secure_version c (answers c v) = 0.
Proof.
  intros H1. unfold req_secure_version, req_get_sel, dec_dmtf_sel, dec_general, answers, V12, OPAQUE_FMT1.
  apply N.ltb_lt in H1. rewrite H1. reflexivity.
Qed.
Lemma own_blob_fmt1 c : 0x12 <= n_version (c_nego c) -> n_opaque (c_nego c) = 2 ->
  rsp_get_list c (v_of MAX_OPAQUE_SIZE REQ_BLOB_FMT1) = Some (mkSvl 2 [smv_from 0x10; smv_from 0x11]).
Proof.
  intros H1 H2. unfold rsp_get_list, dec_dmtf_sup, dec_general, V12, OPAQUE_FMT1.
  apply N.ltb_ge in H1. rewrite H1, H2. reflexivity.
Qed.
Lemma own_blob_dsp0277 c : n_version (c_nego c) < 0x12 ->
  rsp_get_list c (v_of MAX_OPAQUE_SIZE REQ_BLOB_DSP0277) = None.
Proof.
  intros H1. unfold rsp_get_list, dec_dmtf_sup, dec_general, V12, OPAQUE_FMT1.
  apply N.ltb_lt in H1. rewrite H1. reflexivity.
Qed.

(** SpdmOpaqueStruct itself *)
Lemma opaque_oversized n l : 1024 < n -> n < 65536 -> dec_opaque (le_bytes 2 n ++ l) = PNone.
Proof.
  intros H1 H2. unfold dec_opaque, dbind. rewrite d_u16_le by assumption.
  unfold dguard, MAX_OPAQUE_SIZE. replace (n <=? _) with false; [reflexivity|].
  symmetry. apply N.leb_gt. lia.
Qed.
Lemma opaque_accept l o r : bytes_ok l -> dec_opaque l = POk o r ->
  v_size o <= 1024 /\ opaque_ok o /\ exists w, xwire (enc_opaque o) = Some w /\ l = w ++ r.
Proof.
  intros HB H. unfold dec_opaque in H. apply dbind_ok in H as (n & l1 & A & H).
  apply dguard_ok in H as [HN H]. apply dbind_ok in H as (b & l2 & B & H). apply dret_ok in H as [-> ->].
  apply (d_le_inv 2) in A as [-> HV]; [|exact HB]. unfold MAX_OPAQUE_SIZE in *. apply N.leb_le in HN.
  apply d_fixed_inv in B as (d & -> & HL & ->); [|exact HN]. cbn [v_size]. split; [lia|].
  apply bytes_ok_app in HB as [_ HB]. apply bytes_ok_app in HB as [HB _].
  assert (HLn : (length d <= 1024)%nat) by (unfold len in HL; lia).
  assert (C : firstn (N.to_nat n) (pad_to 1024 d) = d).
  { subst n. unfold len. rewrite Nnat.Nat2N.id. apply pad_to_firstn, HLn. }
  split.
  - exists d. cbn [v_size v_data]. unfold pad_to. rewrite firstn_all2 by lia.
    repeat split; auto. subst n. unfold len. lia.
  - exists (le_bytes 2 n ++ d). rewrite xw_opaque. unfold wire_opaque, content. cbn [v_size v_data].
    rewrite C. split; [reflexivity|]. rewrite <- app_assoc. reflexivity.
Qed.

Lemma answers_bytes c v : v_bytes (answers c v) = selection_bytes c v.
Proof. unfold answers, selection_bytes, V12. destruct (_ <? _); reflexivity. Qed.

Lemma select_sound' c locals o r : bytes_ok (v_bytes o) -> rsp_select_version c locals o = Ok r ->
  v_bytes r = [] \/
  exists i, N.of_nat i < offered_count c (v_bytes o) /\ offered_count c (v_bytes o) <= 2 /\
    In (offered c (v_bytes o) i) locals /\ v_bytes r = selection_bytes c (offered c (v_bytes o) i).
Proof.
  intros HB H. destruct (select_sound c locals o r HB H) as [->|(i & A & B & C & ->)]; [left; reflexivity|].
  right. exists i. rewrite answers_bytes. auto.
Qed.
Lemma select_complete' c locals o l i : bytes_ok (v_bytes o) -> rsp_get_list c o = Some l ->
  offered_count c (v_bytes o) <= 2 -> N.of_nat i < sl_count l -> In (offered c (v_bytes o) i) locals ->
  exists j r, N.of_nat j < offered_count c (v_bytes o) /\ In (offered c (v_bytes o) j) locals /\
    rsp_select_version c locals o = Ok r /\ v_bytes r = selection_bytes c (offered c (v_bytes o) j).
Proof.
  intros HB E HC HI HIn. destruct (select_complete c locals o l i HB E HC HI HIn) as (j & A & B & C).
  exists j, (answers c (offered c (v_bytes o) j)). rewrite answers_bytes. auto.
Qed.
Lemma fmt1_read c o v : v < 256 -> 0x12 <= n_version (c_nego c) -> n_opaque (c_nego c) = 2 ->
  v_bytes o = selection_bytes c v -> req_secure_version c o = v.
Proof.
  intros H1 H2 H3 E. rewrite <- (fmt1_answer_read c v) by assumption.
  unfold req_secure_version, req_get_sel. rewrite E, answers_bytes. reflexivity.
Qed.
Lemma dsp0277_unread c o v : n_version (c_nego c) < 0x12 ->
  v_bytes o = selection_bytes c v -> req_get_sel c o = None.
Proof.
  intros H E. unfold req_get_sel, dec_dmtf_sel, dec_general, V12. rewrite E. unfold selection_bytes.
  apply N.ltb_lt in H. rewrite H. reflexivity.
Qed.
