(** Every message codec round-trips and has the specified wire layout. *)
From Coq Require Import Sorting.Sorted.
From Verif Require Import Bytes BytesFacts Codec CodecProofs Parse ParseProofs Algo MsgConn MsgAuth MsgSession MsgOther Message SpecMsg MsgProofs.
Local Open Scope N_scope.

Lemma mul4_lt x y : x <= 4 -> y <= 40 -> y + 4 * x < 65536. Proof. lia. Qed.

(** ** wire layouts *)
Lemma xw_u8 v : xwire (x_u8 v) = Some [v]. Proof. unfold x_u8. rewrite xwire_of, wire_u8. reflexivity. Qed.
Lemma xw_u16 v : xwire (x_u16 v) = Some (le_bytes 2 v). Proof. unfold x_u16. rewrite xwire_of, wire_u16. reflexivity. Qed.
Lemma xw_u24 v : xwire (x_u24 v) = Some (le_bytes 3 v). Proof. unfold x_u24. rewrite xwire_of, wire_u24. reflexivity. Qed.
Lemma xw_u32 v : xwire (x_u32 v) = Some (le_bytes 4 v). Proof. unfold x_u32. rewrite xwire_of, wire_u32. reflexivity. Qed.
Lemma xw_arr v : xwire (x_arr v) = Some v. Proof. unfold x_arr. rewrite xwire_of, wire_arr. reflexivity. Qed.
Lemma xw_nonce v : xwire (enc_nonce v) = Some v. Proof. apply xwire_arr_cnt. Qed.
Lemma xw_exchange v : xwire (enc_exchange v) = Some (content v). Proof. apply xwire_arr_cnt. Qed.
Lemma xw_opaque v : xwire (enc_opaque v) = Some (wire_opaque v).
Proof. unfold enc_opaque. rewrite xwire_app, xw_u16, xw_arr. reflexivity. Qed.
Lemma xw_digest c v : digest_ok c v -> xwire (enc_digest c v) = Some (content v).
Proof.
  intros [_ H]. unfold enc_digest, c_hash_size. rewrite H, N.eqb_refl. cbn [x_assert app].
  apply xwire_arr_cnt.
Qed.
Lemma xw_signature c v : sig_ok c v -> xwire (enc_signature c v) = Some (content v).
Proof.
  intros [_ H]. unfold enc_signature, c_asym_size. rewrite H, N.eqb_refl. cbn [x_assert app].
  apply xwire_arr_cnt.
Qed.
Lemma xw_opt b e w : (b = true -> xwire e = Some w) -> xwire (enc_opt b e) = Some (when b w).
Proof. destruct b; cbn; auto. Qed.
Lemma xw_concat {A} (e : A -> enc) (w : A -> bytes) l :
  Forall (fun a => xwire (e a) = Some (w a)) l -> xwire (concat (map e l)) = Some (flat_map w l).
Proof.
  induction 1 as [|a l Ha Hl IH]; cbn [map concat flat_map]; auto. rewrite xwire_app, Ha, IH. reflexivity.
Qed.
Lemma xw_zeros n : xwire (zeros n) = Some (fill n 0). Proof. apply xw_arr. Qed.
Lemma xw_if (b : bool) e1 e2 w1 w2 : xwire e1 = Some w1 -> xwire e2 = Some w2 ->
  xwire (if b then e1 else e2) = Some (if b then w1 else w2).
Proof. destruct b; auto. Qed.

(** solve [xwire (e1 ++ e2 ++ ...) = Some (w1 ++ ...)] piecewise *)
Ltac xw :=
  repeat rewrite xwire_app;
  repeat first [rewrite xw_u8 | rewrite xw_u16 | rewrite xw_u24 | rewrite xw_u32 | rewrite xw_arr
               | rewrite xw_nonce | rewrite xw_exchange | rewrite xw_opaque | rewrite xw_zeros].

Lemma xw_app a b x y : xwire a = Some x -> xwire b = Some y -> xwire (a ++ b) = Some (x ++ y).
Proof. intros H1 H2. rewrite xwire_app, H1, H2. reflexivity. Qed.
Lemma xw_eq e w w' : xwire e = Some w -> w = w' -> xwire e = Some w'.
Proof. congruence. Qed.
Ltac xleaf := first [ apply xw_u8 | apply xw_u16 | apply xw_u24 | apply xw_u32 | apply xw_arr | apply xw_nonce
                    | apply xw_exchange | apply xw_opaque | apply xw_zeros
                    | apply xw_digest; assumption | apply xw_signature; assumption ].
Ltac xwa := first [ xleaf | eapply xw_app; [xwa|xwa] | idtac ].

Ltac rt1 :=
  first
  [ apply rt_ret
  | eapply rt_bind; [first [apply rt_u8 | apply rt_u16; first [assumption|lia] | apply rt_u24; first [assumption|lia]
                           | apply rt_u32; first [assumption|lia]
                           | apply rt_nonce; assumption | apply rt_digest; assumption
                           | apply rt_signature; assumption | apply rt_exchange; assumption
                           | apply rt_opaque; assumption | apply rt_opt_digest; assumption
                           | apply rt_opt_sig; assumption]|]
  | eapply rt_bind_last; [first [apply rt_u8 | apply rt_u16; first [assumption|lia]
                           | apply rt_nonce; assumption | apply rt_digest; assumption
                           | apply rt_signature; assumption | apply rt_exchange; assumption
                           | apply rt_opaque; assumption | apply rt_opt_digest; assumption
                           | apply rt_opt_sig; assumption]|] ].
Ltac ranges := unfold u8, u16, u24, u32 in *;
  change (2 ^ 8) with 256 in *; change (2 ^ 16) with 65536 in *; change (2 ^ 24) with 16777216 in *;
  change (2 ^ 32) with 4294967296 in *.

(** ** connection setup *)
Lemma rt_empty : rt enc_empty dec_empty tt.
Proof. unfold enc_empty, dec_empty. repeat rt1. Qed.
Lemma xw_empty : xwire enc_empty = Some [0; 0]. Proof. reflexivity. Qed.
Lemma rt_get_version : rt enc_get_version dec_get_version tt.
Proof. apply rt_empty. Qed.

Lemma rt_version_struct v : rt (enc_version_struct v) dec_version_struct v.
Proof. unfold enc_version_struct, dec_version_struct. do 2 rt1. destruct v; apply rt_ret. Qed.
Lemma rt_version_rsp p : ok_version_rsp p -> rt (enc_version_rsp p) dec_version_rsp p.
Proof.
  intros (H & vs & HL & HV). unfold enc_version_rsp, dec_version_rsp. do 4 rt1.
  apply rt_guard.
  { apply andb_true_iff; split; apply N.leb_le; unfold MAX_SPDM_VERSION_COUNT; lia. }
  eapply rt_bind_last.
  { eapply rt_table with (l := vs); eauto; [lia|].
    apply Forall_forall. intros; apply rt_version_struct. }
  destruct p; apply rt_ret.
Qed.
Lemma xw_version_rsp p : xwire (enc_version_rsp p) = Some (wire_version_rsp p).
Proof.
  unfold enc_version_rsp. xw. rewrite (xw_concat enc_version_struct (fun v => [vs_update v; vs_version v])).
  - reflexivity.
  - apply Forall_forall. intros v _. unfold enc_version_struct. xw. reflexivity.
Qed.

Lemma ver_ge_spec c v : ver_ge c v = (v <=? version_of c). Proof. reflexivity. Qed.

Lemma sizes_ok_spec d m : sizes_consistent d m -> sizes_ok d m = true.
Proof.
  intros (H1 & H2 & _). unfold sizes_ok.
  replace (d <? 42) with false by (symmetry; apply N.ltb_ge; lia).
  replace (m <? d) with false by (symmetry; apply N.ltb_ge; lia). reflexivity.
Qed.

Lemma rt_sizes c p :
  (if V12 <=? version_of c then sizes_consistent (cp_dts p) (cp_max p) else cp_dts p = 0 /\ cp_max p = 0) ->
  rt (if ver_ge c V12 then x_u32 (cp_dts p) ++ x_u32 (cp_max p) else [])
     (if ver_ge c V12 then (d <- d_u32 ;; m <- d_u32 ;; guard (sizes_ok d m) ;; dret (d, m))%dec
      else dret (0, 0)) (cp_dts p, cp_max p).
Proof.
  intro H. rewrite ver_ge_spec. destruct (V12 <=? version_of c).
  - destruct H as (H1 & H2 & H3). ranges.
    rt1. eapply rt_bind_last; [apply rt_u32; lia|].
    apply rt_guard; [apply sizes_ok_spec; repeat split; ranges; auto|]. rt1.
  - destruct H as [-> ->]. apply rt_ret.
Qed.

Lemma rt_get_capabilities c p : ok_get_capabilities c p ->
  rt (enc_get_capabilities c p) (dec_get_capabilities c) p.
Proof.
  intros [H1 H2]. unfold enc_get_capabilities, dec_get_capabilities. do 2 rt1.
  eapply rt_bind with (a := (cp_ct p, cp_flags p)).
  { rewrite ver_ge_spec. destruct (V11 <=? version_of c).
    - destruct H1 as (A1 & A2 & A3). do 3 rt1.
      eapply rt_bind_last; [apply rt_flags32; [reflexivity|exact A2]|].
      apply rt_guard; [apply req_flags_ok_spec; exact A3|]. rt1.
    - destruct H1 as [-> ->]. rt1. }
  eapply rt_bind_last; [apply rt_sizes; exact H2|]. destruct p; apply rt_ret.
Qed.
Lemma xw_get_capabilities c p : xwire (enc_get_capabilities c p) = Some (wire_get_capabilities c p).
Proof.
  unfold enc_get_capabilities, wire_get_capabilities. rewrite !ver_ge_spec.
  destruct (V11 <=? version_of c), (V12 <=? version_of c); xw; reflexivity.
Qed.
Lemma rt_capabilities c p : ok_capabilities c p -> rt (enc_capabilities c p) (dec_capabilities c) p.
Proof.
  intros (A1 & A2 & A3 & H2). unfold enc_capabilities, dec_capabilities. do 5 rt1.
  eapply rt_bind; [apply rt_flags32; [reflexivity|exact A2]|].
  apply rt_guard; [apply rsp_flags_ok_spec; exact A3|].
  eapply rt_bind_last; [apply rt_sizes; exact H2|]. destruct p; apply rt_ret.
Qed.
Lemma xw_capabilities c p : xwire (enc_capabilities c p) = Some (wire_capabilities c p).
Proof.
  unfold enc_capabilities, wire_capabilities. rewrite !ver_ge_spec.
  destruct (V12 <=? version_of c); xw; reflexivity.
Qed.

(** algorithm tables *)
Lemma rt_alg_struct a : alg_ok a -> rt (enc_alg_struct a) dec_alg_struct a.
Proof.
  intro H. unfold enc_alg_struct, dec_alg_struct. destruct a as [t a]; cbn [as_type as_alg] in *.
  do 2 rt1. do 2 (apply rt_guard; [reflexivity|]).
  destruct a; cbn in H; try contradiction; destruct H as [-> HW]; cbn [as_type];
    (eapply rt_bind_last; [apply rt_flags16; [reflexivity|exact HW]|apply rt_ret]).
Qed.
Lemma xw_alg_struct a : alg_ok a -> xwire (enc_alg_struct a) = Some (wire_alg a).
Proof. intro H. unfold enc_alg_struct, wire_alg. destruct a as [t []]; cbn [as_type as_alg alg_bits]; try contradiction; xw; reflexivity. Qed.

Lemma alg_ok_kind a : alg_ok a -> 2 <= as_type a <= 5 /\ alg_kind (as_alg a) = 2 ^ (as_type a - 2).
Proof.
  destruct a as [t a]. destruct a; cbn; try contradiction; intros [-> _]; split; (lia || reflexivity).
Qed.

Lemma land_pow2 x k : N.land x (2 ^ k) = 0 <-> N.testbit x k = false.
Proof.
  split; intro H.
  - assert (N.testbit (N.land x (2 ^ k)) k = false) by (rewrite H; apply N.bits_0).
    rewrite N.land_spec, N.pow2_bits_true, Bool.andb_true_r in H0. exact H0.
  - apply N.bits_inj. intro j. rewrite N.land_spec, N.bits_0.
    destruct (N.eq_dec j k) as [->|NE].
    + rewrite H. reflexivity.
    + rewrite N.pow2_bits_false by auto. apply Bool.andb_false_r.
Qed.

Lemma rt_alg_loop chk l : forall cur seen,
  Forall alg_ok l -> StronglySorted N.lt (map as_type l) ->
  Forall (fun a => cur < as_type a) l -> Forall (fun a => chk (as_alg a) = true) l ->
  (forall t, cur < t -> 2 <= t -> N.testbit seen (t - 2) = false) ->
  rt (concat (map enc_alg_struct l)) (d_alg_loop chk (length l) cur seen) l.
Proof.
  induction l as [|a l IH]; intros cur seen HA HS HC HK HB; cbn [map concat d_alg_loop length]; [apply rt_ret|].
  inversion HA as [|? ? Ha HA']; subst. inversion HS as [|? ? HS' HF]; subst.
  inversion HC as [|? ? Hc HC']; subst. inversion HK as [|? ? Hk HK']; subst.
  destruct (alg_ok_kind _ Ha) as [Ht Hkind].
  eapply rt_bind; [apply rt_alg_struct; exact Ha|].
  apply rt_guard; [apply N.ltb_lt; exact Hc|].
  apply rt_guard.
  { rewrite Hkind. apply negb_true_iff, N.eqb_neq. apply N.pow_nonzero. lia. }
  apply rt_guard.
  { rewrite Hkind. apply N.eqb_eq, land_pow2. apply HB; lia. }
  apply rt_guard; [exact Hk|].
  eapply rt_bind_last.
  { apply IH; auto.
    - apply Forall_forall. intros b Hb. rewrite Forall_forall in HF.
      apply HF. apply in_map. exact Hb.
    - intros t Hlt H2. rewrite N.lor_spec, Hkind, HB by lia.
      rewrite N.pow2_bits_false by lia. reflexivity. }
  apply rt_ret.
Qed.

Lemma rt_alg_table chk good c count tbl :
  alg_table_ok good c count tbl -> (forall a, alg_ok a -> good a -> chk (as_alg a) = true) ->
  rt (concat (map enc_alg_struct (firstn (N.to_nat count) tbl))) (d_alg_table chk count) tbl.
Proof.
  intros (l & HL & -> & _ & HC & HA & HS & HG) Hchk. rewrite firstn_app_exact by auto.
  unfold d_alg_table. replace (Nat.min (N.to_nat count) 4) with (length l) by lia.
  eapply rt_bind_last.
  - apply rt_alg_loop; auto.
    + apply Forall_forall. intros a Ha. rewrite Forall_forall in HA.
      pose proof (alg_ok_kind _ (HA _ Ha)). lia.
    + rewrite Forall_forall in *. intros a Ha. apply Hchk; auto.
  - apply rt_ret.
Qed.

Lemma rt_structs chk good c count tbl :
  alg_table_ok good c count tbl -> (forall a, alg_ok a -> good a -> chk (as_alg a) = true) ->
  rt (if ver_ge c V11 then concat (map enc_alg_struct (firstn (N.to_nat count) tbl)) else [])
     (if ver_ge c V11 then d_alg_table chk count else dret (repeat alg_struct_default 4)) tbl.
Proof.
  intros H Hchk. rewrite ver_ge_spec. destruct (N.leb_spec V11 (version_of c)) as [L|L].
  - eapply rt_alg_table; eauto.
  - destruct H as (l & HL & -> & HV & _). rewrite HV in HL by exact L.
    destruct l; [apply rt_ret|discriminate].
Qed.

Lemma xw_structs good c count tbl :
  alg_table_ok good c count tbl ->
  xwire (if ver_ge c V11 then concat (map enc_alg_struct (firstn (N.to_nat count) tbl)) else []) =
  Some (flat_map wire_alg (firstn (N.to_nat count) tbl)).
Proof.
  intros (l & HL & -> & HV & HC & HA & HS & HG). rewrite firstn_app_exact by auto.
  rewrite ver_ge_spec. destruct (N.leb_spec V11 (version_of c)) as [L|L].
  - apply xw_concat. rewrite Forall_forall in *. intros a Ha. apply xw_alg_struct; auto.
  - rewrite HV in HL by exact L. destruct l; [reflexivity|discriminate].
Qed.

Lemma table_count good c count tbl :
  alg_table_ok good c count tbl -> count <= 4 /\ (version_of c < V11 -> count = 0).
Proof. intros (l & HL & -> & HV & HC & _). auto. Qed.

Lemma rt_alg_count c count : count <= 4 -> (version_of c < V11 -> count = 0) ->
  rt (if ver_ge c V11 then x_u8 count else x_u8 0) (dec_alg_count c) count.
Proof.
  intros H1 H2. unfold dec_alg_count. rewrite ver_ge_spec. destruct (N.leb_spec V11 (version_of c)).
  - eapply rt_bind_last; [apply rt_u8|]. apply rt_guard; [apply N.leb_le; exact H1|apply rt_ret].
  - rewrite H2 by auto. eapply rt_bind_last; [apply rt_u8|apply rt_ret].
Qed.

Lemma alg_len_eq c base count : count <= 4 -> (version_of c < V11 -> count = 0) ->
  alg_len c base count = Some (base + 4 * count).
Proof.
  intros H1 H2. unfold alg_len. rewrite ver_ge_spec. destruct (N.leb_spec V11 (version_of c)).
  - replace (4 * count <? 256) with true by (symmetry; apply N.ltb_lt; lia). reflexivity.
  - rewrite H2 by auto. rewrite N.mul_0_r, N.add_0_r. reflexivity.
Qed.

Lemma rt_other_params c v : opaque_support_ok c v ->
  rt (if ver_ge c V12 then x_u8 v else x_u8 0) (dec_other_params c) v.
Proof.
  intro H. unfold opaque_support_ok, dec_other_params in *. rewrite ver_ge_spec.
  destruct (V12 <=? version_of c).
  - apply rt_flags8_strict. destruct H as [->| ->]; reflexivity.
  - subst v. eapply rt_bind_last; [apply rt_u8|apply rt_ret].
Qed.

Lemma rt_zeros n : rt (zeros n) (d_arr n) (fill n 0).
Proof. apply rt_arr. apply fill_length. Qed.

Lemma rt_nego_algs c p : ok_nego_algs c p -> rt (enc_nego_algs c p) (dec_nego_algs c) p.
Proof.
  intros (H1 & H2 & H3 & H4 & H5). destruct (table_count _ _ _ _ H5) as [HC HV].
  unfold enc_nego_algs, dec_nego_algs.
  eapply rt_bind; [apply rt_alg_count; auto|]. rt1. rewrite alg_len_eq by auto.
  eapply rt_bind; [apply rt_u16; apply mul4_lt; [auto|lia]|].
  eapply rt_bind; [apply rt_flags8; exact H1|].
  eapply rt_bind; [apply rt_other_params; exact H2|].
  eapply rt_bind; [apply rt_flags32; [reflexivity|exact H3]|].
  eapply rt_bind; [apply rt_flags32; [reflexivity|exact H4]|].
  eapply rt_bind; [apply rt_zeros|].
  rt1. apply rt_guard; [reflexivity|]. rt1. apply rt_guard; [reflexivity|]. rt1.
  eapply rt_bind_last; [eapply rt_structs; [exact H5|reflexivity]|].
  eapply rt_size; [reflexivity|]. apply rt_guard; [apply N.eqb_refl|].
  destruct p; apply rt_ret.
Qed.
Lemma xw_count c count : (version_of c < V11 -> count = 0) ->
  xwire (if ver_ge c V11 then x_u8 count else x_u8 0) = Some [count].
Proof.
  intro H. rewrite ver_ge_spec. destruct (N.leb_spec V11 (version_of c)); xw; auto.
  rewrite H by auto; reflexivity.
Qed.
Lemma xw_other_params c v : opaque_support_ok c v ->
  xwire (if ver_ge c V12 then x_u8 v else x_u8 0) = Some [v].
Proof.
  unfold opaque_support_ok. rewrite ver_ge_spec. destruct (V12 <=? version_of c); intro H; xw; auto.
  subst; reflexivity.
Qed.
Lemma xw_nego_algs c p : ok_nego_algs c p -> xwire (enc_nego_algs c p) = Some (wire_nego_algs p).
Proof.
  intros (H1 & H2 & H3 & H4 & H5). destruct (table_count _ _ _ _ H5) as [HC HV].
  unfold enc_nego_algs, wire_nego_algs. rewrite alg_len_eq by auto.
  eapply xw_eq; [xwa; first [apply xw_count | apply xw_other_params | eapply xw_structs]; eauto|].
  reflexivity.
Qed.

(** selections *)
Lemma power_of_two_and v : N.land v (v - 1) = 0 -> v <> 0 -> exists k, v = 2 ^ k.
Proof.
  intros H NZ. exists (N.log2 v).
  destruct (N.log2_spec v ltac:(lia)) as [HL HU].
  destruct (N.eq_dec v (2 ^ N.log2 v)) as [E|NE]; auto. exfalso.
  assert (HB : N.testbit (N.land v (v - 1)) (N.log2 v) = true).
  { rewrite N.land_spec, N.bit_log2 by auto.
    replace (N.log2 v) with (N.log2 (v - 1)).
    - rewrite N.bit_log2; auto.
      assert (0 < 2 ^ N.log2 v) by (apply N.neq_0_lt_0, N.pow_nonzero; lia). lia.
    - apply N.log2_unique; lia. }
  rewrite H, N.bits_0 in HB. discriminate.
Qed.
Lemma power_of_two_land k : N.land (2 ^ k) (2 ^ k - 1) = 0.
Proof.
  rewrite N.sub_1_r, <- N.ones_equiv, N.land_ones. apply N.mod_same. apply N.pow_nonzero; lia.
Qed.

Lemma nmto_spec v : no_more_than_one v = true <-> v = 0 \/ exists k, v = 2 ^ k.
Proof.
  unfold no_more_than_one. rewrite orb_true_iff, !N.eqb_eq. split.
  - intros [->|H]; auto. destruct (N.eq_dec v 0); auto. right. apply power_of_two_and; auto.
  - intros [->|(k & ->)]; auto. right. apply power_of_two_land.
Qed.

Lemma sel_ok_spec (need : bool) must mask v :
  (need = true <-> must) -> selection must mask v -> sel_ok need mask v = true.
Proof.
  intros HN [[-> HM]|(k & -> & HW)]; unfold sel_ok.
  - destruct need; [exfalso; tauto|]. reflexivity.
  - assert (no_more_than_one (2 ^ k) = true) as -> by (apply nmto_spec; eauto).
    unfold valid_one_select. assert (no_more_than_one (2 ^ k) = true) as -> by (apply nmto_spec; eauto).
    unfold alg_valid. rewrite HW. cbn [andb].
    assert (2 ^ k <> 0) by (apply N.pow_nonzero; lia).
    replace (2 ^ k =? 0) with false by (symmetry; apply N.eqb_neq; auto).
    cbn. rewrite andb_false_r. reflexivity.
Qed.
Lemma sel_ok_inv (need : bool) must mask v :
  (need = true <-> must) -> within mask v -> sel_ok need mask v = true -> selection must mask v.
Proof.
  intros HN HW. unfold sel_ok. rewrite andb_true_iff, nmto_spec. intros [[->|(k & ->)] H2].
  - left. split; auto. intro M. apply HN in M. subst need. discriminate.
  - right. exists k. auto.
Qed.
Lemma selection_within must mask v : selection must mask v -> within mask v.
Proof. intros [[-> _]|(k & _ & H)]; auto. reflexivity. Qed.

Lemma need_meas_spec c : need_meas c = true <-> must_meas c.
Proof. unfold need_meas, must_meas, rsp_has. rewrite orb_true_iff, !contains_has. reflexivity. Qed.
Lemma key_ex_both_spec c : key_ex_both c = true <-> keyex_negotiated c.
Proof. unfold key_ex_both, keyex_negotiated, rsp_has, req_has. rewrite andb_true_iff, !contains_has. reflexivity. Qed.
Lemma psk_both_spec c : psk_both c = true <-> psk_negotiated c.
Proof. unfold psk_both, psk_negotiated, rsp_has, req_has. rewrite andb_true_iff, orb_true_iff, !contains_has. reflexivity. Qed.
Lemma need_opaque_spec c : need_opaque c = true <-> must_opaque c.
Proof.
  unfold need_opaque, must_opaque, rsp_has. rewrite andb_true_iff, !orb_true_iff, !contains_has, ver_ge_spec, N.leb_le.
  unfold peer_has. tauto.
Qed.
Lemma need_asym_spec c : need_asym c = true <-> must_asym c.
Proof.
  unfold need_asym, must_asym, rsp_has. rewrite !orb_true_iff, !contains_has, key_ex_both_spec. unfold peer_has. tauto.
Qed.
Lemma need_hash_spec c : need_hash c = true <-> must_hash c.
Proof. unfold need_hash, must_hash. rewrite orb_true_iff, need_asym_spec, psk_both_spec. reflexivity. Qed.

Lemma alg_sel_ok_spec c a : alg_ok a -> alg_selection c a -> alg_sel_ok c (as_alg a) = true.
Proof.
  destruct a as [t a]; destruct a; cbn; try contradiction; intros _ H; eapply sel_ok_spec; try exact H.
  - apply key_ex_both_spec.
  - unfold rsp_has, req_has, peer_has, req_can. rewrite orb_true_iff, !andb_true_iff, !contains_has. reflexivity.
  - unfold rsp_has, req_has, peer_has, req_can. rewrite andb_true_iff, !contains_has. reflexivity.
  - rewrite orb_true_iff, key_ex_both_spec, psk_both_spec. reflexivity.
Qed.

Lemma opaque_sel c v : opaque_support_ok c v -> (must_opaque c -> v = OPAQUE_FMT1) ->
  sel_ok (need_opaque c) OPAQUE_FMT1 v = true.
Proof.
  intros H1 H2. apply sel_ok_spec with (must := must_opaque c); [apply need_opaque_spec|].
  assert (v = 0 \/ v = OPAQUE_FMT1) as [->| ->].
  { unfold opaque_support_ok in H1. destruct (V12 <=? version_of c); auto. }
  - left. split; auto. intro M. specialize (H2 M). discriminate.
  - right. exists 1. split; reflexivity.
Qed.

Lemma rt_algs_rsp c p : ok_algs_rsp c p -> rt (enc_algs_rsp c p) (dec_algs_rsp c) p.
Proof.
  intros (H1 & H2 & H2' & H3 & H4 & H4' & H5). destruct (table_count _ _ _ _ H5) as [HC HV].
  unfold enc_algs_rsp, dec_algs_rsp.
  eapply rt_bind; [apply rt_alg_count; auto|]. rt1. rewrite alg_len_eq by auto.
  eapply rt_bind; [apply rt_u16; apply mul4_lt; [auto|lia]|].
  eapply rt_bind; [apply rt_flags8, (selection_within _ _ _ H1)|].
  apply rt_guard; [eapply sel_ok_spec; [apply need_meas_spec|exact H1]|].
  eapply rt_bind; [apply rt_other_params; exact H2|].
  apply rt_guard; [apply opaque_sel; auto|].
  eapply rt_bind; [apply rt_flags32; [reflexivity|apply (selection_within _ _ _ H3)]|].
  apply rt_guard; [eapply sel_ok_spec; [apply need_meas_spec|exact H3]|].
  eapply rt_bind; [apply rt_flags32; [reflexivity|apply (selection_within _ _ _ H4)]|].
  apply rt_guard; [eapply sel_ok_spec; [apply need_asym_spec|exact H4]|].
  eapply rt_bind; [apply rt_flags32; [reflexivity|apply (selection_within _ _ _ H4')]|].
  apply rt_guard; [eapply sel_ok_spec; [apply need_hash_spec|exact H4']|].
  eapply rt_bind; [apply rt_zeros|].
  rt1. apply rt_guard; [reflexivity|]. rt1. apply rt_guard; [reflexivity|]. rt1.
  eapply rt_bind_last; [eapply rt_structs; [exact H5|apply alg_sel_ok_spec]|].
  eapply rt_size; [reflexivity|]. apply rt_guard; [apply N.eqb_refl|].
  destruct p; apply rt_ret.
Qed.
Lemma xw_algs_rsp c p : ok_algs_rsp c p -> xwire (enc_algs_rsp c p) = Some (wire_algs_rsp p).
Proof.
  intros (H1 & H2 & H2' & H3 & H4 & H4' & H5). destruct (table_count _ _ _ _ H5) as [HC HV].
  unfold enc_algs_rsp, wire_algs_rsp. rewrite alg_len_eq by auto.
  eapply xw_eq; [xwa; first [apply xw_count | apply xw_other_params | eapply xw_structs]; eauto|].
  reflexivity.
Qed.
