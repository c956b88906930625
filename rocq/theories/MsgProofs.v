(** Round-trip, wire layout of the message codecs against SpecMsg.v *)
From Coq Require Import Sorting.Sorted.
From Verif Require Import Bytes BytesFacts Codec CodecProofs Parse ParseProofs Algo MsgConn MsgAuth MsgSession MsgOther Message SpecMsg.
Local Open Scope N_scope.

(** ** from xwire/xcount to [encodes] *)
Lemma writer_rebuild w w' bs :
  writer_ok w -> writer_ok w' -> length (w_buf w') = length (w_buf w) ->
  w_offs w' = (w_offs w + length bs)%nat -> w_used_slice w' = w_used_slice w ++ bs ->
  skipn (w_offs w') (w_buf w') = skipn (w_offs w') (w_buf w) ->
  w' = mkWriter (firstn (w_offs w) (w_buf w) ++ bs ++ skipn (w_offs w + length bs) (w_buf w))
                (w_offs w + length bs).
Proof.
  intros H H' HL HO HU HS. destruct w' as [b' o']. cbn [w_offs w_buf w_used_slice] in *.
  unfold w_used_slice in HU. cbn [w_offs w_buf] in HU. subst o'. f_equal.
  rewrite <- (firstn_skipn (w_offs w + length bs) b'), HU, HS, <- app_assoc. reflexivity.
Qed.

Lemma encodes_of e w : xwire e = Some w -> xcount e = len w -> encodes e w.
Proof.
  intros HW HC wr H. pose proof (xemit_spec e wr 0 w H HW) as HS.
  split; intro HL; destruct (xemit e wr 0) as [w' n|w'|]; try contradiction.
  - destruct HS as (_ & O & L & F & U & S & ->). rewrite HC, N.add_0_l.
    f_equal. apply writer_rebuild; auto.
  - destruct HS as (HL' & _). lia.
  - destruct HS as (HL' & _). lia.
  - destruct HS as (HL' & O & L & (dn & td & E & NE & F & U) & S).
    exists dn, td. repeat split; auto. f_equal. apply writer_rebuild; auto.
Qed.

Lemma rt_round_trips {A} e (d : dec A) a w : rt e d a -> xwire e = Some w -> round_trips e d w a.
Proof.
  intros (w1 & W & C & D) HW. assert (w1 = w) as -> by congruence.
  split; [apply encodes_of; auto|exact D].
Qed.

(** ** leaf codecs *)
Lemma within_255 v m : within m v -> v <= m.
Proof.
  intro H. unfold within in H. rewrite <- H. rewrite N.land_comm.
  apply N.ldiff_le. apply N.bits_inj. intro k. rewrite N.ldiff_spec, N.land_spec, N.bits_0.
  destruct (N.testbit m k), (N.testbit v k); reflexivity.
Qed.

Lemma rt_flags8 mask v : within mask v -> rt (x_u8 v) (d_flags8 mask) v.
Proof.
  intros H. unfold d_flags8. eapply rt_bind_last; [apply rt_u8|]. rewrite H. apply rt_ret.
Qed.
Lemma rt_flags8_strict all v : within all v -> rt (x_u8 v) (d_flags8_strict all) v.
Proof.
  intros H. unfold d_flags8_strict. eapply rt_bind_last; [apply rt_u8|].
  unfold from_bits, within in *. rewrite H, N.eqb_refl. apply rt_ret.
Qed.
Lemma rt_flags16 mask v : mask < 65536 -> within mask v -> rt (x_u16 v) (d_flags16 mask) v.
Proof.
  intros Hm H. pose proof (within_255 _ _ H). unfold d_flags16.
  eapply rt_bind_last; [apply rt_u16; lia|]. rewrite H. apply rt_ret.
Qed.
Lemma rt_flags32 mask v : mask < 4294967296 -> within mask v -> rt (x_u32 v) (d_flags32 mask) v.
Proof.
  intros Hm H. pose proof (within_255 _ _ H). unfold d_flags32.
  eapply rt_bind_last; [apply rt_u32; lia|]. rewrite H. apply rt_ret.
Qed.

Lemma buf_ok_padded max v : buf_ok max v -> padded max (v_size v) (v_data v).
Proof.
  intros (b & H1 & H2 & H3). exists b. repeat split; auto. rewrite H3.
  unfold pad_to. rewrite firstn_all2 by lia. reflexivity.
Qed.
Lemma absent_default max v : absent max v -> v = v_default max.
Proof. destruct v; unfold absent, v_default; cbn. intros [-> ->]; reflexivity. Qed.
Lemma absent_content max v : absent max v -> content v = [].
Proof. intros [H _]. unfold content. rewrite H. reflexivity. Qed.

Lemma rt_hash_buf max (o : option N) v :
  buf_ok max v -> o = Some (v_size v) ->
  rt (match o with None => [EPanic] | Some n => x_assert (v_size v =? n) ++ x_arr_cnt (v_bytes v) (v_size v) end)
     (dbind (dsize o) (fun n => dbind (d_fixed max n) (fun b => dret (mkV n b)))) v.
Proof.
  intros H ->. apply rt_assert; [apply N.eqb_refl|].
  eapply rt_size; [reflexivity|].
  eapply rt_bind_last; [apply rt_fixed_cnt, buf_ok_padded, H|].
  destruct v; apply rt_ret.
Qed.
Lemma rt_digest c v : digest_ok c v -> rt (enc_digest c v) (dec_digest c) v.
Proof. intros [H1 H2]. apply (rt_hash_buf 64 (c_hash_size c)); auto. Qed.
Lemma rt_signature c v : sig_ok c v -> rt (enc_signature c v) (dec_signature c) v.
Proof. intros [H1 H2]. apply (rt_hash_buf 512 (c_asym_size c)); auto. Qed.
Lemma rt_exchange c v : dhe_ok c v -> rt (enc_exchange v) (dec_exchange c) v.
Proof.
  intros [H1 H2]. unfold enc_exchange, dec_exchange.
  eapply rt_size; [exact H2|].
  eapply rt_bind_last; [apply rt_fixed_cnt, buf_ok_padded, H1|].
  destruct v; apply rt_ret.
Qed.
Lemma rt_nonce n : length n = 32%nat -> rt (enc_nonce n) dec_nonce n.
Proof. intro H. apply rt_arr_cnt. exact H. Qed.
Lemma rt_opaque v : opaque_ok v -> rt (enc_opaque v) dec_opaque v.
Proof.
  intro H. apply buf_ok_padded in H. pose proof (padded_le _ _ _ H) as HL.
  unfold enc_opaque, dec_opaque. eapply rt_bind; [apply rt_u16; lia|].
  apply rt_guard; [apply N.leb_le; exact HL|].
  eapply rt_bind_last; [apply rt_fixed, H|]. destruct v; apply rt_ret.
Qed.

Lemma rt_dec_opt {A} b e (d : dec A) dflt a :
  (b = true -> rt e d a) -> (b = false -> a = dflt) -> rt (enc_opt b e) (dec_opt b d dflt) a.
Proof. destruct b; intros H1 H2; cbn; auto. rewrite (H2 eq_refl). apply rt_ret. Qed.

Lemma rt_opt_digest c b v :
  present b (digest_ok c v) (absent 64 v) ->
  rt (enc_opt b (enc_digest c v)) (dec_opt b (dec_digest c) (v_default SPDM_MAX_HASH_SIZE)) v.
Proof.
  intro H. apply rt_dec_opt; intros ->; cbn in H; [apply rt_digest; auto|apply absent_default; auto].
Qed.
Lemma rt_opt_sig c b v :
  present b (sig_ok c v) (absent 512 v) ->
  rt (enc_opt b (enc_signature c v)) (dec_opt b (dec_signature c) (v_default SPDM_MAX_ASYM_KEY_SIZE)) v.
Proof.
  intro H. apply rt_dec_opt; intros ->; cbn in H; [apply rt_signature; auto|apply absent_default; auto].
Qed.

(** an array whose size field may exceed it *)
Lemma rt_fixed_trunc max n a b :
  length b = Nat.min (N.to_nat n) max -> a = b ++ fill (max - length b) 0 ->
  rt (x_arr (firstn (N.to_nat n) a)) (d_fixed max n) a.
Proof.
  intros Hb ->.
  assert (HF : firstn (N.to_nat n) (b ++ fill (max - length b) 0) = b).
  { destruct (Nat.le_gt_cases (N.to_nat n) max).
    - rewrite firstn_app_exact by lia; reflexivity.
    - replace (max - length b)%nat with 0%nat by lia. cbn [fill repeat]. rewrite app_nil_r.
      apply firstn_all2. lia. }
  apply rt_of. intro rest. rewrite wire_arr, HF. unfold d_fixed.
  rewrite d_arr_app by lia. f_equal. unfold pad_to. rewrite firstn_all2 by lia. reflexivity.
Qed.

Lemma rt_map {A B} e (d : dec A) (f : A -> B) a : rt e d a -> rt e (dmap f d) (f a).
Proof. intro H. unfold dmap. eapply rt_bind_last; [exact H|apply rt_ret]. Qed.

(** tables *)
Lemma rt_rep {A} (d : dec A) (e : A -> enc) l :
  Forall (fun a => rt (e a) d a) l -> rt (concat (map e l)) (d_rep (length l) d) l.
Proof.
  induction 1 as [|a l Ha Hl IH]; cbn [map concat d_rep length]; [apply rt_ret|].
  eapply rt_bind; [exact Ha|]. eapply rt_bind_last; [exact IH|]. apply rt_ret.
Qed.
Lemma rt_table {A} max dflt n (d : dec A) (e : A -> enc) l tbl :
  length l = N.to_nat n -> (length l <= max)%nat ->
  tbl = l ++ repeat dflt (max - length l) ->
  Forall (fun a => rt (e a) d a) l ->
  rt (concat (map e (firstn (N.to_nat n) tbl))) (d_table max dflt n d) tbl.
Proof.
  intros Hn Hm -> HF. rewrite firstn_app_exact by auto. unfold d_table.
  replace (Nat.min (N.to_nat n) max) with (length l) by lia.
  eapply rt_bind_last; [apply rt_rep, HF|]. apply rt_ret.
Qed.

(** ** capability rules *)
Lemma contains_has f b : contains f b = true <-> has f b.
Proof. unfold contains, has. apply N.eqb_eq. Qed.

Lemma contains_false f b : contains f b = false <-> ~ has f b.
Proof. rewrite <- contains_has. destruct (contains f b); intuition congruence. Qed.

(** decide the flags of one conjunct of a capability rule *)
Ltac bools :=
  repeat match goal with
  | |- context [contains ?f ?b] => destruct (contains f b); cbn [andb orb negb Bool.eqb]
  end.
Ltac rule := rewrite <- ?contains_has; bools; intuition congruence.

Lemma and_cong A B C D : (A <-> C) -> (B <-> D) -> (A /\ B <-> C /\ D).
Proof. tauto. Qed.

Lemma req_flags_ok_spec v f : req_flags_ok v f = true <-> req_caps_consistent v f.
Proof.
  unfold req_flags_ok, req_caps_consistent. rewrite !andb_true_iff.
  transitivity ((((~ has f REQ_PSK_RSVD /\
    (((has f REQ_KEY_EX \/ has f REQ_PSK) -> has f REQ_MAC) /\
     (~ has f REQ_KEY_EX -> ~ has f REQ_PSK ->
       ~ has f REQ_MAC /\ ~ has f REQ_ENCRYPT /\ ~ has f REQ_HS_CLEAR /\ ~ has f REQ_HBEAT /\ ~ has f REQ_KEY_UPD))) /\
    (has f REQ_PSK -> ~ has f REQ_KEY_EX -> ~ has f REQ_HS_CLEAR)) /\
    (~ (has f REQ_CERT /\ has f REQ_PUB_KEY_ID) /\
     ((has f REQ_CERT \/ has f REQ_PUB_KEY_ID) -> has f REQ_CHAL \/ has f REQ_KEY_EX) /\
     (~ has f REQ_CERT -> ~ has f REQ_PUB_KEY_ID -> ~ has f REQ_CHAL /\ ~ has f REQ_MUT_AUTH))) /\
    (v = V11 -> has f REQ_MUT_AUTH -> has f REQ_ENCAP)).
  - apply and_cong; [apply and_cong; [apply and_cong; [apply and_cong|]|]|].
    + rule.
    + rule.
    + rule.
    + rule.
    + rewrite <- !contains_has. destruct (N.eqb_spec v V11); bools; intuition congruence.
  - assert (D : has f REQ_PSK \/ ~ has f REQ_PSK) by (rewrite <- contains_has; destruct (contains f REQ_PSK); auto).
    tauto.
Qed.

Lemma has_dec f b : has f b \/ ~ has f b.
Proof. rewrite <- contains_has. destruct (contains f b); auto. Qed.

Lemma rsp_flags_ok_spec v f : rsp_flags_ok v f = true <-> rsp_caps_consistent v f.
Proof.
  unfold rsp_flags_ok, rsp_caps_consistent. rewrite !andb_true_iff.
  transitivity ((((
    ~ (has f RSP_MEAS_NO_SIG /\ has f RSP_MEAS_SIG) /\
    (has f RSP_MEAS_FRESH -> has f RSP_MEAS_NO_SIG \/ has f RSP_MEAS_SIG)) /\
    ((v < V11 ->
       (~ has f RSP_MEAS_SIG -> (has f RSP_CERT <-> has f RSP_CHAL)) /\
       (has f RSP_MEAS_SIG -> has f RSP_CERT)) /\
     (V11 <= v ->
       (((~ (has f RSP_PSK_WITHOUT_CTX /\ has f RSP_PSK_WITH_CTX) /\
       (((has f RSP_KEY_EX \/ has f RSP_PSK_WITHOUT_CTX \/ has f RSP_PSK_WITH_CTX) -> has f RSP_MAC) /\
        (~ has f RSP_KEY_EX -> ~ has f RSP_PSK_WITHOUT_CTX -> ~ has f RSP_PSK_WITH_CTX ->
        ~ has f RSP_MAC /\ ~ has f RSP_ENCRYPT /\ ~ has f RSP_HS_CLEAR /\ ~ has f RSP_HBEAT /\ ~ has f RSP_KEY_UPD))) /\
       (~ has f RSP_KEY_EX -> has f RSP_PSK_WITHOUT_CTX \/ has f RSP_PSK_WITH_CTX -> ~ has f RSP_HS_CLEAR)) /\
       (~ (has f RSP_CERT /\ has f RSP_PUB_KEY_ID) /\
       ((has f RSP_CERT \/ has f RSP_PUB_KEY_ID) -> has f RSP_CHAL \/ has f RSP_KEY_EX \/ has f RSP_MEAS_SIG) /\
       (~ has f RSP_CERT -> ~ has f RSP_PUB_KEY_ID ->
        ~ has f RSP_CHAL /\ ~ has f RSP_KEY_EX /\ ~ has f RSP_MEAS_SIG /\ ~ has f RSP_MUT_AUTH)))))) /\
    (v = V11 -> has f RSP_MUT_AUTH -> has f RSP_ENCAP)) /\
    (V12 <= v ->
     ((has f RSP_ALIAS_CERT \/ has f RSP_SET_CERT -> has f RSP_CERT) /\
     (has f RSP_CSR -> has f RSP_SET_CERT)) /\
     (has f RSP_CERT_INSTALL_RESET -> has f RSP_CSR \/ has f RSP_SET_CERT))).
  - apply and_cong; [apply and_cong; [apply and_cong; [apply and_cong|]|]|].
    + rule.
    + rule.
    + destruct (N.ltb_spec v V11) as [L|L].
      * transitivity ((~ has f RSP_MEAS_SIG -> (has f RSP_CERT <-> has f RSP_CHAL)) /\
                      (has f RSP_MEAS_SIG -> has f RSP_CERT)).
        -- rule.
        -- split; [intro X; split; [tauto|lia]|intros [X _]; auto].
      * match goal with |- _ <-> (v < V11 -> ?P) /\ (V11 <= v -> ?Q) =>
          transitivity Q; [|split; [intro X; split; [lia|tauto]|intros [_ X]; auto]] end.
        rewrite !andb_true_iff. repeat apply and_cong; try solve [rule].
    + rewrite <- !contains_has. destruct (N.eqb_spec v V11); bools; intuition congruence.
    + destruct (N.leb_spec V12 v) as [L|L].
      * match goal with |- _ <-> (V12 <= v -> ?Q) => transitivity Q; [|tauto] end.
        rewrite !andb_true_iff. repeat apply and_cong; rule.
      * split; [intros _ X; lia|reflexivity].
  - destruct (has_dec f RSP_PSK_WITHOUT_CTX), (has_dec f RSP_PSK_WITH_CTX); tauto.
Qed.
