(** C85: well-formed CHALLENGE and GET_MEASUREMENTS requests are not refused. *)
From Verif Require Import Bytes BytesFacts Status Codec CodecProofs Parse ParseProofs Algo Monad MsgConn MsgAuth MsgSession MsgOther Message Opaque SpecMsg MsgProofs MsgRound MsgRound2.
From Verif Require Import Transport Crypto KeySchedule Session Signing CertOps ChainVerify Context SpecSession SignProofs
  RspBase RspConn RspSess RspEncap Responder StRel RspFrame RspCalm RspOpcode RspSend SpecResponder SpecFinish RspPhase RspPass RspSlots RspSize RspTable RspIso RspEst RspDeliver RspRefuse
  ToyCrypto PropPhase ExRun PropTable PropReset PropSess PropDigest SpecReply SpecGiven.
From Verif Require Import TransportProofs ReqTrans ReqMeas ReqTwin PropRetr PropAlgs PairTwin PropShare PropReply.
From Coq Require Import List Lia.
Local Open Scope N_scope.

Lemma d_u8_cons a l : d_u8 (a :: l) = POk a l. Proof. reflexivity. Qed.
Lemma d_arr_app n (a l : bytes) : length a = n -> d_arr n (a ++ l) = POk a l.
Proof. intro L. unfold d_arr, dlift. rewrite (p_arr_app n a l L). reflexivity. Qed.
Lemma provisioned_slot x k chain : k < 8 -> provisioned x k chain -> slot_ok x k = true /\ slot_of (x_my_chain x) k = Some chain.
Proof.
  intros L P. assert (S : slot_of (x_my_chain x) k = Some chain).
  { unfold provisioned in P. unfold slot_of. revert P. generalize (N.to_nat k) as n. generalize (x_my_chain x) as l. induction l as [|a l IH]; intros [|n] P; cbn in P; try discriminate P; [cbn; congruence|exact (IH n P)]. }
  split; [|exact S]. unfold slot_ok. rewrite S. apply N.ltb_lt in L. rewrite L. reflexivity.
Qed.
Lemma has_true w f : has w f -> contains w f = true.
Proof. unfold has, contains. intro H. rewrite H. apply N.eqb_refl. Qed.
Lemma hash_ready E x : can_sign E x -> hash_ok (e_cr E) (n_hash (x_nego x)) = true.
Proof. intros (C & _). unfold hash_ok. destruct (cr_hash _ _ []) eqn:H; [reflexivity|destruct (C _ H)]. Qed.
Lemma sign_size E x : can_sign E x -> signatures_sized E x -> exists sg, asym_size (n_asym (x_nego x)) = Some sg.
Proof. intros (_ & C) S. destruct (cr_sign (e_cr E) (n_hash (x_nego x)) (n_asym (x_nego x)) []) as [s|] eqn:H; [eauto|destruct (C _ H)]. Qed.
Lemma patch_ok (m z s : bytes) n : len z = n -> len s = n -> patch_last n s (m ++ z) = Ok (m ++ s).
Proof.
  intros L1 L2. assert (K : exists w, patch_last n s (m ++ z) = Ok w).
  { unfold patch_last. rewrite L2, N.eqb_refl. replace (n <=? len (m ++ z)) with true by (symmetry; apply N.leb_le; rewrite len_app; lia). cbn [andb]. eauto. }
  destruct K as (w & K). rewrite K. apply (patch_last_app m z s w n L1) in K. subst w. reflexivity.
Qed.
(** decoding the two requests *)
Lemma dec_challenge_asked c slot t nonce rest : length nonce = 32%nat ->
  (t = 0 \/ (t = 1 \/ t = 255) /\ (has (n_rsp_cap (c_nego c)) RSP_MEAS_SIG \/ has (n_rsp_cap (c_nego c)) RSP_MEAS_NO_SIG)) ->
  dec_challenge c ([slot; t] ++ nonce ++ rest) = POk (mkChallenge slot t nonce) rest.
Proof.
  intros L T. unfold dec_challenge. cbn [app]. unfold dbind at 1. rewrite d_u8_cons. unfold dbind at 1. rewrite d_u8_cons.
  assert (G : mhash_type_ok c t = true).
  { unfold mhash_type_ok, rsp_has. destruct T as [-> |([-> | ->] & [H|H])]; try reflexivity; rewrite (has_true _ _ H), ?Bool.orb_true_r; reflexivity. }
  rewrite G. unfold dguard. unfold dbind. unfold dec_nonce. change SPDM_NONCE_SIZE with 32%nat. rewrite (d_arr_app 32 nonce rest L). reflexivity.
Qed.
Lemma flags_ok a l : a < 4 -> d_flags8_strict MEAS_ATTR_ALL (a :: l) = POk a l.
Proof.
  intro A. unfold d_flags8_strict, dbind. rewrite d_u8_cons. assert (F : from_bits MEAS_ATTR_ALL a = Some a).
  { unfold from_bits. assert (a = 0 \/ a = 1 \/ a = 2 \/ a = 3) as [-> |[-> |[-> | ->]]] by lia; reflexivity. }
  rewrite F. reflexivity.
Qed.
Lemma dec_meas_asked c attr op nonce slot rest : 0x12 <= n_version (c_nego c) -> attr < 4 -> length nonce = 32%nat ->
  dec_get_meas c ([attr; op] ++ (if N.testbit attr 0 then nonce ++ [slot] else []) ++ rest) =
  POk (if N.testbit attr 0 then mkGetMeas attr op nonce slot else mkGetMeas attr op (fill SPDM_NONCE_SIZE 0) 0) rest.
Proof.
  intros V A L. unfold dec_get_meas. cbn [app]. unfold dbind at 1. rewrite (flags_ok _ _ A). unfold dbind at 1. rewrite d_u8_cons.
  unfold MEAS_ATTR_SIG. rewrite contains_1. destruct (N.testbit attr 0).
  - cbn [dec_opt]. replace (ver_ge c V11) with true by (symmetry; unfold ver_ge; apply N.leb_le; unfold V11; lia). cbn [andb dec_opt].
    unfold dec_nonce. change SPDM_NONCE_SIZE with 32%nat. unfold dbind. rewrite <- app_assoc. rewrite (d_arr_app 32 nonce _ L). cbn [app]. rewrite d_u8_cons. reflexivity.
  - cbn [andb dec_opt app]. reflexivity.
Qed.

(** the answers are written *)
Lemma write_measurement_given E sid q rest x : digest_sizes (e_cr E) -> records_fit (e_cr E) -> can_sign E x -> signatures_sized E x -> random_ready E x -> 0x12 <= ver x -> 3 <= x_conn x ->
  match sid with Some id => get_sess id x <> None | None => True end -> asks_measurements E x q ->
  exists w y, write_measurement E sid (q ++ rest) x = (Ok w, y) /\ x_io y = x_io x /\ len w <= 4096 /\ nth_error w 1 = Some 0x60.
Proof.
  intros HD HF HC HS (fresh & Rn & Lf) Lv Cn Hs (attr & op & total & La & Tt & Op & Hq).
  assert (Q : exists nonce slot, q = [ver x; 0xE0; attr; op] ++ (if N.testbit attr 0 then nonce ++ [slot] else []) /\ length nonce = 32%nat /\ (N.testbit attr 0 = true -> slot_ok x slot = true)).
  { destruct (N.testbit attr 0); [destruct Hq as (nonce & slot & chain & -> & L & Ls & Pv); exists nonce, slot; split; [reflexivity|split; [exact L|intros _; exact (proj1 (provisioned_slot _ _ _ Ls Pv))]]|].
    exists (fill 32 0), 0. split; [rewrite app_nil_r; exact Hq|]. split; [reflexivity|discriminate]. }
  clear Hq. destruct Q as (nonce & slot & -> & Ln & Sk).
  set (q := [ver x; 0xE0; attr; op] ++ (if N.testbit attr 0 then nonce ++ [slot] else [])) in *.
  unfold write_measurement. rewrite bind_get. assert (Ng : negotiated x = true) by (apply N.leb_le; exact Cn). rewrite Ng.
  unfold with_version. rewrite bind_get.
  assert (Rh : read_header (q ++ rest) = Some (mkHeader (ver x) 0xE0, [attr; op] ++ (if N.testbit attr 0 then nonce ++ [slot] else []) ++ rest)).
  { unfold q. rewrite <- app_assoc. reflexivity. }
  rewrite Rh. cbn [h_version]. rewrite N.eqb_refl. cbn [negb]. rewrite bind_mod.
  destruct (reset_meas sid x) as (B1 & L1). assert (I1 : x_io (reset_buffer RC_GET_MEASUREMENTS sid x) = x_io x).
  { assert (R : reset_buffer RC_GET_MEASUREMENTS sid x = if x_conn x <? CONN_AUTHENTICATED then reset_c (reset_b x) else x) by reflexivity. rewrite R. destruct (_ <? _); reflexivity. }
  assert (G1 : match sid with Some id => get_sess id (reset_buffer RC_GET_MEASUREMENTS sid x) <> None | None => True end).
  { assert (R : reset_buffer RC_GET_MEASUREMENTS sid x = if x_conn x <? CONN_AUTHENTICATED then reset_c (reset_b x) else x) by reflexivity. rewrite R. destruct sid; [|exact I]. destruct (_ <? _); exact Hs. }
  set (x1 := reset_buffer RC_GET_MEASUREMENTS sid x) in *. clearbody x1.
  destruct (base_facts _ _ B1) as (N1 & S1 & R1 & C1 & M1 & H1 & A1 & D1 & V1).
  rewrite bind_rd, dec_meas_asked; [|change (0x12 <= ver x1); rewrite V1; exact Lv|exact La|exact Ln].
  set (p := if N.testbit attr 0 then mkGetMeas attr op nonce slot else mkGetMeas attr op (fill SPDM_NONCE_SIZE 0) 0).
  assert (Pa : gm_attr p = attr) by (unfold p; destruct (N.testbit attr 0); reflexivity). assert (Po : gm_op p = op) by (unfold p; destruct (N.testbit attr 0); reflexivity).
  cbv beta iota. rewrite Pa, Po. unfold MEAS_ATTR_SIG. rewrite contains_1. set (signed := N.testbit attr 0) in *.
  destruct (sign_size _ _ HC HS) as (sg & As). rewrite As. unfold sbind at 1, sunwrap at 1, sret at 1. rewrite bind_mod.
  set (x2 := set_x_need_sig signed x1) in *.
  assert (F2 : x_nego x2 = x_nego x /\ x_rng x2 = x_rng x /\ x_io x2 = x_io x /\ x_need_sig x2 = signed /\ ver x2 = ver x) by (subst x2; repeat split; assumption).
  assert (G2 : match sid with Some id => get_sess id x2 <> None | None => True end) by (destruct sid; [exact G1|exact I]).
  clearbody x2. destruct F2 as (N2 & R2 & I2 & D2 & V2).
  assert (Sl : (if signed then slot_ok x (gm_slot p) else gm_slot p =? 0) = true).
  { unfold p. fold signed. destruct signed; [cbn [gm_slot]; apply Sk; reflexivity|reflexivity]. }
  rewrite Sl.
  assert (Ap : forall m y, x_nego y = x_nego x -> match sid with Some id => get_sess id y <> None | None => True end ->
      exists z, append_m (e_cr E) sid m y = (Ok tt, z) /\ base z = base y /\ x_io z = x_io y /\ (exists d, l1l2_of sid z = Some d) /\ match sid with Some id => get_sess id z <> None | None => True end).
  { intros m y Ny Gy. unfold append_m. pose proof (hash_ready _ _ HC) as Ho. rewrite <- Ny in Ho. rewrite Ho. unfold l1l2_of. destruct sid as [id|].
    - destruct (get_sess id y) as [s|] eqn:G; [|destruct (Gy eq_refl)].
      assert (Gz : forall d, get_sess id (mod_sess id (set_s_l1l2 d) y) = Some (set_s_l1l2 d s)) by (intro d; apply ReqMeas.get_mod; [exact G|reflexivity]).
      destruct (s_l1l2 s); (eexists; split; [reflexivity|]); (split; [reflexivity|]); (split; [reflexivity|]); rewrite Gz; (split; [eexists; reflexivity|discriminate]).
    - destruct (x_l1l2 y); (eexists; split; [reflexivity|]); (split; [reflexivity|]); (split; [reflexivity|]); (split; [eexists; reflexivity|exact I]). }
  unfold tryelse at 1, scatch at 1. destruct (Ap (used_of (q ++ rest) rest) x2 N2 G2) as (x3 & P3 & B3 & I3 & _ & G3). rewrite P3. clear P3.
  destruct (base_facts _ _ B3) as (N3 & _ & R3 & _ & _ & _ & _ & D3 & V3). rewrite N2 in N3. rewrite R2 in R3. rewrite D2 in D3. rewrite V2 in V3. rewrite I2 in I3.
  rewrite Tt. unfold sbind at 1, sunwrap at 1, sret at 1.
  assert (Me : exists rec, measure E x op (mr_blocks total) x3 = (Ok (Some rec), x3) /\ mr_length rec <= 3500).
  { unfold measure. destruct Op as [-> |(Op & rec & Rd)].
    - exists mrecord_default. split; [reflexivity|cbn; lia].
    - destruct (N.eqb_spec op 255) as [->|]; [exists rec; rewrite Rd; split; [reflexivity|exact (proj1 (HF _ _ _ _ _ Rd))]|].
      destruct (N.eqb_spec op 0) as [->|]; [exists mrecord_default; split; [reflexivity|cbn; lia]|].
      destruct Op as [Op|Op]; [congruence|]. replace (mr_blocks total <? op) with false by (symmetry; apply N.ltb_ge; exact Op).
      exists rec. rewrite Rd. split; [reflexivity|exact (proj1 (HF _ _ _ _ _ Rd))]. }
  destruct Me as (rec & Me & Lr). unfold sbind at 1. rewrite Me. cbv beta iota. unfold sbind at 1, get_random at 1. rewrite R3, Rn, Lf, Nat.eqb_refl.
  set (x4 := set_x_rng (x_rng x + 1) x3) in *.
  assert (V4 : ver x4 = ver x) by exact V3. assert (N4 : x_nego x4 = x_nego x) by exact N3. assert (D4 : x_need_sig x4 = signed) by exact D3. assert (I4 : x_io x4 = x_io x) by exact I3.
  assert (G4 : match sid with Some id => get_sess id x4 <> None | None => True end) by (destruct sid; [exact G3|exact I]). clearbody x4.
  set (n := if (op =? 255) || (op =? 0) then mr_blocks total else 1) in *. set (ch := if cf_content_change (x_cfg x) && (18 <=? ver x) then x_changed x else 0) in *.
  unfold encode_or_err. unfold sbind at 1, wenc at 1.
  assert (Ay : c_asym_size (xc x4) = Some sg) by (unfold c_asym_size; change (c_nego (xc x4)) with (x_nego x4); rewrite N4; exact As).
  rewrite (emit_measurements (xc x4) (ver x) n (gm_slot p) ch rec fresh sg ltac:(change (ver x4 = ver x); exact V4) Lv Lf Lr Ay). cbv beta iota. cbn [fst snd].
  change (c_need_sig (xc x4)) with (x_need_sig x4). rewrite D4.
  assert (Lb : forall p2, len (meas_body (ver x) n p2 rec fresh) <= 3560).
  { intro p2. unfold meas_body, wire_mrecord. rewrite !len_app. unfold len at 1 2 3 4 5 6. rewrite Lf, le_bytes_length, firstn_length. cbn [length]. lia. }
  destruct signed; cbn [sig_pad].
  - set (body := meas_body (ver x) n (N.lor (gm_slot p) ch) rec fresh) in *. rewrite (drop_last_app body _ sg (fill_len _ _)).
    unfold sbind at 1, sof at 1. unfold tryelse at 1, scatch at 1. destruct (Ap body x4 N4 G4) as (x5 & P5 & B5 & I5 & (d5 & L5) & G5). rewrite P5.
    destruct (base_facts _ _ B5) as (N5 & _ & _ & _ & _ & _ & _ & _ & V5). rewrite N4 in N5. rewrite I4 in I5.
    rewrite bind_get. rewrite L5. unfold sbind at 1, sunwrap at 1, sret at 1. unfold tryelse at 1, scatch at 1.
    destruct (sign_transcript E SigMeasurements d5 x5) as [r6 x6] eqn:Sg. destruct (sign_run E x x5 _ _ _ _ HD HC N5 Lv Sg) as (-> & sig & -> & Si). unfold sbind at 1, sof at 1.
    assert (Ls : len sig = sg). { destruct Si as (h & _ & Cs). pose proof (HS _ _ Cs). congruence. }
    rewrite (patch_ok body _ sig sg (fill_len _ _) Ls). rewrite bind_mod. unfold sret. eexists _, _. split; [reflexivity|]. split; [destruct sid; exact I5|].
    rewrite len_app. specialize (Lb (N.lor (gm_slot p) ch)). fold body in Lb. assert (La2 := asym_le _ _ As). split; [lia|reflexivity].
  - unfold then_append, tryelse, scatch. rewrite app_nil_r. destruct (Ap (meas_body (ver x) n 0 rec fresh) x4 N4 G4) as (x5 & P5 & B5 & I5 & _ & _). rewrite P5.
    unfold sret. eexists _, _. split; [reflexivity|]. split; [congruence|]. specialize (Lb 0). split; [lia|reflexivity].
Qed.

Lemma m1m2_ok E x m y : can_sign E x -> x_nego y = x_nego x -> append_c (e_cr E) m y = (Ok tt, set_x_m1m2 (Some (m1m2_so_far y ++ m)) y).
Proof.
  intros HC N. unfold append_c, append_m1m2, m1m2_so_far. pose proof (hash_ready _ _ HC) as Ho. rewrite <- N in Ho. rewrite Ho. destruct (x_m1m2 y); reflexivity.
Qed.
Lemma write_challenge_given E q rest x : digest_sizes (e_cr E) -> summaries_sized (e_cr E) -> can_sign E x -> signatures_sized E x -> random_ready E x -> 0x12 <= ver x -> 3 <= x_conn x ->
  asks_challenge E x q -> exists w y, write_challenge E (q ++ rest) x = (Ok w, y) /\ x_io y = x_io x /\ len w <= 4096 /\ nth_error w 1 = Some 0x03.
Proof.
  intros HD HM HC HS (fresh & Rn & Lf) Lv Cn (slot & t & nonce & chain & -> & Ln & Ls & Pv & Ht). destruct (provisioned_slot _ _ _ Ls Pv) as (Sk & Sc).
  set (q := [ver x; 0x83; slot; t] ++ nonce) in *.
  unfold write_challenge. rewrite bind_get. assert (Ng : negotiated x = true) by (apply N.leb_le; exact Cn). rewrite Ng.
  unfold with_version. rewrite bind_get.
  assert (Rh : read_header (q ++ rest) = Some (mkHeader (ver x) 0x83, [slot; t] ++ nonce ++ rest)) by (unfold q; rewrite <- app_assoc; reflexivity).
  rewrite Rh. cbn [h_version]. rewrite N.eqb_refl. cbn [negb]. rewrite bind_mod.
  assert (R : reset_buffer RC_CHALLENGE None x = set_x_l1l2 None x) by reflexivity. rewrite R. clear R. set (x1 := set_x_l1l2 None x) in *.
  rewrite bind_rd, dec_challenge_asked; [|exact Ln|destruct Ht as [-> |(T & O & _)]; [left; reflexivity|right; split; [exact T|exact O]]].
  cbv beta iota. cbn [ch_hash_type ch_slot]. unfold sbind at 1. destruct (summary E t x1) as [rs y2] eqn:Sm. apply summary_run in Sm as (Y2 & Rs). cbv zeta in Y2, Rs.
  set (sb := (t =? 1) || (t =? 255)) in *.
  assert (Sum : exists sum, rs = Ok (Some sum) /\ (sb = true -> exists s, sum = v_of 64 s /\ hash_size (n_hash (x_nego x)) = Some (len s))).
  { rewrite Rs. destruct sb eqn:Sb; [|eexists; split; [reflexivity|discriminate]].
    destruct Ht as [-> |(_ & _ & s & Cs)]; [discriminate Sb|]. change (ver x1) with (ver x). change (x_nego x1) with (x_nego x). rewrite Cs. pose proof (HM _ _ _ _ _ _ Cs) as L.
    assert (len s =? 0 = false) as ->. { apply hash_cases in L. apply N.eqb_neq. intuition lia. }
    exists (v_of 64 s). split; [reflexivity|]. intros _. exists s. split; [reflexivity|exact L]. }
  destruct Sum as (sum & -> & Hs). rewrite Sk.
  assert (F2 : x_nego y2 = x_nego x /\ x_rng y2 = x_rng x /\ x_io y2 = x_io x /\ c_need_sum (xc y2) = sb) by (subst y2; repeat split; reflexivity). clear Y2. destruct F2 as (N2 & R2 & I2 & C2).
  unfold tryelse at 1, scatch at 1. rewrite (m1m2_ok E x _ y2 HC N2). set (y3 := set_x_m1m2 _ y2).
  assert (F3 : x_nego y3 = x_nego x /\ x_rng y3 = x_rng x /\ x_io y3 = x_io x /\ c_need_sum (xc y3) = sb) by (subst y3; repeat split; assumption). clearbody y3. destruct F3 as (N3 & R3 & I3 & C3).
  rewrite Sc. unfold sbind at 1, sunwrap at 1, sret at 1. destruct (cr_hash (e_cr E) (n_hash (x_nego x)) chain) as [hash|] eqn:Hc; [|destruct HC as (HC & _); destruct (HC _ Hc)].
  unfold sbind at 1, sunwrap at 1, sret at 1. unfold sbind at 1, get_random at 1. rewrite R3, Rn, Lf, Nat.eqb_refl.
  set (y4 := set_x_rng (x_rng x + 1) y3). assert (F4 : x_nego y4 = x_nego x /\ x_io y4 = x_io x /\ c_need_sum (xc y4) = sb) by (subst y4; repeat split; assumption). clearbody y4. destruct F4 as (N4 & I4 & C4).
  destruct (sign_size _ _ HC HS) as (sg & As). rewrite As. unfold sbind at 1, sunwrap at 1, sret at 1.
  unfold encode_or_err. unfold sbind at 1, wenc at 1.
  assert (Nh : hash_size (n_hash (x_nego x)) = Some (len hash)) by (exact (HD _ _ _ Hc)).
  assert (Sz : if c_need_sum (xc y4) then exists s, sum = v_of 64 s /\ len s = len hash else True).
  { rewrite C4. destruct sb; [|exact I]. destruct (Hs eq_refl) as (s & -> & L). exists s. split; [reflexivity|congruence]. }
  assert (Vy : n_version (c_nego (xc y4)) = ver x) by (change (n_version (x_nego y4) = ver x); rewrite N4; reflexivity).
  assert (Hy : c_hash_size (xc y4) = Some (len hash)) by (unfold c_hash_size; change (c_nego (xc y4)) with (x_nego y4); rewrite N4; exact Nh).
  assert (Ay : c_asym_size (xc y4) = Some sg) by (unfold c_asym_size; change (c_nego (xc y4)) with (x_nego y4); rewrite N4; exact As).
  rewrite (emit_challenge_auth (xc y4) (ver x) slot hash fresh sum sg (len hash) Vy Hy eq_refl Lf Sz Ay Ls). rewrite C4 in Sz |- *. cbv beta iota. cbn [fst snd].
  set (body := chal_body (ver x) slot hash fresh (if sb then v_bytes sum else [])) in *.
  assert (Lb : len body <= 250).
  { assert (Lh := hash_le _ _ Nh). assert (len (if sb then v_bytes sum else []) <= 64) as Lsum.
    { destruct sb; [|cbn; lia]. destruct Sz as (s & -> & L). rewrite v_of_bytes; lia. }
    assert (Lf2 : len fresh = 32) by (unfold len; rewrite Lf; reflexivity).
    unfold body, chal_body. rewrite !len_app. change (len [ver x; 3; slot; 1]) with 4. change (len [0; 0]) with 2. clearbody body. unfold bytes in *. rewrite Lf2. match type of Lsum with ?a <= _ => change (4 + (len hash + (32 + (a + 2))) <= 250); revert Lsum; generalize a end. revert Lh; generalize (len hash). clear. lia. }
  rewrite (drop_last_app body _ sg (fill_len _ _)).
  unfold sbind at 1, sof at 1. unfold tryelse at 1, scatch at 1. rewrite (m1m2_ok E x _ y4 HC N4). set (y5 := set_x_m1m2 _ y4).
  assert (exists d, x_m1m2 y5 = Some d) as (d5 & M5) by (subst y5; eexists; reflexivity). assert (N5 : x_nego y5 = x_nego x) by exact N4. assert (I5 : x_io y5 = x_io x) by exact I4. clearbody y5.
  rewrite bind_get, M5. unfold sbind at 1, sunwrap at 1, sret at 1. unfold tryelse at 1, scatch at 1.
  destruct (sign_transcript E SigChallenge d5 y5) as [r6 y6] eqn:Sg. destruct (sign_run E x y5 _ _ _ _ HD HC N5 Lv Sg) as (-> & sig & -> & Si). unfold sbind at 1, sof at 1.
  assert (Lsg : len sig = sg). { destruct Si as (h & _ & Cs). pose proof (HS _ _ Cs). congruence. }
  rewrite (patch_ok body _ sig sg (fill_len _ _) Lsg). rewrite bind_mod. unfold sret. eexists _, _. split; [reflexivity|]. split; [exact I5|].
  rewrite len_app. assert (La2 := asym_le _ _ As). split; [lia|reflexivity].
Qed.

(** the request read is the request made *)
Lemma same_cut (a b r s : bytes) : a ++ r = b ++ s -> length a = length b -> a = b.
Proof. revert b. induction a as [|x a IH]; intros [|y b] H L; try discriminate L; [reflexivity|]. cbn in H, L. injection H as -> H. f_equal. apply (IH b H). congruence. Qed.
Lemma challenge_same E x q q' rest rest' w : asks_challenge E x q -> challenge_auth_for E x q' w -> q ++ rest = q' ++ rest' -> q = q'.
Proof.
  intros (s & t & n & c & -> & L & _) (s' & t' & n' & c' & h & f & su & sg & H). destruct H as (-> & L' & _). intro H. apply (same_cut _ _ _ _ H). cbn [app length]. congruence.
Qed.
Lemma measurements_same E sid x q q' rest rest' w : asks_measurements E x q -> measurements_for E sid x q' w -> q ++ rest = q' ++ rest' -> q = q'.
Proof.
  intros (a & op & tot & La & _ & _ & Q) (a' & op' & n & sl & ch & r & f & _ & _ & _ & Q') H.
  assert (Ha : nth_error q 2 = Some a /\ (4 <= length q)%nat) by (destruct (N.testbit a 0); [destruct Q as (? & ? & ? & -> & _)|rewrite Q]; split; cbn [app length]; [reflexivity|lia|reflexivity|lia]).
  assert (Ha' : nth_error q' 2 = Some a' /\ (4 <= length q')%nat) by (destruct (N.testbit a' 0); [destruct Q' as (? & ? & ? & -> & _)|destruct Q' as (-> & _)]; split; cbn [app length]; [reflexivity|lia|reflexivity|lia]).
  assert (a = a') as <-.
  { destruct Ha as (H1 & L1), Ha' as (H2 & L2). assert (nth_error (q ++ rest) 2 = Some a) as K by (rewrite nth_error_app1 by lia; exact H1).
    rewrite H in K. rewrite nth_error_app1 in K by lia. congruence. }
  apply (same_cut _ _ _ _ H). clear H Ha Ha'. destruct (N.testbit a 0).
  - destruct Q as (nn & ss & cc & -> & L & _). destruct Q' as (nn' & cc' & sg' & -> & L' & _). rewrite !app_length. cbn [length]. congruence.
  - destruct Q' as (-> & _). rewrite Q. reflexivity.
Qed.

(** ** what is sent in the end *)
Lemma error_code x m : is_error x m -> nth_error m 1 = Some 0x7F.
Proof. intros (c & d & ->). reflexivity. Qed.
Lemma given_send E sid w y x r x' (P : bytes -> Prop) : ver y = ver x -> x_nego y = x_nego x -> P w -> send_on E sid w y = (r, x') -> one_reply E y x' (given x P).
Proof.
  intros V N Hp H. unfold send_on, send_message, send_secured_message in H.
  assert (G : forall e, (if too_large y w then (e0 <-- write_err ERR_RESPONSE_TOO_LARGE [] ;; if too_large y e0 then spanic else e e0)%st y = (r, x') else e w y = (r, x')) ->
     (forall m, given x P m -> e m y = (r, x') -> one_reply E y x' (given x P)) -> one_reply E y x' (given x P)).
  { intros e He K. destruct (too_large y w) eqn:T; [|apply (K w); [exists w; split; [exact Hp|left; reflexivity]|exact He]].
    unfold sbind at 1, write_err in He. rewrite write_err_nil in He. cbv beta iota in He. destruct (too_large y (RspCalm.error_bytes (ver y) ERR_RESPONSE_TOO_LARGE 0)); [unfold spanic in He; left; congruence|].
    apply (K _ ltac:(idtac; exists w; split; [exact Hp|right]; unfold too_large in T; rewrite N in T; apply andb_prop in T as (T1 & T2); split; [apply N.ltb_lt; exact T2|]; split; [intro Z; rewrite Z in T1; discriminate T1|rewrite <- V; reflexivity]) He). }
  destruct sid as [id|]; rewrite bind_get in H; cbn [negb andb] in H.
  - apply (G (fun m => send_secured_raw E id m false)); [destruct (too_large y w); exact H|]. intros m Gm Hm. exact (send_secured_raw_one E id m y r x' _ Gm Hm).
  - apply (G (fun m => send_raw E m)); [destruct (too_large y w); exact H|]. intros m Gm Hm. exact (send_raw_one E m y r x' _ Gm Hm).
Qed.

Lemma device_sends E sid w y r x' : device_works E -> sid = None -> n_req_dts (x_nego y) = 0 \/ 4 <= n_req_dts (x_nego y) -> len w <= 4096 -> send_on E sid w y = (r, x') -> x_sent x' <> x_sent y.
Proof.
  intros (D1 & D2) -> Hr L H. unfold send_on, send_message in H. rewrite bind_get in H.
  assert (K : forall m, len m <= 4096 -> send_raw E m y = (r, x') -> x_sent x' <> x_sent y).
  { intros m Lm Hm. unfold send_raw in Hm. destruct (D2 m Lm) as (t & T). rewrite T in Hm. unfold sbind at 1, sof at 1 in Hm. unfold sbind at 1, io_send at 1 in Hm. rewrite D1 in Hm. cbv beta iota in Hm.
    match type of Hm with _ ?z = _ => set (z0 := z) in * end. assert (S0 : x_sent z0 = t :: x_sent y) by reflexivity. clearbody z0.
    assert (Q : rel quiet (op <-- sunwrap (opcode m) ;; after_send op)%st) by (rl quiet_pre; apply quiet_after). apply Q in Hm as (Q1 & _). rewrite Q1, S0. intro X. apply (f_equal (@length bytes)) in X. cbn [length] in X. lia. }
  destruct (too_large y w); [|exact (K w L H)]. unfold sbind at 1, write_err in H. rewrite write_err_nil in H. cbv beta iota in H.
  assert (T : too_large y (RspCalm.error_bytes (ver y) ERR_RESPONSE_TOO_LARGE 0) = false).
  { unfold too_large. change (len (RspCalm.error_bytes (ver y) ERR_RESPONSE_TOO_LARGE 0)) with 4. destruct Hr as [-> |Hr]; [reflexivity|]. apply Bool.andb_false_intro2. apply N.ltb_ge. exact Hr. }
  rewrite T in H. refine (K _ _ H). change (4 <= 4096). lia.
Qed.

(** C85: a CHALLENGE or GET_MEASUREMENTS that the responder has everything to answer is answered as
    asked: the one message sent is the CHALLENGE_AUTH or the MEASUREMENTS, or the ERROR saying that
    the peer cannot take so long a message; if device and transport work, it is sent. *)
Theorem C85_challenge_given : forall E f q rest x r x',
  digest_sizes (e_cr E) -> summaries_sized (e_cr E) -> can_sign E x -> signatures_sized E x -> random_ready E x -> 0x12 <= ver x -> 3 <= x_conn x ->
  plain_message E f = Some (q ++ rest) -> asks_challenge E x q -> process_frame E f x = (r, x') ->
  one_reply E x x' (given x (challenge_auth_for E x q)) /\
  (device_works E -> n_req_dts (x_nego x) = 0 \/ 4 <= n_req_dts (x_nego x) -> x_sent x' <> x_sent x).
Proof.
  intros E f q rest x r x' HD HM HC HS HR Lv Cn Pf Q H. rewrite (frame_plain E f _ x Pf) in H. apply is_ok_inv in H as [r0 H].
  assert (Rc : request_code (q ++ rest) = Some 0x83) by (destruct Q as (s & t & n & c & -> & _); reflexivity).
  destruct (code_header _ _ Rc) as (h & t & Rh & Hh). unfold dispatch_message in H. rewrite Rh, Hh in H. change (handle_challenge E (q ++ rest) x = (r0, x')) in H.
  unfold handle_challenge in H. unfold sbind at 1 in H. destruct (write_challenge_given E q rest x HD HM HC HS HR Lv Cn Q) as (w & y & W & _ & Lw & Wc). rewrite W in H.
  destruct (write_challenge_good E _ x _ y HD HM HC Lv Rc W) as (S1 & V1 & G). destruct G as [G|(_ & q' & rest' & Eb & G)]; [apply error_code in G; congruence|].
  rewrite <- (challenge_same E x q q' rest rest' w Q G Eb) in G.
  assert (N1 : x_nego y = x_nego x) by (exact (proj1 (calm_facts None _ _ (calm_write_challenge E _ _ _ _ W)))).
  unfold one_reply. rewrite <- S1. split; [exact (given_send E None w y x r0 x' _ V1 N1 G H)|].
  intros D L. rewrite <- N1 in L. exact (device_sends E None w y r0 x' D eq_refl L Lw H).
Qed.
Print Assumptions C85_challenge_given.
Theorem C85_measurements_given : forall E f q rest x r x' sid,
  digest_sizes (e_cr E) -> records_fit (e_cr E) -> can_sign E x -> signatures_sized E x -> random_ready E x -> 0x12 <= ver x -> 3 <= x_conn x ->
  match sid with
  | None => plain_message E f = Some (q ++ rest)
  | Some id => delivered E f x id (q ++ rest) false /\ exists s, get_sess id x = Some s /\ s_state s = SEstablished
  end ->
  asks_measurements E x q -> process_frame E f x = (r, x') ->
  one_reply E x x' (given x (measurements_for E sid x q)) /\
  (sid = None -> device_works E -> n_req_dts (x_nego x) = 0 \/ 4 <= n_req_dts (x_nego x) -> x_sent x' <> x_sent x).
Proof.
  intros E f q rest x r x' sid HD HF HC HS HR Lv Cn Hd Q H.
  assert (Rc : request_code (q ++ rest) = Some 0xE0).
  { destruct Q as (a & op & tot & _ & _ & _ & Q). destruct (N.testbit a 0); [destruct Q as (? & ? & ? & -> & _)|rewrite Q]; reflexivity. }
  destruct (code_header _ _ Rc) as (h & t & Rh & Hh).
  assert (M : exists x0 r0, handle_measurement E sid (q ++ rest) x0 = (r0, x') /\ x_nego x0 = x_nego x /\ x_sent x0 = x_sent x /\ x_rng x0 = x_rng x /\ x_conn x0 = x_conn x /\ x_my_chain x0 = x_my_chain x /\ x_cfg x0 = x_cfg x /\ x_changed x0 = x_changed x /\
     l1l2_so_far sid x0 = l1l2_so_far sid x /\ match sid with Some id => get_sess id x0 <> None | None => True end).
  { destruct sid as [id|].
    - destruct Hd as (D & s & G & St). destruct (frame_delivered_l1l2 E f x id _ false s D G) as (s1 & K1 & K3 & K2 & K4). rewrite K4 in H.
      assert (S1 : s_state s1 = SEstablished) by congruence. apply is_ok_inv in H as [r0 H]. exists (mod_sess id (fun _ => s1) x), r0. set (y := mod_sess id (fun _ => s1) x) in *.
      unfold dispatch_secured in H. unfold sbind at 1, sget at 1 in H. rewrite K2, S1 in H. unfold dispatch_established in H. rewrite Rh, Hh in H.
      split; [exact H|]. do 7 (split; [reflexivity|]). split; [unfold l1l2_so_far; rewrite K2, G, K3; reflexivity|]. rewrite K2. discriminate.
    - rewrite (frame_plain E f _ x Hd) in H. apply is_ok_inv in H as [r0 H]. unfold dispatch_message in H. rewrite Rh, Hh in H.
      exists x, r0. split; [exact H|]. do 8 (split; [reflexivity|]). exact I. }
  clear H Hd. destruct M as (x0 & r0 & H & N0 & S0 & R0 & C0 & M0 & G0 & H0 & L0 & Hs).
  assert (V0 : ver x0 = ver x) by (unfold ver; rewrite N0; reflexivity).
  assert (HC0 : can_sign E x0) by (unfold can_sign; rewrite N0; exact HC). assert (HS0 : signatures_sized E x0) by (unfold signatures_sized; rewrite N0; exact HS).
  assert (HR0 : random_ready E x0) by (unfold random_ready; rewrite R0; exact HR).
  assert (Q0 : asks_measurements E x0 q) by (unfold asks_measurements, provisioned; rewrite V0, N0, M0; exact Q).
  rewrite <- V0 in Lv. rewrite <- C0 in Cn.
  unfold handle_measurement in H. unfold sbind at 1 in H. destruct (write_measurement_given E sid q rest x0 HD HF HC0 HS0 HR0 Lv Cn Hs Q0) as (w & y & W & _ & Lw & Wc). rewrite W in H.
  destruct (write_measurement_good E sid _ x0 _ y HD HF HC0 Lv Rc W) as (S1 & V1 & G). destruct G as [G|(q' & rest' & Eb & G)]; [apply error_code in G; congruence|].
  rewrite <- (measurements_same E sid x0 q q' rest rest' w Q0 G Eb) in G.
  assert (N1 : x_nego y = x_nego x0) by (exact (proj1 (calm_facts sid _ _ (calm_write_measurement E _ _ _ _ _ W)))).
  assert (G1 : measurements_for E sid x q w).
  { unfold measurements_for, measured_record, provisioned, signs in *. rewrite V0, N0, M0, G0, H0, L0, R0 in G. exact G. }
  unfold one_reply. rewrite <- S0, <- S1. split; [apply (given_send E sid w y x r0 x' _ ltac:(congruence) ltac:(congruence) G1 H)|].
  intros -> D L. rewrite <- N0, <- N1 in L. exact (device_sends E None w y r0 x' D eq_refl L Lw H).
Qed.
Print Assumptions C85_measurements_given.
(** a case: the second slot is challenged with no summary asked; all measurements, signed by slot 1 *)
Example C85_case : can_sign ex_env rp_state /\ signatures_sized ex_env rp_state /\ random_ready ex_env rp_state /\ ver rp_state = 0x12 /\ x_conn rp_state = 3 /\ n_req_dts (x_nego rp_state) = 4096 /\
  plain_message ex_env f_challenge = Some (tl f_challenge ++ []) /\ asks_challenge ex_env rp_state (tl f_challenge) /\
  plain_message ex_env f_measure = Some (tl f_measure ++ []) /\ asks_measurements ex_env rp_state (tl f_measure).
Proof.
  split. { split; [|discriminate]. intros d H. discriminate H. }
  split. { intros m s H. change (Some (le_bytes 96 (poly m)) = Some s) in H. assert (s = le_bytes 96 (poly m)) as -> by congruence. unfold len. rewrite le_bytes_length. vm_compute. reflexivity. }
  split. { eexists. split; vm_compute; reflexivity. }
  split; [reflexivity|]. split; [vm_compute; reflexivity|]. split; [vm_compute; reflexivity|].
  split; [vm_compute; reflexivity|].
  split. { exists 1, 0, (fill 32 3). eexists. split; [reflexivity|]. split; [reflexivity|]. split; [lia|]. split; [vm_compute; reflexivity|left; reflexivity]. }
  split; [vm_compute; reflexivity|].
  cbv zeta. exists 1, 255. eexists. split; [lia|]. split; [vm_compute; reflexivity|]. split. { right. split; [left; reflexivity|]. eexists. vm_compute. reflexivity. }
  exists (fill 32 4), 0. eexists. split; [reflexivity|]. split; [reflexivity|]. split; [lia|vm_compute; reflexivity].
Qed.
Example C85_case_device : device_works ex_env.
Proof.
  split; [reflexivity|]. intros m L. assert (L2 : (length m <= 4096)%nat) by (unfold len in L; lia).
  assert (Lz : length (zbuf BUFFER_SIZE) = 4160%nat) by (unfold zbuf, fill; rewrite repeat_length; reflexivity).
  destruct (mctp_roundtrip m (zbuf BUFFER_SIZE) m false) as (tb & H & _); [rewrite Lz; lia|lia|].
  change (exists t, took (mctp_encap m (zbuf BUFFER_SIZE) false) = Ok t). rewrite H. eexists. reflexivity.
Qed.
