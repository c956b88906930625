(** C36, C37: certificate retrieval by the requester. *)
From Verif Require Import Bytes BytesFacts Status Codec Parse ParseProofs Algo Monad.
From Verif Require Import MsgConn MsgAuth MsgSession MsgOther Message Opaque Transport Crypto KeySchedule Session Signing CertOps ChainVerify Context
  RspBase RspConn RspSess RspEncap Responder StRel RspFrame RspCalm RspOpcode RspPass RspEst ReqBase ReqConn ReqSess SpecReq ReqFrame ReqAnswer SpecSession SpecAuth ReqTrans ReqSplit ReqHist ReqAuth.
From Verif Require Import MsgLocal SpecDer X509Proofs PropCert PropAlgs SpecRetr ReqChain.
From Coq Require Import Lia.
Local Open Scope N_scope.

(** ** acceptance of a chain *)
Lemma get_first c rest : blob c -> get_cert (c ++ rest) 0 = Ok (0, len c).
Proof. intro B. exact (proj1 (C46_lookup_finds [] c rest (Forall_nil _) B)). Qed.
Lemma get_first_inv body a b : get_cert body 0 = Ok (a, b) -> exists c rest, body = c ++ rest /\ blob c /\ a = 0 /\ b = len c.
Proof.
  unfold get_cert. cbn [cert_loop]. rewrite (proj2 (N.ltb_ge _ _)) by lia. destruct (_ <? 4); [discriminate|]. cbn [skipn N.to_nat].
  destruct body as [|t [|l0 [|hi [|lo d]]]]; try discriminate. destruct (N.eqb_spec t 0x30) as [->|]; cbn [negb orb]; [|discriminate].
  destruct (N.eqb_spec l0 0x82) as [->|]; cbn [negb orb]; [|discriminate]. cbv zeta.
  destruct (N.ltb_spec (len (48 :: 130 :: hi :: lo :: d) - 0) (hi * 256 + lo + 4)) as [|L5]; [discriminate|]. rewrite !len_cons in L5.
  destruct (split_len d (hi * 256 + lo)) as (bo & rest & -> & Lb); [lia|]. change (0 =? 0)%Z with true. cbv beta iota. intro H.
  exists (48 :: 130 :: hi :: lo :: bo), rest. split; [reflexivity|]. split; [exists hi, lo, bo; auto|]. rewrite !len_cons.
  assert (a = 0 /\ b = 0 + (hi * 256 + lo + 4)) as [-> ->] by (split; congruence). lia.
Qed.
Theorem C37_accepted_chains : forall cr hash root chain,
  verify_chain cr hash root chain = Ok tt <-> acceptable_chain cr hash root chain.
Proof.
  intros cr hash root chain. split.
  - unfold verify_chain. destruct (hash_size hash) as [h|] eqn:Hh; [|discriminate]. destruct (N.leb_spec (len chain) (4 + h)) as [|L]; [discriminate|].
    destruct (N.eqb_spec (chain_length_field chain) (len chain)) as [F|]; cbn [negb]; [|discriminate]. cbv zeta. destruct (N.ltb_spec 4096 (len (chain_body h chain))) as [|Lb]; [discriminate|].
    destruct (cr_verify_chain cr (chain_body h chain)) eqn:V; cbn [negb]; [|discriminate].
    destruct (get_cert (chain_body h chain) 0) as [[a b]| |] eqn:G; cbn [obind fst snd]; try discriminate. apply get_first_inv in G as (c & rest & Eb & B & -> & ->).
    rewrite N.sub_0_r. change (N.to_nat 0) with 0%nat. assert (Sl : slice 0 (N.to_nat (len c)) (chain_body h chain) = c).
    { unfold slice. cbn [skipn]. rewrite Eb. apply firstn_app_exact. unfold len. lia. } rewrite Sl.
    destruct (cr_hash cr hash c) as [rh|] eqn:Hc; [|discriminate]. destruct (bytes_eqb rh (slice 4 (N.to_nat h) chain)) eqn:R; cbn [negb]; [|discriminate]. apply bytes_eqb_eq in R. intro K.
    assert (Lrh : len rh = h). { subst rh. unfold len in *. rewrite slice_length by lia. lia. }
    destruct chain as [|l0 [|l1 [|r0 [|r1 d]]]]; try (unfold len in L; cbn [length] in L; lia).
    exists h, [l0; l1], [r0; r1], rh, c, rest. split.
    { cbn [app]. do 4 f_equal. rewrite <- Eb. unfold chain_body. rewrite R. replace (N.to_nat (4 + h)) with (4 + N.to_nat h)%nat by lia. cbn [skipn Nat.add]. unfold slice. cbn [skipn]. symmetry. apply firstn_skipn. }
    split; [reflexivity|]. split; [rewrite <- F; unfold chain_length_field; cbn [nth le_val]; lia|]. split; [reflexivity|]. split; [exact Hh|]. split; [exact Lrh|]. split; [exact B|].
    rewrite <- Eb. split; [exact Lb|]. split; [exact V|]. split; [exact Hc|]. intros r ->. destruct (bytes_eqb c r) eqn:X; [|discriminate]. apply bytes_eqb_eq. exact X.
  - intros (h & lf & rs & rh & c & rest & Ec & L1 & L2 & L3 & Hh & Lr & B & Lb & V & Hc & Rt).
    destruct lf as [|l0 [|l1 [|]]]; try discriminate. destruct rs as [|r0 [|r1 [|]]]; try discriminate. cbn [app] in Ec.
    assert (Cb : chain_body h chain = c ++ rest). { unfold chain_body. replace (N.to_nat (4 + h)) with (4 + N.to_nat h)%nat by lia. rewrite Ec. cbn [Nat.add skipn]. apply skipn_app_exact. unfold len in Lr. lia. }
    unfold verify_chain. rewrite Hh. assert (Bl := blob_len _ B). assert (Lc : len chain = 4 + h + len (c ++ rest)). { rewrite Ec, !len_cons, len_app. lia. } 
    rewrite (proj2 (N.leb_gt _ _)) by (rewrite Lc, len_app; lia). rewrite (proj2 (N.eqb_eq (chain_length_field chain) (len chain))).
    2:{ rewrite <- L2, Ec. unfold chain_length_field. cbn [nth le_val]. lia. } cbn [negb]. cbv zeta. rewrite Cb, (proj2 (N.ltb_ge _ _)) by lia. rewrite V. cbn [negb].
    rewrite (get_first c rest B). cbn [obind fst snd]. rewrite N.sub_0_r. change (N.to_nat 0) with 0%nat. 
    assert (Sl : slice 0 (N.to_nat (len c)) (c ++ rest) = c). { unfold slice. cbn [skipn]. apply firstn_app_exact. unfold len. lia. } rewrite Sl, Hc.
    assert (S2 : slice 4 (N.to_nat h) chain = rh). { rewrite Ec. unfold slice. cbn [skipn]. apply firstn_app_exact. unfold len in Lr. lia. } rewrite S2, bytes_eqb_refl. cbn [negb].
    destruct root as [r|]; [|reflexivity]. rewrite (Rt r eq_refl), bytes_eqb_refl. reflexivity.
Qed.
Print Assumptions C37_accepted_chains.

(** ** the messages *)
Lemma get_cert_wire x slot offset want s x' : req_enc (get_cert_msg x slot offset want) x = (Ok s, x') -> s = get_certificate_bytes (ver x) slot offset want.
Proof.
  apply req_enc_exact.
  - unfold get_cert_msg, enc_message, enc_header, enc_payload, enc_get_cert. cbn [m_header m_payload h_version h_code gc_slot gc_offset gc_length].
    rewrite !xwire_app, !PropAlgs.xw8, !PropAlgs.xw16. reflexivity.
  - reflexivity.
Qed.
Lemma d_u16_split l a r : d_u16 l = POk a r -> exists f, l = f ++ r /\ length f = 2%nat /\ le_val f = a.
Proof.
  unfold d_u16, dlift, p_u16, p_le. destruct (ptake 2 l) as [[b s]|] eqn:E; [|discriminate]. apply CodecProofs.ptake_Some in E as [-> HL]. intro H. exists b.
  assert (le_val b = a /\ s = r) as [? ->] by (split; congruence). auto.
Qed.
Lemma cert_rsp_split r p rest : dec_cert_rsp r = POk p rest -> (cr_portion p <= 512 ->
  is_certificate 0 (cr_slot p) (firstn (N.to_nat (cr_portion p)) (cr_data p)) (cr_remainder p) (0 :: 2 :: r) /\ len (firstn (N.to_nat (cr_portion p)) (cr_data p)) = cr_portion p).
Proof.
  intros H L. unfold dec_cert_rsp in H. apply dbind_ok in H as (a & l1 & E1 & H). apply MsgRound2.d_u8_inv in E1 as ->. apply dbind_ok in H as (c & l2 & E2 & H). apply MsgRound2.d_u8_inv in E2 as ->.
  apply dbind_ok in H as (n & l3 & E3 & H). apply d_u16_split in E3 as (f & -> & Lf & Vf). apply dbind_ok in H as (m & l4 & E4 & H). apply d_u16_split in E4 as (g & -> & Lg & Vg).
  apply dbind_ok in H as (d & l5 & E5 & H). apply dret_ok in H as [-> ->]. cbn [cr_slot cr_portion cr_remainder cr_data] in *.
  assert (Ln : (N.to_nat n <= MAX_CERT_PORTION)%nat) by (change MAX_CERT_PORTION with 512%nat; lia).
  destruct (d_fixed_split _ _ _ _ _ Ln E5) as (q & -> & Lq & ->). split; [|exact Lq].
  exists c, f, g, l5. rewrite Lq. auto.
Qed.
Lemma is_certificate_any v w slot part left r : is_certificate v slot part left (v :: 2 :: r) -> is_certificate w slot part left (w :: 2 :: r).
Proof. intros (a & f & g & rest & H & K). exists a, f, g, rest. split; [|exact K]. cbn [app] in *. f_equal. congruence. Qed.

(** ** one exchange *)
Lemma bind_assert {S A} c (k : unit -> st S A) x : sbind (sassert c) k x = if c then k tt x else (Panic, x).
Proof. unfold sassert, sbind, sret, spanic. destruct c; reflexivity. Qed.
Lemma bind_some {S A B} e (a : A) (k : A -> st S B) x : sbind (sok e (Some a)) k x = k a x. Proof. reflexivity. Qed.
Lemma bind_mod {S A} f (k : unit -> st S A) x : sbind (smod f) k x = k tt (f x). Proof. reflexivity. Qed.
Lemma bind_rd {P A} (d : cctx -> dec P) r (k : option (P * bytes) -> st ctx A) x :
  sbind (rd d r) k x = match d (xc x) r with POk p rest => k (Some (p, rest)) x | PNone => k None x | PPanic => (Panic, x) end.
Proof. unfold rd. unfold sbind, sget. destruct (d (xc x) r); reflexivity. Qed.
Lemma sbind_any {S A B} (m : st S A) (k : A -> st S B) x r x' : sbind m k x = (r, x') ->
  exists q z, m x = (q, z) /\ match q with Ok a => k a z = (r, x') | Err e => r = Err e /\ x' = z | Panic => r = Panic /\ x' = z end.
Proof. unfold sbind. destruct (m x) as [[a| |] z]; intro H; eexists _, _; (split; [reflexivity|]); [exact H| |]; split; congruence. Qed.
(** what a retrieval does not touch until its end *)
Definition fk (x x' : ctx) : Prop := x_nego x' = x_nego x /\ x_peer_chain x' = x_peer_chain x /\ x_peer_root x' = x_peer_root x /\ x_cfg x' = x_cfg x.
Lemma fk_pre : preorder fk. Proof. split; unfold fk; [auto|intuition congruence]. Qed.
Lemma fk_keeps x x' : keeps x x' -> fk x x'. Proof. unfold keeps, fk. intros ->. repeat split; reflexivity. Qed.
Definition ft (x x' : ctx) : Prop := fk x x' /\ x_peer_temp x' = x_peer_temp x.
Lemma ft_pre : preorder ft. Proof. split; unfold ft, fk; [auto|intuition congruence]. Qed.
Lemma ft_keeps x x' : keeps x x' -> ft x x'. Proof. unfold keeps, ft, fk. intros ->. repeat split; reflexivity. Qed.
Lemma ft_send E sid s : rel ft (req_send_on E sid s). Proof. intros x r x' H. apply ft_keeps. exact (keeps_send_on _ _ _ _ _ _ H). Qed.
Lemma ft_recv E sid c : rel ft (req_recv_on E sid c). Proof. intros x r x' H. apply ft_keeps. exact (keeps_recv_on _ _ _ _ _ _ H). Qed.
Lemma ft_on_sess {A} id (m : st session A) : rel ft (on_sess id m). Proof. intros x r x' H. apply ft_keeps. exact (keeps_on_sess _ _ _ _ _ H). Qed.
Ltac ftm := apply rel_mod; intro; repeat split; reflexivity.
Lemma ft_error_main {A} sid b : rel ft (@error_main A sid b).
Proof. unfold error_main, simple_error. rl ft_pre; try apply ft_on_sess; try ftm. Qed.
Lemma ft_append_m1m2 cr e m : rel ft (append_m1m2 cr e m).
Proof. intros x r x' H. unfold append_m1m2 in H. destruct (x_m1m2 x); [|destruct (hash_ok _ _)]; match type of H with (_, ?z) = _ => replace x' with z by congruence end; repeat split; reflexivity. Qed.
Lemma ft_append_b E sid s u : rel ft (append_b_both E sid s u).
Proof. unfold append_b_both, append_b. rl ft_pre; apply ft_append_m1m2. Qed.

Lemma handle_cases E sid slot total offset want s b x r x' t : handle_certificate_rsp E sid slot total offset want s b x = (r, x') ->
  x_peer_temp x = Some t -> len t = offset -> want <= 512 ->
  fk x x' /\ (exists t', x_peer_temp x' = Some t' /\ (t' = t \/ len t' < 4096)) /\
  (forall p, r = Ok p -> exists part, is_certificate (ver x) slot part (snd p) b /\ len part = fst p /\ len part <= want /\ x_peer_temp x' = Some (t ++ part) /\
     offset + fst p + snd p < 4096 /\ (total = 0 \/ total = offset + fst p + snd p)).
Proof.
  intros H T Lt W. unfold handle_certificate_rsp, on_response in H. rewrite bind_get in H.
  assert (Same : forall y, y = x -> fk x y /\ (exists t', x_peer_temp y = Some t' /\ (t' = t \/ len t' < 4096))). { intros y ->. split; [apply fk_pre|eauto]. }
  destruct (read_header b) as [[h rr]|] eqn:Rh; [|split; [apply Same|split; [apply Same|intros]]; unfold serr in H; congruence].
  destruct (N.eqb_spec (h_version h) (ver x)) as [Hv|]; cbn [negb] in H; [|split; [apply Same|split; [apply Same|intros]]; unfold serr in H; congruence].
  unfold on_code in H. destruct (N.eqb_spec (h_code h) RC_CERTIFICATE) as [Hc|].
  2:{ destruct (h_code h =? RC_ERROR); [|split; [apply Same|split; [apply Same|intros]]; unfold serr in H; congruence].
      assert (K := ft_error_main _ _ _ _ _ H). destruct K as [K1 K2]. split; [exact K1|]. split; [rewrite K2; eauto|]. intros p ->. destruct (error_main_ok _ _ _ _ _ H). }
  apply read_header_some in Rh as ->. rewrite Hv, Hc in *. unfold reading in H. rewrite bind_rd in H.
  destruct (dec_cert_rsp rr) as [p rest| |] eqn:D; try (split; [apply Same|split; [apply Same|intros]]; unfold serr in H; congruence).
  rewrite bind_assert in H. destruct (offset <=? 4096) eqn:O4; [|split; [apply Same|split; [apply Same|intros]]; congruence].
  rewrite bind_fail in H. destruct (portion_ok slot total offset want p) eqn:Pk; cbn [negb] in H; [|split; [apply Same|split; [apply Same|intros]]; congruence].
  rewrite bind_get in H. rewrite T in H. rewrite bind_some, bind_mod in H.
  apply N.leb_le in O4. unfold portion_ok in Pk. apply andb_prop in Pk as [Pk Ps]. apply andb_prop in Pk as [Pk Pt]. apply andb_prop in Pk as [Pl Pr].
  apply Bool.negb_true_iff, Bool.orb_false_iff in Pl as [P1 P2]. apply N.ltb_ge in P1, P2. apply Bool.negb_true_iff, N.leb_gt in Pr. apply N.eqb_eq in Ps. apply Bool.orb_prop in Pt.
  assert (L5 : cr_portion p <= 512) by lia. destruct (cert_rsp_split _ _ _ D L5) as [Ic Lp]. apply (is_certificate_any _ (ver x)) in Ic. rewrite Ps in Ic. set (part := firstn (N.to_nat (cr_portion p)) (cr_data p)) in *.
  assert (Tp : pad_to (N.to_nat offset) (firstn (N.to_nat offset) t) = t).
  { rewrite firstn_all2 by (unfold len in Lt; lia). unfold pad_to. rewrite firstn_all2 by (unfold len in Lt; lia). replace (_ - _)%nat with 0%nat by (unfold len in Lt; lia). apply app_nil_r. }
  rewrite Tp in H. set (y := set_x_peer_temp (Some (t ++ part)) x) in *. destruct (sbind_any _ _ _ _ _ H) as (q & z & A & K). assert (F := ft_append_b _ _ _ _ _ _ _ A). destruct F as [F1 F2].
  assert (Fy : fk x z). { apply (proj2 fk_pre x y z); [repeat split; reflexivity|exact F1]. }
  assert (Ty : x_peer_temp z = Some (t ++ part)) by (rewrite F2; reflexivity).
  assert (x' = z) as -> by (destruct q; [apply ret_inv in K as [_ K]| |]; intuition congruence).
  split; [exact Fy|]. split; [exists (t ++ part); split; [exact Ty|right; rewrite len_app; lia]|].
  intros p0 ->. destruct q as [u| |]; [|destruct K; discriminate|destruct K; discriminate]. apply ret_inv in K as [K _]. assert (p0 = (cr_portion p, cr_remainder p)) as -> by congruence. cbn [fst snd] in *.
  exists part. split; [exact Ic|]. split; [exact Lp|]. split; [lia|]. split; [exact Ty|]. split; [lia|]. destruct Pt as [Pt|Pt]; apply N.eqb_eq in Pt; lia.
Qed.
Definition small (x : ctx) : Prop := exists t, x_peer_temp x = Some t /\ len t < 4096.
Lemma partial_cases E sid slot total offset want x r x' t : get_certificate_partial E sid slot total offset want x = (r, x') ->
  x_peer_temp x = Some t -> len t = offset -> offset < 4096 -> want <= 512 ->
  fk x x' /\ small x' /\
  (forall p, r = Ok p -> exists part, part_fetched E sid slot offset want x x' part (snd p) /\ len part = fst p /\ x_peer_temp x' = Some (t ++ part) /\
     offset + fst p + snd p < 4096 /\ (total = 0 \/ total = offset + fst p + snd p)).
Proof.
  intros H T Lt L4 W. assert (H0 := H). unfold get_certificate_partial in H. rewrite bind_get in H.
  assert (Sx : small x) by (exists t; split; [exact T|lia]).
  apply sbind_any in H as (q1 & x1 & P1 & H). assert (F1 := rel_req_enc _ ft_pre _ _ _ _ P1). assert (Q1 := rel_req_enc _ quiet_pre _ _ _ _ P1).
  destruct q1 as [s| |]; [|destruct H as [-> ->]; split; [apply F1|split; [destruct F1 as [_ F1]; unfold small; rewrite F1; exact Sx|discriminate]]..].
  apply sbind_any in H as (q2 & x2 & P2 & H). assert (F2 := proj2 ft_pre _ _ _ F1 (ft_send _ _ _ _ _ _ P2)).
  destruct q2 as [u| |]; [|destruct H as [-> ->]; split; [apply F2|split; [destruct F2 as [_ F2]; unfold small; rewrite F2; exact Sx|discriminate]]..].
  apply sbind_any in H as (q3 & x3 & P3 & H). assert (F3 := proj2 ft_pre _ _ _ F2 (ft_recv _ _ _ _ _ _ P3)).
  destruct q3 as [b| |]; [|destruct H as [-> ->]; split; [apply F3|split; [destruct F3 as [_ F3]; unfold small; rewrite F3; exact Sx|discriminate]]..].
  destruct F3 as [F3 T3]. assert (Hc := handle_cases _ _ _ _ _ _ _ _ _ _ _ t H ltac:(congruence) Lt W). destruct Hc as (K1 & (t' & K2 & K3) & K4).
  split; [exact (proj2 fk_pre _ _ _ F3 K1)|]. split; [exists t'; split; [exact K2|destruct K3 as [->|]; lia]|].
  intros p ->. destruct (K4 p eq_refl) as (part & I1 & I2 & I3 & I4 & I5 & I6). exists part. split; [|auto].
  assert (Vx : ver x3 = ver x) by (unfold ver; destruct F3 as [F3 _]; congruence). rewrite Vx in I1. exists b. split; [|auto].
  apply get_cert_wire in P1 as <-. eapply exchanged_by; [exact Q1|exact P2|apply quiet_pre|exact P3|exact (quiet_handle_certificate _ _ _ _ _ _ _ _ _ _ _ H)].
Qed.

(** ** the loop *)
Lemma concat_snoc (l : list bytes) p : concat (l ++ [p]) = concat l ++ p.
Proof. rewrite concat_app. cbn [concat]. rewrite app_nil_r. reflexivity. Qed.
Lemma fetching_bound E sid slot x0 parts left x : fetching E sid slot x0 parts left x -> len (concat parts) + left < 4096.
Proof. induction 1; [cbn [concat]; rewrite app_nil_r; lia|rewrite concat_snoc, len_app; lia]. Qed.
Lemma loop_cases E sid slot x0 fuel : forall parts left total x r x', fetching E sid slot x0 parts left x -> x_peer_temp x = Some (concat parts) ->
  total = len (concat parts) + left ->
  certificate_loop E sid slot fuel total (len (concat parts)) (N.min left 512) x = (r, x') ->
  fk x x' /\ small x' /\
  (forall n, r = Ok (Some n) -> exists parts', fetching E sid slot x0 parts' 0 x' /\ x_peer_temp x' = Some (concat parts') /\ n = len (concat parts')) /\
  (r = Ok None -> exists parts' left', fetching E sid slot x0 parts' left' x' /\ left' <> 0 /\ length parts' = (length parts + fuel)%nat).
Proof.
  induction fuel as [|fuel IH]; intros parts left total x r x' F T Tot H; cbn [certificate_loop] in H; assert (Bd := fetching_bound _ _ _ _ _ _ _ F).
  - destruct (N.eqb_spec (N.min left 512) 0) as [Z|Z]; apply ret_inv in H as [-> ->]; (split; [apply fk_pre|]); (split; [exists (concat parts); split; [exact T|lia]|]).
    + assert (left = 0) as -> by lia. split; [|discriminate]. intros n Hn. exists parts. split; [exact F|]. split; [exact T|]. assert (n = total) by congruence. lia.
    + split; [discriminate|]. intros _. exists parts, left. split; [exact F|]. split; [lia|]. lia.
  - destruct (N.eqb_spec (N.min left 512) 0) as [Z|Z].
    { apply ret_inv in H as [-> ->]. split; [apply fk_pre|]. split; [exists (concat parts); split; [exact T|lia]|].
      assert (left = 0) as -> by lia. split; [|discriminate]. intros n Hn. exists parts. split; [exact F|]. split; [exact T|]. assert (n = total) by congruence. lia. }
    apply sbind_any in H as (q & z & P & H). assert (Pc := partial_cases _ _ _ _ _ _ _ _ _ _ P T eq_refl ltac:(lia) ltac:(lia)). destruct Pc as (K1 & K2 & K3).
    destruct q as [[pl pr]| |]; [|destruct H as [-> ->]; split; [exact K1|split; [exact K2|split; discriminate]]..].
    destruct (K3 _ eq_refl) as (part & G1 & G2 & G3 & G4 & G5). cbn [fst snd] in *.
    assert (Tz : total =? 0 = false) by (apply N.eqb_neq; lia). rewrite Tz in H.
    assert (F' : fetching E sid slot x0 (parts ++ [part]) pr z). { eapply f_next; [exact F| |exact G1|]; lia. }
    replace (len (concat parts) + pl) with (len (concat (parts ++ [part]))) in H by (rewrite concat_snoc, len_app; lia).
    specialize (IH (parts ++ [part]) pr total z r x' F' ltac:(rewrite concat_snoc; exact G3) ltac:(rewrite concat_snoc, len_app; lia) H).
    destruct IH as (I1 & I2 & I3 & I4). split; [exact (proj2 fk_pre _ _ _ K1 I1)|]. split; [exact I2|]. split; [exact I3|].
    intro N. destruct (I4 N) as (ps & l' & J1 & J2 & J3). exists ps, l'. split; [exact J1|]. split; [exact J2|]. rewrite app_length in J3. cbn [length] in J3. lia.
Qed.

(** ** the whole retrieval *)
Lemma part_fetched_quiet E sid slot o w x y z z' part left : quiet x y -> ver y = ver x -> quiet z z' ->
  part_fetched E sid slot o w y z part left -> part_fetched E sid slot o w x z' part left.
Proof.
  intros [Q1 Q2] V [Q3 Q4] (b & (t & f & X1 & X2 & X3 & X4 & X5 & X6) & I & L). exists b. rewrite V in *. split; [|auto].
  exists t, f. rewrite Q1, Q2 in *. rewrite Q3, Q4. auto 10.
Qed.
Lemma fetching_quiet E sid slot x0 parts left x y : quiet x y -> fetching E sid slot x0 parts left x -> fetching E sid slot x0 parts left y.
Proof.
  intros Q H. destruct H as [part left x' P L|parts left part left' x x' F N P L].
  - apply f_first; [|exact L]. exact (part_fetched_quiet _ _ _ _ _ _ _ _ _ _ _ (proj1 quiet_pre _) eq_refl Q P).
  - apply (f_next _ _ _ _ parts left part left' x y F N); [|exact L]. exact (part_fetched_quiet _ _ _ _ _ _ _ _ _ _ _ (proj1 quiet_pre _) eq_refl Q P).
Qed.
Lemma fetching_start_quiet E sid slot x y parts left z : quiet x y -> ver y = ver x -> fetching E sid slot y parts left z -> fetching E sid slot x parts left z.
Proof.
  intros Q V H. induction H.
  - apply f_first; [|assumption]. eapply part_fetched_quiet; [exact Q|exact V|apply (proj1 quiet_pre)|eassumption].
  - eapply f_next; eassumption.
Qed.
Lemma quiet_reset_buffer c sid x : quiet x (reset_buffer c sid x).
Proof.
  unfold reset_buffer. cbv zeta. apply (proj2 quiet_pre _ (if c =? RC_GET_MEASUREMENTS then x else reset_m sid x)).
  - destruct (_ =? _); [apply quiet_pre|apply quiet_reset_m].
  - set (y := if c =? RC_GET_MEASUREMENTS then x else reset_m sid x). clearbody y.
    destruct (existsb _ _); [destruct (_ <? _)|destruct (_ =? _)]; first [apply quiet_pre|split; reflexivity].
Qed.
Lemma fk_reset_m sid x : fk x (reset_m sid x). Proof. destruct sid; repeat split; reflexivity. Qed.
Lemma fk_reset_buffer c sid x : fk x (reset_buffer c sid x).
Proof.
  unfold reset_buffer. cbv zeta. apply (proj2 fk_pre _ (if c =? RC_GET_MEASUREMENTS then x else reset_m sid x)).
  - destruct (_ =? _); [apply fk_pre|apply fk_reset_m].
  - set (y := if c =? RC_GET_MEASUREMENTS then x else reset_m sid x). clearbody y.
    destruct (existsb _ _); [destruct (_ <? _)|destruct (_ =? _)]; first [apply fk_pre|repeat split; reflexivity].
Qed.
Lemma retrieval_cases E fuel sid slot x r x' : get_certificate E fuel sid slot x = (r, x') ->
  x_nego x' = x_nego x /\ x_peer_root x' = x_peer_root x /\ x_cfg x' = x_cfg x /\
  (slot < 8 -> forall t, x_peer_temp x' = Some t -> len t < 4096) /\
  match r with
  | Ok (Some _) => slot < 8 /\ x_peer_temp x' = None /\ exists parts, fetching E sid slot x parts 0 x' /\
      verify_chain (e_cr E) (n_hash (x_nego x)) (x_peer_root x) (concat parts) = Ok tt /\
      x_peer_chain x' = set_slot (N.to_nat slot) (Some (concat parts)) (x_peer_chain x)
  | Ok None => x_peer_chain x' = x_peer_chain x /\ (fuel = 0%nat \/ exists parts left, fetching E sid slot x parts left x' /\ left <> 0 /\ length parts = fuel)
  | _ => x_peer_chain x' = x_peer_chain x
  end.
Proof.
  intro H. unfold get_certificate in H. rewrite bind_fail in H. destruct (N.leb_spec 8 slot) as [S8|S8].
  { assert (x' = x) as -> by congruence. assert (r = Err ST_INVALID_STATE_LOCAL) as -> by congruence. repeat (split; [reflexivity|]). split; [intros; lia|reflexivity]. }
  rewrite bind_mod, bind_mod in H. set (y := set_x_peer_temp (Some []) (reset_buffer RC_GET_CERTIFICATE sid x)) in *.
  assert (Qy : quiet x y). { apply (proj2 quiet_pre _ (reset_buffer RC_GET_CERTIFICATE sid x)); [apply quiet_reset_buffer|split; reflexivity]. }
  assert (Fy : fk x y). { apply (proj2 fk_pre _ (reset_buffer RC_GET_CERTIFICATE sid x)); [apply fk_reset_buffer|repeat split; reflexivity]. }
  assert (Ty : x_peer_temp y = Some []) by reflexivity. clearbody y.
  apply sbind_any in H as (q & z & P & H).
  assert (Lp : fk y z /\ small z /\
    (forall n, q = Ok (Some n) -> exists parts', fetching E sid slot x parts' 0 z /\ x_peer_temp z = Some (concat parts') /\ n = len (concat parts')) /\
    (q = Ok None -> fuel = 0%nat \/ exists parts' left', fetching E sid slot x parts' left' z /\ left' <> 0 /\ length parts' = fuel)).
  { destruct fuel as [|fuel]; cbn [certificate_loop] in P; change (512 =? 0) with false in P; cbv beta iota in P.
    { apply ret_inv in P as [-> ->]. split; [apply fk_pre|]. split; [exists []; split; [exact Ty|reflexivity]|]. split; [discriminate|auto]. }
    apply sbind_any in P as (q1 & z1 & P1 & P). assert (Pc := partial_cases _ _ _ _ _ _ _ _ _ _ P1 Ty eq_refl ltac:(lia) ltac:(lia)). destruct Pc as (K1 & K2 & K3).
    destruct q1 as [[pl pr]| |]; [|destruct P as [-> ->]; split; [exact K1|split; [exact K2|split; discriminate]]..].
    destruct (K3 _ eq_refl) as (part & G1 & G2 & G3 & G4 & _). cbn [fst snd app] in *. change (0 =? 0) with true in P. cbv beta iota in P.
    assert (F' : fetching E sid slot x [part] pr z1).
    { apply (fetching_start_quiet E sid slot x y); [exact Qy|unfold ver; destruct Fy as [Fy _]; congruence|]. apply f_first; [exact G1|lia]. }
    assert (Lc : 0 + pl = len (concat [part])) by (cbn [concat]; rewrite app_nil_r; lia). rewrite Lc in P.
    assert (Lc2 : pl + pr = len (concat [part]) + pr) by lia. rewrite Lc2 in P.
    assert (Tc : x_peer_temp z1 = Some (concat [part])) by (cbn [concat]; rewrite app_nil_r; exact G3).
    destruct (loop_cases _ _ _ _ _ _ _ _ _ _ _ F' Tc eq_refl P) as (I1 & I2 & I3 & I4). split; [exact (proj2 fk_pre _ _ _ K1 I1)|]. split; [exact I2|]. split; [exact I3|].
    intro N. right. destruct (I4 N) as (ps & l' & J1 & J2 & J3). exists ps, l'. auto. }
  destruct Lp as (F1 & (t0 & T0 & L0) & L1 & L2). assert (Fz := proj2 fk_pre _ _ _ Fy F1). destruct Fz as (Z1 & Z2 & Z3 & Z4).
  assert (Tz : forall t, x_peer_temp z = Some t -> len t < 4096) by (intros t Ht; assert (t = t0) by congruence; subst; exact L0).
  destruct q as [[n|]| |].
  2:{ apply ret_inv in H as [-> ->]. repeat (split; [assumption|]). split; [auto|]. split; [exact Z2|]. destruct (L2 eq_refl) as [Hf|Hf]; [left; exact Hf|right; exact Hf]. }
  2:{ destruct H as [-> ->]. repeat (split; [assumption|]). split; [auto|exact Z2]. }
  2:{ destruct H as [-> ->]. repeat (split; [assumption|]). split; [auto|exact Z2]. }
  destruct (L1 n eq_refl) as (parts & F & Tp & ->). destruct (len (concat parts) =? 0).
  { unfold sbind, smod, serr in H. assert (x' = set_x_peer_temp None z) as -> by congruence. assert (r = Err ST_INVALID_CERT) as -> by congruence.
    repeat (split; [assumption|]). split; [discriminate|exact Z2]. }
  rewrite bind_get, Tp, bind_some in H. rewrite Z1, Z3 in H. destruct (verify_chain (e_cr E) (n_hash (x_nego x)) (x_peer_root x) (concat parts)) as [[]|e|] eqn:V.
  - rewrite bind_mod in H. apply ret_inv in H as [-> ->]. repeat (split; [assumption|]). split; [discriminate|]. split; [exact S8|]. split; [reflexivity|].
    exists parts. split; [|split; [exact V|]]. 2:{ cbn [x_peer_chain set_x_peer_temp set_x_peer_chain]. rewrite Z2. reflexivity. }
    apply (fetching_quiet E sid slot x parts 0 z); [split; reflexivity|exact F].
  - unfold sbind, smod, serr in H. assert (x' = set_x_peer_temp None z) as -> by congruence. assert (r = Err e) as -> by congruence. repeat (split; [assumption|]). split; [discriminate|exact Z2].
  - unfold spanic in H. assert (x' = z) as -> by congruence. assert (r = Panic) as -> by congruence. repeat (split; [assumption|]). split; [auto|exact Z2].
Qed.

(** ** C36 *)
(** Whatever the responder answers: the buffer never holds 4096 bytes or more; a retrieval that
    succeeds consisted of exchanges whose lengths agree with each other ([fetching]), and any other
    leaves the stored chains alone. *)
Theorem C36_retrieval : forall E fuel sid slot x r x', get_certificate E fuel sid slot x = (r, x') -> slot < 8 ->
  (forall t, x_peer_temp x' = Some t -> len t < 4096) /\
  match r with
  | Ok (Some _) => exists parts, fetching E sid slot x parts 0 x' /\ len (concat parts) < 4096
  | _ => x_peer_chain x' = x_peer_chain x
  end.
Proof.
  intros E fuel sid slot x r x' H S8. destruct (retrieval_cases _ _ _ _ _ _ _ H) as (_ & _ & _ & T & K). split; [exact (T S8)|].
  destruct r as [[u|]| |]; [|apply K|exact K|exact K]. destruct K as (_ & _ & parts & F & _). exists parts. split; [exact F|]. apply fetching_bound in F. lia.
Qed.
Print Assumptions C36_retrieval.
Lemma concat_length_le (l : list bytes) : ~ In [] l -> (length l <= length (concat l))%nat.
Proof. induction l as [|[|a p] l IH]; cbn [In concat length]; intro H; [lia|destruct H; auto|]. rewrite app_length. cbn [length]. assert (~ In [] l) by auto. specialize (IH H0). lia. Qed.
(** It can only go on for 4096 exchanges if a portion was empty. *)
Theorem C36_ends_if_portions_are_not_empty : forall E fuel sid slot x x', get_certificate E fuel sid slot x = (Ok None, x') -> (4096 <= fuel)%nat ->
  exists parts left, fetching E sid slot x parts left x' /\ In [] parts.
Proof.
  intros E fuel sid slot x x' H L. destruct (retrieval_cases _ _ _ _ _ _ _ H) as (_ & _ & _ & _ & _ & [->|(parts & left & F & N & Lp)]); [lia|].
  exists parts, left. split; [exact F|]. destruct (in_dec (list_eq_dec N.eq_dec) [] parts) as [I|I]; [exact I|exfalso].
  apply concat_length_le in I. apply fetching_bound in F. unfold len in F. lia.
Qed.
Print Assumptions C36_ends_if_portions_are_not_empty.

(** ** C37 *)
Theorem C37_stored_chain : forall E fuel sid slot x x', get_certificate E fuel sid slot x = (Ok (Some tt), x') ->
  length (x_peer_chain x) = 8%nat ->
  slot < 8 /\ exists parts, fetching E sid slot x parts 0 x' /\
    acceptable_chain (e_cr E) (n_hash (x_nego x)) (x_peer_root x) (concat parts) /\
    slot_of (x_peer_chain x') slot = Some (concat parts) /\
    (forall i, i <> slot -> slot_of (x_peer_chain x') i = slot_of (x_peer_chain x) i).
Proof.
  intros E fuel sid slot x x' H L8. destruct (retrieval_cases _ _ _ _ _ _ _ H) as (_ & _ & _ & _ & S8 & _ & parts & F & V & C).
  split; [exact S8|]. exists parts. split; [exact F|]. split; [apply C37_accepted_chains; exact V|]. rewrite C. unfold slot_of.
  assert (G : forall n l v, (n < length l)%nat -> nth n (set_slot n v l) None = v /\ forall m, m <> n -> nth m (set_slot n v l) None = nth m l None).
  { clear. induction n as [|n IH]; intros [|a l] v L; cbn [length] in L; try lia; cbn [set_slot nth].
    - split; [reflexivity|]. intros [|m] Hm; [lia|reflexivity].
    - destruct (IH l v ltac:(lia)) as [I1 I2]. split; [exact I1|]. intros [|m] Hm; [reflexivity|]. apply I2. lia. }
  destruct (G (N.to_nat slot) (x_peer_chain x) (Some (concat parts)) ltac:(lia)) as [G1 G2]. split; [exact G1|]. intros i Hi. apply G2. lia.
Qed.
Print Assumptions C37_stored_chain.

(** so in every state the requester can be brought to, a stored chain was accepted as the chain of
    one of the slots, under the root certificate that is provisioned *)
Definition chains_ok (E : env) (x : ctx) : Prop := length (x_peer_chain x) = 8%nat /\
  forall i c, slot_of (x_peer_chain x) i = Some c -> exists hash, acceptable_chain (e_cr E) hash (x_peer_root x) c.
Lemma slot_of_repeat n i : slot_of (repeat None n) i = None.
Proof. unfold slot_of. generalize (N.to_nat i). induction n as [|n IH]; intros [|m]; cbn [repeat nth]; auto. Qed.
Lemma pk_chains_ok E x x' : pk x x' -> chains_ok E x -> chains_ok E x'.
Proof.
  intros [[C|C] R] [L A]; unfold chains_ok; rewrite C, R; [split; [exact L|exact A]|]. split; [reflexivity|]. intros i c H. rewrite slot_of_repeat in H. discriminate.
Qed.
Theorem C37_every_stored_chain_was_accepted : forall E x i c, reached E x -> slot_of (x_peer_chain x) i = Some c ->
  i < 8 /\ exists hash, acceptable_chain (e_cr E) hash (x_peer_root x) c.
Proof.
  intros E x i c R H. assert (K : chains_ok E x).
  { clear H i c. induction R as [cfg cd mc root|x o r x' R IH Ho Hr|x fuel sid slot r x' R IH Hg Hr].
    - split; [reflexivity|]. intros i c H. assert (Z : x_peer_chain (ctx_new cfg cd mc root) = repeat None 8) by reflexivity. rewrite Z, slot_of_repeat in H. discriminate.
    - exact (pk_chains_ok _ _ _ (run_pk _ _ _ _ _ Ho) IH).
    - destruct IH as [L A]. destruct (retrieval_cases _ _ _ _ _ _ _ Hg) as (_ & Rt & _ & _ & K).
      destruct r as [[[]|]| |].
      + destruct (C37_stored_chain _ _ _ _ _ _ Hg L) as (S8 & parts & F & Ac & S1 & S2). destruct K as (_ & _ & ps & _ & _ & C).
        split. { rewrite C. clear -L. revert L. generalize (x_peer_chain x) 8%nat. intro l. generalize (N.to_nat slot). induction l as [|a l IH]; intros [|n] m L; cbn [set_slot length] in *; auto. destruct m; [discriminate|]. f_equal. apply IH. congruence. }
        intros i c Hc. rewrite Rt. destruct (N.eq_dec i slot) as [->|Ni]; [exists (n_hash (x_nego x)); assert (c = concat parts) as -> by congruence; exact Ac|].
        rewrite S2 in Hc by exact Ni. exact (A i c Hc).
      + destruct K as [C _]. unfold chains_ok. rewrite C, Rt. split; assumption.
      + unfold chains_ok. rewrite K, Rt. split; assumption.
      + destruct Hr. reflexivity. }
  destruct K as [L A]. split; [|exact (A i c H)]. destruct (N.lt_ge_cases i 8) as [|G]; [assumption|]. unfold slot_of in H. rewrite nth_overflow in H by lia. discriminate.
Qed.
Print Assumptions C37_every_stored_chain_was_accepted.
