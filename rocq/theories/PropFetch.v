(** C35: against an honest responder the requester reassembles the chain. *)
From Verif Require Import Bytes BytesFacts Status Codec Parse ParseProofs Algo Monad.
From Verif Require Import MsgConn MsgAuth MsgSession MsgOther Message Opaque Transport TransportProofs Crypto KeySchedule Session Signing CertOps ChainVerify Context
  RspBase RspConn RspSess RspEncap Responder StRel RspFrame RspCalm RspOpcode RspPass RspEst ReqBase ReqConn ReqSess SpecReq ReqFrame ReqAnswer SpecSession SpecAuth ReqTrans ReqSplit ReqHist ReqAuth.
From Verif Require Import MsgLocal SpecDer X509Proofs PropCert PropAlgs MsgRound2 SpecRetr ReqChain PropRetr Pair.
From Coq Require Import Lia.
Local Open Scope N_scope.

(** ** the two transports carry messages *)
Lemma zbuf_length r : length (zbuf r) = N.to_nat r. Proof. unfold zbuf. apply fill_length. Qed.
Lemma carries_mctp : carries mctp_transport.
Proof.
  intros m _ L. unfold mctp_transport. cbn [tr_encap tr_decap].
  assert (L1 : (1 + length m <= length (zbuf BUFFER_SIZE))%nat) by (rewrite zbuf_length; change (N.to_nat BUFFER_SIZE) with 4160%nat; unfold len in L; lia).
  assert (L2 : (length m <= length (zbuf MAX_SPDM_MSG_SIZE))%nat) by (rewrite zbuf_length; change (N.to_nat MAX_SPDM_MSG_SIZE) with 4096%nat; unfold len in L; lia).
  destruct (mctp_roundtrip m (zbuf BUFFER_SIZE) (zbuf MAX_SPDM_MSG_SIZE) false L1 L2) as (tb & H1 & H2 & _ & H3).
  destruct (mctp_roundtrip m (zbuf BUFFER_SIZE) (zbuf BUFFER_SIZE) false L1 ltac:(lia)) as (tb' & H1' & _ & _ & H3'). assert (tb' = tb) as -> by congruence.
  exists (firstn (1 + length m) tb), [], []. rewrite app_nil_r, H1. unfold took, took2. cbn [fst snd obind]. split; [reflexivity|]. split; [unfold len in *; rewrite firstn_length; change BUFFER_SIZE with 4160; lia|].
  split; [auto|]. rewrite H3, H3'. cbn [fst snd obind]. rewrite !firstn_app_exact by reflexivity. auto.
Qed.
Lemma zbuf_ok r : bytes_ok (zbuf r). Proof. unfold zbuf. apply bytes_ok_fill. reflexivity. Qed.
Lemma carries_doe : carries doe_transport.
Proof.
  intros m B L. unfold doe_transport. cbn [tr_encap tr_decap]. set (padded := doe_align (length m)).
  assert (Lp : (length m <= padded < length m + 4)%nat).
  { unfold padded, doe_align. assert (D := Nat.div_mod (length m + 3) 4 ltac:(lia)). assert (M := Nat.mod_upper_bound (length m + 3) 4 ltac:(lia)). lia. }
  assert (L0 : N.of_nat padded + 8 <= 2 ^ 20) by (change (2 ^ 20) with 1048576; unfold len in L; lia).
  assert (L1 : (8 + padded <= length (zbuf BUFFER_SIZE))%nat) by (rewrite zbuf_length; change (N.to_nat BUFFER_SIZE) with 4160%nat; unfold len in L; lia).
  assert (L2 : (padded <= length (zbuf MAX_SPDM_MSG_SIZE))%nat) by (rewrite zbuf_length; change (N.to_nat MAX_SPDM_MSG_SIZE) with 4096%nat; unfold len in L; lia).
  assert (L3 : (padded <= length (zbuf BUFFER_SIZE))%nat) by lia.
  destruct (doe_roundtrip m (zbuf BUFFER_SIZE) (zbuf MAX_SPDM_MSG_SIZE) false B (zbuf_ok _) L0 L1 L2) as (tb & pad & H1 & H2 & _ & H4 & H3).
  destruct (doe_roundtrip m (zbuf BUFFER_SIZE) (zbuf BUFFER_SIZE) false B (zbuf_ok _) L0 L1 L3) as (tb' & pad' & H1' & _ & _ & H4' & H3'). fold padded in H1, H1', H3, H3', H4, H4'. assert (tb' = tb) as -> by congruence.
  exists (firstn (8 + padded) tb), pad, pad'. rewrite H1. unfold took, took2. cbn [fst snd obind]. split; [reflexivity|]. split; [unfold len in *; rewrite firstn_length; change BUFFER_SIZE with 4160; lia|].
  split. { intro M. assert (length m mod 4 = 0)%nat. { unfold len in M. apply Nat2N.inj. rewrite Nat2N.inj_mod by lia. exact M. } assert (padded = length m). { assert (D := Nat.div_mod (length m) 4 ltac:(lia)). rewrite H in D. assert (Dp : exists q, padded = (q * 4)%nat) by (unfold padded, doe_align; eauto). destruct Dp as [q Dp]. clearbody padded. clear H H1 H1' H3 H3' M. lia. } destruct pad; [destruct pad'; [auto|cbn [length] in H4'; lia]|cbn [length] in H4; lia]. }
  rewrite H3, H3'. cbn [fst snd obind]. rewrite (app_assoc m pad), (app_assoc m pad'). rewrite !firstn_app_exact by (rewrite app_length; lia). auto.
Qed.

(** ** the requester *)
Lemma req_enc_fwd m w x : xwire (enc_message (xc x) m) = Some w -> xcount (enc_message (xc x) m) = len w -> len w <= 4096 -> req_enc m x = (Ok w, x).
Proof.
  intros W C L. unfold req_enc. rewrite bind_get. unfold sbind at 1. unfold wenc.
  assert (Em : emit (enc_message (xc x) m) [] = Some (true, w)). { apply (emit_fits _ [] w W). rewrite len_nil. exact L. }
  rewrite Em. cbn [fst snd negb]. rewrite bind_fail. cbv zeta. rewrite bind_assert, C. change MAX_SPDM_MSG_SIZE with 4096. rewrite (proj2 (N.leb_le _ _) L).
  unfold sret. f_equal. f_equal. unfold len in *. rewrite Nat2N.id. apply pad_to_firstn. change (N.to_nat 4096) with 4096%nat. lia.
Qed.

Lemma xget_cert x slot offset want : xwire (enc_message (xc x) (get_cert_msg x slot offset want)) = Some (get_certificate_bytes (ver x) slot offset want) /\
  xcount (enc_message (xc x) (get_cert_msg x slot offset want)) = len (get_certificate_bytes (ver x) slot offset want).
Proof.
  split; [|reflexivity]. unfold get_cert_msg, enc_message, enc_header, enc_payload, enc_get_cert. cbn [m_header m_payload h_version h_code gc_slot gc_offset gc_length].
  rewrite !xwire_app, !PropAlgs.xw8, !PropAlgs.xw16. reflexivity.
Qed.
Lemma slice_len chain o w : o <= len chain -> len (slice_of chain o w) = N.min (N.min w 512) (len chain - o).
Proof. intro H. unfold slice_of, len in *. rewrite firstn_length, skipn_length. lia. Qed.
Lemma dec_certificate v slot part left pad : len part <= 512 -> left < 65536 ->
  exists d, dec_cert_rsp (skipn 2 (certificate_bytes v slot part left ++ pad)) = POk (mkCertRsp slot (len part) left d) pad /\ firstn (N.to_nat (len part)) d = part.
Proof.
  intros L1 L2. exists (pad_to 512 part). split.
  - unfold certificate_bytes. cbn [app skipn]. unfold dec_cert_rsp. rewrite <- !app_assoc.
    do 2 (unfold dbind at 1; rewrite MsgRound2.d_u8_cons). unfold dbind at 1. rewrite MsgRound2.d_u16_le by lia. unfold dbind at 1. rewrite MsgRound2.d_u16_le by lia.
    unfold dbind. assert (P : padded 512 (len part) (pad_to 512 part)). { exists part. unfold len. split; [lia|]. split; [unfold len in L1; lia|reflexivity]. }
    assert (F : firstn (N.to_nat (len part)) (pad_to 512 part) = part). { unfold len in *. rewrite Nat2N.id. apply pad_to_firstn. lia. }
    assert (D := d_fixed_app 512 (len part) (pad_to 512 part) pad P). rewrite F in D. change MAX_CERT_PORTION with 512%nat. rewrite D. reflexivity.
  - unfold len in *. rewrite Nat2N.id. apply pad_to_firstn. lia.
Qed.

(** what the retrieval needs of the requester's state *)
Definition can_hash (cr : crypto) (x : ctx) : Prop := x_m1m2 x <> None \/ hash_ok cr (n_hash (x_nego x)) = true.
Definition can_send (x : ctx) (n : N) : Prop := n_rsp_dts (x_nego x) = 0 \/ n <= n_rsp_dts (x_nego x).
Lemma append_b_fwd E s u x : can_hash (e_cr E) x -> exists x', append_b_both E None s u x = (Ok tt, x') /\ ft x x' /\ quiet x x' /\ can_hash (e_cr E) x'.
Proof.
  intro C. unfold append_b_both, append_b. unfold append_m1m2 at 1. destruct (x_m1m2 x) as [d|] eqn:M.
  - unfold sbind. rewrite M. unfold append_m1m2. cbn [x_m1m2 set_x_m1m2]. eexists. split; [reflexivity|]. split; [repeat split; reflexivity|]. split; [split; reflexivity|]. left. discriminate.
  - destruct C as [C|C]; [congruence|]. unfold sbind. rewrite M, C. unfold append_m1m2. cbn [x_m1m2 set_x_m1m2]. eexists. split; [reflexivity|]. split; [repeat split; reflexivity|]. split; [split; reflexivity|]. left. discriminate.
Qed.
Lemma ft_trans x y z : ft x y -> ft y z -> ft x z. Proof. apply ft_pre. Qed.
Lemma fetch_step E slot chain sent0 asked total o w x t :
  serves E (ver x) slot chain sent0 -> (forall i f, e_send E i f = None) -> Forall (asks (e_tr E) (ver x) slot chain) asked -> x_sent x = asked ++ sent0 ->
  tr_encap (e_tr E) BUFFER_SIZE (get_certificate_bytes (ver x) slot o w) false = Ok t ->
  can_hash (e_cr E) x -> can_send x 8 -> x_peer_temp x = Some (firstn (N.to_nat o) chain) ->
  o < len chain < 4096 -> 0 < w <= 512 -> (total = 0 \/ total = len chain) ->
  exists x', get_certificate_partial E None slot total o w x =
      (Ok (len (slice_of chain o w), len chain - o - len (slice_of chain o w)), x') /\
    fk x x' /\ can_hash (e_cr E) x' /\ x_sent x' = t :: x_sent x /\ x_peer_temp x' = Some (firstn (N.to_nat (o + len (slice_of chain o w))) chain).
Proof.
  intros Sv Sn Fa Xs Te Ch Cs Tp Lo Lw Tt. unfold get_certificate_partial. rewrite bind_get. destruct (xget_cert x slot o w) as [W1 W2].
  unfold sbind at 1. rewrite (req_enc_fwd _ _ _ W1 W2 ltac:(cbn; lia)). set (s := get_certificate_bytes (ver x) slot o w) in *. assert (Ls : len s = 8) by reflexivity.
  unfold sbind at 1. cbn [req_send_on req_recv_on]. unfold req_send. rewrite bind_get, bind_fail. unfold req_too_large. rewrite Ls.
  assert (TL : negb (n_rsp_dts (x_nego x) =? 0) && (n_rsp_dts (x_nego x) <? 8) = false).
  { destruct Cs as [Cs|Cs]; [rewrite Cs; reflexivity|]. apply Bool.andb_false_iff. right. apply N.ltb_ge. exact Cs. } rewrite TL.
  rewrite Te. unfold sbind at 1, sof. unfold io_send. rewrite Sn. set (x1 := set_x_sent _ _).
  assert (X1 : x_sent x1 = t :: asked ++ sent0) by (cbn; rewrite Xs; reflexivity).
  assert (F1 : ft x x1) by (repeat split; reflexivity). assert (C1 : can_hash (e_cr E) x1) by exact Ch.
  unfold sbind at 1. unfold req_recv, req_timeout. unfold sbind at 1. rewrite bind_get. cbn [negb orb]. unfold sassert, sret at 1. unfold sbind at 1, io_recv. rewrite X1.
  destruct (Sv asked (x_io x1) o w t Fa ltac:(lia) Lw Te) as (f & pad & R1 & R2 & R3). rewrite R1, (proj2 (N.ltb_ge _ _)) by exact R2. rewrite bind_some.
  unfold decap. rewrite R3. unfold sbind at 1, sof. cbn [fst snd]. unfold sret at 1. set (x2 := set_x_io _ _).
  assert (F2 : ft x x2) by (repeat split; reflexivity). assert (C2 : can_hash (e_cr E) x2) by exact Ch. assert (X2 : x_sent x2 = t :: x_sent x) by reflexivity.
  assert (V2 : ver x2 = ver x) by reflexivity. assert (T2 : x_peer_temp x2 = Some (firstn (N.to_nat o) chain)) by (destruct F2 as [_ F2]; congruence).
  clearbody x2. clear F1 C1 X1 x1 R1 R2 R3 Sv TL. clearbody s.
  set (sl := slice_of chain o w) in *. assert (Lsl : len sl = N.min (N.min w 512) (len chain - o)) by (apply slice_len; lia). set (left := len chain - o - len sl).
  unfold handle_certificate_rsp, on_response. rewrite bind_get, V2.
  assert (Rh : read_header (certificate_bytes (ver x) slot sl left ++ pad) = Some (mkHeader (ver x) 2, skipn 2 (certificate_bytes (ver x) slot sl left ++ pad))) by reflexivity.
  rewrite Rh. cbn [h_version h_code]. rewrite N.eqb_refl. cbn [negb]. unfold on_code. cbn [h_code]. change (2 =? RC_CERTIFICATE) with true. cbv beta iota.
  unfold reading. rewrite bind_rd. destruct (dec_certificate (ver x) slot sl left pad) as (d & D & Fd); [lia|unfold left; lia|]. rewrite D.
  rewrite bind_assert, (proj2 (N.leb_le _ _)) by lia. rewrite bind_fail. unfold portion_ok. cbn [cr_portion cr_remainder cr_slot cr_data].
  assert (Pk : negb ((w <? len sl) || (4096 - o <? len sl)) && negb (4096 - o - len sl <=? left) && ((total =? 0) || (total =? o + len sl + left)) && (slot =? slot) = true).
  { rewrite N.eqb_refl, Bool.andb_true_r. apply andb_true_intro; split; [apply andb_true_intro; split|].
    - apply Bool.negb_true_iff, Bool.orb_false_iff. split; apply N.ltb_ge; lia.
    - apply Bool.negb_true_iff, N.leb_gt. unfold left. lia.
    - apply Bool.orb_true_intro. destruct Tt as [->| ->]; [left; reflexivity|right]. apply N.eqb_eq. unfold left. lia. }
  rewrite Pk. cbn [negb]. rewrite bind_get, T2, bind_some, bind_mod. rewrite Fd.
  assert (Tn : pad_to (N.to_nat o) (firstn (N.to_nat o) (firstn (N.to_nat o) chain)) ++ sl = firstn (N.to_nat (o + len sl)) chain).
  { rewrite firstn_firstn, Nat.min_id. assert (Lf : length (firstn (N.to_nat o) chain) = N.to_nat o) by (rewrite firstn_length; unfold len in Lo; lia).
    unfold pad_to. rewrite firstn_firstn, Nat.min_id, Lf, Nat.sub_diag. cbn [fill repeat]. rewrite app_nil_r.
    assert (Sl2 : sl = firstn (N.to_nat (len sl)) (skipn (N.to_nat o) chain)).
    { unfold len. rewrite Nat2N.id. unfold sl at 2, slice_of. rewrite firstn_length. unfold sl, slice_of.
      destruct (Nat.min_spec (N.to_nat (N.min w 512)) (length (skipn (N.to_nat o) chain))) as [[_ ->]|[H ->]]; [reflexivity|]. rewrite firstn_all. apply firstn_all2. exact H. }
    rewrite Sl2 at 1. replace (N.to_nat (o + len sl)) with (N.to_nat o + N.to_nat (len sl))%nat by lia. apply firstn_skipn_slice. }
  rewrite Tn. set (x3 := set_x_peer_temp _ x2). destruct (append_b_fwd E s (used_of (certificate_bytes (ver x) slot sl left ++ pad) pad) x3) as (x4 & A1 & A2 & A3 & A4); [exact C2|].
  unfold sbind at 1. rewrite A1. exists x4. split; [reflexivity|]. destruct A2 as [A2 A2t]. destruct A3 as [A3 _]. destruct F2 as [F2 _].
  split; [apply (proj2 fk_pre _ x2); [exact F2|apply (proj2 fk_pre _ x3); [repeat split; reflexivity|exact A2]]|]. split; [exact A4|]. split; [rewrite A3; exact X2|]. rewrite A2t. reflexivity.
Qed.
Lemma get_certificate_bytes_ok v slot o w : v < 256 -> slot < 256 -> bytes_ok (get_certificate_bytes v slot o w).
Proof.
  intros V S. unfold get_certificate_bytes. apply bytes_ok_app. split; [repeat (constructor; [unfold byte_ok; lia|]); constructor|].
  apply bytes_ok_app. split; apply le_bytes_ok.
Qed.
Lemma encaps tr v slot o w : carries tr -> v < 256 -> slot < 256 -> exists t, tr_encap tr BUFFER_SIZE (get_certificate_bytes v slot o w) false = Ok t.
Proof. intros C V S. destruct (C _ (get_certificate_bytes_ok v slot o w V S)) as (t & _ & _ & H & _); [cbn; lia|]. eauto. Qed.
Lemma fetch_loop E slot chain sent0 v fuel : carries (e_tr E) -> v < 256 -> slot < 256 -> serves E v slot chain sent0 -> (forall i f, e_send E i f = None) -> len chain < 4096 ->
  forall asked total o w x, ver x = v -> Forall (asks (e_tr E) v slot chain) asked -> x_sent x = asked ++ sent0 ->
  can_hash (e_cr E) x -> can_send x 8 -> x_peer_temp x = Some (firstn (N.to_nat o) chain) -> o <= len chain -> 0 < len chain ->
  (total = 0 /\ o = 0 /\ w = 512 \/ total = len chain /\ w = N.min (len chain - o) 512) -> len chain - o <= 512 * N.of_nat fuel ->
  exists x', certificate_loop E None slot fuel total o w x = (Ok (Some (len chain)), x') /\ fk x x' /\ x_peer_temp x' = Some chain.
Proof.
  intros Ca Vv Sv Hs Sn Lc. induction fuel as [|fuel IH]; intros asked total o w x Vx Fa Xs Ch Cs Tp Lo Lc0 Inv Lf; cbn [certificate_loop].
  - assert (o = len chain) as -> by lia. destruct Inv as [(_ & Z & _)|(-> & ->)]; [lia|]. replace (N.min (len chain - len chain) 512) with 0 by lia. change (0 =? 0) with true. cbv beta iota.
    exists x. split; [reflexivity|]. split; [apply fk_pre|]. rewrite Tp. f_equal. unfold len. rewrite Nat2N.id. apply firstn_all.
  - destruct (N.eqb_spec w 0) as [W0|W0].
    { assert (o = len chain) as -> by (destruct Inv as [(_ & _ & ->)|(-> & ->)]; lia). destruct Inv as [(_ & Z & _)|(-> & _)]; [lia|].
      exists x. split; [reflexivity|]. split; [apply fk_pre|]. rewrite Tp. f_equal. unfold len. rewrite Nat2N.id. apply firstn_all. }
    assert (Lw : 0 < w <= 512) by (destruct Inv as [(_ & _ & ->)|(-> & ->)]; lia). assert (Lo' : o < len chain) by (destruct Inv as [(_ & -> & _)|(-> & ->)]; lia).
    destruct (encaps _ v slot o w Ca Vv Sv) as [t Te]. subst v.
    destruct (fetch_step E slot chain sent0 asked total o w x t Hs Sn Fa Xs Te Ch Cs Tp ltac:(lia) Lw ltac:(destruct Inv as [(-> & _)|(-> & _)]; auto)) as (x1 & P & K1 & K2 & K3 & K4).
    unfold sbind. rewrite P. cbn [fst snd]. assert (Sl := slice_len chain o w ltac:(lia)). set (n := len (slice_of chain o w)) in *.
    assert (Nn : n = N.min 512 (len chain - o)) by (destruct Inv as [(_ & _ & ->)|(-> & ->)]; lia).
    assert (Vx1 : ver x1 = ver x) by (unfold ver; destruct K1 as [K1 _]; congruence).
    destruct (IH (t :: asked) (if total =? 0 then n + (len chain - o - n) else total) (o + n) (N.min (len chain - o - n) 512) x1) as (x' & I1 & I2 & I3).
    + exact Vx1.
    + constructor; [|exact Fa]. exists o, w. auto.
    + rewrite K3, Xs. reflexivity.
    + exact K2.
    + unfold can_send in *. destruct K1 as [K1 _]. rewrite K1. exact Cs.
    + exact K4.
    + lia.
    + lia.
    + right. split; [|f_equal; lia]. destruct Inv as [(-> & -> & _)|(-> & _)]; [cbn; lia|]. destruct (N.eqb_spec (len chain) 0); lia.
    + lia.
    + exists x'. split; [exact I1|]. split; [exact (proj2 fk_pre _ _ _ K1 I2)|exact I3].
Qed.

(** ** C35 *)
(** If the peer serves an acceptable [chain] of less than 4096 bytes, the retrieval ends (after at
    most 8 exchanges) and stores exactly [chain]. *)
Theorem C35_reassembles : forall E fuel slot chain x,
  carries (e_tr E) -> (forall i f, e_send E i f = None) -> ver x < 256 -> can_send x 8 -> can_hash (e_cr E) x ->
  slot < 8 -> length (x_peer_chain x) = 8%nat ->
  serves E (ver x) slot chain (x_sent x) ->
  len chain < 4096 -> acceptable_chain (e_cr E) (n_hash (x_nego x)) (x_peer_root x) chain -> (8 <= fuel)%nat ->
  exists x', get_certificate E fuel None slot x = (Ok (Some tt), x') /\ slot_of (x_peer_chain x') slot = Some chain /\
    forall i, i <> slot -> slot_of (x_peer_chain x') i = slot_of (x_peer_chain x) i.
Proof.
  intros E fuel slot chain x Ca Sn Vx Cs Ch S8 L8 Sv Lc Ac Lf.
  assert (Ac2 := proj2 (C37_accepted_chains _ _ _ _) Ac).
  assert (Lc0 : 0 < len chain). { destruct Ac as (h & lf & rs & rh & c & rest & -> & L1 & _). rewrite len_app. unfold len at 1. rewrite L1. lia. }
  assert (G : exists x', get_certificate E fuel None slot x = (Ok (Some tt), x') /\ x_peer_chain x' = set_slot (N.to_nat slot) (Some chain) (x_peer_chain x)).
  { unfold get_certificate. rewrite bind_fail, (proj2 (N.leb_gt _ _)) by exact S8. rewrite bind_mod, bind_mod.
    set (y := set_x_peer_temp (Some []) (reset_buffer RC_GET_CERTIFICATE None x)).
    destruct (fetch_loop E slot chain (x_sent x) (ver x) fuel Ca Vx ltac:(lia) Sv Sn Lc [] 0 0 512 y) as (z & P & K & T); [reflexivity|constructor|reflexivity|exact Ch|exact Cs|reflexivity|lia|exact Lc0|left; auto|lia|].
    unfold sbind at 1. rewrite P. destruct (N.eqb_spec (len chain) 0) as [Z|_]; [lia|]. rewrite bind_get, T, bind_some. destruct K as (K1 & K2 & K3 & K4).
      rewrite K1, K3. change (x_nego y) with (x_nego x). change (x_peer_root y) with (x_peer_root x). rewrite Ac2, bind_mod.
      eexists. split; [reflexivity|]. cbn [x_peer_chain set_x_peer_temp set_x_peer_chain]. rewrite K2. reflexivity. }
  destruct G as (x' & G & C). exists x'. split; [exact G|].
  destruct (C37_stored_chain _ _ _ _ _ _ G L8) as (_ & parts & _ & _ & S1 & S2). split; [|exact S2].
  rewrite S1. f_equal. rewrite C in S1. unfold slot_of in S1.
  assert (N : forall n l c, (n < length l)%nat -> nth n (set_slot n (Some c) l) None = Some c).
  { clear. induction n as [|n IH]; intros [|a l] c L; cbn [length set_slot nth] in *; try lia; [reflexivity|]. apply IH. lia. }
  rewrite N in S1 by lia. congruence.
Qed.
Print Assumptions C35_reassembles.
