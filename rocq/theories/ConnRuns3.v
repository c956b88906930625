(** C86: connection setup between two fitting ends succeeds — NEGOTIATE_ALGORITHMS. *)
From Verif Require Import Bytes BytesFacts Status Codec CodecProofs Parse ParseProofs Algo Monad MsgConn MsgAuth MsgSession MsgOther Message Opaque SpecMsg MsgProofs MsgRound MsgRound2 MsgCaps PropMsg.
From Verif Require Import Transport Crypto KeySchedule Session Signing CertOps ChainVerify Context
  RspBase RspConn RspSess RspEncap Responder StRel RspFrame RspCalm RspOpcode RspPass RspEst RspDeliver SpecResponder ReqBase ReqConn ReqSess SpecReq ReqFrame ReqAnswer ReqTrans SpecAuth ReqSplit ReqHist ReqAuth SpecRetr Pair ReqTwin RspTwin PairTwin PropReset PropAlgs PropOffer PropTake PropVersion PropFetch PropServe PropCert PropRetr SpecShare SpecDer ConnTwin SpecConnect ConnRuns ConnRuns2.
From Coq Require Import Lia Sorted.
Local Open Scope N_scope.

Definition structs_for (sel : family -> N) : list alg_struct :=
  [mkAlgStruct 2 (ADhe (sel FDhe)); mkAlgStruct 3 (AAead (sel FAead)); mkAlgStruct 4 (AReqAsym (sel FReqAsym)); mkAlgStruct 5 (AKeySched (sel FKeySched))].
Definition fam_mask (f : family) : N :=
  match f with FMeasSpec => MSPEC_MASK | FAsym | FReqAsym => ASYM_MASK | FHash => HASH_MASK | FDhe => DHE_MASK | FAead => AEAD_MASK | FKeySched => KS_MASK end.
Lemma table_fine (good : alg_struct -> Prop) c sel : V11 <= version_of c -> (forall f, within (fam_mask f) (sel f)) -> Forall good (structs_for sel) -> alg_table_ok good c 4 (structs_for sel).
Proof.
  intros V W G. exists (structs_for sel). split; [reflexivity|]. split; [reflexivity|]. split; [lia|]. split; [lia|]. split; [|split; [|exact G]].
  - unfold structs_for. repeat (apply Forall_cons; [split; [reflexivity|]|]); [exact (W FDhe)|exact (W FAead)|exact (W FReqAsym)|exact (W FKeySched)|apply Forall_nil].
  - repeat constructor.
Qed.
Definition offer_of (v : N) (c : config) : nego_algs :=
  mkNegoAlgs (cf_mspec c) (if 0x12 <=? v then cf_opaque c else 0) (cf_asym c) (cf_hash c) 4 (structs_for (configured c)).
Lemma settings_within c : settings_ok c -> forall f, within (fam_mask f) (configured c f).
Proof. intros (S1 & S2 & S3 & S4 & S5 & S6 & S7 & S8 & S9 & S10 & S11 & _) f. destruct f; cbn [fam_mask configured]; assumption. Qed.
Lemma offer_reads c v cfg : n_version (c_nego c) = v -> v = 0x11 \/ v = 0x12 -> settings_ok cfg ->
  dec_nego_algs c (skipn 2 (offer_message v cfg)) = POk (offer_of v cfg) [].
Proof.
  intros Hv Cv S. pose proof (settings_within cfg S) as Wi.
  assert (Vc : V11 <= version_of c) by (change (version_of c) with (n_version (c_nego c)); rewrite Hv; destruct Cv as [-> | ->]; vm_compute; discriminate).
  assert (Ok : ok_nego_algs c (offer_of v cfg)).
  { unfold ok_nego_algs, offer_of. cbn [na_mspec na_opaque na_asym na_hash na_count na_structs]. split; [exact (Wi FMeasSpec)|]. split.
    - unfold opaque_support_ok. change (version_of c) with (n_version (c_nego c)). rewrite Hv. destruct Cv as [-> | ->]; [reflexivity|]. apply S.
    - split; [exact (Wi FAsym)|]. split; [exact (Wi FHash)|]. apply table_fine; [exact Vc|exact Wi|]. repeat constructor. }
  destruct (rt_nego_algs c _ Ok) as (w & W & _ & D). pose proof (xw_nego_algs c _ Ok) as Xw. rewrite Xw in W.
  assert (Ew : w = skipn 2 (offer_message v cfg)) by (replace w with (wire_nego_algs (offer_of v cfg)) by congruence; destruct Cv as [-> | ->]; reflexivity).
  specialize (D []). rewrite app_nil_r, Ew in D. exact D.
Qed.
(** the answer *)
Definition answer_of (v op mh : N) (sel : family -> N) : algs_rsp :=
  mkAlgsRsp (sel FMeasSpec) (if 0x12 <=? v then op else 0) mh (sel FAsym) (sel FHash) 4 (structs_for sel).
Lemma answer_reads c v op mh sel : n_version (c_nego c) = v -> v = 0x11 \/ v = 0x12 -> ok_algs_rsp c (answer_of v op mh sel) ->
  dec_algs_rsp c (skipn 2 (algorithms_message v op mh sel)) = POk (answer_of v op mh sel) [].
Proof.
  intros Hv Cv Ok. destruct (rt_algs_rsp c _ Ok) as (w & W & _ & D). pose proof (xw_algs_rsp c _ Ok) as Xw. rewrite Xw in W.
  assert (Ew : w = skipn 2 (algorithms_message v op mh sel)) by (replace w with (wire_algs_rsp (answer_of v op mh sel)) by congruence; destruct Cv as [-> | ->]; reflexivity).
  specialize (D []). rewrite app_nil_r, Ew in D. exact D.
Qed.
(** a selection from two sets *)
Lemma best_selects (P : Prop) rq rs f : (P -> common rq rs f) -> selection P (fam_mask f) (prioritize (table_of f) (configured rq f) (configured rs f)).
Proof.
  intro H. assert (M : family_mask f = fam_mask f) by (destruct f; reflexivity). rewrite <- M.
  destruct (prioritize_best f (configured rq f) (configured rs f)) as [[Z No]|(b & w & _ & _ & _ & O & _)]; [|right; exact O].
  left. split; [exact Z|]. intro HP. destruct (H HP) as (a & I & A & B). exact (No a I (conj A B)).
Qed.
Lemma best_some rq rs f : common rq rs f -> prioritize (table_of f) (configured rq f) (configured rs f) <> 0 /\ In (prioritize (table_of f) (configured rq f) (configured rs f)) (preference f).
Proof.
  intros (a & I & A & B). destruct (prioritize_best f (configured rq f) (configured rs f)) as [[Z No]|(b & w & E & _ & _ & O & _)].
  - exfalso. exact (No a I (conj A B)).
  - split; [exact (pow2_ne0 _ _ O)|]. rewrite E. apply in_or_app. right. now left.
Qed.
Lemma best_within rq rs f : within (fam_mask f) (prioritize (table_of f) (configured rq f) (configured rs f)).
Proof.
  pose proof (prio_in (table_of f) (configured rq f) (configured rs f)) as I. revert I. generalize (prioritize (table_of f) (configured rq f) (configured rs f)). intros v I.
  destruct f; cbn [table_of] in I; unfold mspec_prio, asym_prio, hash_prio, dhe_prio, aead_prio, req_asym_prio, ks_prio in I; repeat (destruct I as [<-|I]; [reflexivity|]); destruct I.
Qed.
Definition chosen (rq rs : config) (f : family) : N := prioritize (table_of f) (configured rq f) (configured rs f).
Definition op_of (v : N) (rq rs : config) : N := N.land (cf_opaque rs) (if 0x12 <=? v then cf_opaque rq else 0).
Lemma answer_fine c v rq rs : compatible v rq rs -> settings_ok rq -> settings_ok rs -> n_version (c_nego c) = v -> n_req_cap (c_nego c) = cf_req_cap rq -> n_rsp_cap (c_nego c) = cf_rsp_cap rs ->
  ok_algs_rsp c (answer_of v (op_of v rq rs) (cf_mhash rs) (chosen rq rs)).
Proof.
  intros (Cv & _ & _ & _ & Rq & Rs & CH & CA & CM & CD & CE & CR & CK & CO) Sq Ss Hv Hq Hs.
  assert (Pq : forall f, req_can c f = has (cf_req_cap rq) f) by (intro; unfold req_can; rewrite Hq; reflexivity).
  assert (Ps : forall f, peer_has c f = has (cf_rsp_cap rs) f) by (intro; unfold peer_has; rewrite Hs; reflexivity).
  unfold ok_algs_rsp, answer_of. cbn [ar_mspec ar_opaque ar_mhash ar_asym ar_hash ar_count ar_structs]. unfold must_meas, must_opaque, must_asym, must_hash, keyex_negotiated, psk_negotiated. rewrite !Ps, !Pq.
  assert (Ohq : cf_opaque rq = 0 \/ cf_opaque rq = OPAQUE_FMT1) by apply Sq. assert (Ohs : cf_opaque rs = 0 \/ cf_opaque rs = OPAQUE_FMT1) by apply Ss.
  assert (Mhs : cf_mhash rs = 0 \/ one_bit MHASH_MASK (cf_mhash rs)) by apply Ss.
  split; [apply (best_selects _ rq rs FMeasSpec); intro H; apply CM; exact H|]. split.
  { unfold opaque_support_ok, op_of. change (version_of c) with (n_version (c_nego c)). rewrite Hv. destruct Cv as [-> | ->]; [reflexivity|]. change (V12 <=? 18) with true. change (18 <=? 18) with true. cbv iota.
    destruct Ohq as [-> | ->]; destruct Ohs as [-> | ->]; [left|left|left|right]; reflexivity. }
  split. { intros [V12 K]. change (version_of c) with (n_version (c_nego c)) in V12. rewrite Hv in V12. assert (v = 18) as -> by (destruct Cv as [-> | ->]; [exfalso; apply V12; reflexivity|reflexivity]).
    destruct (CO eq_refl K) as [E1 E2]. unfold op_of. rewrite E1, E2. reflexivity. }
  split. { destruct Mhs as [Z|O]; [left; split; [exact Z|]; intro H; destruct (CM H) as [_ N]; contradiction|right; exact O]. }
  split; [apply (best_selects _ rq rs FAsym); intros _; exact CA|]. split; [apply (best_selects _ rq rs FHash); intros _; exact CH|].
  apply table_fine; [change (version_of c) with (n_version (c_nego c)); rewrite Hv; destruct Cv as [-> | ->]; vm_compute; discriminate|intro f; apply best_within|].
  unfold structs_for. apply Forall_cons; [|apply Forall_cons; [|apply Forall_cons; [|apply Forall_cons; [|apply Forall_nil]]]]; unfold alg_selection, keyex_negotiated, psk_negotiated; cbn [as_alg]; rewrite !Ps, !Pq.
  - apply (best_selects _ rq rs FDhe). exact CD.
  - apply (best_selects _ rq rs FAead). exact CE.
  - apply (best_selects _ rq rs FReqAsym). exact CR.
  - apply (best_selects _ rq rs FKeySched). exact CK.
Qed.
(** the certificate chains can be built *)
Lemma slots_built cr h : In h (preference FHash) -> forall data mine,
  Forall (fun o => match o with None => True | Some d => len d <= 4096 /\ exists root more, d = root ++ more /\ blob root /\ (forall h, In h (preference FHash) -> exists rh, cr_hash cr h root = Some rh /\ len rh <= 64) end) data ->
  exists l, construct_slots cr h mine data = (Ok tt, l).
Proof.
  intros Hh data. induction data as [|d data IH]; intros mine F; [destruct mine; eexists; reflexivity|]. pose proof (Forall_inv F) as Fd. apply Forall_inv_tail in F. cbv beta in Fd.
  destruct mine as [|m mine]; [eexists; reflexivity|]. destruct (IH mine F) as [l L]. cbn [construct_slots].
  assert (S : exists m', construct_slot cr h m d = Ok m').
  { unfold construct_slot. destruct m as [m|]; [eexists; reflexivity|]. destruct d as [d|]; [|eexists; reflexivity]. destruct Fd as (Ld & root & more & -> & B & Hr).
    pose proof (proj1 (C46_lookup_finds [] root more (Forall_nil _) B)) as G. cbv zeta in G. cbn [concat length app] in G. change (Z.of_nat 0) with 0%Z in G. rewrite G.
    change (len (@nil N)) with 0. rewrite N.add_0_l, N.sub_0_r. unfold slice. change (N.to_nat 0) with 0%nat. cbn [skipn]. unfold len at 1. rewrite Nat2N.id, firstn_app, Nat.sub_diag, firstn_all, firstn_O, app_nil_r.
    destruct (Hr h Hh) as (rh & -> & Lr). unfold build_chain. destruct (N.ltb_spec 65535 (4 + len rh + len (root ++ more))); [lia|]. destruct (N.ltb_spec (4 + 64 + 4096) (4 + len rh + len (root ++ more))); [lia|]. eexists. reflexivity. }
  destruct S as [m' ->]. rewrite L. eexists. reflexivity.
Qed.
Lemma offer_lens v c : v = 0x11 \/ v = 0x12 -> len (offer_message v c) = 48. Proof. intros [-> | ->]; reflexivity. Qed.
Lemma answer_lens v op mh sel : v = 0x11 \/ v = 0x12 -> len (algorithms_message v op mh sel) = 52. Proof. intros [-> | ->]; reflexivity. Qed.
Lemma algorithms_ext v op mh s s' : (forall f, s f = s' f) -> algorithms_message v op mh s = algorithms_message v op mh s'.
Proof. intro H. unfold algorithms_message. rewrite (H FMeasSpec), (H FAsym), (H FHash), (H FDhe), (H FAead), (H FReqAsym), (H FKeySched). reflexivity. Qed.
Lemma taken_offer v rq rs n : let m := set_n_opaque (N.land (cf_opaque rs) (na_opaque (offer_of v rq))) (select_algs rs (take_offer (offer_of v rq) n)) in
  n_version m = n_version n /\ n_req_cap m = n_req_cap n /\ n_rsp_cap m = n_rsp_cap n /\ n_req_dts m = n_req_dts n /\ n_mhash m = cf_mhash rs /\ n_opaque m = op_of v rq rs /\
  (forall f, recorded m f = chosen rq rs f).
Proof. cbv zeta. split; [reflexivity|]. split; [reflexivity|]. split; [reflexivity|]. split; [reflexivity|]. split; [reflexivity|]. split; [reflexivity|]. intro f. destruct f; reflexivity. Qed.
Lemma write_algorithm_fwd E v rq y : x_conn y = CONN_AFTER_CAPABILITIES -> ver y = v -> compatible v rq (x_cfg y) -> settings_ok rq -> well_provisioned (e_cr E) y -> len (x_msg_a y) <= 56 ->
  exists z w, write_algorithm E (offer_message v rq) y = (Ok w, z) /\ w = algorithms_message v (op_of v rq (x_cfg y)) (cf_mhash (x_cfg y)) (chosen rq (x_cfg y)) /\
    x_nego z = set_n_opaque (N.land (cf_opaque (x_cfg y)) (na_opaque (offer_of v rq))) (select_algs (x_cfg y) (take_offer (offer_of v rq) (x_nego y))) /\ x_sent z = x_sent y /\ x_cfg z = x_cfg y.
Proof.
  intros Hc Hv Cp Sq Wp La. pose proof (proj1 Cp) as Cv. pose proof (offer_lens v rq Cv) as Lo.
  unfold write_algorithm. rewrite bind_get, Hc. change (CONN_AFTER_CAPABILITIES =? CONN_AFTER_CAPABILITIES) with true. cbv iota.
  unfold with_version. rewrite bind_get. assert (Rh : read_header (offer_message v rq) = Some (mkHeader v 0xE3, skipn 2 (offer_message v rq))) by (unfold offer_message; reflexivity). rewrite Rh. cbn [h_version].
  rewrite Hv, N.eqb_refl. cbn [negb]. rewrite bind_mod.
  destruct (keeps_reset RC_NEGOTIATE_ALGORITHMS y) as (K1 & K2 & K3 & K4 & K5 & K6 & K7). cbv zeta in *. set (y0 := reset_buffer RC_NEGOTIATE_ALGORITHMS None y) in *. clearbody y0.
  rewrite bind_rd. rewrite (offer_reads (xc y0) v rq); [|change (n_version (x_nego y0) = v); rewrite K1; exact Hv|exact Cv|exact Sq]. rewrite bind_mod.
  set (a := offer_message v rq) in *. assert (U : used_of a [] = a) by (rewrite <- (app_nil_r a) at 1; apply used_app). rewrite U. set (p := offer_of v rq) in *.
  set (rs := x_cfg y) in *. set (y1 := modn (take_offer p) y0).
  assert (Y : x_nego y1 = take_offer p (x_nego y) /\ x_cfg y1 = rs /\ x_chain_data y1 = x_chain_data y /\ x_sent y1 = x_sent y /\ x_msg_a y1 = x_msg_a y).
  { unfold y1, modn. cbn [x_nego x_msg_a x_cfg x_sent x_chain_data set_x_nego]. rewrite K1. repeat split; assumption. }
  clearbody y1. destruct Y as (Y1 & Y2 & Y3 & Y4 & Y5).
  unfold tryelse at 1, scatch at 1. rewrite append_a_ok by (rewrite Y5; change MAX_A with 156; lia). cbv beta iota. rewrite bind_mod. rewrite Y5.
  set (y2 := modn (select_algs rs) (set_x_msg_a (x_msg_a y ++ a) y1)).
  assert (Z : x_nego y2 = select_algs rs (take_offer p (x_nego y)) /\ x_cfg y2 = rs /\ x_chain_data y2 = x_chain_data y /\ x_sent y2 = x_sent y /\ x_msg_a y2 = x_msg_a y ++ a).
  { unfold y2, modn. cbn [x_nego x_msg_a x_cfg x_sent x_chain_data set_x_nego set_x_msg_a]. rewrite Y1. repeat split; assumption. }
  clearbody y2. destruct Z as (Z1 & Z2 & Z3 & Z4 & Z5).
  assert (Hn : In (n_hash (x_nego y2)) (preference FHash)).
  { rewrite Z1. change (In (chosen rq rs FHash) (preference FHash)). unfold chosen. apply best_some. apply Cp. }
  destruct (slots_built (e_cr E) (n_hash (x_nego y2)) Hn (x_chain_data y) (x_my_chain y2) Wp) as [l L].
  unfold tryelse at 1, scatch at 1, construct_my_cert_chain. rewrite Z3, L. cbv beta iota. rewrite bind_mod, bind_get.
  set (y3 := modn (set_n_opaque (N.land (cf_opaque rs) (na_opaque p))) (set_x_my_chain l y2)).
  assert (T : x_nego y3 = set_n_opaque (N.land (cf_opaque rs) (na_opaque p)) (select_algs rs (take_offer p (x_nego y))) /\ x_cfg y3 = rs /\ x_sent y3 = x_sent y /\ x_msg_a y3 = x_msg_a y ++ a).
  { unfold y3, modn. cbn [x_nego x_msg_a x_cfg x_sent set_x_nego set_x_my_chain]. rewrite Z1. repeat split; assumption. }
  clearbody y3. destruct T as (T1 & T2 & T3 & T4).
  destruct (taken_offer v rq rs (x_nego y)) as (N1 & _ & _ & _ & N5 & N6 & N7). cbv zeta in N1, N5, N6, N7. fold p in N1, N5, N6, N7. rewrite <- T1 in N1, N5, N6, N7.
  unfold encode_or_err. unfold sbind at 1, wenc. rewrite (emit_algorithms (xc y3) (x_nego y3) eq_refl). cbv beta iota. cbn [fst snd].
  rewrite N1, N5, N6. change (n_version (x_nego y)) with (ver y). rewrite Hv. rewrite (algorithms_ext v _ _ _ _ N7).
  set (w := algorithms_message v (op_of v rq rs) (cf_mhash rs) (chosen rq rs)).
  assert (Lw : len w = 52) by (apply answer_lens; exact Cv).
  unfold then_append, tryelse, scatch. rewrite append_a_ok by (rewrite T4, len_app, Lo, Lw; change MAX_A with 156; lia). cbv beta iota. unfold sret. eexists. exists w. split; [reflexivity|]. split; [reflexivity|].
  cbn [x_nego x_sent x_cfg set_x_msg_a]. auto.
Qed.
Lemma dispatch_algs E v c : dispatch_message E (offer_message v c) = sbind (write_algorithm E (offer_message v c)) (send_message E).
Proof. unfold offer_message. reflexivity. Qed.
Lemma negotiate_runs E Er xr x v : e_tr E = e_tr Er -> SpecRetr.carries (e_tr Er) -> (forall i f, e_send Er i f = None) ->
  let y := peer_after Er xr (rev (x_sent x)) in let rq := x_cfg x in let rs := x_cfg y in
  compatible v rq rs -> settings_ok rq -> settings_ok rs -> well_provisioned (e_cr Er) y ->
  ver x = v -> can_send x 48 -> n_req_cap (x_nego x) = cf_req_cap rq -> n_rsp_cap (x_nego x) = cf_rsp_cap rs -> len (x_msg_a x) <= 56 ->
  x_conn y = CONN_AFTER_CAPABILITIES -> ver y = v -> room (n_req_dts (x_nego y)) 52 -> len (x_msg_a y) <= 56 ->
  exists x1, negotiate_algorithms (facing E Er xr) x = (Ok tt, x1) /\ ver x1 = v /\ (forall f, recorded (x_nego x1) f = chosen rq rs f) /\
    let y1 := peer_after Er xr (rev (x_sent x1)) in x_conn y1 = CONN_NEGOTIATED /\ ver y1 = v /\ (forall f, recorded (x_nego y1) f = chosen rq rs f).
Proof.
  intros Tr Ca Sn y rq rs Cp Sq Ss Wp Hv Cs Hq Hs La Yc Yv Yr Ly. pose proof (proj1 Cp) as Cv.
  set (x0 := reset_buffer RC_NEGOTIATE_ALGORITHMS None x).
  destruct (keeps_reset RC_NEGOTIATE_ALGORITHMS x) as (K1 & K2 & K3 & K4 & _). cbv zeta in *. fold x0 in K1, K2, K3, K4.
  assert (V0 : ver x0 = v) by (unfold ver; rewrite K1; exact Hv).
  set (s := offer_message v rq). assert (Ls : len s = 48) by (apply offer_lens; exact Cv).
  assert (Vx : v < 256) by (destruct Cv as [-> | ->]; reflexivity).
  assert (Lb : forall m a, within m a -> m < 256 -> a < 256). { intros m a W M. red in W. rewrite <- W. apply land_byte. exact M. }
  assert (Bq : bytes_ok s).
  { apply offer_ok; [exact Vx|apply (Lb MSPEC_MASK); [apply Sq|reflexivity]|]. assert (O : cf_opaque rq = 0 \/ cf_opaque rq = OPAQUE_FMT1) by apply Sq. destruct O as [-> | ->]; reflexivity. }
  destruct (write_algorithm_fwd Er v rq y Yc Yv Cp Sq Wp Ly) as (z & w & W & Ew & Z1 & Z2 & Z3). fold s in W. fold rs in Ew, Z1.
  destruct (taken_offer v rq rs (x_nego y)) as (N1 & N2 & N3 & N4 & N5 & N6 & N7). cbv zeta in N1, N2, N3, N4, N5, N6, N7. rewrite <- Z1 in N1, N2, N3, N4, N5, N6, N7. clear Z1.
  assert (Lw : len w = 52) by (rewrite Ew; apply answer_lens; exact Cv).
  assert (Bw : bytes_ok w).
  { rewrite Ew. apply algorithms_ok; [exact Vx| |exact (proj2 (prio_fits FMeasSpec _ _))]. unfold op_of. apply land_byte. destruct (18 <=? v); [|reflexivity]. assert (O : cf_opaque rq = 0 \/ cf_opaque rq = OPAQUE_FMT1) by apply Sq. destruct O as [-> | ->]; reflexivity. }
  assert (P0 : peer_after Er xr (rev (x_sent x0)) = y) by (rewrite K4; reflexivity).
  assert (Cs0 : can_send x0 (len s)). { unfold can_send in *. rewrite K1. destruct Cs as [->|Cs]; [now left|right; lia]. }
  assert (Tl : too_large z w = false). { unfold too_large. apply (room_large _ 52); [rewrite N4; exact Yr|lia]. }
  assert (W0 : write_algorithm Er s (peer_after Er xr (rev (x_sent x0))) = (Ok w, z)) by (rewrite P0; exact W).
  assert (Sz : x_sent z = x_sent (peer_after Er xr (rev (x_sent x0)))) by (rewrite P0; exact Z2).
  assert (Ls4 : len s <= 4000) by lia. assert (Lw4 : len w <= 4000) by lia.
  assert (Ms4 : len s mod 4 = 0) by (rewrite Ls; reflexivity). assert (Mw4 : len w mod 4 = 0) by (rewrite Lw; reflexivity).
  assert (Hw : w = v :: RC_ALGORITHMS :: skipn 2 w) by (rewrite Ew; reflexivity).
  assert (Opw : opcode w = Some 0x63) by (rewrite Hw; reflexivity).
  destruct (exchange_runs E Er xr s x0 (write_algorithm Er) 0x63 CONN_NEGOTIATED w z Tr Ca Sn Bq Ls4 Ms4 Cs0 (dispatch_algs Er v rq) W0 Sz Bw Lw4 Mw4 Opw Tl after_algs) as (x1 & x2 & S1 & S2 & (i & l & S3) & y2 & P & (i' & l' & P2)).
  assert (Q : x_nego x2 = x_nego x /\ x_cfg x2 = rq /\ x_msg_a x2 = x_msg_a x) by (rewrite S3; cbn [x_nego x_cfg x_msg_a set_x_sent set_x_io]; rewrite K1, K2, K3; repeat split; reflexivity).
  destruct Q as (Q1 & Q2 & Q3).
  assert (Enc : req_enc (nego_algs_msg x0) x0 = (Ok s, x0)). { destruct (emit_offer x0) as [J1 J2]. rewrite V0, K3 in J1, J2. apply (req_enc_fwd _ _ _ J1 J2). change (len s <= 4096). lia. }
  assert (K0 : reset_buffer RC_NEGOTIATE_ALGORITHMS None x = x0) by reflexivity. clear S3 W W0 Sz Tl. clearbody x0.
  set (p := answer_of v (op_of v rq rs) (cf_mhash rs) (chosen rq rs)) in *.
  set (x3 := modn (set_n_hash (ar_hash p)) (modn (fun n => set_n_mhash (ar_mhash p) (set_n_opaque (ar_opaque p) (set_n_mspec (ar_mspec p) n))) x2)).
  set (x4 := modn (fun n => fold_left take_alg (firstn (N.to_nat (ar_count p)) (ar_structs p)) n) (modn (set_n_asym (ar_asym p)) x3)).
  set (x5 := set_x_msg_a (x_msg_a x ++ s ++ w) x4).
  assert (X4 : x_msg_a x4 = x_msg_a x /\ ver x4 = v /\ x_sent x4 = x_sent x2 /\ (forall f, recorded (x_nego x4) f = chosen rq rs f)).
  { split; [exact Q3|]. split; [change (ver x2 = v); unfold ver; rewrite Q1; exact Hv|]. split; [reflexivity|]. intro f. destruct f; reflexivity. }
  assert (H : handle_algorithms_rsp s w x2 = (Ok tt, x5)).
  { unfold handle_algorithms_rsp. rewrite Hw at 1. rewrite on_response_fwd; [|unfold ver; rewrite Q1; exact Hv|reflexivity].
    unfold reading. rewrite bind_rd.
    assert (D : dec_algs_rsp (xc x2) (skipn 2 w) = POk p []).
    { rewrite Ew. apply answer_reads; [change (n_version (x_nego x2) = v); rewrite Q1; exact Hv|exact Cv|]. apply answer_fine; auto; change (c_nego (xc x2)) with (x_nego x2); rewrite Q1; assumption. }
    rewrite D. assert (U : used_of w [] = w) by (rewrite <- (app_nil_r w) at 1; apply used_app). rewrite U.
    assert (Zh : ar_hash p <> 0 /\ ar_asym p <> 0) by (split; [apply (best_some rq rs FHash)|apply (best_some rq rs FAsym)]; apply Cp).
    destruct Zh as [Zh Za]. rewrite bind_mod, bind_fail. rewrite (proj2 (N.eqb_neq _ _) Zh). rewrite bind_mod, bind_fail. rewrite (proj2 (N.eqb_neq _ _) Za). rewrite !bind_mod.
    fold x3. fold x4. unfold x5. clearbody x4. destruct X4 as (A4 & _).
    unfold sbind. rewrite append_a_ok by (rewrite A4; change MAX_A with 156; lia). rewrite append_a_ok by (cbn [x_msg_a set_x_msg_a]; rewrite len_app, A4; change MAX_A with 156; lia). cbn [x_msg_a set_x_msg_a]. rewrite A4, <- app_assoc. reflexivity. }
  assert (X5 : ver x5 = v /\ x_sent x5 = x_sent x2 /\ (forall f, recorded (x_nego x5) f = chosen rq rs f)) by exact (proj2 X4).
  clearbody x5. clear X4 x4 x3. destruct X5 as (X1 & X2 & X3). exists x5.
  split. { unfold negotiate_algorithms. rewrite bind_mod, K0, bind_get. unfold sbind at 1. rewrite Enc. unfold sbind at 1. rewrite S1. unfold sbind at 1. rewrite S2. exact H. }
  split; [exact X1|]. split; [exact X3|]. cbv zeta. rewrite X2, P, P2. unfold ver. cbn [x_conn x_nego set_x_conn set_x_sent set_x_io]. split; [reflexivity|]. split; [rewrite N1; exact Yv|exact N7].
Qed.
