(** C86: connection setup between two fitting ends succeeds, exchange by exchange. *)
From Verif Require Import Bytes BytesFacts Status Codec CodecProofs Parse ParseProofs Algo Monad MsgConn MsgAuth MsgSession MsgOther Message Opaque SpecMsg MsgProofs MsgRound MsgRound2 MsgCaps PropMsg.
From Verif Require Import Transport Crypto KeySchedule Session Signing CertOps ChainVerify Context
  RspBase RspConn RspSess RspEncap Responder StRel RspFrame RspCalm RspOpcode RspPass RspEst RspDeliver SpecResponder ReqBase ReqConn ReqSess SpecReq ReqFrame ReqAnswer ReqTrans SpecAuth ReqSplit ReqHist ReqAuth SpecRetr Pair ReqTwin RspTwin PairTwin PropReset PropAlgs PropOffer PropTake PropVersion PropFetch PropServe PropCert PropRetr SpecShare ConnTwin SpecConnect.
From Coq Require Import Lia.
Local Open Scope N_scope.

Definition io_only (x x' : ctx) : Prop := exists i s, x' = set_x_sent s (set_x_io i x).
Lemma exchange_runs E Er xr s x (wr : bytes -> st ctx bytes) code c w z : e_tr E = e_tr Er -> SpecRetr.carries (e_tr Er) -> (forall i f, e_send Er i f = None) ->
  bytes_ok s -> len s <= 4000 -> len s mod 4 = 0 -> can_send x (len s) ->
  let y := peer_after Er xr (rev (x_sent x)) in
  dispatch_message Er s = sbind (wr s) (send_message Er) ->
  wr s y = (Ok w, z) -> x_sent z = x_sent y -> bytes_ok w -> len w <= 4000 -> len w mod 4 = 0 -> opcode w = Some code -> too_large z w = false ->
  (forall a, after_send code a = (Ok tt, set_x_conn c a)) ->
  exists x1 x2, req_send (facing E Er xr) s x = (Ok tt, x1) /\ req_recv (facing E Er xr) false x1 = (Ok w, x2) /\ io_only x x2 /\
    exists y2, peer_after Er xr (rev (x_sent x2)) = set_x_conn c y2 /\ io_only z y2.
Proof.
  intros Tr Ca Sn Bs Ls Ms Cs y Dm W Sz Bw Lw Mw Op Tl Af.
  destruct (Ca s Bs Ls) as (t & pd & pd' & T1 & _ & T3 & _ & T5). destruct (T3 Ms) as [_ ->]. rewrite app_nil_r in T5. clear T3.
  destruct (Ca w Bw Lw) as (f & pw & pw' & R1 & R2 & R3 & R4 & _). destruct (R3 Mw) as [-> _]. rewrite app_nil_r in R4. clear R3.
  assert (P : process_frame Er t y = (Ok (Some true), set_x_conn c (set_x_sent (f :: x_sent y) (set_x_io (x_io z + 1) z)))).
  { unfold process_frame. rewrite T5. unfold is_ok, scatch. rewrite Dm. unfold sbind at 1. rewrite W. unfold send_message. rewrite bind_get, Tl.
    unfold send_raw. rewrite R1. unfold sbind at 1, sof. unfold sbind at 1, io_send. rewrite Sn. cbn [x_sent set_x_io]. rewrite Sz. unfold sbind at 1. rewrite Op. unfold sunwrap, sret at 1. rewrite Af. reflexivity. }
  eexists. eexists. split; [|split; [|split]].
  - unfold req_send. rewrite bind_get. assert (TL : req_too_large x s = false). { unfold req_too_large. destruct Cs as [-> |Cs]; [reflexivity|]. apply Bool.andb_false_iff. right. apply N.ltb_ge. exact Cs. }
    rewrite TL. unfold sfail_if, sret. unfold sbind at 1. cbn [facing e_tr]. rewrite Tr, T1. unfold sbind at 1, sof, sret. unfold io_send. cbn [facing e_send]. reflexivity.
  - unfold req_recv, req_timeout. unfold sbind at 1. rewrite bind_get. cbn [negb orb]. unfold sassert, sret at 1. unfold sbind at 1. unfold io_recv at 1. cbn [facing e_recv x_io x_sent set_x_sent set_x_io].
    cbn [peer_reply]. fold y. rewrite P. cbn [snd x_sent set_x_conn set_x_sent]. rewrite (proj2 (Nat.ltb_lt _ _)) by (cbn [length]; lia). cbn [hd_error]. rewrite (proj2 (N.ltb_ge _ _)) by exact R2.
    unfold sbind at 1, sok, sret. unfold decap. unfold sbind at 1. cbn [facing e_tr]. rewrite Tr, R4. cbn [sof snd fst]. unfold sret. reflexivity.
  - red. exists (x_io x + 1 + 1), (t :: x_sent x). reflexivity.
  - exists (set_x_sent (f :: x_sent y) (set_x_io (x_io z + 1) z)). split; [|red; eauto].
    cbn [x_sent set_x_io set_x_sent]. cbn [rev]. rewrite peer_after_app. fold y. cbn [peer_after fold_left]. rewrite P. reflexivity.
Qed.
Lemma keeps_reset c x : let z := reset_buffer c None x in
  x_nego z = x_nego x /\ x_msg_a z = x_msg_a x /\ x_cfg z = x_cfg x /\ x_sent z = x_sent x /\ x_chain_data z = x_chain_data x /\ x_my_chain z = x_my_chain x /\ x_conn z = x_conn x.
Proof. cbv zeta. unfold reset_buffer, reset_m, reset_c, reset_b. repeat (match goal with |- context [if ?b then _ else _] => destruct b end); repeat split; reflexivity. Qed.
Lemma select_common mine vs v : length vs = 3%nat -> In v mine -> In v vs -> (forall w, In w mine -> In w vs -> w <= v) -> select_version mine vs 3 = v.
Proof.
  intros L I J M. unfold select_version. change (N.to_nat 3) with 3%nat.
  assert (F : firstn 3 (sort_desc vs) = sort_desc vs) by (apply firstn_all2; rewrite sort_len, L; apply le_n). rewrite F. clear F.
  destruct (find _ _) as [u|] eqn:F.
  - apply find_max in F as (A & B & C); [|apply sort_desc_desc]. apply existsb_exists in B as (m & Im & Q). apply N.eqb_eq in Q. subst m.
    assert (u <= v) by (apply M; [exact Im|apply sort_in; exact A]). assert (v <= u). { apply C; [apply sort_in; exact J|]. apply existsb_exists. exists v. split; [exact I|apply N.eqb_refl]. } lia.
  - exfalso. assert (K := find_none _ _ F v ltac:(apply sort_in; exact J)). cbv beta in K. assert (existsb (N.eqb v) mine = true) by (apply existsb_exists; exists v; split; [exact I|apply N.eqb_refl]). congruence.
Qed.
Lemma append_two s b z : x_msg_a z = [] -> len s + len b <= MAX_A -> sbind (append_a s) (fun _ => append_a b) z = (Ok tt, set_x_msg_a (s ++ b) z).
Proof. intros Z L. unfold sbind. rewrite append_a_ok by (rewrite Z, len_nil; lia). rewrite append_a_ok by (cbn [x_msg_a set_x_msg_a]; rewrite Z; cbn [app]; exact L). rewrite Z. reflexivity. Qed.
Lemma sent_end a f x : x_sent (set_x_msg_a a (reset_runtime_info (modn f x))) = x_sent x. Proof. reflexivity. Qed.
(** *** GET_VERSION *)
Lemma get_version_runs E Er xr x v : e_tr E = e_tr Er -> SpecRetr.carries (e_tr Er) -> (forall i f, e_send Er i f = None) -> can_send x 4 ->
  let y := peer_after Er xr (rev (x_sent x)) in let mine := cf_versions (x_cfg x) in let theirs := cf_versions (x_cfg y) in
  length theirs = 3%nat -> Forall (fun v => v < 256) theirs -> In v mine -> In v theirs -> (forall w, In w mine -> In w theirs -> w <= v) -> known_version v = true ->
  exists x1, get_version (facing E Er xr) x = (Ok tt, x1) /\ ver x1 = v /\ x_cfg x1 = x_cfg x /\ n_rsp_dts (x_nego x1) = n_rsp_dts (x_nego x) /\ len (x_msg_a x1) = 16 /\
    let y1 := peer_after Er xr (rev (x_sent x1)) in x_conn y1 = CONN_AFTER_VERSION /\ x_nego y1 = nego_default /\ x_cfg y1 = x_cfg y /\ x_chain_data y1 = x_chain_data y /\ len (x_msg_a y1) = 16.
Proof.
  intros Tr Ca Sn Cs y mine theirs L3 F I J M Kn. set (x0 := reset_buffer RC_GET_VERSION None x).
  destruct (keeps_reset RC_GET_VERSION x) as (K1 & K2 & K3 & K4 & _). cbv zeta in *. fold x0 in K1, K2, K3, K4.
  destruct (keeps_reset RC_GET_VERSION y) as (Y1 & Y2 & Y3 & Y4 & Y5 & Y6 & Y7). cbv zeta in *.
  subst theirs. assert (Se := select_common mine (cf_versions (x_cfg y)) v L3 I J M). destruct (cf_versions (x_cfg y)) as [|a1 [|a2 [|a3 [|]]]] eqn:Cv; try discriminate L3.
  pose proof (write_version_ok 0 0 [] y a1 a2 a3 Cv) as W. set (y0 := reset_buffer RC_GET_VERSION None y) in *. set (s := [0x10; 0x84; 0; 0] : bytes) in *. set (w := PropReset.version_response [a1; a2; a3]) in *.
  pose proof (Forall_inv F) as B1. pose proof (Forall_inv (Forall_inv_tail F)) as B2. pose proof (Forall_inv (Forall_inv_tail (Forall_inv_tail F))) as B3. cbv beta in B1, B2, B3.
  assert (Bw : bytes_ok w) by (unfold w, PropReset.version_response; cbn [flat_map app]; repeat (apply Forall_cons; [first [assumption|reflexivity]|]); apply Forall_nil).
  assert (Bs : bytes_ok s) by (repeat constructor).
  assert (Cs0 : can_send x0 (len s)) by (unfold can_send; rewrite K1; exact Cs).
  assert (W0 : write_version s (peer_after Er xr (rev (x_sent x0))) = (Ok w, set_x_msg_a (s ++ w) (reset_context y0))) by (rewrite K4; exact W).
  assert (Sz : x_sent (set_x_msg_a (s ++ w) (reset_context y0)) = x_sent (peer_after Er xr (rev (x_sent x0)))) by (rewrite K4; exact Y4).
  assert (Dm : dispatch_message Er s = sbind (write_version s) (send_message Er)) by (rewrite dispatch_version by reflexivity; unfold handle_version; reflexivity).
  assert (Tl : too_large (set_x_msg_a (s ++ w) (reset_context y0)) w = false) by reflexivity.
  assert (Ls : len s <= 4000) by (vm_compute; discriminate). assert (Lw : len w <= 4000) by (vm_compute; discriminate).
  destruct (exchange_runs E Er xr s x0 write_version 4 CONN_AFTER_VERSION w (set_x_msg_a (s ++ w) (reset_context y0)) Tr Ca Sn Bs Ls eq_refl Cs0 Dm W0 Sz Bw Lw eq_refl eq_refl Tl after_version) as (x1 & x2 & S1 & S2 & (i & l & S3) & y2 & P & (i' & l' & P2)).
  assert (Zf : let z := set_x_msg_a (s ++ w) (reset_context y0) in x_nego z = nego_default /\ x_cfg z = x_cfg y /\ x_chain_data z = x_chain_data y /\ x_msg_a z = s ++ w) by (cbv zeta; rewrite <- Y3, <- Y5; repeat split; reflexivity).
  clear W Dm Tl Sz W0. cbv zeta in Zf. set (z := set_x_msg_a (s ++ w) (reset_context y0)) in *. clearbody z. destruct Zf as (Z1 & Z2 & Z3 & Z4). clear Y1 Y2 Y3 Y4 Y5 Y6 Y7. clearbody y0 y.
  assert (L16 : len (s ++ w) = 16) by reflexivity.
  set (b := w) in *.
    assert (H : handle_version_rsp s b x2 = (Ok tt, set_x_msg_a (s ++ b) (reset_runtime_info (modn (set_n_version v) x2)))).
    { unfold handle_version_rsp, on_response_any. assert (Rh : read_header b = Some (mkHeader 0x10 4, skipn 2 b)) by reflexivity. rewrite Rh. unfold on_code. cbn [h_code]. change (4 =? RC_VERSION) with true. cbv iota.
      unfold reading. rewrite bind_rd. assert (D : dec_version_rsp (skipn 2 b) = POk (mkVersionRsp 3 [mkVer 0 a1; mkVer 0 a2; mkVer 0 a3]) []) by reflexivity. rewrite D. cbn [vr_versions vr_count map vs_version].
      rewrite bind_mod, bind_get, S3. cbn [x_cfg set_x_sent set_x_io]. rewrite K3. fold mine. rewrite Se.
      rewrite bind_fail. change (ver (modn (set_n_version v) (set_x_sent l (set_x_io i x0)))) with v. rewrite Kn. cbn [negb]. rewrite bind_mod. set (z' := reset_runtime_info _). assert (Z : x_msg_a z' = []) by reflexivity. clearbody z'. exact (append_two s b z' Z ltac:(vm_compute; discriminate)). }
    exists (set_x_msg_a (s ++ b) (reset_runtime_info (modn (set_n_version v) x2))). split.
    + unfold get_version. rewrite bind_mod. fold x0. unfold sbind at 1. rewrite (req_enc_fwd get_version_msg s x0); [|reflexivity|reflexivity|vm_compute; discriminate]. unfold sbind at 1. rewrite S1. unfold sbind at 1. rewrite S2. exact H.
    + split; [reflexivity|]. split; [rewrite S3; exact K3|]. split; [rewrite S3; change (n_rsp_dts (x_nego x0) = n_rsp_dts (x_nego x)); rewrite K1; reflexivity|]. split; [reflexivity|].
      cbv zeta. rewrite sent_end, P, P2. cbn [x_conn x_nego x_cfg x_chain_data x_msg_a set_x_conn set_x_sent set_x_io set_x_msg_a].
      split; [reflexivity|]. split; [exact Z1|]. split; [exact Z2|]. split; [exact Z3|rewrite Z4; exact L16].
Qed.
(** *** GET_CAPABILITIES *)
Definition flags_of (f : N) (v : N) (ct : N) (c : config) : capabilities :=
  if 0x12 <=? v then mkCaps ct f (cf_dts c) (cf_max c) else mkCaps ct f 0 0.
Lemma sizes_fine c : 52 <= cf_dts c -> cf_dts c <= cf_max c -> cf_max c < 2 ^ 32 -> sizes_consistent (cf_dts c) (cf_max c).
Proof. intros A B C. split; [lia|]. split; [exact B|exact C]. Qed.
Lemma announcement_reads c v cfg : n_version (c_nego c) = v -> v = 0x11 \/ v = 0x12 -> settings_ok cfg -> req_caps_consistent v (cf_req_cap cfg) ->
  dec_get_capabilities c (skipn 2 (announcement v cfg)) = POk (flags_of (cf_req_cap cfg) v (cf_req_ct cfg) cfg) [].
Proof.
  intros Hv Cv S R. destruct S as (S1 & S2 & S3 & S4 & _ & _ & _ & _ & _ & _ & _ & _ & _ & _ & _ & D1 & D2 & D3). set (p := flags_of (cf_req_cap cfg) v (cf_req_ct cfg) cfg).
  assert (Ok : ok_get_capabilities c p).
  { unfold ok_get_capabilities, p, flags_of. change (version_of c) with (n_version (c_nego c)). rewrite Hv. destruct Cv as [-> | ->].
    - change (V11 <=? 17) with true. change (V12 <=? 17) with false. change (18 <=? 17) with false. cbv iota. cbn [cp_ct cp_flags cp_dts cp_max]. split; [split; [exact S3|]; split; [exact S1|exact R]|split; reflexivity].
    - change (V11 <=? 18) with true. change (V12 <=? 18) with true. change (18 <=? 18) with true. cbv iota. cbn [cp_ct cp_flags cp_dts cp_max]. split; [split; [exact S3|]; split; [exact S1|exact R]|apply sizes_fine; assumption]. }
  destruct (rt_get_capabilities c p Ok) as (w & W & _ & D).
  assert (Wx : xwire (enc_get_capabilities c p) = Some (skipn 2 (announcement v cfg))).
  { unfold enc_get_capabilities, p, flags_of, ver_ge, V11, V12, announcement. rewrite Hv. destruct Cv as [-> | ->].
    - change (17 <=? 17) with true. change (18 <=? 17) with false. cbv iota. cbn [cp_ct cp_flags cp_dts cp_max]. rewrite ?xwire_app, ?xw8, ?xw16, ?xw32; cbn [xwire]; rewrite ?app_nil_r; reflexivity.
    - change (17 <=? 18) with true. change (18 <=? 18) with true. cbv iota. cbn [cp_ct cp_flags cp_dts cp_max]. rewrite ?xwire_app, ?xw8, ?xw16, ?xw32; cbn [xwire]; rewrite ?app_nil_r; reflexivity. }
  rewrite Wx in W. assert (Ew : w = skipn 2 (announcement v cfg)) by congruence. specialize (D []). rewrite app_nil_r, Ew in D. exact D.
Qed.
Lemma capabilities_read c v cfg : n_version (c_nego c) = v -> v = 0x11 \/ v = 0x12 -> settings_ok cfg -> rsp_caps_consistent v (cf_rsp_cap cfg) ->
  dec_capabilities c (skipn 2 (capabilities_reply v cfg)) = POk (flags_of (cf_rsp_cap cfg) v (cf_rsp_ct cfg) cfg) [].
Proof.
  intros Hv Cv S R. destruct S as (S1 & S2 & S3 & S4 & _ & _ & _ & _ & _ & _ & _ & _ & _ & _ & _ & D1 & D2 & D3). set (p := flags_of (cf_rsp_cap cfg) v (cf_rsp_ct cfg) cfg).
  assert (Ok : ok_capabilities c p).
  { unfold ok_capabilities, p, flags_of. change (version_of c) with (n_version (c_nego c)). rewrite Hv. destruct Cv as [-> | ->].
    - change (V12 <=? 17) with false. change (18 <=? 17) with false. cbv iota. cbn [cp_ct cp_flags cp_dts cp_max]. split; [exact S4|]. split; [exact S2|]. split; [exact R|split; reflexivity].
    - change (V12 <=? 18) with true. change (18 <=? 18) with true. cbv iota. cbn [cp_ct cp_flags cp_dts cp_max]. split; [exact S4|]. split; [exact S2|]. split; [exact R|apply sizes_fine; assumption]. }
  destruct (rt_capabilities c p Ok) as (w & W & _ & D).
  assert (Wx : xwire (enc_capabilities c p) = Some (skipn 2 (capabilities_reply v cfg))).
  { unfold enc_capabilities, p, flags_of, ver_ge, V12, capabilities_reply. rewrite Hv. destruct Cv as [-> | ->].
    - change (18 <=? 17) with false. cbv iota. cbn [cp_ct cp_flags cp_dts cp_max]. rewrite ?xwire_app, ?xw8, ?xw16, ?xw32; cbn [xwire]; rewrite ?app_nil_r; reflexivity.
    - change (18 <=? 18) with true. cbv iota. cbn [cp_ct cp_flags cp_dts cp_max]. rewrite ?xwire_app, ?xw8, ?xw16, ?xw32; cbn [xwire]; rewrite ?app_nil_r; reflexivity. }
  rewrite Wx in W. assert (Ew : w = skipn 2 (capabilities_reply v cfg)) by congruence. specialize (D []). rewrite app_nil_r, Ew in D. exact D.
Qed.
Lemma write_capability_fwd v cfg y p : x_conn y = CONN_AFTER_VERSION -> 0x10 <= v -> 
  (forall c, n_version (c_nego c) = v -> dec_get_capabilities c (skipn 2 (announcement v cfg)) = POk p []) ->
  len (x_msg_a y) + len (announcement v cfg) + len (capabilities_reply v (x_cfg y)) <= MAX_A ->
  exists z, write_capability (announcement v cfg) y = (Ok (capabilities_reply v (x_cfg y)), z) /\
    x_nego z = RspConn.take_capabilities (x_cfg y) p (set_n_version v (x_nego y)) /\ x_cfg z = x_cfg y /\ x_chain_data z = x_chain_data y /\ x_sent z = x_sent y /\
    x_msg_a z = x_msg_a y ++ announcement v cfg ++ capabilities_reply v (x_cfg y).
Proof.
  intros Hc Hv D L. unfold write_capability. rewrite bind_get, Hc. change (CONN_AFTER_VERSION =? CONN_AFTER_VERSION) with true. cbv iota.
  assert (Rh : read_header (announcement v cfg) = Some (mkHeader v 0xE1, skipn 2 (announcement v cfg))) by (unfold announcement; reflexivity). rewrite Rh. cbn [h_version].
  rewrite (proj2 (N.leb_le _ _) Hv). rewrite !bind_mod.
  destruct (keeps_reset RC_GET_CAPABILITIES (modn (set_n_version v) y)) as (K1 & K2 & K3 & K4 & K5 & K6 & K7). cbv zeta in *. set (y0 := reset_buffer RC_GET_CAPABILITIES None (modn (set_n_version v) y)) in *. clearbody y0.
  unfold modn in K1, K2, K3, K4, K5, K6, K7. cbn [x_nego x_msg_a x_cfg x_sent x_chain_data set_x_nego] in K1, K2, K3, K4, K5.
  rewrite bind_rd. rewrite D by (change (n_version (x_nego y0) = v); rewrite K1; reflexivity). rewrite bind_mod.
  set (a := announcement v cfg) in *. set (m := capabilities_reply v (x_cfg y)) in *.
  assert (U : used_of a [] = a) by (rewrite <- (app_nil_r a) at 1; apply used_app). rewrite U.
  set (y1 := modn (RspConn.take_capabilities (x_cfg y) p) y0).
  assert (Y : x_nego y1 = RspConn.take_capabilities (x_cfg y) p (set_n_version v (x_nego y)) /\ x_cfg y1 = x_cfg y /\ x_chain_data y1 = x_chain_data y /\ x_sent y1 = x_sent y /\ x_msg_a y1 = x_msg_a y).
  { unfold y1, modn. cbn [x_nego x_msg_a x_cfg x_sent x_chain_data set_x_nego]. rewrite K1. repeat split; assumption. }
  clearbody y1. destruct Y as (Y1 & Y2 & Y3 & Y4 & Y5).
  unfold tryelse at 1, scatch at 1. rewrite append_a_ok by (rewrite Y5; lia). cbv beta iota. rewrite Y5. set (y2 := set_x_msg_a (x_msg_a y ++ a) y1). rewrite bind_get.
  change (x_cfg y2) with (x_cfg y1). assert (V2 : ver y2 = v). { change (n_version (x_nego y1) = v). rewrite Y1. apply take_caps_version. }
  unfold encode_or_err, sbind at 1, wenc. rewrite (emit_capabilities (xc y2) (ver y2) (x_cfg y1) eq_refl). cbv beta iota. cbn [fst snd]. rewrite V2, Y2. fold m.
  unfold then_append, tryelse, scatch. rewrite append_a_ok by (unfold y2; cbn [x_msg_a set_x_msg_a]; rewrite len_app; lia). cbv beta iota. unfold sret. eexists. split; [reflexivity|]. unfold y2. cbn [x_nego x_msg_a x_cfg x_sent x_chain_data set_x_msg_a].
  rewrite app_assoc. auto 10.
Qed.
Lemma after_caps2 a : after_send 0x61 a = (Ok tt, set_x_conn CONN_AFTER_CAPABILITIES a). Proof. reflexivity. Qed.
Lemma dispatch_caps E v cfg : dispatch_message E (announcement v cfg) = sbind (write_capability (announcement v cfg)) (send_message E).
Proof. unfold announcement. reflexivity. Qed.
(** a message fits what the receiver announced *)
Definition room (dts n : N) : Prop := dts = 0 \/ n <= dts.
Lemma room_large dts n (c : bytes) : room dts n -> len c <= n -> (negb (dts =? 0) && (dts <? len c))%bool = false.
Proof. intros [-> |R] L; [reflexivity|]. apply Bool.andb_false_iff. right. apply N.ltb_ge. lia. Qed.
