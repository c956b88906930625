(** KEY_EXCHANGE between the library's two ends. *)
From Verif Require Import Bytes BytesFacts Status Codec Parse ParseProofs Algo Monad MsgConn MsgAuth MsgSession MsgOther Message Opaque SpecMsg MsgProofs MsgRound MsgRound2.
From Verif Require Import Transport Crypto KeySchedule Session Signing CertOps ChainVerify Context SessionProofs
  RspBase RspConn RspSess RspEncap Responder StRel RspFrame RspCalm RspOpcode RspPass RspEst RspTable ReqBase ReqConn ReqSess SpecReq ReqFrame ReqAnswer SpecSession SpecAuth ReqTrans ReqSplit ReqHist ReqAuth ReqOpen SpecHand ReqHand ReqHand2 ReqHand3 SpecKeys KeyProofs SpecPair RspPair Pair Twin ReqTwin RspTwin WireTwin PropTable SpecRetr PairTwin KxTwin KxWire.
From Verif Require Import SpecShare.
From Coq Require Import Lia.
Local Open Scope N_scope.

Lemma dec_kx_same c d : c_need_sum c = c_need_sum d -> same_nego (c_nego c) (c_nego d) -> in_clear c = in_clear d -> dec_key_ex_rsp c = dec_key_ex_rsp d.
Proof.
  intros S N I. destruct (nego_eqs _ _ N) as (_ & Nh & Nd & _ & _ & Na & _). unfold dec_key_ex_rsp, dec_exchange, dec_digest, dec_signature, c_dhe_size, c_hash_size, c_asym_size. rewrite S, I, Nh, Nd, Na. reflexivity.
Qed.
Lemma chash_public c d a s : public c = public d -> certchain_hash c a false s = certchain_hash d a false s.
Proof. intro P. assert (K : cr_hash c = cr_hash d) by exact (f_equal cr_hash P). unfold certchain_hash. destruct s; [rewrite K|]; reflexivity. Qed.
Definition kx_reply_of (Er : env) (y : ctx) (v t slot h policy : N) (s rq share : bytes) : Prop :=
  let ny := set_n_term_policy (N.land policy 1 =? 1) (x_nego y) in
  forall w yw, write_key_exchange Er (v :: RC_KEY_EXCHANGE :: rq) y = (Ok w, yw) -> exists n2 sg2 t2 sg mac q2 b2 rfin rch rkey rsh, x_nego yw = ny /\ hash_size (n_hash (x_nego y)) = Some n2 /\ asym_size (n_asym (x_nego y)) = Some sg2 /\ bytes_ok w /\ len w <= 3000 /\
     get_sess (session_id q2 h) yw = Some b2 /\ q2 < 65536 /\ cr_dhe_public (e_cr Er) (n_dhe (x_nego y)) rkey = Some rsh /\ cr_dhe_final (e_cr Er) (n_dhe (x_nego y)) rkey share = Some rfin /\
     certchain_hash (e_cr Er) (n_hash (x_nego y)) false (slot_of (x_my_chain y) slot) = Some rch /\
     (exists b1 i0, kx_prog (e_cr Er) (v) rfin (x_msg_a y) rch ((s ++ t2) ++ sg) mac (kx_init Er (x_nego y) 0 (session_id q2 h) i0) = (Ok tt, b1) /\ core b2 = core b1) /\
     forall pd, exists rr pp, w ++ pd = v :: RC_KEY_EXCHANGE_RSP :: rr /\ dec_key_ex_rsp (mkCctx ny (kind t) (x_need_sig y)) rr = POk pp pd /\ kr_session pp = q2 /\ kr_mut_auth pp = 0 /\ v_bytes (kr_exchange pp) = rsh /\ v_bytes (kr_sig pp) = sg /\ v_bytes (kr_verify pp) = mac /\ used_of (w ++ pd) pd = w /\ drop_last (sg2 + n2) w = Ok t2.
Lemma kx_reply_wire Er y v t slot h s rq share pq pad : well_sized (e_cr Er) -> shares_ok (e_cr Er) -> signs_bytes (e_cr Er) -> e_mut_auth Er = false -> tok y -> v < 256 ->
  cf_heartbeat (x_cfg y) < 256 -> Forall (fun v => v < 256) (cf_secver (x_cfg y)) -> in_clear (xc y) = false -> h < 65536 ->
  dec_key_ex (xc y) rq = POk pq pad -> kx_session pq = h -> kx_hash_type pq = t -> kx_slot pq = slot -> v_bytes (kx_exchange pq) = share -> used_of (v :: RC_KEY_EXCHANGE :: rq) pad = s ->
  kx_reply_of Er y v t slot h (kx_policy pq) s rq share.
Proof.
  intros (Drr & Hh & Hm & Su) Shr Sgb Mua Tk Hv Hb Fv Cly Lhf Dq Q1 Q2 Q3 Q5 Q4. unfold kx_reply_of. set (ny := set_n_term_policy (N.land (kx_policy pq) 1 =? 1) (x_nego y)).
  intros w yw W. assert (Ms : rsp_mut_auth Er = 0) by (unfold rsp_mut_auth; rewrite Mua; reflexivity).
    destruct (write_kx_inv _ _ _ _ _ _ _ _ Tk ltac:(rewrite Q1; exact Lhf) Dq Cly W) as (sum & op & q2 & rkey & rsh & rfin & rch & random & sg2 & n2 & w0 & t2 & sg & mac & i0 & b1 & b2 & V3 & L3 & Hn2 & Ha2 & Sm & (Lr & ri & Rr) & Rp & Rf & Rc & Op & Ew & Dl2 & (sm & Sgn) & (a1 & a2 & a3 & Hmac) & Pl & Pr2 & G3 & Co2 & N6 & M6).
    fold ny in Op, Ew, N6. rewrite Q1, Q2, Q3, Q4, Q5, Ms in *. destruct (select_ok _ _ _ _ Fv Op) as [Oo Bo]. destruct (Hm _ _ _ _ Hmac) as [_ Bm]. destruct (Shr _ _ _ Rp) as [Rs Rb].
    assert (Sm' : if kind t then exists d, sum = v_of 64 d /\ len d = n2 /\ bytes_ok d else sum = v_default 64).
    { unfold summary_of in Sm. destruct (kind t); [|exact Sm]. destruct Sm as (d & Sd & ->). destruct (Su _ _ _ _ _ _ Sd) as [Ld Bd]. exists d. split; [reflexivity|]. split; [congruence|exact Bd]. }
    assert (Cln : in_clear (mkCctx ny (kind t) (x_need_sig y)) = false) by exact Cly.
    pose proof (fun pd => kx_response_wire (mkCctx ny (kind t) (x_need_sig y)) (v) (cf_heartbeat (x_cfg y)) q2 random rsh sum op sg2 n2 w0 sg mac w t2 pd Hn2 Ha2 Cln Hv Hb L3 Lr (Drr _ _ _ Rr) Rs Rb Sm' Oo Bo (Sgb _ _ _ _ Sgn) Bm Ew Dl2 Pl) as K.
    exists n2, sg2, t2, sg, mac, q2, b2, rfin, rch, rkey, rsh. destruct (K []) as (_ & _ & _ & _ & _ & _ & _ & _ & _ & _ & _ & Bw & Lw). split; [exact N6|]. split; [exact Hn2|]. split; [exact Ha2|]. split; [exact Bw|]. split; [exact Lw|]. split; [exact G3|]. split; [exact L3|]. split; [exact Rp|]. split; [exact Rf|]. split; [exact Rc|]. split; [exists b1, i0; split; [exact Pr2|exact Co2]|].
    intro pd. destruct (K pd) as (rr & pp & K1 & K2 & K3 & K4 & K5 & K6 & K7 & K8 & K9 & _). exists rr, pp. auto 12.
Qed.
Lemma kx_exchange_twins E Er xr slot t x id x1 : public (e_cr E) = public (e_cr Er) -> e_tr E = e_tr Er -> carries (e_tr Er) -> draws_bytes (e_cr E) -> well_sized (e_cr Er) ->
  shares_ok (e_cr E) -> shares_ok (e_cr Er) -> agreement (e_cr E) (e_cr Er) -> signs_bytes (e_cr Er) -> e_mut_auth Er = false ->
  let y := peer_after Er xr (rev (x_sent x)) in let y1 := peer_after Er xr (rev (x_sent x1)) in
  rtok x -> tok y -> same_nego (x_nego x) (x_nego y) -> x_msg_a x = x_msg_a y -> ver x < 256 -> cf_policy (x_cfg x) < 256 -> cf_heartbeat (x_cfg y) < 256 -> Forall (fun v => v < 256) (cf_secver (x_cfg y)) ->
  in_clear (xc x) = false -> in_clear (xc y) = false -> slot_of (x_peer_chain x) slot = slot_of (x_my_chain y) slot -> summary_type_ok (xc x) t ->
  key_exchange_req (facing E Er xr) slot t x = (Ok id, x1) ->
  id < 2 ^ 32 /\ same_nego (x_nego x1) (x_nego y1) /\ x_nego x1 = x_nego x /\ n_req_cap (x_nego y1) = n_req_cap (x_nego y) /\
  exists a b, get_sess id x1 = Some a /\ get_sess id y1 = Some b /\ core a = core b /\ s_state a = SHandshaking /\ s_use_psk a = false /\ s_mut_auth a = 0.
Proof.
  intros Pu Tr Ca Dr (Drr & Hh & Hm & Su) Shq Shr Agr Sgb Mua y y1 Rt Tk Sn Ma Hv Hpol Hb Fv Clx Cly Sl Ht H. destruct (nego_eqs _ _ Sn) as (Nv & Nh & Nd & Na & Nk & Nas & Nc & _). assert (Vy : ver x = ver y) by exact Nv.
  assert (T256 : t < 256) by (destruct Ht as [->|[[->| ->] _]]; reflexivity).
  unfold key_exchange_req in H. apply sbind_inv in H as (u0 & x' & P & H). apply fail_inv in P as [Ns ->]. assert (S8 : slot < 8) by (destruct (N.leb_spec 8 slot); [discriminate|assumption]). assert (S256 : slot < 256) by lia. clear Ns.
  rewrite bind_get in H. apply sbind_inv in H as (h & x' & P & H). apply of_inv in P as [Hf ->]. pose proof (half_small _ _ _ Hf) as Lhf. rewrite bind_mod in H.
  destruct (reset_none RC_KEY_EXCHANGE x) as (A0 & B0 & _). destruct (around_eqs _ _ A0) as (N0 & C0 & V0 & M0 & S0).
  assert (Cf0 : x_cfg (reset_buffer RC_KEY_EXCHANGE None x) = x_cfg x /\ x_peer_chain (reset_buffer RC_KEY_EXCHANGE None x) = x_peer_chain x) by (unfold around in A0; split; congruence). destruct Cf0 as [Cf0 Pc0].
  assert (Rt0 : rtok (reset_buffer RC_KEY_EXCHANGE None x)) by (unfold rtok; rewrite B0; exact Rt). set (x0 := reset_buffer RC_KEY_EXCHANGE None x) in *. clearbody x0.
  apply sbind_inv in H as ([k s] & x2 & P & H). cbn [fst snd] in H.
  destruct (kx_request_wire _ _ _ _ _ _ _ _ Dr Shq ltac:(rewrite V0; exact Hv) T256 S256 Lhf ltac:(rewrite Cf0; exact Hpol) P) as (nonce & share & opaque & Lnon & Dpub & Dsz & Lo & Es & Bs & A2 & B2). clear P.
  destruct (around_eqs _ _ A2) as (N2 & C2 & V2 & M2 & S2). pose proof (dhe_le _ _ Dsz) as L96. assert (Pc2 : x_peer_chain x2 = x_peer_chain x) by (unfold around in A2; congruence).
  apply sbind_inv in H as (u & x3 & P1 & H). apply sbind_inv in H as (b & x4 & P2 & H).
  assert (Ls : len s <= 4000). { rewrite Es. unfold key_exchange_message. rewrite !len_app. assert (forall k v, len (le_bytes k v) = N.of_nat k) as Ll by (intros; unfold len; rewrite le_bytes_length; reflexivity). rewrite !Ll. assert (len nonce = 32) by (unfold len; rewrite Lnon; reflexivity). unfold len at 1 2. cbn [length]. lia. }
  destruct (plain_exchange _ _ _ _ _ _ _ _ _ Tr Ca Bs Ls P1 P2) as (tf & pad & r & z & f & X4 & Z & Dp & Lz & Hd & Df & R4). clear P1 P2.
  assert (Sx : x_sent x2 = x_sent x) by (rewrite S2; exact S0). rewrite Sx in X4, Dp, Lz. fold y in Dp, Lz.
  destruct (around_rest _ _ R4) as (N4 & M4 & B4 & G4 & _). assert (Pc4 : x_peer_chain x4 = x_peer_chain x) by (unfold rest_of in R4; congruence).
  assert (Nx : x_nego x4 = x_nego x) by (rewrite N4, N2; exact N0). assert (Mx : x_msg_a x4 = x_msg_a x) by (rewrite M4, M2; exact M0). assert (Vx : ver x4 = ver x) by (unfold ver; rewrite Nx; reflexivity).
  assert (Rt4 : rtok x4) by (unfold rtok; rewrite B4, B2; exact Rt0). assert (Hf4 : get_next_half_session_id true x4 = Ok h) by (rewrite <- Hf; apply next_half_same; rewrite B4, B2; exact B0).
  assert (Cl4 : in_clear (xc x4) = false) by (unfold xc; unfold xc in Clx; rewrite Nx; exact Clx).
  destruct (handle_kx_prog _ _ _ _ _ _ _ _ _ _ Rt4 Hf4 Cl4 H) as (r1 & p & rest & final & chash & n1 & sg1 & u1 & s0 & s1 & s2 & Eb & D & Eid & Dfin & Chq & Hn1 & Ha1 & Dl & Pr & G2 & Co & N5 & S5). clear H.
  (* the responder *)
  assert (Ht' : summary_type_ok (xc y) t). { unfold summary_type_ok, peer_has, xc in Ht |- *. cbn [c_nego] in Ht |- *. rewrite <- Nc. exact Ht. }
  rewrite V0, Cf0 in Es. rewrite N0 in Dpub, Dsz. assert (Dszy : dhe_size (n_dhe (c_nego (xc y))) = Some (len share)) by (cbn [xc c_nego]; rewrite <- Nd; exact Dsz).
  destruct (kx_request_read (xc y) (ver x) t slot h (cf_policy (x_cfg x)) nonce share opaque pad Ht' Vy S256 Lhf Hpol Lnon Dszy Lo) as (rq & pq & Er1 & Dq & Q1 & Q2 & Q3 & Q5 & Q4). rewrite <- Es in Er1, Q4. rewrite Er1 in Dp.
  change (dispatch_message Er (ver x :: RC_KEY_EXCHANGE :: rq)) with (sbind (write_key_exchange Er (ver x :: RC_KEY_EXCHANGE :: rq)) (send_message Er)) in Dp.
  set (ny := set_n_term_policy (N.land (kx_policy pq) 1 =? 1) (x_nego y)) in *. assert (Sny : same_nego (x_nego x) ny) by exact Sn.
  assert (Wi := kx_reply_wire Er y (ver x) t slot h s rq share pq pad (conj Drr (conj Hh (conj Hm Su))) Shr Sgb Mua Tk Hv Hb Fv Cly Lhf Dq Q1 Q2 Q3 Q5 Q4). unfold kx_reply_of in Wi. fold ny in Wi.
  apply (sent_reply Er _ y r z f Ca (quiet_key_exchange Er _)) in Dp as [(pd & ve & Ed)|(w & yw & op & y2 & r' & W & Ow & Te & Re & Af)].
  - exfalso. rewrite Ed in Df. assert (Eb2 : b = error_bytes ve ERR_RESPONSE_TOO_LARGE ++ pd) by congruence. rewrite Eb in Eb2. cbn in Eb2. discriminate Eb2.
  - destruct (Wi _ _ W) as (n2 & sg2 & t2 & sg & mac & q2 & b2 & rfin & rch & rkey & rsh & Nw & Hn2 & Ha2 & Bw & Lw & G3 & L3 & Rp & Rf & Rc & (b1 & i0 & Pr2 & Co2) & K).
    destruct (Ca w Bw ltac:(lia)) as (f' & pd & _ & T1 & _ & _ & T2 & _). assert (f' = f) as -> by congruence. assert (b = w ++ pd) as Ebw by congruence.
    destruct (K pd) as (rr & pp & K1 & K2 & K3 & K4 & K5 & K6 & K7 & K8 & K9).
    rewrite <- Ebw in K1, K8. rewrite Eb, Vx in K1. assert (r1 = rr) as -> by congruence. clear K1.
    rewrite (dec_kx_same _ (mkCctx ny (kind t) (x_need_sig y))) in D; [|reflexivity|cbn [c_nego]; rewrite Nx; exact Sny|].
    2:{ transitivity false; [|symmetry; exact Cly]. unfold xc in Cl4. exact Cl4. }
    rewrite K2 in D. assert (pp = p) as -> by congruence. assert (rest = pd) as -> by congruence. clear D.
    rewrite Nx, Nh, Hn2 in Hn1. assert (n1 = n2) as -> by congruence. rewrite Nx, Nas, Ha2 in Ha1. assert (sg1 = sg2) as -> by congruence. rewrite K8, K9 in Dl. assert (u1 = t2) as -> by congruence.
    rewrite K3 in Eid. rewrite K6, K7, K4, Vx, Mx, Ma, Nx in Pr. rewrite Eid in *. clear Eid.
    assert (Ef : final = rfin). { rewrite K5, Nx in Dfin. change (cr_dhe_final (e_cr (facing E Er xr))) with (cr_dhe_final (e_cr E)) in Dfin. rewrite <- Nd in Rp, Rf. pose proof (Agr _ _ _ _ _ Dpub Rp) as Q. congruence. }
    assert (Ec : chash = rch). { rewrite Nx, Pc4, Sl, Nh in Chq. change (e_cr (facing E Er xr)) with (e_cr E) in Chq. rewrite (chash_public _ _ _ _ Pu) in Chq. congruence. }
    rewrite Ef, Ec in Pr.
    change (e_cr (facing E Er xr)) with (e_cr E) in Pr. rewrite kx_public, Pu, <- kx_public in Pr.
    destruct (kx_frame _ _ _ _ _ _ _ _ _ Pr) as (I1 & U1 & St1 & M1 & _).
    assert (Ci : core (kx_init (facing E Er xr) (x_nego x) 0 (session_id q2 h) s0) = core (kx_init Er (x_nego y) 0 (session_id q2 h) i0)).
    { apply kx_init_core; [exact Tr|exact Nh|exact Nd|exact Na|exact Nk]. }
    destruct (twins _ _ _ _ _ (blind_kx _ _ _ _ _ _ _) Ci Pr) as (b1' & Pr2' & Cb). assert (b1' = b1) as -> by congruence.
    destruct (K []) as (rr0 & pp0 & K0 & _). rewrite app_nil_r in K0. rewrite K0 in Ow. assert (op = RC_KEY_EXCHANGE_RSP) as -> by (cbn [opcode nth_error] in Ow; congruence).
    assert (Zy : z = y2) by (change (after_send RC_KEY_EXCHANGE_RSP y2) with (sret tt y2) in Af; unfold sret in Af; congruence).
    assert (Y1' : rest_of y1 = rest_of yw) by (unfold y1; rewrite S5, Z, Zy; exact Re). destruct (around_rest _ _ Y1') as (Ny & _ & By & _).
    split; [apply id_small; assumption|]. split; [rewrite N5, Nx, Ny, Nw; exact Sny|]. split; [rewrite N5; exact Nx|]. split; [rewrite Ny, Nw; reflexivity|].
    exists s2, b2. split; [exact G2|]. split; [unfold get_sess in G3 |- *; rewrite By; exact G3|]. split; [congruence|].
    assert (Cs : s_state s2 = s_state s1) by (change (s_state (core s2) = s_state (core s1)); rewrite Co; reflexivity). assert (Cu : s_use_psk s2 = s_use_psk s1) by (change (s_use_psk (core s2) = s_use_psk (core s1)); rewrite Co; reflexivity).
    assert (Cm : s_mut_auth s2 = s_mut_auth s1) by (change (s_mut_auth (core s2) = s_mut_auth (core s1)); rewrite Co; reflexivity).
    rewrite Cs, Cu, Cm, St1, U1, M1. repeat split; reflexivity.
  - intros w yw W. destruct (Wi _ _ W) as (n2 & sg2 & t2 & sg & mac & q2 & b2 & rfin & rch & rkey & rsh & Nw & _ & _ & _ & _ & _ & _ & _ & _ & _ & _ & K). destruct (K []) as (rr & pp & K1 & _). rewrite app_nil_r in K1. rewrite K1. split; [discriminate|].
    unfold ver. rewrite Nw. change (ver y < 256). rewrite <- Vy. exact Hv.
  - exact Lz.
  - exact Hd.
Qed.
