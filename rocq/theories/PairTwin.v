(** The two ends of a handshake, step by step. *)
From Verif Require Import Bytes BytesFacts Status Codec Parse ParseProofs Algo Monad MsgConn MsgAuth MsgSession MsgOther Message Opaque SpecMsg MsgProofs MsgRound MsgRound2.
From Verif Require Import Transport Crypto KeySchedule Session Signing CertOps ChainVerify Context SessionProofs
  RspBase RspConn RspSess RspEncap Responder StRel RspFrame RspCalm RspOpcode RspPass RspEst RspTable ReqBase ReqConn ReqSess SpecReq ReqFrame ReqAnswer SpecSession SpecAuth ReqTrans ReqSplit ReqHist ReqAuth ReqOpen SpecHand ReqHand ReqHand2 ReqHand3 SpecKeys KeyProofs SpecPair RspPair Pair Twin ReqTwin RspTwin WireTwin PropTable SpecRetr.
From Verif Require Import SpecShare.
From Coq Require Import Lia.
Local Open Scope N_scope.

Lemma peer_after_last Er xr t l : peer_after Er xr (rev (t :: l)) = snd (process_frame Er t (peer_after Er xr (rev l))).
Proof. unfold peer_after. cbn [rev]. rewrite fold_left_app. reflexivity. Qed.
Definition rest_of (z : ctx) := (x_nego z, x_msg_a z, x_cfg z, x_peer_chain z, x_my_chain z, x_need_sum z, x_need_sig z, x_sess z, x_last z).
Lemma rest_pre : preorder (fun y z => rest_of z = rest_of y). Proof. split; congruence. Qed.
Lemma rest_io_send E b : rel (fun y z => rest_of z = rest_of y) (io_send E b).
Proof. intros y r z H. unfold io_send in H. destruct (e_send _ _ _); match type of H with (_, ?q) = _ => replace z with q by congruence end; reflexivity. Qed.
Lemma rest_io_recv E : rel (fun y z => rest_of z = rest_of y) (io_recv E).
Proof. intros y r z H. unfold io_recv in H. match type of H with (_, ?q) = _ => replace z with q by congruence end; reflexivity. Qed.
Lemma send_frame E b y r z : req_send E b y = (r, z) -> rest_of z = rest_of y.
Proof. revert y r z. change (rel (fun y z => rest_of z = rest_of y) (req_send E b)). unfold req_send. rl rest_pre. apply rest_io_send. Qed.
Lemma recv_frame E c y r z : req_recv E c y = (r, z) -> rest_of z = rest_of y.
Proof. revert y r z. change (rel (fun y z => rest_of z = rest_of y) (req_recv E c)). unfold req_recv, req_timeout, decap. rl rest_pre. apply rest_io_recv. Qed.
(** one unprotected request of a requester facing the responder [xr] *)
Lemma plain_exchange E Er xr s x u x1 b x2 : e_tr E = e_tr Er -> carries (e_tr Er) -> bytes_ok s -> len s <= 4000 ->
  req_send (facing E Er xr) s x = (Ok u, x1) -> req_recv (facing E Er xr) false x1 = (Ok b, x2) ->
  exists t pad r z f, let y := peer_after Er xr (rev (x_sent x)) in
    x_sent x2 = t :: x_sent x /\ peer_after Er xr (rev (x_sent x2)) = z /\ is_ok (dispatch_message Er (s ++ pad)) y = (r, z) /\
    (length (x_sent y) < length (x_sent z))%nat /\ hd_error (x_sent z) = Some f /\ tr_decap (e_tr Er) MAX_SPDM_MSG_SIZE f = Ok (b, false) /\ rest_of x2 = rest_of x.
Proof.
  intros Tr Ca Bs Ls S R. pose proof (send_frame _ _ _ _ _ S) as F1. pose proof (recv_frame _ _ _ _ _ R) as F2.
  apply (send_on_ok _ None) in S as (t & _ & S1 & _ & S2). apply (recv_on_ok _ None) in R as (f & R1 & R2 & R3 & _).
  cbn [sent_as response_in] in *. unfold plain_response in R2. cbn [facing e_tr e_recv] in *. rewrite Tr in *. rewrite S1 in R1, R3. cbn [peer_reply] in R1.
  destruct (Ca _ Bs Ls) as (t' & pd & pad & T1 & _ & _ & _ & T2). assert (t' = t) as -> by congruence.
  destruct (process_frame Er t (peer_after Er xr (rev (x_sent x)))) as [r z] eqn:P. cbn [snd] in R1.
  exists t, pad, r, z, f. cbv zeta. split; [exact R3|]. split; [rewrite R3, peer_after_last, P; reflexivity|]. unfold process_frame in P. rewrite T2 in P. split; [exact P|].
  destruct (Nat.ltb_spec (length (x_sent (peer_after Er xr (rev (x_sent x))))) (length (x_sent z))) as [L|]; [|discriminate]. split; [exact L|]. split; [exact R1|]. split; [exact R2|]. congruence.
Qed.
(** a responder's reply, or ERROR in its place *)
Definition error_bytes (v code : N) : bytes := [v; 0x7F; code; 0].
Lemma write_err_run code y r z : write_err code [] y = (r, z) -> r = Ok (error_bytes (ver y) code) /\ z = y.
Proof.
  intro H. unfold write_err, write_err_data in H. rewrite bind_get in H. unfold sbind, wenc in H.
  assert (Em : emit (enc_message (xc y) (error_msg (ver y) code 0)) [] = Some (true, error_bytes (ver y) code)) by reflexivity. rewrite Em in H. cbn [snd] in H. unfold sret in H. split; congruence.
Qed.
Lemma send_raw_run E w y r z : send_raw E w y = (r, z) -> opcode w <> None ->
  x_sent z = x_sent y \/ exists f op y1, tr_encap (e_tr E) BUFFER_SIZE w false = Ok f /\ opcode w = Some op /\ rest_of y1 = rest_of y /\ x_sent y1 = f :: x_sent y /\ after_send op y1 = (r, z).
Proof.
  intros H No. unfold send_raw in H. unfold sbind at 1, sof in H. destruct (tr_encap (e_tr E) BUFFER_SIZE w false) as [f|e|]; [|left; congruence|left; congruence].
  unfold sbind at 1 in H. unfold io_send in H. destruct (e_send E (x_io y) f); [left; match type of H with (_, ?q) = _ => replace z with q by congruence end; reflexivity|].
  right. match type of H with _ ?q = _ => set (y1 := q) in * end. destruct (opcode w) as [op|] eqn:O; [|contradiction]. exists f, op, y1. split; [reflexivity|]. split; [reflexivity|]. split; [reflexivity|]. split; [reflexivity|].
  unfold sbind, sunwrap, sret in H. exact H.
Qed.

Lemma quiet_after_send op : rel quiet (after_send op).
Proof. unfold after_send. repeat (match goal with |- context [if ?b then _ else _] => destruct b end); rl quiet_pre; first [apply quiet_on_sess | apply rel_mod; intro; split; reflexivity | intros y r z H; unfold smod in H; match type of H with (_, ?q) = _ => replace z with q by congruence end; repeat (match goal with |- context [if ?b then _ else _] => destruct b end); split; reflexivity]. Qed.
Lemma sent_reply E (wr : st ctx bytes) y r z f : carries (e_tr E) -> rel quiet wr -> (forall w y1, wr y = (Ok w, y1) -> opcode w <> None /\ ver y1 < 256) ->
  is_ok (sbind wr (send_message E)) y = (r, z) -> (length (x_sent y) < length (x_sent z))%nat -> hd_error (x_sent z) = Some f ->
  (exists pad v, tr_decap (e_tr E) MAX_SPDM_MSG_SIZE f = Ok (error_bytes v ERR_RESPONSE_TOO_LARGE ++ pad, false)) \/
  exists w y1 op y2 r', wr y = (Ok w, y1) /\ opcode w = Some op /\ tr_encap (e_tr E) BUFFER_SIZE w false = Ok f /\ rest_of y2 = rest_of y1 /\ after_send op y2 = (r', z).
Proof.
  intros Ca Qw Ow H L Hf. unfold is_ok, scatch in H. destruct (sbind wr (send_message E) y) as [r0 z0] eqn:M. assert (z0 = z) as -> by (destruct r0; unfold sret in H; congruence). clear H.
  unfold sbind in M. destruct (wr y) as [[w|e|] y1] eqn:W; pose proof (Qw _ _ _ W) as [Q1 Q2].
  2,3: exfalso; assert (y1 = z) as -> by congruence; rewrite Q1 in L; lia.
  unfold send_message in M. rewrite bind_get in M. destruct (too_large y1 w) eqn:TL.
  - left. unfold sbind in M. destruct (write_err ERR_RESPONSE_TOO_LARGE [] y1) as [r1 z1] eqn:We. destruct (write_err_run _ _ _ _ We) as [-> ->].
    match type of M with context [if ?c then _ else _] => destruct c end; [exfalso; unfold spanic in M; cbv beta in M; assert (y1 = z) as -> by congruence; rewrite Q1 in L; lia|].
    apply send_raw_run in M as [K|(f0 & op & y2 & T & O & R & S & A)]; [exfalso; rewrite K, Q1 in L; lia| |discriminate].
    pose proof (quiet_after_send _ _ _ _ A) as [Qa _].
    rewrite Qa, S in Hf. assert (f0 = f) as -> by (cbn in Hf; congruence).
    destruct (Ca (error_bytes (ver y1) ERR_RESPONSE_TOO_LARGE)) as (t' & pad & _ & T1 & _ & _ & T2 & _).
    { repeat constructor. exact (proj2 (Ow _ _ eq_refl)). } { vm_compute. discriminate. }
    assert (t' = f) as -> by congruence. eauto.
  - right. destruct (send_raw_run _ _ _ _ _ M (proj1 (Ow _ _ eq_refl))) as [K|(f0 & op & y2 & T & O & R & S & A)]; [exfalso; rewrite K, Q1 in L; lia|].
    pose proof (quiet_after_send _ _ _ _ A) as [Qa _]. rewrite Qa, S in Hf. assert (f0 = f) as -> by (cbn in Hf; congruence). exists w, y1, op, y2, r0. auto.
Qed.
Lemma around_rest z x : rest_of z = rest_of x -> x_nego z = x_nego x /\ x_msg_a z = x_msg_a x /\ x_sess z = x_sess x /\ x_need_sig z = x_need_sig x /\ x_cfg z = x_cfg x.
Proof. unfold rest_of. intro H. repeat split; congruence. Qed.
(** the parameters on which the two ends agree; the requester's capabilities and the CT exponents are
    left out (an SPDM 1.0 GET_CAPABILITIES does not carry them), and so are the buffer sizes (only SPDM 1.2
    exchanges them) and the responder's own end-of-session policy *)
Definition forget (n : nego) : nego :=
  mkNego (n_version n) 0 (n_rsp_cap n) 0 0 (n_mspec n) (n_mhash n) (n_hash n) (n_asym n) (n_dhe n) (n_aead n) (n_req_asym n) (n_ks n) (n_opaque n) false 0 0 0 0.
Definition same_nego (n m : nego) : Prop := forget n = forget m.
Lemma nego_eqs n m : same_nego n m -> n_version n = n_version m /\ n_hash n = n_hash m /\ n_dhe n = n_dhe m /\ n_aead n = n_aead m /\ n_ks n = n_ks m /\ n_asym n = n_asym m /\ n_rsp_cap n = n_rsp_cap m /\ n_mspec n = n_mspec m /\ n_opaque n = n_opaque m.
Proof. unfold same_nego. intro H. assert (K : forall {A} (f : nego -> A), (forall q, f (forget q) = f q) -> f n = f m) by (intros A f F; rewrite <- (F n), <- (F m), H; reflexivity). repeat split; apply K; reflexivity. Qed.
Lemma psk_prog_mac_state cr v w t mac s s' : psk_prog cr v w t mac s = (Ok tt, s') -> s_id s' = s_id s /\ s_use_psk s' = s_use_psk s /\ s_state s' = (if w then SEstablished else SHandshaking) /\ s_mut_auth s' = s_mut_auth s /\ s_f_init s' = s_f_init s.
Proof.
  intro H. unfold psk_prog, exchange_prog in H. apply sbind_inv in H as (u & s1 & H1 & H2). rewrite bind_mod in H1. apply sbind_inv in H1 as (th & s2 & P & H1).
  unfold th_now in P. rewrite bind_get in P. apply of_inv in P as [_ ->]. apply sbind_inv in H1 as (u1 & s2 & P & H1). apply handshake_ok in P as (_ & P & _). rewrite bind_mod in H1. apply mod_inv in H1. rewrite P in H1. clear P.
  unfold swhen in H2. destruct w.
  - unfold data_prog in H2. apply sbind_inv in H2 as (th2 & s3 & P & H2). unfold th_now in P. rewrite bind_get in P. apply of_inv in P as [_ ->]. apply sbind_inv in H2 as (u2 & s3 & P & H2). apply data_frame in P. apply mod_inv in H2. rewrite H2, P, H1. repeat split; reflexivity.
  - apply ret_inv in H2 as [_ ->]. rewrite H1. repeat split; reflexivity.
Qed.
Lemma next_half_le b l : forall i h, next_half b i l = Some h -> h <= INITIAL_SESSION_ID.
Proof. induction l as [|s l IH]; intros i h H; cbn in H; [discriminate|]. destruct (_ =? 0); [|exact (IH _ _ H)]. assert (INITIAL_SESSION_ID - i = h) by congruence. lia. Qed.
Lemma half_small b x h : get_next_half_session_id b x = Ok h -> h < 65536.
Proof. unfold get_next_half_session_id. destruct (next_half _ _ _) as [k|] eqn:N; [|discriminate]. intro H. assert (k = h) as -> by congruence. apply next_half_le in N. change INITIAL_SESSION_ID with 0xFFFD in N. lia. Qed.
Lemma dec_psk_ex_same c d : c_need_sum c = c_need_sum d -> same_nego (c_nego c) (c_nego d) -> dec_psk_ex_rsp c = dec_psk_ex_rsp d.
Proof.
  intros S N. change (dec_psk_ex_rsp c) with (dec_psk_ex_rsp (mkCctx (forget (c_nego c)) (c_need_sum c) false)). rewrite N, S. reflexivity.
Qed.
Lemma id_small rsp req : rsp < 65536 -> req < 65536 -> session_id rsp req < 2 ^ 32.
Proof. intros. unfold session_id. change (2 ^ 32) with (65536 * 65536). nia. Qed.
Lemma psk_exchange_twins E Er xr t hint x id x1 : public (e_cr E) = public (e_cr Er) -> e_tr E = e_tr Er -> carries (e_tr Er) -> draws_bytes (e_cr E) -> well_sized (e_cr Er) ->
  let y := peer_after Er xr (rev (x_sent x)) in let y1 := peer_after Er xr (rev (x_sent x1)) in
  rtok x -> tok y -> same_nego (x_nego x) (x_nego y) -> x_msg_a x = x_msg_a y -> ver x < 256 -> cf_heartbeat (x_cfg y) < 256 -> Forall (fun v => v < 256) (cf_secver (x_cfg y)) ->
  summary_type_ok (xc x) t -> v_size hint = len (v_bytes hint) -> len (v_bytes hint) <= 32 -> bytes_ok (v_bytes hint) ->
  psk_exchange_req (facing E Er xr) t hint x = (Ok id, x1) ->
  id < 2 ^ 32 /\ same_nego (x_nego x1) (x_nego y1) /\ x_nego x1 = x_nego x /\
  exists a b, get_sess id x1 = Some a /\ get_sess id y1 = Some b /\ core a = core b /\ s_state a = (if psk_no_ctx (xc x) then SEstablished else SHandshaking) /\ s_use_psk a = true.
Proof.
  intros Pu Tr Ca Dr (_ & Hh & Hm & Su) y y1 Rt Tk Sn Ma Hv Hb Fv Ht Sh Lh Bh H. destruct (nego_eqs _ _ Sn) as (Nv & Nh & Nd & Na & Nk & _ & Nc & _). assert (Vy : ver x = ver y) by exact Nv.
  assert (T256 : t < 256) by (destruct Ht as [->|[[->| ->] _]]; reflexivity).
  unfold psk_exchange_req in H. rewrite bind_mod, bind_get in H. destruct (reset_none RC_PSK_EXCHANGE x) as (A0 & B0 & _). destruct (around_eqs _ _ A0) as (N0 & C0 & V0 & M0 & S0).
  assert (Rt0 : rtok (reset_buffer RC_PSK_EXCHANGE None x)) by (unfold rtok; rewrite B0; exact Rt). set (x0 := reset_buffer RC_PSK_EXCHANGE None x) in *. clearbody x0.
  apply sbind_inv in H as (h & x' & P & H). apply of_inv in P as [Hf ->]. pose proof (half_small _ _ _ Hf) as Lhf.
  apply sbind_inv in H as (s & x2 & P & H). destruct (psk_request_wire _ _ _ _ _ _ _ Dr ltac:(rewrite V0; exact Hv) T256 Lhf Sh Bh P) as (context & opaque & n & Hn & Lc & Lo & Es & Bs & A2 & B2). clear P.
  destruct (around_eqs _ _ A2) as (N2 & C2 & V2 & M2 & S2). pose proof (hash_le _ _ Hn) as L64.
  apply sbind_inv in H as (u & x3 & P1 & H). apply sbind_inv in H as (b & x4 & P2 & H).
  assert (Ls : len s <= 4000). { rewrite Es. unfold psk_exchange_message. rewrite !len_app. assert (forall k v, len (le_bytes k v) = N.of_nat k) as Ll by (intros; unfold len; rewrite le_bytes_length; reflexivity). rewrite !Ll. unfold len at 1. cbn [length]. lia. }
  destruct (plain_exchange _ _ _ _ _ _ _ _ _ Tr Ca Bs Ls P1 P2) as (tf & pad & r & z & f & X4 & Z & Dp & Lz & Hd & Df & R4). clear P1 P2.
  assert (Sx : x_sent x2 = x_sent x) by (rewrite S2; exact S0). rewrite Sx in X4, Dp, Lz. fold y in Dp, Lz.
  destruct (around_rest _ _ R4) as (N4 & M4 & B4 & G4 & _).
  assert (Nx : x_nego x4 = x_nego x) by (rewrite N4, N2; exact N0). assert (Mx : x_msg_a x4 = x_msg_a x) by (rewrite M4, M2; exact M0). assert (Vx : ver x4 = ver x) by (unfold ver; rewrite Nx; reflexivity).
  assert (Rt4 : rtok x4) by (unfold rtok; rewrite B4, B2; exact Rt0). assert (Hf4 : get_next_half_session_id true x4 = Ok h) by (rewrite <- Hf; apply next_half_same; rewrite B4, B2; reflexivity).
  destruct (handle_psk_prog _ _ _ _ _ _ _ _ _ Rt4 Hf4 H) as (r1 & p & rest & n1 & u1 & s0 & s1 & s2 & Eb & D & Eid & Hn1 & Dl & Pr & G2 & Co & N5 & S5). clear H.
  (* the responder *)
  assert (Ht' : summary_type_ok (xc y) t). { unfold summary_type_ok, peer_has, xc in Ht |- *. cbn [c_nego] in Ht |- *. rewrite <- Nc. exact Ht. }
  rewrite V0 in Es. destruct (psk_request_read (xc y) (ver x) t h hint context opaque pad Ht' Lhf Sh Lh ltac:(lia) Lo) as (rq & pq & Er1 & Dq & Q1 & Q2 & Q3 & Q4). rewrite <- Es in Er1, Q4. rewrite Er1 in Dp.
  change (dispatch_message Er (ver x :: RC_PSK_EXCHANGE :: rq)) with (sbind (write_psk_exchange Er (ver x :: RC_PSK_EXCHANGE :: rq)) (send_message Er)) in Dp.
  assert (Wi : forall w yw, write_psk_exchange Er (ver x :: RC_PSK_EXCHANGE :: rq) y = (Ok w, yw) -> exists n2 t2 mac q2 b2, same_nego (x_nego x) (x_nego yw) /\ hash_size (n_hash (x_nego y)) = Some n2 /\ bytes_ok w /\ len w <= 2000 /\
     get_sess (session_id q2 h) yw = Some b2 /\ q2 < 65536 /\ (exists b1 i0, psk_prog (e_cr Er) (ver x) (psk_no_ctx (xc y)) (s ++ t2) mac (psk_init Er (x_nego y) (x_msg_a y) (v_bytes hint) (session_id q2 h) i0) = (Ok tt, b1) /\ core b2 = core b1) /\
     forall pd, exists rr pp, w ++ pd = ver x :: RC_PSK_EXCHANGE_RSP :: rr /\ dec_psk_ex_rsp (mkCctx (x_nego y) (kind t) (x_need_sig y)) rr = POk pp pd /\ pr_session pp = q2 /\ v_bytes (pr_verify pp) = mac /\ used_of (w ++ pd) pd = w /\ drop_last n2 w = Ok t2).
  { intros w yw W. destruct (write_psk_inv _ _ _ _ _ _ _ _ Tk ltac:(rewrite Q1; exact Lhf) Dq W) as (sum & cx & op & q2 & n2 & w0 & t2 & mac & i0 & b1 & b2 & V3 & L3 & Hn2 & Sm & Cx & Op & Ew & Dl2 & (a1 & a2 & a3 & Hmac) & Pl & Pr2 & G3 & Co2 & N6 & M6).
    rewrite Q1, Q2, Q3, Q4 in *. destruct (select_ok _ _ _ _ Fv Op) as [Oo Bo]. destruct (Hm _ _ _ _ Hmac) as [_ Bm].
    assert (Sm' : if kind t then exists d, sum = v_of 64 d /\ len d = n2 /\ bytes_ok d else sum = v_default 64).
    { unfold summary_of in Sm. destruct (kind t); [|exact Sm]. destruct Sm as (d & Sd & ->). destruct (Su _ _ _ _ _ _ Sd) as [Ld Bd]. exists d. split; [reflexivity|]. split; [congruence|exact Bd]. }
    pose proof (fun pd => psk_response_wire (mkCctx (x_nego y) (kind t) (x_need_sig y)) (ver x) (cf_heartbeat (x_cfg y)) q2 sum cx op n2 w0 mac w t2 pd Hn2 Hv Hb L3 Sm' Cx Oo Bo Bm Ew Dl2 Pl) as K.
    exists n2, t2, mac, q2, b2. destruct (K []) as (_ & _ & _ & _ & _ & _ & _ & _ & Bw & Lw). split; [rewrite N6; exact Sn|]. split; [exact Hn2|]. split; [exact Bw|]. split; [exact Lw|]. split; [exact G3|]. split; [exact L3|]. split; [exists b1, i0; split; [exact Pr2|exact Co2]|].
    intro pd. destruct (K pd) as (rr & pp & K1 & K2 & K3 & K4 & K5 & K6 & _). exists rr, pp. auto 10. }
  apply (sent_reply Er _ y r z f Ca (quiet_psk_exchange Er _)) in Dp as [(pd & ve & Ed)|(w & yw & op & y2 & r' & W & Ow & Te & Re & Af)].
  - exfalso. rewrite Ed in Df. assert (Eb2 : b = error_bytes ve ERR_RESPONSE_TOO_LARGE ++ pd) by congruence. rewrite Eb in Eb2. cbn in Eb2. discriminate Eb2.
  - destruct (Wi _ _ W) as (n2 & t2 & mac & q2 & b2 & Sn2 & Hn2 & Bw & Lw & G3 & L3 & (b1 & i0 & Pr2 & Co2) & K).
    destruct (Ca w Bw ltac:(lia)) as (f' & pd & _ & T1 & _ & _ & T2 & _). assert (f' = f) as -> by congruence. assert (b = w ++ pd) as Ebw by congruence.
    destruct (K pd) as (rr & pp & K1 & K2 & K3 & K4 & K5 & K6).
    rewrite <- Ebw in K1, K5. rewrite Eb, Vx in K1. assert (r1 = rr) as -> by congruence. clear K1.
    rewrite (dec_psk_ex_same _ (mkCctx (x_nego y) (kind t) (x_need_sig y))) in D by first [reflexivity | (cbn [c_nego]; rewrite Nx; exact Sn)].
    rewrite K2 in D. assert (pp = p) as -> by congruence. assert (rest = pd) as -> by congruence. clear D.
    rewrite Nx, Nh, Hn2 in Hn1. assert (n1 = n2) as -> by congruence. rewrite K5, K6 in Dl. assert (u1 = t2) as -> by congruence.
    rewrite K3 in Eid. rewrite K4, Vx, Mx, Ma, Nx in Pr. rewrite Eid in *. clear Eid.
    assert (Pn : psk_no_ctx (mkCctx (x_nego x) (kind t) (x_need_sig x4)) = psk_no_ctx (xc y)) by (unfold psk_no_ctx, rsp_has, xc; cbn [c_nego]; rewrite Nc; reflexivity).
    assert (Pn' : psk_no_ctx (xc x) = psk_no_ctx (xc y)) by (unfold psk_no_ctx, rsp_has, xc; cbn [c_nego]; rewrite Nc; reflexivity).
    change (psk_no_ctx (mkCctx (x_nego x) ((t =? 1) || (t =? 255)) (x_need_sig x4))) with (psk_no_ctx (mkCctx (x_nego x) (kind t) (x_need_sig x4))) in Pr. rewrite Pn in Pr.
    change (psk_prog (e_cr (facing E Er xr))) with (psk_prog (public (e_cr E))) in Pr. rewrite Pu in Pr. change (psk_prog (public (e_cr Er))) with (psk_prog (e_cr Er)) in Pr.
    destruct (psk_prog_mac_state _ _ _ _ _ _ _ Pr) as (I1 & U1 & St1 & _).
    assert (Ci : core (psk_init (facing E Er xr) (x_nego x) (x_msg_a y) (v_bytes hint) (session_id q2 h) s0) = core (psk_init Er (x_nego y) (x_msg_a y) (v_bytes hint) (session_id q2 h) i0)).
    { apply psk_init_core; [exact Tr|exact Nh|exact Nd|exact Na|exact Nk]. }
    destruct (twins _ _ _ _ _ (blind_psk _ _ _ _ _) Ci Pr) as (b1' & Pr2' & Cb). assert (b1' = b1) as -> by congruence.
    destruct (K []) as (rr0 & pp0 & K0 & _). rewrite app_nil_r in K0. rewrite K0 in Ow. assert (op = RC_PSK_EXCHANGE_RSP) as -> by (cbn [opcode nth_error] in Ow; congruence).
    assert (Zy : z = y2) by (change (after_send RC_PSK_EXCHANGE_RSP y2) with (sret tt y2) in Af; unfold sret in Af; congruence).
    assert (Y1' : rest_of y1 = rest_of yw) by (unfold y1; rewrite S5, Z, Zy; exact Re). destruct (around_rest _ _ Y1') as (Ny & _ & By & _).
    split; [apply id_small; assumption|]. split; [rewrite N5, Nx, Ny; exact Sn2|]. split; [rewrite N5; exact Nx|].
    exists s2, b2. split; [exact G2|]. split; [unfold get_sess in G3 |- *; rewrite By; exact G3|]. split; [congruence|].
    assert (Cs : s_state s2 = s_state s1) by (change (s_state (core s2) = s_state (core s1)); rewrite Co; reflexivity). assert (Cu : s_use_psk s2 = s_use_psk s1) by (change (s_use_psk (core s2) = s_use_psk (core s1)); rewrite Co; reflexivity).
    rewrite Cs, Cu, St1, U1, Pn'. split; reflexivity.
  - intros w yw W. destruct (Wi _ _ W) as (n2 & t2 & mac & q2 & b2 & Sn2 & _ & _ & _ & _ & _ & _ & K). destruct (K []) as (rr & pp & K1 & _). rewrite app_nil_r in K1. rewrite K1. split; [discriminate|].
    destruct (nego_eqs _ _ Sn2) as (Nw & _). unfold ver in *. rewrite <- Nw. exact Hv.
  - exact Lz.
  - exact Hd.
Qed.
