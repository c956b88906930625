(** FINISH at the two ends of a session. *)
From Verif Require Import Bytes BytesFacts Status Codec Parse ParseProofs Algo Monad MsgConn MsgAuth MsgSession MsgOther Message Opaque SpecMsg MsgProofs MsgRound MsgRound2.
From Verif Require Import Transport Crypto KeySchedule Session Signing CertOps ChainVerify Context SessionProofs
  RspBase RspConn RspSess RspEncap Responder StRel RspFrame RspCalm RspOpcode RspPass RspEst RspTable ReqBase ReqConn ReqSess SpecReq ReqFrame ReqAnswer SpecSession SpecAuth ReqTrans ReqSplit ReqHist ReqAuth ReqOpen SpecHand ReqMeas ReqHand ReqHand2 ReqHand3 SpecKeys KeyProofs SpecPair RspPair Pair Twin ReqTwin RspTwin WireTwin PropTable SpecRetr PairTwin SecTwin PropStep FinTwin.
From Verif Require Import SpecShare.
From Coq Require Import Lia.
Local Open Scope N_scope.

Lemma encode_finish_exact E id slot x s w x' : get_sess id x = Some s -> s_mut_auth s = 0 -> encode_finish E id slot x = (Ok w, x') ->
  exists h, w = [ver x; 0xE5; 0; slot] ++ h /\ hash_size (n_hash (x_nego x)) = Some (len h) /\ (exists alg k d, cr_hmac (e_cr E) alg k d = Some h) /\
    get_sess id x' = Some (f_add w s) /\ around x' = around x.
Proof.
  intros G Mu H. assert (Pl : plainly s) by (right; left; exact Mu). unfold encode_finish in H. rewrite bind_get in H. apply sbind_inv in H as (s' & x0 & P & H). apply ok_inv in P as [G' ->]. assert (s' = s) as -> by congruence. clear G'.
  rewrite Mu in H. cbn [N.eqb negb] in H. apply sbind_inv in H as (z0 & x0 & P & H). apply ret_inv in P as [Z0 ->]. assert (z0 = 0) as -> by congruence. clear Z0.
  apply sbind_inv in H as (n & x0 & P & H). apply unwrap_inv in P as [Hn ->].
  apply sbind_inv in H as (w0 & x0 & P & H). pose proof (q_enc _ _ _ _ P) as ->.
  destruct (finish_wire (xc x) (ver x) n slot Hn) as (tl & Lt & W & C). assert (w0 = [ver x; 0xE5; 0; slot] ++ tl) as -> by exact (req_enc_exact _ _ _ _ _ W C P). clear P W C.
  change (firstn 4 ([ver x; 0xE5; 0; slot] ++ tl)) with ([ver x; 0xE5; 0; slot]) in H.
  apply sbind_inv in H as (u1 & x1 & P & H). destruct (append_exact _ _ _ _ _ _ _ _ G Pl P) as [G1 A1]. clear P.
  apply sbind_inv in H as (w1 & x0 & P & H). apply ret_inv in P as [W1 ->]. assert (w1 = [ver x; 0xE5; 0; slot] ++ tl) as -> by congruence. clear W1.
  apply sbind_inv in H as (th & x0 & P & H). apply (calc_inv _ _ _ _ _ _ G1) in P as (-> & _).
  apply sbind_inv in H as (s' & x0 & P & H). apply the_inv in P as [G1' ->]. clear G1'.
  apply sbind_inv in H as (h & x0 & P & H). apply of_inv in P as [Hm ->]. unfold hmac_req_fin, orc in Hm. destruct (cr_hmac _ _ _ _) as [m|] eqn:Em; [|discriminate]. assert (m = h) as -> by congruence.
  apply sbind_inv in H as (u2 & x2 & P & H). destruct (append_exact _ _ _ _ _ _ _ _ G1 (plainly_add _ _) P) as [G2 A2]. clear P. rewrite f_add_add in G2.
  apply of_inv in H as [Pa ->]. apply patch_tail in Pa as [-> Lv]; [|exact Lt].
  exists h. split; [reflexivity|]. split; [rewrite Lv; exact Hn|]. split; [eauto|]. split; [exact G2|congruence].
Qed.
Lemma handle_finish_exact E id v z s u z' : get_sess id z = Some s -> plainly s -> in_clear (xc z) = false -> handle_finish_rsp E id [v; 0x65; 0; 0] z = (Ok u, z') ->
  exists s', data_prog (e_cr E) (ver z) (f_add [v; 0x65; 0; 0] s) = (Ok tt, s') /\ get_sess id z' = Some s' /\ around z' = around z.
Proof.
  intros G Pl Cl H. unfold handle_finish_rsp in H. rewrite bind_get in H. apply sbind_inv in H as (s' & z0 & P & H). apply ok_inv in P as [_ ->]. clear s'.
  apply on_response_any_ok in H as (bv & r & Eb & H). assert (Er : r = [0; 0]) by congruence. rewrite Er in H. apply reading_ok in H as (p & rest & D & H).
  assert (Dr : rest = []). { unfold dec_finish_rsp in D. rewrite Cl in D. vm_compute in D. congruence. }
  rewrite Dr in H. assert (Eu : used_of [v; 0x65; 0; 0] [] = [v; 0x65; 0; 0]) by (apply used_split; reflexivity). rewrite Eu, Cl in H.
  apply sbind_inv in H as (n & z0 & P & H). apply unwrap_inv in P as [_ ->].
  apply sbind_inv in H as (u1 & z1 & P & H). destruct (append_exact _ _ _ _ _ _ _ _ G Pl P) as [G1 A1]. clear P.
  apply sbind_inv in H as (th & z2 & P & H). destruct (th_now_inv _ _ _ _ _ _ G1 P) as [-> Tn]. clear P.
  apply sbind_inv in H as (u2 & z2 & P1 & H). apply sbind_inv in H as (u3 & z3 & P2 & H). apply mod_inv in H.
  destruct (data_step E id z1 _ (ver z) th u3 z3 G1 Tn) as (s' & Ds & G2 & A2). { unfold sbind. rewrite P1. exact P2. }
  exists s'. split; [exact Ds|]. split; [rewrite H; exact G2|]. rewrite H. change (around z3 = around z). congruence.
Qed.
Lemma quiet_write_finish E id b : rel quiet (write_finish E id b).
Proof. unfold write_finish, with_version_r, check_finish, verify_finish_signature, finish_reply, RspSess.data_keys, encode_r, oror, append_f. rl quiet_pre; qu1. Qed.
Lemma dec_finish_exact c slot h pad : slot < 256 -> hash_size (n_hash (c_nego c)) = Some (len h) -> exists p, dec_finish c (0 :: slot :: h ++ pad) = POk p pad /\ v_bytes (fi_verify p) = h /\ fi_attr p = 0.
Proof.
  intros Hs Hn. pose proof (hash_le _ _ Hn) as L. assert (Lh : (length h <= 64)%nat) by (unfold len in L; lia).
  set (p := mkFinish 0 slot (v_default 512) (v_of 64 h)). assert (Do : ok_finish c p) by (split; [left; split; [reflexivity|split; reflexivity]|]; split; [exact Hs|]; split; [exact (buf_v_of _ _ Lh)|exact Hn]).
  destruct (rt_finish c p Do) as (w & W & _ & R). rewrite (xw_finish c _ Do) in W. assert (w = 0 :: slot :: h) as ->. { assert (Hw : w = wire_finish p) by congruence. rewrite Hw. unfold wire_finish, p. cbn [fi_attr fi_slot fi_sig fi_verify]. change (content (v_of 64 h)) with (v_bytes (v_of 64 h)). rewrite (v_of_bytes _ _ Lh). reflexivity. }
  exists p. split; [exact (R pad)|]. split; [exact (v_of_bytes _ _ Lh)|reflexivity].
Qed.
Lemma write_finish_exact E id v slot h y w y' s : get_sess id y = Some s -> s_mut_auth s = 0 -> in_clear (xc y) = false -> slot < 256 -> hash_size (n_hash (x_nego y)) = Some (len h) ->
  write_finish E id (v :: 0xE5 :: 0 :: slot :: h) y = (Ok w, y') ->
  exists s0 th s', (s0 = s \/ s0 = set_s_l1l2 None s) /\ v = ver y /\ w = [ver y; 0x65; 0; 0] /\
    th_now (e_cr E) (f_add ((v :: 0xE5 :: 0 :: slot :: h) ++ w) s0) = (Ok th, f_add ((v :: 0xE5 :: 0 :: slot :: h) ++ w) s0) /\
    generate_data_secret (e_cr E) (ver y) th (f_add ((v :: 0xE5 :: 0 :: slot :: h) ++ w) s0) = (Ok tt, s') /\ get_sess id y' = Some s' /\ around y' = around y.
Proof.
  intros G Mu Cl Hsl Hn H. unfold write_finish, with_version_r in H. rewrite bind_get in H.
  change (read_header (v :: 0xE5 :: 0 :: slot :: h)) with (Some (mkHeader v 0xE5, 0 :: slot :: h)) in H. cbv iota in H. cbn [h_version] in H. destruct (N.eqb_spec v (ver y)) as [->|]; [|discriminate]. cbn [negb] in H.
  rewrite bind_mod in H. destruct (reset_own RC_FINISH id y s G) as [G0 A0]. set (y0 := reset_buffer RC_FINISH (Some id) y) in *. clearbody y0.
  destruct (around_eqs _ _ A0) as (N0 & X0 & V0 & _).
  assert (K : exists s0, (s0 = s \/ s0 = set_s_l1l2 None s) /\ get_sess id y0 = Some s0 /\ s_mut_auth s0 = 0) by (destruct G0 as [G0|G0]; eauto). clear G0. destruct K as (s0 & Ks & G0 & U0).
  destruct (dec_finish_exact (xc y0) slot h [] Hsl) as (p & D & Vp & Ap); [change (c_nego (xc y0)) with (x_nego y0); rewrite N0; exact Hn|]. rewrite app_nil_r in D.
  unfold sbind at 1 in H; unfold rd in H; rewrite D in H. apply sbind_inv in H as (u & y1 & P & H).
  unfold check_finish in P. change (firstn 4 (ver y :: 0xE5 :: 0 :: slot :: h)) with [ver y; 0xE5; 0; slot] in P.
  apply sbind_inv in P as (u2 & y3 & P0 & P). apply oror_inv in P0. destruct (append_exact _ _ _ _ _ _ _ _ G0 (or_intror (or_introl U0)) P0) as [G3 A3]. clear P0.
  apply sbind_inv in P as (s1 & y4 & P0 & P). apply the_inv in P0 as [G3' ->]. assert (s1 = f_add [ver y; 0xE5; 0; slot] s0) as -> by congruence. clear G3'.
  cbn [f_add s_mut_auth set_s_th set_s_f_init] in P. rewrite U0, Ap in P. cbn [N.eqb negb swhen] in P. apply sbind_inv in P as (u1 & y4 & P0 & P). apply fail_inv in P0 as [_ ->].
  apply sbind_inv in P as (u5 & y4 & P0 & P). apply ret_inv in P0 as [_ ->]. apply sbind_inv in P as (u6 & y4 & P0 & P). apply fail_inv in P0 as [_ ->].
  apply sbind_inv in P as (hh & y4 & P0 & P). apply oror_inv in P0. apply (calc_inv _ _ _ _ _ _ G3) in P0 as (-> & _).
  apply sbind_inv in P as (s2 & y4 & P0 & P). apply the_inv in P0 as [_ ->]. apply sbind_inv in P as (u3 & y4 & P0 & P). apply fail_inv in P0 as [_ ->].
  apply oror_inv in P. destruct (append_exact _ _ _ _ _ _ _ _ G3 (plainly_add _ _) P) as [G4 A4]. clear P. rewrite f_add_add, Vp in G4.
  unfold finish_reply in H. rewrite bind_get in H. assert (A1 : around y1 = around y) by congruence. destruct (around_eqs _ _ A1) as (_ & X1 & V1 & _). rewrite V1, X1, Cl in H.
  apply sbind_inv in H as (n & y5 & P & H). apply unwrap_inv in P as [_ ->].
  apply (encode_r_inv _ _ _ _ _ [ver y; 0x65; 0; 0]) in H.
  2:{ unfold enc_message, enc_header, enc_payload, finish_rsp_msg. cbn [m_header m_payload h_version h_code]. unfold enc_finish_rsp. rewrite X1, Cl. cbn [enc_opt]. rewrite !xwire_app, !PropAlgs.xw8. reflexivity. }
  apply sbind_inv in H as (w1 & y5 & P & H). apply sbind_inv in P as (u4 & y6 & P0 & P). apply ret_inv in P as [W1 ->]. apply oror_inv in P0. change (firstn 4 [ver y; 0x65; 0; 0]) with [ver y; 0x65; 0; 0] in P0.
  destruct (append_exact _ _ _ _ _ _ _ _ G4 (plainly_add _ _) P0) as [G5 A5]. clear P0. rewrite f_add_add in G5.
  apply sbind_inv in H as (u7 & y7 & P & H). apply ret_inv in H as [Hw ->]. assert (w = [ver y; 0x65; 0; 0]) as -> by congruence. clear W1 Hw.
  unfold RspSess.data_keys in P. apply sbind_inv in P as (th & y8 & P0 & P). apply oror_inv in P0. destruct (th_now_inv _ _ _ _ _ _ G5 P0) as [-> Tn]. clear P0. rewrite bind_get in P.
  match type of G5 with get_sess _ ?q = _ => assert (A6 : around q = around y) by congruence end. destruct (around_eqs _ _ A6) as (_ & _ & V5 & _).
  apply (on_ok _ _ _ _ _ _ G5) in P as (s' & Dg & Z). rewrite V5 in Dg.
  exists s0, th, s'. split; [exact Ks|]. split; [reflexivity|]. split; [reflexivity|]. split; [exact Tn|]. destruct u7. split; [exact Dg|].
  split; [rewrite Z; apply (put_get _ _ _ _ G5); pose proof (data_frame _ _ _ _ _ _ Dg) as F; rewrite F; reflexivity|]. rewrite Z, around_put. exact A6.
Qed.
Theorem finish_twins E Er xr rslot id x u x1 a b : public (e_cr E) = public (e_cr Er) -> e_tr E = e_tr Er -> lossless (e_tr Er) -> aead_correct (e_cr Er) -> seals_bytes (e_cr Er) -> well_sized (e_cr Er) ->
  let y := peer_after Er xr (rev (x_sent x)) in let y1 := peer_after Er xr (rev (x_sent x1)) in
  id < 2 ^ 32 -> ver x < 256 -> same_nego (x_nego x) (x_nego y) -> get_sess id x = Some a -> get_sess id y = Some b -> core a = core b -> s_state a = SHandshaking -> s_mut_auth a = 0 -> in_clear (xc x) = false -> in_clear (xc y) = false ->
  finish_req (facing E Er xr) rslot id x = (Ok u, x1) -> share id x1 y1.
Proof.
  intros Pu Tr Lo Ac Sb Si y y1 Hid Hv Sn Ga Gb Co St Up Clx Cly H. destruct (nego_eqs _ _ Sn) as (Nv & Nh & _). assert (Vy : ver x = ver y) by exact Nv.
  unfold finish_req in H. rewrite bind_get in H. rewrite Clx in H. cbv zeta in H.
  apply sbind_inv in H as (slot & x' & P & H). assert (K : slot < 256 /\ x' = x).
  { destruct rslot as [q|]; [|apply ret_inv in P as [P ->]; split; [|reflexivity]; assert (slot = 0) as -> by congruence; reflexivity].
    destruct (N.leb_spec 8 q); [discriminate P|]. destruct (slot_of (x_my_chain x) q); [|discriminate P]. apply ret_inv in P as [P ->]. assert (slot = q) as -> by congruence. split; [lia|reflexivity]. }
  destruct K as [Hsl ->]. clear P. apply sbind_inv in H as (a' & x' & P & H). apply ok_inv in P as [G' ->]. assert (a' = a) as -> by congruence. clear G'. rewrite bind_mod in H.
  destruct (reset_own RC_FINISH id x a Ga) as [G0 A0]. set (x0 := reset_buffer RC_FINISH (Some id) x) in *. clearbody x0. destruct (around_eqs _ _ A0) as (N0 & _ & V0 & _ & S0).
  assert (K : exists a0, get_sess id x0 = Some a0 /\ core a0 = core a /\ s_mut_auth a0 = 0) by (destruct G0 as [G0|G0]; [exists a|exists (set_s_l1l2 None a)]; split; auto). clear G0. destruct K as (a0 & G0 & C0 & U0).
  apply sbind_inv in H as (w & x2 & P & H). apply or_teardown_ok in P. destruct (encode_finish_exact _ _ _ _ _ _ _ G0 U0 P) as (h & Ew & Hn & (k1 & k2 & k3 & Hm) & G2 & A2). clear P.
  destruct (around_eqs _ _ A2) as (N2 & _ & V2 & _ & S2). rewrite V0 in Ew. rewrite N0 in Hn.
  apply sbind_inv in H as (u1 & x3 & P1 & H). apply or_teardown_ok in P1. apply sbind_inv in H as (bb & x4 & P2 & H). apply or_teardown_ok in P2. apply or_teardown_if_ok in H.
  assert (Hm' : cr_hmac (e_cr Er) k1 k2 k3 = Some h). { change (cr_hmac (public (e_cr E)) k1 k2 k3 = Some h) in Hm. rewrite Pu in Hm. exact Hm. }
  destruct Si as (_ & _ & Shm & _). destruct (Shm _ _ _ _ Hm') as [_ Bh]. pose proof (hash_le _ _ Hn) as L64.
  assert (Bw : bytes_ok w). { rewrite Ew. apply bytes_ok_app. split; [|exact Bh]. repeat constructor; assumption. }
  assert (Lw : len w <= 4000) by (rewrite Ew, len_app; unfold len at 1; cbn [length]; lia).
  assert (Sx : x_sent x2 = x_sent x) by (rewrite S2; exact S0).
  assert (Ca : core (f_add w a0) = f_add w (core b)) by (rewrite core_f_add, C0, Co; reflexivity).
  assert (Lk : like true (f_add w a0) b). { assert (L1 : like true a0 b) by (apply like_core; congruence). destruct L1 as (L1 & L2 & L3 & L4 & L5). repeat split; assumption. }
  assert (Gb' : get_sess id (peer_after Er xr (rev (x_sent x2))) = Some b) by (rewrite Sx; exact Gb).
  destruct (secured_exchange _ _ _ _ _ _ _ _ _ _ _ _ _ Pu Tr Lo Ac Sb Hid Bw Lw G2 Gb' Lk P1 P2) as (t & r & z & f & x3' & X4 & Z & Dz & Lz & Hf & R3 & Dec). clear P1 P2. rewrite Sx in *. fold y in Dz, Lz, Gb'.
  (* the responder *)
  set (yn := mod_sess id (fun _ => next true b) y) in *. assert (Sb' : s_state b = SHandshaking) by (destruct (like_core true _ _ Co) as (_ & <- & _); exact St). assert (Ub : s_mut_auth b = 0) by (change (s_mut_auth (core b) = 0); rewrite <- Co; exact Up).
  destruct (next_state true b) as [Ns Ni]. pose proof (put_get id y b (next true b) Gb Ni) as Gn. fold yn in Gn.
  unfold dispatch_secured in Dz. apply is_ok_sent in Dz. rewrite bind_get, Gn, Ns, Sb' in Dz. rewrite Ew in Dz.
  unfold dispatch_handshaking in Dz. rewrite bind_get in Dz. destruct (in_clear (xc yn)) eqn:Ic; [exfalso; unfold serr in Dz; cbn [snd] in Dz; rewrite <- Dz in Lz; change (x_sent yn) with (x_sent y) in Lz; lia|].
  change ([ver x; 0xE5; 0; slot] ++ h) with (ver x :: 0xE5 :: 0 :: slot :: h) in *. cbn [read_header h_code] in Dz. 
  assert (Dz' : snd (handle_finish Er id (ver x :: 0xE5 :: 0 :: slot :: h) yn) = z).
  { rewrite <- Dz. change (229 =? RC_GET_ENCAP) with false. change (229 =? RC_DELIVER_ENCAP) with false. destruct (e_mut_auth Er); reflexivity. }
  clear Dz. unfold handle_finish in Dz'. rewrite bind_get, Ic in Dz'. unfold sbind in Dz'. destruct (write_finish Er id (ver x :: 0xE5 :: 0 :: slot :: h) yn) as [[w'|e|] yw] eqn:W; pose proof (quiet_write_finish _ _ _ _ _ _ W) as [Qw _].
  2,3: exfalso; cbn [snd] in Dz'; rewrite <- Dz', Qw in Lz; change (x_sent yn) with (x_sent y) in Lz; lia.
  assert (Unx : s_mut_auth (next true b) = 0). { unfold next, set_dir. rewrite Sb'. exact Ub. }
  assert (Hny : hash_size (n_hash (x_nego yn)) = Some (len h)) by (change (x_nego yn) with (x_nego y); rewrite <- Nh; exact Hn).
  destruct (write_finish_exact _ _ _ _ _ _ _ _ _ Gn Unx Ic Hsl Hny W) as (b0 & th & b1 & Kb & Ev & Ew' & Tn & Dg & Gw & Aw). clear W. destruct (around_eqs _ _ Aw) as (Nw & _ & Vw & _).
  change (ver yn) with (ver y) in *. rewrite Vy in *. rewrite <- Ew in *.
  destruct (finish_tail Er id w' yw 0x65) as [Q|(f' & y3 & En & S3 & N3 & G3)]; [rewrite Ew'; reflexivity|rewrite Ew'; reflexivity|right; reflexivity|..]; rewrite Dz' in *.
  { exfalso. rewrite Q, Qw in Lz. change (x_sent yn) with (x_sent y) in Lz. lia. }
  assert (f' = f) as -> by (rewrite S3 in Hf; cbn in Hf; congruence).
  pose proof (data_frame _ _ _ _ _ _ Dg) as Fr.
  assert (S0b : s_state b0 = SHandshaking /\ get_dir false b0 = get_dir false b /\ s_id b0 = s_id b /\ s_aead b0 = s_aead b /\ s_seq_count b0 = s_seq_count b /\ hcore b0 = hcore b).
  { assert (Q : s_state (next true b) = SHandshaking /\ get_dir false (next true b) = get_dir false b /\ s_id (next true b) = s_id b /\ s_aead (next true b) = s_aead b /\ s_seq_count (next true b) = s_seq_count b /\ hcore (next true b) = hcore b).
    { split; [congruence|]. split; [exact (next_other b Sb')|]. split; [exact Ni|]. split; [|split; [|exact (hcore_next true b Sb')]]; unfold next, set_dir; rewrite Sb'; reflexivity. }
    destruct Kb as [->| ->]; exact Q. }
  destruct S0b as (B1 & B2 & B3 & B4 & B5 & B6).
  assert (Cab : like false a b) by (exact (like_core false _ _ Co)). destruct Cab as (C1 & C2 & C3 & C4 & C5).
  assert (Sn1 : s_state b1 = SHandshaking) by (rewrite Fr; exact B1).
  assert (A3 : s_state (f_add w a0) = SHandshaking /\ get_dir false (f_add w a0) = get_dir false a).
  { assert (Q : like false a0 a) by (apply like_core; exact C0). destruct Q as (_ & Q2 & _ & _ & Q5). split; [change (s_state a0 = SHandshaking); congruence|exact Q5]. }
  destruct A3 as [A3 A4].
  assert (Lk2 : like false (next true (f_add w a0)) b1).
  { assert (Q : like false a0 a) by (apply like_core; exact C0). destruct Q as (Q1 & Q2 & Q3 & Q4 & Q5). destruct (next_state true (f_add w a0)) as [Na Nb]. unfold like. rewrite Na, Nb, (next_other _ A3), A4. rewrite Fr.
    split; [change (s_id a0 = s_id b0); congruence|]. split; [change (s_state a0 = s_state b0); congruence|]. split; [unfold next, set_dir; rewrite A3; change (s_aead a0 = s_aead b0); congruence|].
    split; [unfold next, set_dir; rewrite A3; change (s_seq_count a0 = s_seq_count b0); congruence|]. rewrite C5, <- B2. unfold get_dir. cbn [s_state set_s_app s_hs f_add set_s_th set_s_f_init]. rewrite B1. reflexivity. }
  assert (G3' : get_sess id x3' = Some (next true (f_add w a0))).
  { destruct (around_rest _ _ R3) as (_ & _ & Q & _). unfold get_sess in *. rewrite Q. destruct (next_state true (f_add w a0)) as [_ Nb]. exact (put_get id x2 _ _ G2 Nb). }
  assert (Bw' : bytes_ok w') by (rewrite Ew'; repeat constructor; exact Hv).
  assert (Lw' : len w' <= 4000) by (rewrite Ew'; vm_compute; discriminate).
  destruct (answered_like (facing E Er xr) Er id w' x3' f yw y3 _ _ Pu Tr Lo Ac Sb Hid Bw' Lw' G3' Gw Lk2 En) as [Y3 Dec']. rewrite Dec in Dec'. assert (bb = w') as -> by congruence. match type of Dec' with _ = (_, ?q) => assert (X4' : x4 = q) by congruence end. clear Dec Dec'.
  set (a4 := next false (next true (f_add w a0))) in *. destruct (next_state false (next true (f_add w a0))) as [Nc Nd]. destruct (next_state true (f_add w a0)) as [Ne Nf].
  pose proof (put_get id x3' _ a4 G3' Nd) as G4. rewrite <- X4' in G4.
  assert (P4 : plainly a4). { right. right. unfold a4, next, set_dir. rewrite A3. unfold mod_hs. cbn [s_state set_s_hs s_hs]. change (s_state (f_add w a0)) with (s_state a0) in *. rewrite A3. reflexivity. }
  assert (V4 : ver x4 = ver y). { rewrite X4'. change (ver x3' = ver y). destruct (around_rest _ _ R3) as (Q & _). unfold ver. rewrite Q. change (ver x2 = ver y). congruence. }
  assert (Cl4 : in_clear (xc x4) = false). { destruct (around_rest _ _ R3) as (Q & _). unfold in_clear, req_has, rsp_has, xc in Clx |- *. cbn [c_nego] in Clx |- *. rewrite X4'. change (x_nego (mod_sess id (fun _ => a4) x3')) with (x_nego x3'). rewrite Q. change (x_nego (mod_sess id (fun _ => next true (f_add w a0)) x2)) with (x_nego x2). rewrite N2, N0. exact Clx. }
  rewrite Ew' in H. destruct (handle_finish_exact _ _ _ _ _ _ _ G4 P4 Cl4 H) as (a5 & Da & G5 & A5). rewrite V4 in *. rewrite <- Ew' in Da.
  (* one transcript, one set of keys *)
  unfold data_prog in Da. apply sbind_inv in Da as (th' & a6 & Ta & Da). apply sbind_inv in Da as (u6 & a7 & Dga & Da). apply mod_inv in Da.
  assert (Hc4 : hcore (f_add w' a4) = hcore (f_add (w ++ w') b0)).
  { rewrite hcore_f_add. unfold a4. rewrite hcore_next by congruence. rewrite hcore_next by exact A3. rewrite <- hcore_f_add, f_add_add, !hcore_f_add. rewrite B6. rewrite (hcore_core a0 b) by congruence. reflexivity. }
  assert (Th : th' = th /\ a6 = f_add w' a4).
  { unfold th_now in Ta, Tn. rewrite bind_get in Ta, Tn. apply of_inv in Ta as [Ta ->]. split; [|reflexivity].
    assert (Q : transcript_hash (e_cr (facing E Er xr)) (f_add w' a4) = transcript_hash (e_cr Er) (f_add (w ++ w') b0)).
    { change (e_cr (facing E Er xr)) with (e_cr E). rewrite (th_hcore (e_cr E) (f_add w' a4)), (th_hcore (e_cr Er) (f_add (w ++ w') b0)), Hc4. rewrite Pu. reflexivity. }
    unfold sof in Tn. rewrite <- Q in Tn. rewrite Ta in Tn. congruence. }
  destruct Th as [-> ->].
  change (e_cr (facing E Er xr)) with (e_cr E) in Dga. rewrite (data_public (e_cr E)), Pu, <- data_public in Dga.
  destruct (htwins _ _ _ _ _ (hblind_data _ _ _) Hc4 Dga) as (b1' & Dg' & Hc). assert (b1' = b1) as -> by congruence.
  destruct (next_state false b1) as [Nb1 Nb2]. pose proof (put_get id yw _ _ Gw Nb2) as Gy3. rewrite <- Y3 in Gy3. specialize (G3 _ Gy3).
  destruct (around_eqs _ _ A5) as (N5 & _ & V5 & _ & S5).
  assert (Yz : y1 = z) by (unfold y1; rewrite S5; exact Z).
  split; [rewrite Yz; unfold ver; rewrite N3, Nw; change (ver x1 = ver y); congruence|].
  exists a5, (set_s_state SEstablished (next false b1)). split; [exact G5|]. split; [rewrite Yz; exact G3|]. split; [rewrite Da; reflexivity|].
  apply paired_hcore. rewrite Da. rewrite !hcore_state. rewrite (hcore_next false b1 Sn1), Hc. reflexivity.
Qed.
