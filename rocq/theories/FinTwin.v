(** PSK_FINISH at the two ends of a session. *)
From Verif Require Import Bytes BytesFacts Status Codec Parse ParseProofs Algo Monad MsgConn MsgAuth MsgSession MsgOther Message Opaque SpecMsg MsgProofs MsgRound MsgRound2.
From Verif Require Import Transport Crypto KeySchedule Session Signing CertOps ChainVerify Context SessionProofs
  RspBase RspConn RspSess RspEncap Responder StRel RspFrame RspCalm RspOpcode RspPass RspEst RspTable ReqBase ReqConn ReqSess SpecReq ReqFrame ReqAnswer SpecSession SpecAuth ReqTrans ReqSplit ReqHist ReqAuth ReqOpen SpecHand ReqMeas ReqHand ReqHand2 ReqHand3 SpecKeys KeyProofs SpecPair RspPair Pair Twin ReqTwin RspTwin WireTwin PropTable SpecRetr PairTwin SecTwin PropStep.
From Verif Require Import SpecShare.
From Coq Require Import Lia.
Local Open Scope N_scope.

(** ** the session without its handshake keys *)
Definition no_hs : hs_secret := mkHs [] [] [] [] (mkDir [] [] 0) (mkDir [] [] 0).
Definition hcore (s : session) : session := set_s_hs no_hs (core s).
Definition hblind {A} (m : st session A) : Prop := forall s, m (hcore s) = (fst (m s), hcore (snd (m s))).
Lemma hblind_bind {A B} (m : st session A) (k : A -> st session B) : hblind m -> (forall a, hblind (k a)) -> hblind (sbind m k).
Proof. intros M K s. unfold sbind. rewrite (M s). destruct (m s) as [[a| |] s']; cbn [fst snd]; [apply K|reflexivity|reflexivity]. Qed.
Lemma hblind_get {B} (k : session -> st session B) : (forall s, k (hcore s) = k s) -> (forall s, hblind (k s)) -> hblind (sbind sget k).
Proof. intros E K s. rewrite !bind_get, E. apply K. Qed.
Lemma hblind_of {A} (o : outcome A) : hblind (sof o). Proof. intro s. reflexivity. Qed.
Lemma hblind_mod f : (forall s, f (hcore s) = hcore (f s)) -> hblind (smod f).
Proof. intros F s. unfold smod. rewrite F. reflexivity. Qed.
Ltac hbl := repeat (first [apply hblind_get; [intro; reflexivity|intro] | apply hblind_bind; [|intro] | apply hblind_of | apply hblind_mod; intro; reflexivity]).
Lemma hblind_data cr v th : hblind (generate_data_secret cr v th). Proof. unfold generate_data_secret. hbl. Qed.
Lemma htwins {A} (m : st session A) a b r a' : hblind m -> hcore a = hcore b -> m a = (r, a') -> exists b', m b = (r, b') /\ hcore a' = hcore b'.
Proof.
  intros Bm C H. pose proof (Bm a) as Ka. pose proof (Bm b) as Kb. rewrite C, H in Ka. rewrite Ka in Kb. cbn [fst snd] in Kb. exists (snd (m b)). split; [|congruence].
  rewrite (surjective_pairing (m b)). cbn [snd]. congruence.
Qed.
Lemma hcore_next req s : s_state s = SHandshaking -> hcore (next req s) = hcore s.
Proof. intro S. unfold next, set_dir. rewrite S. reflexivity. Qed.
Lemma next_other s : s_state s = SHandshaking -> get_dir false (next true s) = get_dir false s.
Proof. intro S. unfold next, set_dir, get_dir. rewrite S. cbn. rewrite S. reflexivity. Qed.
Lemma hcore_core a b : core a = core b -> hcore a = hcore b. Proof. unfold hcore. congruence. Qed.
Lemma paired_hcore a b : hcore a = hcore b -> paired a b.
Proof.
  intro C. assert (K : forall {A} (f : session -> A), (forall s, f (hcore s) = f s) -> f a = f b) by (intros A f F; rewrite <- (F a), <- (F b), C; reflexivity).
  unfold paired. repeat split; [apply (K _ s_id)|apply (K _ s_state)|apply (K _ s_hash)|apply (K _ s_aead)|apply (K _ s_seq_count)|apply (K _ (fun s => a_req_secret (s_app s)))|apply (K _ (fun s => a_rsp_secret (s_app s)))|apply (K _ (fun s => a_req_dir (s_app s)))|apply (K _ (fun s => a_rsp_dir (s_app s)))]; reflexivity.
Qed.

(** ** message F *)
Definition f_add (m : bytes) (s : session) : session := set_s_th (Some (th_base s ++ m)) (set_s_f_init true s).
Lemma f_add_add a b s : f_add b (f_add a s) = f_add (a ++ b) s.
Proof. unfold f_add at 1. unfold th_base. cbn [f_add s_th set_s_th set_s_f_init]. unfold f_add. rewrite <- app_assoc. reflexivity. Qed.
Lemma hcore_f_add m s : hcore (f_add m s) = f_add m (hcore s). Proof. reflexivity. Qed.
Definition plainly (s : session) : Prop := s_use_psk s = true \/ s_mut_auth s = 0 \/ s_f_init s = true.
Lemma append_exact cr req id m z s u z' : get_sess id z = Some s -> plainly s -> append_f cr req id m z = (Ok u, z') ->
  get_sess id z' = Some (f_add m s) /\ around z' = around z.
Proof.
  intros G Pl H. unfold append_f in H. apply sbind_inv in H as (s' & z0 & P & H). apply the_inv in P as [G' ->]. assert (s' = s) as -> by congruence. clear G'. destruct (s_th s) as [t|] eqn:Th; [|discriminate].
  apply sbind_inv in H as (u0 & z1 & P & H).
  assert (K : exists s1, get_sess id z1 = Some s1 /\ s1 = set_s_f_init true s /\ around z1 = around z).
  { unfold swhen in P. destruct (s_f_init s) eqn:Fi; cbn [negb] in P.
    - apply ret_inv in P as [_ ->]. exists s. split; [exact G|]. split; [|reflexivity]. rewrite <- Fi. destruct s; reflexivity.
    - rewrite bind_get in P. apply sbind_inv in P as (d & z2 & P0 & P). apply of_inv in P0 as [Fd ->]. apply mod_inv in P.
      assert (Hd : Ok [] = Ok d) by (rewrite <- Fd; unfold f_digest; destruct Pl as [K|[K|K]]; [rewrite K|rewrite K|congruence]; rewrite ?Bool.andb_false_l, ?Bool.andb_false_r; reflexivity). assert (d = []) as -> by congruence.
      exists (set_s_f_init true s). split.
      { match type of P with _ = mod_sess _ ?f _ => pose proof (get_mod id f z s G eq_refl) as Gm end. rewrite P, Gm. clear - Th. f_equal. destruct s; cbn in Th. subst. cbn. rewrite app_nil_r. reflexivity. }
      split; [reflexivity|]. rewrite P. reflexivity. }
  destruct K as (s1 & G1 & -> & A1). apply mod_inv in H. split; [|rewrite H; exact A1].
  rewrite H. erewrite (get_mod id _ z1 _ G1); [|reflexivity]. unfold f_add, th_base. change (s_th (set_s_f_init true s)) with (s_th s). rewrite Th. reflexivity.
Qed.
Lemma plainly_add m s : plainly (f_add m s). Proof. right. right. reflexivity. Qed.

(** ** the requester *)
Lemma encode_psk_finish_exact E id x s w x' : get_sess id x = Some s -> plainly s -> encode_psk_finish E id x = (Ok w, x') ->
  exists h, w = [ver x; 0xE7; 0; 0] ++ h /\ hash_size (n_hash (x_nego x)) = Some (len h) /\ (exists alg k d, cr_hmac (e_cr E) alg k d = Some h) /\
    get_sess id x' = Some (f_add w s) /\ around x' = around x.
Proof.
  intros G Pl H. unfold encode_psk_finish in H. rewrite bind_get in H. apply sbind_inv in H as (n & x0 & P & H). apply unwrap_inv in P as [Hn ->].
  apply sbind_inv in H as (w0 & x0 & P & H). pose proof (q_enc _ _ _ _ P) as ->.
  destruct (psk_finish_wire (xc x) (ver x) n Hn) as (tl & Lt & W & C). assert (w0 = [ver x; 0xE7; 0; 0] ++ tl) as -> by exact (req_enc_exact _ _ _ _ _ W C P). clear P W C.
  apply sbind_inv in H as (u & x0 & P & H). apply of_inv in P as [Dl ->]. rewrite drop_last_app in Dl by exact Lt. assert (u = [ver x; 0xE7; 0; 0]) as -> by congruence. clear Dl.
  apply sbind_inv in H as (u1 & x1 & P & H). destruct (append_exact _ _ _ _ _ _ _ _ G Pl P) as [G1 A1]. clear P.
  apply sbind_inv in H as (th & x0 & P & H). apply (calc_inv _ _ _ _ _ _ G1) in P as (-> & _).
  apply sbind_inv in H as (s' & x0 & P & H). apply the_inv in P as [G1' ->]. clear G1'.
  apply sbind_inv in H as (h & x0 & P & H). apply of_inv in P as [Hm ->]. unfold hmac_req_fin, orc in Hm. destruct (cr_hmac _ _ _ _) as [m|] eqn:Em; [|discriminate]. assert (m = h) as -> by congruence.
  apply sbind_inv in H as (u2 & x2 & P & H). destruct (append_exact _ _ _ _ _ _ _ _ G1 (plainly_add _ _) P) as [G2 A2]. clear P. rewrite f_add_add in G2.
  apply of_inv in H as [Pa ->]. apply patch_tail in Pa as [-> Lv]; [|exact Lt].
  exists h. split; [reflexivity|]. split; [rewrite Lv; exact Hn|]. split; [eauto|]. split; [exact G2|congruence].
Qed.
Lemma handle_psk_finish_exact E id b z s u z' : get_sess id z = Some s -> plainly s -> handle_psk_finish_rsp E id b z = (Ok u, z') ->
  exists body rest s', b = ver z :: 0x67 :: body ++ rest /\ length body = 2%nat /\ data_prog (e_cr E) (ver z) (f_add (ver z :: 0x67 :: body) s) = (Ok tt, s') /\ get_sess id z' = Some s' /\ around z' = around z.
Proof.
  intros G Pl H. unfold handle_psk_finish_rsp in H. apply ReqFrame.on_response_ok in H as (r & Eb & H). apply reading_ok in H as (p & rest & D & H). apply two_bytes in D as (body & Eb' & L2).
  assert (Eu : used_of b rest = ver z :: 0x67 :: body). { apply used_split. rewrite Eb, Eb'. reflexivity. }
  rewrite Eu in H. rewrite bind_get in H. apply sbind_inv in H as (u1 & z1 & P & H). destruct (append_exact _ _ _ _ _ _ _ _ G Pl P) as [G1 A1]. clear P.
  apply sbind_inv in H as (th & z2 & P & H). destruct (th_now_inv _ _ _ _ _ _ G1 P) as [-> Tn]. clear P.
  destruct (data_step _ _ _ _ _ _ _ _ G1 Tn H) as (s' & Ds & G2 & A2).
  exists body, rest, s'. split; [rewrite Eb, Eb'; reflexivity|]. split; [exact L2|]. split; [exact Ds|]. split; [exact G2|congruence].
Qed.

(** ** the responder *)
Lemma reset_own c id x s : get_sess id x = Some s ->
  (get_sess id (reset_buffer c (Some id) x) = Some s \/ get_sess id (reset_buffer c (Some id) x) = Some (set_s_l1l2 None s)) /\ around (reset_buffer c (Some id) x) = around x.
Proof.
  intro G. assert (Q : get_sess id (mod_sess id (set_s_l1l2 None) x) = Some (set_s_l1l2 None s)) by (apply (ReqMeas.get_mod id (set_s_l1l2 None) x s G); reflexivity).
  unfold reset_buffer, reset_m, reset_c, reset_b. repeat (match goal with |- context [if ?b then _ else _] => destruct b end); (split; [first [left; exact G|right; exact Q]|reflexivity]).
Qed.
Lemma quiet_write_psk_finish E id b : rel quiet (write_psk_finish E id b).
Proof.
  unfold write_psk_finish, with_version_r, check_psk_finish, RspSess.data_keys, encode_r, oror, append_f. rl quiet_pre; qu1.
Qed.
Lemma dec_psk_finish_exact c h pad : hash_size (n_hash (c_nego c)) = Some (len h) -> exists v, dec_psk_finish c (0 :: 0 :: h ++ pad) = POk v pad /\ v_bytes v = h.
Proof.
  intro Hn. pose proof (hash_le _ _ Hn) as L. assert (Lh : (length h <= 64)%nat) by (unfold len in L; lia).
  assert (Do : digest_ok c (v_of 64 h)) by (split; [exact (buf_v_of _ _ Lh)|exact Hn]).
  destruct (rt_psk_finish c (v_of 64 h) Do) as (w & W & _ & R). rewrite (xw_psk_finish c _ Do) in W. assert (w = 0 :: 0 :: h) as ->. { assert (Hw : w = wire_psk_finish (v_of 64 h)) by congruence. rewrite Hw. unfold wire_psk_finish. change (content (v_of 64 h)) with (v_bytes (v_of 64 h)). rewrite (v_of_bytes _ _ Lh). reflexivity. }
  exists (v_of 64 h). split; [exact (R pad)|exact (v_of_bytes _ _ Lh)].
Qed.
Lemma encode_r_inv m y w y' (k : bytes -> st ctx bytes) wm : xwire (enc_message (xc y) m) = Some wm -> encode_r m k y = (Ok w, y') -> k wm y = (Ok w, y').
Proof.
  intros W H. unfold encode_r in H. unfold sbind at 1 in H. unfold wenc in H. destruct (emit (enc_message (xc y) m) []) as [[[|] w0]|] eqn:Em; try discriminate H.
  apply emit_true in Em as (w1 & Ew & ->). assert (w1 = wm) as -> by congruence. exact H.
Qed.
Lemma write_psk_finish_exact E id v h y w y' s : get_sess id y = Some s -> s_use_psk s = true -> hash_size (n_hash (x_nego y)) = Some (len h) ->
  write_psk_finish E id (v :: 0xE7 :: 0 :: 0 :: h) y = (Ok w, y') ->
  exists s0 th s', (s0 = s \/ s0 = set_s_l1l2 None s) /\ v = ver y /\ w = [ver y; 0x67; 0; 0] /\
    th_now (e_cr E) (f_add ((v :: 0xE7 :: 0 :: 0 :: h) ++ w) s0) = (Ok th, f_add ((v :: 0xE7 :: 0 :: 0 :: h) ++ w) s0) /\
    generate_data_secret (e_cr E) (ver y) th (f_add ((v :: 0xE7 :: 0 :: 0 :: h) ++ w) s0) = (Ok tt, s') /\ get_sess id y' = Some s' /\ around y' = around y.
Proof.
  intros G Up Hn H. unfold write_psk_finish, with_version_r in H. rewrite bind_get in H.
  change (read_header (v :: 0xE7 :: 0 :: 0 :: h)) with (Some (mkHeader v 0xE7, 0 :: 0 :: h)) in H. cbv iota in H. cbn [h_version] in H. destruct (N.eqb_spec v (ver y)) as [->|]; [|discriminate]. cbn [negb] in H.
  rewrite bind_mod in H. destruct (reset_own RC_PSK_FINISH id y s G) as [G0 A0]. set (y0 := reset_buffer RC_PSK_FINISH (Some id) y) in *. clearbody y0.
  destruct (around_eqs _ _ A0) as (N0 & X0 & V0 & _).
  assert (K : exists s0, (s0 = s \/ s0 = set_s_l1l2 None s) /\ get_sess id y0 = Some s0 /\ s_use_psk s0 = true) by (destruct G0 as [G0|G0]; eauto). clear G0. destruct K as (s0 & Ks & G0 & U0).
  destruct (dec_psk_finish_exact (xc y0) h []) as (p & D & Vp); [change (c_nego (xc y0)) with (x_nego y0); rewrite N0; exact Hn|]. rewrite app_nil_r in D.
  unfold sbind at 1 in H; unfold rd in H; rewrite D in H. apply sbind_inv in H as (u & y1 & P & H).
  unfold check_psk_finish in P. rewrite bind_get in P. apply sbind_inv in P as (n & y2 & P0 & P). apply unwrap_inv in P0 as [Hn0 ->]. rewrite N0, Hn in Hn0. assert (n = len h) as -> by congruence.
  assert (Eu : used_of (ver y :: 0xE7 :: 0 :: 0 :: h) [] = [ver y; 0xE7; 0; 0] ++ h) by (apply used_split; rewrite app_nil_r; reflexivity). rewrite Eu in P.
  apply sbind_inv in P as (t & y2 & P0 & P). apply of_inv in P0 as [Dl ->]. rewrite drop_tail in Dl by reflexivity. assert (t = [ver y; 0xE7; 0; 0]) as -> by congruence. clear Dl.
  apply sbind_inv in P as (s1 & y2 & P0 & P). apply the_inv in P0 as [G1 ->]. clear s1 G1 || idtac. apply sbind_inv in P as (u1 & y2 & P0 & P). apply fail_inv in P0 as [_ ->].
  apply sbind_inv in P as (u2 & y3 & P0 & P). apply oror_inv in P0. destruct (append_exact _ _ _ _ _ _ _ _ G0 (or_introl U0) P0) as [G3 A3]. clear P0.
  apply sbind_inv in P as (hh & y4 & P0 & P). apply oror_inv in P0. apply (calc_inv _ _ _ _ _ _ G3) in P0 as (-> & _).
  apply sbind_inv in P as (s2 & y4 & P0 & P). apply the_inv in P0 as [_ ->]. apply sbind_inv in P as (u3 & y4 & P0 & P). apply fail_inv in P0 as [_ ->].
  apply oror_inv in P. destruct (append_exact _ _ _ _ _ _ _ _ G3 (plainly_add _ _) P) as [G4 A4]. clear P. rewrite f_add_add, Vp in G4.
  rewrite bind_get in H. assert (V1 : ver y1 = ver y) by (destruct (around_eqs y1 y) as (_ & _ & ? & _); [congruence|assumption]). rewrite V1 in H.
  apply (encode_r_inv _ _ _ _ _ [ver y; 0x67; 0; 0]) in H.
  2:{ unfold enc_message, enc_header, enc_payload. cbn [m_header m_payload h_version h_code]. rewrite !xwire_app, !PropAlgs.xw8. reflexivity. }
  apply sbind_inv in H as (u4 & y5 & P & H). apply oror_inv in P. destruct (append_exact _ _ _ _ _ _ _ _ G4 (plainly_add _ _) P) as [G5 A5]. clear P. rewrite f_add_add in G5.
  apply sbind_inv in H as (u5 & y6 & P & H). apply ret_inv in H as [Hw ->]. assert (w = [ver y; 0x67; 0; 0]) as -> by congruence.
  unfold RspSess.data_keys in P. apply sbind_inv in P as (th & y7 & P0 & P). apply oror_inv in P0. destruct (th_now_inv _ _ _ _ _ _ G5 P0) as [-> Tn]. clear P0. rewrite bind_get in P.
  apply (on_ok _ _ _ _ _ _ G5) in P as (s' & Dg & Z). assert (V5 : ver y5 = ver y) by (destruct (around_eqs y5 y) as (_ & _ & ? & _); [congruence|assumption]). rewrite V5 in Dg.
  exists s0, th, s'. split; [exact Ks|]. split; [reflexivity|]. split; [reflexivity|]. split; [exact Tn|]. destruct u5. split; [exact Dg|].
  split; [rewrite Z; apply (put_get _ _ _ _ G5); pose proof (data_frame _ _ _ _ _ _ Dg) as F; rewrite F; reflexivity|]. rewrite Z, around_put. congruence.
Qed.
Lemma fin_raw Er id w y op : nth_error w 1 = Some op -> op = 0x67 \/ op = 0x65 ->
  send_secured_raw Er id w false y = match encode_secured_message Er id w false false y with
    | (Ok f, y2) => match e_send Er (x_io y2) f with Some e => (Err e, set_x_io (x_io y2 + 1) y2) | None => on_sess id (smod (set_s_state SEstablished)) (set_x_sent (f :: x_sent y2) (set_x_io (x_io y2 + 1) y2)) end
    | (Err e, y2) => (Err e, y2) | (Panic, y2) => (Panic, y2) end.
Proof.
  intros Op Ops. unfold send_secured_raw. unfold sbind at 1. destruct (encode_secured_message Er id w false false y) as [[f| |] y2]; try reflexivity.
  unfold sbind at 1, io_send. destruct (e_send Er (x_io y2) f); [reflexivity|]. unfold opcode. rewrite Op. destruct Ops as [->| ->]; reflexivity.
Qed.
(** the responder's answer, sealed under the handshake keys; then the session is established *)
Lemma finish_tail Er id w y op : len w = 4 -> nth_error w 1 = Some op -> op = 0x67 \/ op = 0x65 ->
  let y' := snd (send_secured_message Er id w false y) in
  x_sent y' = x_sent y \/
  exists f y2, encode_secured_message Er id w false false y = (Ok f, y2) /\ x_sent y' = f :: x_sent y /\ x_nego y' = x_nego y /\
    forall s, get_sess id y2 = Some s -> get_sess id y' = Some (set_s_state SEstablished s).
Proof.
  intros L4 Op Ops. cbv zeta. unfold send_secured_message. rewrite bind_get. cbn [negb andb]. destruct (too_large y w) eqn:T.
  - left. unfold write_err, write_err_data. unfold sbind at 1. rewrite bind_get. unfold sbind at 1, wenc.
    assert (Em : emit (enc_message (xc y) (error_msg (ver y) ERR_RESPONSE_TOO_LARGE 0)) [] = Some (true, error_bytes (ver y) ERR_RESPONSE_TOO_LARGE)) by reflexivity. rewrite Em. cbn [fst snd app]. unfold sret.
    assert (T2 : too_large y (error_bytes (ver y) ERR_RESPONSE_TOO_LARGE) = true) by (unfold too_large in *; rewrite L4 in T; exact T). rewrite T2. reflexivity.
  - pose proof (fin_raw Er id w y op Op Ops) as R. destruct (encode_secured_message Er id w false false y) as [[f| |] y2] eqn:En; destruct (PropStep.envelope_frame _ _ _ _ _ _ _ _ En) as [S2 N2]; rewrite R; [|left; exact S2|left; exact S2].
    destruct (e_send Er (x_io y2) f); [left; exact S2|]. right. exists f, y2. split; [reflexivity|]. match goal with |- context [set_x_sent ?p ?q] => set (y3 := set_x_sent p q) end.
    unfold on_sess. change (get_sess id y3) with (get_sess id y2). destruct (get_sess id y2) as [s|] eqn:G.
    + unfold smod. cbn [snd fst]. split; [rewrite <- S2; reflexivity|]. split; [rewrite <- N2; reflexivity|]. intros s' Es. assert (s' = s) as -> by congruence.
      apply (put_get id y3 s (set_s_state SEstablished s)); [exact G|reflexivity].
    + split; [rewrite <- S2; reflexivity|]. split; [rewrite <- N2; reflexivity|]. discriminate.
Qed.
Lemma is_ok_sent (m : st ctx unit) y r z : is_ok m y = (r, z) -> snd (m y) = z.
Proof. unfold is_ok, scatch. destruct (m y) as [[a|e|] y']; unfold sret; intro H; cbn [snd]; congruence. Qed.
Lemma core_f_add w s : core (f_add w s) = f_add w (core s). Proof. destruct s. reflexivity. Qed.
Lemma hcore_state st s : hcore (set_s_state st s) = set_s_state st (hcore s). Proof. reflexivity. Qed.
Lemma th_hcore cr s : transcript_hash cr s = transcript_hash (public cr) (hcore s). Proof. reflexivity. Qed.
Theorem psk_finish_twins E Er xr id x u x1 a b : public (e_cr E) = public (e_cr Er) -> e_tr E = e_tr Er -> lossless (e_tr Er) -> aead_correct (e_cr Er) -> seals_bytes (e_cr Er) -> well_sized (e_cr Er) ->
  let y := peer_after Er xr (rev (x_sent x)) in let y1 := peer_after Er xr (rev (x_sent x1)) in
  id < 2 ^ 32 -> ver x < 256 -> same_nego (x_nego x) (x_nego y) -> get_sess id x = Some a -> get_sess id y = Some b -> core a = core b -> s_state a = SHandshaking -> s_use_psk a = true ->
  psk_finish_req (facing E Er xr) id x = (Ok u, x1) -> share id x1 y1.
Proof.
  intros Pu Tr Lo Ac Sb Si y y1 Hid Hv Sn Ga Gb Co St Up H. destruct (nego_eqs _ _ Sn) as (Nv & Nh & _). assert (Vy : ver x = ver y) by exact Nv.
  unfold psk_finish_req in H. rewrite bind_get in H. apply sbind_inv in H as (a' & x' & P & H). apply ok_inv in P as [G' ->]. assert (a' = a) as -> by congruence. clear G'. rewrite bind_mod in H.
  destruct (reset_own RC_PSK_FINISH id x a Ga) as [G0 A0]. set (x0 := reset_buffer RC_PSK_FINISH (Some id) x) in *. clearbody x0. destruct (around_eqs _ _ A0) as (N0 & _ & V0 & _ & S0).
  assert (K : exists a0, get_sess id x0 = Some a0 /\ core a0 = core a /\ s_use_psk a0 = true) by (destruct G0 as [G0|G0]; [exists a|exists (set_s_l1l2 None a)]; split; auto). clear G0. destruct K as (a0 & G0 & C0 & U0).
  apply sbind_inv in H as (w & x2 & P & H). apply or_teardown_ok in P. destruct (encode_psk_finish_exact _ _ _ _ _ _ G0 (or_introl U0) P) as (h & Ew & Hn & (k1 & k2 & k3 & Hm) & G2 & A2). clear P.
  destruct (around_eqs _ _ A2) as (N2 & _ & V2 & _ & S2). rewrite V0 in Ew. rewrite N0 in Hn.
  apply sbind_inv in H as (u1 & x3 & P1 & H). apply or_teardown_ok in P1. apply sbind_inv in H as (bb & x4 & P2 & H). apply or_teardown_ok in P2. apply or_teardown_if_ok in H.
  assert (Hm' : cr_hmac (e_cr Er) k1 k2 k3 = Some h). { change (cr_hmac (public (e_cr E)) k1 k2 k3 = Some h) in Hm. rewrite Pu in Hm. exact Hm. }
  destruct Si as (_ & _ & Shm & _). destruct (Shm _ _ _ _ Hm') as [_ Bh]. pose proof (hash_le _ _ Hn) as L64.
  assert (Bw : bytes_ok w). { rewrite Ew. apply bytes_ok_app. split; [|exact Bh]. repeat constructor. exact Hv. }
  assert (Lw : len w <= 4000) by (rewrite Ew, len_app; unfold len at 1; cbn [length]; lia).
  assert (Sx : x_sent x2 = x_sent x) by (rewrite S2; exact S0).
  assert (Ca : core (f_add w a0) = f_add w (core b)) by (rewrite core_f_add, C0, Co; reflexivity).
  assert (Lk : like true (f_add w a0) b). { assert (L1 : like true a0 b) by (apply like_core; congruence). destruct L1 as (L1 & L2 & L3 & L4 & L5). repeat split; assumption. }
  assert (Gb' : get_sess id (peer_after Er xr (rev (x_sent x2))) = Some b) by (rewrite Sx; exact Gb).
  destruct (secured_exchange _ _ _ _ _ _ _ _ _ _ _ _ _ Pu Tr Lo Ac Sb Hid Bw Lw G2 Gb' Lk P1 P2) as (t & r & z & f & x3' & X4 & Z & Dz & Lz & Hf & R3 & Dec). clear P1 P2. rewrite Sx in *. fold y in Dz, Lz, Gb'.
  (* the responder *)
  set (yn := mod_sess id (fun _ => next true b) y) in *. assert (Sb' : s_state b = SHandshaking) by (destruct (like_core true _ _ Co) as (_ & <- & _); exact St). assert (Ub : s_use_psk b = true) by (change (s_use_psk (core b) = true); rewrite <- Co; exact Up).
  destruct (next_state true b) as [Ns Ni]. pose proof (put_get id y b (next true b) Gb Ni) as Gn. fold yn in Gn.
  unfold dispatch_secured in Dz. apply is_ok_sent in Dz. rewrite bind_get, Gn, Ns, Sb' in Dz. rewrite Ew in Dz.
  unfold dispatch_handshaking in Dz. rewrite bind_get in Dz. destruct (in_clear (xc yn)) eqn:Ic; [exfalso; unfold serr in Dz; cbn [snd] in Dz; rewrite <- Dz in Lz; change (x_sent yn) with (x_sent y) in Lz; lia|].
  change ([ver x; 0xE7; 0; 0] ++ h) with (ver x :: 0xE7 :: 0 :: 0 :: h) in *. cbn [read_header h_code] in Dz. 
  assert (Dz' : snd (handle_psk_finish Er id (ver x :: 0xE7 :: 0 :: 0 :: h) yn) = z).
  { rewrite <- Dz. change (231 =? RC_GET_ENCAP) with false. change (231 =? RC_DELIVER_ENCAP) with false. destruct (e_mut_auth Er); reflexivity. }
  clear Dz. unfold handle_psk_finish in Dz'. unfold sbind in Dz'. destruct (write_psk_finish Er id (ver x :: 0xE7 :: 0 :: 0 :: h) yn) as [[w'|e|] yw] eqn:W; pose proof (quiet_write_psk_finish _ _ _ _ _ _ W) as [Qw _].
  2,3: exfalso; cbn [snd] in Dz'; rewrite <- Dz', Qw in Lz; change (x_sent yn) with (x_sent y) in Lz; lia.
  assert (Unx : s_use_psk (next true b) = true). { unfold next, set_dir. rewrite Sb'. exact Ub. }
  assert (Hny : hash_size (n_hash (x_nego yn)) = Some (len h)) by (change (x_nego yn) with (x_nego y); rewrite <- Nh; exact Hn).
  destruct (write_psk_finish_exact _ _ _ _ _ _ _ _ Gn Unx Hny W) as (b0 & th & b1 & Kb & Ev & Ew' & Tn & Dg & Gw & Aw). clear W. destruct (around_eqs _ _ Aw) as (Nw & _ & Vw & _).
  change (ver yn) with (ver y) in *. rewrite Vy in *. rewrite <- Ew in *.
  destruct (finish_tail Er id w' yw 0x67) as [Q|(f' & y3 & En & S3 & N3 & G3)]; [rewrite Ew'; reflexivity|rewrite Ew'; reflexivity|left; reflexivity|..]; rewrite Dz' in *.
  { exfalso. rewrite Q, Qw in Lz. change (x_sent yn) with (x_sent y) in Lz. lia. }
  assert (f' = f) as -> by (rewrite S3 in Hf; cbn in Hf; congruence).
  pose proof (data_frame _ _ _ _ _ _ Dg) as Fr.
  assert (S0b : s_state b0 = SHandshaking /\ get_dir false b0 = get_dir false b /\ s_id b0 = s_id b /\ s_aead b0 = s_aead b /\ s_seq_count b0 = s_seq_count b /\ hcore b0 = hcore b).
  { assert (Q : s_state (next true b) = SHandshaking /\ get_dir false (next true b) = get_dir false b /\ s_id (next true b) = s_id b /\ s_aead (next true b) = s_aead b /\ s_seq_count (next true b) = s_seq_count b /\ hcore (next true b) = hcore b).
    { split; [congruence|]. split; [exact (next_other b Sb')|]. split; [exact Ni|]. split; [|split; [|exact (hcore_next true b Sb')]]; unfold next, set_dir; rewrite Sb'; reflexivity. }
    destruct Kb as [->| ->]; exact Q. }
  destruct S0b as (B1 & B2 & B3 & B4 & B5 & B6).
  assert (Cab : like false a b) by (exact (like_core false _ _ Co)). destruct Cab as (C1 & C2 & C3 & C4 & C5).
  assert (Sn1 : s_state b1 = SHandshaking) by (rewrite Fr; exact B1).
  assert (A3 : s_state (f_add w a0) = SHandshaking /\ get_dir false (f_add w a0) = get_dir false a).
  { assert (Q : like false a0 a) by (apply like_core; exact C0). destruct Q as (_ & Q2 & _ & _ & Q5). split; [change (s_state a0 = SHandshaking); congruence|exact Q5]. }
  destruct A3 as [A3 A4].
  assert (Lk2 : like false (next true (f_add w a0)) b1).
  { assert (Q : like false a0 a) by (apply like_core; exact C0). destruct Q as (Q1 & Q2 & Q3 & Q4 & Q5). destruct (next_state true (f_add w a0)) as [Na Nb]. unfold like. rewrite Na, Nb, (next_other _ A3), A4. rewrite Fr.
    split; [change (s_id a0 = s_id b0); congruence|]. split; [change (s_state a0 = s_state b0); congruence|]. split; [unfold next, set_dir; rewrite A3; change (s_aead a0 = s_aead b0); congruence|].
    split; [unfold next, set_dir; rewrite A3; change (s_seq_count a0 = s_seq_count b0); congruence|]. rewrite C5, <- B2. unfold get_dir. cbn [s_state set_s_app s_hs f_add set_s_th set_s_f_init]. rewrite B1. reflexivity. }
  assert (G3' : get_sess id x3' = Some (next true (f_add w a0))).
  { destruct (around_rest _ _ R3) as (_ & _ & Q & _). unfold get_sess in *. rewrite Q. destruct (next_state true (f_add w a0)) as [_ Nb]. exact (put_get id x2 _ _ G2 Nb). }
  assert (Bw' : bytes_ok w') by (rewrite Ew'; repeat constructor; exact Hv).
  assert (Lw' : len w' <= 4000) by (rewrite Ew'; vm_compute; discriminate).
  destruct (answered_like (facing E Er xr) Er id w' x3' f yw y3 _ _ Pu Tr Lo Ac Sb Hid Bw' Lw' G3' Gw Lk2 En) as [Y3 Dec']. rewrite Dec in Dec'. assert (bb = w') as -> by congruence. match type of Dec' with _ = (_, ?q) => assert (X4' : x4 = q) by congruence end. clear Dec Dec'.
  set (a4 := next false (next true (f_add w a0))) in *. destruct (next_state false (next true (f_add w a0))) as [Nc Nd]. destruct (next_state true (f_add w a0)) as [Ne Nf].
  pose proof (put_get id x3' _ a4 G3' Nd) as G4. rewrite <- X4' in G4.
  assert (P4 : plainly a4). { right. right. unfold a4, next, set_dir. rewrite A3. unfold mod_hs. cbn [s_state set_s_hs s_hs]. change (s_state (f_add w a0)) with (s_state a0) in *. rewrite A3. reflexivity. }
  assert (V4 : ver x4 = ver y). { rewrite X4'. change (ver x3' = ver y). destruct (around_rest _ _ R3) as (Q & _). unfold ver. rewrite Q. change (ver x2 = ver y). congruence. }
  destruct (handle_psk_finish_exact _ _ _ _ _ _ _ G4 P4 H) as (body & rest & a5 & Ebb & Lb & Da & G5 & A5). rewrite V4 in *. rewrite Ew' in Ebb.
  assert (Ebody : body = [0; 0] /\ rest = []). { assert (Q : [0; 0] = body ++ rest) by congruence. destruct body as [|q1 [|q2 [|]]]; try discriminate Lb. injection Q as <- <- Q. auto. }
  destruct Ebody as [-> ->]. rewrite <- Ew' in Da.
  (* one transcript, one set of keys *)
  unfold data_prog in Da. apply sbind_inv in Da as (th' & a6 & Ta & Da). apply sbind_inv in Da as (u6 & a7 & Dga & Da). apply mod_inv in Da.
  assert (Hc4 : hcore (f_add w' a4) = hcore (f_add (w ++ w') b0)).
  { rewrite hcore_f_add. unfold a4. rewrite hcore_next by congruence. rewrite hcore_next by exact A3. rewrite <- hcore_f_add, f_add_add, !hcore_f_add. rewrite B6. rewrite (hcore_core a0 b) by congruence. reflexivity. }
  assert (Th : th' = th /\ a6 = f_add w' a4).
  { unfold th_now in Ta, Tn. rewrite bind_get in Ta, Tn. apply of_inv in Ta as [Ta ->]. split; [|reflexivity].
    assert (Q : transcript_hash (e_cr (facing E Er xr)) (f_add w' a4) = transcript_hash (e_cr Er) (f_add (w ++ w') b0)).
    { change (e_cr (facing E Er xr)) with (e_cr E). rewrite (th_hcore (e_cr E) (f_add w' a4)), (th_hcore (e_cr Er) (f_add (w ++ w') b0)), Hc4. rewrite Pu. reflexivity. }
    unfold sof in Tn. rewrite <- Q in Tn. rewrite Ta in Tn. congruence. }
  destruct Th as [-> ->].
  change (e_cr (facing E Er xr)) with (e_cr E) in Dga. rewrite (data_public (e_cr E)), Pu, <- data_public in Dga.
  destruct (htwins _ _ _ _ _ (hblind_data _ _ _) Hc4 Dga) as (b1' & Dg' & Hc). assert (b1' = b1) as -> by congruence.
  destruct (next_state false b1) as [Nb1 Nb2]. pose proof (put_get id yw _ _ Gw Nb2) as Gy3. rewrite <- Y3 in Gy3. specialize (G3 _ Gy3).
  destruct (around_eqs _ _ A5) as (N5 & _ & V5 & _ & S5).
  assert (Yz : y1 = z) by (unfold y1; rewrite S5; exact Z).
  split; [rewrite Yz; unfold ver; rewrite N3, Nw; change (ver x1 = ver y); congruence|].
  exists a5, (set_s_state SEstablished (next false b1)). split; [exact G5|]. split; [rewrite Yz; exact G3|]. split; [rewrite Da; reflexivity|].
  apply paired_hcore. rewrite Da. rewrite !hcore_state. rewrite (hcore_next false b1 Sn1), Hc. reflexivity.
Qed.
