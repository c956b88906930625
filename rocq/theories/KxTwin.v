(** KEY_EXCHANGE at the two ends: the new session as the result of one program on each side. *)
From Verif Require Import Bytes BytesFacts Status Codec Parse ParseProofs Algo Monad MsgConn MsgAuth MsgSession MsgOther Message Opaque.
From Verif Require Import Transport Crypto KeySchedule Session Signing CertOps ChainVerify Context SessionProofs
  RspBase RspConn RspSess StRel RspFrame RspCalm RspOpcode RspPass RspEst RspTable ReqBase ReqConn ReqSess SpecReq ReqFrame ReqAnswer SpecSession SpecAuth ReqTrans ReqSplit ReqHist ReqAuth ReqOpen ReqHand ReqHand2 ReqHand3 SpecKeys KeyProofs SpecPair RspPair Twin ReqTwin RspTwin ReqMeas.
From Coq Require Import Lia.
Local Open Scope N_scope.

(** a new session for KEY_EXCHANGE, and the program that runs on it *)
Definition kx_init (E : env) (n : nego) (mut id : N) (s : session) : session :=
  session_params E n (set_s_mut_auth mut (set_s_use_psk false (set_s_id id (session_set_default s)))).
Definition kx_bind (a chash : bytes) (s : session) : session := set_s_req_hash None (set_s_rsp_hash (Some chash) (set_s_msg_a a s)).
Definition kx_prog (cr : crypto) (v : N) (final a chash t mac : bytes) : st session unit :=
  (set_dhe_secret cr v final ;;; smod (kx_bind a chash) ;;; exchange_prog cr v t mac)%st.
Lemma blind_kx cr v f a c t m : blind (kx_prog cr v f a c t m).
Proof. unfold kx_prog. apply blind_bind; [apply blind_dhe|intro]. apply blind_bind; [apply blind_mod; intro; reflexivity|intro]. apply blind_exchange. Qed.
Lemma kx_public cr v f a c t m : kx_prog cr v f a c t m = kx_prog (public cr) v f a c t m. Proof. reflexivity. Qed.
Lemma kx_init_core E E' n n' mut id s s' : e_tr E = e_tr E' -> n_hash n = n_hash n' -> n_dhe n = n_dhe n' -> n_aead n = n_aead n' -> n_ks n = n_ks n' ->
  core (kx_init E n mut id s) = core (kx_init E' n' mut id s').
Proof. intros T A B C D. unfold kx_init, session_params. rewrite T, A, B, C, D. reflexivity. Qed.
Lemma dhe_frame cr v f s u s' : set_dhe_secret cr v f s = (Ok u, s') -> s_id s' = s_id s /\ s_th s' = s_th s /\ s_mut_auth s' = s_mut_auth s /\ s_use_psk s' = s_use_psk s /\ s_f_init s' = s_f_init s /\ s_hash s' = s_hash s.
Proof. intro H. apply dhe_ok in H as (_ & S3). destruct s, s'. cbn in S3. injection S3. intros. subst. cbn. auto 10. Qed.
Lemma kx_frame cr v f a c t m s s' : kx_prog cr v f a c t m s = (Ok tt, s') -> s_id s' = s_id s /\ s_use_psk s' = s_use_psk s /\ s_state s' = SHandshaking /\ s_mut_auth s' = s_mut_auth s /\ s_f_init s' = s_f_init s.
Proof.
  intro H. unfold kx_prog in H. apply sbind_inv in H as (u & s1 & P & H). destruct (dhe_frame _ _ _ _ _ _ P) as (D1 & _ & D3 & D4 & D5 & _). rewrite bind_mod in H.
  unfold exchange_prog in H. rewrite bind_mod in H. apply sbind_inv in H as (th & s2 & P1 & H). unfold th_now in P1. rewrite bind_get in P1. apply of_inv in P1 as [_ ->].
  apply sbind_inv in H as (u1 & s3 & P1 & H). apply handshake_ok in P1 as (_ & P1 & _). rewrite bind_mod in H. apply mod_inv in H. rewrite H, P1. cbn. auto.
Qed.

(** ** the requester *)
Lemma req_open_kx E id p final chash z u z' l1 s l2 : x_sess z = l1 ++ s :: l2 -> s_id s = 0 -> (forall t, In t l1 -> s_id t <> 0) -> (forall t, In t l1 -> s_id t <> id) ->
  req_open_session E id p final chash z = (Ok u, z') ->
  exists s1, set_dhe_secret (e_cr E) (ver z) final (kx_init E (x_nego z) (kr_mut_auth p) id s) = (Ok tt, s1) /\
    get_sess id z' = Some (kx_bind (x_msg_a z) chash s1) /\ around z' = around z.
Proof.
  intros S Z U U' H. unfold req_open_session in H. bg H. destruct (get_sess 0 z); [|discriminate]. bi H. apply (setup_first _ _ _ _ _ _ _ S Z U) in P as [_ ->].
  set (z1 := set_x_sess _ z) in *. assert (G1 : get_sess id z1 = Some (set_s_id id (session_set_default s))) by (apply (get_new _ l1 _ l2); [reflexivity|exact U'|reflexivity]).
  bi H. apply mod_inv in P. match type of P with y = mod_sess _ ?f _ => assert (G2 := get_mod id f z1 _ G1 eq_refl); rewrite <- P in G2 end. cbv beta in G2.
  change (get_sess id y = Some (kx_init E (x_nego z) (kr_mut_auth p) id s)) in G2.
  assert (Ay : around y = around z) by (rewrite P; reflexivity). clear P G1. clearbody z1.
  bi H. apply (on_ok _ _ _ _ _ _ G2) in P as (s3 & K3 & Z3). destruct (dhe_frame _ _ _ _ _ _ K3) as (I3 & _).
  pose proof (put_get id y _ s3 G2 I3) as G3. rewrite <- Z3 in G3.
  apply mod_inv in H. match type of H with z' = mod_sess _ ?f _ => assert (G4 := get_mod id f _ _ G3 eq_refl); rewrite <- H in G4 end.
  exists s3. match type of K3 with _ = (Ok ?q, _) => destruct q end. split; [exact K3|]. split; [exact G4|]. rewrite H, around_put, Z3, around_put. exact Ay.
Qed.
Lemma finish_kx_prog E slot id s used p z s0 u z' t sg n : get_sess id z = Some s0 -> finish_key_exchange E slot id s used p z = (Ok u, z') -> in_clear (xc z) = false ->
  hash_size (n_hash (x_nego z)) = Some n -> asym_size (n_asym (x_nego z)) = Some sg -> drop_last (sg + n) used = Ok t ->
  exists s1 hb sv, exchange_prog (e_cr E) (ver z) ((s ++ t) ++ v_bytes (kr_sig p)) (v_bytes (kr_verify p)) s0 = (Ok tt, s1) /\
    get_sess id z' = Some (set_s_heartbeat hb (set_s_secver sv s1)) /\ around z' = around z.
Proof.
  intros G H Cl Hn Hs Hd. unfold finish_key_exchange in H. bg H. rewrite Cl in H. bi H. apply unwrap_inv in P as [N1 ->]. assert (v = sg) as -> by congruence.
  bi H. apply unwrap_inv in P as [N2 ->]. assert (v = n) as -> by congruence. bi H. apply of_inv in P as [Dl ->]. assert (v = t) as -> by congruence. clear Dl N1 N2.
  bi H. destruct (k_step _ _ _ _ _ _ _ G P) as [Z1 G1]. clear P. bi H. destruct (k_step _ _ _ _ _ _ _ G1 P) as [Z2 G2]. clear P. rewrite k_add_add in G2.
  bi H. apply oror_inv in P. unfold verify_key_exchange_sig in P. bi P. apply (calc_inv _ _ _ _ _ _ G2) in P0 as (-> & _). match type of P with _ = (_, ?a) => assert (Zv : a = y0) by exact (verify_peer_state _ _ _ _ _ _ _ _ P) end. rewrite Zv in *. clear P Zv.
  bi H. destruct (k_step _ _ _ _ _ _ _ G2 P) as [Z3 G3]. clear P. rewrite k_add_add in G3.
  bi H. apply (calc_inv _ _ _ _ _ _ G3) in P as (-> & t1 & T & Hv).
  bi H. apply (on_ok _ _ _ _ _ _ G3) in P as (s4 & K4 & Z4). destruct (hs_frame _ _ _ _ _ _ K4) as (I4 & _).
  match type of Z4 with _ = mod_sess _ _ ?q => pose proof (put_get id q _ s4 G3 I4) as G4; rewrite <- Z4 in G4 end.
  cbn [negb swhen] in H. bi H. destruct (hmac_step _ _ _ _ _ _ _ G4 P) as [Z5 G5]. clear P.
  assert (Pr : (smod (k_add ((s ++ t) ++ v_bytes (kr_sig p))) ;;; th1 <-- th_now (e_cr E) ;; generate_handshake_secret (e_cr E) (ver z) th1 ;;; smod (k_add (v_bytes (kr_verify p))))%st s0 = (Ok tt, k_add (v_bytes (kr_verify p)) s4)).
  { rewrite bind_mod. unfold sbind at 1. rewrite (th_now_run _ _ _ _ T Hv). unfold sbind. match type of K4 with _ = (Ok ?q, _) => destruct q end. rewrite K4. reflexivity. }
  apply exchange_tail in Pr.
  bi H. apply (on_ok _ _ _ _ _ _ G5) in P as (s6 & K6 & Z6). unfold smod in K6. match type of K6 with (_, ?w) = _ => assert (S6 : s6 = w) by congruence end. clear K6. apply ret_inv in H as [_ ->].
  eexists. exists (kr_heartbeat p), (req_secure_version (xc z) (kr_opaque p)). split; [exact Pr|]. split; [rewrite Z6, S6; apply (put_get _ _ _ _ G5); reflexivity|].
  rewrite Z6, around_put, Z5, around_put, Z4, around_put, Z3, around_put, Z2, around_put, Z1. reflexivity.
Qed.
Lemma handle_kx_prog E h slot t key s b z id z' : rtok z -> get_next_half_session_id true z = Ok h -> in_clear (xc z) = false -> handle_key_exchange_rsp E h slot t key s b z = (Ok id, z') ->
  let c := mkCctx (x_nego z) ((t =? 1) || (t =? 0xFF)) (x_need_sig z) in
  exists r p rest final chash n sg u s0 s1 s2, b = ver z :: 0x64 :: r /\ dec_key_ex_rsp c r = POk p rest /\ id = session_id (kr_session p) h /\
    cr_dhe_final (e_cr E) (n_dhe (x_nego z)) key (v_bytes (kr_exchange p)) = Some final /\
    certchain_hash (e_cr E) (n_hash (x_nego z)) false (slot_of (x_peer_chain z) slot) = Some chash /\
    hash_size (n_hash (x_nego z)) = Some n /\ asym_size (n_asym (x_nego z)) = Some sg /\ drop_last (sg + n) (used_of b rest) = Ok u /\
    kx_prog (e_cr E) (ver z) final (x_msg_a z) chash ((s ++ u) ++ v_bytes (kr_sig p)) (v_bytes (kr_verify p)) (kx_init E (x_nego z) (kr_mut_auth p) id s0) = (Ok tt, s1) /\
    get_sess id z' = Some s2 /\ core s2 = core s1 /\ x_nego z' = x_nego z /\ x_sent z' = x_sent z.
Proof.
  intros T Nh Cl H. cbv zeta. unfold handle_key_exchange_rsp, set_summary in H. rewrite bind_mod in H. match type of H with _ ?y0 = _ => set (y := y0) in * end.
  apply on_response_ok in H as (r & Eb & H). apply reading_run in H as [[_ K]|(p & rest & D & H)]; [exfalso; exact (K _ eq_refl)|]. bg H.
  bi H. apply ok_inv in P as [Df ->]. bi H. apply ok_inv in P as [Ch ->]. rename v into final. rename v0 into chash. cbv zeta in H.
  bi H. destruct (half_fresh _ _ (kr_session p) T Nh) as (l1 & s1 & l2 & S & Z & U & U' & Nzi).
  change (x_sess z) with (x_sess y) in S. destruct (req_open_kx _ _ _ _ _ _ _ _ _ _ _ S Z U ltac:(intros; apply U'; apply in_or_app; auto) P) as (s3 & K3 & G0 & A0). clear P.
  bi H. apply ret_inv in H as [Hi ->]. assert (id = session_id (kr_session p) h) as -> by congruence. clear Hi. set (i := session_id (kr_session p) h) in *.
  destruct (around_eqs _ _ A0) as (N0 & C0 & V0 & _ & S0).
  pose proof P as P'. unfold finish_key_exchange in P'. bg P'. bi P'. apply unwrap_inv in P0 as [Hs ->]. bi P'. apply unwrap_inv in P0 as [Hn ->]. bi P'. apply of_inv in P0 as [Dl ->]. clear P'.
  assert (Cl0 : in_clear (xc y0) = false) by (rewrite C0; exact Cl). rewrite Cl0 in Dl.
  destruct (finish_kx_prog _ _ _ _ _ _ _ _ _ _ _ _ _ G0 P Cl0 Hn Hs Dl) as (s4 & hb & sv & Pr & G3 & A3). destruct (around_eqs _ _ A3) as (N3 & C3 & V3 & _ & S3).
  rewrite V0 in Pr. rewrite N0 in Hn, Hs. exists r, p, rest, final, chash. eexists. eexists. eexists. exists s1, s4. eexists.
  split; [exact Eb|]. split; [exact D|]. split; [reflexivity|]. split; [exact Df|]. split; [exact Ch|]. split; [exact Hn|]. split; [exact Hs|]. split; [exact Dl|].
  split; [unfold kx_prog; unfold sbind at 1; change (ver y) with (ver z) in K3; change (x_nego y) with (x_nego z) in K3; rewrite K3; rewrite bind_mod; exact Pr|].
  split; [exact G3|]. split; [reflexivity|]. split; [rewrite N3, N0; reflexivity|rewrite S3, S0; reflexivity].
Qed.

(** ** the responder *)
Lemma rsp_open_kx E p final chash rsp z u z' : tok z -> get_next_half_session_id false z = Ok rsp -> kx_session p < 65536 -> open_session E p final chash rsp z = (Ok u, z') ->
  let id := session_id rsp (kx_session p) in
  exists s s0 s1, core s0 = core (kx_init E (x_nego z) (rsp_mut_auth E) id s) /\ set_dhe_secret (e_cr E) (ver z) final s0 = (Ok tt, s1) /\
    get_sess id z' = Some (kx_bind (x_msg_a z) chash s1) /\ around z' = around z /\ rsp < 65536.
Proof.
  intros T Nh Hq H. cbv zeta. destruct (open_split _ _ _ T Nh Hq) as (l1 & s & l2 & S & Z & _ & U & Hd & Nz & U1 & U2). rewrite session_id_high in Hd by exact Hq. set (id := session_id rsp (kx_session p)) in *.
  unfold open_session in H. bg H. destruct (get_sess 0 z); [|discriminate]. cbv zeta in H. fold id in H. bi H. apply (setup_first _ _ _ _ _ _ _ S Z U) in P as [_ ->].
  bi H. apply mod_inv in P. match type of P with _ = mod_sess _ ?f _ => set (g := f) in * end.
  assert (G0 : get_sess id y = Some (g (set_s_id id (session_set_default s)))) by (rewrite P; apply open_first; [exact U1|reflexivity|reflexivity]).
  assert (A0 : around y = around z) by (rewrite P; reflexivity). clear P.
  bi H. apply abandon_inv in P. apply (on_ok _ _ _ _ _ _ G0) in P as (s1 & K1 & Z1). destruct (dhe_frame _ _ _ _ _ _ K1) as (I1 & _). pose proof (put_get id y _ s1 G0 I1) as G1. rewrite <- Z1 in G1.
  apply mod_inv in H. match type of H with z' = mod_sess _ ?f _ => assert (G2 := get_mod id f _ _ G1 eq_refl); rewrite <- H in G2 end.
  exists s. eexists. exists s1. split; [|split; [match type of K1 with _ = (Ok ?q, _) => destruct q end; exact K1|]].
  - reflexivity.
  - split; [exact G2|]. split; [rewrite H, around_put, Z1, around_put; exact A0|lia].
Qed.
Lemma sign_th_state E op id s z sg z' : get_sess id z = Some s -> sign_th E op id z = (Ok sg, z') -> z' = z /\ exists m, cr_sign (e_cr E) (n_hash (x_nego z)) (n_asym (x_nego z)) m = Some sg.
Proof.
  intros G H. unfold sign_th in H. bi H. apply (calc_inv _ _ _ _ _ _ G) in P as (-> & _). bg H. bi H. apply of_inv in P as [_ ->]. apply ok_inv in H as [H ->]. split; [reflexivity|]. eexists. exact H.
Qed.
Lemma kx_finishing_inv E id req op sig hash w y w' y' s0 : get_sess id y = Some s0 -> in_clear (xc y) = false ->
  key_exchange_finishing E id req op sig hash w y = (Ok w', y') ->
  exists t sg h s1 s2, drop_last (sig + hash) w = Ok t /\ (exists m, cr_sign (e_cr E) (n_hash (x_nego y)) (n_asym (x_nego y)) m = Some sg) /\ (exists alg k d, cr_hmac (e_cr E) alg k d = Some h) /\
    patch_sig_hmac sig hash sg h w = Ok w' /\ exchange_prog (e_cr E) (ver y) ((req ++ t) ++ sg) h s0 = (Ok tt, s1) /\
    get_sess id y' = Some s2 /\ core s2 = core s1 /\ around y' = around y.
Proof.
  intros G Cl H. unfold key_exchange_finishing in H. bg H. rewrite Cl in H. cbv zeta in H.
  bi H. apply oror_inv in P. destruct (k_step _ _ _ _ _ _ _ G P) as [Z1 G1]. clear P. bi H. apply of_inv in P as [Dl ->]. match type of Dl with _ = Ok ?q => rename q into t end.
  bi H. apply oror_inv in P. destruct (k_step _ _ _ _ _ _ _ G1 P) as [Z2 G2]. clear P. rewrite k_add_add in G2.
  bi H. apply oror_inv in P. destruct (sign_th_state _ _ _ _ _ _ _ G2 P) as [-> Sg]. clear P. match type of Sg with exists m, _ = Some ?q => rename q into sg end.
  bi H. apply oror_inv in P. destruct (k_step _ _ _ _ _ _ _ G2 P) as [Z3 G3]. clear P. rewrite k_add_add in G3.
  bi H. apply oror_inv in P. apply (calc_inv _ _ _ _ _ _ G3) in P as (-> & tt1 & T & Hv).
  bi H. apply (on_ok _ _ _ _ _ _ G3) in P as (s4 & K4 & Z4). destruct (hs_frame _ _ _ _ _ _ K4) as (I4 & _).
  match type of Z4 with _ = mod_sess _ _ ?q => pose proof (put_get id q _ s4 G3 I4) as G4; rewrite <- Z4 in G4 end.
  bi H. bi P. destruct (rsp_hmac_inv _ _ _ _ _ _ G4 P0) as [-> Hm]. clear P0. match type of Hm with exists a b c, _ = Some ?q => rename q into h end.
  bi P. apply abandon_inv in P0. destruct (k_step _ _ _ _ _ _ _ G4 P0) as [Z5 G5]. clear P0. apply of_inv in P as [Pl ->].
  assert (Pr : (smod (k_add ((req ++ t) ++ sg)) ;;; th1 <-- th_now (e_cr E) ;; generate_handshake_secret (e_cr E) (ver y) th1 ;;; smod (k_add h))%st s0 = (Ok tt, k_add h s4)).
  { rewrite bind_mod. unfold sbind at 1. rewrite (th_now_run _ _ _ _ T Hv). unfold sbind. match type of K4 with _ = (Ok ?q, _) => destruct q end. rewrite K4. reflexivity. }
  apply exchange_tail in Pr.
  bi H. apply (on_ok _ _ _ _ _ _ G5) in P as (s6 & K6 & Z6). unfold smod in K6. match type of K6 with (_, ?a) = _ => assert (S6 : s6 = a) by congruence end. clear K6.
  cbn [swhen] in H. bi H. apply ret_inv in P as [_ ->]. apply ret_inv in H as [Hw ->]. match type of Pl with _ = Ok ?a => assert (a = w') as -> by congruence end.
  exists t, sg, h. eexists. exists s6. split; [exact Dl|]. split.
  { destruct Sg as (m & Sg). exists m. rewrite <- Sg. rewrite Z2, Z1. reflexivity. }
  split; [exact Hm|]. split; [exact Pl|]. split; [exact Pr|].
  split; [rewrite Z6; apply (put_get _ _ _ _ G5); rewrite S6; unfold take_secver; destruct (_ =? 0); reflexivity|].
  split; [rewrite S6; unfold take_secver; destruct (_ =? 0); reflexivity|]. rewrite Z6, around_put, Z5, around_put, Z4, around_put, Z3, around_put, Z2, around_put, Z1. reflexivity.
Qed.
Lemma write_kx_inv E v r p rest y w' y' : tok y -> kx_session p < 65536 -> dec_key_ex (xc y) r = POk p rest -> in_clear (xc y) = false ->
  write_key_exchange E (v :: RC_KEY_EXCHANGE :: r) y = (Ok w', y') ->
  let b := v :: RC_KEY_EXCHANGE :: r in let n := set_n_term_policy (N.land (kx_policy p) 1 =? 1) (x_nego y) in let c := mkCctx n (kind (kx_hash_type p)) (x_need_sig y) in
  exists sum op rsp key share final chash random sig hash w t sg h s0 s1 s2, let id := session_id rsp (kx_session p) in
    v = ver y /\ rsp < 65536 /\ hash_size (n_hash (x_nego y)) = Some hash /\ asym_size (n_asym (x_nego y)) = Some sig /\ summary_of E y (kx_hash_type p) sum /\
    (length random = 32%nat /\ exists i, cr_random (e_cr E) i 32 = Some random) /\
    cr_dhe_public (e_cr E) (n_dhe (x_nego y)) key = Some share /\ cr_dhe_final (e_cr E) (n_dhe (x_nego y)) key (v_bytes (kx_exchange p)) = Some final /\
    certchain_hash (e_cr E) (n_hash (x_nego y)) false (slot_of (x_my_chain y) (kx_slot p)) = Some chash /\
    rsp_select_version c (cf_secver (x_cfg y)) (kx_opaque p) = Ok op /\
    xwire (enc_message c (key_exchange_rsp_msg v (cf_heartbeat (x_cfg y)) rsp (rsp_mut_auth E) random share sum op sig hash)) = Some w /\
    drop_last (sig + hash) w = Ok t /\ (exists m, cr_sign (e_cr E) (n_hash (x_nego y)) (n_asym (x_nego y)) m = Some sg) /\ (exists alg k d, cr_hmac (e_cr E) alg k d = Some h) /\ patch_sig_hmac sig hash sg h w = Ok w' /\
    kx_prog (e_cr E) v final (x_msg_a y) chash ((used_of b rest ++ t) ++ sg) h (kx_init E (x_nego y) (rsp_mut_auth E) id s0) = (Ok tt, s1) /\
    get_sess id y' = Some s2 /\ core s2 = core s1 /\ x_nego y' = n /\ x_msg_a y' = x_msg_a y.
Proof.
  intros T Hq D Cl H. cbv zeta. unfold write_key_exchange, exchange_start in H. bg H. destruct (negotiated y); [|discriminate]. unfold with_version_r in H. bg H.
  change (read_header (v :: RC_KEY_EXCHANGE :: r)) with (Some (mkHeader v RC_KEY_EXCHANGE, r)) in H. cbv iota in H. cbn [h_version] in H. destruct (N.eqb_spec v (ver y)) as [->|]; [|discriminate]. cbn [negb] in H.
  destruct (0x11 <=? ver y); [|discriminate]. rewrite bind_mod in H. destruct (reset_none RC_KEY_EXCHANGE y) as (A1 & B1 & C1). set (y1 := reset_buffer RC_KEY_EXCHANGE None y) in *. clearbody y1.
  destruct (around_eqs _ _ A1) as (N1 & X1 & V1 & M1 & _).
  unfold sbind at 1 in H. unfold rd in H. rewrite X1, D in H.
  apply sbind_inv in H as (so & ys & P & H). apply summary_inv in P as [-> Sm]. apply sbind_inv in H as (sum & ys & P & H). apply ok_inv in P as [-> ->]. specialize (Sm _ eq_refl).
  rewrite bind_mod in H. rewrite bind_get in H. set (n := set_n_term_policy (N.land (kx_policy p) 1 =? 1) (x_nego y)).
  assert (Nd : x_need_sig y1 = x_need_sig y) by (unfold around in A1; congruence). assert (Cf : x_cfg y1 = x_cfg y) by (unfold around in A1; congruence). assert (Mc : x_my_chain y1 = x_my_chain y) by (unfold around in A1; congruence).
  match type of H with _ ?q = _ => set (y2 := q) in * end.
  assert (N2 : x_nego y2 = n) by (unfold y2, modn; cbn [x_nego set_x_nego set_x_need_sum]; unfold n; rewrite N1; reflexivity).
  assert (X2 : xc y2 = mkCctx n (kind (kx_hash_type p)) (x_need_sig y)) by (unfold xc; rewrite N2; unfold y2, modn; cbn [x_need_sum x_need_sig set_x_nego set_x_need_sum]; rewrite Nd; reflexivity).
  assert (F2 : x_cfg y2 = x_cfg y /\ x_msg_a y2 = x_msg_a y /\ x_my_chain y2 = x_my_chain y /\ x_sess y2 = x_sess y /\ x_last y2 = x_last y /\ ver y2 = ver y).
  { unfold ver. rewrite N2. unfold y2, modn. cbn [x_cfg x_msg_a x_my_chain x_sess x_last set_x_nego set_x_need_sum]. repeat split; congruence. }
  destruct F2 as (F2 & M2 & K2 & S2 & L2 & V2). clearbody y2. rewrite X2, F2 in H.
  apply sbind_inv in H as (op & ys & P & H). apply of_inv in P as [Op ->].
  match type of H with context [if ?b then _ else _] => destruct b; [|discriminate] end. rewrite bind_mod, bind_mod in H.
  match type of H with _ ?q = _ => set (y3 := q) in * end. assert (A3 : around y3 = around y2 /\ x_sess y3 = x_sess y2 /\ x_last y3 = x_last y2) by (split; [|split]; reflexivity). destruct A3 as (A3 & S3 & L3). clearbody y3.
  apply sbind_inv in H as (share & ys & P & H). apply unwrap_inv in P as [Dp ->]. apply sbind_inv in H as (final & ys & P & H). apply ok_inv in P as [Df ->].
  apply sbind_inv in H as (rsp & ys & P & H). apply oror_inv in P. apply of_inv in P as [Nh ->]. apply sbind_inv in H as (chash & ys & P & H). apply ok_inv in P as [Ch ->].
  assert (T3 : tok y3) by (apply (tok_same y); [congruence|congruence|exact T]). rewrite <- (next_half_same y2 y3 false S3) in Nh.
  apply sbind_inv in H as (u0 & y4 & P & H). destruct (rsp_open_kx _ _ _ _ _ _ _ _ T3 Nh Hq P) as (s & s0 & s1 & C0 & Dh & G4 & A4 & Hr). clear P.
  apply sbind_inv in H as (ro & y5 & P & H). assert (Cr : forall q, ro = Some q -> length q = 32%nat /\ exists i, cr_random (e_cr E) i 32 = Some q).
  { intros q ->. unfold get_random in P. destruct (cr_random _ _ _) as [w0|] eqn:Cr; [|discriminate P]. destruct (Nat.eqb_spec (length w0) 32); [|discriminate P]. assert (w0 = q) as -> by congruence. split; [assumption|eauto]. }
  destruct (random_frame _ _ _ _ _ P) as (A5 & S5 & _). clear P. apply sbind_inv in H as (random & ys & P & H). apply ok_inv in P as [Ro ->]. specialize (Cr _ Ro).
  apply sbind_inv in H as (sig & ys & P & H). apply unwrap_inv in P as [Hs ->]. apply sbind_inv in H as (hash & ys & P & H0). apply unwrap_inv in P as [Hh ->].
  assert (A52 : around y5 = around y2) by congruence. destruct (around_eqs _ _ A52) as (N5 & X5 & V5 & M5 & _). destruct (around_eqs _ _ A3) as (N3 & X3 & V3 & M3 & _). rewrite N2 in *.
  unfold encode_r in H0. unfold sbind at 1 in H0. unfold wenc in H0. rewrite X5, X2 in H0. rewrite V2 in H0.
  match type of H0 with context [emit (enc_message ?c ?m) []] => destruct (emit (enc_message c m) []) as [[[|] w]|] eqn:Em; try discriminate H0 end. cbn [fst snd] in H0.
  apply emit_true in Em as (w0 & Ew & ->). cbn [app] in H0.
  assert (G5 : get_sess (session_id rsp (kx_session p)) y5 = Some (kx_bind (x_msg_a y3) chash s1)) by (unfold get_sess in *; rewrite S5; exact G4).
  assert (Cl5 : in_clear (xc y5) = false) by (rewrite X5, X2; exact Cl).
  destruct (kx_finishing_inv _ _ _ _ _ _ _ _ _ _ _ G5 Cl5 H0) as (t & sg & h & s2 & s3 & Dl & Sg & Hm & Pl & Pr & G6 & Co & A6). destruct (around_eqs _ _ A6) as (N6 & _ & _ & M6 & _).
  assert (Vz : ver y3 = ver y) by congruence. assert (V5' : ver y5 = ver y) by congruence. assert (Mz : x_msg_a y3 = x_msg_a y) by congruence. assert (Nz : x_nego y3 = n) by congruence. rewrite N5 in Sg. rewrite V5' in Pr. rewrite Vz in Dh. rewrite Mz in Pr. rewrite Nz in C0.
  assert (Pk : kx_prog (e_cr E) (ver y) final (x_msg_a y) chash ((used_of (ver y :: RC_KEY_EXCHANGE :: r) rest ++ t) ++ sg) h s0 = (Ok tt, s2)).
  { unfold kx_prog. unfold sbind at 1. rewrite Dh. rewrite bind_mod. exact Pr. }
  change (kx_init E n) with (kx_init E (x_nego y)) in C0. destruct (twins _ _ _ _ _ (blind_kx _ _ _ _ _ _ _) C0 Pk) as (s2' & Pk' & C2).
  exists sum, op, rsp, (x_rng y2), share, final, chash, random, sig, hash, w0, t, sg, h, s, s2', s3.
  split; [reflexivity|]. split; [exact Hr|]. split; [exact Hh|]. split; [exact Hs|].
  split. { unfold summary_of, kind. unfold ver in *. rewrite N1 in Sm. exact Sm. }
  split; [exact Cr|]. split; [exact Dp|]. split; [exact Df|]. split; [rewrite K2 in Ch; exact Ch|]. split; [exact Op|]. split; [exact Ew|]. split; [exact Dl|]. split; [exact Sg|]. split; [exact Hm|]. split; [exact Pl|].
  split; [exact Pk'|]. split; [exact G6|]. split; [congruence|]. split; [congruence|congruence].
Qed.
