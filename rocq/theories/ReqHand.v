(** The requester's handshakes. *)
From Verif Require Import Bytes BytesFacts Status Codec Parse ParseProofs Algo Monad.
From Verif Require Import MsgConn MsgAuth MsgSession MsgOther Message Opaque Transport Crypto KeySchedule Session Signing CertOps ChainVerify Context
  RspBase RspConn RspSess RspEncap Responder StRel RspFrame RspCalm RspOpcode RspPass RspEst ReqBase ReqConn ReqSess SpecReq ReqFrame ReqAnswer SpecSession SessionProofs SignProofs SpecAuth ReqTrans ReqSplit ReqHist ReqAuth ReqTable ReqOpen ReqMeas.
From Verif Require Import MsgLocal SpecKeys KeyProofs SpecHand RspTable.
From Coq Require Import Lia.
Local Open Scope N_scope.

(** ** one session seen through the context *)
Definition env_of (z : ctx) := (xc z, x_cfg z, x_peer_chain z, x_my_chain z, x_lslot z, x_msg_a z).
Lemma on_ok {A} id (m : st session A) z s a z' : get_sess id z = Some s -> on_sess id m z = (Ok a, z') ->
  exists s', m s = (Ok a, s') /\ z' = mod_sess id (fun _ => s') z.
Proof. intros G H. unfold on_sess in H. rewrite G in H. destruct (m s) as [r s'] eqn:M. exists s'. split; congruence. Qed.
Lemma put_get id z s s' : get_sess id z = Some s -> s_id s' = s_id s -> get_sess id (mod_sess id (fun _ => s') z) = Some s'.
Proof. intros G K. apply (get_mod id (fun _ => s') z s G K). Qed.
Lemma env_put id f z : env_of (mod_sess id f z) = env_of z.
Proof. reflexivity. Qed.
Definition th_base (s : session) : bytes :=
  match s_th s with Some d => d | None => s_msg_a s ++ match s_rsp_hash s with Some h => h | None => [] end end.
Lemma append_k_ok cr id m z s u z' : get_sess id z = Some s -> append_k cr id m z = (Ok u, z') ->
  z' = mod_sess id (fun _ => set_s_th (Some (th_base s ++ m)) s) z /\ get_sess id z' = Some (set_s_th (Some (th_base s ++ m)) s).
Proof.
  intros G H. apply (on_ok _ _ _ _ _ _ G) in H as (s' & M & ->).
  assert (s' = set_s_th (Some (th_base s ++ m)) s) as ->.
  { unfold th_base. destruct (s_th s); [congruence|]. destruct (hash_ok _ _); [|discriminate]. rewrite <- app_assoc. congruence. }
  split; [reflexivity|]. apply (put_get _ _ s); [exact G|reflexivity].
Qed.
Lemma dec_digest_split c r v rest : dec_digest c r = POk v rest ->
  exists n, hash_size (n_hash (c_nego c)) = Some n /\ len (v_bytes v) = n /\ r = v_bytes v ++ rest.
Proof.
  intro H. unfold dec_digest in H. apply dbind_ok in H as (n & m & D & H). apply dsize_ok in D as [K ->].
  apply dbind_ok in H as (bb & m & Df & H). apply dret_ok in H as [-> ->].
  exists n. split; [exact K|]. assert (L : n <= 64) by (unfold c_hash_size, hash_size in K; destruct (n_hash (c_nego c)) as [|[[?|?|]|[?|[?|?|]|]|]]; try discriminate K; injection K as <-; lia).
  apply d_fixed_split in Df as (q & -> & Lq & Q); [|unfold SPDM_MAX_HASH_SIZE; lia].
  unfold v_bytes. cbn [v_size v_data]. rewrite Q. auto.
Qed.
Ltac dsp H :=
  let a := fresh "a" in let m := fresh "m" in let D := fresh "D" in let u := fresh "u" in let Q := fresh "Q" in
  apply dbind_ok in H as (a & m & D & H); eapply local_split in D as (u & Q); [|solve [dl2]].
Lemma guard_ok {A} c (k : dec A) r a m : dguard c k r = POk a m -> c = true /\ k r = POk a m.
Proof. unfold dguard. destruct c; [auto|discriminate]. Qed.
Ltac gsp H := let G := fresh "G" in apply guard_ok in H as [G H].
Lemma dec_kx_split c r p rest : dec_key_ex_rsp c r = POk p rest ->
  exists pre mac n, r = pre ++ v_bytes (kr_sig p) ++ mac ++ rest /\ asym_size (n_asym (c_nego c)) = Some n /\ len (v_bytes (kr_sig p)) = n /\
    if in_clear c then mac = [] else mac = v_bytes (kr_verify p) /\ Some (len mac) = hash_size (n_hash (c_nego c)).
Proof.
  intro H. unfold dec_key_ex_rsp in H. do 5 dsp H. gsp H. do 4 dsp H.
  apply dbind_ok in H as (sg & ma & D6 & H). apply dec_signature_split in D6 as (n & N1 & N2 & N3). apply dbind_ok in H as (v & mb & D7 & H). apply dret_ok in H as [-> ->].
  cbn [kr_sig kr_verify]. rewrite Q, Q0, Q1, Q2, Q3, Q4, Q5, Q6, Q7, N3. unfold dec_opt in D7. destruct (in_clear c); cbn [negb] in D7.
  - apply dret_ok in D7 as [_ ->]. exists (u ++ u0 ++ u1 ++ u2 ++ u3 ++ u4 ++ u5 ++ u6 ++ u7), [], n. split; [rewrite <- !app_assoc; reflexivity|]. auto.
  - apply dec_digest_split in D7 as (h & K1 & K2 & ->). exists (u ++ u0 ++ u1 ++ u2 ++ u3 ++ u4 ++ u5 ++ u6 ++ u7), (v_bytes v), n. split; [rewrite <- !app_assoc; reflexivity|]. rewrite K1, K2. auto.
Qed.
Lemma abandon_never {A} id e z (a : A) z' : req_abandon id e z = (Ok a, z') -> False.
Proof. unfold req_abandon, sbind. destruct (on_sess _ _ z) as [[?| |] ?]; discriminate. Qed.
Lemma check_hmac_ok E id mac z s u z' : get_sess id z = Some s -> check_rsp_hmac E id mac z = (Ok u, z') ->
  exists t h, s_th s = Some t /\ cr_hash (e_cr E) (s_hash s) t = Some h /\ cr_hmac_verify (e_cr E) (s_hash s) (h_rsp_fin (s_hs s)) h mac = true /\
    z' = mod_sess id (fun _ => set_s_th (Some (t ++ mac)) s) z.
Proof.
  intros G H. unfold check_rsp_hmac in H. bi H. apply (calc_inv _ _ _ _ _ _ G) in P as (-> & t & T & Hh). bi H. apply the_inv in P as [G' ->]. assert (v0 = s) as -> by congruence.
  unfold verify_rsp_fin in H. destruct (cr_hmac_verify _ _ _ _ _) eqn:V; cbn [negb] in H; [|exfalso; exact (abandon_never _ _ _ _ _ H)].
  unfold scatch in H. destruct (append_k _ _ _ z) as [[[]| |] y] eqn:A; [|exfalso; exact (abandon_never _ _ _ _ _ H)|discriminate H].
  unfold sret in H. replace z' with y by congruence. apply (append_k_ok _ _ _ _ _ _ _ G) in A as [-> _]. exists t, v. unfold th_base. rewrite T. auto.
Qed.
Definition fixed_of (s : session) := (s_id s, s_use_psk s, s_psk_hint s, s_hash s, s_aead s, s_hs_root s, s_master s, s_mut_auth s).
Lemma handshake_fixed s s' th cr v : handshake_keys cr v s th (s_hs s') -> fixed_of s' = fixed_of s -> handshake_keys cr v s' th (s_hs s').
Proof.
  unfold fixed_of, handshake_keys, from_secret. intros H F. assert (F1 : s_use_psk s' = s_use_psk s) by congruence. assert (F2 : s_psk_hint s' = s_psk_hint s) by congruence.
  assert (F3 : s_hash s' = s_hash s) by congruence. assert (F4 : s_aead s' = s_aead s) by congruence. assert (F5 : s_hs_root s' = s_hs_root s) by congruence.
  rewrite F1, F2, F3, F4, F5. exact H.
Qed.
Lemma verify_peer_state E slot op h sg x u x' : verify_peer_signature E slot op h sg x = (Ok u, x') -> x' = x.
Proof.
  intro H. unfold verify_peer_signature in H. bg H. bi H. apply ok_inv in P as [_ ->]. bi H. apply unwrap_inv in P as [_ ->]. bi H. apply assert_inv in P as [_ ->].
  bi H. apply of_inv in P as [_ ->]. destruct (cr_verify _ _ _ _ _ _); [|discriminate]. apply ret_inv in H as [_ ->]. reflexivity.
Qed.
(** finish_key_exchange on the session [s0] just opened *)
Lemma finish_kx_ok E slot id s used p z s0 u z' : get_sess id z = Some s0 -> finish_key_exchange E slot id s used p z = (Ok u, z') ->
  forall body mac n, used = body ++ v_bytes (kr_sig p) ++ mac -> len (v_bytes (kr_sig p)) = n -> asym_size (n_asym (x_nego z)) = Some n ->
  (if in_clear (xc z) then mac = [] else mac = v_bytes (kr_verify p) /\ Some (len mac) = hash_size (n_hash (x_nego z))) ->
  s_hash s0 = n_hash (x_nego z) ->
  exists th1 ss, let t0 := th_base s0 ++ s ++ body in
    (exists chain, slot_of (x_peer_chain z) slot = Some chain /\ authentic (e_cr E) (x_nego z) chain SigKeyExchange t0 (v_bytes (kr_sig p))) /\
    get_sess id z' = Some ss /\ s_state ss = SHandshaking /\ fixed_of ss = fixed_of s0 /\
    cr_hash (e_cr E) (n_hash (x_nego z)) (t0 ++ v_bytes (kr_sig p)) = Some th1 /\ handshake_keys (e_cr E) (ver z) ss th1 (s_hs ss) /\
    s_th ss = Some (t0 ++ v_bytes (kr_sig p) ++ mac) /\
    (if in_clear (xc z) then x_last z' = Some id else cr_hmac_verify (e_cr E) (n_hash (x_nego z)) (h_rsp_fin (s_hs ss)) th1 mac = true) /\
    env_of z' = env_of z.
Proof.
  intros G H body mac n Eu Ln Na Hm Hh. set (sig := v_bytes (kr_sig p)) in *. unfold finish_key_exchange in H. bg H. bi H. apply unwrap_inv in P as [N1 ->]. assert (v = n) as -> by congruence.
  bi H. apply unwrap_inv in P as [N2 ->]. bi H. apply of_inv in P as [Dl ->].
  assert (v0 = body) as ->.
  { rewrite Eu in Dl. destruct (in_clear (xc z)).
    - subst mac. rewrite app_nil_r in Dl. rewrite drop_last_app in Dl by exact Ln. congruence.
    - destruct Hm as [_ Hm]. rewrite drop_last_app in Dl; [congruence|]. rewrite len_app. congruence. }
  clear Dl. bi H. destruct (append_k_ok _ _ _ _ _ _ _ G P) as [Z1 G1]. clear P. bi H. destruct (append_k_ok _ _ _ _ _ _ _ G1 P) as [Z2 G2]. clear P.
  set (s2 := set_s_th (Some (th_base (set_s_th (Some (th_base s0 ++ s)) s0) ++ body)) (set_s_th (Some (th_base s0 ++ s)) s0)) in *.
  assert (T2 : s_th s2 = Some (th_base s0 ++ s ++ body)) by (unfold s2, th_base at 1; cbn [s_th set_s_th]; rewrite <- app_assoc; reflexivity).
  assert (F2 : fixed_of s2 = fixed_of s0) by reflexivity. assert (Hs2 : s_hash s2 = s_hash s0) by reflexivity.
  clearbody s2. assert (Ez : env_of y0 = env_of z) by (rewrite Z2, Z1; reflexivity). clear Z1 Z2 G1 y.
  bi H. apply oror_inv in P. unfold verify_key_exchange_sig in P. bi P. apply (calc_inv _ _ _ _ _ _ G2) in P0 as (-> & t & T & Hv). assert (t = th_base s0 ++ s ++ body) as -> by congruence.
  assert (Xz : x_nego y0 = x_nego z /\ x_peer_chain y0 = x_peer_chain z /\ xc y0 = xc z /\ ver y0 = ver z).
  { unfold env_of in Ez. assert (C : xc y0 = xc z) by congruence. assert (C0 : x_nego y0 = x_nego z) by (apply (f_equal c_nego) in C; exact C). unfold ver. rewrite C0. repeat split; congruence. }
  destruct Xz as (Xn & Xp & Xc & Xv). rewrite Hs2, Hh, <- Xn in Hv. pose proof (verify_peer_ok _ _ _ _ _ _ _ _ _ P Hv) as Au. rewrite Xn, Xp in Au.
  assert (y = y0) as -> by exact (verify_peer_state _ _ _ _ _ _ _ _ P). clear P.
  bi H. destruct (append_k_ok _ _ _ _ _ _ _ G2 P) as [Z3 G3]. clear P. unfold th_base in Z3, G3. rewrite T2 in Z3, G3.
  bi H. apply (calc_inv _ _ _ _ _ _ G3) in P as (-> & t1 & T1 & H1). cbn [s_th s_hash set_s_th] in T1, H1. rename v5 into th1. assert (t1 = (th_base s0 ++ s ++ body) ++ sig) as -> by (unfold sig; congruence).
  bi H. apply (on_ok _ _ _ _ _ _ G3) in P as (s4 & K4 & Z4). apply handshake_ok in K4 as (Hk & S4 & _).
  assert (I4 : s_id s4 = s_id s2) by (rewrite S4; reflexivity). assert (T4 : s_th s4 = Some ((th_base s0 ++ s ++ body) ++ sig)) by (rewrite S4; reflexivity).
  assert (F4 : fixed_of s4 = fixed_of s0) by (rewrite <- F2, S4; reflexivity).
  assert (Hk4 : handshake_keys (e_cr E) (ver z) s4 th1 (s_hs s4)). { apply (handshake_fixed _ _ _ _ _ Hk). rewrite S4. reflexivity. }
  assert (H4 : s_hash s4 = n_hash (x_nego z)) by (unfold fixed_of in F4; congruence).
  clear Hk. pose proof (put_get id y _ s4 G3 I4) as G4. rewrite <- Z4 in G4. assert (Ey : env_of y1 = env_of z) by (rewrite Z4, Z3; exact Ez). clear S4 Z3 Z4 G3 T.
  rewrite Hs2, Hh in H1. bi H.
  assert (Hx : exists s5, get_sess id y2 = Some s5 /\ s_state s5 = s_state s4 /\ s_hs s5 = s_hs s4 /\ fixed_of s5 = fixed_of s0 /\ s_th s5 = Some ((th_base s0 ++ s ++ body) ++ sig ++ mac) /\
            env_of y2 = env_of z /\ (in_clear (xc z) = false -> cr_hmac_verify (e_cr E) (n_hash (x_nego z)) (h_rsp_fin (s_hs s4)) th1 mac = true)).
  { unfold swhen in P. destruct (in_clear (xc z)); cbn [negb] in P.
    - apply ret_inv in P as [_ ->]. exists s4. subst mac. rewrite app_nil_r. split; [exact G4|]. split; [reflexivity|]. split; [reflexivity|]. split; [exact F4|]. split; [exact T4|]. split; [exact Ey|discriminate].
    - destruct Hm as [-> _]. apply (check_hmac_ok _ _ _ _ _ _ _ G4) in P as (t5 & h5 & E5 & E6 & E7 & ->). assert (t5 = (th_base s0 ++ s ++ body) ++ sig) as -> by congruence.
      rewrite H4 in E6, E7. assert (h5 = th1) as -> by congruence. eexists. split; [apply (put_get _ _ s4); [exact G4|reflexivity]|]. split; [reflexivity|]. split; [reflexivity|]. split; [rewrite <- F4; reflexivity|].
      split; [cbn [s_th set_s_th]; rewrite <- app_assoc; reflexivity|]. split; [exact Ey|]. intros _. exact E7. }
  destruct Hx as (s5 & G5 & _ & K5 & F5 & T5 & E5 & V5). clear P. bi H. apply (on_ok _ _ _ _ _ _ G5) in P as (s6 & K6 & Z6). unfold smod in K6.
  match type of K6 with (_, ?w) = _ => assert (S6 : s6 = w) by congruence end. assert (G6 : get_sess id y3 = Some s6) by (rewrite Z6; apply (put_get _ _ s5); [exact G5|rewrite S6; reflexivity]).
  assert (Hy : get_sess id z' = Some s6 /\ env_of z' = env_of y3 /\ (in_clear (xc z) = true -> x_last z' = Some id)).
  { unfold swhen in H. destruct (in_clear (xc z)); [apply mod_inv in H as ->; split; [exact G6|split; [reflexivity|reflexivity]]|apply ret_inv in H as [_ ->]; split; [exact G6|split; [reflexivity|discriminate]]]. }
  destruct Hy as (Gz & Ezz & Lz). assert (F6 : fixed_of s6 = fixed_of s0) by (rewrite <- F5, S6; reflexivity). assert (K6' : s_hs s6 = s_hs s4) by (rewrite <- K5, S6; reflexivity).
  exists th1, s6. cbv zeta. split; [exact Au|]. split; [exact Gz|]. split; [rewrite S6; reflexivity|]. split; [exact F6|]. split; [exact H1|]. split.
  { rewrite K6'. rewrite <- K6'. apply (handshake_fixed s4); [rewrite K6'; exact Hk4|congruence]. }
  split; [rewrite S6; exact T5|]. split; [|rewrite Ezz, Z6; exact E5]. rewrite K6'. destruct (in_clear (xc z)); [apply Lz; reflexivity|apply V5; reflexivity].
Qed.
Lemma get_new id l1 s l2 z : x_sess z = l1 ++ s :: l2 -> (forall t, In t l1 -> s_id t <> id) -> s_id s = id -> get_sess id z = Some s.
Proof. intros S U I. unfold get_sess. rewrite S. rewrite find_app by exact U. unfold find_sess. cbn [find]. rewrite I, N.eqb_refl. reflexivity. Qed.
Lemma open_kx_ok E id p final chash z u z' l1 s l2 : x_sess z = l1 ++ s :: l2 -> s_id s = 0 -> (forall t, In t l1 -> s_id t <> 0) -> (forall t, In t l1 -> s_id t <> id) ->
  req_open_session E id p final chash z = (Ok u, z') ->
  exists s0, get_sess id z' = Some s0 /\ s_id s0 = id /\ s_use_psk s0 = false /\ s_hash s0 = n_hash (x_nego z) /\ s_aead s0 = n_aead (x_nego z) /\
    roots (e_cr E) (ver z) (n_hash (x_nego z)) final (s_hs_root s0) (s_master s0) /\ th_base s0 = x_msg_a z ++ chash /\ env_of z' = env_of z.
Proof.
  intros S Z U U' H. unfold req_open_session in H. bg H. destruct (get_sess 0 z); [|discriminate]. bi H. apply (setup_first _ _ _ _ _ _ _ S Z U) in P as [_ ->].
  set (z1 := set_x_sess _ z) in *. assert (G1 : get_sess id z1 = Some (set_s_id id (session_set_default s))) by (apply (get_new _ l1 _ l2); [reflexivity|exact U'|reflexivity]).
  bi H. apply mod_inv in P. match type of P with y = mod_sess _ ?f _ => assert (G2 := get_mod id f z1 _ G1 eq_refl); rewrite <- P in G2 end.
  assert (Ey : env_of y = env_of z) by (rewrite P; reflexivity). clear P G1. clearbody z1.
  match type of G2 with _ = Some ?t => set (s2 := t) in * end.
  assert (A1 : s_id s2 = id) by reflexivity. assert (A2 : s_use_psk s2 = false) by reflexivity. assert (A3 : s_hash s2 = n_hash (x_nego z)) by reflexivity. assert (A4 : s_aead s2 = n_aead (x_nego z)) by reflexivity. assert (A5 : s_th s2 = None) by reflexivity.
  clearbody s2. bi H. apply (on_ok _ _ _ _ _ _ G2) in P as (s3 & K3 & Z3). apply dhe_ok in K3 as (R & S3).
  assert (B : s_id s3 = s_id s2 /\ s_use_psk s3 = s_use_psk s2 /\ s_hash s3 = s_hash s2 /\ s_aead s3 = s_aead s2 /\ s_th s3 = s_th s2).
  { clear - S3. destruct s2, s3. cbn in S3. injection S3. intros. subst. cbn. auto. }
  destruct B as (B1 & B2 & B3 & B4 & B5). rewrite A1 in B1. rewrite A2 in B2. rewrite A3 in B3, R. rewrite A4 in B4. rewrite A5 in B5. clear S3.
  assert (G3 : get_sess id y0 = Some s3) by (rewrite Z3; apply (put_get _ _ _ _ G2); congruence).
  assert (Ey0 : env_of y0 = env_of z) by (rewrite Z3; exact Ey). clear Z3.
  apply mod_inv in H. match type of H with z' = mod_sess _ ?f _ => assert (G4 := get_mod id f y0 _ G3 eq_refl); rewrite <- H in G4 end.
  eexists. split; [exact G4|]. split; [exact B1|]. split; [exact B2|]. split; [exact B3|]. split; [exact B4|]. split; [exact R|].
  split; [|rewrite H; exact Ey0]. unfold th_base. match goal with |- match ?a with _ => _ end = _ => replace a with (@None bytes) by (symmetry; exact B5) end. reflexivity.
Qed.
Lemma xwh8 v : xwire (x_u8 v) = Some [v]. Proof. unfold x_u8. rewrite xwire_of, CodecProofs.wire_u8. reflexivity. Qed.
Lemma xwh16 v : xwire (x_u16 v) = Some (le_bytes 2 v). Proof. unfold x_u16. rewrite xwire_of, CodecProofs.wire_u16. reflexivity. Qed.
Lemma if_app (c : bool) a b : (if c then x_u8 a else x_u8 b) = x_u8 (if c then a else b). Proof. destruct c; reflexivity. Qed.
Lemma v_of_bytes max b : v_bytes (v_of max b) = firstn (length b) (firstn max b ++ fill (max - length b) 0).
Proof. unfold v_bytes, v_of. cbn [v_size v_data]. unfold len. rewrite Nat2N.id. reflexivity. Qed.
Lemma v_of_share b : v_bytes (v_of 96 b) = firstn 96 b.
Proof.
  rewrite v_of_bytes. destruct (Nat.le_gt_cases (length b) 96) as [L|L].
  - rewrite (firstn_all2 b) by exact L. rewrite firstn_app, firstn_all, Nat.sub_diag, firstn_O. apply app_nil_r.
  - replace (96 - length b)%nat with 0%nat by lia. cbn [fill repeat]. rewrite app_nil_r. rewrite firstn_firstn. f_equal. lia.
Qed.
Definition same_but_rng (x y : ctx) : Prop := env_of y = env_of x /\ x_sess y = x_sess x.
Lemma encode_kx_ok E h slot t x k s y : encode_key_exchange E h slot t x = (Ok (k, s), y) ->
  exists nonce public opaque, length nonce = 32%nat /\ cr_dhe_public (e_cr E) (n_dhe (x_nego x)) k = Some public /\
    s = key_exchange_message (ver x) t slot h (cf_policy (x_cfg x)) nonce (firstn 96 public) opaque /\
    env_of y = env_of x /\ x_sess y = x_sess x.
Proof.
  intro H. unfold encode_key_exchange in H. bi H.
  assert (Xy : env_of y0 = env_of x /\ x_sess y0 = x_sess x /\ forall w, v = Some w -> length w = 32%nat).
  { unfold get_random in P. split; [|split]; try (match type of P with (_, ?z) = _ => replace y0 with z by congruence end; reflexivity).
    intros w ->. destruct (cr_random _ _ _) as [w'|]; [|discriminate P]. destruct (Nat.eqb_spec (length w') 32); [|discriminate P]. congruence. }
  destruct Xy as (X1 & X2 & X3). clear P. bi H. apply ok_inv in P as [Nn ->]. bg H. bi H. apply mod_inv in P. bi H. apply ok_inv in P0 as [Dp ->]. bi H. apply of_inv in P0 as [Op ->].
  bi H. unfold wenc in P0. destruct (emit _ []) as [[ok w1]|] eqn:Em; [|discriminate]. assert (v4 = (ok, w1)) as -> by congruence. assert (y2 = y1) as -> by congruence. clear P0.
  bi H. apply fail_inv in P0 as [N0 ->]. cbn [fst snd] in *. apply Bool.negb_false_iff in N0 as ->. apply emit_true in Em as (w & W & ->). cbn [app] in H.
  apply ret_inv in H as [H ->].
  assert (C : xc y0 = xc x /\ x_cfg y0 = x_cfg x) by (unfold env_of in X1; split; congruence). destruct C as [C Cf]. assert (Cn : x_nego y0 = x_nego x) by (apply (f_equal c_nego) in C; exact C).
  exists v0, v2, (v_bytes v3). split; [apply X3; exact Nn|]. split; [rewrite <- Cn; congruence|].
  split; [|rewrite P; split; [exact X1|exact X2]].
  assert (Vo : v_size v3 = len (v_bytes v3)).
  { unfold req_opaque in Op. destruct (_ <? _); [|destruct (_ =? _); [|discriminate Op]]; injection Op as <-; vm_compute; reflexivity. }
  assert (s = w) as -> by congruence. clear H Op. rewrite P in W. change (xc (set_x_rng (x_rng y0 + 1) y0)) with (xc y0) in W. rewrite Cf in W. assert (Vy : ver y0 = ver x) by (unfold ver; rewrite Cn; reflexivity). rewrite Vy, C in W.
  unfold enc_message in W. cbn [m_header m_payload] in W. unfold enc_header, enc_payload, enc_key_ex, enc_exchange, enc_opaque, enc_nonce in W.
  cbn [h_version h_code kx_hash_type kx_slot kx_session kx_policy kx_random kx_exchange kx_opaque] in W. unfold x_arr in W. unfold ver_ge in W. change (n_version (c_nego (xc x))) with (ver x) in W. change SPDM_MAX_DHE_KEY_SIZE with 96%nat in W.
  rewrite (if_app (V12 <=? ver x)) in W. rewrite !xwire_app, !xwire_arr_cnt, !xwh8, !xwh16, Vo, v_of_share, xwire_of, CodecProofs.wire_arr in W. unfold key_exchange_message. apply (f_equal (fun o => match o with Some a => a | None => [] end)) in W. rewrite <- W. clear.
  unfold V12. reflexivity.
Qed.
Lemma session_id_nz a h : 0 < h < 65536 -> session_id a h <> 0.
Proof. intros L K. pose proof (session_id_low a h) as M. rewrite K in M. rewrite N.mod_0_l, (N.mod_small h) in M by lia. lia. Qed.
Lemma half_fresh x h a : rtok x -> get_next_half_session_id true x = Ok h ->
  exists l1 s l2, x_sess x = l1 ++ s :: l2 /\ s_id s = 0 /\ (forall t, In t l1 -> s_id t <> 0) /\ (forall t, In t (l1 ++ s :: l2) -> s_id t <> session_id a h) /\ session_id a h <> 0.
Proof.
  intros T Nh. destruct (half_split _ _ T Nh) as (l1 & s & l2 & S & Z & -> & U & L). destruct T as [Lt F].
  assert (L4 : len l1 < 4) by exact L. assert (Nz : session_id a (0xFFFD - len l1) <> 0) by (apply session_id_nz; lia).
  exists l1, s, l2. split; [exact S|]. split; [exact Z|]. split; [exact U|]. split; [|exact Nz].
  intros t Ht K. assert (Ht' := Ht). rewrite S in F. apply rfine_app in F as [F1 F2]. cbn [rfine_from] in F2. destruct F2 as [F0 F2].
  assert (Kl : s_id t mod 65536 = 0xFFFD - len l1) by (rewrite K, session_id_low, N.mod_small by lia; reflexivity).
  assert (Nt : s_id t <> 0) by congruence. apply in_app_or in Ht as [Ht|[<-|Ht]]; [| congruence |].
  - destruct (rfine_low _ _ _ F1 Ht Nt) as (j & J & K'). lia.
  - destruct (rfine_low _ _ _ F2 Ht Nt) as (j & J & K'). assert (length (l1 ++ s :: l2) = 4%nat) by congruence. rewrite app_length in *. cbn [length] in *. unfold len in *. lia.
Qed.
Lemma none_of id x : (forall t, In t (x_sess x) -> s_id t <> id) -> get_sess id x = None.
Proof. intro H. unfold get_sess, find_sess. destruct (find _ _) as [s|] eqn:F; [|reflexivity]. apply find_some in F as [A B]. apply N.eqb_eq in B. exfalso. exact (H _ A B). Qed.
Lemma handle_kx_ok E h slot t key s b z id z' : rtok z -> get_next_half_session_id true z = Ok h ->
  handle_key_exchange_rsp E h slot t key s b z = (Ok id, z') ->
  exists body sig mac rest p ss th1 n final chash,
    let c := asked (OKeyExchange slot t) z in let t0 := x_msg_a z ++ chash ++ s ++ [ver z; 0x64] ++ body in
    b = ver z :: 0x64 :: body ++ sig ++ mac ++ rest /\
    dec_key_ex_rsp c (body ++ sig ++ mac ++ rest) = POk p rest /\ id = session_id (kr_session p) h /\
    asym_size (n_asym (x_nego z)) = Some n /\ len sig = n /\
    (exists chain, slot_of (x_peer_chain z) slot = Some chain /\ cr_hash (e_cr E) (n_hash (x_nego z)) chain = Some chash /\
       authentic (e_cr E) (x_nego z) chain SigKeyExchange t0 sig) /\
    get_sess id z = None /\ get_sess id z' = Some ss /\ s_state ss = SHandshaking /\ s_use_psk ss = false /\
    s_hash ss = n_hash (x_nego z) /\ s_aead ss = n_aead (x_nego z) /\
    cr_dhe_final (e_cr E) (n_dhe (x_nego z)) key (v_bytes (kr_exchange p)) = Some final /\
    roots (e_cr E) (ver z) (n_hash (x_nego z)) final (s_hs_root ss) (s_master ss) /\
    cr_hash (e_cr E) (n_hash (x_nego z)) (t0 ++ sig) = Some th1 /\
    handshake_keys (e_cr E) (ver z) ss th1 (s_hs ss) /\ s_th ss = Some (t0 ++ sig ++ mac) /\
    if in_clear c then mac = [] /\ x_last z' = Some id
    else Some (len mac) = hash_size (n_hash (x_nego z)) /\
         cr_hmac_verify (e_cr E) (n_hash (x_nego z)) (h_rsp_fin (s_hs ss)) th1 mac = true.
Proof.
  intros T Nh H. unfold handle_key_exchange_rsp in H. bi H. apply mod_inv in P.
  assert (Xc : xc y = asked (OKeyExchange slot t) z) by (rewrite P; reflexivity). assert (Xs : x_sess y = x_sess z) by (rewrite P; reflexivity).
  assert (Xn : x_nego y = x_nego z) by (rewrite P; reflexivity). assert (Xp : x_peer_chain y = x_peer_chain z) by (rewrite P; reflexivity). assert (Xa : x_msg_a y = x_msg_a z) by (rewrite P; reflexivity).
  clear P. assert (Xv : ver y = ver z) by (unfold ver; rewrite Xn; reflexivity).
  apply on_response_ok in H as (r & Eb & H). apply reading_ok in H as (p & rest & D & H). pose proof D as D0. apply dec_kx_split in D0 as (pre & mac & n & N1 & N2 & N3 & N4).
  bg H. bi H. apply ok_inv in P as [Df ->]. bi H. apply ok_inv in P as [Ch ->]. cbv zeta in H. destruct (half_fresh _ _ (kr_session p) T Nh) as (l1 & s1 & l2 & S & Z & U & U' & Nz).
  set (i := session_id (kr_session p) h) in *. bi H. rewrite S in Xs. apply (open_kx_ok _ _ _ _ _ _ _ _ _ _ _ Xs Z U) in P as (s0 & G0 & I0 & O1 & O2 & O3 & O4 & O5 & O6); [|intros; apply U'; apply in_or_app; auto].
  assert (Xz : x_nego y0 = x_nego z /\ x_peer_chain y0 = x_peer_chain z /\ xc y0 = xc y /\ ver y0 = ver z).
  { unfold env_of in O6. assert (C : xc y0 = xc y) by congruence. assert (C0 : x_nego y0 = x_nego z) by (rewrite <- Xn; apply (f_equal c_nego) in C; exact C). unfold ver. rewrite C0. repeat split; congruence. }
  destruct Xz as (Zn & Zp & Zc & Zv). bi H. apply ret_inv in H as [H ->]. assert (id = i) as -> by congruence. clear H.
  assert (Eu : used_of b rest = (ver z :: 0x64 :: pre) ++ v_bytes (kr_sig p) ++ mac). { apply used_split. rewrite Eb, N1, Xv. rewrite <- !app_assoc. reflexivity. }
  rewrite Eu in P. rewrite Xc in N2, N4. cbn [asked c_nego] in N2, N4.
  destruct (finish_kx_ok _ _ _ _ _ _ _ _ _ _ G0 P (ver z :: 0x64 :: pre) mac n eq_refl N3) as (th1 & ss & F1 & F2 & F3 & F4 & F5 & F6 & F7 & F8 & F9);
    [rewrite Zn; exact N2|rewrite Zc, Xc, Zn; exact N4|rewrite Zn, O2, Xn; reflexivity|].
  rewrite O5, Xa in F1, F5, F7. rewrite Zn in F1, F5, F8. rewrite Zp in F1. rewrite Zv in F6. rewrite Zc, Xc in F8.
  replace ((x_msg_a z ++ v1) ++ s ++ ver z :: 0x64 :: pre) with (x_msg_a z ++ v1 ++ s ++ [ver z; 0x64] ++ pre) in F1, F5, F7 by (rewrite <- !app_assoc; reflexivity).
  rewrite Xp, Xn in Ch. unfold certchain_hash in Ch. destruct (slot_of (x_peer_chain z) slot) as [chain|]; [|discriminate Ch]. rewrite Xn in Df, O2, O3, O4. rewrite Xv in O4, Eb. rewrite Xc in D.
  exists pre, (v_bytes (kr_sig p)), mac, rest, p, ss, th1, n, v0, v1. cbv zeta. unfold fixed_of in F4.
  split; [rewrite Eb, N1; reflexivity|]. split; [rewrite <- N1; exact D|]. split; [reflexivity|]. split; [exact N2|]. split; [exact N3|].
  split; [destruct F1 as (ch & F1 & F1'); exists chain; split; [reflexivity|]; split; [exact Ch|]; assert (ch = chain) as -> by congruence; exact F1'|].
  split; [apply none_of; rewrite S; exact U'|]. split; [exact F2|]. split; [exact F3|]. split; [congruence|]. split; [congruence|]. split; [congruence|]. split; [exact Df|].
  split; [replace (s_hs_root ss) with (s_hs_root s0) by congruence; replace (s_master ss) with (s_master s0) by congruence; exact O4|]. split; [exact F5|]. split; [exact F6|].
  split; [exact F7|]. destruct (in_clear _); [split; [exact N4|exact F8]|]. destruct N4 as [_ N4]. split; [exact N4|exact F8].
Qed.
Lemma key_exchange_ok E slot t x id x' : rtok x -> key_exchange_req E slot t x = (Ok id, x') -> key_exchange_verified E x x' slot t id.
Proof.
  intros T H. unfold key_exchange_req in H. bi H. apply fail_inv in P as [_ ->]. bg H. bi H. apply of_inv in P as [Nh ->]. rename v0 into h. bi H. apply mod_inv in P.
  pose proof (st_reset_buffer RC_KEY_EXCHANGE x) as [R1 _]. rewrite <- P in R1. assert (R2 : xc y = xc x /\ x_peer_chain y = x_peer_chain x) by (rewrite P; apply xk_reset_buffer).
  assert (R3 : x_msg_a y = x_msg_a x) by (rewrite P; unfold reset_buffer, reset_m, reset_c, reset_b; repeat (match goal with |- context [if ?b then _ else _] => destruct b end); reflexivity).
  assert (R4 : x_cfg y = x_cfg x) by (rewrite P; pose proof (calm_reset_buffer RC_KEY_EXCHANGE None x) as [K _]; unfold outline in K; congruence).
  assert (Rq : quiet x y) by (rewrite P; apply quiet_reset_buffer). clear P.
  bi H. destruct v1 as [k s]. cbn [fst snd] in H. pose proof (quiet_encode_kx _ _ _ _ _ _ _ P) as Q1. destruct (encode_kx_ok _ _ _ _ _ _ _ _ P) as (nonce & public & opaque & K1 & K2 & K3 & K4 & K5). clear P.
  bi H. bi H. destruct (st_send _ _ _ _ _ P) as [S1 _]. destruct (st_recv _ _ _ _ _ P0) as [S2 _]. destruct (send_frames E None _ _ _ _ P) as [A1 A2]. destruct (recv_frames E None _ _ _ _ P0) as [B1 B2].
  pose proof (quiet_handle_kx _ _ _ _ _ _ _ _ _ _ H) as Q2.
  assert (Ex : exchanged E None x x' s v2). { refine (exchanged_by E None false x _ _ _ _ _ _ _ x' _ P (q_refl _) P0 Q2). eapply q_trans; eassumption. }
  assert (Sx : x_sess y2 = x_sess x) by congruence. assert (Tx : rtok y2) by (unfold rtok; rewrite Sx; exact T).
  assert (Nx : get_next_half_session_id true y2 = Ok h) by (unfold get_next_half_session_id in *; rewrite Sx; exact Nh).
  assert (C : xc y2 = xc x /\ x_peer_chain y2 = x_peer_chain x /\ x_msg_a y2 = x_msg_a x).
  { destruct A2 as [A2 A2'], B2 as [B2 B2'], A1 as [A1 _], B1 as [B1 _], R2 as [R2 R2']. unfold env_of in K4. repeat split; congruence. }
  destruct C as (C1 & C2 & C3). assert (Cn : x_nego y2 = x_nego x) by (apply (f_equal c_nego) in C1; exact C1). assert (Vn : ver y2 = ver x) by (unfold ver; rewrite Cn; reflexivity).
  assert (Dn : x_nego y = x_nego x) by (destruct R2 as [R2 _]; apply (f_equal c_nego) in R2; exact R2). assert (Dv : ver y = ver x) by (unfold ver; rewrite Dn; reflexivity).
  destruct (handle_kx_ok _ _ _ _ _ _ _ _ _ _ Tx Nx H) as (body & sig & mac & rest & p & ss & th1 & n & final & chash & F). cbv zeta in F. rewrite (asked_xk _ x _ C1), Cn, Vn, C2, C3 in F.
  destruct F as (F1 & F2 & F3 & F4 & F5 & (chain & F6 & F6' & F6'') & F7 & F8 & F9 & F10 & F11 & F12 & F13 & F14 & F15 & F16 & F17 & F18).
  rewrite Dn in K2. rewrite Dv, R4 in K3.
  exists h, k, public, nonce, opaque, v2, body, sig, mac, rest, p, ss, (x_msg_a x ++ chash ++ s ++ [ver x; 0x64] ++ body), th1, n, final. cbv zeta. rewrite <- K3.
  split; [exact K1|]. split; [exact K2|]. split; [exact Ex|]. split; [exact F1|]. split; [exact F2|]. split; [exact F3|]. split; [exact F4|]. split; [exact F5|].
  split; [exists chain, chash; split; [exact F6|]; split; [exact F6'|]; reflexivity|].
  split; [exists chain; split; [exact F6|exact F6'']|].
  split; [unfold get_sess in *; rewrite <- Sx; exact F7|]. split; [exact F8|]. split; [exact F9|]. split; [exact F10|]. split; [exact F11|]. split; [exact F12|]. split; [exact F13|]. split; [exact F14|].
  split; [exact F15|]. split; [exact F16|]. split; [rewrite F17, <- !app_assoc; reflexivity|]. exact F18.
Qed.
