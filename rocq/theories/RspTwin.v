(** The responder's new session, as the result of the handshake programs of Twin.v. *)
From Verif Require Import Bytes BytesFacts Status Codec Parse ParseProofs Algo Monad MsgConn MsgAuth MsgSession MsgOther Message Opaque.
From Verif Require Import Transport Crypto KeySchedule Session Signing CertOps ChainVerify Context SessionProofs
  RspBase RspConn RspSess StRel RspFrame RspCalm RspOpcode RspPass RspEst RspTable ReqBase ReqConn ReqSess SpecReq ReqFrame ReqAnswer SpecSession SpecAuth ReqTrans ReqSplit ReqHist ReqAuth ReqOpen ReqHand ReqHand2 ReqHand3 SpecKeys KeyProofs SpecPair RspPair Twin ReqTwin.
From Coq Require Import Lia.
Local Open Scope N_scope.

Lemma abandon_inv {A} id (m : st ctx A) z a z' : or_abandon id m z = (Ok a, z') -> m z = (Ok a, z').
Proof.
  unfold or_abandon, scatch. destruct (m z) as [[b|e|] y]; unfold sret, spanic; try congruence. intro H. unfold abandon in H. apply sbind_inv in H as (? & ? & _ & H). discriminate H.
Qed.
Lemma rsp_hmac_inv E id z s h z' : get_sess id z = Some s -> rsp_hmac E id z = (Ok h, z') -> z' = z /\ exists alg k d, cr_hmac (e_cr E) alg k d = Some h.
Proof. intros G H. unfold rsp_hmac in H. bi H. apply oror_inv in P. apply (calc_inv _ _ _ _ _ _ G) in P as (-> & _). bi H. apply the_inv in P as [_ ->]. apply abandon_inv in H. apply of_inv in H as [H ->]. split; [reflexivity|]. unfold hmac_rsp_fin in H. unfold orc in H. match type of H with context [cr_hmac ?a ?b ?c ?d] => destruct (cr_hmac a b c d) eqn:K; [|discriminate]; exists b, c, d; congruence end. Qed.
Lemma psk_finishing_inv E without id req op hash w y w' y' s0 : get_sess id y = Some s0 ->
  psk_exchange_finishing E without id req op hash w y = (Ok w', y') ->
  exists t h s1 s2, drop_last hash w = Ok t /\ (exists alg k d, cr_hmac (e_cr E) alg k d = Some h) /\ patch_last hash h w = Ok w' /\ psk_prog (e_cr E) (ver y) without (req ++ t) h s0 = (Ok tt, s1) /\
    get_sess id y' = Some s2 /\ core s2 = core s1 /\ around y' = around y.
Proof.
  intros G H. unfold psk_exchange_finishing in H. bg H. bi H. apply of_inv in P as [Dl ->]. rename v into t.
  bi H. apply oror_inv in P. destruct (k_step _ _ _ _ _ _ _ G P) as [Z1 G1]. clear P. bi H. apply oror_inv in P. destruct (k_step _ _ _ _ _ _ _ G1 P) as [Z2 G2]. clear P. rewrite k_add_add in G2.
  bi H. apply oror_inv in P. apply (calc_inv _ _ _ _ _ _ G2) in P as (-> & tt1 & T & Hv).
  bi H. apply (on_ok _ _ _ _ _ _ G2) in P as (s4 & K4 & Z4). destruct (hs_frame _ _ _ _ _ _ K4) as (I4 & _).
  pose proof (put_get id _ _ s4 G2 I4) as G4. rewrite <- Z4 in G4.
  bi H. rename v3 into h. destruct (rsp_hmac_inv _ _ _ _ _ _ G4 P) as [-> Hm]. clear P.
  bi H. apply abandon_inv in P. destruct (k_step _ _ _ _ _ _ _ G4 P) as [Z5 G5]. clear P.
  bi H. apply of_inv in P as [Pl ->].
  assert (Pr : (smod (k_add (req ++ t)) ;;; th1 <-- th_now (e_cr E) ;; generate_handshake_secret (e_cr E) (ver y) th1 ;;; smod (k_add h))%st s0 = (Ok tt, k_add h s4)).
  { rewrite bind_mod. unfold sbind at 1. rewrite (th_now_run _ _ _ _ T Hv). unfold sbind. destruct v2. rewrite K4. reflexivity. }
  apply exchange_tail in Pr.
  bi H. apply (on_ok _ _ _ _ _ _ G5) in P as (s6 & K6 & Z6). unfold smod in K6. assert (s6 = set_s_state SHandshaking (k_add h s4)) as -> by congruence. clear K6.
  pose proof (put_get id _ _ (set_s_state SHandshaking (k_add h s4)) G5 eq_refl) as G6. rewrite <- Z6 in G6.
  match type of Z6 with ?a = _ => assert (A6 : around a = around y) by (rewrite Z6, around_put, Z5, around_put, Z4, around_put, Z2, around_put, Z1; reflexivity) end.
  bi H. match type of P with _ ?a = (_, ?b) => assert (K : exists s7, swhen without (data_prog (e_cr E) (ver y)) (set_s_state SHandshaking (k_add h s4)) = (Ok tt, s7) /\ get_sess id b = Some s7 /\ around b = around y) end.
  { unfold swhen in P |- *. destruct without.
    - bi P. apply oror_inv in P0. destruct (th_now_inv _ _ _ _ _ _ G6 P0) as [-> Tn]. clear P0. bi P.
      unfold scatch in P0. destruct (on_sess id (generate_data_secret (e_cr E) (ver y) v7) y4) as [[g|g|] yg] eqn:Gd; try discriminate P0. assert (yg = y6) as -> by (unfold sret in P0; congruence). clear P0.
      destruct (data_step E id y4 (set_s_state SHandshaking (k_add h s4)) (ver y) v7 v6 y5 G6 Tn) as (s3 & D3 & G3 & A3).
      { unfold sbind. rewrite Gd. exact P. }
      exists s3. split; [exact D3|]. split; [exact G3|]. congruence.
    - apply ret_inv in P as [_ ->]. eexists. split; [reflexivity|]. split; [exact G6|exact A6]. }
  destruct K as (s7 & K7 & G7 & A7). clear P. bi H. apply (on_ok _ _ _ _ _ _ G7) in P as (s8 & K8 & Z8). unfold smod in K8. match type of K8 with (_, ?a) = _ => assert (S8 : s8 = a) by congruence end.
  apply ret_inv in H as [Hw ->]. match type of Hw with Ok ?a = _ => assert (a = w') as -> by congruence | _ = Ok ?a => assert (a = w') as -> by congruence end.
  exists t, h, s7, s8. split; [exact Dl|]. split; [exact Hm|]. split; [exact Pl|]. split; [unfold psk_prog; unfold sbind at 1; rewrite Pr; exact K7|].
  split; [rewrite Z8; apply (put_get _ _ s7 _ G7); rewrite S8; unfold take_secver; destruct (_ =? 0); reflexivity|].
  split; [rewrite S8; unfold take_secver; destruct (_ =? 0); reflexivity|]. rewrite Z8, around_put. exact A7.
Qed.
Lemma summary_inv E t y r y' : summary E t y = (Ok r, y') ->
  y' = set_x_need_sum ((t =? 1) || (t =? 0xFF)) y /\
  forall v, r = Some v -> if (t =? 1) || (t =? 0xFF) then exists h, cr_summary (e_cr E) (ver y) (n_hash (x_nego y)) (n_mspec (x_nego y)) (n_mhash (x_nego y)) t = Some h /\ v = v_of 64 h else v = v_default 64.
Proof.
  unfold summary. destruct ((t =? 1) || (t =? 0xFF)) eqn:C; rewrite C || idtac; intro H; rewrite bind_mod in H.
  - rewrite bind_get in H. apply ret_inv in H as [H ->]. split; [reflexivity|]. intros v ->.
    match type of H with Ok (Some v) = Ok ?m => assert (K : m = Some v) by congruence end. cbn [x_nego set_x_need_sum ver] in K.
    match type of K with match ?q with _ => _ end = _ => change q with (cr_summary (e_cr E) (ver y) (n_hash (x_nego y)) (n_mspec (x_nego y)) (n_mhash (x_nego y)) t) in K end.
    destruct (cr_summary _ _ _ _ _ _) as [h|]; [|discriminate]. destruct (len h =? 0); [discriminate|]. exists h. split; congruence.
  - apply ret_inv in H as [H ->]. split; [reflexivity|]. intros v ->. congruence.
Qed.
Lemma random_frame cr n y r y' : get_random cr n y = (r, y') -> around y' = around y /\ x_sess y' = x_sess y /\ x_last y' = x_last y.
Proof. unfold get_random. intro H. match type of H with (_, ?z) = _ => replace y' with z by congruence end. repeat split; reflexivity. Qed.
Lemma context_inv E w y v y' : psk_context E w y = (Ok v, y') -> around y' = around y /\ x_sess y' = x_sess y /\ x_last y' = x_last y /\ (if w then exists d, v = mkV 0 d /\ length d = 64%nat else v = mkV 64 (fill 64 0)).
Proof.
  unfold psk_context. destruct w; intro H.
  - bi H. destruct (random_frame _ _ _ _ _ P) as (A & B & C). bi H. apply ok_inv in P0 as [P0 ->]. apply ret_inv in H as [H ->]. split; [exact A|]. split; [exact B|]. split; [exact C|]. exists v1. split; [congruence|].
    unfold get_random in P. subst v0. destruct (cr_random _ _ _) as [r|]; [|discriminate P]. destruct (Nat.eqb_spec (length r) 64) as [K|]; [|discriminate P]. assert (v1 = r) as -> by congruence. exact K.
  - apply ret_inv in H as [H ->]. repeat split; congruence.
Qed.
Lemma rsp_open_psk_init E p rsp z u z' : tok z -> get_next_half_session_id false z = Ok rsp -> px_session p < 65536 -> open_psk_session E p rsp z = (Ok u, z') ->
  exists s, get_sess (session_id rsp (px_session p)) z' = Some (psk_init E (x_nego z) (x_msg_a z) (v_bytes (px_hint p)) (session_id rsp (px_session p)) s) /\ around z' = around z /\ rsp < 65536.
Proof.
  intros T Nh Hq H. destruct (open_split _ _ _ T Nh Hq) as (l1 & s & l2 & S & Z & _ & U & Hd & Nz & U1 & U2). rewrite session_id_high in Hd by exact Hq.
  unfold open_psk_session in H. bg H. destruct (get_sess 0 z); [|discriminate]. cbv zeta in H. bi H. apply (setup_first _ _ _ _ _ _ _ S Z U) in P as [_ ->].
  apply mod_inv in H. rewrite H. exists s. split; [|split; [reflexivity|lia]]. rewrite open_first; [reflexivity|exact U1|reflexivity|reflexivity].
Qed.

Lemma tok_same y z : x_sess z = x_sess y -> x_last z = x_last y -> tok y -> tok z.
Proof. intros S L. unfold tok. rewrite S, L. auto. Qed.
Lemma reset_none c y : let z := reset_buffer c None y in around z = around y /\ x_sess z = x_sess y /\ x_last z = x_last y.
Proof. cbv zeta. unfold reset_buffer, reset_m, reset_c, reset_b. repeat (match goal with |- context [if ?b then _ else _] => destruct b end); repeat split; reflexivity. Qed.
Definition kind (t : N) : bool := (t =? 1) || (t =? 0xFF).
Definition summary_of (E : env) (y : ctx) (t : N) (sum : vbuf) : Prop :=
  if kind t then exists h, cr_summary (e_cr E) (ver y) (n_hash (x_nego y)) (n_mspec (x_nego y)) (n_mhash (x_nego y)) t = Some h /\ sum = v_of 64 h else sum = v_default 64.
Lemma next_half_same y z b : x_sess z = x_sess y -> get_next_half_session_id b z = get_next_half_session_id b y.
Proof. intro S. unfold get_next_half_session_id. rewrite S. reflexivity. Qed.
Lemma write_psk_inv E v r p rest y w' y' : tok y -> px_session p < 65536 -> dec_psk_ex (xc y) r = POk p rest ->
  write_psk_exchange E (v :: RC_PSK_EXCHANGE :: r) y = (Ok w', y') ->
  let b := v :: RC_PSK_EXCHANGE :: r in let c := mkCctx (x_nego y) (kind (px_hash_type p)) (x_need_sig y) in
  exists sum cx op rsp hash w t h s0 s1 s2, let id := session_id rsp (px_session p) in
    v = ver y /\ rsp < 65536 /\ hash_size (n_hash (x_nego y)) = Some hash /\ summary_of E y (px_hash_type p) sum /\
    (if psk_no_ctx c then exists d, cx = mkV 0 d /\ length d = 64%nat else cx = mkV 64 (fill 64 0)) /\
    rsp_select_version c (cf_secver (x_cfg y)) (px_opaque p) = Ok op /\
    xwire (enc_message c (psk_exchange_rsp_msg v (cf_heartbeat (x_cfg y)) rsp sum cx op hash)) = Some w /\
    drop_last hash w = Ok t /\ (exists alg k d, cr_hmac (e_cr E) alg k d = Some h) /\ patch_last hash h w = Ok w' /\
    psk_prog (e_cr E) v (psk_no_ctx c) (used_of b rest ++ t) h (psk_init E (x_nego y) (x_msg_a y) (v_bytes (px_hint p)) id s0) = (Ok tt, s1) /\
    get_sess id y' = Some s2 /\ core s2 = core s1 /\ x_nego y' = x_nego y /\ x_msg_a y' = x_msg_a y.
Proof.
  intros T Hq D H. cbv zeta. unfold write_psk_exchange, exchange_start in H. bg H. destruct (negotiated y); [|discriminate]. unfold with_version_r in H. bg H.
  change (read_header (v :: RC_PSK_EXCHANGE :: r)) with (Some (mkHeader v RC_PSK_EXCHANGE, r)) in H. cbv iota in H. cbn [h_version] in H. destruct (N.eqb_spec v (ver y)) as [->|]; [|discriminate]. cbn [negb] in H.
  destruct (0x11 <=? ver y); [|discriminate]. rewrite bind_mod in H. destruct (reset_none RC_PSK_EXCHANGE y) as (A1 & B1 & C1). set (y1 := reset_buffer RC_PSK_EXCHANGE None y) in *. clearbody y1.
  destruct (around_eqs _ _ A1) as (N1 & X1 & V1 & M1 & _).
  unfold sbind at 1 in H. unfold rd in H. rewrite X1, D in H.
  apply sbind_inv in H as (so & ys & P & H). apply summary_inv in P as [-> Sm]. apply sbind_inv in H as (sum & ys & P & H). apply ok_inv in P as [-> ->]. specialize (Sm _ eq_refl).
  rewrite bind_get in H. set (y2 := set_x_need_sum _ y1) in *. apply sbind_inv in H as (op & ys & P & H). apply of_inv in P as [Op ->]. cbv zeta in H.
  assert (Nd : x_need_sig y1 = x_need_sig y) by (unfold around in A1; congruence). assert (Cf : x_cfg y1 = x_cfg y) by (unfold around in A1; congruence).
  assert (X2 : xc y2 = mkCctx (x_nego y) (kind (px_hash_type p)) (x_need_sig y)) by (unfold xc, y2; cbn; rewrite N1, Nd; reflexivity). 
  apply sbind_inv in H as (cx & y3 & P & H). apply context_inv in P as (A3 & B3 & C3 & Cx).
  apply sbind_inv in H as (rsp & ys & P & H). apply oror_inv in P. apply of_inv in P as [Nh ->].
  assert (T3 : tok y3) by (apply (tok_same y); [rewrite B3; exact B1|rewrite C3; exact C1|exact T]). change (get_next_half_session_id false y2 = Ok rsp) in Nh. rewrite <- (next_half_same y2 y3 false B3) in Nh.
  apply sbind_inv in H as (u0 & y4 & P & H). destruct (rsp_open_psk_init _ _ _ _ _ _ T3 Nh Hq P) as (s0 & G0 & A4 & Hr). clear P.
  apply sbind_inv in H as (hash & ys & P & H0). apply unwrap_inv in P as [Hh ->].
  destruct (around_eqs _ _ A3) as (N3 & X3 & V3 & M3 & _). destruct (around_eqs _ _ A4) as (N4 & X4 & V4 & M4 & _).
  unfold encode_r in H0. unfold sbind at 1 in H0. unfold wenc in H0. rewrite X4, X3, X2 in H0.
  change (ver y2) with (ver y1) in H0. change (x_cfg y2) with (x_cfg y1) in H0. rewrite V1, Cf in H0.
  match type of H0 with context [emit (enc_message ?c ?m) []] => destruct (emit (enc_message c m) []) as [[[|] w]|] eqn:Em; try discriminate H0 end. cbn [fst snd] in H0.
  apply emit_true in Em as (w0 & Ew & ->). cbn [app] in H0.
  destruct (psk_finishing_inv _ _ _ _ _ _ _ _ _ _ _ G0 H0) as (t & h & s1 & s2 & Dl & Hm & Pl & Pr & G2 & Co & Ar). destruct (around_eqs _ _ Ar) as (N5 & X5 & V5 & M5 & _).
  assert (Nz : x_nego y3 = x_nego y) by (rewrite N3; exact N1). assert (Mz : x_msg_a y3 = x_msg_a y) by (rewrite M3; exact M1). rewrite Nz, Mz in Pr. rewrite X2 in *. change (ver y2) with (ver y1) in *. rewrite V4, V3, V1 in Pr.
  exists sum, cx, op, rsp, hash, w0, t, h, s0, s1, s2. split; [reflexivity|]. split; [exact Hr|]. split; [change (x_nego y2) with (x_nego y1) in Hh; rewrite N1 in Hh; exact Hh|].
  split. { unfold summary_of. unfold kind. unfold ver in *. rewrite N1 in Sm. exact Sm. }
  split; [exact Cx|]. split; [change (x_cfg y2) with (x_cfg y1) in Op; rewrite Cf in Op; exact Op|]. split; [exact Ew|]. split; [exact Dl|]. split; [exact Hm|]. split; [exact Pl|]. split; [exact Pr|]. split; [exact G2|]. split; [exact Co|].
  split; [rewrite N5, N4; exact Nz|rewrite M5, M4; exact Mz].
Qed.
