(** C97: what the responder answers to PSK_EXCHANGE, and the session it opens. *)
From Verif Require Import Bytes BytesFacts Status Codec Parse ParseProofs Algo Monad MsgConn MsgAuth MsgSession MsgOther Message Opaque SpecOpaque OpaqueProofs SpecMsg MsgProofs MsgRound MsgRound2.
From Verif Require Import Transport Crypto KeySchedule Session Signing CertOps ChainVerify Context SessionProofs SignProofs
  RspBase RspConn RspSess RspEncap Responder StRel RspFrame RspCalm RspOpcode RspSend RspPass RspEst RspTable PropPhase ReqBase ReqConn ReqSess SpecReq ReqFrame ReqAnswer SpecSession SpecAuth ReqTrans ReqSplit ReqHist ReqAuth ReqOpen SpecHand ReqHand ReqHand2 ReqHand3 SpecKeys KeyProofs SpecPair RspPair Twin ReqTwin RspTwin WireTwin KxTwin KxWire.
From Verif Require Import SpecResponder PropTable PropDigest PropReset SpecShare PropShare ToyCrypto ExRun PropKxReply.
From Verif Require SpecReply.
From Coq Require Import Lia.
Local Open Scope N_scope.

(** PSK_EXCHANGE: summary type, half session id, hint, requester context, opaque data *)
Definition psk_request (v t half : N) (hint context opaque : bytes) : bytes :=
  [v; 0xE6; t; 0] ++ le_bytes 2 half ++ le_bytes 2 (len hint) ++ le_bytes 2 (len context) ++ le_bytes 2 (len opaque) ++ hint ++ context ++ opaque.
(** The answer [m] to the PSK_EXCHANGE message [q] from the context [x], which becomes [x']. *)
Definition psk_exchange_response (E : env) (x x' : ctx) (t half : N) (hint opaque q m : bytes) : Prop :=
  let hash := n_hash (x_nego x) in
  let no_context := N.land (n_rsp_cap (x_nego x)) 0x400 =? 0x400 in
  exists sum context rsp chosen th1 mac s,
    let body := [ver x; 0x66; cf_heartbeat (x_cfg x); 0] ++ le_bytes 2 rsp ++ [0; 0] ++ le_bytes 2 (len context) ++ le_bytes 2 (len chosen) ++ sum ++ context ++ chosen in
    m = body ++ mac /\
    SpecReply.summary_of E x t sum /\ context = (if no_context then [] else fill 64 0) /\ rsp < 65536 /\
    (* the MAC, under the responder's finished key, of the hash of A, the request and the response up to it *)
    cr_hash (e_cr E) hash (x_msg_a x ++ q ++ body) = Some th1 /\ cr_hmac (e_cr E) hash (h_rsp_fin (s_hs s)) th1 = Some mac /\
    (* the session, with the keys of the pre-shared key that the hint names *)
    get_sess (rsp * 65536 + half) x' = Some s /\ s_use_psk s = true /\ s_psk_hint s = Some hint /\ s_hash s = hash /\ s_aead s = n_aead (x_nego x) /\
    handshake_keys (e_cr E) (ver x) s th1 (s_hs s) /\
    (* established at once when the responder takes no context, else in its handshake *)
    (if no_context then s_state s = SEstablished /\ exists th2, cr_hash (e_cr E) hash (x_msg_a x ++ q ++ body ++ mac) = Some th2 /\ data_keys (e_cr E) (ver x) s th2 (s_app s)
     else s_state s = SHandshaking) /\
    (chosen = [] \/ exists j, N.of_nat j < offered_count (xc x) opaque /\ offered_count (xc x) opaque <= 2 /\
       In (offered (xc x) opaque j) (cf_secver (x_cfg x)) /\ chosen = selection_bytes (xc x) (offered (xc x) opaque j) /\ s_secver s = offered (xc x) opaque j).

Lemma psk_finishing_full E without id req op hash w y w' y' s0 : get_sess id y = Some s0 ->
  psk_exchange_finishing E without id req op hash w y = (Ok w', y') ->
  exists t h th1 s4 s7 hb, drop_last hash w = Ok t /\ cr_hash (e_cr E) (s_hash s0) (th_base s0 ++ req ++ t) = Some th1 /\
    generate_handshake_secret (e_cr E) (ver y) th1 (k_add (req ++ t) s0) = (Ok tt, s4) /\
    cr_hmac (e_cr E) (s_hash s4) (h_rsp_fin (s_hs s4)) th1 = Some h /\ patch_last hash h w = Ok w' /\
    swhen without (data_prog (e_cr E) (ver y)) (set_s_state SHandshaking (k_add h s4)) = (Ok tt, s7) /\
    get_sess id y' = Some (take_secver op (set_s_heartbeat hb s7)) /\ around y' = around y.
Proof.
  intros G H. unfold psk_exchange_finishing in H. bg H. bi H. apply of_inv in P as [Dl ->]. rename v into t.
  bi H. apply oror_inv in P. destruct (k_step _ _ _ _ _ _ _ G P) as [Z1 G1]. clear P. bi H. apply oror_inv in P. destruct (k_step _ _ _ _ _ _ _ G1 P) as [Z2 G2]. clear P. rewrite k_add_add in G2.
  bi H. apply oror_inv in P. apply (calc_inv _ _ _ _ _ _ G2) in P as (-> & tt1 & T & Hv).
  bi H. apply (on_ok _ _ _ _ _ _ G2) in P as (s4 & K4 & Z4). destruct (hs_frame _ _ _ _ _ _ K4) as (I4 & T4 & H4 & _).
  pose proof (put_get id _ _ s4 G2 I4) as G4. rewrite <- Z4 in G4.
  bi H. rename v3 into h. destruct (rsp_hmac_inv _ _ _ _ _ _ G4 P) as [-> Hm]. assert (Tk : s_th s4 = Some tt1) by (rewrite T4; exact T). destruct (rsp_hmac_is _ _ _ _ _ _ _ G4 Tk P) as (d1 & Hd1 & Hm1). clear P Hm.
  bi H. apply abandon_inv in P. destruct (k_step _ _ _ _ _ _ _ G4 P) as [Z5 G5]. clear P.
  bi H. apply of_inv in P as [Pl ->].
  bi H. apply (on_ok _ _ _ _ _ _ G5) in P as (s6 & K6 & Z6). unfold smod in K6. assert (s6 = set_s_state SHandshaking (k_add h s4)) as -> by congruence. clear K6.
  pose proof (put_get id _ _ (set_s_state SHandshaking (k_add h s4)) G5 eq_refl) as G6. rewrite <- Z6 in G6.
  match type of Z6 with ?a = _ => assert (A6 : around a = around y) by (rewrite Z6, around_put, Z5, around_put, Z4, around_put, Z2, around_put, Z1; reflexivity) end.
  bi H. match type of P with _ ?a = (_, ?b) => assert (K : exists s7, swhen without (data_prog (e_cr E) (ver y)) (set_s_state SHandshaking (k_add h s4)) = (Ok tt, s7) /\ get_sess id b = Some s7 /\ around b = around y) end.
  { unfold swhen in P |- *. destruct without.
    - bi P. apply oror_inv in P0. destruct (th_now_inv _ _ _ _ _ _ G6 P0) as [-> Tn]. clear P0. bi P.
      unfold scatch in P0. destruct (on_sess id (generate_data_secret (e_cr E) (ver y) v7) y4) as [[g|g|] yg] eqn:Gd; try discriminate P0. assert (yg = y6) as -> by (unfold sret in P0; congruence). clear P0.
      destruct (data_step E id y4 (set_s_state SHandshaking (k_add h s4)) (ver y) v7 v6 y5 G6 Tn) as (s3 & D3 & G3 & A3).
      { unfold sbind. rewrite Gd. exact P. }
      exists s3. split; [exact D3|]. split; [exact G3|]. congruence.
    - apply ret_inv in P as [_ ->]. eexists. split; [reflexivity|]. split; [exact G6|exact A6]. }
  destruct K as (s7 & K7 & G7 & A7). clear P. bi H. apply (on_ok _ _ _ _ _ _ G7) in P as (s8 & K8 & Z8). unfold smod in K8. match type of K8 with (_, ?a) = _ => assert (S8 : s8 = a) by congruence end.
  apply ret_inv in H as [Hw ->]. match type of Hw with Ok ?a = _ => assert (a = w') as -> by congruence | _ = Ok ?a => assert (a = w') as -> by congruence end.
  exists t, h. eexists. exists s4, s7, (cf_heartbeat (x_cfg y)). split; [exact Dl|].
  split. { rewrite <- Hv. cbn in T. assert (tt1 = th_base s0 ++ req ++ t) as -> by congruence. reflexivity. }
  split. { match type of K4 with _ = (Ok ?q, _) => destruct q end. exact K4. }
  split. { rewrite <- Hm1. f_equal. rewrite H4 in Hd1. cbn in Hd1, Hv. congruence. }
  split; [exact Pl|]. split; [exact K7|].
  split; [rewrite Z8, <- S8; apply (put_get _ _ s7 _ G7); rewrite S8; unfold take_secver; destruct (_ =? 0); reflexivity|]. rewrite Z8, around_put. exact A7.
Qed.
Lemma write_psk_full E v r p rest y w' y' : tok y -> px_session p < 65536 -> dec_psk_ex (xc y) r = POk p rest ->
  write_psk_exchange E (v :: RC_PSK_EXCHANGE :: r) y = (Ok w', y') ->
  let b := v :: RC_PSK_EXCHANGE :: r in let c := mkCctx (x_nego y) (kind (px_hash_type p)) (x_need_sig y) in
  exists sum cx op rsp hash w t h th1 s s4 s7 hb, let id := session_id rsp (px_session p) in let s0 := psk_init E (x_nego y) (x_msg_a y) (v_bytes (px_hint p)) id s in
    v = ver y /\ rsp < 65536 /\ hash_size (n_hash (x_nego y)) = Some hash /\ summary_of E y (px_hash_type p) sum /\
    (if psk_no_ctx c then exists d, cx = mkV 0 d /\ length d = 64%nat else cx = mkV 64 (fill 64 0)) /\
    rsp_select_version c (cf_secver (x_cfg y)) (px_opaque p) = Ok op /\
    xwire (enc_message c (psk_exchange_rsp_msg v (cf_heartbeat (x_cfg y)) rsp sum cx op hash)) = Some w /\
    drop_last hash w = Ok t /\ cr_hash (e_cr E) (s_hash s0) (th_base s0 ++ used_of b rest ++ t) = Some th1 /\
    generate_handshake_secret (e_cr E) v th1 (k_add (used_of b rest ++ t) s0) = (Ok tt, s4) /\
    cr_hmac (e_cr E) (s_hash s4) (h_rsp_fin (s_hs s4)) th1 = Some h /\ patch_last hash h w = Ok w' /\
    swhen (psk_no_ctx c) (data_prog (e_cr E) v) (set_s_state SHandshaking (k_add h s4)) = (Ok tt, s7) /\
    get_sess id y' = Some (take_secver op (set_s_heartbeat hb s7)) /\ x_nego y' = x_nego y.
Proof.
  intros T Hq D H. cbv zeta. unfold write_psk_exchange, exchange_start in H. bg H. destruct (negotiated y); [|discriminate]. unfold with_version_r in H. bg H.
  change (read_header (v :: RC_PSK_EXCHANGE :: r)) with (Some (mkHeader v RC_PSK_EXCHANGE, r)) in H. cbv iota in H. cbn [h_version] in H. destruct (N.eqb_spec v (ver y)) as [->|]; [|discriminate]. cbn [negb] in H.
  destruct (0x11 <=? ver y); [|discriminate]. rewrite bind_mod in H. destruct (reset_none RC_PSK_EXCHANGE y) as (A1 & B1 & C1). set (y1 := reset_buffer RC_PSK_EXCHANGE None y) in *. clearbody y1.
  destruct (around_eqs _ _ A1) as (N1 & X1 & V1 & M1 & _).
  unfold sbind at 1 in H. unfold rd in H. rewrite X1, D in H.
  apply sbind_inv in H as (so & ys & P & H). apply summary_inv in P as [-> Sm]. apply sbind_inv in H as (sum & ys & P & H). apply ok_inv in P as [-> ->]. specialize (Sm _ eq_refl).
  rewrite bind_get in H. set (y2 := set_x_need_sum _ y1) in *. apply sbind_inv in H as (op & ys & P & H). apply of_inv in P as [Op ->]. cbv zeta in H.
  assert (Nd : x_need_sig y1 = x_need_sig y) by (unfold around in A1; congruence). assert (Cf : x_cfg y1 = x_cfg y) by (unfold around in A1; congruence).
  assert (X2 : xc y2 = mkCctx (x_nego y) (kind (px_hash_type p)) (x_need_sig y)) by (unfold xc, y2; cbn; rewrite N1, Nd; reflexivity). 
  apply sbind_inv in H as (cx & y3 & P & H). apply context_inv in P as (A3 & B3 & C3 & Cx).
  apply sbind_inv in H as (rsp & ys & P & H). apply oror_inv in P. apply of_inv in P as [Nh ->].
  assert (T3 : tok y3) by (apply (tok_same y); [rewrite B3; exact B1|rewrite C3; exact C1|exact T]). change (get_next_half_session_id false y2 = Ok rsp) in Nh. rewrite <- (next_half_same y2 y3 false B3) in Nh.
  apply sbind_inv in H as (u0 & y4 & P & H). destruct (rsp_open_psk_init _ _ _ _ _ _ T3 Nh Hq P) as (s0 & G0 & A4 & Hr). clear P.
  apply sbind_inv in H as (hash & ys & P & H0). apply unwrap_inv in P as [Hh ->].
  destruct (around_eqs _ _ A3) as (N3 & X3 & V3 & M3 & _). destruct (around_eqs _ _ A4) as (N4 & X4 & V4 & M4 & _).
  unfold encode_r in H0. unfold sbind at 1 in H0. unfold wenc in H0. rewrite X4, X3, X2 in H0.
  change (ver y2) with (ver y1) in H0. change (x_cfg y2) with (x_cfg y1) in H0. rewrite V1, Cf in H0.
  match type of H0 with context [emit (enc_message ?c ?m) []] => destruct (emit (enc_message c m) []) as [[[|] w]|] eqn:Em; try discriminate H0 end. cbn [fst snd] in H0.
  apply emit_true in Em as (w0 & Ew & ->). cbn [app] in H0.
  assert (Nz : x_nego y3 = x_nego y) by (rewrite N3; exact N1). assert (Mz : x_msg_a y3 = x_msg_a y) by (rewrite M3; exact M1). rewrite Nz, Mz in G0. rewrite X2 in *. change (ver y2) with (ver y1) in *.
  destruct (psk_finishing_full _ _ _ _ _ _ _ _ _ _ _ G0 H0) as (t & h & th1 & s4 & s7 & hb & Dl & Hth & Gh & Hm & Pl & K7 & G7 & Ar). destruct (around_eqs _ _ Ar) as (N5 & _).
  rewrite V4, V3, V1 in Gh, K7.
  exists sum, cx, op, rsp, hash, w0, t, h, th1, s0, s4, s7, hb. split; [reflexivity|]. split; [exact Hr|]. split; [change (x_nego y2) with (x_nego y1) in Hh; rewrite N1 in Hh; exact Hh|].
  split. { unfold summary_of. unfold kind. unfold ver in *. rewrite N1 in Sm. exact Sm. }
  split; [exact Cx|]. split; [change (x_cfg y2) with (x_cfg y1) in Op; rewrite Cf in Op; exact Op|]. split; [exact Ew|]. split; [exact Dl|]. split; [exact Hth|]. split; [exact Gh|]. split; [exact Hm|]. split; [exact Pl|]. split; [exact K7|]. split; [exact G7|].
  rewrite N5, N4; exact Nz.
Qed.

Lemma psk_request_read_all c v t h hint context opaque pad : summary_type_ok c t -> h < 65536 -> len hint <= 32 -> len context <= 64 -> len opaque <= 1024 ->
  let m := psk_request v t h hint context opaque in
  exists r p, m ++ pad = v :: RC_PSK_EXCHANGE :: r /\ dec_psk_ex c r = POk p pad /\
    px_session p = h /\ px_hash_type p = t /\ v_bytes (px_hint p) = hint /\ v_bytes (px_opaque p) = opaque /\ used_of (v :: RC_PSK_EXCHANGE :: r) pad = m.
Proof.
  intros Ht Hh Lh Lc Lo m. set (p := mkPskEx t h (v_of 32 hint) (v_of 64 context) (v_of 1024 opaque)).
  assert (B32 : (length hint <= 32)%nat) by (unfold len in Lh; lia). assert (B64 : (length context <= 64)%nat) by (unfold len in Lc; lia).
  assert (B1024 : (length opaque <= 1024)%nat) by (unfold len in Lo; lia).
  assert (Ok : ok_psk_ex c p) by (split; [exact Ht|]; split; [exact Hh|]; split; [apply buf_v_of; exact B32|]; split; [apply buf_v_of; exact B64|apply buf_v_of; exact B1024]).
  destruct (rt_psk_ex c p Ok) as (w & W & _ & D). rewrite xw_psk_ex in W. assert (w = wire_psk_ex p) as -> by congruence. clear W.
  assert (Em : m = v :: RC_PSK_EXCHANGE :: wire_psk_ex p).
  { unfold m, psk_request, wire_psk_ex, p. cbn [px_hash_type px_session px_hint px_context px_opaque]. change content with v_bytes. rewrite !v_of_bytes by assumption. reflexivity. }
  exists (wire_psk_ex p ++ pad), p. rewrite Em. split; [reflexivity|]. split; [apply D|]. split; [reflexivity|]. split; [reflexivity|]. split; [apply v_of_bytes; exact B32|]. split; [apply v_of_bytes; exact B1024|]. apply used_split. reflexivity.
Qed.
Lemma psk_response_bytes c v hb rsp sum cx op hash w h w' t : hash_size (n_hash (c_nego c)) = Some hash ->
  (if c_need_sum c then exists d, sum = v_of 64 d /\ len d = hash else sum = v_default 64) ->
  (if psk_no_ctx c then exists d, cx = mkV 0 d /\ length d = 64%nat else cx = mkV 64 (fill 64 0)) ->
  xwire (enc_message c (psk_exchange_rsp_msg v hb rsp sum cx op hash)) = Some w -> drop_last hash w = Ok t -> patch_last hash h w = Ok w' ->
  let context := if psk_no_ctx c then [] else fill 64 0 in
  t = [v; RC_PSK_EXCHANGE_RSP] ++ [hb; 0] ++ le_bytes 2 rsp ++ [0; 0] ++ le_bytes 2 (len context) ++ le_bytes 2 (v_size op) ++ when (c_need_sum c) (content sum) ++ context ++ content op /\ w' = t ++ h.
Proof.
  intros Hs Hsum Hcx W Dl Pl context. pose proof (hash_le _ _ Hs) as L64.
  assert (Scx : v_size cx = len context) by (unfold context; destruct (psk_no_ctx c); [destruct Hcx as (d & -> & _)|rewrite Hcx]; reflexivity).
  assert (Ccx : content cx = context) by (unfold context; destruct (psk_no_ctx c); [destruct Hcx as (d & -> & _)|rewrite Hcx]; reflexivity).
  assert (Kc : psk_no_ctx c = true -> len context = 0 /\ context = []) by (unfold context; intro K; rewrite K; split; reflexivity). clearbody context.
  set (hd := [v; RC_PSK_EXCHANGE_RSP] ++ [hb; 0] ++ le_bytes 2 rsp ++ [0; 0] ++ le_bytes 2 (len context) ++ le_bytes 2 (v_size op) ++ when (c_need_sum c) (content sum) ++ context ++ content op).
  assert (Osum : present (c_need_sum c) (digest_ok c sum) (absent 64 sum)).
  { destruct (c_need_sum c); cbn [present]; [|rewrite Hsum; split; reflexivity]. destruct Hsum as (d & -> & Ld). split; [apply buf_v_of; unfold len in Ld; lia|]. cbn [v_of v_size]. rewrite Ld. exact Hs. }
  assert (Ew : w = hd ++ fill (N.to_nat hash) 0xcc).
  { unfold psk_exchange_rsp_msg, enc_message in W. cbn [m_header m_payload] in W. unfold enc_payload in W. rewrite xwire_app in W. change (xwire (enc_header (mkHeader v RC_PSK_EXCHANGE_RSP))) with (Some [v; RC_PSK_EXCHANGE_RSP]) in W.
    unfold enc_psk_ex_rsp in W. cbn [pr_heartbeat pr_session pr_summary pr_context pr_opaque pr_verify] in W.
    assert (X1 : xwire (if psk_no_ctx c then x_u16 0 else x_u16 (v_size cx)) = Some (le_bytes 2 (len context))) by (destruct (psk_no_ctx c); [rewrite (proj1 (Kc eq_refl))|rewrite Scx]; apply xwh16).
    assert (X2 : xwire (enc_opt (c_need_sum c) (enc_digest c sum)) = Some (when (c_need_sum c) (content sum))) by (apply xw_opt_digest; exact Osum).
    assert (X3 : xwire (enc_opt (negb (psk_no_ctx c)) (x_arr (v_bytes cx))) = Some context).
    { change (v_bytes cx) with (content cx). rewrite Ccx. destruct (psk_no_ctx c); cbn [negb enc_opt]; [rewrite (proj2 (Kc eq_refl)); reflexivity|]. unfold x_arr. rewrite xwire_of, CodecProofs.wire_arr. reflexivity. }
    assert (X4 : xwire (enc_digest c (mkV hash (fill 64 0xcc))) = Some (fill (N.to_nat hash) 0xcc)).
    { unfold enc_digest, c_hash_size. rewrite Hs. cbn [v_size]. rewrite N.eqb_refl. cbn [x_assert app]. rewrite xwire_arr_cnt. unfold v_bytes. cbn [v_size v_data]. f_equal. unfold fill. apply firstn_repeat_le. lia. }
    match type of W with context [xwire ?e] => assert (X : xwire e = Some ([hb] ++ [0] ++ le_bytes 2 rsp ++ le_bytes 2 0 ++ le_bytes 2 (len context) ++ le_bytes 2 (v_size op) ++ when (c_need_sum c) (content sum) ++ context ++ content op ++ fill (N.to_nat hash) 0xcc)) end.
    { repeat (apply xw_two; [first [apply xwh8|apply xwh16|exact X1|exact X2|exact X3|apply xw_arr]|]). exact X4. }
    rewrite X in W. unfold hd. rewrite <- !app_assoc. symmetry in W. assert (E0 : forall a b : bytes, Some a = Some b -> a = b) by congruence. apply E0 in W. rewrite W. reflexivity. }
  subst w. destruct (ReqHand3.patch_tail _ _ _ _ _ Pl) as [-> Lm]; [rewrite len_fill; lia|]. rewrite drop_tail in Dl by (rewrite len_fill; lia). assert (t = hd) as -> by congruence. split; reflexivity.
Qed.
(** the session of the answer *)
Lemma psk_opened E v n a hint id s s4 s7 m h th1 op hb w : let s0 := psk_init E n a hint id s in
  generate_handshake_secret (e_cr E) v th1 (k_add m s0) = (Ok tt, s4) -> swhen w (data_prog (e_cr E) v) (set_s_state SHandshaking (k_add h s4)) = (Ok tt, s7) ->
  let z := take_secver op (set_s_heartbeat hb s7) in
  th_base s0 = a /\ s_hash s0 = n_hash n /\ s_hs s4 = s_hs z /\ s_hash s4 = n_hash n /\
  s_use_psk z = true /\ s_psk_hint z = Some hint /\ s_hash z = n_hash n /\ s_aead z = n_aead n /\ handshake_keys (e_cr E) v z th1 (s_hs z) /\
  (if w then s_state z = SEstablished /\ exists th2, cr_hash (e_cr E) (n_hash n) (a ++ m ++ h) = Some th2 /\ data_keys (e_cr E) v z th2 (s_app z) else s_state z = SHandshaking).
Proof.
  intros s0 G K7 z. apply handshake_ok in G as (K & S4 & _).
  assert (B : th_base s0 = a) by abstract (unfold th_base, s0, psk_init; cbn; apply app_nil_r).
  assert (F : s_hash s0 = n_hash n /\ s_aead s0 = n_aead n /\ s_use_psk s0 = true /\ s_psk_hint s0 = Some hint) by abstract (repeat split). destruct F as (F1 & F2 & F3 & F4).
  assert (Fb : s_hash (k_add m s0) = n_hash n /\ s_aead (k_add m s0) = n_aead n /\ s_use_psk (k_add m s0) = true /\ s_psk_hint (k_add m s0) = Some hint /\ s_th (k_add m s0) = Some (a ++ m)) by abstract (unfold k_add; rewrite B; cbn; auto).
  destruct Fb as (B1 & B2 & B3 & B4 & B5). clearbody s0. set (sb := k_add m s0) in *. clearbody sb.
  assert (X : s_use_psk s4 = s_use_psk sb /\ s_hs_root s4 = s_hs_root sb /\ s_hash s4 = s_hash sb /\ s_aead s4 = s_aead sb /\ s_psk_hint s4 = s_psk_hint sb /\ s_th s4 = s_th sb).
  { assert (forall k, s_use_psk (set_s_hs k sb) = s_use_psk sb /\ s_hs_root (set_s_hs k sb) = s_hs_root sb /\ s_hash (set_s_hs k sb) = s_hash sb /\ s_aead (set_s_hs k sb) = s_aead sb /\ s_psk_hint (set_s_hs k sb) = s_psk_hint sb /\ s_th (set_s_hs k sb) = s_th sb) by abstract (intro; repeat split).
    rewrite S4. auto 10. }
  destruct X as (X1 & X2 & X3 & X4 & X5 & X6).
  assert (Z : s_hs z = s_hs s7 /\ s_hash z = s_hash s7 /\ s_aead z = s_aead s7 /\ s_use_psk z = s_use_psk s7 /\ s_hs_root z = s_hs_root s7 /\ s_master z = s_master s7 /\ s_psk_hint z = s_psk_hint s7 /\ s_app z = s_app s7 /\ s_state z = s_state s7).
  { unfold z, take_secver. destruct (_ =? 0); repeat split. }
  destruct Z as (Z1 & Z2 & Z3 & Z4 & Z5 & Z6 & Z7 & Z8 & Z9). clearbody z.
  set (s5 := set_s_state SHandshaking (k_add h s4)) in *.
  assert (Y : s_hs s5 = s_hs s4 /\ s_hash s5 = s_hash s4 /\ s_aead s5 = s_aead s4 /\ s_use_psk s5 = s_use_psk s4 /\ s_hs_root s5 = s_hs_root s4 /\ s_psk_hint s5 = s_psk_hint s4 /\ s_state s5 = SHandshaking /\ s_th s5 = Some (a ++ m ++ h)).
  { unfold s5, k_add, th_base. cbn. rewrite X6, B5, app_assoc. auto 10. }
  destruct Y as (Y1 & Y2 & Y3 & Y4 & Y5 & Y6 & Y7 & Y8). clearbody s5.
  assert (W : s_hs s7 = s_hs s5 /\ s_hash s7 = s_hash s5 /\ s_aead s7 = s_aead s5 /\ s_use_psk s7 = s_use_psk s5 /\ s_hs_root s7 = s_hs_root s5 /\ s_psk_hint s7 = s_psk_hint s5 /\
    (if w then s_state s7 = SEstablished /\ exists th2, cr_hash (e_cr E) (s_hash s5) (a ++ m ++ h) = Some th2 /\ data_keys (e_cr E) v s7 th2 (s_app s7) else s_state s7 = SHandshaking)).
  { unfold swhen in K7. destruct w; [|apply ret_inv in K7 as [_ ->]; auto 10].
    unfold data_prog in K7. bi K7. unfold th_now in P. rewrite bind_get in P. apply of_inv in P as [P ->]. unfold transcript_hash in P. rewrite Y8 in P. unfold orc in P.
    match type of P with match ?q with _ => _ end = _ => destruct q as [hh|] eqn:Hh; [|discriminate P] | context [cr_hash ?q1 ?q2 ?q3] => destruct (cr_hash q1 q2 q3) as [hh|] eqn:Hh; [|discriminate P] end.
    assert (v0 = hh) as -> by congruence. bi K7. apply mod_inv in K7. apply data_ok in P0 as (D & S6 & _).
    match type of S6 with ?q = _ => set (s6 := q) in * end. assert (M : s_hs s7 = s_hs s6 /\ s_hash s7 = s_hash s6 /\ s_aead s7 = s_aead s6 /\ s_use_psk s7 = s_use_psk s6 /\ s_hs_root s7 = s_hs_root s6 /\ s_psk_hint s7 = s_psk_hint s6 /\ s_app s7 = s_app s6 /\ s_master s7 = s_master s6 /\ s_state s7 = SEstablished) by abstract (rewrite K7; repeat split).
    destruct M as (M1 & M2 & M3 & M4 & M5 & M6 & M7 & M8 & M9).
    assert (Q : forall k, s_hs (set_s_app k s5) = s_hs s5 /\ s_hash (set_s_app k s5) = s_hash s5 /\ s_aead (set_s_app k s5) = s_aead s5 /\ s_use_psk (set_s_app k s5) = s_use_psk s5 /\ s_hs_root (set_s_app k s5) = s_hs_root s5 /\ s_psk_hint (set_s_app k s5) = s_psk_hint s5 /\ s_master (set_s_app k s5) = s_master s5) by abstract (intro; repeat split).
    specialize (Q (s_app s6)). rewrite <- S6 in Q. destruct Q as (Q1 & Q2 & Q3 & Q4 & Q5 & Q6 & Q7).
    split; [congruence|]. split; [congruence|]. split; [congruence|]. split; [congruence|]. split; [congruence|]. split; [congruence|]. split; [exact M9|]. exists hh. split; [reflexivity|].
    rewrite M7. unfold data_keys, from_secret in D |- *. rewrite M2, M3, M4, M6, M8, Q2, Q3, Q4, Q6, Q7. exact D. }
  destruct W as (W1 & W2 & W3 & W4 & W5 & W6 & W7).
  split; [exact B|]. split; [exact F1|]. split; [congruence|]. split; [congruence|]. split; [congruence|]. split; [congruence|]. split; [congruence|]. split; [congruence|].
  split. { assert (R1 : s_use_psk z = s_use_psk sb) by congruence. assert (R2 : s_hs_root z = s_hs_root sb) by congruence. assert (R3 : s_hash z = s_hash sb) by congruence. assert (R4 : s_aead z = s_aead sb) by congruence. assert (R5 : s_psk_hint z = s_psk_hint sb) by congruence. assert (R6 : s_hs z = s_hs s4) by congruence.
    rewrite R6. unfold handshake_keys, from_secret in K |- *. rewrite R1, R2, R3, R4, R5. exact K. }
  destruct w; [|congruence]. destruct W7 as (W7 & th2 & W8 & W9). split; [congruence|]. exists th2. split; [rewrite <- W8; f_equal; congruence|].
  rewrite Z8. unfold data_keys, from_secret in W9 |- *. rewrite Z2, Z3, Z4, Z6, Z7. exact W9.
Qed.

Theorem C97_psk_exchange_answer : forall E cfg chain_data my_chain root x f r x' t half hint context opaque pad,
  let q := psk_request (ver x) t half hint context opaque in
  digest_sizes (e_cr E) -> delivers_bytes E -> length my_chain = 8%nat ->
  served E (process_message E) (ctx_new cfg chain_data my_chain root) x ->
  SpecReply.summaries_sized (e_cr E) -> Forall (fun v => v < 256) (cf_secver (x_cfg x)) ->
  summary_type_ok (xc x) t -> half < 65536 -> len hint <= 32 -> len context <= 64 -> len opaque <= 1024 -> bytes_ok opaque ->
  plain_message E f = Some (q ++ pad) -> process_frame E f x = (r, x') ->
  one_reply E x x' (fun m => SpecReply.is_error x m \/ psk_exchange_response E x x' t half hint opaque q m).
Proof.
  intros E cfg cd mc root x f r x' t half hint context opaque pad q HL HD Hm Sv Ss Fv Ht Hh Lh Lc Lo Bo Pf H.
  destruct (served_ok _ _ _ _ _ _ HL HD Hm Sv) as [_ T].
  destruct (psk_request_read_all (xc x) (ver x) t half hint context opaque pad Ht Hh Lh Lc Lo) as (rr & p & Eb & D & Ph & Pt & Phi & Po & Us).
  fold q in Eb, Us. rewrite (frame_plain E f _ x Pf) in H. apply is_ok_inv in H as [r0 H]. rewrite Eb in H.
  unfold dispatch_message in H. change (read_header (ver x :: RC_PSK_EXCHANGE :: rr)) with (Some (mkHeader (ver x) RC_PSK_EXCHANGE, rr)) in H.
  change (handle_psk_exchange E (ver x :: RC_PSK_EXCHANGE :: rr) x = (r0, x')) in H.
  unfold handle_psk_exchange in H. unfold sbind at 1 in H. destruct (write_psk_exchange E (ver x :: RC_PSK_EXCHANGE :: rr) x) as [o y] eqn:W.
  pose proof (quiet_psk_exchange _ _ _ _ _ W) as [S1 _]. destruct o as [w'|e|]; [|left; congruence|left; congruence].
  assert (Hk : px_session p < 65536) by (rewrite Ph; exact Hh).
  destruct (write_psk_full E (ver x) rr p pad x w' y T Hk D W) as (sum & cx & op & rsp & hash & w & u & h & th1 & s & s4 & s7 & hb & W').
  cbv zeta in W'. rewrite Ph, Pt, Phi, Us in W'.
  destruct W' as (_ & Hr & Hh1 & Sm & Hcx & Op & Ew & Dl & Hth & Gh & Hmac & Pl & K7 & G & Ny).
  destruct (psk_opened E _ _ _ _ _ _ _ _ _ _ _ op hb _ Gh K7) as (B1 & B2 & Z1 & Y1 & Q2 & Q3 & Q4 & Q5 & Q6 & Q7). clear Gh K7.
  set (z := take_secver op _) in *.
  destruct (select_ok _ _ _ _ Fv Op) as (Oop & _). pose proof (opaque_len op Oop) as Lop.
  assert (Sel := select_sound' _ _ _ _ ltac:(rewrite Po; exact Bo) Op). rewrite Po in Sel.
  match type of Ew with xwire (enc_message ?c0 _) = _ => set (c := c0) in * end.
  assert (Sum : exists sb, SpecReply.summary_of E x t sb /\ (if c_need_sum c then exists dd, sum = v_of 64 dd /\ len dd = hash else sum = v_default 64) /\ when (c_need_sum c) (content sum) = sb).
  { unfold summary_of in Sm. unfold SpecReply.summary_of. change (c_need_sum c) with (kind t). assert (K : kind t = (t =? 1) || (t =? 255)) by reflexivity.
    rewrite <- K. destruct (kind t); [|exists []; split; [reflexivity|split; [exact Sm|reflexivity]]]. destruct Sm as (hh & M & ->). pose proof (Ss _ _ _ _ _ _ M) as Lhh. exists hh. split; [exact M|].
    assert (len hh = hash) by congruence. split; [exists hh; split; [reflexivity|assumption]|]. cbn [when]. change content with v_bytes. apply v_of_bytes. pose proof (hash_le _ _ Hh1) as L64. unfold len in *. lia. }
  destruct Sum as (sb & Sm1 & Sm2 & Sm3).
  destruct (psk_response_bytes c (ver x) (cf_heartbeat (x_cfg x)) rsp sum cx op hash w h w' u Hh1 Sm2 Hcx Ew Dl Pl) as (Eu & Ew'). rewrite Sm3, <- Lop in *.
  set (nc := N.land (n_rsp_cap (x_nego x)) 0x400 =? 0x400). change (psk_no_ctx c) with nc in *. set (cb := if nc then [] else fill 64 0) in *.
  set (body := [ver x; 0x66; cf_heartbeat (x_cfg x); 0] ++ le_bytes 2 rsp ++ [0; 0] ++ le_bytes 2 (len cb) ++ le_bytes 2 (len (v_bytes op)) ++ sb ++ cb ++ v_bytes op).
  change (u = body) in Eu. subst u.
  assert (Vy : ver y = ver x) by (unfold ver; rewrite Ny; reflexivity).
  assert (Op1 : nth_error w' 1 = Some 0x66) by (rewrite Ew'; reflexivity).
  pose proof (send_keeps_sess E w' 0x66 Op1 ltac:(right; reflexivity) _ _ _ H) as Sx. unfold same_sess in Sx.
  unfold one_reply. rewrite <- S1. refine (send_message_one E w' y r0 x' _ _ _ H); [|left; rewrite Vy; exists 0xD, 0; reflexivity].
  right. unfold psk_exchange_response. fold nc. exists sb, cb, rsp, (v_bytes op), th1, h, z. fold body.
  assert (Gx : get_sess (rsp * 65536 + half) x' = Some z) by (unfold get_sess in G |- *; rewrite Sx; exact G).
  rewrite B1, B2 in *. rewrite Z1, Y1 in Hmac.
  split; [exact Ew'|]. split; [exact Sm1|]. split; [reflexivity|]. split; [exact Hr|]. split; [exact Hth|]. split; [exact Hmac|]. split; [exact Gx|]. split; [exact Q2|]. split; [exact Q3|]. split; [exact Q4|]. split; [exact Q5|]. split; [exact Q6|].
  split. { rewrite <- !app_assoc in Q7. exact Q7. }
  destruct Sel as [Sel|(j & A1 & A2 & A3 & A4)]; [left; exact Sel|right; exists j]. split; [exact A1|]. split; [exact A2|]. split; [exact A3|]. split; [exact A4|].
  assert (Es : exists b, v_bytes op = b ++ [offered c opaque j]).
  { rewrite A4. unfold selection_bytes. destruct (_ <? _); cbn [app]; eexists; (match goal with |- ?a = _ ++ [?v] => instantiate (1 := removelast a) end); reflexivity. }
  destruct Es as (b & Es). destruct (kx_secver_of op b _ Oop Es) as (N1 & N2 & _). unfold z, take_secver. rewrite N2, N1. reflexivity.
Qed.
(** a case: the PSK_EXCHANGE of the example run; the responder supports a PSK context *)
Definition pk_opaque : bytes := [1;0;0;0; 0;0;7;0; 1;1;2;0; 0x10;0;0x11;0].
Definition pk_q : bytes := psk_request 0x12 255 0xBBAA [1;2;3;4] (fill 32 8) pk_opaque.
Definition pk_y : ctx := Eval vm_compute in snd (process_frame (ex_replay kr_frames) (5 :: pk_q ++ [1; 2]) kr_x).
Example C97_case : let E := ex_replay kr_frames in
  SpecReply.summaries_sized (e_cr E) /\ delivers_bytes E /\ served E (process_message E) ex_ctx2 kr_x /\ ver kr_x = 0x12 /\ summary_type_ok (xc kr_x) 255 /\
  plain_message E (5 :: pk_q ++ [1; 2]) = Some (pk_q ++ [1; 2]) /\ N.land (n_rsp_cap (x_nego kr_x)) 0x400 <> 0x400 /\
  exists s, get_sess 0xFFFDBBAA pk_y = Some s /\ s_secver s = 0x11 /\ s_state s = SHandshaking /\ nth_error (hd [] (x_sent pk_y)) 2 = Some 0x66.
Proof.
  cbv zeta. split; [exact toy_summaries|]. split; [apply replay_delivers; vm_compute; reflexivity|]. split; [apply (replay_rounds kr_frames 3); vm_compute; reflexivity|].
  split; [reflexivity|]. split; [right; split; [right; reflexivity|left; vm_compute; reflexivity]|].
  split; [vm_compute; reflexivity|]. split; [vm_compute; discriminate|]. eexists. split; [vm_compute; reflexivity|]. split; [reflexivity|]. split; reflexivity.
Qed.
