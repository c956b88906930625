(** KEY_EXCHANGE: what one end sends is what the other end reads. *)
From Verif Require Import Bytes BytesFacts Status Codec Parse ParseProofs Algo Monad MsgConn MsgAuth MsgSession MsgOther Message Opaque SpecMsg MsgProofs MsgRound MsgRound2.
From Verif Require Import Transport Crypto KeySchedule Session Signing CertOps ChainVerify Context SessionProofs
  RspBase RspConn RspSess StRel RspFrame RspCalm RspOpcode RspPass RspEst RspTable ReqBase ReqConn ReqSess SpecReq ReqFrame ReqAnswer SpecSession SpecAuth ReqTrans ReqSplit ReqHist ReqAuth ReqOpen SpecHand ReqHand ReqHand2 ReqHand3 SpecKeys KeyProofs SpecPair RspPair Twin ReqTwin RspTwin WireTwin KxTwin.
From Verif Require Import SpecShare.
From Coq Require Import Lia.
Local Open Scope N_scope.

Lemma dhe_le a n : dhe_size a = Some n -> n <= 96.
Proof. unfold dhe_size. repeat (match goal with |- context [match ?x with _ => _ end] => destruct x end); intro H; try discriminate; assert (E0 : forall x y : N, Some x = Some y -> x = y) by congruence; apply E0 in H; subst n; vm_compute; discriminate. Qed.
Lemma asym_le a n : asym_size a = Some n -> n <= 512.
Proof. unfold asym_size. repeat (match goal with |- context [match ?x with _ => _ end] => destruct x end); intro H; try discriminate; assert (E0 : forall x y : N, Some x = Some y -> x = y) by congruence; apply E0 in H; subst n; vm_compute; discriminate. Qed.
Lemma kx_request_wire E h slot t x k s y : draws_bytes (e_cr E) -> shares_ok (e_cr E) -> ver x < 256 -> t < 256 -> slot < 256 -> h < 65536 -> cf_policy (x_cfg x) < 256 ->
  encode_key_exchange E h slot t x = (Ok (k, s), y) ->
  exists nonce share opaque, length nonce = 32%nat /\ cr_dhe_public (e_cr E) (n_dhe (x_nego x)) k = Some share /\ dhe_size (n_dhe (x_nego x)) = Some (len share) /\ len opaque <= 1024 /\
    s = key_exchange_message (ver x) t slot h (cf_policy (x_cfg x)) nonce share opaque /\ bytes_ok s /\
    around y = around x /\ x_sess y = x_sess x.
Proof.
  intros Dr Sh Hv Ht Hsl Hh Hp H. unfold encode_key_exchange in H. apply sbind_inv in H as (ro & y0 & P & H). destruct (random_frame _ _ _ _ _ P) as (A0 & S0 & _).
  assert (X3 : forall w, ro = Some w -> length w = 32%nat /\ bytes_ok w).
  { unfold get_random in P. intros w ->. destruct (cr_random _ _ _) as [w'|] eqn:Cr; [|discriminate P]. destruct (Nat.eqb_spec (length w') 32); [|discriminate P]. assert (w' = w) as -> by congruence. split; [congruence|exact (Dr _ _ _ Cr)]. }
  clear P. apply sbind_inv in H as (nonce & y1 & P1 & H). apply ok_inv in P1 as [Nn ->]. destruct (X3 _ Nn) as [Ln Bn]. bg H. rewrite bind_mod in H.
  apply sbind_inv in H as (share & y1 & P1 & H). apply ok_inv in P1 as [Dp ->]. apply sbind_inv in H as (op & y1 & P1 & H). apply of_inv in P1 as [Op ->].
  destruct (around_eqs _ _ A0) as (N0 & C0 & V0 & _). assert (Cf : x_cfg y0 = x_cfg x) by (unfold around in A0; congruence). rewrite N0 in Dp. rewrite V0, Cf in H. destruct (Sh _ _ _ Dp) as [Ds Bs]. pose proof (dhe_le _ _ Ds) as L96.
  assert (Vo : v_size op = len (v_bytes op) /\ len (v_bytes op) <= 1024 /\ bytes_ok (v_bytes op)).
  { unfold req_opaque in Op. destruct (_ <? _); [|destruct (_ =? _); [|discriminate Op]]; assert (E0 : forall x y : vbuf, Ok x = Ok y -> x = y) by congruence; apply E0 in Op; rewrite <- Op; (split; [reflexivity|split; [vm_compute; discriminate|vm_compute; repeat constructor]]). }
  destruct Vo as (Vo & Lo & Bo).
  unfold sbind at 1, wenc in H. match type of H with context [xc ?q] => change (xc q) with (xc y0) in H end. rewrite C0 in H. destruct (emit _ []) as [[ok w1]|] eqn:Em; [|discriminate H]. cbn [fst snd] in H.
  apply sbind_inv in H as (u & y2 & P & H). apply fail_inv in P as [Nb ->]. apply Bool.negb_false_iff in Nb as ->. apply emit_true in Em as (w & W & ->). cbn [app] in H. apply ret_inv in H as [H ->].
  assert (s = w) as -> by congruence. assert (k = x_rng y0) as -> by congruence. clear H Op.
  assert (Es : w = key_exchange_message (ver x) t slot h (cf_policy (x_cfg x)) nonce share (v_bytes op)).
  { unfold enc_message in W. cbn [m_header m_payload] in W. unfold enc_header, enc_payload, enc_key_ex, enc_exchange, enc_opaque, enc_nonce in W.
    cbn [h_version h_code kx_hash_type kx_slot kx_session kx_policy kx_random kx_exchange kx_opaque] in W. unfold x_arr in W. unfold ver_ge in W. change (n_version (c_nego (xc x))) with (ver x) in W. change SPDM_MAX_DHE_KEY_SIZE with 96%nat in W.
    rewrite (if_app (V12 <=? ver x)) in W. rewrite !xwire_app, !xwire_arr_cnt, !xwh8, !xwh16, Vo, v_of_share, xwire_of, CodecProofs.wire_arr in W. rewrite (firstn_all2 share) in W by (unfold len in L96; lia).
    unfold key_exchange_message. apply (f_equal (fun o => match o with Some a => a | None => [] end)) in W. rewrite <- W. clear. unfold V12. reflexivity. }
  exists nonce, share, (v_bytes op). split; [exact Ln|]. split; [exact Dp|]. split; [exact Ds|]. split; [exact Lo|]. split; [exact Es|]. split; [|split; [exact A0|exact S0]].
  rewrite Es. unfold key_exchange_message. rewrite !bytes_ok_app. split; [repeat constructor; assumption|]. split; [apply le_bytes_ok|]. split; [repeat constructor; destruct (_ <=? _); [exact Hp|reflexivity]|]. split; [exact Bn|]. split; [exact Bs|]. split; [apply le_bytes_ok|exact Bo].
Qed.
Lemma kx_request_read c v t slot h policy nonce share opaque pad : summary_type_ok c t -> v = version_of c -> slot < 256 -> h < 65536 -> policy < 256 -> length nonce = 32%nat -> dhe_size (n_dhe (c_nego c)) = Some (len share) -> len opaque <= 1024 ->
  let m := key_exchange_message v t slot h policy nonce share opaque in
  exists r p, m ++ pad = v :: RC_KEY_EXCHANGE :: r /\ dec_key_ex c r = POk p pad /\
    kx_session p = h /\ kx_hash_type p = t /\ kx_slot p = slot /\ v_bytes (kx_exchange p) = share /\ used_of (v :: RC_KEY_EXCHANGE :: r) pad = m.
Proof.
  intros Ht Ev Hs Hh Hp Ln Hd Lo m. pose proof (dhe_le _ _ Hd) as L96.
  set (p := mkKeyEx t slot h (if 0x12 <=? v then policy else 0) nonce (v_of 96 share) (v_of 1024 opaque)).
  assert (B96 : (length share <= 96)%nat) by (unfold len in L96; lia). assert (B1024 : (length opaque <= 1024)%nat) by (unfold len in Lo; lia).
  assert (Ok : ok_key_ex c p).
  { split; [exact Ht|]. split; [exact Hs|]. split; [exact Hh|]. split; [cbn [p kx_policy]; destruct (_ <=? _); [exact Hp|reflexivity]|].
    split; [cbn [p kx_policy]; rewrite Ev; intro K; change 0x12 with V12; destruct (N.leb_spec V12 (version_of c)); [lia|reflexivity]|].
    split; [exact Ln|]. split; [split; [apply buf_v_of; exact B96|exact Hd]|apply buf_v_of; exact B1024]. }
  destruct (rt_key_ex c p Ok) as (w & W & _ & D). rewrite xw_key_ex in W by exact Ok. assert (w = wire_key_ex p) as -> by congruence. clear W.
  assert (Em : m = v :: RC_KEY_EXCHANGE :: wire_key_ex p).
  { unfold m, key_exchange_message, wire_key_ex, wire_opaque, p. cbn [kx_hash_type kx_slot kx_session kx_policy kx_random kx_exchange kx_opaque]. change content with v_bytes. rewrite !v_of_bytes by assumption. reflexivity. }
  exists (wire_key_ex p ++ pad), p. rewrite Em. split; [reflexivity|]. split; [apply D|]. split; [reflexivity|]. split; [reflexivity|]. split; [reflexivity|]. split; [apply v_of_bytes; exact B96|]. apply used_split. reflexivity.
Qed.
Lemma patch_two sig hash s h hd t1 t2 w : patch_sig_hmac sig hash s h (hd ++ t1 ++ t2) = Ok w -> len t1 = sig -> len t2 = hash -> w = hd ++ s ++ h /\ len s = sig /\ len h = hash.
Proof.
  intros H L1 L2. unfold patch_sig_hmac in H. rewrite app_assoc in H. rewrite drop_tail in H by exact L2. cbn [obind] in H. rewrite skipn_app, skipn_all, Nat.sub_diag in H. cbn [skipn app] in H.
  destruct (patch_last sig s (hd ++ t1)) as [w1| |] eqn:P1; try discriminate H. cbn [obind] in H. destruct (patch_tail _ _ _ _ _ P1 L1) as [-> K1]. destruct (patch_tail _ _ _ _ _ H L2) as [-> K2]. rewrite <- app_assoc. auto.
Qed.
Lemma kx_response_wire c v hb rsp random share sum op sig hash w sg h w' t pad : hash_size (n_hash (c_nego c)) = Some hash -> asym_size (n_asym (c_nego c)) = Some sig -> in_clear c = false ->
  v < 256 -> hb < 256 -> rsp < 65536 -> length random = 32%nat -> bytes_ok random -> dhe_size (n_dhe (c_nego c)) = Some (len share) -> bytes_ok share ->
  (if c_need_sum c then exists d, sum = v_of 64 d /\ len d = hash /\ bytes_ok d else sum = v_default 64) -> opaque_ok op -> bytes_ok (v_bytes op) -> bytes_ok sg -> bytes_ok h ->
  xwire (enc_message c (key_exchange_rsp_msg v hb rsp 0 random share sum op sig hash)) = Some w -> drop_last (sig + hash) w = Ok t -> patch_sig_hmac sig hash sg h w = Ok w' ->
  exists r p, w' ++ pad = v :: RC_KEY_EXCHANGE_RSP :: r /\ dec_key_ex_rsp c r = POk p pad /\ kr_session p = rsp /\ kr_mut_auth p = 0 /\ v_bytes (kr_exchange p) = share /\ v_bytes (kr_sig p) = sg /\ v_bytes (kr_verify p) = h /\
    used_of (w' ++ pad) pad = w' /\ drop_last (sig + hash) w' = Ok t /\ bytes_ok w' /\ len w' <= 3000.
Proof.
  intros Hs Ha Cl Hv Hb Hr Lr Br Hd Bsh Hsum Hop Bop Bsg Bh W Dl Pl. pose proof (hash_le _ _ Hs) as L64. pose proof (asym_le _ _ Ha) as L512. pose proof (dhe_le _ _ Hd) as L96.
  assert (B96 : (length share <= 96)%nat) by (unfold len in L96; lia).
  set (hd := [v; RC_KEY_EXCHANGE_RSP] ++ [hb; 0] ++ le_bytes 2 rsp ++ [0; 0] ++ random ++ share ++ when (c_need_sum c) (content sum) ++ wire_opaque op).
  assert (Osum : present (c_need_sum c) (digest_ok c sum) (absent 64 sum)).
  { destruct (c_need_sum c); cbn [present]; [|rewrite Hsum; split; reflexivity]. destruct Hsum as (d & -> & Ld & _). split; [apply buf_v_of; unfold len in Ld; lia|]. cbn [v_of v_size]. rewrite Ld. exact Hs. }
  assert (Ew : w = hd ++ fill (N.to_nat sig) 0xbb ++ fill (N.to_nat hash) 0xcc).
  { unfold key_exchange_rsp_msg, enc_message in W. cbn [m_header m_payload] in W. unfold enc_payload in W. rewrite xwire_app in W. change (xwire (enc_header (mkHeader v RC_KEY_EXCHANGE_RSP))) with (Some [v; RC_KEY_EXCHANGE_RSP]) in W.
    unfold enc_key_ex_rsp in W. cbn [kr_heartbeat kr_session kr_mut_auth kr_slot kr_random kr_exchange kr_summary kr_opaque kr_sig kr_verify] in W. change SPDM_MAX_DHE_KEY_SIZE with 96%nat in W.
    assert (X1 : xwire (enc_nonce random) = Some random) by (unfold enc_nonce; apply xwire_arr_cnt).
    assert (X0 : xwire (enc_exchange (v_of 96 share)) = Some share) by (unfold enc_exchange; rewrite xwire_arr_cnt, v_of_share; rewrite firstn_all2 by exact B96; reflexivity).
    assert (X2 : xwire (enc_opt (c_need_sum c) (enc_digest c sum)) = Some (when (c_need_sum c) (content sum))) by (apply xw_opt_digest; exact Osum).
    assert (X3 : xwire (enc_opaque op) = Some (wire_opaque op)) by (apply xw_opaque).
    assert (X5 : xwire (enc_signature c (mkV sig (fill 512 0xbb))) = Some (fill (N.to_nat sig) 0xbb)).
    { unfold enc_signature, c_asym_size. rewrite Ha. cbn [v_size]. rewrite N.eqb_refl. cbn [x_assert app]. rewrite xwire_arr_cnt. unfold v_bytes. cbn [v_size v_data]. f_equal. unfold fill. apply firstn_repeat_le. lia. }
    assert (X4 : xwire (enc_opt (negb (in_clear c)) (enc_digest c (mkV hash (fill 64 0xcc)))) = Some (fill (N.to_nat hash) 0xcc)).
    { rewrite Cl. cbn [negb enc_opt]. unfold enc_digest, c_hash_size. rewrite Hs. cbn [v_size]. rewrite N.eqb_refl. cbn [x_assert app]. rewrite xwire_arr_cnt. unfold v_bytes. cbn [v_size v_data]. f_equal. unfold fill. apply firstn_repeat_le. lia. }
    match type of W with context [xwire ?e] => assert (X : xwire e = Some ([hb] ++ [0] ++ le_bytes 2 rsp ++ [0] ++ [0] ++ random ++ share ++ when (c_need_sum c) (content sum) ++ wire_opaque op ++ fill (N.to_nat sig) 0xbb ++ fill (N.to_nat hash) 0xcc)) end.
    { repeat (apply xw_two; [first [apply xwh8|apply xwh16|exact X1|exact X0|exact X2|exact X3|exact X5]|]). exact X4. }
    rewrite X in W. unfold hd. rewrite <- !app_assoc. symmetry in W. assert (E0 : forall a b : bytes, Some a = Some b -> a = b) by congruence. apply E0 in W. rewrite W. reflexivity. }
  subst w. assert (Lf1 : len (fill (N.to_nat sig) 0xbb) = sig) by (rewrite len_fill; lia). assert (Lf2 : len (fill (N.to_nat hash) 0xcc) = hash) by (rewrite len_fill; lia).
  destruct (patch_two _ _ _ _ _ _ _ _ Pl Lf1 Lf2) as (-> & Lg & Lm). rewrite drop_tail in Dl by (rewrite len_app; lia). assert (t = hd) as -> by congruence. clear Dl Pl W.
  set (p := mkKeyExRsp hb rsp 0 0 random (v_of 96 share) sum op (v_of 512 sg) (v_of 64 h)). assert (Lh : (length h <= 64)%nat) by (unfold len in Lm; lia). assert (Ls : (length sg <= 512)%nat) by (unfold len in Lg; lia).
  assert (Cl' : clear_handshake c = false) by (rewrite <- in_clear_spec; exact Cl).
  assert (O : ok_key_ex_rsp c p).
  { split; [exact Hb|]. split; [exact Hr|]. split; [left; reflexivity|]. split; [reflexivity|]. split; [exact Lr|]. split; [split; [apply buf_v_of; exact B96|exact Hd]|]. split; [exact Osum|]. split; [exact Hop|].
    split; [split; [apply buf_v_of; exact Ls|cbn [p kr_sig v_of v_size]; rewrite Lg; exact Ha]|]. rewrite Cl'. cbn [present]. split; [apply buf_v_of; exact Lh|cbn [p kr_verify v_of v_size]; rewrite Lm; exact Hs]. }
  destruct (rt_key_ex_rsp c p O) as (w0 & W0 & _ & D). rewrite xw_key_ex_rsp in W0 by exact O. assert (w0 = wire_key_ex_rsp c p) as -> by congruence.
  assert (Em : hd ++ sg ++ h = v :: RC_KEY_EXCHANGE_RSP :: wire_key_ex_rsp c p).
  { unfold wire_key_ex_rsp. rewrite Cl'. cbn [negb when]. unfold hd, p. cbn [kr_heartbeat kr_session kr_mut_auth kr_slot kr_random kr_exchange kr_summary kr_opaque kr_sig kr_verify].
    change (content (v_of 64 h)) with (v_bytes (v_of 64 h)). change (content (v_of 512 sg)) with (v_bytes (v_of 512 sg)). change (content (v_of 96 share)) with (v_bytes (v_of 96 share)). rewrite !v_of_bytes by assumption. rewrite <- !app_assoc. reflexivity. }
  exists (wire_key_ex_rsp c p ++ pad), p. rewrite Em. split; [reflexivity|]. split; [apply D|]. split; [reflexivity|]. split; [reflexivity|]. split; [apply v_of_bytes; exact B96|]. split; [apply v_of_bytes; exact Ls|]. split; [apply v_of_bytes; exact Lh|]. split; [apply used_split; reflexivity|].
  rewrite <- Em. split; [apply drop_tail; rewrite len_app; lia|].
  assert (Lo : len (content op) <= 1024) by (destruct Hop as (b & B1 & B2 & B3); unfold content; rewrite B3, <- B1, firstn_app, firstn_all, Nat.sub_diag, firstn_O, app_nil_r; unfold len; lia).
  assert (Bs : bytes_ok (when (c_need_sum c) (content sum)) /\ len (when (c_need_sum c) (content sum)) <= 64).
  { destruct (c_need_sum c); cbn [when]; [|split; [constructor|vm_compute; discriminate]]. destruct Hsum as (d & -> & Ld & Bd). change (content (v_of 64 d)) with (v_bytes (v_of 64 d)). rewrite v_of_bytes by (unfold len in Ld; lia). split; [exact Bd|lia]. }
  assert (forall n v, len (le_bytes n v) = N.of_nat n) as Ll by (intros; unfold len; rewrite le_bytes_length; reflexivity).
  split.
  - rewrite !bytes_ok_app. split; [|split; [exact Bsg|exact Bh]]. unfold hd, wire_opaque. rewrite !bytes_ok_app. split; [repeat constructor; exact Hv|]. split; [repeat constructor; exact Hb|]. split; [apply le_bytes_ok|]. split; [repeat constructor|]. split; [exact Br|]. split; [exact Bsh|]. split; [apply Bs|]. split; [apply le_bytes_ok|exact Bop].
  - rewrite !len_app. unfold hd, wire_opaque. rewrite !len_app. destruct Bs as [_ Bs]. rewrite !Ll. assert (len random = 32) by (unfold len; rewrite Lr; reflexivity). change (len [v; RC_KEY_EXCHANGE_RSP]) with 2. change (len [hb; 0]) with 2. change (len [0; 0]) with 2. lia.
Qed.
