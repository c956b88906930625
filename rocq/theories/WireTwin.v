(** What one end of a handshake sends is what the other end reads. *)
From Verif Require Import Bytes BytesFacts Status Codec Parse ParseProofs Algo Monad MsgConn MsgAuth MsgSession MsgOther Message Opaque SpecMsg MsgProofs MsgRound MsgRound2.
From Verif Require Import Transport Crypto KeySchedule Session Signing CertOps ChainVerify Context SessionProofs
  RspBase RspConn RspSess StRel RspFrame RspCalm RspOpcode RspPass RspEst RspTable ReqBase ReqConn ReqSess SpecReq ReqFrame ReqAnswer SpecSession SpecAuth ReqTrans ReqSplit ReqHist ReqAuth ReqOpen SpecHand ReqHand ReqHand2 ReqHand3 SpecKeys KeyProofs SpecPair RspPair Twin ReqTwin RspTwin.
From Verif Require Import SpecShare.
From Coq Require Import Lia.
Local Open Scope N_scope.

Lemma buf_v_of m b : (length b <= m)%nat -> buf_ok m (v_of m b).
Proof. intro L. exists b. unfold v_of, len. cbn [v_size v_data]. rewrite Nat2N.id. split; [reflexivity|]. split; [exact L|]. unfold pad_to. rewrite firstn_all2 by (rewrite ?app_length; lia). reflexivity. Qed.
Lemma v_of_bytes m b : (length b <= m)%nat -> v_bytes (v_of m b) = b.
Proof. intro L. unfold v_bytes, v_of, len. cbn [v_size v_data]. rewrite Nat2N.id. apply pad_to_firstn. exact L. Qed.
Lemma select_ok c locals o op : Forall (fun v => v < 256) locals -> rsp_select_version c locals o = Ok op -> opaque_ok op /\ bytes_ok (v_bytes op).
Proof.
  intros F H. unfold rsp_select_version in H.
  assert (D : opaque_ok (v_default MAX_OPAQUE_SIZE) /\ bytes_ok (v_bytes (v_default MAX_OPAQUE_SIZE))).
  { split; [exists []; split; [reflexivity|]; split; [apply Nat.le_0_l|reflexivity]|constructor]. }
  destruct (rsp_get_list c o) as [l|]; [|congruence]. destruct (_ <? _); [discriminate|].
  assert (An : forall v a, v < 256 -> rsp_answer c v = Ok a -> opaque_ok a /\ bytes_ok (v_bytes a)).
  { intros v a Hv K. assert (B : forall t, bytes_ok t -> (length t <= 1024)%nat -> (1 <= length t)%nat -> opaque_ok (sel_blob t v) /\ bytes_ok (v_bytes (sel_blob t v))).
    { intros t Bt Lt L1. assert (Ln : (length (firstn (length t - 1) t ++ [v]) <= 1024)%nat) by (rewrite app_length, firstn_length; cbn [length]; lia).
      split; [apply buf_v_of; exact Ln|]. unfold sel_blob. rewrite v_of_bytes by exact Ln. apply bytes_ok_app. split; [apply bytes_ok_firstn; exact Bt|repeat constructor; exact Hv]. }
    unfold rsp_answer in K. destruct (_ <? _); [|destruct (_ =? _); [|discriminate]]; assert (E0 : forall x y : vbuf, Ok x = Ok y -> x = y) by congruence; apply E0 in K; rewrite <- K; apply B;
      try (vm_compute; lia); repeat constructor. }
  revert H. generalize (v_default MAX_OPAQUE_SIZE) D. clear D. generalize (firstn (N.to_nat (sl_count l)) (sl_list l)). intro off. induction off as [|a off IH]; intros acc D H; cbn [sel_outer] in H; [congruence|].
  destruct (smv_u8 a) as [b|]; [|discriminate]. destruct (sel_inner c b locals acc) as [acc'| |] eqn:S; cbn [obind] in H; try discriminate. apply (IH acc'); [|exact H]. clear H.
  clear IH. revert acc D S. induction F as [|v ls Hv F IHF]; intros acc D S; cbn [sel_inner] in S; [congruence|]. destruct (b =? v); [|exact (IHF _ D S)].
  destruct (rsp_answer c v) as [q| |] eqn:A; cbn [obind] in S; try discriminate. exact (IHF _ (An _ _ Hv A) S).
Qed.
Lemma firstn_repeat_le {A} (a : A) : forall n m, (n <= m)%nat -> firstn n (repeat a m) = repeat a n.
Proof. induction n; intros [|m] H; cbn; try reflexivity; try lia. f_equal. apply IHn. lia. Qed.
(** ** PSK_EXCHANGE *)
Lemma psk_request_wire E h t hint x s y : draws_bytes (e_cr E) -> ver x < 256 -> t < 256 -> h < 65536 -> v_size hint = len (v_bytes hint) -> bytes_ok (v_bytes hint) ->
  encode_psk_exchange E h t hint x = (Ok s, y) ->
  exists context opaque n, hash_size (n_hash (x_nego x)) = Some n /\ len context = n /\ len opaque <= 1024 /\ s = psk_exchange_message (ver x) t h hint context opaque /\ bytes_ok s /\
    (around y = around x /\ x_sess y = x_sess x).
Proof.
  intros Dr Hv Ht Hh Sh Bh H. unfold encode_psk_exchange in H. apply sbind_inv in H as (ro & y0 & P & H). destruct (random_frame _ _ _ _ _ P) as (A0 & S0 & _).
  assert (X3 : forall w, ro = Some w -> length w = 64%nat /\ bytes_ok w).
  { unfold get_random in P. intros w ->. destruct (cr_random _ _ _) as [w'|] eqn:Cr; [|discriminate P]. destruct (Nat.eqb_spec (length w') 64); [|discriminate P]. assert (w' = w) as -> by congruence. split; [congruence|exact (Dr _ _ _ Cr)]. }
  apply sbind_inv in H as (rnd & y1 & P1 & H). apply ok_inv in P1 as [Nn ->]. bg H. apply sbind_inv in H as (op & y1 & P1 & H). apply of_inv in P1 as [Op ->]. apply sbind_inv in H as (n & y1 & P1 & H). apply unwrap_inv in P1 as [Hs ->].
  pose proof (q_enc _ _ _ _ H) as ->. destruct (around_eqs _ _ A0) as (N0 & C0 & V0 & _). destruct (X3 _ Nn) as [Lr Br]. rewrite N0 in Hs. rewrite V0 in H.
  assert (Vo : v_size op = len (v_bytes op) /\ len (v_bytes op) <= 1024 /\ bytes_ok (v_bytes op)).
  { unfold req_opaque in Op. destruct (_ <? _); [|destruct (_ =? _); [|discriminate Op]]; assert (E0 : forall x y : vbuf, Ok x = Ok y -> x = y) by congruence; apply E0 in Op; rewrite <- Op; (split; [reflexivity|split; [vm_compute; discriminate|vm_compute; repeat constructor]]). }
  destruct Vo as (Vo & Lo & Bo). assert (L64 : n <= 64) by (exact (hash_le _ _ Hs)).
  assert (Lh : len (v_bytes (mkV n rnd)) = n). { unfold v_bytes. cbn [v_size v_data]. unfold len. rewrite firstn_length, Lr. lia. }
  assert (Es : s = psk_exchange_message (ver x) t h hint (v_bytes (mkV n rnd)) (v_bytes op)).
  { clear - H Lh Vo C0. refine (req_enc_exact _ _ _ _ _ _ _ H); rewrite C0; unfold enc_message; cbn [m_header m_payload]; unfold enc_header, enc_payload, enc_psk_ex;
    cbn [h_version h_code px_hash_type px_session px_hint px_context px_opaque v_size]; unfold x_arr; unfold psk_exchange_message; rewrite Lh.
    - rewrite !xwire_app, !xwh8, !xwh16, !xwire_of, !CodecProofs.wire_arr, Vo. reflexivity.
    - rewrite !xcount_app, !xch8, !xch16, !xcount_of, !CodecProofs.wire_arr. rewrite !len_app. unfold len. rewrite !le_bytes_length. cbn [length]. lia. }
  exists (v_bytes (mkV n rnd)), (v_bytes op), n. split; [exact Hs|]. split; [exact Lh|]. split; [exact Lo|]. split; [exact Es|]. split; [|split; [exact A0|exact S0]].
  rewrite Es. unfold psk_exchange_message. rewrite !bytes_ok_app. split; [repeat constructor; assumption|]. repeat (split; [apply le_bytes_ok|]). split; [exact Bh|]. split; [apply bytes_ok_firstn; exact Br|exact Bo].
Qed.
Lemma psk_request_read c v t h hint context opaque pad : summary_type_ok c t -> h < 65536 -> v_size hint = len (v_bytes hint) -> len (v_bytes hint) <= 32 -> len context <= 64 -> len opaque <= 1024 ->
  exists r p, psk_exchange_message v t h hint context opaque ++ pad = v :: RC_PSK_EXCHANGE :: r /\ dec_psk_ex c r = POk p pad /\
    px_session p = h /\ px_hash_type p = t /\ v_bytes (px_hint p) = v_bytes hint /\ used_of (v :: RC_PSK_EXCHANGE :: r) pad = psk_exchange_message v t h hint context opaque.
Proof.
  intros Ht Hh Sh Lh Lc Lo. set (p := mkPskEx t h (v_of 32 (v_bytes hint)) (v_of 64 context) (v_of 1024 opaque)).
  assert (B32 : (length (v_bytes hint) <= 32)%nat) by (unfold len in Lh; lia). assert (B64 : (length context <= 64)%nat) by (unfold len in Lc; lia).
  assert (B1024 : (length opaque <= 1024)%nat) by (unfold len in Lo; lia).
  assert (Ok : ok_psk_ex c p) by (split; [exact Ht|]; split; [exact Hh|]; split; [apply buf_v_of; exact B32|]; split; [apply buf_v_of; exact B64|apply buf_v_of; exact B1024]).
  destruct (rt_psk_ex c p Ok) as (w & W & _ & D). rewrite xw_psk_ex in W. assert (w = wire_psk_ex p) as -> by congruence. clear W.
  assert (Em : psk_exchange_message v t h hint context opaque = v :: RC_PSK_EXCHANGE :: wire_psk_ex p).
  { unfold psk_exchange_message, wire_psk_ex, p. cbn [px_hash_type px_session px_hint px_context px_opaque v_of v_size]. change content with v_bytes. rewrite Sh.
    change (mkV (len (v_bytes hint)) (pad_to 32 (v_bytes hint))) with (v_of 32 (v_bytes hint)). change (mkV (len context) (pad_to 64 context)) with (v_of 64 context). change (mkV (len opaque) (pad_to 1024 opaque)) with (v_of 1024 opaque).
    rewrite !v_of_bytes by assumption. reflexivity. }
  exists (wire_psk_ex p ++ pad), p. rewrite Em. split; [reflexivity|]. split; [apply D|]. split; [reflexivity|]. split; [reflexivity|]. split; [apply v_of_bytes; exact B32|]. apply used_split. reflexivity.
Qed.
Lemma xw_two a b x y : xwire a = Some x -> xwire b = Some y -> xwire (a ++ b) = Some (x ++ y).
Proof. intros A B. rewrite xwire_app, A, B. reflexivity. Qed.
Lemma xw_arr b : xwire (x_arr b) = Some b. Proof. unfold x_arr. rewrite xwire_of, CodecProofs.wire_arr. reflexivity. Qed.
Lemma fold_v_of m b : mkV (len b) (pad_to m b) = v_of m b. Proof. reflexivity. Qed.
Lemma drop_tail n hd tl : len tl = n -> drop_last n (hd ++ tl) = Ok hd.
Proof.
  intro L. unfold drop_last. rewrite len_app, L. rewrite (proj2 (N.leb_le _ _)) by lia. replace (len hd + n - n) with (len hd) by lia. unfold len. rewrite Nat2N.id.
  rewrite firstn_app, firstn_all, Nat.sub_diag, firstn_O, app_nil_r. reflexivity.
Qed.
Lemma len_fill n v : len (fill n v) = N.of_nat n. Proof. unfold len, fill. rewrite repeat_length. reflexivity. Qed.
Lemma psk_no_ctx_spec c : psk_no_ctx c = true <-> peer_has c RSP_PSK_WITHOUT_CTX.
Proof. unfold psk_no_ctx, rsp_has, peer_has. apply contains_has. Qed.
Lemma psk_response_wire c v hb rsp sum cx op hash w h w' t pad : hash_size (n_hash (c_nego c)) = Some hash -> v < 256 -> hb < 256 -> rsp < 65536 ->
  (if c_need_sum c then exists d, sum = v_of 64 d /\ len d = hash /\ bytes_ok d else sum = v_default 64) ->
  (if psk_no_ctx c then exists d, cx = mkV 0 d /\ length d = 64%nat else cx = mkV 64 (fill 64 0)) -> opaque_ok op -> bytes_ok (v_bytes op) -> bytes_ok h ->
  xwire (enc_message c (psk_exchange_rsp_msg v hb rsp sum cx op hash)) = Some w -> drop_last hash w = Ok t -> patch_last hash h w = Ok w' ->
  exists r p, w' ++ pad = v :: RC_PSK_EXCHANGE_RSP :: r /\ dec_psk_ex_rsp c r = POk p pad /\ pr_session p = rsp /\ v_bytes (pr_verify p) = h /\ used_of (w' ++ pad) pad = w' /\ drop_last hash w' = Ok t /\
    bytes_ok w' /\ len w' <= 2000.
Proof.
  intros Hs Hv Hb Hr Hsum Hcx Hop Bop Bh W Dl Pl. pose proof (hash_le _ _ Hs) as L64.
  set (hd := [v; RC_PSK_EXCHANGE_RSP] ++ [hb; 0] ++ le_bytes 2 rsp ++ [0; 0] ++ le_bytes 2 (v_size cx) ++ le_bytes 2 (v_size op) ++ when (c_need_sum c) (content sum) ++ content cx ++ content op).
  assert (Scx : if psk_no_ctx c then v_size cx = 0 else v_size cx = 64) by (destruct (psk_no_ctx c); [destruct Hcx as (d & -> & _)|rewrite Hcx]; reflexivity).
  assert (Ccx : content cx = if psk_no_ctx c then [] else fill 64 0) by (destruct (psk_no_ctx c); [destruct Hcx as (d & -> & _)|rewrite Hcx]; reflexivity).
  assert (Osum : present (c_need_sum c) (digest_ok c sum) (absent 64 sum)).
  { destruct (c_need_sum c); cbn [present]; [|rewrite Hsum; split; reflexivity]. destruct Hsum as (d & -> & Ld & _). split; [apply buf_v_of; unfold len in Ld; lia|]. cbn [v_of v_size]. rewrite Ld. exact Hs. }
  assert (Ew : w = hd ++ fill (N.to_nat hash) 0xcc).
  { unfold psk_exchange_rsp_msg, enc_message in W. cbn [m_header m_payload] in W. unfold enc_payload in W. rewrite xwire_app in W. change (xwire (enc_header (mkHeader v RC_PSK_EXCHANGE_RSP))) with (Some [v; RC_PSK_EXCHANGE_RSP]) in W.
    unfold enc_psk_ex_rsp in W. cbn [pr_heartbeat pr_session pr_summary pr_context pr_opaque pr_verify] in W.
    assert (X1 : xwire (if psk_no_ctx c then x_u16 0 else x_u16 (v_size cx)) = Some (le_bytes 2 (v_size cx))) by (destruct (psk_no_ctx c); rewrite Scx; apply xwh16).
    assert (X2 : xwire (enc_opt (c_need_sum c) (enc_digest c sum)) = Some (when (c_need_sum c) (content sum))) by (apply xw_opt_digest; exact Osum).
    assert (X3 : xwire (enc_opt (negb (psk_no_ctx c)) (x_arr (v_bytes cx))) = Some (content cx)).
    { change (v_bytes cx) with (content cx). rewrite Ccx. destruct (psk_no_ctx c); cbn [negb enc_opt]; [reflexivity|]. unfold x_arr. rewrite xwire_of, CodecProofs.wire_arr. reflexivity. }
    assert (X4 : xwire (enc_digest c (mkV hash (fill 64 0xcc))) = Some (fill (N.to_nat hash) 0xcc)).
    { unfold enc_digest, c_hash_size. rewrite Hs. cbn [v_size]. rewrite N.eqb_refl. cbn [x_assert app]. rewrite xwire_arr_cnt. unfold v_bytes. cbn [v_size v_data]. f_equal. unfold fill. apply firstn_repeat_le. lia. }
    match type of W with context [xwire ?e] => assert (X : xwire e = Some ([hb] ++ [0] ++ le_bytes 2 rsp ++ le_bytes 2 0 ++ le_bytes 2 (v_size cx) ++ le_bytes 2 (v_size op) ++ when (c_need_sum c) (content sum) ++ content cx ++ content op ++ fill (N.to_nat hash) 0xcc)) end.
    { repeat (apply xw_two; [first [apply xwh8|apply xwh16|exact X1|exact X2|exact X3|apply xw_arr]|]). exact X4. }
    rewrite X in W. unfold hd. rewrite <- !app_assoc. symmetry in W. assert (E0 : forall a b : bytes, Some a = Some b -> a = b) by congruence. apply E0 in W. rewrite W. reflexivity. }
  subst w. destruct (patch_tail _ _ _ _ _ Pl) as [-> Lm]; [rewrite len_fill; lia|]. rewrite drop_tail in Dl by (rewrite len_fill; lia). assert (t = hd) as -> by congruence. clear Dl Pl W.
  set (p := mkPskExRsp hb rsp sum (if psk_no_ctx c then v_default 64 else cx) op (v_of 64 h)). assert (Lh : (length h <= 64)%nat) by (unfold len in Lm; lia).
  assert (Sp : v_size (pr_context p) = v_size cx /\ content (pr_context p) = content cx). { unfold p. cbn [pr_context]. rewrite Ccx. destruct (psk_no_ctx c); [rewrite Scx|rewrite Hcx]; split; reflexivity. }
  assert (O : ok_psk_ex_rsp c p).
  { split; [exact Hb|]. split; [exact Hr|]. split; [exact Osum|]. split.
    { unfold p. cbn [pr_context]. destruct (psk_no_ctx c); [exists []; split; [reflexivity|]; split; [apply Nat.le_0_l|reflexivity]|rewrite Hcx; exists (fill 64 0); split; [reflexivity|]; split; [apply Nat.le_refl|reflexivity]]. }
    split. { rewrite (proj1 Sp), <- psk_no_ctx_spec. destruct (psk_no_ctx c); rewrite Scx; split; intro; [reflexivity|reflexivity|discriminate|discriminate]. }
    split; [exact Hop|]. split; [apply buf_v_of; exact Lh|]. cbn [pr_verify p v_of v_size]. rewrite Lm. exact Hs. }
  destruct (rt_psk_ex_rsp c p O) as (w0 & W0 & _ & D). rewrite xw_psk_ex_rsp in W0 by exact O. assert (w0 = wire_psk_ex_rsp c p) as -> by congruence.
  assert (Em : hd ++ h = v :: RC_PSK_EXCHANGE_RSP :: wire_psk_ex_rsp c p).
  { unfold wire_psk_ex_rsp. rewrite (proj1 Sp), (proj2 Sp). unfold hd, p. cbn [pr_heartbeat pr_session pr_summary pr_opaque pr_verify]. change (content (v_of 64 h)) with (v_bytes (v_of 64 h)). rewrite v_of_bytes by exact Lh. rewrite <- !app_assoc. reflexivity. }
  exists (wire_psk_ex_rsp c p ++ pad), p. rewrite Em. split; [reflexivity|]. split; [apply D|]. split; [reflexivity|]. split; [apply v_of_bytes; exact Lh|]. split; [apply used_split; reflexivity|].
  rewrite <- Em. split; [apply drop_tail; exact Lm|].
  assert (Lo : len (content op) <= 1024) by (destruct Hop as (b & B1 & B2 & B3); unfold content; rewrite B3, <- B1, firstn_app, firstn_all, Nat.sub_diag, firstn_O, app_nil_r; unfold len; lia).
  assert (Bs : bytes_ok (when (c_need_sum c) (content sum)) /\ len (when (c_need_sum c) (content sum)) <= 64).
  { destruct (c_need_sum c); cbn [when]; [|split; [constructor|vm_compute; discriminate]]. destruct Hsum as (d & -> & Ld & Bd). change (content (v_of 64 d)) with (v_bytes (v_of 64 d)). rewrite v_of_bytes by (unfold len in Ld; lia). split; [exact Bd|lia]. }
  assert (Bc : bytes_ok (content cx) /\ len (content cx) <= 64). { rewrite Ccx. destruct (psk_no_ctx c); split; try (vm_compute; discriminate); repeat constructor. }
  split.
  - apply bytes_ok_app. split; [|exact Bh]. unfold hd. rewrite !bytes_ok_app. split; [repeat constructor; exact Hv|]. split; [repeat constructor; exact Hb|]. split; [apply le_bytes_ok|]. split; [repeat constructor|]. split; [apply le_bytes_ok|]. split; [apply le_bytes_ok|]. split; [apply Bs|]. split; [apply Bc|exact Bop].
  - rewrite len_app. unfold hd. rewrite !len_app. destruct Bs as [_ Bs], Bc as [_ Bc]. assert (forall n v, len (le_bytes n v) = N.of_nat n) as Ll by (intros; unfold len; rewrite le_bytes_length; reflexivity). rewrite !Ll. change (len [v; RC_PSK_EXCHANGE_RSP]) with 2. change (len [hb; 0]) with 2. change (len [0; 0]) with 2. lia.
Qed.
