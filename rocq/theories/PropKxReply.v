(** C96: what the responder answers to KEY_EXCHANGE, and the session it opens. *)
From Verif Require Import Bytes BytesFacts Status Codec Parse ParseProofs Algo Monad MsgConn MsgAuth MsgSession MsgOther Message Opaque SpecOpaque OpaqueProofs SpecMsg MsgProofs MsgRound MsgRound2.
From Verif Require Import Transport Crypto KeySchedule Session Signing CertOps ChainVerify Context SessionProofs SignProofs
  RspBase RspConn RspSess RspEncap Responder StRel RspFrame RspCalm RspOpcode RspSend RspPass RspEst RspTable PropPhase ReqBase ReqConn ReqSess SpecReq ReqFrame ReqAnswer SpecSession SpecAuth ReqTrans ReqSplit ReqHist ReqAuth ReqOpen SpecHand ReqHand ReqHand2 ReqHand3 SpecKeys KeyProofs SpecPair RspPair Twin ReqTwin RspTwin WireTwin KxTwin KxWire.
From Verif Require Import SpecResponder PropTable PropDigest SpecShare PropShare.
From Verif Require SpecReply.
From Coq Require Import Lia.
Local Open Scope N_scope.

(** The answer [m] to the KEY_EXCHANGE message [q] (summary type, slot, half session id, DHE share and
    opaque data as given) from the context [x], which becomes [x']. *)
Definition key_exchange_response (E : env) (x x' : ctx) (t slot half : N) (share opaque q m : bytes) : Prop :=
  let hash := n_hash (x_nego x) in
  exists chain chash i fresh key mine final sum rsp chosen th1 sig mac s,
    let body := [ver x; 0x64; cf_heartbeat (x_cfg x); 0] ++ le_bytes 2 rsp ++ [0; 0] ++ fresh ++ mine ++ sum ++ le_bytes 2 (len chosen) ++ chosen in
    m = body ++ sig ++ mac /\
    (* the slot's chain, fresh random bytes and key share, the summary asked for *)
    slot < 8 /\ SpecReply.provisioned x slot chain /\ cr_hash (e_cr E) hash chain = Some chash /\
    cr_random (e_cr E) i 32 = Some fresh /\ length fresh = 32%nat /\
    cr_dhe_public (e_cr E) (n_dhe (x_nego x)) key = Some mine /\ cr_dhe_final (e_cr E) (n_dhe (x_nego x)) key share = Some final /\
    SpecReply.summary_of E x t sum /\ rsp < 65536 /\
    (* signature over A, the chain hash, the request and the response up to it *)
    SpecReply.signs E x SigKeyExchange (x_msg_a x ++ chash ++ q ++ body) sig /\
    cr_hash (e_cr E) hash (x_msg_a x ++ chash ++ q ++ body ++ sig) = Some th1 /\
    (* the session *)
    get_sess (rsp * 65536 + half) x' = Some s /\ s_state s = SHandshaking /\ s_use_psk s = false /\ s_hash s = hash /\ s_aead s = n_aead (x_nego x) /\
    roots (e_cr E) (ver x) hash final (s_hs_root s) (s_master s) /\ handshake_keys (e_cr E) (ver x) s th1 (s_hs s) /\
    cr_hmac (e_cr E) hash (h_rsp_fin (s_hs s)) th1 = Some mac /\
    (* the secured-message version: none, or a common one, which the session records *)
    (chosen = [] \/ exists j, N.of_nat j < offered_count (xc x) opaque /\ offered_count (xc x) opaque <= 2 /\
       In (offered (xc x) opaque j) (cf_secver (x_cfg x)) /\ chosen = selection_bytes (xc x) (offered (xc x) opaque j) /\ s_secver s = offered (xc x) opaque j).

Lemma sign_input_is v op h m : sign_input v op h = Ok m -> m = spec_prefix ++ spec_context op ++ h.
Proof.
  unfold sign_input. destruct (v <? 0x12); [discriminate|]. cbv zeta. destruct (MAX_12SIGN <? _); [discriminate|]. rewrite prefix_spec, sig_context_spec. congruence.
Qed.
Lemma sign_th_is E id s z sg z' th : get_sess id z = Some s -> s_th s = Some th -> sign_th E SigKeyExchange id z = (Ok sg, z') -> exists h, cr_hash (e_cr E) (s_hash s) th = Some h /\
  cr_sign (e_cr E) (n_hash (x_nego z)) (n_asym (x_nego z)) (spec_prefix ++ spec_context SigKeyExchange ++ h) = Some sg.
Proof.
  intros G T H. unfold sign_th in H. bi H. apply (calc_inv _ _ _ _ _ _ G) in P as (-> & t & T1 & Hh). bg H. bi H. apply of_inv in P as [P ->]. apply sign_input_is in P as ->. apply ok_inv in H as [H _].
  assert (t = th) as -> by congruence. eexists. split; [exact Hh|exact H].
Qed.
Lemma rsp_hmac_is E id z s h z' th : get_sess id z = Some s -> s_th s = Some th -> rsp_hmac E id z = (Ok h, z') -> exists d, cr_hash (e_cr E) (s_hash s) th = Some d /\ cr_hmac (e_cr E) (s_hash s) (h_rsp_fin (s_hs s)) d = Some h.
Proof.
  intros G T H. unfold rsp_hmac in H. bi H. apply oror_inv in P. apply (calc_inv _ _ _ _ _ _ G) in P as (-> & t & T1 & Hh). bi H. apply the_inv in P as [G1 ->]. apply abandon_inv in H. apply of_inv in H as [H ->].
  assert (t = th) as -> by congruence. match type of G1 with _ = Some ?q => assert (q = s) as -> by congruence end. unfold hmac_rsp_fin, orc in H. match type of H with context [cr_hmac ?a ?b ?c ?d] => destruct (cr_hmac a b c d) eqn:K; [|discriminate] end. eexists. split; [exact Hh|]. rewrite K. congruence.
Qed.
Lemma kx_finishing_full E id req op sig hash w y w' y' s0 : get_sess id y = Some s0 -> in_clear (xc y) = false ->
  key_exchange_finishing E id req op sig hash w y = (Ok w', y') ->
  exists t sg h d th1 s4 hb, let tr := th_base s0 ++ req ++ t in drop_last (sig + hash) w = Ok t /\
    cr_hash (e_cr E) (s_hash s0) tr = Some d /\ cr_sign (e_cr E) (n_hash (x_nego y)) (n_asym (x_nego y)) (spec_prefix ++ spec_context SigKeyExchange ++ d) = Some sg /\
    cr_hash (e_cr E) (s_hash s0) (tr ++ sg) = Some th1 /\ generate_handshake_secret (e_cr E) (ver y) th1 (k_add ((req ++ t) ++ sg) s0) = (Ok tt, s4) /\
    cr_hmac (e_cr E) (s_hash s4) (h_rsp_fin (s_hs s4)) th1 = Some h /\ patch_sig_hmac sig hash sg h w = Ok w' /\
    get_sess id y' = Some (set_s_state SHandshaking (take_secver op (set_s_heartbeat hb (k_add h s4)))) /\ around y' = around y.
Proof.
  intros G Cl H. unfold key_exchange_finishing in H. bg H. rewrite Cl in H. cbv zeta in H.
  bi H. apply oror_inv in P. destruct (k_step _ _ _ _ _ _ _ G P) as [Z1 G1]. clear P. bi H. apply of_inv in P as [Dl ->]. match type of Dl with _ = Ok ?q => rename q into t end.
  bi H. apply oror_inv in P. destruct (k_step _ _ _ _ _ _ _ G1 P) as [Z2 G2]. clear P. rewrite k_add_add in G2.
  bi H. apply oror_inv in P. destruct (sign_th_state _ _ _ _ _ _ _ G2 P) as [-> _]. destruct (sign_th_is _ _ _ _ _ _ _ G2 eq_refl P) as (d & Hd & Sg). clear P. match type of Sg with _ = Some ?q => rename q into sg end.
  bi H. apply oror_inv in P. destruct (k_step _ _ _ _ _ _ _ G2 P) as [Z3 G3]. clear P. rewrite k_add_add in G3.
  bi H. apply oror_inv in P. apply (calc_inv _ _ _ _ _ _ G3) in P as (-> & tt1 & T & Hv).
  bi H. apply (on_ok _ _ _ _ _ _ G3) in P as (s4 & K4 & Z4). destruct (hs_frame _ _ _ _ _ _ K4) as (I4 & T4 & H4 & _).
  match type of Z4 with _ = mod_sess _ _ ?q => pose proof (put_get id q _ s4 G3 I4) as G4; rewrite <- Z4 in G4 end.
  bi H. bi P. assert (Tk : s_th s4 = Some tt1) by (rewrite T4; exact T). destruct (rsp_hmac_inv _ _ _ _ _ _ G4 P0) as [-> _]. destruct (rsp_hmac_is _ _ _ _ _ _ _ G4 Tk P0) as (d1 & Hd1 & Hm). clear P0. match type of Hm with _ = Some ?q => rename q into h end.
  bi P. apply abandon_inv in P0. destruct (k_step _ _ _ _ _ _ _ G4 P0) as [Z5 G5]. clear P0. apply of_inv in P as [Pl ->].
  bi H. apply (on_ok _ _ _ _ _ _ G5) in P as (s6 & K6 & Z6). unfold smod in K6. match type of K6 with (_, ?a) = _ => assert (S6 : s6 = a) by congruence end. clear K6.
  cbn [swhen] in H. bi H. apply ret_inv in P as [_ ->]. apply ret_inv in H as [Hw ->]. match type of Pl with _ = Ok ?a => assert (a = w') as -> by congruence end.
  exists t, sg, h, d. eexists. exists s4, (cf_heartbeat (x_cfg y)). cbv zeta. split; [exact Dl|]. split; [exact Hd|]. split; [rewrite <- Sg, Z2, Z1; reflexivity|].
  split. { rewrite <- Hv. cbn in T. assert (tt1 = th_base s0 ++ (req ++ t) ++ sg) as -> by congruence. cbn. rewrite <- !app_assoc. reflexivity. }
  split. { match type of K4 with _ = (Ok ?q, _) => destruct q end. exact K4. }
  split. { rewrite <- Hm. f_equal. rewrite H4 in Hd1. cbn in Hd1, Hv. congruence. }
  split; [exact Pl|]. split; [rewrite Z6, <- S6; apply (put_get _ _ _ _ G5); rewrite S6; unfold take_secver; destruct (_ =? 0); reflexivity|]. rewrite Z6, around_put, Z5, around_put, Z4, around_put, Z3, around_put, Z2, around_put, Z1. reflexivity.
Qed.
Lemma write_kx_full E v r p rest y w' y' : tok y -> kx_session p < 65536 -> dec_key_ex (xc y) r = POk p rest -> in_clear (xc y) = false ->
  write_key_exchange E (v :: RC_KEY_EXCHANGE :: r) y = (Ok w', y') ->
  let b := v :: RC_KEY_EXCHANGE :: r in let n := set_n_term_policy (N.land (kx_policy p) 1 =? 1) (x_nego y) in let c := mkCctx n (kind (kx_hash_type p)) (x_need_sig y) in
  exists sum op rsp key share final chash random sig hash w t sg h d th1 s s0 s1 s4 hb, let id := session_id rsp (kx_session p) in let sb := kx_bind (x_msg_a y) chash s1 in let tr := th_base sb ++ used_of b rest ++ t in
    v = ver y /\ rsp < 65536 /\ hash_size (n_hash (x_nego y)) = Some hash /\ asym_size (n_asym (x_nego y)) = Some sig /\ summary_of E y (kx_hash_type p) sum /\
    (length random = 32%nat /\ exists i, cr_random (e_cr E) i 32 = Some random) /\
    cr_dhe_public (e_cr E) (n_dhe (x_nego y)) key = Some share /\ cr_dhe_final (e_cr E) (n_dhe (x_nego y)) key (v_bytes (kx_exchange p)) = Some final /\
    certchain_hash (e_cr E) (n_hash (x_nego y)) false (slot_of (x_my_chain y) (kx_slot p)) = Some chash /\
    rsp_select_version c (cf_secver (x_cfg y)) (kx_opaque p) = Ok op /\
    xwire (enc_message c (key_exchange_rsp_msg v (cf_heartbeat (x_cfg y)) rsp (rsp_mut_auth E) random share sum op sig hash)) = Some w /\
    drop_last (sig + hash) w = Ok t /\ slot_ok y (kx_slot p) = true /\
    core s0 = core (kx_init E (x_nego y) (rsp_mut_auth E) id s) /\ set_dhe_secret (e_cr E) v final s0 = (Ok tt, s1) /\
    cr_hash (e_cr E) (s_hash sb) tr = Some d /\ cr_sign (e_cr E) (n_hash (x_nego y)) (n_asym (x_nego y)) (spec_prefix ++ spec_context SigKeyExchange ++ d) = Some sg /\
    cr_hash (e_cr E) (s_hash sb) (tr ++ sg) = Some th1 /\ generate_handshake_secret (e_cr E) v th1 (k_add ((used_of b rest ++ t) ++ sg) sb) = (Ok tt, s4) /\
    cr_hmac (e_cr E) (s_hash s4) (h_rsp_fin (s_hs s4)) th1 = Some h /\ patch_sig_hmac sig hash sg h w = Ok w' /\
    get_sess id y' = Some (set_s_state SHandshaking (take_secver op (set_s_heartbeat hb (k_add h s4)))) /\ x_nego y' = n.
Proof.
  intros T Hq D Cl H. cbv zeta. unfold write_key_exchange, exchange_start in H. bg H. destruct (negotiated y); [|discriminate]. unfold with_version_r in H. bg H.
  change (read_header (v :: RC_KEY_EXCHANGE :: r)) with (Some (mkHeader v RC_KEY_EXCHANGE, r)) in H. cbv iota in H. cbn [h_version] in H. destruct (N.eqb_spec v (ver y)) as [->|]; [|discriminate]. cbn [negb] in H.
  destruct (0x11 <=? ver y); [|discriminate]. rewrite bind_mod in H. destruct (reset_none RC_KEY_EXCHANGE y) as (A1 & B1 & C1). set (y1 := reset_buffer RC_KEY_EXCHANGE None y) in *. clearbody y1.
  destruct (around_eqs _ _ A1) as (N1 & X1 & V1 & M1 & _).
  unfold sbind at 1 in H. unfold rd in H. rewrite X1, D in H.
  apply sbind_inv in H as (so & ys & P & H). apply summary_inv in P as [-> Sm]. apply sbind_inv in H as (sum & ys & P & H). apply ok_inv in P as [-> ->]. specialize (Sm _ eq_refl).
  rewrite bind_mod in H. rewrite bind_get in H. set (n := set_n_term_policy (N.land (kx_policy p) 1 =? 1) (x_nego y)).
  assert (Nd : x_need_sig y1 = x_need_sig y) by (unfold around in A1; congruence). assert (Cf : x_cfg y1 = x_cfg y) by (unfold around in A1; congruence). assert (Mc : x_my_chain y1 = x_my_chain y) by (unfold around in A1; congruence).
  match type of H with _ ?q = _ => set (y2 := q) in * end.
  assert (N2 : x_nego y2 = n) by (unfold y2, modn; cbn [x_nego set_x_nego set_x_need_sum]; unfold n; rewrite N1; reflexivity).
  assert (X2 : xc y2 = mkCctx n (kind (kx_hash_type p)) (x_need_sig y)) by (unfold xc; rewrite N2; unfold y2, modn; cbn [x_need_sum x_need_sig set_x_nego set_x_need_sum]; rewrite Nd; reflexivity).
  assert (F2 : x_cfg y2 = x_cfg y /\ x_msg_a y2 = x_msg_a y /\ x_my_chain y2 = x_my_chain y /\ x_sess y2 = x_sess y /\ x_last y2 = x_last y /\ ver y2 = ver y).
  { unfold ver. rewrite N2. unfold y2, modn. cbn [x_cfg x_msg_a x_my_chain x_sess x_last set_x_nego set_x_need_sum]. repeat split; congruence. }
  destruct F2 as (F2 & M2 & K2 & S2 & L2 & V2). clearbody y2. rewrite X2, F2 in H.
  apply sbind_inv in H as (op & ys & P & H). apply of_inv in P as [Op ->].
  match type of H with context [if ?b then _ else _] => destruct b eqn:So; [|discriminate] end. rewrite bind_mod, bind_mod in H.
  match type of H with _ ?q = _ => set (y3 := q) in * end. assert (A3 : around y3 = around y2 /\ x_sess y3 = x_sess y2 /\ x_last y3 = x_last y2) by (split; [|split]; reflexivity). destruct A3 as (A3 & S3 & L3). clearbody y3.
  apply sbind_inv in H as (share & ys & P & H). apply unwrap_inv in P as [Dp ->]. apply sbind_inv in H as (final & ys & P & H). apply ok_inv in P as [Df ->].
  apply sbind_inv in H as (rsp & ys & P & H). apply oror_inv in P. apply of_inv in P as [Nh ->]. apply sbind_inv in H as (chash & ys & P & H). apply ok_inv in P as [Ch ->].
  assert (T3 : tok y3) by (apply (tok_same y); [congruence|congruence|exact T]). rewrite <- (next_half_same y2 y3 false S3) in Nh.
  apply sbind_inv in H as (u0 & y4 & P & H). destruct (rsp_open_kx _ _ _ _ _ _ _ _ T3 Nh Hq P) as (s & s0 & s1 & C0 & Dh & G4 & A4 & Hr). clear P.
  apply sbind_inv in H as (ro & y5 & P & H). assert (Cr : forall q, ro = Some q -> length q = 32%nat /\ exists i, cr_random (e_cr E) i 32 = Some q).
  { intros q ->. unfold get_random in P. destruct (cr_random _ _ _) as [w0|] eqn:Cr; [|discriminate P]. destruct (Nat.eqb_spec (length w0) 32); [|discriminate P]. assert (w0 = q) as -> by congruence. split; [assumption|eauto]. }
  destruct (random_frame _ _ _ _ _ P) as (A5 & S5 & _). clear P. apply sbind_inv in H as (random & ys & P & H). apply ok_inv in P as [Ro ->]. specialize (Cr _ Ro).
  apply sbind_inv in H as (sig & ys & P & H). apply unwrap_inv in P as [Hs ->]. apply sbind_inv in H as (hash & ys & P & H0). apply unwrap_inv in P as [Hh ->].
  assert (A52 : around y5 = around y2) by congruence. destruct (around_eqs _ _ A52) as (N5 & X5 & V5 & M5 & _). destruct (around_eqs _ _ A3) as (N3 & X3 & V3 & M3 & _). rewrite N2 in *.
  unfold encode_r in H0. unfold sbind at 1 in H0. unfold wenc in H0. rewrite X5, X2 in H0. rewrite V2 in H0.
  match type of H0 with context [emit (enc_message ?c ?m) []] => destruct (emit (enc_message c m) []) as [[[|] w]|] eqn:Em; try discriminate H0 end. cbn [fst snd] in H0.
  apply emit_true in Em as (w0 & Ew & ->). cbn [app] in H0.
  assert (G5 : get_sess (session_id rsp (kx_session p)) y5 = Some (kx_bind (x_msg_a y3) chash s1)) by (unfold get_sess in *; rewrite S5; exact G4).
  assert (Cl5 : in_clear (xc y5) = false) by (rewrite X5, X2; exact Cl).
  destruct (kx_finishing_full _ _ _ _ _ _ _ _ _ _ _ G5 Cl5 H0) as (t & sg & h & d & th1 & s4 & hb & Dl & Hd & Sg & Ht & Gh & Hm & Pl & G6 & A6). destruct (around_eqs _ _ A6) as (N6 & _ & _ & M6 & _).
  assert (Vz : ver y3 = ver y) by congruence. assert (V5' : ver y5 = ver y) by congruence. assert (Mz : x_msg_a y3 = x_msg_a y) by congruence. assert (Nz : x_nego y3 = n) by congruence. rewrite N5 in Sg. rewrite V5' in Gh. rewrite Vz in Dh. rewrite Mz in *. rewrite Nz in C0.
  assert (Sy : slot_ok y (kx_slot p) = true) by (unfold slot_ok, slot_of in So |- *; rewrite K2 in So; exact So).
  exists sum, op, rsp, (x_rng y2), share, final, chash, random, sig, hash, w0, t, sg, h, d, th1, s. exists s0, s1, s4, hb.
  split; [reflexivity|]. split; [exact Hr|]. split; [exact Hh|]. split; [exact Hs|].
  split. { unfold summary_of, kind. unfold ver in *. rewrite N1 in Sm. exact Sm. }
  split; [exact Cr|]. split; [exact Dp|]. split; [exact Df|]. split; [rewrite K2 in Ch; exact Ch|]. split; [exact Op|]. split; [exact Ew|]. split; [exact Dl|].
  split; [exact Sy|]. split; [exact C0|]. split; [exact Dh|]. split; [exact Hd|]. split; [exact Sg|]. split; [exact Ht|]. split; [exact Gh|]. split; [exact Hm|]. split; [exact Pl|]. split; [exact G6|congruence].
Qed.
Lemma kx_request_read_all c v t slot h policy nonce share opaque pad : summary_type_ok c t -> v = version_of c -> slot < 256 -> h < 65536 -> policy < 256 -> length nonce = 32%nat -> dhe_size (n_dhe (c_nego c)) = Some (len share) -> len opaque <= 1024 ->
  let m := key_exchange_message v t slot h policy nonce share opaque in
  exists r p, m ++ pad = v :: RC_KEY_EXCHANGE :: r /\ dec_key_ex c r = POk p pad /\
    kx_session p = h /\ kx_hash_type p = t /\ kx_slot p = slot /\ v_bytes (kx_exchange p) = share /\ v_bytes (kx_opaque p) = opaque /\ used_of (v :: RC_KEY_EXCHANGE :: r) pad = m.
Proof.
  intros Ht Ev Hs Hh Hp Ln Hd Lo m. pose proof (dhe_le _ _ Hd) as L96.
  set (p := mkKeyEx t slot h (if 0x12 <=? v then policy else 0) nonce (v_of 96 share) (v_of 1024 opaque)).
  assert (B96 : (length share <= 96)%nat) by (unfold len in L96; lia). assert (B1024 : (length opaque <= 1024)%nat) by (unfold len in Lo; lia).
  assert (Ok : ok_key_ex c p).
  { split; [exact Ht|]. split; [exact Hs|]. split; [exact Hh|]. split; [cbn [p kx_policy]; destruct (_ <=? _); [exact Hp|reflexivity]|].
    split; [cbn [p kx_policy]; rewrite Ev; intro K; change 0x12 with V12; destruct (N.leb_spec V12 (version_of c)); [lia|reflexivity]|].
    split; [exact Ln|]. split; [split; [apply buf_v_of; exact B96|exact Hd]|apply buf_v_of; exact B1024]. }
  destruct (rt_key_ex c p Ok) as (w & W & _ & D). rewrite xw_key_ex in W by exact Ok. assert (w = wire_key_ex p) as -> by congruence. clear W.
  assert (Em : m = v :: RC_KEY_EXCHANGE :: wire_key_ex p).
  { unfold m, key_exchange_message, wire_key_ex, wire_opaque, p. cbn [kx_hash_type kx_slot kx_session kx_policy kx_random kx_exchange kx_opaque]. change content with v_bytes. rewrite !v_of_bytes by assumption. reflexivity. }
  exists (wire_key_ex p ++ pad), p. rewrite Em. split; [reflexivity|]. split; [apply D|]. split; [reflexivity|]. split; [reflexivity|]. split; [reflexivity|]. split; [apply v_of_bytes; exact B96|]. split; [apply v_of_bytes; exact B1024|]. apply used_split. reflexivity.
Qed.
Lemma kx_response_bytes c v hb rsp random share sum op sig hash w sg h w' t : hash_size (n_hash (c_nego c)) = Some hash -> asym_size (n_asym (c_nego c)) = Some sig -> in_clear c = false ->
  dhe_size (n_dhe (c_nego c)) = Some (len share) -> 
  (if c_need_sum c then exists d, sum = v_of 64 d /\ len d = hash else sum = v_default 64) -> 
  xwire (enc_message c (key_exchange_rsp_msg v hb rsp 0 random share sum op sig hash)) = Some w -> drop_last (sig + hash) w = Ok t -> patch_sig_hmac sig hash sg h w = Ok w' ->
  w' = ([v; RC_KEY_EXCHANGE_RSP] ++ [hb; 0] ++ le_bytes 2 rsp ++ [0; 0] ++ random ++ share ++ when (c_need_sum c) (content sum) ++ wire_opaque op) ++ sg ++ h /\
  t = [v; RC_KEY_EXCHANGE_RSP] ++ [hb; 0] ++ le_bytes 2 rsp ++ [0; 0] ++ random ++ share ++ when (c_need_sum c) (content sum) ++ wire_opaque op.
Proof.
  intros Hs Ha Cl Hd Hsum W Dl Pl. pose proof (hash_le _ _ Hs) as L64. pose proof (asym_le _ _ Ha) as L512. pose proof (dhe_le _ _ Hd) as L96.
  assert (B96 : (length share <= 96)%nat) by (unfold len in L96; lia).
  set (hd := [v; RC_KEY_EXCHANGE_RSP] ++ [hb; 0] ++ le_bytes 2 rsp ++ [0; 0] ++ random ++ share ++ when (c_need_sum c) (content sum) ++ wire_opaque op).
  assert (Osum : present (c_need_sum c) (digest_ok c sum) (absent 64 sum)).
  { destruct (c_need_sum c); cbn [present]; [|rewrite Hsum; split; reflexivity]. destruct Hsum as (d & -> & Ld). split; [apply buf_v_of; unfold len in Ld; lia|]. cbn [v_of v_size]. rewrite Ld. exact Hs. }
  assert (Ew : w = hd ++ fill (N.to_nat sig) 0xbb ++ fill (N.to_nat hash) 0xcc).
  { unfold key_exchange_rsp_msg, enc_message in W. cbn [m_header m_payload] in W. unfold enc_payload in W. rewrite xwire_app in W. change (xwire (enc_header (mkHeader v RC_KEY_EXCHANGE_RSP))) with (Some [v; RC_KEY_EXCHANGE_RSP]) in W.
    unfold enc_key_ex_rsp in W. cbn [kr_heartbeat kr_session kr_mut_auth kr_slot kr_random kr_exchange kr_summary kr_opaque kr_sig kr_verify] in W. change SPDM_MAX_DHE_KEY_SIZE with 96%nat in W.
    assert (X1 : xwire (enc_nonce random) = Some random) by (unfold enc_nonce; apply xwire_arr_cnt).
    assert (X0 : xwire (enc_exchange (v_of 96 share)) = Some share) by (unfold enc_exchange; rewrite xwire_arr_cnt, v_of_share; rewrite firstn_all2 by exact B96; reflexivity).
    assert (X2 : xwire (enc_opt (c_need_sum c) (enc_digest c sum)) = Some (when (c_need_sum c) (content sum))) by (apply xw_opt_digest; exact Osum).
    assert (X3 : xwire (enc_opaque op) = Some (wire_opaque op)) by (apply xw_opaque).
    assert (X5 : xwire (enc_signature c (mkV sig (fill 512 0xbb))) = Some (fill (N.to_nat sig) 0xbb)).
    { unfold enc_signature, c_asym_size. rewrite Ha. cbn [v_size]. rewrite N.eqb_refl. cbn [x_assert app]. rewrite xwire_arr_cnt. unfold v_bytes. cbn [v_size v_data]. f_equal. unfold fill. apply firstn_repeat_le. lia. }
    assert (X4 : xwire (enc_opt (negb (in_clear c)) (enc_digest c (mkV hash (fill 64 0xcc)))) = Some (fill (N.to_nat hash) 0xcc)).
    { rewrite Cl. cbn [negb enc_opt]. unfold enc_digest, c_hash_size. rewrite Hs. cbn [v_size]. rewrite N.eqb_refl. cbn [x_assert app]. rewrite xwire_arr_cnt. unfold v_bytes. cbn [v_size v_data]. f_equal. unfold fill. apply firstn_repeat_le. lia. }
    match type of W with context [xwire ?e] => assert (X : xwire e = Some ([hb] ++ [0] ++ le_bytes 2 rsp ++ [0] ++ [0] ++ random ++ share ++ when (c_need_sum c) (content sum) ++ wire_opaque op ++ fill (N.to_nat sig) 0xbb ++ fill (N.to_nat hash) 0xcc)) end.
    { repeat (apply xw_two; [first [apply xwh8|apply xwh16|exact X1|exact X0|exact X2|exact X3|exact X5]|]). exact X4. }
    rewrite X in W. unfold hd. rewrite <- !app_assoc. symmetry in W. assert (E0 : forall a b : bytes, Some a = Some b -> a = b) by congruence. apply E0 in W. rewrite W. reflexivity. }
  subst w. assert (Lf1 : len (fill (N.to_nat sig) 0xbb) = sig) by (rewrite len_fill; lia). assert (Lf2 : len (fill (N.to_nat hash) 0xcc) = hash) by (rewrite len_fill; lia).
  destruct (patch_two _ _ _ _ _ _ _ _ Pl Lf1 Lf2) as (-> & Lg & Lm). rewrite drop_tail in Dl by (rewrite len_app; lia). split; [reflexivity|congruence].
Qed.

(** the same, as the specification reads *)
Lemma kx_secver_of op b v : opaque_ok op -> v_bytes op = b ++ [v] -> nth (N.to_nat (v_size op) - 1) (v_data op) 0 = v /\ v_size op =? 0 = false /\ len (v_bytes op) = v_size op.
Proof.
  intros (d & L & M & D) Hb. assert (Hd : v_bytes op = d). { unfold v_bytes. rewrite D, <- L. rewrite firstn_app, firstn_all, Nat.sub_diag. cbn [firstn]. apply app_nil_r. }
  rewrite Hd in *. subst d. rewrite app_length in L. cbn [length] in L. rewrite D. rewrite <- L. split; [|split; [apply N.eqb_neq; lia|unfold len; rewrite app_length; cbn [length]; lia]].
  rewrite app_nth1 by (rewrite app_length; cbn [length]; lia). rewrite app_nth2 by lia. replace (length b + 1 - 1 - length b)%nat with 0%nat by lia. reflexivity.
Qed.
Lemma opaque_len op : opaque_ok op -> len (v_bytes op) = v_size op.
Proof. intros (d & L & M & D). unfold v_bytes. rewrite D, <- L. rewrite firstn_app, firstn_all, Nat.sub_diag. cbn [firstn]. rewrite app_nil_r. unfold len. lia. Qed.
Lemma slot_provisioned x k : slot_ok x k = true -> exists chain, k < 8 /\ SpecReply.provisioned x k chain /\ slot_of (x_my_chain x) k = Some chain.
Proof.
  unfold slot_ok. intro H. apply Bool.andb_true_iff in H as [L H]. destruct (slot_of (x_my_chain x) k) as [c|] eqn:S; [|discriminate]. exists c. split; [apply N.ltb_lt; exact L|]. split; [|reflexivity].
  unfold SpecReply.provisioned. unfold slot_of in S. revert S. generalize (N.to_nat k). generalize (x_my_chain x). intro l. induction l as [|a l IH]; intros [|n] S; cbn in S |- *; try discriminate; [congruence|exact (IH n S)].
Qed.
Definition same_sess (x x' : ctx) : Prop := x_sess x' = x_sess x.
Lemma same_sess_pre : preorder same_sess.
Proof. split; unfold same_sess; congruence. Qed.
Lemma send_keeps_sess E w o : nth_error w 1 = Some o -> o = 0x64 \/ o = 0x66 -> rel same_sess (send_message E w).
Proof.
  intros Hw Ho. apply rel_send_message; [exact same_sess_pre| |].
  - intros E0 b x r x' H. unfold io_send in H. destruct (e_send E0 (x_io x) b); match type of H with (_, ?y) = _ => assert (x' = y) as -> by congruence end; reflexivity.
  - intros op Hop. unfold opcode in Hop. assert (op = o) as -> by congruence.
    intros x r x' H. assert (x' = x) as -> by (destruct Ho as [-> | ->]; unfold after_send, sret in H; cbn in H; congruence). reflexivity.
Qed.

(** the session of the answer *)
Lemma kx_opened E v n id s s0 s1 s4 a chash final tr m h th1 op hb : core s0 = core (kx_init E n 0 id s) -> set_dhe_secret (e_cr E) v final s0 = (Ok tt, s1) ->
  generate_handshake_secret (e_cr E) v th1 (k_add m (kx_bind a chash s1)) = (Ok tt, s4) -> tr = m ->
  let z := set_s_state SHandshaking (take_secver op (set_s_heartbeat hb (k_add h s4))) in
  th_base (kx_bind a chash s1) = a ++ chash /\ s_hash (kx_bind a chash s1) = n_hash n /\ s_hs s4 = s_hs z /\ s_hash s4 = n_hash n /\
  s_state z = SHandshaking /\ s_use_psk z = false /\ s_hash z = n_hash n /\ s_aead z = n_aead n /\ roots (e_cr E) v (n_hash n) final (s_hs_root z) (s_master z) /\ handshake_keys (e_cr E) v z th1 (s_hs z).
Proof.
  intros C D G _ z. apply dhe_ok in D as (R & S1). apply handshake_ok in G as (K & S4 & _).
  assert (F : s_hash s0 = n_hash n /\ s_aead s0 = n_aead n /\ s_use_psk s0 = false /\ s_th s0 = None).
  { split; [exact (f_equal s_hash C)|]. split; [exact (f_equal s_aead C)|]. split; [exact (f_equal s_use_psk C)|exact (f_equal s_th C)]. }
  destruct F as (F1 & F2 & F3 & F4).
  assert (H1 : s_hash s1 = n_hash n /\ s_aead s1 = n_aead n /\ s_use_psk s1 = false /\ s_th s1 = None) by (rewrite S1; repeat split; assumption). destruct H1 as (G1 & G2 & G3 & G4).
  assert (B : th_base (kx_bind a chash s1) = a ++ chash) by (unfold th_base, kx_bind; cbn; rewrite G4; reflexivity).
  assert (Z : s_hs z = s_hs s4 /\ s_hash z = s_hash s4 /\ s_aead z = s_aead s4 /\ s_use_psk z = s_use_psk s4 /\ s_hs_root z = s_hs_root s4 /\ s_master z = s_master s4 /\ s_psk_hint z = s_psk_hint s4).
  { unfold z, take_secver. destruct (_ =? 0); repeat split. }
  destruct Z as (Z1 & Z2 & Z3 & Z4 & Z5 & Z6 & Z7). assert (Y : s_hash s4 = n_hash n /\ s_aead s4 = n_aead n /\ s_use_psk s4 = false /\ s_hs_root s4 = s_hs_root s1 /\ s_master s4 = s_master s1).
  { rewrite S4. cbn. auto. } destruct Y as (Y1 & Y2 & Y3 & Y4 & Y5).
  split; [exact B|]. split; [exact G1|]. split; [congruence|]. split; [exact Y1|]. split; [reflexivity|]. split; [congruence|]. split; [congruence|]. split; [congruence|].
  split. { rewrite Z5, Z6, Y4, Y5, <- F1. exact R. }
  set (sb := k_add m (kx_bind a chash s1)) in *. clearbody sb z. rewrite Z1.
  assert (X : s_use_psk s4 = s_use_psk sb /\ s_hs_root s4 = s_hs_root sb /\ s_hash s4 = s_hash sb /\ s_aead s4 = s_aead sb /\ s_psk_hint s4 = s_psk_hint sb).
  { assert (forall k, s_use_psk (set_s_hs k sb) = s_use_psk sb /\ s_hs_root (set_s_hs k sb) = s_hs_root sb /\ s_hash (set_s_hs k sb) = s_hash sb /\ s_aead (set_s_hs k sb) = s_aead sb /\ s_psk_hint (set_s_hs k sb) = s_psk_hint sb) by (intro; repeat split).
    rewrite S4. auto. }
  destruct X as (X1 & X2 & X3 & X4 & X5). unfold handshake_keys, from_secret in K |- *. rewrite Z4, Z5, Z2, Z3, Z7, X1, X2, X3, X4, X5. exact K.
Qed.

From Verif Require Import PropReset.
Theorem C96_key_exchange_answer : forall E cfg chain_data my_chain root x f r x' t slot half policy nonce share opaque pad,
  let q := key_exchange_message (ver x) t slot half policy nonce share opaque in
  digest_sizes (e_cr E) -> delivers_bytes E -> length my_chain = 8%nat ->
  served E (process_message E) (ctx_new cfg chain_data my_chain root) x ->
  shares_ok (e_cr E) -> SpecReply.summaries_sized (e_cr E) -> e_mut_auth E = false -> clear_handshake (xc x) = false ->
  Forall (fun v => v < 256) (cf_secver (x_cfg x)) ->
  summary_type_ok (xc x) t -> slot < 256 -> half < 65536 -> policy < 256 -> length nonce = 32%nat ->
  dhe_size (n_dhe (x_nego x)) = Some (len share) -> len opaque <= 1024 -> bytes_ok opaque ->
  plain_message E f = Some (q ++ pad) -> process_frame E f x = (r, x') ->
  one_reply E x x' (fun m => SpecReply.is_error x m \/ key_exchange_response E x x' t slot half share opaque q m).
Proof.
  intros E cfg cd mc root x f r x' t slot half policy nonce share opaque pad q HL HD Hm Sv Sh Ss Mua Cl Fv Ht Hs Hh Hp Ln Hd Lo Bo Pf H.
  destruct (served_ok _ _ _ _ _ _ HL HD Hm Sv) as [_ T]. change (in_clear (xc x) = false) in Cl.
  destruct (kx_request_read_all (xc x) (ver x) t slot half policy nonce share opaque pad Ht eq_refl Hs Hh Hp Ln Hd Lo) as (rr & p & Eb & D & Ph & Pt & Psl & Pe & Po & Us).
  fold q in Eb, Us. rewrite (frame_plain E f _ x Pf) in H. apply is_ok_inv in H as [r0 H]. rewrite Eb in H.
  unfold dispatch_message in H. change (read_header (ver x :: RC_KEY_EXCHANGE :: rr)) with (Some (mkHeader (ver x) RC_KEY_EXCHANGE, rr)) in H.
  change (handle_key_exchange E (ver x :: RC_KEY_EXCHANGE :: rr) x = (r0, x')) in H.
  unfold handle_key_exchange in H. unfold sbind at 1 in H. destruct (write_key_exchange E (ver x :: RC_KEY_EXCHANGE :: rr) x) as [o y] eqn:W.
  pose proof (quiet_key_exchange _ _ _ _ _ W) as [S1 _]. destruct o as [w'|e|]; [|left; congruence|left; congruence].
  assert (Hk : kx_session p < 65536) by (rewrite Ph; exact Hh).
  destruct (write_kx_full E (ver x) rr p pad x w' y T Hk D Cl W) as (sum & op & rsp & key & mine & final & chash & random & sig & hash & w & u & sg & h & d & th1 & s & s0 & s1 & s4 & hb & W').
  cbv zeta in W'. rewrite Ph, Pt, Psl, Pe, Us in W'.
  destruct W' as (_ & Hr & Hh1 & Ha1 & Sm & (Lr & i & Cr) & Dp & Df & Ch & Op & Ew & Dl & So & C0 & Dh & Hdd & Sg & Hth & Gh & Hmac & Pl & G & Ny).
  set (n := set_n_term_policy _ (x_nego x)) in *. assert (Rm : rsp_mut_auth E = 0) by (unfold rsp_mut_auth; rewrite Mua; reflexivity). rewrite Rm in *.
  destruct (kx_opened E _ n _ s s0 s1 s4 _ _ _ _ _ h th1 op hb C0 Dh Gh eq_refl) as (B1 & B2 & Z1 & Y1 & Q1 & Q2 & Q3 & Q4 & Q5 & Q6). clear C0 Dh Gh.
  set (z := set_s_state SHandshaking _) in *.
  destruct (select_ok _ _ _ _ Fv Op) as (Oop & _). pose proof (opaque_len op Oop) as Lop.
  assert (Sel := select_sound' _ _ _ _ ltac:(rewrite Po; exact Bo) Op). rewrite Po in Sel.
  destruct (slot_provisioned x slot So) as (chain & Ls & Pv & Sc). rewrite Sc in Ch. change (cr_hash (e_cr E) (n_hash (x_nego x)) chain = Some chash) in Ch.
  destruct (Sh _ _ _ Dp) as (Ld & _).
  match type of Ew with xwire (enc_message ?c0 _) = _ => set (c := c0) in * end.
  (* the summary *)
  assert (Sum : exists sb, SpecReply.summary_of E x t sb /\ (if c_need_sum c then exists dd, sum = v_of 64 dd /\ len dd = hash else sum = v_default 64) /\ when (c_need_sum c) (content sum) = sb).
  { unfold summary_of in Sm. unfold SpecReply.summary_of. change (c_need_sum c) with (kind t). assert (K : kind t = (t =? 1) || (t =? 255)) by reflexivity.
    rewrite <- K. destruct (kind t); [|exists []; split; [reflexivity|split; [exact Sm|reflexivity]]]. destruct Sm as (hh & M & ->). pose proof (Ss _ _ _ _ _ _ M) as Lh. exists hh. split; [exact M|].
    assert (len hh = hash) by congruence. split; [exists hh; split; [reflexivity|assumption]|]. cbn [when]. change content with v_bytes. apply v_of_bytes. pose proof (hash_le _ _ Hh1) as L64. unfold len in *. lia. }
  destruct Sum as (sb & Sm1 & Sm2 & Sm3).
  destruct (kx_response_bytes c (ver x) (cf_heartbeat (x_cfg x)) rsp random mine sum op sig hash w sg h w' u Hh1 Ha1 Cl Ld Sm2 Ew Dl Pl) as (Ew' & Eu). rewrite Sm3 in *.
  assert (Eo : wire_opaque op = le_bytes 2 (len (v_bytes op)) ++ v_bytes op) by (unfold wire_opaque; rewrite Lop; reflexivity). rewrite Eo in *.
  set (body := [ver x; 0x64; cf_heartbeat (x_cfg x); 0] ++ le_bytes 2 rsp ++ [0; 0] ++ random ++ mine ++ sb ++ le_bytes 2 (len (v_bytes op)) ++ v_bytes op).
  change (u = body) in Eu. change (w' = body ++ sg ++ h) in Ew'. subst u.
  assert (Vy : ver y = ver x) by (unfold ver; rewrite Ny; reflexivity).
  assert (Op1 : nth_error w' 1 = Some 0x64) by (rewrite Ew'; reflexivity).
  pose proof (send_keeps_sess E w' 0x64 Op1 ltac:(left; reflexivity) _ _ _ H) as Sx. unfold same_sess in Sx.
  unfold one_reply. rewrite <- S1. refine (send_message_one E w' y r0 x' _ _ _ H); [|left; rewrite Vy; exists 0xD, 0; reflexivity].
  right. unfold key_exchange_response. exists chain, chash, i, random, key, mine, final, sb, rsp, (v_bytes op), th1, sg, h, z. fold body.
  assert (Gx : get_sess (rsp * 65536 + half) x' = Some z) by (unfold get_sess in G |- *; rewrite Sx; exact G).
  rewrite B1, B2 in *. rewrite Z1, Y1 in Hmac.
  split; [exact Ew'|]. split; [exact Ls|]. split; [exact Pv|]. split; [exact Ch|]. split; [exact Cr|]. split; [exact Lr|]. split; [exact Dp|]. split; [exact Df|]. split; [exact Sm1|]. split; [exact Hr|].
  split. { exists d. split; [|exact Sg]. rewrite <- app_assoc in Hdd. exact Hdd. }
  split. { rewrite <- !app_assoc in Hth. exact Hth. }
  split; [exact Gx|]. split; [exact Q1|]. split; [exact Q2|]. split; [exact Q3|]. split; [exact Q4|]. split; [exact Q5|]. split; [exact Q6|]. split; [exact Hmac|].
  destruct Sel as [Sel|(j & A1 & A2 & A3 & A4)]; [left; exact Sel|right; exists j]. split; [exact A1|]. split; [exact A2|]. split; [exact A3|]. split; [exact A4|].
  assert (Es : exists b, v_bytes op = b ++ [offered c opaque j]).
  { rewrite A4. unfold selection_bytes. destruct (_ <? _); cbn [app]; eexists; (match goal with |- ?a = _ ++ [?v] => instantiate (1 := removelast a) end); reflexivity. }
  destruct Es as (b & Es). destruct (kx_secver_of op b _ Oop Es) as (N1 & N2 & _). unfold z, take_secver. rewrite N2, N1. reflexivity.
Qed.
Print Assumptions C96_key_exchange_answer.

(** a case: after the connection, a KEY_EXCHANGE for slot 0, summary of everything, versions 1.0 and 1.1
    offered; it is answered by a response that selects 1.1, which the session records *)
From Verif Require Import ToyCrypto ExRun.
Definition kr_share : bytes := fill 64 6.
Definition kr_q : bytes := key_exchange_message 0x12 255 0 0xBBAA 0 (fill 32 9) kr_share REQ_BLOB_FMT1.
Definition kr_frames : list bytes := [[5; 0x10; 0x84; 0; 0]; f2; f3].
Definition kr_x : ctx := Eval vm_compute in ex_after kr_frames 3.
Definition kr_y : ctx := Eval vm_compute in snd (process_frame (ex_replay kr_frames) (5 :: kr_q ++ [1; 2]) kr_x).
Lemma toy_summaries : SpecReply.summaries_sized toy.
Proof. intros v alg sp mh t h H. cbn [cr_summary toy] in H. destruct (hash_size alg) as [n|] eqn:D; [|discriminate]. assert (h = fill (N.to_nat n) 3) as -> by congruence. unfold len, fill. rewrite repeat_length, N2Nat.id. reflexivity. Qed.
Example C96_case : let E := ex_replay kr_frames in
  SpecReply.summaries_sized (e_cr E) /\ delivers_bytes E /\ served E (process_message E) ex_ctx2 kr_x /\ ver kr_x = 0x12 /\ e_mut_auth E = false /\ clear_handshake (xc kr_x) = false /\ summary_type_ok (xc kr_x) 255 /\
  dhe_size (n_dhe (x_nego kr_x)) = Some (len kr_share) /\ plain_message E (5 :: kr_q ++ [1; 2]) = Some (kr_q ++ [1; 2]) /\
  exists s, get_sess 0xFFFDBBAA kr_y = Some s /\ s_secver s = 0x11 /\ s_state s = SHandshaking /\ nth_error (hd [] (x_sent kr_y)) 2 = Some 0x64.
Proof.
  cbv zeta. split; [exact toy_summaries|]. split; [apply replay_delivers; vm_compute; reflexivity|]. split; [apply (replay_rounds kr_frames 3); vm_compute; reflexivity|].
  split; [reflexivity|]. split; [reflexivity|]. split; [vm_compute; reflexivity|]. split; [right; split; [right; reflexivity|left; vm_compute; reflexivity]|].
  split; [vm_compute; reflexivity|]. split; [vm_compute; reflexivity|]. eexists. split; [vm_compute; reflexivity|]. split; [reflexivity|]. split; reflexivity.
Qed.
