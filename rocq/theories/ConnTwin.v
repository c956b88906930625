(** The two ends of connection setup, exchange by exchange. *)
From Verif Require Import Bytes BytesFacts Status Codec CodecProofs Parse ParseProofs Algo Monad MsgConn MsgAuth MsgSession MsgOther Message Opaque SpecMsg MsgProofs MsgRound MsgRound2 MsgCaps.
From Verif Require Import Transport Crypto KeySchedule Session Signing CertOps ChainVerify Context
  RspBase RspConn RspSess RspEncap Responder StRel RspFrame RspCalm RspOpcode RspPass RspEst RspDeliver SpecResponder ReqBase ReqConn ReqSess SpecReq ReqFrame ReqAnswer ReqTrans SpecAuth ReqSplit ReqHist ReqAuth SpecRetr Pair ReqTwin RspTwin PairTwin PropReset PropAlgs PropOffer PropTake SpecShare.
From Coq Require Import Lia.
Local Open Scope N_scope.

Lemma rest_reset_buffer c x : rest_of (reset_buffer c None x) = rest_of x /\ x_sent (reset_buffer c None x) = x_sent x.
Proof. unfold reset_buffer, reset_m, reset_c, reset_b. repeat (match goal with |- context [if ?b then _ else _] => destruct b end); split; reflexivity. Qed.
(** a plain request and the answer the requester accepts *)
Lemma conn_exchange E Er xr s code (wr : bytes -> st ctx bytes) x u x1 b x2 : e_tr E = e_tr Er -> SpecRetr.carries (e_tr Er) -> bytes_ok s -> len s <= 4000 ->
  let y := peer_after Er xr (rev (x_sent x)) in
  (forall pad, dispatch_message Er (s ++ pad) = sbind (wr (s ++ pad)) (send_message Er)) -> (forall b, rel quiet (wr b)) ->
  (forall pad w y1, wr (s ++ pad) y = (Ok w, y1) -> opcode w <> None /\ ver y1 < 256 /\ bytes_ok w /\ len w <= 4000) ->
  code <> 0x7F -> opcode b = Some code ->
  req_send (facing E Er xr) s x = (Ok u, x1) -> req_recv (facing E Er xr) false x1 = (Ok b, x2) ->
  exists pad pad' w y1 y2 r', wr (s ++ pad) y = (Ok w, y1) /\ opcode w = Some code /\ b = w ++ pad' /\ rest_of y2 = rest_of y1 /\ after_send code y2 = (r', peer_after Er xr (rev (x_sent x2))) /\ rest_of x2 = rest_of x.
Proof.
  intros Tr Ca Bs Ls y Dm Qw Ow Nc Ob S R. destruct (plain_exchange E Er xr s x u x1 b x2 Tr Ca Bs Ls S R) as (t & pad & r & z & f & P). cbv zeta in P.
  destruct P as (_ & P2 & P3 & P4 & P5 & P6 & P7). rewrite Dm in P3. fold y in P3, P4. exists pad.
  destruct (sent_reply Er (wr (s ++ pad)) y r z f Ca (Qw _) (fun w y1 H => let K := Ow pad w y1 H in conj (proj1 K) (proj1 (proj2 K))) P3 P4 P5) as [(pd & v & D)|(w & y1 & op & y2 & r' & W & O & T & Re & A)].
  - exfalso. assert (b = error_bytes v ERR_RESPONSE_TOO_LARGE ++ pd) as -> by congruence. cbn [opcode error_bytes app nth_error] in Ob. congruence.
  - destruct (Ow pad w y1 W) as (_ & _ & Bw & Lw). destruct (Ca w Bw Lw) as (t' & pd & _ & T1 & _ & _ & T2 & _). assert (t' = f) as -> by congruence.
    assert (b = w ++ pd) as -> by congruence.
    assert (op = code) as -> by (unfold opcode in *; rewrite nth_error_app1 in Ob; [congruence|apply nth_error_Some; congruence]).
    exists pd, w, y1, y2, r'. rewrite P2. auto 10.
Qed.
Lemma append_a_inv m x u x' : append_a m x = (Ok u, x') -> x' = set_x_msg_a (x_msg_a x ++ m) x /\ len (x_msg_a x) + len m <= MAX_A.
Proof. unfold append_a. destruct (N.ltb_spec MAX_A (len (x_msg_a x) + len m)) as [L|L]; intro H; [discriminate|]. split; [congruence|exact L]. Qed.
Lemma used_app w pad : used_of (w ++ pad) pad = w.
Proof. unfold used_of. rewrite app_length, Nat.add_sub, firstn_app, Nat.sub_diag, firstn_all. cbn [firstn]. apply app_nil_r. Qed.
Lemma quiet_construct cr : rel quiet (construct_my_cert_chain cr).
Proof. intros x r x' H. unfold construct_my_cert_chain in H. destruct (construct_slots _ _ _ _) as [r1 l] eqn:K. replace x' with (set_x_my_chain l x) by congruence. split; reflexivity. Qed.
Ltac qw := rl quiet_pre; try apply quiet_append_a; try apply quiet_construct; try (apply rel_mod; intro; first [apply quiet_reset_buffer|split; reflexivity]).
Lemma quiet_wversion b : rel quiet (write_version b).
Proof. unfold write_version, encode_or_err, then_append. qw. Qed.
Lemma quiet_wcapability b : rel quiet (write_capability b).
Proof. unfold write_capability, encode_or_err, then_append. qw. Qed.
Lemma quiet_walgorithm E b : rel quiet (write_algorithm E b).
Proof. unfold write_algorithm, with_version, encode_or_err, then_append. qw. Qed.
(** *** GET_VERSION *)
Lemma get_version_twins E Er xr x u x1 : e_tr E = e_tr Er -> SpecRetr.carries (e_tr Er) ->
  let y := peer_after Er xr (rev (x_sent x)) in length (cf_versions (x_cfg y)) = 3%nat -> Forall (fun v => v < 256) (cf_versions (x_cfg y)) ->
  get_version (facing E Er xr) x = (Ok u, x1) ->
  let y1 := peer_after Er xr (rev (x_sent x1)) in
  known_version (ver x1) = true /\ x_msg_a x1 = x_msg_a y1 /\ x_nego y1 = nego_default /\ x_cfg x1 = x_cfg x /\ x_cfg y1 = x_cfg y.
Proof.
  intros Tr Ca y Lv Fv H. unfold get_version in H. bi H. apply mod_inv in P. bi H. pose proof (q_enc _ _ _ _ P0) as Qy. subst y1.
  destruct (rest_reset_buffer RC_GET_VERSION x) as [Rr Rs]. rewrite <- P in Rr, Rs.
  assert (v0 = [0x10; 0x84; 0; 0]) as ->. { refine (req_enc_exact _ _ _ _ _ _ _ P0); reflexivity. }
  bi H. bi H. pose proof (quiet_handle_version _ _ _ _ _ H) as [Qs _]. rename v1 into b.
  unfold handle_version_rsp in H. apply on_response_any_ok in H as (hv & r & Eb & H). apply reading_ok in H as (p & rest & D & H).
  destruct (cf_versions (x_cfg y)) as [|a1 [|a2 [|a3 [|]]]] eqn:Cv; try discriminate Lv. clear Lv.
  assert (Wr : forall pad, write_version ([0x10; 0x84; 0; 0] ++ pad) y = (Ok (PropReset.version_response [a1; a2; a3]), set_x_msg_a ([0x10; 0x84; 0; 0] ++ PropReset.version_response [a1; a2; a3]) (reset_context (reset_buffer RC_GET_VERSION None y)))).
  { intro pad. exact (write_version_ok 0 0 pad y a1 a2 a3 Cv). }
  inversion Fv as [|? ? B1 Fv1]. inversion Fv1 as [|? ? B2 Fv2]. inversion Fv2 as [|? ? B3 _]. subst.
  destruct (conn_exchange E Er xr [0x10; 0x84; 0; 0] 4 write_version (reset_buffer RC_GET_VERSION None x) v0 y1 (hv :: RC_VERSION :: r) y2) as (pad & pad' & w & z1 & z2 & r' & W & O & B & R2 & A & R3); auto.
  - repeat constructor.
  - vm_compute. discriminate.
  - intro b. apply quiet_wversion.
  - rewrite Rs. fold y. intros pad w y1' K. rewrite Wr in K. assert (w = PropReset.version_response [a1; a2; a3]) as -> by congruence. assert (y1' = set_x_msg_a ([0x10; 0x84; 0; 0] ++ PropReset.version_response [a1; a2; a3]) (reset_context (reset_buffer RC_GET_VERSION None y))) as -> by congruence.
    split; [discriminate|]. split; [reflexivity|]. split; [repeat constructor; assumption|vm_compute; discriminate].
  - discriminate.
  - rewrite Rs in W. fold y in W. rewrite Wr in W. assert (w = PropReset.version_response [a1; a2; a3]) as -> by congruence.
    assert (Z1 : z1 = set_x_msg_a ([0x10; 0x84; 0; 0] ++ PropReset.version_response [a1; a2; a3]) (reset_context (reset_buffer RC_GET_VERSION None y))) by congruence. clear W.
    rewrite after_version in A. rewrite Qs.
    assert (Pe : peer_after Er xr (rev (x_sent y2)) = set_x_conn 1 z2) by congruence. cbv zeta. rewrite Pe. cbn [x_msg_a x_nego x_cfg set_x_conn].
    assert (Z2 : x_nego z2 = x_nego z1 /\ x_msg_a z2 = x_msg_a z1 /\ x_cfg z2 = x_cfg z1) by (unfold rest_of in R2; repeat split; congruence). destruct Z2 as (Zn & Zm & Zc). rewrite Zn, Zm, Zc, Z1.
    assert (rest = pad') as ->.
    { assert (r = [0; 0; 0; 3; 0; a1; 0; a2; 0; a3] ++ pad') as -> by exact (f_equal (skipn 2) B).
      change (dec_version_rsp ([0; 0; 0; 3; 0; a1; 0; a2; 0; a3] ++ pad')) with (POk (mkVersionRsp 3 [mkVer 0 a1; mkVer 0 a2; mkVer 0 a3]) pad') in D. congruence. }
    rewrite B, used_app in H. apply sbind_inv in H as (q1 & t1 & K1 & H). apply mod_inv in K1. bg H. apply sbind_inv in H as (q2 & t2 & K2 & H). apply fail_inv in K2 as [Kn ->]. apply Bool.negb_false_iff in Kn.
    apply sbind_inv in H as (q3 & t3 & K3 & H). apply mod_inv in K3. apply sbind_inv in H as (q4 & t4 & K4 & H). apply append_a_inv in K4 as [-> _]. apply append_a_inv in H as [-> _]. subst t3. subst t1.
    split; [exact Kn|]. split; [reflexivity|]. split; [reflexivity|].
    assert (C2 : x_cfg y2 = x_cfg x) by (unfold rest_of in R3, Rr; congruence). split; [exact C2|].
    destruct (rest_reset_buffer RC_GET_VERSION y) as [K _]. change (x_cfg (reset_buffer RC_GET_VERSION None y) = x_cfg y). unfold rest_of in K. congruence.
Qed.
(** *** decoding what the library wrote *)
Lemma st_u8 {A} (k : N -> dec A) a l : dbind d_u8 k (a :: l) = k a l. Proof. reflexivity. Qed.
Lemma st_u16 {A} (k : N -> dec A) v l : dbind d_u16 k (le_bytes 2 v ++ l) = k (le_val (le_bytes 2 v)) l. Proof. reflexivity. Qed.
Lemma st_u32 {A} (k : N -> dec A) v l : dbind d_u32 k (le_bytes 4 v ++ l) = k (le_val (le_bytes 4 v)) l. Proof. reflexivity. Qed.
Lemma st_f32 {A} m (k : N -> dec A) v l : dbind (d_flags32 m) k (le_bytes 4 v ++ l) = k (N.land (le_val (le_bytes 4 v)) m) l. Proof. reflexivity. Qed.
Lemma st_f8 {A} m (k : N -> dec A) v l : dbind (d_flags8 m) k (v :: l) = k (N.land v m) l. Proof. reflexivity. Qed.
Lemma u32_val v : v < 2 ^ 32 -> le_val (le_bytes 4 v) = v. Proof. exact (le_val_bytes 4 v). Qed.
Lemma u16_val v : v < 2 ^ 16 -> le_val (le_bytes 2 v) = v. Proof. exact (le_val_bytes 2 v). Qed.
Lemma dbind_assoc {A B C} (d : dec A) (f : A -> dec B) (g : B -> dec C) l : dbind (dbind d f) g l = dbind d (fun a => dbind (f a) g) l.
Proof. unfold dbind. destruct (d l); reflexivity. Qed.
Lemma dguard_bind {A B} c (k : dec A) (g : A -> dec B) l : dbind (dguard c k) g l = dguard c (dbind k g) l.
Proof. destruct c; reflexivity. Qed.
Lemma dbind_ret {A B} (a : A) (g : A -> dec B) l : dbind (dret a) g l = g a l. Proof. reflexivity. Qed.
(** *** GET_CAPABILITIES *)
Lemma dec_announcement c v cfg pad p rest : n_version (c_nego c) = v ->
  dec_get_capabilities c (skipn 2 (announcement v cfg) ++ pad) = POk p rest ->
  rest = pad /\ (0x11 <= v -> cp_flags p = N.land (le_val (le_bytes 4 (cf_req_cap cfg))) REQ_CAP_MASK).
Proof.
  intros Hv H. unfold announcement in H. cbn [skipn app] in H. unfold dec_get_capabilities in H. rewrite !st_u8 in H. unfold ver_ge, V11, V12 in H. rewrite Hv in H. rewrite <- !app_assoc in H.
  destruct (17 <=? v) eqn:E1.
  - cbn [app] in H. rewrite <- ?app_assoc in H. rewrite !dbind_assoc, st_u8, dbind_assoc, st_u8, dbind_assoc in H.
    change (0 :: 0 :: le_bytes 4 (cf_req_cap cfg) ++ (if 18 <=? v then le_bytes 4 (cf_dts cfg) ++ le_bytes 4 (cf_max cfg) else []) ++ pad) with (le_bytes 2 0 ++ le_bytes 4 (cf_req_cap cfg) ++ (if 18 <=? v then le_bytes 4 (cf_dts cfg) ++ le_bytes 4 (cf_max cfg) else []) ++ pad) in H.
    rewrite st_u16, dbind_assoc, st_f32, dguard_bind in H. apply dguard_ok in H as [_ H]. rewrite dbind_ret in H.
    destruct (18 <=? v).
    + rewrite <- app_assoc in H. rewrite dbind_assoc, st_u32, dbind_assoc, st_u32, dguard_bind in H. apply dguard_ok in H as [_ H]. rewrite dbind_ret in H. apply dret_ok in H as [-> ->]. split; [reflexivity|]. intros _. reflexivity.
    + cbn [app] in H. rewrite dbind_ret in H. apply dret_ok in H as [-> ->]. split; [reflexivity|]. intros _. reflexivity.
  - apply N.leb_gt in E1. destruct (N.leb_spec 18 v) as [L|_]; [lia|]. cbn [app] in H. rewrite !dbind_ret in H. apply dret_ok in H as [-> ->]. split; [reflexivity|]. lia.
Qed.
(** CAPABILITIES of a responder configured with [cfg] *)
Definition capabilities_reply (v : N) (cfg : config) : bytes :=
  [v; 0x61; 0; 0; 0; cf_rsp_ct cfg; 0; 0] ++ le_bytes 4 (cf_rsp_cap cfg) ++ (if 0x12 <=? v then le_bytes 4 (cf_dts cfg) ++ le_bytes 4 (cf_max cfg) else []).
Lemma dec_capabilities_reply c v cfg pad p rest : n_version (c_nego c) = v ->
  dec_capabilities c (skipn 2 (capabilities_reply v cfg) ++ pad) = POk p rest ->
  rest = pad /\ cp_flags p = N.land (le_val (le_bytes 4 (cf_rsp_cap cfg))) RSP_CAP_MASK.
Proof.
  intros Hv H. unfold capabilities_reply in H. cbn [skipn app] in H. unfold dec_capabilities in H. rewrite !st_u8 in H. unfold ver_ge, V12 in H. rewrite Hv in H. rewrite <- !app_assoc in H.
  change (0 :: 0 :: le_bytes 4 (cf_rsp_cap cfg) ++ (if 18 <=? v then le_bytes 4 (cf_dts cfg) ++ le_bytes 4 (cf_max cfg) else []) ++ pad) with (le_bytes 2 0 ++ le_bytes 4 (cf_rsp_cap cfg) ++ (if 18 <=? v then le_bytes 4 (cf_dts cfg) ++ le_bytes 4 (cf_max cfg) else []) ++ pad) in H.
  rewrite st_u16, st_f32 in H. apply dguard_ok in H as [_ H]. destruct (18 <=? v).
  - rewrite <- app_assoc in H. rewrite dbind_assoc, st_u32, dbind_assoc, st_u32, dguard_bind in H. apply dguard_ok in H as [_ H]. rewrite dbind_ret in H. apply dret_ok in H as [-> ->]. split; reflexivity.
  - cbn [app] in H. rewrite dbind_ret in H. apply dret_ok in H as [-> ->]. split; reflexivity.
Qed.
Lemma emit_capabilities c v cfg : n_version (c_nego c) = v -> emit (enc_message c (capabilities_msg v cfg)) [] = Some (true, capabilities_reply v cfg).
Proof.
  intro Hc. apply (emit_fits _ []).
  - unfold enc_message, capabilities_msg. cbn [m_header m_payload]. unfold enc_payload, enc_capabilities, enc_header. cbn [h_version h_code cp_ct cp_flags cp_dts cp_max].
    unfold ver_ge. rewrite Hc. unfold capabilities_reply, V12. destruct (18 <=? v); rewrite ?xwire_app, ?xw8, ?xw16, ?xw32; cbn [xwire]; rewrite ?app_nil_r; reflexivity.
  - unfold capabilities_reply. destruct (18 <=? v); vm_compute; discriminate.
Qed.
Lemma take_caps_version cfg p n : n_version (RspConn.take_capabilities cfg p n) = n_version n.
Proof. unfold RspConn.take_capabilities. cbv zeta. match goal with |- context [if ?b then _ else _] => destruct b end; reflexivity. Qed.
Lemma append_full m x : (append_a m x = (Err ST_BUFFER_FULL, x) /\ MAX_A < len (x_msg_a x) + len m) \/ (append_a m x = (Ok tt, set_x_msg_a (x_msg_a x ++ m) x) /\ len (x_msg_a x) + len m <= MAX_A).
Proof. unfold append_a. destruct (N.ltb_spec MAX_A (len (x_msg_a x) + len m)) as [L|L]; auto. Qed.
Lemma write_err_after c m y r z : len m <= 4000 -> write_err c m y = (r, z) -> r = Ok (m ++ error_bytes (ver y) c) /\ z = y.
Proof.
  intros L H. unfold write_err, write_err_data in H. rewrite bind_get in H. unfold sbind, wenc in H.
  rewrite (emit_fits _ m (error_bytes (ver y) c)) in H; [|reflexivity|unfold error_bytes, len, MAX_SPDM_MSG_SIZE in *; cbn [length]; lia]. cbn [snd] in H. unfold sret in H. injection H as <- <-. split; reflexivity.
Qed.
(** what the responder's writer does: an ERROR, or CAPABILITIES with both messages recorded; if the
    transcript has no room, CAPABILITIES is followed by an ERROR *)
Lemma write_capability_run b h r y w y1 : read_header b = Some (h, r) -> write_capability b y = (Ok w, y1) ->
  (exists v c, w = error_bytes v c /\ c < 256 /\ (v = ver y \/ v = h_version h) /\ v = ver y1) \/
  exists c p rest, n_version (c_nego c) = h_version h /\ dec_get_capabilities c r = POk p rest /\ x_cfg y1 = x_cfg y /\ x_nego y1 = RspConn.take_capabilities (x_cfg y) p (set_n_version (h_version h) (x_nego y)) /\
    let m := capabilities_reply (h_version h) (x_cfg y) in
    (w = m /\ x_msg_a y1 = x_msg_a y ++ used_of b rest ++ m) \/
    (exists e, w = m ++ error_bytes (h_version h) e /\ e < 256 /\ MAX_A < len (x_msg_a y) + len (used_of b rest) + len m).
Proof.
  intros Rh H. unfold write_capability in H. rewrite bind_get in H. destruct (x_conn y =? _); [|left; apply write_err_run in H as [H ->]; exists (ver y), ERR_UNEXPECTED_REQUEST; split; [congruence|]; split; [reflexivity|auto]].
  rewrite Rh in H. destruct (16 <=? h_version h); [|left; apply write_err_run in H as [H ->]; exists (ver y), ERR_INVALID_REQUEST; split; [congruence|]; split; [reflexivity|auto]].
  rewrite !bind_mod in H. set (t0 := reset_buffer _ _ _) in H.
  destruct (rest_reset_buffer RC_GET_CAPABILITIES (modn (set_n_version (h_version h)) y)) as [K0 _]. fold t0 in K0.
  assert (T0 : x_nego t0 = set_n_version (h_version h) (x_nego y) /\ x_msg_a t0 = x_msg_a y /\ x_cfg t0 = x_cfg y).
  { unfold rest_of, modn in K0. cbn [x_nego x_msg_a x_cfg set_x_nego] in K0. repeat split; congruence. }
  clearbody t0. clear K0. destruct T0 as (N0 & A0 & C0). unfold sbind at 1, rd in H.
  destruct (dec_get_capabilities (xc t0) r) as [p rest| |] eqn:D; [| |discriminate H].
  2:{ left. apply write_err_run in H as [H ->]. exists (ver t0), ERR_INVALID_REQUEST. split; [congruence|]. split; [reflexivity|]. split; [right; unfold ver; rewrite N0; reflexivity|reflexivity]. }
  rewrite bind_mod in H. set (t1 := modn _ t0) in H.
  assert (T1 : x_nego t1 = RspConn.take_capabilities (x_cfg y) p (set_n_version (h_version h) (x_nego y)) /\ x_msg_a t1 = x_msg_a y /\ x_cfg t1 = x_cfg y).
  { unfold t1, modn. cbn [x_nego x_msg_a x_cfg set_x_nego]. rewrite N0. auto. }
  assert (Vc : n_version (c_nego (xc t0)) = h_version h) by (change (n_version (x_nego t0) = h_version h); rewrite N0; reflexivity).
  clearbody t1. clear N0 A0 C0. destruct T1 as (N1 & A1 & C1). assert (V1 : ver t1 = h_version h) by (unfold ver; rewrite N1; apply take_caps_version).
  unfold tryelse at 1, scatch at 1 in H. destruct (append_full (used_of b rest) t1) as [(K & L)|(K & L)]; rewrite K in H; cbv beta iota in H.
  { left. apply write_err_run in H as [H ->]. exists (ver t1), ERR_UNSPECIFIED. split; [congruence|]; split; [reflexivity|auto]. }
  right. exists (xc t0), p, rest. split; [exact Vc|]. split; [exact D|]. set (t2 := set_x_msg_a _ t1) in H.
  assert (T2 : x_nego t2 = x_nego t1 /\ x_msg_a t2 = x_msg_a y ++ used_of b rest /\ x_cfg t2 = x_cfg y) by (unfold t2; cbn [x_nego x_msg_a x_cfg set_x_msg_a]; rewrite A1; auto). clearbody t2. destruct T2 as (N2 & A2 & C2).
  assert (V2 : ver t2 = h_version h) by (unfold ver; rewrite N2; exact V1).
  rewrite bind_get in H. unfold encode_or_err in H. unfold sbind at 1, wenc in H. rewrite (emit_capabilities (xc t2) (ver t2) (x_cfg t2) eq_refl) in H. cbv beta iota in H. cbn [fst snd] in H. rewrite V2, C2 in H.
  set (m := capabilities_reply (h_version h) (x_cfg y)) in *.
  unfold then_append, tryelse, scatch in H. destruct (append_full m t2) as [(K2 & L2)|(K2 & L2)]; rewrite K2 in H; cbv beta iota in H.
  - assert (Lm : len m <= 24) by (unfold m, capabilities_reply; destruct (18 <=? h_version h); vm_compute; discriminate).
    apply write_err_after in H as [Hw ->]; [|lia]. rewrite V2 in Hw. rewrite N2. split; [exact C2|]. split; [exact N1|]. right. exists ERR_UNSPECIFIED. split; [congruence|]. split; [reflexivity|]. rewrite A2 in L2. rewrite len_app in L2. exact L2.
  - unfold sret in H. assert (y1 = set_x_msg_a (x_msg_a t2 ++ m) t2) as -> by congruence. cbn [x_nego x_msg_a x_cfg set_x_msg_a]. split; [exact C2|]. split; [congruence|]. left. split; [congruence|]. rewrite A2, <- app_assoc. reflexivity.
Qed.
Lemma after_caps z : after_send 0x61 z = (Ok tt, set_x_conn CONN_AFTER_CAPABILITIES z). Proof. reflexivity. Qed.
Lemma known_cases v : known_version v = true -> v = 0x10 \/ v = 0x11 \/ v = 0x12.
Proof. unfold known_version. rewrite !Bool.orb_true_iff, !N.eqb_eq. tauto. Qed.
Lemma read_header_cons a b l : read_header (a :: b :: l) = Some (mkHeader a b, l). Proof. reflexivity. Qed.
Lemma announcement_ok v c : v < 256 -> cf_req_ct c < 256 -> bytes_ok (announcement v c) /\ len (announcement v c) <= 4000.
Proof.
  intros Hv Hc. unfold announcement. split.
  - apply Forall_app. split; [repeat constructor; assumption|]. apply Forall_app. split; [destruct (17 <=? v); [|constructor]; apply Forall_app; split; [repeat constructor; assumption|apply le_bytes_ok]|].
    destruct (18 <=? v); [|constructor]. apply Forall_app. split; apply le_bytes_ok.
  - destruct (17 <=? v); destruct (18 <=? v); vm_compute; discriminate.
Qed.
Lemma capabilities_reply_ok v c : v < 256 -> cf_rsp_ct c < 256 -> bytes_ok (capabilities_reply v c) /\ len (capabilities_reply v c) <= 20.
Proof.
  intros Hv Hc. unfold capabilities_reply. split.
  - apply Forall_app. split; [repeat constructor; assumption|]. apply Forall_app. split; [apply le_bytes_ok|].
    destruct (18 <=? v); [|constructor]. apply Forall_app. split; apply le_bytes_ok.
  - destruct (18 <=? v); vm_compute; discriminate.
Qed.
Lemma error_ok v c : v < 256 -> c < 256 -> bytes_ok (error_bytes v c) /\ len (error_bytes v c) <= 4000.
Proof. intros Hv Hc. split; [repeat constructor; assumption|vm_compute; discriminate]. Qed.
Lemma get_capabilities_twins E Er xr x u x1 : e_tr E = e_tr Er -> SpecRetr.carries (e_tr Er) ->
  let y := peer_after Er xr (rev (x_sent x)) in known_version (ver x) = true -> x_msg_a x = x_msg_a y -> ver y < 256 ->
  cf_req_ct (x_cfg x) < 256 -> cf_rsp_ct (x_cfg y) < 256 ->
  get_capabilities (facing E Er xr) x = (Ok u, x1) ->
  let y1 := peer_after Er xr (rev (x_sent x1)) in
  ver x1 = ver x /\ ver y1 = ver x /\ n_rsp_cap (x_nego y1) = cf_rsp_cap (x_cfg y) /\ n_rsp_cap (x_nego x1) = N.land (le_val (le_bytes 4 (cf_rsp_cap (x_cfg y)))) RSP_CAP_MASK /\
  n_req_cap (x_nego x1) = cf_req_cap (x_cfg x) /\ (0x11 <= ver x -> n_req_cap (x_nego y1) = N.land (le_val (le_bytes 4 (cf_req_cap (x_cfg x)))) REQ_CAP_MASK) /\
  x_msg_a x1 = x_msg_a y1 /\ x_cfg x1 = x_cfg x /\ x_cfg y1 = x_cfg y.
Proof.
  intros Tr Ca y Kv Am Vy C1 C2 H. unfold get_capabilities in H. apply sbind_inv in H as (q0 & t0 & K0 & H). apply mod_inv in K0. rewrite bind_get in H. apply sbind_inv in H as (s & t1 & K1 & H).
  pose proof (q_enc _ _ _ _ K1) as Qy. subst t1. destruct (rest_reset_buffer RC_GET_CAPABILITIES x) as [Rr Rs]. rewrite <- K0 in Rr, Rs.
  assert (F0 : x_cfg t0 = x_cfg x /\ x_nego t0 = x_nego x /\ x_msg_a t0 = x_msg_a x) by (unfold rest_of in Rr; repeat split; congruence). destruct F0 as (G1 & G2 & G3).
  assert (V0 : ver t0 = ver x) by (unfold ver; congruence).
  assert (s = announcement (ver x) (x_cfg x)) as ->. { destruct (emit_announcement t0) as [J1 J2]. rewrite V0, G1 in J1, J2. exact (req_enc_exact _ _ _ _ _ J1 J2 K1). }
  assert (Vx : ver x < 256) by (destruct (known_cases _ Kv) as [-> | [-> | ->]]; reflexivity).
  destruct (announcement_ok (ver x) (x_cfg x) Vx C1) as [Bs Ls].
  apply sbind_inv in H as (q1 & t1 & S & H). apply sbind_inv in H as (b & t2 & R & H). pose proof (quiet_handle_capabilities _ _ _ _ _ H) as [Qs _].
  unfold handle_capabilities_rsp in H. apply ReqFrame.on_response_ok in H as (r & Eb & H). apply reading_ok in H as (p & rest & D & H).
  assert (Pt : peer_after Er xr (rev (x_sent t0)) = y) by (rewrite Rs; reflexivity).
  assert (Hd : forall pad, read_header (announcement (ver x) (x_cfg x) ++ pad) = Some (mkHeader (ver x) 0xE1, skipn 2 (announcement (ver x) (x_cfg x)) ++ pad)) by (intro; unfold announcement; reflexivity).
  destruct (conn_exchange E Er xr (announcement (ver x) (x_cfg x)) 0x61 write_capability t0 q1 t1 b t2) as (pad & pad' & w & z1 & z2 & r' & W & O & B & R2 & A & R3); auto.
  - intro b0. apply quiet_wcapability.
  - rewrite Pt. intros pad w y1 W. destruct (write_capability_run _ _ _ _ _ _ (Hd pad) W) as [(v & c & -> & Hc & Hv & Hv1)|(c & p0 & rest0 & _ & _ & _ & Nz & Hw)].
    + assert (Hb : v < 256) by (destruct Hv as [-> | ->]; assumption). destruct (error_ok v c Hb Hc). split; [discriminate|]. split; [congruence|]. split; assumption.
    + change (h_version (mkHeader (ver x) 225)) with (ver x) in *. destruct (capabilities_reply_ok (ver x) (x_cfg y) Vx C2) as [Bm Lm].
      assert (Vz : ver y1 < 256) by (unfold ver; rewrite Nz, take_caps_version; exact Vx). cbv zeta in Hw. destruct Hw as [[-> _]|(e & -> & He & _)].
      * split; [discriminate|]. split; [exact Vz|]. split; [exact Bm|lia].
      * split; [discriminate|]. split; [exact Vz|]. destruct (error_ok (ver x) e Vx He) as [Be Le]. split; [apply Forall_app; split; assumption|]. rewrite len_app. change (len (error_bytes (ver x) e)) with 4. lia.
  - discriminate.
  - rewrite Eb. reflexivity.
  - rewrite Pt in W. rewrite after_caps in A. assert (Pe : peer_after Er xr (rev (x_sent t2)) = set_x_conn CONN_AFTER_CAPABILITIES z2) by congruence. cbv zeta. rewrite Qs, Pe. unfold ver at 3. cbn [x_msg_a x_nego x_cfg set_x_conn].
    assert (Z2 : x_nego z2 = x_nego z1 /\ x_msg_a z2 = x_msg_a z1 /\ x_cfg z2 = x_cfg z1) by (unfold rest_of in R2; repeat split; congruence). destruct Z2 as (Zn & Zm & Zc). rewrite Zn, Zm, Zc.
    assert (T2 : x_nego t2 = x_nego x /\ x_msg_a t2 = x_msg_a x /\ x_cfg t2 = x_cfg x) by (unfold rest_of in R3; repeat split; congruence). destruct T2 as (N2 & M2 & F2).
    destruct (write_capability_run _ _ _ _ _ _ (Hd pad) W) as [(v & c & -> & _)|(c & p0 & rest0 & Vc & D0 & Cz & Nz & Hw)]; [cbn [opcode error_bytes nth_error] in O; discriminate O|].
    change (h_version (mkHeader (ver x) 225)) with (ver x) in *. apply (dec_announcement c (ver x) _ _ _ _ Vc) in D0 as [-> Df]. rewrite used_app in Hw. cbv zeta in Hw. set (m := capabilities_reply (ver x) (x_cfg y)) in *.
    assert (Hm : exists pd, b = m ++ pd). { destruct Hw as [[-> _]|(e & -> & _)]; [eauto|]. rewrite B, <- app_assoc. eauto. } destruct Hm as [pd Hm].
    assert (r = skipn 2 m ++ pd) as ->. { rewrite Hm in Eb. unfold m in *. unfold capabilities_reply in *. exact (f_equal (skipn 2) (eq_sym Eb)). }
    apply (dec_capabilities_reply (xc t2) (ver x)) in D as [-> Dg]; [|change (n_version (x_nego t2) = ver x); rewrite N2; reflexivity].
    rewrite Hm, used_app in H. apply sbind_inv in H as (q2 & t3 & K3 & H). apply mod_inv in K3. apply sbind_inv in H as (q4 & t4 & K4 & H). apply append_a_inv in K4 as [-> _]. apply append_a_inv in H as [-> L]. subst t3.
    cbn [x_nego x_msg_a x_cfg set_x_msg_a modn set_x_nego] in *. unfold modn in *. cbn [x_nego x_msg_a x_cfg set_x_msg_a set_x_nego] in *. rewrite M2, len_app, Am in L.
    destruct Hw as [[-> Mz]|(e & _ & _ & Lz)]; [|exfalso; unfold m in *; lia].
    rewrite Mz, M2, Am, Nz, <- app_assoc. unfold ver at 1. cbn [x_nego set_x_msg_a set_x_nego]. rewrite N2, F2. rewrite take_caps_version.
    split; [unfold ReqConn.take_capabilities; match goal with |- context [if ?b then _ else _] => destruct b end; reflexivity|]. split; [reflexivity|].
    split; [unfold RspConn.take_capabilities; match goal with |- context [if ?b then _ else _] => destruct b end; reflexivity|].
    split; [unfold ReqConn.take_capabilities; match goal with |- context [if ?b then _ else _] => destruct b end; exact Dg|].
    split; [unfold ReqConn.take_capabilities; match goal with |- context [if ?b then _ else _] => destruct b end; reflexivity|].
    split; [intro Lv; unfold RspConn.take_capabilities; match goal with |- context [if ?b then _ else _] => destruct b end; exact (Df Lv)|].
    split; [reflexivity|]. split; [reflexivity|exact Cz].
Qed.
(** *** NEGOTIATE_ALGORITHMS *)
Definition dhe_of v := mkAlgStruct 2 (ADhe (N.land (le_val (le_bytes 2 v)) DHE_MASK)).
Definition aead_of v := mkAlgStruct 3 (AAead (N.land (le_val (le_bytes 2 v)) AEAD_MASK)).
Definition reqa_of v := mkAlgStruct 4 (AReqAsym (N.land (le_val (le_bytes 2 v)) ASYM_MASK)).
Definition ks_of v := mkAlgStruct 5 (AKeySched (N.land (le_val (le_bytes 2 v)) KS_MASK)).
Definition four (a b c d : N) : bytes := [2; 0x20] ++ le_bytes 2 a ++ [3; 0x20] ++ le_bytes 2 b ++ [4; 0x20] ++ le_bytes 2 c ++ [5; 0x20] ++ le_bytes 2 d.
Lemma st_dhe {A} (k : alg_struct -> dec A) v l : dbind dec_alg_struct k (2 :: 32 :: le_bytes 2 v ++ l) = k (dhe_of v) l. Proof. reflexivity. Qed.
Lemma st_aead {A} (k : alg_struct -> dec A) v l : dbind dec_alg_struct k (3 :: 32 :: le_bytes 2 v ++ l) = k (aead_of v) l. Proof. reflexivity. Qed.
Lemma st_reqa {A} (k : alg_struct -> dec A) v l : dbind dec_alg_struct k (4 :: 32 :: le_bytes 2 v ++ l) = k (reqa_of v) l. Proof. reflexivity. Qed.
Lemma st_ks {A} (k : alg_struct -> dec A) v l : dbind dec_alg_struct k (5 :: 32 :: le_bytes 2 v ++ l) = k (ks_of v) l. Proof. reflexivity. Qed.
Lemma dec_four chk a b c d pad l rest : d_alg_table chk 4 (four a b c d ++ pad) = POk l rest -> rest = pad /\ l = [dhe_of a; aead_of b; reqa_of c; ks_of d].
Proof.
  intro H. unfold d_alg_table in H. change (Nat.min (N.to_nat 4) 4) with 4%nat in H. unfold four in H. rewrite <- !app_assoc in H. cbn [app] in H. cbn [d_alg_loop] in H.
  rewrite dbind_assoc, st_dhe in H. rewrite dguard_bind in H. apply dguard_ok in H as [_ H]. rewrite dguard_bind in H. apply dguard_ok in H as [_ H]. rewrite dguard_bind in H. apply dguard_ok in H as [_ H]. rewrite dguard_bind in H. apply dguard_ok in H as [_ H].
  rewrite !dbind_assoc, st_aead in H. rewrite dguard_bind in H. apply dguard_ok in H as [_ H]. rewrite dguard_bind in H. apply dguard_ok in H as [_ H]. rewrite dguard_bind in H. apply dguard_ok in H as [_ H]. rewrite dguard_bind in H. apply dguard_ok in H as [_ H].
  rewrite !dbind_assoc, st_reqa in H. rewrite dguard_bind in H. apply dguard_ok in H as [_ H]. rewrite dguard_bind in H. apply dguard_ok in H as [_ H]. rewrite dguard_bind in H. apply dguard_ok in H as [_ H]. rewrite dguard_bind in H. apply dguard_ok in H as [_ H].
  rewrite !dbind_assoc, st_ks in H. rewrite dguard_bind in H. apply dguard_ok in H as [_ H]. rewrite dguard_bind in H. apply dguard_ok in H as [_ H]. rewrite dguard_bind in H. apply dguard_ok in H as [_ H]. rewrite dguard_bind in H. apply dguard_ok in H as [_ H].
  rewrite dbind_assoc, !dbind_ret in H. apply dret_ok in H as [-> ->]. split; reflexivity.
Qed.
Lemma st_zeros {A} (k : bytes -> dec A) l : dbind (d_arr 12) k (repeat 0 16 ++ l) = k (repeat 0 12) (0 :: 0 :: le_bytes 2 0 ++ l). Proof. reflexivity. Qed.
Lemma dec_offer c v cfg pad p rest : n_version (c_nego c) = v -> 0x11 <= v -> dec_nego_algs c (skipn 2 (offer_message v cfg) ++ pad) = POk p rest -> rest = pad /\ within OPAQUE_FMT1 (na_opaque p) /\ (v < 0x12 -> na_opaque p = 0).
Proof.
  intros Hv Lv H. unfold offer_message in H. cbv zeta in H. apply N.leb_le in Lv. rewrite Lv in H. change ([2; 32] ++ le_bytes 2 (cf_dhe cfg) ++ [3; 32] ++ le_bytes 2 (cf_aead cfg) ++ [4; 32] ++ le_bytes 2 (cf_req_asym cfg) ++ [5; 32] ++ le_bytes 2 (cf_ks cfg)) with (four (cf_dhe cfg) (cf_aead cfg) (cf_req_asym cfg) (cf_ks cfg)) in H.
  cbn [skipn app] in H. rewrite <- !app_assoc in H. unfold dec_nego_algs, dec_alg_count, dec_other_params, ver_ge, V11, V12 in H. rewrite Hv, Lv in H. cbn [app] in H.
  rewrite dbind_assoc, st_u8, dguard_bind in H. apply dguard_ok in H as [_ H]. rewrite dbind_ret, st_u8, st_u16 in H. cbn [app] in H. rewrite st_f8 in H.
  assert (K : exists o, (within OPAQUE_FMT1 o /\ (v < 0x12 -> o = 0)) /\ forall r1, r1 = le_bytes 4 (cf_asym cfg) ++ le_bytes 4 (cf_hash cfg) ++ repeat 0 16 ++ four (cf_dhe cfg) (cf_aead cfg) (cf_req_asym cfg) (cf_ks cfg) ++ pad -> forall k, dbind (if 18 <=? v then d_flags8_strict OPAQUE_FMT1 else (_ <- d_u8 ;; dret 0)%dec) k ((if 18 <=? v then cf_opaque cfg else 0) :: r1) = POk p rest -> k o r1 = POk p rest).
  { destruct (N.leb_spec 18 v).
    - exists (match from_bits OPAQUE_FMT1 (cf_opaque cfg) with Some b => b | None => 0 end). split; [split; [unfold from_bits; destruct (N.eqb_spec (N.land (cf_opaque cfg) OPAQUE_FMT1) (cf_opaque cfg)); [assumption|reflexivity]|lia]|]. intros r1 _ k K. unfold d_flags8_strict in K. rewrite dbind_assoc, st_u8 in K. destruct (from_bits OPAQUE_FMT1 (cf_opaque cfg)); [exact K|discriminate K].
    - exists 0. split; [split; reflexivity|]. intros r1 _ k K. exact K. }
  destruct K as (o & Ho & K). apply (K _ eq_refl) in H. cbv beta in H. clear K.
  rewrite !st_f32, st_zeros, st_u8 in H. apply dguard_ok in H as [_ H]. rewrite st_u8 in H. apply dguard_ok in H as [_ H]. rewrite st_u16 in H.
  apply dbind_ok in H as (tb & r1 & D & H). apply dec_four in D as [-> _]. apply dbind_ok in H as (n & r2 & D & H). apply dsize_ok in D as [_ ->]. apply dguard_ok in H as [_ H]. apply dret_ok in H as [-> ->]. split; [reflexivity|exact Ho].
Qed.
(** ALGORITHMS as the library writes it, taken apart *)
Lemma dec_answer c v op mh sel pad p rest : n_version (c_nego c) = v -> 0x11 <= v ->
  dec_algs_rsp c (skipn 2 (algorithms_message v op mh sel) ++ pad) = POk p rest ->
  rest = pad /\ ar_mspec p = N.land (sel FMeasSpec) MSPEC_MASK /\ ar_mhash p = N.land (le_val (le_bytes 4 mh)) MHASH_MASK /\ ar_asym p = N.land (le_val (le_bytes 4 (sel FAsym))) ASYM_MASK /\ ar_hash p = N.land (le_val (le_bytes 4 (sel FHash))) HASH_MASK /\
  ar_opaque p = (if 0x12 <=? v then op else 0) /\ answer_structs p = [dhe_of (sel FDhe); aead_of (sel FAead); reqa_of (sel FReqAsym); ks_of (sel FKeySched)].
Proof.
  intros Hv Lv H. unfold algorithms_message in H. cbv zeta in H. apply N.leb_le in Lv. rewrite Lv in H. change ([2; 32] ++ le_bytes 2 (sel FDhe) ++ [3; 32] ++ le_bytes 2 (sel FAead) ++ [4; 32] ++ le_bytes 2 (sel FReqAsym) ++ [5; 32] ++ le_bytes 2 (sel FKeySched)) with (four (sel FDhe) (sel FAead) (sel FReqAsym) (sel FKeySched)) in H.
  cbn [skipn app] in H. rewrite <- !app_assoc in H. unfold dec_algs_rsp, dec_alg_count, dec_other_params in H. change (ver_ge c V11) with (17 <=? n_version (c_nego c)) in H. change (ver_ge c V12) with (18 <=? n_version (c_nego c)) in H. rewrite Hv, Lv in H. cbn [app] in H.
  rewrite dbind_assoc, st_u8, dguard_bind in H. apply dguard_ok in H as [_ H]. rewrite dbind_ret, st_u8, st_u16 in H. cbn [app] in H. rewrite st_f8 in H. apply dguard_ok in H as [_ H].
  assert (K : forall r1 k, dbind (if 18 <=? v then d_flags8_strict OPAQUE_FMT1 else (_ <- d_u8 ;; dret 0)%dec) k ((if 18 <=? v then op else 0) :: r1) = POk p rest -> k (if 18 <=? v then op else 0) r1 = POk p rest).
  { intros r1 k. destruct (18 <=? v); [|auto]. intro K. unfold d_flags8_strict in K. rewrite dbind_assoc, st_u8 in K. unfold from_bits in K. destruct (_ =? _); [exact K|discriminate K]. }
  apply K in H. cbv beta in H. clear K. apply dguard_ok in H as [_ H].
  rewrite <- !app_assoc in H. rewrite st_f32 in H. apply dguard_ok in H as [_ H]. rewrite st_f32 in H. apply dguard_ok in H as [_ H]. rewrite st_f32 in H. apply dguard_ok in H as [_ H].
  rewrite st_zeros, st_u8 in H. apply dguard_ok in H as [_ H]. rewrite st_u8 in H. apply dguard_ok in H as [_ H]. rewrite st_u16 in H.
  apply dbind_ok in H as (tb & r1 & D & H). apply dec_four in D as [-> ->]. apply dbind_ok in H as (n & r2 & D & H). apply dsize_ok in D as [_ ->]. apply dguard_ok in H as [_ H]. apply dret_ok in H as [-> ->].
  cbn [ar_mspec ar_mhash ar_asym ar_hash ar_opaque ar_count ar_structs]. unfold answer_structs. cbn [ar_count ar_structs]. repeat split.
Qed.
Lemma take_alg_keeps l : forall n, let m := fold_left take_alg l n in n_version m = n_version n /\ n_rsp_cap m = n_rsp_cap n /\ n_req_cap m = n_req_cap n.
Proof. induction l as [|a l IH]; intro n; cbn [fold_left]; [auto|]. destruct (IH (take_alg n a)) as (A & B & C). cbv zeta. rewrite A, B, C. destruct a as [t [v|v|v|v|]]; repeat split. Qed.
Lemma select_keeps cfg p n : let m := select_algs cfg (take_offer p n) in n_version m = n_version n /\ n_rsp_cap m = n_rsp_cap n /\ n_req_cap m = n_req_cap n /\ n_mhash m = cf_mhash cfg.
Proof.
  cbv zeta. destruct (take_alg_keeps (firstn (N.to_nat (na_count p)) (na_structs p)) (set_n_asym (na_asym p) (set_n_hash (na_hash p) (set_n_mspec (na_mspec p) n)))) as (A & B & C). cbv zeta in A, B, C.
  fold (take_offer p n) in A, B, C. unfold select_algs. cbv zeta. cbn [n_version n_rsp_cap n_req_cap n_mhash set_n_ks set_n_req_asym set_n_aead set_n_dhe set_n_asym set_n_hash set_n_mhash set_n_mspec]. rewrite A, B, C. repeat split.
Qed.
Lemma opaque_keeps o n : n_version (set_n_opaque o n) = n_version n /\ n_rsp_cap (set_n_opaque o n) = n_rsp_cap n /\ n_req_cap (set_n_opaque o n) = n_req_cap n /\ n_mhash (set_n_opaque o n) = n_mhash n /\ n_opaque (set_n_opaque o n) = o.
Proof. repeat split. Qed.
Lemma opaque_recorded o n f : recorded (set_n_opaque o n) f = recorded n f. Proof. destruct f; reflexivity. Qed.
Lemma write_algorithm_run E b h r y w y1 : read_header b = Some (h, r) -> write_algorithm E b y = (Ok w, y1) ->
  (exists c, w = error_bytes (ver y) c /\ c < 256 /\ ver y1 = ver y) \/
  exists c p rest, n_version (c_nego c) = ver y /\ dec_nego_algs c r = POk p rest /\ x_cfg y1 = x_cfg y /\
    let n := x_nego y1 in
    n_version n = ver y /\ n_rsp_cap n = n_rsp_cap (x_nego y) /\ n_req_cap n = n_req_cap (x_nego y) /\ n_mhash n = cf_mhash (x_cfg y) /\ n_opaque n = N.land (cf_opaque (x_cfg y)) (na_opaque p) /\
    (forall f, exists a c, recorded n f = prioritize (table_of f) a c) /\
    let m := algorithms_message (ver y) (n_opaque n) (n_mhash n) (recorded n) in
    (w = m /\ x_msg_a y1 = x_msg_a y ++ used_of b rest ++ m) \/
    (exists e, w = m ++ error_bytes (ver y) e /\ e < 256 /\ MAX_A < len (x_msg_a y) + len (used_of b rest) + len m).
Proof.
  intros Rh H. assert (We : forall z c, ver z = ver y -> c < 256 -> write_err c [] z = (Ok w, y1) -> exists c, w = error_bytes (ver y) c /\ c < 256 /\ ver y1 = ver y).
  { intros z c V C K. apply write_err_run in K as [K ->]. exists c. rewrite <- V. split; [congruence|]. split; [exact C|reflexivity]. }
  unfold write_algorithm in H. rewrite bind_get in H. destruct (x_conn y =? _); [|left; exact (We y ERR_UNEXPECTED_REQUEST eq_refl eq_refl H)].
  unfold with_version in H. rewrite bind_get, Rh in H. destruct (negb _); [left; exact (We y ERR_VERSION_MISMATCH eq_refl eq_refl H)|].
  rewrite bind_mod in H. set (t0 := reset_buffer _ _ _) in H.
  destruct (rest_reset_buffer RC_NEGOTIATE_ALGORITHMS y) as [K0 _]. fold t0 in K0.
  assert (T0 : x_nego t0 = x_nego y /\ x_msg_a t0 = x_msg_a y /\ x_cfg t0 = x_cfg y) by (unfold rest_of in K0; repeat split; congruence).
  clearbody t0. clear K0. destruct T0 as (N0 & A0 & C0). unfold sbind at 1, rd in H.
  destruct (dec_nego_algs (xc t0) r) as [p rest| |] eqn:D; [| |discriminate H].
  2:{ left. apply (We t0 ERR_INVALID_REQUEST); [unfold ver; rewrite N0; reflexivity|reflexivity|exact H]. }
  rewrite bind_mod in H. set (t1 := modn _ t0) in H.
  assert (T1 : x_nego t1 = take_offer p (x_nego y) /\ x_msg_a t1 = x_msg_a y /\ x_cfg t1 = x_cfg y) by (unfold t1, modn; cbn [x_nego x_msg_a x_cfg set_x_nego]; rewrite N0; auto).
  assert (Vc : n_version (c_nego (xc t0)) = ver y) by (change (n_version (x_nego t0) = ver y); rewrite N0; reflexivity).
  clearbody t1. clear N0 A0 C0. destruct T1 as (N1 & A1 & C1). assert (V1 : ver t1 = ver y) by (unfold ver; rewrite N1; apply take_version).
  unfold tryelse at 1, scatch at 1 in H. destruct (append_full (used_of b rest) t1) as [(K & L)|(K & L)]; rewrite K in H; cbv beta iota in H.
  { left. apply (We t1 ERR_UNSPECIFIED V1 eq_refl H). }
  set (t2 := set_x_msg_a _ t1) in H.
  assert (T2 : x_nego t2 = x_nego t1 /\ x_msg_a t2 = x_msg_a y ++ used_of b rest /\ x_cfg t2 = x_cfg y) by (unfold t2; cbn [x_nego x_msg_a x_cfg set_x_msg_a]; rewrite A1; auto). clearbody t2. destruct T2 as (N2 & A2 & C2).
  rewrite bind_mod in H. set (t3 := modn _ t2) in H.
  assert (T3 : x_nego t3 = select_algs (x_cfg y) (take_offer p (x_nego y)) /\ x_msg_a t3 = x_msg_a t2 /\ x_cfg t3 = x_cfg y) by (unfold t3, modn; cbn [x_nego x_msg_a x_cfg set_x_nego]; rewrite N2, N1; auto). clearbody t3. destruct T3 as (N3 & A3 & C3).
  destruct (select_keeps (x_cfg y) p (x_nego y)) as (S1 & S2 & S3 & S4). cbv zeta in S1, S2, S3, S4.
  unfold tryelse at 1, scatch at 1 in H. destruct (construct_my_cert_chain (e_cr E) t3) as [o t4] eqn:Cc. pose proof (nego_construct _ _ _ _ Cc) as [N4 C4].
  assert (A4 : x_msg_a t4 = x_msg_a t3). { unfold construct_my_cert_chain in Cc. destruct (construct_slots _ _ _ _). match type of Cc with (_, ?u) = _ => replace t4 with u by congruence end. reflexivity. }
  destruct o as [q| |]; [|left; apply (We t4 ERR_UNSPECIFIED); [unfold ver; rewrite N4, N3; exact S1|reflexivity|exact H]|discriminate H].
  right. exists (xc t0), p, rest. split; [exact Vc|]. split; [exact D|].
  rewrite bind_mod in H. set (t5 := modn _ t4) in H.
  assert (T5 : x_nego t5 = set_n_opaque (N.land (cf_opaque (x_cfg y)) (na_opaque p)) (select_algs (x_cfg y) (take_offer p (x_nego y))) /\ x_msg_a t5 = x_msg_a y ++ used_of b rest /\ x_cfg t5 = x_cfg y).
  { unfold t5, modn. cbn [x_nego x_msg_a x_cfg set_x_nego]. rewrite N4, N3, A4, A3, A2, C4, C3. auto. }
  destruct (opaque_keeps (N.land (cf_opaque (x_cfg y)) (na_opaque p)) (select_algs (x_cfg y) (take_offer p (x_nego y)))) as (O1 & O2 & O3 & O4 & O5).
  pose proof (fun f => opaque_recorded (N.land (cf_opaque (x_cfg y)) (na_opaque p)) (select_algs (x_cfg y) (take_offer p (x_nego y))) f) as O6.
  pose proof (select_recorded (x_cfg y) (take_offer p (x_nego y))) as O7.
  clearbody t5. destruct T5 as (N5 & A5 & C5). rewrite <- N5 in O1, O2, O3, O4, O5, O6. rewrite S1 in O1. rewrite S2 in O2. rewrite S3 in O3. rewrite S4 in O4. rewrite bind_get in H. unfold encode_or_err in H. unfold sbind at 1, wenc in H. rewrite (emit_algorithms (xc t5) (x_nego t5) eq_refl) in H. cbv beta iota in H. cbn [fst snd] in H.
  assert (V5 : n_version (x_nego t5) = ver y) by exact O1. rewrite V5 in H. set (m := algorithms_message (ver y) (n_opaque (x_nego t5)) (n_mhash (x_nego t5)) (recorded (x_nego t5))) in *.
  assert (Fin : x_nego y1 = x_nego t5 -> x_cfg y1 = x_cfg t5 -> x_cfg y1 = x_cfg y /\ (let n := x_nego y1 in
    n_version n = ver y /\ n_rsp_cap n = n_rsp_cap (x_nego y) /\ n_req_cap n = n_req_cap (x_nego y) /\ n_mhash n = cf_mhash (x_cfg y) /\ n_opaque n = N.land (cf_opaque (x_cfg y)) (na_opaque p) /\
    (forall f, exists a c, recorded n f = prioritize (table_of f) a c))).
  { intros Ny Cy. split; [congruence|]. cbv zeta. rewrite Ny. split; [exact V5|]. split; [exact O2|]. split; [exact O3|]. split; [exact O4|]. split; [exact O5|]. intro f. rewrite O6, O7. eauto. }
  unfold then_append, tryelse, scatch in H. destruct (append_full m t5) as [(K2 & L2)|(K2 & L2)]; rewrite K2 in H; cbv beta iota in H.
  - assert (Lm : len m <= 60) by (unfold m, algorithms_message; destruct (17 <=? ver y); destruct (18 <=? ver y); vm_compute; discriminate).
    apply write_err_after in H as [Hw ->]; [|lia]. destruct (Fin eq_refl eq_refl) as [F1 F2]. split; [exact F1|]. cbv zeta in F2 |- *. destruct F2 as (G1 & G2 & G3 & G4 & G5 & G6). repeat (split; [assumption|]). fold m.
    right. exists ERR_UNSPECIFIED. unfold ver at 1 in Hw. rewrite V5 in Hw. split; [congruence|]. split; [reflexivity|]. rewrite A5, len_app in L2. exact L2.
  - unfold sret in H. assert (y1 = set_x_msg_a (x_msg_a t5 ++ m) t5) as -> by congruence. destruct (Fin eq_refl eq_refl) as [F1 F2]. split; [exact F1|]. cbv zeta in F2 |- *. destruct F2 as (G1 & G2 & G3 & G4 & G5 & G6). repeat (split; [assumption|]). cbn [x_nego set_x_msg_a x_msg_a]. fold m.
    left. split; [congruence|]. rewrite A5, <- app_assoc. reflexivity.
Qed.
Lemma prio_in tbl a b : In (prioritize tbl a b) (0 :: tbl).
Proof.
  unfold prioritize. generalize (N.land a b). intro v. induction tbl as [|t l IH]; cbn [prio_loop]; [now left|]. destruct (negb _); [right; now left|].
  destruct IH as [IH|IH]; [now left|right; now right].
Qed.
Lemma prio_fits f a b : let v := prioritize (table_of f) a b in
  (match f with FMeasSpec => N.land v MSPEC_MASK | FAsym => N.land (le_val (le_bytes 4 v)) ASYM_MASK | FHash => N.land (le_val (le_bytes 4 v)) HASH_MASK
   | FDhe => N.land (le_val (le_bytes 2 v)) DHE_MASK | FAead => N.land (le_val (le_bytes 2 v)) AEAD_MASK | FReqAsym => N.land (le_val (le_bytes 2 v)) ASYM_MASK | FKeySched => N.land (le_val (le_bytes 2 v)) KS_MASK end) = v /\ v < 256.
Proof.
  cbv zeta. pose proof (prio_in (table_of f) a b) as I. revert I. generalize (prioritize (table_of f) a b). intros v I.
  destruct f; cbn [table_of] in I; unfold mspec_prio, asym_prio, hash_prio, dhe_prio, aead_prio, req_asym_prio, ks_prio in I; repeat (destruct I as [<-|I]; [split; vm_compute; reflexivity|]); destruct I.
Qed.
Lemma offer_ok v c : v < 256 -> cf_mspec c < 256 -> cf_opaque c < 256 -> bytes_ok (offer_message v c) /\ len (offer_message v c) <= 4000.
Proof.
  intros Hv Hm Ho. unfold offer_message. split.
  - destruct (17 <=? v); destruct (18 <=? v); cbv zeta iota; repeat (apply Forall_app; split); try apply le_bytes_ok; repeat constructor; assumption.
  - destruct (17 <=? v); destruct (18 <=? v); vm_compute; discriminate.
Qed.
Lemma algorithms_ok v op mh sel : v < 256 -> op < 256 -> sel FMeasSpec < 256 -> bytes_ok (algorithms_message v op mh sel) /\ len (algorithms_message v op mh sel) <= 60.
Proof.
  intros Hv Ho Hm. unfold algorithms_message. split.
  - destruct (17 <=? v); destruct (18 <=? v); cbv zeta iota; repeat (apply Forall_app; split); try apply le_bytes_ok; repeat constructor; assumption.
  - destruct (17 <=? v); destruct (18 <=? v); vm_compute; discriminate.
Qed.
Lemma after_algs z : after_send 0x63 z = (Ok tt, set_x_conn CONN_NEGOTIATED z). Proof. reflexivity. Qed.
Lemma land_byte a b : b < 256 -> N.land a b < 256.
Proof.
  intro H. destruct (N.eq_dec (N.land a b) 0) as [->|Z]; [reflexivity|]. change 256 with (2 ^ 8). apply N.log2_lt_pow2; [lia|].
  pose proof (N.log2_land a b). destruct (N.eq_dec b 0) as [->|Zb]; [rewrite N.land_0_r in Z; contradiction|]. assert (N.log2 b < 8) by (apply N.log2_lt_pow2; [lia|exact H]). lia.
Qed.
Lemma negotiate_twins E Er xr x u x1 : e_tr E = e_tr Er -> SpecRetr.carries (e_tr Er) ->
  let y := peer_after Er xr (rev (x_sent x)) in ver x = ver y -> 0x11 <= ver x -> ver x < 256 -> x_msg_a x = x_msg_a y ->
  cf_mspec (x_cfg x) < 256 -> cf_opaque (x_cfg x) < 256 -> within MHASH_MASK (cf_mhash (x_cfg y)) ->
  negotiate_algorithms (facing E Er xr) x = (Ok u, x1) ->
  let y1 := peer_after Er xr (rev (x_sent x1)) in let n := x_nego x1 in let m := x_nego y1 in
  (forall f, recorded n f = recorded m f) /\ n_mhash n = n_mhash m /\ n_opaque n = n_opaque m /\ n_version n = ver x /\ n_version m = ver x /\
  n_rsp_cap n = n_rsp_cap (x_nego x) /\ n_rsp_cap m = n_rsp_cap (x_nego y) /\ n_req_cap n = n_req_cap (x_nego x) /\ n_req_cap m = n_req_cap (x_nego y) /\
  x_msg_a x1 = x_msg_a y1 /\ x_cfg x1 = x_cfg x /\ x_cfg y1 = x_cfg y.
Proof.
  intros Tr Ca y Vy Lv Vx Am C1 C2 Wm H. unfold negotiate_algorithms in H. apply sbind_inv in H as (q0 & t0 & K0 & H). apply mod_inv in K0. rewrite bind_get in H. apply sbind_inv in H as (s & t1 & K1 & H).
  pose proof (q_enc _ _ _ _ K1) as Qy. subst t1. destruct (rest_reset_buffer RC_NEGOTIATE_ALGORITHMS x) as [Rr Rs]. rewrite <- K0 in Rr, Rs.
  assert (F0 : x_cfg t0 = x_cfg x /\ x_nego t0 = x_nego x /\ x_msg_a t0 = x_msg_a x) by (unfold rest_of in Rr; repeat split; congruence). destruct F0 as (G1 & G2 & G3).
  assert (V0 : ver t0 = ver x) by (unfold ver; congruence).
  assert (s = offer_message (ver x) (x_cfg x)) as ->. { destruct (emit_offer t0) as [J1 J2]. rewrite V0, G1 in J1, J2. exact (req_enc_exact _ _ _ _ _ J1 J2 K1). }
  destruct (offer_ok (ver x) (x_cfg x) Vx C1 C2) as [Bs Ls].
  apply sbind_inv in H as (q1 & t1 & S & H). apply sbind_inv in H as (b & t2 & R & H). pose proof (quiet_handle_algorithms _ _ _ _ _ H) as [Qs _].
  unfold handle_algorithms_rsp in H. apply ReqFrame.on_response_ok in H as (r & Eb & H). apply reading_ok in H as (p & rest & D & H).
  assert (Pt : peer_after Er xr (rev (x_sent t0)) = y) by (rewrite Rs; reflexivity).
  assert (Hd : forall pad, read_header (offer_message (ver x) (x_cfg x) ++ pad) = Some (mkHeader (ver x) 0xE3, skipn 2 (offer_message (ver x) (x_cfg x)) ++ pad)) by (intro; unfold offer_message; reflexivity).
  destruct (conn_exchange E Er xr (offer_message (ver x) (x_cfg x)) 0x63 (write_algorithm Er) t0 q1 t1 b t2) as (pad & pad' & w & z1 & z2 & r' & W & O & B & R2 & A & R3); auto.
  - intro b0. apply quiet_walgorithm.
  - rewrite Pt. intros pad w y1 W. destruct (write_algorithm_run _ _ _ _ _ _ _ (Hd pad) W) as [(c & -> & Hc & Hv)|(c & p0 & rest0 & Vc & D0 & _ & Hw)].
    + rewrite <- Vy in *. destruct (error_ok (ver x) c Vx Hc). split; [discriminate|]. split; [congruence|]. split; assumption.
    + cbv zeta in Hw. destruct Hw as (Hv & _ & _ & _ & Ho & Hf & Hw). rewrite <- Vy in *. apply (dec_offer c (ver x) _ _ _ _ Vc Lv) in D0 as (_ & Wo & _).
      assert (Bo : n_opaque (x_nego y1) < 256). { rewrite Ho. apply land_byte. red in Wo. rewrite <- Wo. apply land_byte. reflexivity. }
      assert (Bf : recorded (x_nego y1) FMeasSpec < 256). { destruct (Hf FMeasSpec) as (a & c0 & ->). exact (proj2 (prio_fits FMeasSpec a c0)). }
      destruct (algorithms_ok (ver x) (n_opaque (x_nego y1)) (n_mhash (x_nego y1)) (recorded (x_nego y1)) Vx Bo Bf) as [Bm Lm].
      assert (Vz : ver y1 < 256) by (unfold ver; rewrite Hv; exact Vx). destruct Hw as [[-> _]|(e & -> & He & _)].
      * split; [discriminate|]. split; [exact Vz|]. split; [exact Bm|lia].
      * split; [discriminate|]. split; [exact Vz|]. destruct (error_ok (ver x) e Vx He) as [Be Le]. split; [apply Forall_app; split; assumption|]. rewrite len_app. change (len (error_bytes (ver x) e)) with 4. lia.
  - discriminate.
  - rewrite Eb. reflexivity.
  - rewrite Pt in W. rewrite after_algs in A. assert (Pe : peer_after Er xr (rev (x_sent t2)) = set_x_conn CONN_NEGOTIATED z2) by congruence. cbv zeta. rewrite Qs, Pe. cbn [x_msg_a x_nego x_cfg set_x_conn].
    assert (Z2 : x_nego z2 = x_nego z1 /\ x_msg_a z2 = x_msg_a z1 /\ x_cfg z2 = x_cfg z1) by (unfold rest_of in R2; repeat split; congruence). destruct Z2 as (Zn & Zm & Zc). rewrite Zn, Zm, Zc.
    assert (T2 : x_nego t2 = x_nego x /\ x_msg_a t2 = x_msg_a x /\ x_cfg t2 = x_cfg x) by (unfold rest_of in R3; repeat split; congruence). destruct T2 as (N2 & M2 & F2).
    destruct (write_algorithm_run _ _ _ _ _ _ _ (Hd pad) W) as [(c & -> & _)|(c & p0 & rest0 & Vc & D0 & Cz & Hw)]; [cbn [opcode error_bytes nth_error] in O; discriminate O|].
    cbv zeta in Hw. rewrite <- Vy in *. apply (dec_offer c (ver x) _ _ _ _ Vc Lv) in D0 as (-> & _ & Oz). rewrite used_app in Hw. destruct Hw as (Hv & Hr & Hq & Hm & Ho & Hf & Hw).
    set (n := x_nego z1) in *. set (m := algorithms_message (ver x) (n_opaque n) (n_mhash n) (recorded n)) in *.
    assert (Hb : exists pd, b = m ++ pd). { destruct Hw as [[-> _]|(e & -> & _)]; [eauto|]. rewrite B, <- app_assoc. eauto. } destruct Hb as [pd Hb].
    assert (r = skipn 2 m ++ pd) as ->. { rewrite Hb in Eb. unfold m in *. unfold algorithms_message in *. exact (f_equal (skipn 2) (eq_sym Eb)). }
    apply (dec_answer (xc t2) (ver x)) in D as (-> & D1 & D2 & D3 & D4 & D5 & D6); [|change (n_version (x_nego t2) = ver x); rewrite N2; reflexivity|exact Lv].
    rewrite Hb, used_app in H. apply sbind_inv in H as (q2 & t3 & K3 & H). apply mod_inv in K3. apply sbind_inv in H as (q4 & t4 & K4 & H). apply fail_inv in K4 as [_ ->].
    apply sbind_inv in H as (q5 & t5 & K5 & H). apply mod_inv in K5. apply sbind_inv in H as (q6 & t6 & K6 & H). apply fail_inv in K6 as [_ ->].
    apply sbind_inv in H as (q7 & t7 & K7 & H). apply mod_inv in K7. apply sbind_inv in H as (q8 & t8 & K8 & H). apply mod_inv in K8.
    apply sbind_inv in H as (q9 & t9 & K9 & H). apply append_a_inv in K9 as [-> _]. apply append_a_inv in H as [-> L].
    fold (answer_structs p) in K8. rewrite D6 in K8. cbn [fold_left take_alg dhe_of aead_of reqa_of ks_of as_alg] in K8.
    destruct (Hf FMeasSpec) as (a1 & b1 & E1). destruct (Hf FAsym) as (a2 & b2 & E2). destruct (Hf FHash) as (a3 & b3 & E3). destruct (Hf FDhe) as (a4 & b4 & E4). destruct (Hf FAead) as (a5 & b5 & E5). destruct (Hf FReqAsym) as (a6 & b6 & E6). destruct (Hf FKeySched) as (a7 & b7 & E7).
    rewrite E1 in D1. rewrite E2 in D3. rewrite E3 in D4. rewrite E4, E5, E6, E7 in K8.
    pose proof (prio_fits FMeasSpec a1 b1) as [P1 _]. pose proof (prio_fits FAsym a2 b2) as [P2 _]. pose proof (prio_fits FHash a3 b3) as [P3 _]. pose proof (prio_fits FDhe a4 b4) as [P4 _]. pose proof (prio_fits FAead a5 b5) as [P5 _]. pose proof (prio_fits FReqAsym a6 b6) as [P6 _]. pose proof (prio_fits FKeySched a7 b7) as [P7 _].
    cbv zeta beta iota in P1, P2, P3, P4, P5, P6, P7. rewrite P1 in D1. rewrite P2 in D3. rewrite P3 in D4. rewrite P4, P5, P6, P7 in K8.
    assert (D2' : ar_mhash p = n_mhash n). { rewrite D2, Hm. rewrite u32_val; [exact Wm|]. red in Wm. rewrite <- Wm. apply (N.lt_trans _ 256); [apply land_byte; reflexivity|reflexivity]. }
    assert (D5' : ar_opaque p = n_opaque n). { rewrite D5. destruct (N.leb_spec 18 (ver x)) as [_|Lx]; [reflexivity|]. rewrite Ho, (Oz Lx), N.land_0_r. reflexivity. }
    assert (M8 : x_msg_a t8 = x_msg_a y) by (subst t8 t7 t5 t3; unfold modn; cbn [x_msg_a set_x_nego]; congruence).
    assert (F8 : x_cfg t8 = x_cfg x) by (subst t8 t7 t5 t3; unfold modn; cbn [x_cfg set_x_nego]; congruence).
    cbn [x_nego x_msg_a x_cfg set_x_msg_a] in *. rewrite len_app, M8 in L.
    destruct Hw as [[-> Mz]|(e & _ & _ & Lz)]; [|exfalso; unfold m in *; lia].
    rewrite Mz, M8, F8, Cz, <- app_assoc.
    assert (Nt : x_nego t8 = set_n_ks (prioritize (table_of FKeySched) a7 b7) (set_n_req_asym (prioritize (table_of FReqAsym) a6 b6) (set_n_aead (prioritize (table_of FAead) a5 b5) (set_n_dhe (prioritize (table_of FDhe) a4 b4)
       (set_n_asym (ar_asym p) (set_n_hash (ar_hash p) (set_n_mhash (ar_mhash p) (set_n_opaque (ar_opaque p) (set_n_mspec (ar_mspec p) (x_nego x)))))))))).
    { subst t8 t7 t5 t3. unfold modn. cbn [x_nego set_x_nego]. rewrite N2. reflexivity. }
    rewrite Nt. split; [intro f; destruct f; cbn [recorded n_mspec n_asym n_hash n_dhe n_aead n_req_asym n_ks set_n_ks set_n_req_asym set_n_aead set_n_dhe set_n_asym set_n_hash set_n_mhash set_n_opaque set_n_mspec]; first [rewrite D1; symmetry; exact E1|rewrite D3; symmetry; exact E2|rewrite D4; symmetry; exact E3|symmetry; exact E4|symmetry; exact E5|symmetry; exact E6|symmetry; exact E7]|].
    split; [exact D2'|]. split; [exact D5'|]. split; [reflexivity|]. split; [exact Hv|]. split; [reflexivity|]. split; [exact Hr|]. split; [reflexivity|]. split; [exact Hq|]. split; [reflexivity|]. split; reflexivity.
Qed.
