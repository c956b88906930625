(** C86: connection setup between two fitting ends succeeds — GET_CAPABILITIES. *)
From Verif Require Import Bytes BytesFacts Status Codec CodecProofs Parse ParseProofs Algo Monad MsgConn MsgAuth MsgSession MsgOther Message Opaque SpecMsg MsgProofs MsgRound MsgRound2 MsgCaps PropMsg.
From Verif Require Import Transport Crypto KeySchedule Session Signing CertOps ChainVerify Context
  RspBase RspConn RspSess RspEncap Responder StRel RspFrame RspCalm RspOpcode RspPass RspEst RspDeliver SpecResponder ReqBase ReqConn ReqSess SpecReq ReqFrame ReqAnswer ReqTrans SpecAuth ReqSplit ReqHist ReqAuth SpecRetr Pair ReqTwin RspTwin PairTwin PropReset PropAlgs PropOffer PropTake PropVersion PropFetch PropServe PropCert PropRetr SpecShare ConnTwin SpecConnect ConnRuns.
From Coq Require Import Lia.
Local Open Scope N_scope.

Lemma on_response_fwd {A} c v l (k : bytes -> st ctx A) x : ver x = v -> (c =? RC_ERROR) = false -> on_response c (Some 0) (v :: c :: l) k x = k l x.
Proof. intros V Nc. unfold on_response. rewrite bind_get. cbn [read_header]. rewrite read_header_cons. cbn [h_version]. rewrite V, N.eqb_refl. cbn [negb]. unfold on_code. cbn [h_code]. rewrite N.eqb_refl. reflexivity. Qed.
Definition caps_len (v : N) : N := if 0x12 <=? v then 20 else 12.
Lemma get_capabilities_runs E Er xr x v : e_tr E = e_tr Er -> SpecRetr.carries (e_tr Er) -> (forall i f, e_send Er i f = None) ->
  let y := peer_after Er xr (rev (x_sent x)) in let rq := x_cfg x in let rs := x_cfg y in
  v = 0x11 \/ v = 0x12 -> ver x = v -> can_send x 20 -> settings_ok rq -> settings_ok rs -> req_caps_consistent v (cf_req_cap rq) -> rsp_caps_consistent v (cf_rsp_cap rs) ->
  len (x_msg_a x) = 16 -> x_conn y = CONN_AFTER_VERSION -> x_nego y = nego_default -> len (x_msg_a y) = 16 ->
  exists x1, get_capabilities (facing E Er xr) x = (Ok tt, x1) /\ ver x1 = v /\ x_cfg x1 = rq /\
    n_req_cap (x_nego x1) = cf_req_cap rq /\ n_rsp_cap (x_nego x1) = cf_rsp_cap rs /\
    n_rsp_dts (x_nego x1) = (if 0x12 <=? v then cf_dts rs else n_rsp_dts (x_nego x)) /\ len (x_msg_a x1) <= 56 /\
    let y1 := peer_after Er xr (rev (x_sent x1)) in
      x_conn y1 = CONN_AFTER_CAPABILITIES /\ ver y1 = v /\ n_req_cap (x_nego y1) = cf_req_cap rq /\ n_rsp_cap (x_nego y1) = cf_rsp_cap rs /\
      room (n_req_dts (x_nego y1)) 52 /\ x_cfg y1 = rs /\ x_chain_data y1 = x_chain_data y /\ len (x_msg_a y1) <= 56.
Proof.
  intros Tr Ca Sn y rq rs Cv Hv Cs Sq Ss Rq Rs La Yc Yn Ly.
  set (x0 := reset_buffer RC_GET_CAPABILITIES None x).
  destruct (keeps_reset RC_GET_CAPABILITIES x) as (K1 & K2 & K3 & K4 & _). cbv zeta in *. fold x0 in K1, K2, K3, K4.
  assert (V0 : ver x0 = v) by (unfold ver; rewrite K1; exact Hv).
  set (s := announcement v rq). set (w := capabilities_reply v rs).
  assert (Ls : len s = 20 \/ len s = 12) by (unfold s, announcement; destruct Cv as [-> | ->]; [right|left]; reflexivity).
  assert (Lw : len w = 20 \/ len w = 12) by (unfold w, capabilities_reply; destruct Cv as [-> | ->]; [right|left]; reflexivity).
  assert (Vx : v < 256) by (destruct Cv as [-> | ->]; reflexivity).
  assert (V10 : 16 <= v) by (destruct Cv as [-> | ->]; vm_compute; discriminate).
  assert (Ctq : cf_req_ct rq < 256) by (apply Sq). assert (Cts : cf_rsp_ct rs < 256) by (apply Ss).
  assert (Bs : bytes_ok s) by (apply announcement_ok; assumption).
  assert (Bw : bytes_ok w). { unfold w, capabilities_reply. apply Forall_app. split; [repeat constructor; assumption|]. apply Forall_app. split; [apply le_bytes_ok|]. destruct (18 <=? v); [|constructor]. apply Forall_app. split; apply le_bytes_ok. }
  set (p := flags_of (cf_req_cap rq) v (cf_req_ct rq) rq). set (q := flags_of (cf_rsp_cap rs) v (cf_rsp_ct rs) rs).
  destruct (write_capability_fwd v rq y p Yc V10) as (z & W & Z1 & Z2 & Z3 & Z4 & Z5).
  { intros c Hc. exact (announcement_reads c v rq Hc Cv Sq Rq). }
  { rewrite Ly. fold s. fold rs. fold w. change MAX_A with 156. lia. }
  fold s in W, Z5. fold rs in W, Z1, Z2, Z5. fold w in W, Z5. rewrite Yn in Z1.
  assert (P0 : peer_after Er xr (rev (x_sent x0)) = y) by (rewrite K4; reflexivity).
  assert (Cs0 : can_send x0 (len s)). { unfold can_send in *. rewrite K1. destruct Cs as [->|Cs]; [now left|right; lia]. }
  assert (Rd : n_req_dts (x_nego z) = (if 0x12 <=? v then cf_dts rq else 0) /\ ver z = v /\ n_req_cap (x_nego z) = cf_req_cap rq /\ n_rsp_cap (x_nego z) = cf_rsp_cap rs).
  { unfold ver. rewrite Z1, take_caps_version. unfold p, flags_of. destruct Cv as [-> | ->]; split; [|split; [|split]| |split; [|split]]; reflexivity. }
  destruct Rd as (R1 & R2 & R3 & R4).
  assert (Tl : too_large z w = false). { unfold too_large. apply (room_large _ 20); [|lia]. rewrite R1. destruct (18 <=? v); [right; destruct Sq as (_&_&_&_&_&_&_&_&_&_&_&_&_&_&_&D&_); lia|now left]. }
  assert (W0 : write_capability s (peer_after Er xr (rev (x_sent x0))) = (Ok w, z)) by (rewrite P0; exact W).
  assert (Sz : x_sent z = x_sent (peer_after Er xr (rev (x_sent x0)))) by (rewrite P0; exact Z4).
  assert (Ls4 : len s <= 4000) by lia. assert (Lw4 : len w <= 4000) by lia.
  assert (Ms4 : len s mod 4 = 0) by (destruct Ls as [-> | ->]; reflexivity). assert (Mw4 : len w mod 4 = 0) by (destruct Lw as [-> | ->]; reflexivity).
  assert (Opw : opcode w = Some 0x61) by reflexivity.
  destruct (exchange_runs E Er xr s x0 write_capability 0x61 CONN_AFTER_CAPABILITIES w z Tr Ca Sn Bs Ls4 Ms4 Cs0 (dispatch_caps Er v rq) W0 Sz Bw Lw4 Mw4 Opw Tl after_caps2) as (x1 & x2 & S1 & S2 & (i & l & S3) & y2 & P & (i' & l' & P2)).
  assert (Q1 : x_nego x2 = x_nego x /\ x_cfg x2 = rq /\ x_msg_a x2 = x_msg_a x) by (rewrite S3; cbn [x_nego x_cfg x_msg_a set_x_sent set_x_io]; rewrite K1, K2, K3; repeat split; reflexivity).
  destruct Q1 as (Q1 & Q2 & Q3).
  assert (Enc : req_enc (get_capabilities_msg x0) x0 = (Ok s, x0)). { destruct (emit_announcement x0) as [J1 J2]. rewrite V0, K3 in J1, J2. apply (req_enc_fwd _ _ _ J1 J2). change (len s <= 4096). lia. }
  assert (K0 : reset_buffer RC_GET_CAPABILITIES None x = x0) by reflexivity. clear S3 W W0 Sz Tl. clearbody x0.
  set (x3 := set_x_msg_a (x_msg_a x ++ s ++ w) (modn (ReqConn.take_capabilities rq q) x2)).
  assert (H : handle_capabilities_rsp s w x2 = (Ok tt, x3)).
  { unfold handle_capabilities_rsp. assert (Ew : w = v :: RC_CAPABILITIES :: skipn 2 w) by reflexivity. rewrite Ew at 1. rewrite on_response_fwd; [|unfold ver; rewrite Q1; exact Hv|reflexivity].
    unfold reading. rewrite bind_rd. assert (D : dec_capabilities (xc x2) (skipn 2 w) = POk q []). { apply capabilities_read; [|exact Cv|exact Ss|exact Rs]. change (n_version (x_nego x2) = v). rewrite Q1. exact Hv. }
    rewrite D. rewrite bind_mod, Q2. assert (U : used_of w [] = w) by (rewrite <- (app_nil_r w) at 1; apply used_app). rewrite U. unfold x3.
    set (t := modn (ReqConn.take_capabilities rq q) x2). assert (At : x_msg_a t = x_msg_a x) by (unfold t, modn; cbn [x_msg_a set_x_nego]; exact Q3). clearbody t.
    unfold sbind. rewrite append_a_ok by (rewrite At; change MAX_A with 156; lia). rewrite append_a_ok by (cbn [x_msg_a set_x_msg_a]; rewrite len_app, ?At; change MAX_A with 156; clear - La Ls Lw; clearbody s w; lia). cbn [x_msg_a set_x_msg_a]. rewrite ?At, <- app_assoc. reflexivity. }
  assert (G : get_capabilities (facing E Er xr) x = (Ok tt, x3)).
  { unfold get_capabilities. rewrite bind_mod, K0, bind_get. unfold sbind at 1. rewrite Enc. unfold sbind at 1. rewrite S1. unfold sbind at 1. rewrite S2. exact H. }
  assert (X3 : x_nego x3 = ReqConn.take_capabilities rq q (x_nego x) /\ x_cfg x3 = rq /\ x_msg_a x3 = x_msg_a x ++ s ++ w /\ x_sent x3 = x_sent x2).
  { unfold x3, modn. cbn [x_nego x_cfg x_msg_a x_sent set_x_msg_a set_x_nego]. rewrite Q1. split; [reflexivity|]. split; [exact Q2|]. split; reflexivity. }
  clearbody x3. destruct X3 as (X1 & X2 & X3 & X4). exists x3. split; [exact G|].
  assert (F : ver x3 = v /\ n_req_cap (x_nego x3) = cf_req_cap rq /\ n_rsp_cap (x_nego x3) = cf_rsp_cap rs /\ n_rsp_dts (x_nego x3) = (if 18 <=? v then cf_dts rs else n_rsp_dts (x_nego x))).
  { unfold ver in Hv |- *. rewrite X1. unfold ReqConn.take_capabilities, q, flags_of. cbn [n_version set_n_rsp_cap set_n_rsp_ct set_n_req_cap set_n_req_ct]. rewrite Hv. destruct Cv as [-> | ->]; (split; [exact Hv|]); (split; [reflexivity|split; reflexivity]). }
  destruct F as (F1 & F2 & F3 & F4). split; [exact F1|]. split; [exact X2|]. split; [exact F2|]. split; [exact F3|]. split; [exact F4|].
  split; [rewrite X3, !len_app; lia|]. cbv zeta. rewrite X4, P, P2. cbn [x_conn x_nego x_cfg x_chain_data x_msg_a set_x_conn set_x_sent set_x_io]. unfold ver. cbn [x_nego set_x_conn set_x_sent set_x_io].
  split; [reflexivity|]. split; [exact R2|]. split; [exact R3|]. split; [exact R4|]. split; [rewrite R1; unfold room; destruct (18 <=? v); [right; apply Sq|now left]|].
  split; [exact Z2|]. split; [exact Z3|]. rewrite Z5, !len_app. lia.
Qed.
