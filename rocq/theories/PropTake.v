(** C16: the capabilities the requester announces and records. *)
From Verif Require Import Bytes BytesFacts Status Codec CodecProofs Parse ParseProofs Algo Monad.
From Verif Require Import MsgConn MsgAuth MsgSession MsgOther Message SpecMsg MsgProofs MsgCaps MsgRound MsgLocal Opaque Transport Crypto KeySchedule Session Signing CertOps ChainVerify Context
  RspBase RspConn RspSess RspEncap Responder StRel RspFrame RspCalm RspOpcode RspPass RspEst ReqBase ReqConn ReqSess SpecReq ReqFrame ReqAnswer ReqTrans SpecAuth ReqSplit ReqHist ReqAuth ReqMeas.
From Verif Require Import PropAlgs PropOffer PropRetr ToyCrypto PropPhase ExRun Pair ExPair ExReach.
From Coq Require Import Lia.
Local Open Scope N_scope.

(** GET_CAPABILITIES of a requester configured with [c] *)
Definition announcement (v : N) (c : config) : bytes :=
  [v; 0xE1; 0; 0] ++ (if 0x11 <=? v then [0; cf_req_ct c; 0; 0] ++ le_bytes 4 (cf_req_cap c) else []) ++
  (if 0x12 <=? v then le_bytes 4 (cf_dts c) ++ le_bytes 4 (cf_max c) else []).
(** CAPABILITIES: reserved bytes, CT exponent, flags and (from 1.2 on) the two sizes *)
Definition capabilities_message (v : N) (m : bytes) (ct flags dts max : N) (rest : bytes) : Prop :=
  exists a1 a2 a3 a4 a5 f d x, m = [v; 0x61; a1; a2; a3; ct; a4; a5] ++ f ++ (if 0x12 <=? v then d ++ x else []) ++ rest /\
    length f = 4%nat /\ flags = N.land (le_val f) RSP_CAP_MASK /\
    (0x12 <= v -> length d = 4%nat /\ length x = 4%nat /\ dts = le_val d /\ max = le_val x).

Lemma d_u32_split l a r : d_u32 l = POk a r -> exists f, l = f ++ r /\ length f = 4%nat /\ le_val f = a.
Proof.
  unfold d_u32, dlift, p_u32, p_le. destruct (ptake 4 l) as [[b s]|] eqn:E; [|discriminate]. apply CodecProofs.ptake_Some in E as [-> HL]. intro H. exists b.
  assert (le_val b = a /\ s = r) as [? ->] by (split; congruence). auto.
Qed.
Lemma d_u8_split l a r : d_u8 l = POk a r -> l = a :: r. Proof. exact (MsgRound2.d_u8_inv l a r). Qed.
Lemma emit_announcement x : xwire (enc_message (xc x) (get_capabilities_msg x)) = Some (announcement (ver x) (x_cfg x)) /\ xcount (enc_message (xc x) (get_capabilities_msg x)) = len (announcement (ver x) (x_cfg x)).
Proof.
  unfold enc_message, get_capabilities_msg. cbn [m_header m_payload]. unfold enc_payload, enc_get_capabilities, enc_header. cbn [h_version h_code cp_ct cp_flags cp_dts cp_max].
  unfold ver_ge, announcement, V11, V12, ver. cbn [xc c_nego].
  split; destruct (17 <=? n_version (x_nego x)); destruct (18 <=? n_version (x_nego x)); rewrite ?xwire_app, ?xw8, ?xw16, ?xw32; cbn [xwire]; rewrite ?app_nil_r; try reflexivity; vm_compute; reflexivity.
Qed.
Lemma dec_caps_split c l p r : dec_capabilities c l = POk p r -> capabilities_message (n_version (c_nego c)) (n_version (c_nego c) :: 0x61 :: l) (cp_ct p) (cp_flags p) (cp_dts p) (cp_max p) r.
Proof.
  unfold dec_capabilities. intro H. apply dbind_ok in H as (a1 & m1 & D1 & H). apply dbind_ok in H as (a2 & m2 & D2 & H). apply dbind_ok in H as (a3 & m3 & D3 & H). apply dbind_ok in H as (ct & m4 & D4 & H).
  apply dbind_ok in H as (a4 & m5 & D5 & H). apply dbind_ok in H as (fl & m6 & D6 & H). apply dguard_ok in H as [_ H]. apply dbind_ok in H as (sz & m7 & D7 & H). apply dret_ok in H as [-> ->]. cbn [cp_ct cp_flags cp_dts cp_max].
  apply d_u8_split in D1, D2, D3, D4. apply d_u16_split in D5 as (g & -> & Lg & _). destruct g as [|g1 [|g2 [|]]]; try discriminate Lg. unfold d_flags32 in D6. apply dbind_ok in D6 as (b & m8 & D6 & H6). apply dret_ok in H6 as [-> ->].
  apply d_u32_split in D6 as (f & -> & Lf & <-). unfold ver_ge, V12 in D7. unfold capabilities_message.
  destruct (18 <=? n_version (c_nego c)) eqn:V.
  - apply dbind_ok in D7 as (d & m9 & D8 & D7). apply dbind_ok in D7 as (x & m10 & D9 & D7). apply dguard_ok in D7 as [_ D7]. apply dret_ok in D7 as [-> ->].
    apply d_u32_split in D8 as (d' & -> & Ld & <-). apply d_u32_split in D9 as (x' & -> & Lx & <-). exists a1, a2, a3, g1, g2, f, d', x'. subst. split; [cbn [app]; rewrite <- app_assoc; reflexivity|]. split; [exact Lf|]. split; [reflexivity|]. intros _. auto.
  - apply dret_ok in D7 as [-> ->]. exists a1, a2, a3, g1, g2, f, [], []. subst. split; [reflexivity|]. split; [exact Lf|]. split; [reflexivity|]. apply N.leb_gt in V. lia.
Qed.

(** C16: what the requester announces is its configuration, and what it records of the responder is
    what the CAPABILITIES it received says; the connection's other parameters stay. *)
Theorem C16_requester_records_capabilities : forall E x u x', get_capabilities E x = (Ok u, x') ->
  exists b dts max rest, exchanged E None x x' (announcement (ver x) (x_cfg x)) b /\
    capabilities_message (ver x) b (n_rsp_ct (x_nego x')) (n_rsp_cap (x_nego x')) dts max rest /\
    n_req_cap (x_nego x') = cf_req_cap (x_cfg x) /\ n_req_ct (x_nego x') = cf_req_ct (x_cfg x) /\
    (if 0x12 <=? ver x then
       n_rsp_dts (x_nego x') = dts /\ n_rsp_max (x_nego x') = max /\ n_req_dts (x_nego x') = cf_dts (x_cfg x) /\ n_req_max (x_nego x') = cf_max (x_cfg x)
     else n_rsp_dts (x_nego x') = n_rsp_dts (x_nego x) /\ n_rsp_max (x_nego x') = n_rsp_max (x_nego x)) /\
    ver x' = ver x.
Proof.
  intros E x u x' H. unfold get_capabilities in H. bi H. apply mod_inv in P. bg H. bi H. pose proof (q_enc _ _ _ _ P0) as Qy. subst y0. bi H. bi H.
  pose proof (quiet_handle_capabilities _ _ _ _ _ H) as Q.
  assert (Er : x_cfg y = x_cfg x /\ x_nego y = x_nego x /\ xc y = xc x).
  { subst y. unfold reset_buffer, reset_m, reset_c, reset_b. repeat (match goal with |- context [if ?b then _ else _] => destruct b end); auto. }
  destruct Er as (Er1 & Er2 & Er3).
  assert (v0 = announcement (ver x) (x_cfg x)) as ->. { destruct (emit_announcement y) as [K1 K2]. unfold ver in *. rewrite Er1, Er2 in K1, K2. exact (req_enc_exact _ _ _ _ _ K1 K2 P0). }
  assert (Ky : xc y1 = xc x /\ x_cfg y1 = x_cfg x).
  { pose proof (keeps_send_on E None _ _ _ _ P1) as K1. pose proof (keeps_recv_on E None _ _ _ _ P2) as K2. unfold keeps in K1, K2. rewrite K2. unfold xc at 1. cbn. rewrite K1. cbn. split; [exact Er3|exact Er1]. }
  destruct Ky as [Ky Cy]. assert (Ny : x_nego y1 = x_nego x) by (unfold xc in Ky; congruence).
  assert (Ex : exchanged E None x x' (announcement (ver x) (x_cfg x)) v2).
  { subst y. refine (exchanged_by E None false x _ _ _ _ _ _ _ x' (quiet_reset_buffer _ _ _) P1 (q_refl _) P2 Q). }
  unfold handle_capabilities_rsp in H. apply on_response_ok in H as (r & Eb & H). apply reading_ok in H as (p & rest & D & H). rewrite Ky in D.
  assert (Vy : ver y1 = ver x) by (unfold ver; congruence). rewrite Vy in Eb.
  bi H. apply mod_inv in P3. bi H. apply sn_append_a in P4. apply sn_append_a in H. unfold same_nego in *. assert (Nx : x_nego x' = ReqConn.take_capabilities (x_cfg x) p (x_nego x)).
  { rewrite H, P4, P3, Cy. unfold modn. cbn [x_nego set_x_nego]. rewrite Ny. reflexivity. }
  apply dec_caps_split in D. change (n_version (c_nego (xc x))) with (ver x) in D. change RC_CAPABILITIES with 0x61 in Eb. rewrite <- Eb in D.
  exists v2, (cp_dts p), (cp_max p), rest. unfold ReqConn.take_capabilities in Nx. cbn [n_version set_n_rsp_cap set_n_rsp_ct set_n_req_cap set_n_req_ct] in Nx. change (n_version (x_nego x)) with (ver x) in Nx. unfold ver at 4. rewrite Nx.
  destruct (18 <=? ver x); repeat split; try assumption; exact Ex.
Qed.
Print Assumptions C16_requester_records_capabilities.
Definition tk0 : ctx := Eval vm_compute in snd (get_version pr_env pr_req).
Example C16_case2 : exists u, get_capabilities pr_env tk0 = (Ok u, snd (get_capabilities pr_env tk0)).
Proof. apply okb_ok. vm_compute. reflexivity. Qed.

(** C41: the number of measurements a caller is told: for the total (operation 0) the number in the
    response, otherwise the number of blocks in the returned record. *)
Theorem C41_measurement_count : forall E x sid slot attr op n record x', get_measurements E sid slot attr op x = (Ok (n, record), x') ->
  exists s b body p rest, exchanged E sid x x' s b /\ b = ver x :: 0x60 :: body /\
    dec_meas_rsp (asked (OMeasurements sid slot attr op) x) body = POk p rest /\
    record = ms_record p /\ n = (if op =? 0 then ms_number p else mr_blocks (ms_record p)).
Proof.
  intros E x sid slot attr op n record x' H. unfold get_measurements in H. bi H. apply fail_inv in P as [_ ->]. bi H. apply mod_inv in P as ->. bi H. bi H. apply ok_inv in P0 as [Nn ->].
  bg H. bi H. pose proof (q_enc _ _ _ _ P0) as ->. bi H. bi H. pose proof (quiet_handle_measurements _ _ _ _ _ _ _ _ _ _ H) as Q.
  apply xk_random in P as X. destruct (send_frames E sid _ _ _ _ P1) as [_ S2]. destruct (recv_frames E sid _ _ _ _ P2) as [_ R2].
  assert (Ex : exchanged E sid x x' v3 v5). { refine (exchanged_by E sid true x _ _ _ _ _ _ _ x' _ P1 (q_refl _) P2 Q); eapply q_trans; [apply quiet_reset_buffer|]; exact (quiet_random _ _ _ _ _ P). }
  assert (Xk : xk x y1). { eapply xk_trans; [eapply xk_trans; [apply xk_reset_buffer|exact X]|]. eapply xk_trans; eassumption. }
  unfold handle_measurements in H. cbv zeta in H. rewrite contains_bit in H. bi H. apply mod_inv in P3 as ->. apply on_response_ok in H as (r & Eb & H). apply reading_ok in H as (p & rest & D & H).
  bi H. apply mod_inv in P3 as ->. bg H. bi H. bi H. bi H. bi H. bi H. apply ret_inv in H as [H ->].
  destruct Xk as [Xc _]. rewrite <- (asked_xk (OMeasurements sid slot attr op) _ _ Xc).
  exists v3, v5, r, p, rest. split; [exact Ex|]. split; [|split; [exact D|split; congruence]].
  assert (V : ver y1 = ver x) by (unfold ver; apply (f_equal c_nego) in Xc; unfold xc in Xc; cbn [c_nego] in Xc; congruence). rewrite <- V. exact Eb.
Qed.
Print Assumptions C41_measurement_count.
