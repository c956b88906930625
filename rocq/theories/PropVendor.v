(** C94: vendor-defined messages carry what the application gave.  C95 (does not hold): they can be
    sent on a negotiated connection and in a session. *)
From Verif Require Import Bytes BytesFacts Status Codec CodecProofs Parse ParseProofs Algo Monad MsgConn MsgAuth MsgSession MsgOther Message Opaque SpecMsg MsgProofs MsgRound MsgRound2.
From Verif Require Import Transport Crypto KeySchedule Session Signing CertOps ChainVerify Context SpecSession SignProofs
  RspBase RspConn RspSess RspEncap Responder StRel RspFrame RspCalm RspOpcode RspSend SpecResponder SpecFinish RspPhase RspPass RspSlots RspSize RspTable RspIso RspEst RspDeliver RspRefuse
  ToyCrypto PropPhase ExRun PropTable PropReset PropSess PropDigest SpecReply SpecGiven.
From Verif Require Import PropArgs ReqBase ReqConn ReqSess SpecReq ReqFrame ReqAnswer SpecAuth ReqTrans ReqMeas ReqTwin PropRetr PropAlgs PairTwin WireTwin PropShare PropReply PropReply3 Pair ExPair ReqAuth ReqSplit ReqHist ReqOpen ExReach.
From Coq Require Import List Lia.
Local Open Scope N_scope.

(** VENDOR_DEFINED (code 0xFE request, 0x7E response): the two parameter bytes, standard body, vendor id, payload *)
Definition vendor_message (v code p1 p2 std : N) (vid payload : bytes) : bytes :=
  [v; code; p1; p2] ++ le_bytes 2 std ++ [len vid] ++ vid ++ le_bytes 2 (len payload) ++ payload.
Lemma dec_vendor_asked p1 p2 std vid payload rest : std < 65536 -> len vid <= 255 -> len payload <= 4087 ->
  dec_vendor (skipn 2 (vendor_message 0 0 p1 p2 std vid payload) ++ rest) = POk (mkVendor std (mkV (len vid) (pad_to MAX_VENDOR_ID vid)) (mkV (len payload) (pad_to MAX_VENDOR_PAYLOAD payload))) rest.
Proof.
  intros Hs Hi Hp. unfold vendor_message. cbn [app skipn]. unfold dec_vendor, dbind. rewrite !d_u8_cons. rewrite <- !app_assoc. rewrite (d_u16_le std _ Hs). cbn [app]. rewrite d_u8_cons.
  rewrite <- !app_assoc. rewrite d_fixed_pad by (unfold MAX_VENDOR_ID, len in *; lia). rewrite d_u16_le by lia. rewrite d_fixed_pad by (unfold MAX_VENDOR_PAYLOAD, len in *; lia). reflexivity.
Qed.
Lemma padded_bytes m b : (length b <= m)%nat -> v_bytes (mkV (len b) (pad_to m b)) = b.
Proof. intro L. unfold v_bytes, pad_to. cbn [v_size v_data]. unfold len. rewrite Nat2N.id, (firstn_all2 b L), firstn_app, firstn_all, Nat.sub_diag, firstn_O, app_nil_r. reflexivity. Qed.
Lemma xwire_vendor c v pay code std i p : (pay = PVendorReq (mkVendor std i p) \/ pay = PVendorRsp (mkVendor std i p)) -> len (v_bytes i) = v_size i -> len (v_bytes p) = v_size p ->
  xwire (enc_message c (mkMsg (mkHeader v code) pay)) = Some (vendor_message v code 0 0 std (v_bytes i) (v_bytes p)) /\
  xcount (enc_message c (mkMsg (mkHeader v code) pay)) = len (vendor_message v code 0 0 std (v_bytes i) (v_bytes p)).
Proof.
  intros Hp Li Lp. assert (Y : enc_payload c pay = enc_vendor (mkVendor std i p)) by (destruct Hp as [-> | ->]; reflexivity).
  unfold enc_message. cbn [m_header m_payload]. rewrite Y. unfold enc_header, enc_vendor. cbn [h_version h_code vd_standard vd_id vd_payload].
  unfold vendor_message. rewrite Li, Lp. split.
  - rewrite !xwire_app, !ReqHand.xwh8, !ReqHand.xwh16. unfold x_arr. rewrite !xwire_of, !wire_arr. reflexivity.
  - rewrite !xcount_app, !ReqHand2.xch8, !ReqHand2.xch16. unfold x_arr. rewrite !xcount_of, !wire_arr, !len_app, Li, Lp. unfold len. rewrite !le_bytes_length. cbn [length]. lia.
Qed.
Lemma write_vendor_exact E sid p1 p2 std vid payload reply rest x : std < 65536 -> len vid <= 255 -> len payload <= 4087 -> e_vendor E payload = Ok reply -> 9 + len vid + len reply <= 4096 ->
  write_vendor E sid (vendor_message (ver x) 0xFE p1 p2 std vid payload ++ rest) x = (Ok (vendor_message (ver x) 0x7E 0 0 std vid reply), reset_buffer RC_VENDOR_REQ sid x) /\
  len (vendor_message (ver x) 0x7E 0 0 std vid reply) <= 4096.
Proof.
  intros Hs Hi Hp Ev Fit. unfold write_vendor, with_version. rewrite bind_get.
  assert (Rh : read_header (vendor_message (ver x) 0xFE p1 p2 std vid payload ++ rest) = Some (mkHeader (ver x) 0xFE, skipn 2 (vendor_message 0 0 p1 p2 std vid payload) ++ rest)) by reflexivity.
  rewrite Rh. cbn [h_version]. rewrite N.eqb_refl. cbn [negb]. rewrite bind_mod. rewrite bind_rd, (dec_vendor_asked p1 p2 std vid payload rest Hs Hi Hp). cbv beta iota. cbn [vd_payload vd_standard vd_id].
  assert (Lp : (length payload <= MAX_VENDOR_PAYLOAD)%nat) by (unfold len, MAX_VENDOR_PAYLOAD in *; lia). assert (Li : (length vid <= MAX_VENDOR_ID)%nat) by (unfold len, MAX_VENDOR_ID in *; lia). assert (Lr : (length reply <= MAX_VENDOR_PAYLOAD)%nat) by (unfold len, MAX_VENDOR_PAYLOAD in *; lia).
  rewrite (padded_bytes _ _ Lp), Ev. unfold sbind at 1, sassert. replace (len reply <=? N.of_nat MAX_VENDOR_PAYLOAD) with true by (symmetry; apply N.leb_le; unfold len; lia). unfold sret at 1. rewrite bind_get.
  set (y := reset_buffer RC_VENDOR_REQ sid x). assert (V : ver y = ver x) by (subst y; destruct sid; reflexivity).
  set (m := mkMsg (mkHeader (ver y) RC_VENDOR_RSP) (PVendorRsp (mkVendor std (mkV (len vid) (pad_to MAX_VENDOR_ID vid)) (v_of MAX_VENDOR_PAYLOAD reply)))).
  assert (W : xwire (enc_message (xc y) m) = Some (vendor_message (ver y) 0x7E 0 0 std vid reply)).
  { destruct (xwire_vendor (xc y) (ver y) (m_payload m) 0x7E std (mkV (len vid) (pad_to MAX_VENDOR_ID vid)) (v_of MAX_VENDOR_PAYLOAD reply) (or_intror eq_refl)) as [W _].
    - rewrite (padded_bytes _ _ Li). reflexivity.
    - rewrite (WireTwin.v_of_bytes _ _ Lr). reflexivity.
    - rewrite (padded_bytes _ _ Li), (WireTwin.v_of_bytes _ _ Lr) in W. exact W. }
  assert (Lw : len (vendor_message (ver y) 0x7E 0 0 std vid reply) <= 4096) by (unfold vendor_message; rewrite !len_app; unfold len in *; rewrite !le_bytes_length; cbn [length]; lia).
  unfold encode_or_err, sbind, wenc. rewrite (emit_fits _ [] _ W) by exact Lw. cbn [fst snd app]. unfold sret. rewrite V in *. split; [reflexivity|exact Lw].
Qed.
(** C94: a VENDOR_DEFINED request that the application answers is answered with the application's
    payload, the request's standard body and vendor id; on the connection or in a session *)
Theorem C94_vendor_answer : forall E f sid p1 p2 std vid payload rest reply x r x',
  match sid with
  | None => plain_message E f = Some (vendor_message (ver x) 0xFE p1 p2 std vid payload ++ rest)
  | Some id => delivered E f x id (vendor_message (ver x) 0xFE p1 p2 std vid payload ++ rest) false /\ exists s, get_sess id x = Some s /\ s_state s = SEstablished
  end ->
  std < 65536 -> len vid <= 255 -> len payload <= 4087 -> e_vendor E payload = Ok reply -> 9 + len vid + len reply <= 4096 -> process_frame E f x = (r, x') ->
  one_reply E x x' (given x (fun m => m = vendor_message (ver x) 0x7E 0 0 std vid reply)) /\
  (sid = None -> device_works E -> n_req_dts (x_nego x) = 0 \/ 4 <= n_req_dts (x_nego x) -> x_sent x' <> x_sent x).
Proof.
  intros E f sid p1 p2 std vid payload rest reply x r x' Hd Hs Hi Hp Ev Fit H. set (q := vendor_message (ver x) 0xFE p1 p2 std vid payload) in *.
  assert (M : exists x0 r0, handle_vendor E sid (q ++ rest) x0 = (r0, x') /\ x_nego x0 = x_nego x /\ x_sent x0 = x_sent x).
  { destruct sid as [id|].
    - destruct Hd as (D & s & G & St). destruct (frame_delivered_l1l2 E f x id _ false s D G) as (s1 & K1 & K3 & K2 & K4). rewrite K4 in H.
      assert (S1 : s_state s1 = SEstablished) by congruence. apply is_ok_inv in H as [r0 H]. exists (mod_sess id (fun _ => s1) x), r0. set (y := mod_sess id (fun _ => s1) x) in *.
      unfold dispatch_secured in H. unfold sbind at 1, sget at 1 in H. rewrite K2, S1 in H. split; [exact H|]. split; reflexivity.
    - rewrite (frame_plain E f _ x Hd) in H. apply is_ok_inv in H as [r0 H]. exists x, r0. split; [exact H|]. split; reflexivity. }
  clear H Hd. destruct M as (x0 & r0 & H & N0 & S0). assert (V0 : ver x0 = ver x) by (unfold ver; rewrite N0; reflexivity).
  unfold handle_vendor, sbind in H.
  destruct (write_vendor_exact E sid p1 p2 std vid payload reply rest x0 Hs Hi Hp Ev Fit) as [W Lw]. rewrite V0 in W, Lw. change (vendor_message (ver x) 0xFE p1 p2 std vid payload) with q in W. rewrite W in H.
  set (w := vendor_message (ver x) 0x7E 0 0 std vid reply) in *. set (y := reset_buffer RC_VENDOR_REQ sid x0) in *.
  assert (N1 : x_nego y = x_nego x) by (subst y; destruct sid; exact N0). assert (S1 : x_sent y = x_sent x) by (subst y; destruct sid; exact S0). clearbody y.
  unfold one_reply. rewrite <- S1. split; [apply (given_send E sid w y x r0 x' (fun m => m = w) ltac:(unfold ver; rewrite N1; reflexivity) N1 eq_refl H)|].
  intros -> D L. rewrite <- N1 in L. exact (device_sends E None w y r0 x' D eq_refl L Lw H).
Qed.
Print Assumptions C94_vendor_answer.
(** and what the requester's caller gets is the payload of the VENDOR_DEFINED response received to the
    request made of its arguments *)
Lemma d_u8_split l a r : d_u8 l = POk a r -> l = a :: r.
Proof. destruct l as [|b l]; [discriminate|]. rewrite d_u8_cons. congruence. Qed.
Lemma d_fixed_taken max k r bb rest : d_fixed max k r = POk bb rest -> r = v_bytes (mkV k bb) ++ rest /\ len (v_bytes (mkV k bb)) = N.min k (N.of_nat max).
Proof.
  intro H. unfold d_fixed in H. unfold d_arr, dlift in H. rewrite CodecProofs.p_arr_ptake in H. destruct (ptake (Nat.min (N.to_nat k) max) r) as [[q m]|] eqn:Ep; [|discriminate].
  apply CodecProofs.ptake_Some in Ep as [-> Lq]. assert (bb = pad_to max q) as -> by congruence. assert (m = rest) as -> by congruence.
  assert (V : v_bytes (mkV k (pad_to max q)) = q).
  { unfold v_bytes. cbn [v_size v_data]. destruct (Nat.le_gt_cases (N.to_nat k) max) as [L|L].
    - replace (N.to_nat k) with (length q) by lia. apply pad_to_firstn. lia.
    - assert (Lm : length q = max) by lia. unfold pad_to. rewrite firstn_all2 with (l := q) by lia. rewrite Lm, Nat.sub_diag. cbn [repeat]. rewrite app_nil_r. apply firstn_all2. lia. }
  rewrite V. split; [reflexivity|unfold len; lia].
Qed.
Lemma vendor_parsed r p rest : dec_vendor r = POk p rest -> exists p1 p2 s1 s2 ni n1 n2 i,
  r = [p1; p2; s1; s2; ni] ++ i ++ [n1; n2] ++ v_bytes (vd_payload p) ++ rest /\ len i = N.min ni 255 /\ len (v_bytes (vd_payload p)) = N.min (le_val [n1; n2]) 4087.
Proof.
  unfold dec_vendor. intro H.
  unfold dbind at 1 in H. destruct (d_u8 r) as [p1 r1| |] eqn:D1; [|discriminate|discriminate]. apply d_u8_split in D1.
  unfold dbind at 1 in H. destruct (d_u8 r1) as [p2 r2| |] eqn:D2; [|discriminate|discriminate]. apply d_u8_split in D2.
  unfold dbind at 1 in H. destruct (d_u16 r2) as [st r3| |] eqn:D3; [|discriminate|discriminate]. apply d_u16_split in D3 as (fs & D3 & Ls & _).
  unfold dbind at 1 in H. destruct (d_u8 r3) as [ni r4| |] eqn:D4; [|discriminate|discriminate]. apply d_u8_split in D4.
  unfold dbind at 1 in H. destruct (d_fixed MAX_VENDOR_ID ni r4) as [i r5| |] eqn:D5; [|discriminate|discriminate]. apply d_fixed_taken in D5 as [D5 L5].
  unfold dbind at 1 in H. destruct (d_u16 r5) as [np r6| |] eqn:D6; [|discriminate|discriminate]. apply d_u16_split in D6 as (fn & D6 & Ln & Vn).
  unfold dbind at 1 in H. destruct (d_fixed MAX_VENDOR_PAYLOAD np r6) as [b r7| |] eqn:D7; [|discriminate|discriminate]. apply d_fixed_taken in D7 as [D7 L7].
  apply dret_ok in H as [-> ->]. cbn [vd_payload].
  destruct fs as [|s1 [|s2 [|? ?]]]; try discriminate. destruct fn as [|n1 [|n2 [|? ?]]]; try discriminate.
  exists p1, p2, s1, s2, ni, n1, n2, (v_bytes (mkV ni i)). split; [|split; [exact L5|rewrite L7; f_equal; congruence]].
  rewrite D1, D2, D3, D4, D5, D6, D7. cbn [app]. reflexivity.
Qed.
(** The requester's VENDOR_DEFINED request carries the caller's standard body, vendor id and payload;
    what the caller gets is the payload field of the VENDOR_DEFINED response received to it.  (The version
    byte of both is 0: see C95.) *)
Theorem C94_vendor_request : forall E sid std i d x p x',
  std < 65536 -> len i <= 255 -> len d <= 4087 -> vendor_req E sid std (v_of MAX_VENDOR_ID i) (v_of MAX_VENDOR_PAYLOAD d) x = (Ok p, x') ->
  exists b, exchanged E sid x x' (vendor_message 0 0xFE 0 0 std i d) b /\
  exists p1 p2 s1 s2 ni n1 n2 vid rest,
    b = [0; 0x7E; p1; p2; s1; s2; ni] ++ vid ++ [n1; n2] ++ v_bytes p ++ rest /\ len vid = N.min ni 255 /\ len (v_bytes p) = N.min (le_val [n1; n2]) 4087.
Proof.
  intros E sid std i d x p x' Hs Hi Hp H. unfold vendor_req in H. bi H. apply mod_inv in P as ->. bi H. apply mod_inv in P as ->. bg H. bi H.
  assert (Li : (length i <= MAX_VENDOR_ID)%nat) by (unfold len, MAX_VENDOR_ID in *; lia). assert (Lp : (length d <= MAX_VENDOR_PAYLOAD)%nat) by (unfold len, MAX_VENDOR_PAYLOAD in *; lia).
  set (z := reset_context (reset_buffer RC_VENDOR_REQ sid x)) in *.
  destruct (xwire_vendor (xc z) (ver z) (PVendorReq (mkVendor std (v_of MAX_VENDOR_ID i) (v_of MAX_VENDOR_PAYLOAD d))) RC_VENDOR_REQ std (v_of MAX_VENDOR_ID i) (v_of MAX_VENDOR_PAYLOAD d) (or_introl eq_refl)) as [W C].
  { rewrite (WireTwin.v_of_bytes _ _ Li). reflexivity. } { rewrite (WireTwin.v_of_bytes _ _ Lp). reflexivity. }
  rewrite (WireTwin.v_of_bytes _ _ Li), (WireTwin.v_of_bytes _ _ Lp) in W, C.
  pose proof (q_enc _ _ _ _ P) as Y. pose proof (req_enc_exact _ _ _ _ _ W C P) as S. rewrite Y, S in *. clear P Y S. bi H. bi H.
  assert (Q : rel quiet (vendor_answer sid v3)) by (unfold vendor_answer; qq). apply Q in H as H'.
  exists v3. split; [refine (exchanged_by E sid false x _ _ _ _ _ _ _ x' _ P (q_refl _) P0 H'); eapply q_trans; [apply quiet_reset_buffer|split; reflexivity]|].
  unfold vendor_answer in H. apply ReqFrame.on_response_ok in H as (r & -> & H). apply reading_ok in H as (pp & rest & D & H). apply ret_inv in H as [H _]. assert (p = vd_payload pp) as -> by congruence. clear H.
  destruct (vendor_parsed r pp rest D) as (p1 & p2 & s1 & s2 & ni & n1 & n2 & vid & -> & L1 & L2). exists p1, p2, s1, s2, ni, n1, n2, vid, rest.
  split; [|split; assumption]. cbn [app]. f_equal.
  destruct (send_frames E sid _ _ _ _ P) as [_ [S2 _]]. destruct (recv_frames E sid _ _ _ _ P0) as [_ [R2 _]].
  transitivity (ver z); [unfold xc in S2, R2; unfold ver; congruence|reflexivity].
Qed.
Print Assumptions C94_vendor_request.

(** C95 does not hold: the request erases the requester's connection and sessions before it is made. *)
Theorem C95_vendor_in_session_refuted : forall E id std i d x r x', id <> 0 -> vendor_req E (Some id) std i d x = (r, x') ->
  (forall p, r <> Ok p) /\ x_sent x' = x_sent x /\ x_io x' = x_io x.
Proof.
  intros E id std i d x r x' Z H.
  assert (N : no_session id (reset_context (reset_buffer RC_VENDOR_REQ (Some id) x))).
  { split; [exact Z|]. intros s Hs. unfold reset_context in Hs. cbn [x_sess set_x_sess] in Hs. apply in_map_iff in Hs as (t & <- & _). cbn. congruence. }
  assert (K : stops (vendor_req E (Some id) std i d) x).
  { unfold vendor_req. apply stops_mod; [apply quiet_reset_buffer|]. apply stops_mod; [split; reflexivity|]. apply stops_get. apply stops_encoded. intro s. apply stops_first, (stops_send _ _ _ _ N). }
  destruct (K r x' H) as [F [S I]]. auto.
Qed.
Print Assumptions C95_vendor_in_session_refuted.
(** on a negotiated connection with the library's own responder it fails, and connection and session are
    gone at the requester; before any negotiation it works *)
Theorem C95_vendor_on_connection_refuted :
  let vendor sid x := vendor_req pr_env sid 1 (v_of MAX_VENDOR_ID [7]) (v_of MAX_VENDOR_PAYLOAD [1; 2; 3]) x in
  (ver pr1 = 0x12 /\ (forall p, fst (vendor None pr1) <> Ok p) /\ ver (snd (vendor None pr1)) = 0) /\
  (get_sess pr_id pr7 <> None /\ (forall p, fst (vendor (Some pr_id) pr7) <> Ok p) /\ get_sess pr_id (snd (vendor (Some pr_id) pr7)) = None) /\
  exists p, fst (vendor None pr_req) = Ok p /\ v_bytes p = [1; 2; 3].
Proof.
  cbv zeta. split; [|split].
  - split; [reflexivity|]. assert (Q : vendor_req pr_env None 1 (v_of MAX_VENDOR_ID [7]) (v_of MAX_VENDOR_PAYLOAD [1; 2; 3]) pr1 = (Err ST_INVALID_MSG_FIELD, snd (vendor_req pr_env None 1 (v_of MAX_VENDOR_ID [7]) (v_of MAX_VENDOR_PAYLOAD [1; 2; 3]) pr1))) by (vm_compute; reflexivity).
    split; [rewrite Q; discriminate|vm_compute; reflexivity].
  - split; [discriminate|]. split; [|vm_compute; reflexivity]. destruct (vendor_req pr_env (Some pr_id) 1 (v_of MAX_VENDOR_ID [7]) (v_of MAX_VENDOR_PAYLOAD [1; 2; 3]) pr7) as [r x'] eqn:H.
    apply C95_vendor_in_session_refuted in H as [F _]; [exact F|discriminate].
  - eexists. split; vm_compute; reflexivity.
Qed.
Print Assumptions C95_vendor_on_connection_refuted.

(** A case of C94: an application that answers 1, 2, 3 with 0xAB, 0xCD. *)
Definition vd_env : env := mkEnv (e_cr ex_env) (e_tr ex_env) (e_send ex_env) (e_recv ex_env) (e_app ex_env) (fun _ => Ok [0xAB; 0xCD]) false.
Definition f_vendor : bytes := 5 :: vendor_message 0x12 0xFE 0 0 1 [7] [1; 2; 3].
Example C94_case : plain_message vd_env f_vendor = Some (vendor_message (ver rp_state) 0xFE 0 0 1 [7] [1; 2; 3] ++ []) /\ e_vendor vd_env [1; 2; 3] = Ok [0xAB; 0xCD] /\ 9 + len [7] + len [0xAB; 0xCD] <= 4096 /\
  hd [] (x_sent (snd (process_frame vd_env f_vendor rp_state))) = 5 :: vendor_message 0x12 0x7E 0 0 1 [7] [0xAB; 0xCD].
Proof. split; [vm_compute; reflexivity|]. split; [reflexivity|]. split; [discriminate|vm_compute; reflexivity]. Qed.
Example C94_request_case : exists p, fst (vendor_req pr_env None 1 (v_of MAX_VENDOR_ID [7]) (v_of MAX_VENDOR_PAYLOAD [1; 2; 3]) pr_req) = Ok p /\ v_bytes p = [1; 2; 3].
Proof. eexists. split; vm_compute; reflexivity. Qed.
