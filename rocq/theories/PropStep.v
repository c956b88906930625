(** C30: a key update keeps the two ends of a session in step. *)
From Verif Require Import Bytes BytesFacts Status Codec Parse ParseProofs Algo Monad.
From Verif Require Import MsgConn MsgAuth MsgSession MsgOther Message Opaque Transport TransportProofs Crypto KeySchedule Session Signing CertOps ChainVerify Context SessionProofs
  RspBase RspConn RspSess RspEncap Responder StRel RspFrame RspCalm RspOpcode RspPass RspEst ReqBase ReqConn ReqSess SpecReq ReqFrame ReqAnswer SpecSession SpecAuth ReqTrans ReqSplit ReqHist ReqAuth.
From Verif Require Import PropAlgs PropRetr PropFetch PropServe Pair SpecPair ReqHand SpecKeys KeyProofs PropKeys RspPair ToyCrypto PropSession PropPhase ExRun ExPair.
From Coq Require Import Lia.
Local Open Scope N_scope.

Definition ku_bytes (v op tag : N) : bytes := [v; 0xE9; op; tag].
Definition ack_bytes (v op tag : N) : bytes := [v; 0x69; op; tag].
Definition known (op : N) : Prop := op = 1 \/ op = 2 \/ op = 3.
Definition upd_q (op : N) : bool := (op =? KU_SINGLE) || (op =? KU_ALL).
Definition upd_p (op : N) : bool := op =? KU_ALL.

Lemma x_ku x v op tag : xwire (enc_message (xc x) (mkMsg (mkHeader v RC_KEY_UPDATE) (PKeyUpdate (mkKeyUpdate op tag)))) = Some (ku_bytes v op tag).
Proof. unfold enc_message, enc_header, enc_payload, enc_key_update. cbn [m_header m_payload h_version h_code ku_op ku_tag]. rewrite !xwire_app, !PropAlgs.xw8. reflexivity. Qed.
Lemma x_ack x v op tag : xwire (enc_message (xc x) (mkMsg (mkHeader v RC_KEY_UPDATE_ACK) (PKeyUpdateAck (mkKeyUpdate op tag)))) = Some (ack_bytes v op tag).
Proof. unfold enc_message, enc_header, enc_payload, enc_key_update. cbn [m_header m_payload h_version h_code ku_op ku_tag]. rewrite !xwire_app, !PropAlgs.xw8. reflexivity. Qed.
Lemma paired_refl a : paired a a. Proof. repeat split; reflexivity. Qed.
Lemma paired_trans a b c : paired a b -> paired b c -> paired a c.
Proof. intros ((? & ? & ? & ? & ?) & (? & ?) & ? & ?) ((? & ? & ? & ? & ?) & (? & ?) & ? & ?). repeat split; congruence. Qed.

(** reset_buffer for the messages of an established session *)
Lemma reset_ku id x a : get_sess id x = Some a ->
  get_sess id (reset_buffer RC_KEY_UPDATE (Some id) x) = Some (set_s_l1l2 None a) /\ x_nego (reset_buffer RC_KEY_UPDATE (Some id) x) = x_nego x /\ x_sent (reset_buffer RC_KEY_UPDATE (Some id) x) = x_sent x.
Proof.
  intro G. pose proof (put_get id x a (set_s_l1l2 None a) G eq_refl) as P. unfold reset_buffer. change (RC_KEY_UPDATE =? RC_GET_MEASUREMENTS) with false. change (existsb _ _) with true. cbv iota. cbn [reset_m].
  assert (Q : get_sess id (mod_sess id (set_s_l1l2 None) x) = Some (set_s_l1l2 None a)) by (apply (ReqMeas.get_mod id (set_s_l1l2 None) x a G); reflexivity).
  destruct (x_conn _ <? _); repeat split; try exact Q; reflexivity.
Qed.
Lemma envelope_frame E id w req app x r x' : encode_secured_message E id w req app x = (r, x') -> x_sent x' = x_sent x /\ x_nego x' = x_nego x.
Proof.
  intro H. unfold encode_secured_message in H. unfold sbind at 1, sof in H. destruct (tr_encap_app _ _ _ _) as [p| |]; [|split; congruence|split; congruence].
  rewrite bind_get in H. destruct (get_sess id x) as [s|] eqn:G; [|unfold serr in H; split; congruence].
  unfold sbind, on_sess in H. rewrite G in H. destruct (encode_secured _ _ _ _ s) as [[c| |] s']; (replace x' with (mod_sess id (fun _ => s') x) by congruence; split; reflexivity).
Qed.
Lemma raw_runs Er id w y : nth_error w 1 = Some 0x69 ->
  send_secured_raw Er id w false y = match encode_secured_message Er id w false false y with
    | (Ok f, y2) => match e_send Er (x_io y2) f with Some e => (Err e, set_x_io (x_io y2 + 1) y2) | None => (Ok tt, set_x_sent (f :: x_sent y2) (set_x_io (x_io y2 + 1) y2)) end
    | (Err e, y2) => (Err e, y2) | (Panic, y2) => (Panic, y2) end.
Proof.
  intro Op. unfold send_secured_raw. unfold sbind at 1. destruct (encode_secured_message Er id w false false y) as [[f| |] y2]; try reflexivity.
  unfold sbind at 1, io_send. destruct (e_send Er (x_io y2) f); [reflexivity|]. unfold opcode. rewrite Op. reflexivity.
Qed.
Lemma secured_tail Er id w y : len w = 4 -> nth_error w 1 = Some 0x69 ->
  let y' := snd (send_secured_message Er id w false y) in
  x_sent y' = x_sent y \/
  exists f y2, encode_secured_message Er id w false false y = (Ok f, y2) /\ x_sent y' = f :: x_sent y /\ x_sess y' = x_sess y2 /\ x_nego y' = x_nego y.
Proof.
  intros L4 Op. cbv zeta. unfold send_secured_message. rewrite bind_get. cbn [negb andb]. destruct (too_large y w) eqn:T.
  - left. unfold write_err, write_err_data. unfold sbind at 1. rewrite bind_get. unfold sbind at 1, wenc.
    assert (Xe : xwire (enc_message (xc y) (error_msg (ver y) ERR_RESPONSE_TOO_LARGE 0)) = Some [ver y; 0x7F; ERR_RESPONSE_TOO_LARGE; 0]).
    { unfold error_msg, enc_message, enc_header, enc_payload, enc_error. cbn [m_header m_payload h_version h_code er_code er_data er_ext]. rewrite !xwire_app, !PropAlgs.xw8. reflexivity. }
    rewrite (emit_fits _ [] _ Xe) by (change MAX_SPDM_MSG_SIZE with 4096; vm_compute; discriminate). cbn [fst snd app]. unfold sret.
    assert (T2 : too_large y [ver y; 0x7F; ERR_RESPONSE_TOO_LARGE; 0] = true) by (unfold too_large in *; rewrite L4 in T; exact T). rewrite T2. reflexivity.
  - pose proof (raw_runs Er id w y Op) as R. destruct (encode_secured_message Er id w false false y) as [[f| |] y2] eqn:En; destruct (envelope_frame _ _ _ _ _ _ _ _ En) as [S2 N2]; rewrite R; [|left; exact S2|left; exact S2].
    destruct (e_send Er (x_io y2) f); [left; exact S2|]. right. exists f, y2. split; [reflexivity|]. cbn [snd]. split; [rewrite <- S2; reflexivity|]. split; [reflexivity|exact N2].
Qed.
Lemma dec_ku op tag : known op -> dec_key_update [op; tag] = POk (mkKeyUpdate op tag) [].
Proof. intros [->|[->| ->]]; reflexivity. Qed.
Lemma on_sess_runs {A} id (m : st session A) y b r b' : get_sess id y = Some b -> m b = (r, b') -> on_sess id m y = (r, mod_sess id (fun _ => b') y).
Proof. intros G M. unfold on_sess. rewrite G, M. reflexivity. Qed.
Lemma on_mod_runs id f y b : get_sess id y = Some b -> on_sess id (smod f) y = (Ok tt, mod_sess id (fun _ => f b) y).
Proof. intro G. apply (on_sess_runs id (smod f) y b); [exact G|reflexivity]. Qed.
Lemma op_runs Er id op y b b2 : known op -> get_sess id y = Some b -> create_data_secret_update (e_cr Er) (ver y) (upd_q op) (upd_p op) b = (Ok tt, b2) -> s_id b2 = s_id b ->
  exists y1 b3, key_update_op Er id op y = (Ok true, y1) /\ get_sess id y1 = Some b3 /\ paired b2 b3 /\ x_sent y1 = x_sent y /\ x_nego y1 = x_nego y.
Proof.
  intros K G Cr I. unfold key_update_op. rewrite bind_get. cbv zeta. unfold sbind at 1, the_sess. rewrite G.
  destruct K as [->|[->| ->]].
  - change (upd_q 1) with true in Cr. change (upd_p 1) with false in Cr. change (1 =? 1) with true. cbv iota. unfold sbind, scatch. rewrite (on_sess_runs _ _ _ _ _ _ G Cr). unfold sret.
    eexists _, b2. split; [reflexivity|]. split; [exact (put_get id y b b2 G I)|]. split; [apply paired_refl|]. split; reflexivity.
  - change (upd_q 2) with true in Cr. change (upd_p 2) with true in Cr. change (2 =? 1) with false. change (2 =? 2) with true. cbv iota. unfold sbind, scatch. rewrite (on_sess_runs _ _ _ _ _ _ G Cr). unfold sret.
    pose proof (put_get id y b b2 G I) as G2. rewrite (on_mod_runs _ _ _ _ G2).
    eexists _, _. split; [reflexivity|]. split; [apply (put_get id _ b2 _ G2); reflexivity|]. split; [exact (paired_activate false false true true b2 b2 (paired_refl b2))|]. split; reflexivity.
  - change (upd_q 3) with false in Cr. change (upd_p 3) with false in Cr. change (3 =? 1) with false. change (3 =? 2) with false. change (3 =? 3) with true. cbv iota. assert (b2 = b) as -> by (change (create_data_secret_update (e_cr Er) (ver y) false false b) with (@Ok unit tt, b) in Cr; congruence).
    unfold sbind. rewrite (on_mod_runs _ _ _ _ G). unfold sret.
    eexists _, _. split; [reflexivity|]. split; [apply (put_get id _ b _ G); reflexivity|]. split; [exact (paired_activate false false true false b b (paired_refl b))|]. split; reflexivity.
Qed.
Lemma rsp_key_update_runs Er id op tag y b b2 : known op -> get_sess id y = Some b -> s_state b = SEstablished ->
  create_data_secret_update (e_cr Er) (ver y) (upd_q op) (upd_p op) (set_s_l1l2 None b) = (Ok tt, b2) -> s_id b2 = s_id b ->
  exists y1 b3, dispatch_secured Er id (ku_bytes (ver y) op tag) y = send_secured_message Er id (ack_bytes (ver y) op tag) false y1 /\
    get_sess id y1 = Some b3 /\ paired b2 b3 /\ x_sent y1 = x_sent y /\ x_nego y1 = x_nego y.
Proof.
  intros K G S Cr I. unfold dispatch_secured. rewrite bind_get, G, S. set (m := ku_bytes (ver y) op tag).
  change (dispatch_established Er id m y) with (handle_key_update Er id m y). unfold handle_key_update, write_key_update, with_version. unfold sbind at 1. rewrite bind_get.
  change (read_header m) with (Some (mkHeader (ver y) 0xE9, [op; tag])). cbn [h_version]. rewrite N.eqb_refl. cbn [negb]. rewrite bind_mod, bind_rd, (dec_ku op tag K). cbn [ku_op].
  destruct (reset_ku id y b G) as (G0 & N0 & S0). set (y0 := reset_buffer RC_KEY_UPDATE (Some id) y) in *. assert (V0 : ver y0 = ver y) by (unfold ver; rewrite N0; reflexivity).
  rewrite <- V0 in Cr. destruct (op_runs Er id op y0 _ b2 K G0 Cr I) as (y1 & b3 & O & G1 & P1 & S1 & N1).
  exists y1, b3. split; [|split; [exact G1|split; [exact P1|split; [rewrite S1; exact S0|rewrite N1; exact N0]]]].
  unfold sbind at 1. rewrite O. rewrite bind_get. unfold encode_or_err. unfold sbind at 1, wenc. assert (V1 : ver y1 = ver y) by (unfold ver; rewrite N1, N0; reflexivity). rewrite V1.
  rewrite (emit_fits _ [] _ (x_ack y1 (ver y) op tag)) by (change MAX_SPDM_MSG_SIZE with 4096; unfold len; cbn [length ack_bytes]; lia). cbn [fst snd app]. reflexivity.
Qed.
Lemma rsp_key_update Er id op tag y b b2 : known op -> get_sess id y = Some b -> s_state b = SEstablished ->
  create_data_secret_update (e_cr Er) (ver y) (upd_q op) (upd_p op) (set_s_l1l2 None b) = (Ok tt, b2) -> s_id b2 = s_id b ->
  let y' := snd (dispatch_secured Er id (ku_bytes (ver y) op tag) y) in
  x_sent y' = x_sent y \/
  exists y1 b3 f y2, get_sess id y1 = Some b3 /\ paired b2 b3 /\ encode_secured_message Er id (ack_bytes (ver y) op tag) false false y1 = (Ok f, y2) /\
    x_sent y' = f :: x_sent y /\ x_sess y' = x_sess y2 /\ x_nego y' = x_nego y.
Proof.
  intros K G S Cr I. cbv zeta. destruct (rsp_key_update_runs Er id op tag y b b2 K G S Cr I) as (y1 & b3 & -> & G1 & P1 & S1 & N1).
  destruct (secured_tail Er id (ack_bytes (ver y) op tag) y1 eq_refl eq_refl) as [T|(f & y2 & T1 & T2 & T3 & T4)].
  - left. rewrite T, S1. reflexivity.
  - right. exists y1, b3, f, y2. split; [exact G1|]. split; [exact P1|]. split; [exact T1|]. split; [rewrite T2, S1; reflexivity|]. split; [exact T3|]. rewrite T4. exact N1.
Qed.

(** the requester's view of one operation: it is over only when the acknowledgement came back *)
Lemma next_l1l2 req s : next req (set_s_l1l2 None s) = set_s_l1l2 None (next req s).
Proof. unfold next, get_dir, set_dir. cbn. destruct (s_state s), req; reflexivity. Qed.
Lemma paired_l1l2 a b : paired a b -> paired (set_s_l1l2 None a) (set_s_l1l2 None b).
Proof. intros ((? & ? & ? & ? & ?) & (? & ?) & ? & ?). repeat split; assumption. Qed.
Lemma peer_after_snoc Er xr t l : peer_after Er xr (rev (t :: l)) = snd (process_frame Er t (peer_after Er xr (rev l))).
Proof. cbn [rev]. rewrite peer_after_app. reflexivity. Qed.
Lemma algs_next req s : s_hash (next req s) = s_hash s /\ s_aead (next req s) = s_aead s.
Proof. unfold next, set_dir. destruct (s_state s), req; split; reflexivity. Qed.
Lemma algs_create cr v q p s u s' : create_data_secret_update cr v q p s = (Ok u, s') -> s_hash s' = s_hash s /\ s_aead s' = s_aead s.
Proof.
  intro H. unfold create_data_secret_update in H. apply sbind_inv in H as ([] & s1 & H1 & H2).
  assert (A : s_hash s1 = s_hash s /\ s_aead s1 = s_aead s) by (destruct q; cbn [swhen] in H1; [apply update_req_fresh in H1 as (? & ? & _ & _ & ->); split; reflexivity|unfold sret in H1; split; congruence]).
  destruct A as [<- <-]. destruct p; cbn [swhen] in H2; [apply update_rsp_fresh in H2 as (? & ? & _ & _ & ->); split; reflexivity|unfold sret in H2; split; congruence].
Qed.
Lemma algs_activate q p s : s_hash (activate_data_secret_update q p true s) = s_hash s /\ s_aead (activate_data_secret_update q p true s) = s_aead s.
Proof. destruct q, p; split; reflexivity. Qed.
Lemma one_op E Er xr id op tag x x' : e_cr E = e_cr Er -> e_tr E = e_tr Er -> lossless (e_tr Er) -> aead_correct (e_cr Er) -> seals_bytes (e_cr Er) ->
  id < 2 ^ 32 -> ver x < 256 -> tag < 256 -> known op -> share id x (peer_after Er xr (rev (x_sent x))) -> key_update_op_req (facing E Er xr) id op tag x = (Ok tt, x') ->
  share id x' (peer_after Er xr (rev (x_sent x'))) /\ ver x' = ver x /\
  exists a a1 a', get_sess id x = Some a /\ get_sess id x' = Some a' /\ s_hash a' = s_hash a /\ s_aead a' = s_aead a /\
    create_data_secret_update (e_cr Er) (ver x) (upd_q op) (upd_p op) (next true (set_s_l1l2 None a)) = (Ok tt, a1) /\ s_app a' = s_app (next false a1).
Proof.
  intros Ec Et Lo Hc Sb Hid Hv Ht K (V & a & b & Ga & Gb & S & P) H. set (F := facing E Er xr) in *. set (y := peer_after Er xr (rev (x_sent x))) in *.
  unfold key_update_op_req in H. rewrite bind_mod, bind_get in H. destruct (reset_ku id x a Ga) as (G0 & N0 & S0). set (x0 := reset_buffer RC_KEY_UPDATE (Some id) x) in *.
  assert (V0 : ver x0 = ver x) by (unfold ver; rewrite N0; reflexivity).
  unfold sbind at 1 in H. rewrite (req_enc_fwd _ _ x0 (x_ku x0 (ver x0) op tag) eq_refl) in H by (unfold len; cbn [length ku_bytes]; lia).
  rewrite V0 in H. set (m := ku_bytes (ver x) op tag) in *. assert (Bm : bytes_ok m) by (repeat constructor; try assumption; destruct K as [->|[->| ->]]; reflexivity).
  apply sbind_inv in H as ([] & x2 & Sd & H). unfold req_send_secured in Sd. rewrite bind_get in Sd. apply sbind_inv in Sd as (u1 & xx & Fl & Sd). apply fail_inv in Fl as [_ ->].
  apply sbind_inv in Sd as (t & xe & En & Sd).
  destruct (reset_ku id y b Gb) as (_ & _ & _).
  assert (P0 : paired (set_s_l1l2 None a) b) by (destruct P as ((? & ? & ? & ? & ?) & (? & ?) & ? & ?); repeat split; assumption).
  destruct (delivered F Er id m x0 t xe y _ b Ec Et Lo Hc Sb Hid Bm ltac:(unfold len, m; cbn [length ku_bytes]; lia) G0 Gb S P0 En) as (-> & Dl).
  set (a0 := next true (set_s_l1l2 None a)) in *. pose proof (put_get id x0 _ a0 G0 (proj2 (next_state true _))) as G1. set (x1 := mod_sess id (fun _ => a0) x0) in *.
  unfold io_send in Sd. cbn [F facing e_send] in Sd. set (x2' := set_x_sent (t :: x_sent (set_x_io (x_io x1 + 1) x1)) (set_x_io (x_io x1 + 1) x1)) in *. assert (x2 = x2') as -> by congruence. clear Sd.
  rewrite bind_get in H. assert (G2 : get_sess id x2' = Some a0) by exact G1. rewrite G2 in H. apply sbind_inv in H as (u2 & xx & Okk & H). unfold sok in Okk. assert (xx = x2') as -> by (unfold sret in Okk; congruence). clear Okk.
  cbv zeta in H. fold (upd_q op) (upd_p op) in H. apply sbind_inv in H as ([] & xf & Cr & H). unfold on_sess in Cr. rewrite G2 in Cr.
  change (e_cr F) with (e_cr E) in Cr. rewrite Ec in Cr. destruct (create_data_secret_update (e_cr Er) (ver x) (upd_q op) (upd_p op) a0) as [r a1] eqn:Ca. destruct r as [[]|er|]; [|discriminate Cr|discriminate Cr].
  assert (xf = mod_sess id (fun _ => a1) x2') as -> by congruence. clear Cr.
  assert (Sa0 : s_state a0 = SEstablished) by (unfold a0; rewrite (proj1 (next_state true _)); exact S).
  assert (Pb : paired a0 (next true b)) by (apply paired_next; [exact S|exact P0]).
  destruct (paired_update _ _ _ _ _ _ _ _ Pb Ca) as (b1' & _ & _ & Sa1 & Ia1).
  assert (Pb' : paired a0 (set_s_l1l2 None (next true b))) by (destruct Pb as ((? & ? & ? & ? & ?) & (? & ?) & ? & ?); repeat split; assumption).
  destruct (paired_update _ _ _ _ _ _ _ _ Pb' Ca) as (b2 & Cb & P2 & _ & _).
  pose proof (put_get id x2' a0 a1 G2 Ia1) as G3. set (x3 := mod_sess id (fun _ => a1) x2') in *.
  (* the responder *)
  set (y1 := mod_sess id (fun _ => next true b) y) in *. pose proof (put_get id y b (next true b) Gb (proj2 (next_state true b))) as Gy1. fold y1 in Gy1.
  assert (Sb1 : s_state (next true b) = SEstablished) by (destruct Pb as ((_ & Q & _) & _); congruence).
  assert (Vy : ver y1 = ver x) by (change (ver y1) with (ver y); congruence).
  assert (Ib : s_id b2 = s_id (next true b)) by (destruct P2 as ((Q & _) & _); destruct Pb as ((Q' & _) & _); congruence).
  rewrite <- Vy in Cb. pose proof (rsp_key_update Er id op tag y1 (next true b) b2 K Gy1 Sb1 Cb Ib) as R. rewrite Vy in R. fold m in R. cbv zeta in R. rewrite Vy in Cb.
  assert (Z : snd (process_frame Er t y) = snd (dispatch_secured Er id m y1)).
  { rewrite Dl. unfold is_ok, scatch. destruct (dispatch_secured Er id m y1) as [[?| |] ?]; reflexivity. }
  (* the answer *)
  apply sbind_inv in H as (w & x4 & Rc & H). unfold req_recv_secured in Rc. apply sbind_inv in Rc as ([] & xx & Rt & Rc).
  assert (xx = x3) as -> by (unfold req_timeout in Rt; rewrite bind_get in Rt; apply assert_inv in Rt as [_ Rt]; congruence). clear Rt.
  unfold sbind at 1, io_recv in Rc. cbn [F facing e_recv] in Rc.
  assert (X3 : x_sent x3 = t :: x_sent x) by (unfold x3, x2', x1; cbn; rewrite <- S0; reflexivity). rewrite X3 in Rc. cbn [peer_reply] in Rc. fold y in Rc. rewrite Z in Rc.
  destruct R as [R|(y2 & b3 & f & y3 & Gy2 & P3 & Ef & Xs & Xt & Xn)].
  { exfalso. rewrite R in Rc. change (x_sent y1) with (x_sent y) in Rc. rewrite PeanoNat.Nat.ltb_irrefl in Rc. discriminate. }
  rewrite Xs in Rc. change (x_sent y1) with (x_sent y) in Rc. cbn [length hd_error] in Rc. rewrite (proj2 (PeanoNat.Nat.ltb_lt _ _)) in Rc by lia.
  destruct (BUFFER_SIZE <? len f); [discriminate|]. apply sbind_inv in Rc as (f' & xx & Fo & Rc). unfold sok, sret in Fo. assert (f' = f) as -> by congruence. assert (xx = set_x_io (x_io x3 + 1) x3) as -> by congruence. clear Fo.
  set (x4' := set_x_io (x_io x3 + 1) x3) in *. assert (G4 : get_sess id x4' = Some a1) by exact G3.
  assert (Sa1' : s_state a1 = SEstablished) by congruence.
  assert (P13 : paired a1 b3) by (eapply paired_trans; eassumption).
  destruct (answered F Er id (ack_bytes (ver x) op tag) x4' f y2 y3 a1 b3 Ec Et Lo Hc Sb Hid) as (-> & Da); try assumption.
  { repeat constructor; try assumption; destruct K as [->|[->| ->]]; reflexivity. } { unfold len; cbn [length ack_bytes]; lia. }
  change MAX_SPDM_MSG_SIZE with 4096 in Rc, Da. rewrite Da in Rc. assert (w = ack_bytes (ver x) op tag) as -> by congruence. assert (x4 = mod_sess id (fun _ => next false a1) x4') as -> by congruence. clear Rc.
  pose proof (put_get id x4' a1 (next false a1) G4 (proj2 (next_state false a1))) as G5. set (x5 := mod_sess id (fun _ => next false a1) x4') in *.
  unfold handle_key_update_ack in H. apply on_response_ok in H as (r & Er2 & H). assert (r = [op; tag]) as -> by (unfold ack_bytes in Er2; congruence).
  rewrite bind_rd, (dec_ku op tag K), bind_get, G5 in H. apply sbind_inv in H as (u3 & xx & Okk & H). unfold sok, sret in Okk. assert (xx = x5) as -> by congruence. clear Okk.
  rewrite (on_mod_runs id _ x5 _ G5) in H. set (a' := activate_data_secret_update (upd_q op) (upd_p op) true (next false a1)) in *.
  assert (x' = mod_sess id (fun _ => a') x5) as -> by congruence.
  destruct (activate_frame (upd_q op) (upd_p op) (next false a1)) as (As & Ai & Aa). fold a' in As, Ai, Aa.
  pose proof (put_get id x5 (next false a1) a' G5 Ai) as G6. set (x6 := mod_sess id (fun _ => a') x5) in *.
  assert (Xs6 : x_sent x6 = t :: x_sent x) by (unfold x6, x5, x4'; cbn; exact X3).
  assert (V6 : ver x6 = ver x) by (unfold x6, x5, x4', x3, x2', x1; exact V0).
  rewrite Xs6, peer_after_snoc. fold y. rewrite Z.
  pose proof (put_get id y2 b3 (next false b3) Gy2 (proj2 (next_state false b3))) as Gz.
  assert (Pab : paired a' (next false b3)).
  { eapply paired_trans; [|apply paired_next; [exact Sa1'|exact P13]]. unfold a'. 
    pose proof (paired_activate (upd_q op) (upd_p op) false false _ _ (paired_refl (next false a1))) as Q. exact Q. }
  split; [|split; [exact V6|]].
  - split; [unfold ver in *; congruence|]. exists a', (next false b3). split; [exact G6|]. split.
    + unfold get_sess in *. rewrite Xt. exact Gz.
    + split; [rewrite As, (proj1 (next_state false a1)); exact Sa1'|exact Pab].
  - destruct (algs_next true (set_s_l1l2 None a)) as [H1 A1]. fold a0 in H1, A1. destruct (algs_create _ _ _ _ _ _ _ Ca) as [H2 A2]. destruct (algs_next false a1) as [H3 A3]. destruct (algs_activate (upd_q op) (upd_p op) (next false a1)) as [H4 A4]. fold a' in H4, A4.
    exists a, a1, a'. split; [exact Ga|]. split; [exact G6|]. split; [rewrite H4, H3, H2, H1; reflexivity|]. split; [rewrite A4, A3, A2, A1; reflexivity|]. split; [exact Ca|exact Aa].
Qed.
Lemma app_next s : s_state s = SEstablished ->
  s_app (next true s) = set_a_req_dir (set_d_seq (d_seq (a_req_dir (s_app s)) + 1) (a_req_dir (s_app s))) (s_app s) /\
  s_app (next false s) = set_a_rsp_dir (set_d_seq (d_seq (a_rsp_dir (s_app s)) + 1) (a_rsp_dir (s_app s))) (s_app s).
Proof. intro S. unfold next, set_dir, get_dir. rewrite S. split; reflexivity. Qed.
Definition update_op (all : bool) : N := if all then KU_ALL else KU_SINGLE.

(** C30. The requester faces the responder [xr] through a channel that hands over every frame it is
    given; the responder may still refuse, or send nothing.  Whenever the requester's key update
    succeeds, both ends agree again on everything that protects the session; the request direction
    rolled over (and one message, the verification request, used the new key); the response direction
    rolled over too for UpdateAllKeys (both acknowledgements used the new key), and kept its key for
    UpdateSingleKey. *)
Theorem C30_key_update_in_step : forall E Er xr id all x x',
  e_cr E = e_cr Er -> e_tr E = e_tr Er -> lossless (e_tr Er) -> aead_correct (e_cr Er) -> seals_bytes (e_cr Er) -> id < 2 ^ 32 -> ver x < 256 ->
  share id x (peer_after Er xr (rev (x_sent x))) ->
  key_update_req (facing E Er xr) id (update_op all) x = (Ok tt, x') ->
  share id x' (peer_after Er xr (rev (x_sent x'))) /\ ver x' = ver x /\
  exists a a', get_sess id x = Some a /\ get_sess id x' = Some a' /\
    rolled (e_cr Er) (ver x) (s_hash a) (s_aead a) (a_req_secret (s_app a)) (a_req_secret (s_app a')) (a_req_dir (s_app a')) 1 /\
    if all then rolled (e_cr Er) (ver x) (s_hash a) (s_aead a) (a_rsp_secret (s_app a)) (a_rsp_secret (s_app a')) (a_rsp_dir (s_app a')) 2
    else a_rsp_secret (s_app a') = a_rsp_secret (s_app a) /\ kept (a_rsp_dir (s_app a)) (a_rsp_dir (s_app a')) 2.
Proof.
  intros E Er xr id all x x' Ec Et Lo Hc Sb Hid Hv Sh H. unfold key_update_req in H. apply sbind_inv in H as (u0 & xx & F & H). apply fail_inv in F as [_ ->].
  apply sbind_inv in H as ([] & x1 & H1 & H2).
  assert (K : known (update_op all)) by (destruct all; [right; left|left]; reflexivity).
  assert (Sx : exists a, get_sess id x = Some a /\ s_state a = SEstablished) by (destruct Sh as (_ & a & b & Q1 & _ & Q2 & _); eauto).
  destruct (one_op E Er xr id _ 1 x x1 Ec Et Lo Hc Sb Hid Hv ltac:(lia) K Sh H1) as (Sh1 & V1 & a & a1 & a1' & G & G1 & Ha & Aa & Cr & Ap).
  rewrite <- V1 in Hv. assert (Sx1 : exists a, get_sess id x1 = Some a /\ s_state a = SEstablished) by (destruct Sh1 as (_ & c & b & Q1 & _ & Q2 & _); eauto).
  destruct (one_op E Er xr id KU_VERIFY 2 x1 x' Ec Et Lo Hc Sb Hid Hv ltac:(lia) ltac:(right; right; reflexivity) Sh1 H2) as (Sh2 & V2 & c & c1 & a' & Gc & G2 & Hc' & Ac & Cr2 & Ap2).
  split; [exact Sh2|]. split; [congruence|]. exists a, a'. split; [exact G|]. split; [exact G2|].
  destruct Sx as (a_ & Q & Sa). assert (a_ = a) as -> by congruence. clear Q. destruct Sx1 as (c_ & Q & Sc). assert (c_ = c) as -> by congruence. clear Q. assert (c = a1') as -> by congruence.
  change (create_data_secret_update (e_cr Er) (ver x1) (upd_q KU_VERIFY) (upd_p KU_VERIFY) (next true (set_s_l1l2 None a1'))) with (@Ok unit tt, next true (set_s_l1l2 None a1')) in Cr2.
  assert (c1 = next true (set_s_l1l2 None a1')) as -> by congruence. clear Cr2.
  assert (S1 : s_state (next true (set_s_l1l2 None a1')) = SEstablished) by (rewrite (proj1 (next_state true _)); exact Sc).
  rewrite (proj2 (app_next _ S1)), (proj1 (app_next (set_s_l1l2 None a1') Sc)) in Ap2. cbn [set_s_l1l2 s_app] in Ap2. rewrite Ap2.
  assert (S0 : s_state a1 = SEstablished).
  { destruct (paired_update _ _ _ _ _ _ _ _ (paired_refl _) Cr) as (_ & _ & _ & Q & _). rewrite Q, (proj1 (next_state true _)). exact Sa. }
  rewrite (proj2 (app_next _ S0)) in Ap. rewrite Ap.
  apply C59_updated_keys in Cr. destruct (algs_next true (set_s_l1l2 None a)) as [Hn An]. rewrite Hn, An, (proj1 (app_next (set_s_l1l2 None a) Sa)) in Cr. cbn [set_s_l1l2 s_app s_hash s_aead] in Cr.
  destruct all; cbn [update_op] in *.
  - change (upd_q KU_ALL) with true in Cr. change (upd_p KU_ALL) with true in Cr. destruct Cr as [(U1 & U2 & U3) (W1 & W2 & W3)]. cbn [a_req_secret a_rsp_secret set_a_req_dir a_req_dir a_rsp_dir set_a_rsp_dir set_d_seq d_seq] in *.
    split; (split; [assumption|]; split; [assumption|]); cbn [d_seq set_d_seq]; [rewrite U3|rewrite W3]; reflexivity.
  - change (upd_q KU_SINGLE) with true in Cr. change (upd_p KU_SINGLE) with false in Cr. destruct Cr as [(U1 & U2 & U3) (W1 & W2)]. cbn [a_req_secret a_rsp_secret set_a_req_dir a_req_dir a_rsp_dir set_a_rsp_dir set_d_seq d_seq] in *.
    split; [split; [assumption|]; split; [assumption|]; cbn [d_seq set_d_seq]; rewrite U3; reflexivity|].
    split; [exact W1|]. rewrite W2. split; [reflexivity|]. split; [reflexivity|]. cbn [d_seq set_d_seq]. lia.
Qed.
(** ... and so does any succession of key updates *)
Inductive updates (F : env) (id : N) : list bool -> ctx -> ctx -> Prop :=
| up_none x : updates F id [] x x
| up_one all rest x x1 x' : key_update_req F id (update_op all) x = (Ok tt, x1) -> updates F id rest x1 x' -> updates F id (all :: rest) x x'.
Theorem C30_repeated_updates_in_step : forall E Er xr id ops x x',
  e_cr E = e_cr Er -> e_tr E = e_tr Er -> lossless (e_tr Er) -> aead_correct (e_cr Er) -> seals_bytes (e_cr Er) -> id < 2 ^ 32 -> ver x < 256 ->
  share id x (peer_after Er xr (rev (x_sent x))) -> updates (facing E Er xr) id ops x x' -> share id x' (peer_after Er xr (rev (x_sent x'))).
Proof.
  intros E Er xr id ops x x' Ec Et Lo Hc Sb Hid Hv Sh U. induction U as [|all rest x x1 x' H U IH]; [exact Sh|].
  destruct (C30_key_update_in_step E Er xr id all x x1 Ec Et Lo Hc Sb Hid Hv Sh H) as (Sh1 & V & _). apply IH; [rewrite V; exact Hv|exact Sh1].
Qed.
(** what sharing a session buys: a request of either kind that the requester can send is the one the
    responder handles, and what the responder can send in reply is what the requester reads *)
Theorem C30_shared_session_carries_requests : forall E Er id m x t x1 y, e_cr E = e_cr Er -> e_tr E = e_tr Er -> lossless (e_tr Er) -> aead_correct (e_cr Er) -> seals_bytes (e_cr Er) ->
  id < 2 ^ 32 -> bytes_ok m -> len m <= 4000 -> share id x y -> encode_secured_message E id m true false x = (Ok t, x1) ->
  exists y1, process_frame Er t y = is_ok (dispatch_secured Er id m) y1 /\ share id x1 y1 /\ x_sent y1 = x_sent y.
Proof.
  intros E Er id m x t x1 y Ec Et Lo Hc Sb Hid Bm Lm (V & a & b & Ga & Gb & S & P) En.
  destruct (delivered E Er id m x t x1 y a b Ec Et Lo Hc Sb Hid Bm Lm Ga Gb S P En) as (-> & D). eexists. split; [exact D|]. split; [|reflexivity].
  split; [exact V|]. exists (next true a), (next true b). split; [apply (put_get id x a _ Ga), next_state|]. split; [apply (put_get id y b _ Gb), next_state|]. split; [rewrite (proj1 (next_state true a)); exact S|].
  apply paired_next; assumption.
Qed.
Theorem C30_shared_session_carries_replies : forall E Er id m x t y y1, e_cr E = e_cr Er -> e_tr E = e_tr Er -> lossless (e_tr Er) -> aead_correct (e_cr Er) -> seals_bytes (e_cr Er) ->
  id < 2 ^ 32 -> bytes_ok m -> len m <= 4000 -> share id x y -> encode_secured_message Er id m false false y = (Ok t, y1) ->
  exists x1, decode_secured_message E id MAX_SPDM_MSG_SIZE t x = (Ok m, x1) /\ share id x1 y1 /\ x_sent x1 = x_sent x.
Proof.
  intros E Er id m x t y y1 Ec Et Lo Hc Sb Hid Bm Lm (V & a & b & Ga & Gb & S & P) En.
  destruct (answered E Er id m x t y y1 a b Ec Et Lo Hc Sb Hid Bm Lm Ga Gb S P En) as (-> & D). eexists. split; [exact D|]. split; [|reflexivity].
  split; [exact V|]. exists (next false a), (next false b). split; [apply (put_get id x a _ Ga), next_state|]. split; [apply (put_get id y b _ Gb), next_state|]. split; [rewrite (proj1 (next_state false a)); exact S|].
  apply paired_next; assumption.
Qed.
(** ** a concrete case: the requester of ExPair after FINISH, facing the responder it spoke to *)
Lemma toy_seals : seals_bytes toy.
Proof. intros alg key nonce aad plain c t B H. change (Some (plain, toy_tag key nonce aad plain) = Some (c, t)) in H. assert (c = plain) as -> by congruence. split; [exact B|]. assert (t = toy_tag key nonce aad plain) as -> by congruence. apply le_bytes_ok. Qed.
Definition rs7 : ctx := Eval vm_compute in peer_after ex_env pr_rsp (rev (x_sent pr7)).
Definition sess_of (x : ctx) : session := match get_sess pr_id x with Some s => s | None => session_new end.
Definition sa7 : session := Eval vm_compute in sess_of pr7.
Definition sb7 : session := Eval vm_compute in sess_of rs7.
Definition ku7 : ctx := Eval vm_compute in snd (key_update_req fc_env pr_id 2 pr7).
Example C30_case : lossless (e_tr ex_env) /\ aead_correct (e_cr ex_env) /\ seals_bytes (e_cr ex_env) /\ pr_id < 2 ^ 32 /\ ver pr7 = 0x12 /\
  share pr_id pr7 (peer_after ex_env pr_rsp (rev (x_sent pr7))) /\
  key_update_req (facing ex_env ex_env pr_rsp) pr_id (update_op true) pr7 = (Ok tt, ku7).
Proof.
  split; [exact lossless_mctp|]. split; [exact toy_aead_correct|]. split; [exact toy_seals|]. split; [vm_compute; reflexivity|]. split; [vm_compute; reflexivity|].
  split; [|vm_compute; reflexivity].
  assert (R : peer_after ex_env pr_rsp (rev (x_sent pr7)) = rs7) by (vm_compute; reflexivity). rewrite R.
  split; [vm_compute; reflexivity|]. exists sa7, sb7. split; [vm_compute; reflexivity|]. split; [vm_compute; reflexivity|]. split; [vm_compute; reflexivity|].
  split; [split; [vm_compute; reflexivity|]; split; [vm_compute; reflexivity|]; split; [vm_compute; reflexivity|]; split; vm_compute; reflexivity|].
  split; split; vm_compute; reflexivity.
Qed.
