(** C17 for the responder: what ALGORITHMS carries. *)
From Verif Require Import Bytes BytesFacts Status Codec CodecProofs Parse ParseProofs Algo Monad.
From Verif Require Import MsgConn MsgAuth MsgSession MsgOther Message SpecMsg MsgCaps Opaque Transport Crypto KeySchedule Session Signing CertOps ChainVerify Context
  RspBase RspConn RspSess RspEncap Responder StRel RspFrame RspCalm RspOpcode RspSend SpecResponder SpecFinish RspPhase RspPass RspSlots RspSize RspTable RspIso RspEst RspDeliver RspRefuse
  ToyCrypto PropPhase ExRun PropTable PropReset PropSess PropDigest.
From Verif Require Import TransportProofs.
From Coq Require Import List Lia.
Local Open Scope N_scope.

(** the set a NEGOTIATE_ALGORITHMS message offers in family [f]; for the families that travel in
    algorithm structures the last structure of the family counts, and [before] when there is none *)
Definition last_of (pick : alg -> option N) (l : list alg_struct) (before : N) : N :=
  fold_left (fun v s => match pick (as_alg s) with Some w => w | None => v end) l before.
Definition structs_of (p : nego_algs) : list alg_struct := firstn (N.to_nat (na_count p)) (na_structs p).
Definition offered (p : nego_algs) (before : nego) (f : family) : N :=
  match f with
  | FMeasSpec => na_mspec p
  | FAsym => na_asym p
  | FHash => na_hash p
  | FDhe => last_of (fun a => match a with ADhe v => Some v | _ => None end) (structs_of p) (n_dhe before)
  | FAead => last_of (fun a => match a with AAead v => Some v | _ => None end) (structs_of p) (n_aead before)
  | FReqAsym => last_of (fun a => match a with AReqAsym v => Some v | _ => None end) (structs_of p) (n_req_asym before)
  | FKeySched => last_of (fun a => match a with AKeySched v => Some v | _ => None end) (structs_of p) (n_ks before)
  end.
(** the set the responder is configured with *)
Definition configured (c : config) (f : family) : N :=
  match f with
  | FMeasSpec => cf_mspec c | FAsym => cf_asym c | FHash => cf_hash c | FDhe => cf_dhe c | FAead => cf_aead c
  | FReqAsym => cf_req_asym c | FKeySched => cf_ks c
  end.
(** ALGORITHMS on the wire *)
Definition algorithms_message (v opaque mhash : N) (sel : family -> N) : bytes :=
  let new := 0x11 <=? v in
  [v; 0x63; (if new then 4 else 0); 0] ++ le_bytes 2 (if new then 52 else 36) ++
  [sel FMeasSpec; (if 0x12 <=? v then opaque else 0)] ++
  le_bytes 4 mhash ++ le_bytes 4 (sel FAsym) ++ le_bytes 4 (sel FHash) ++ repeat 0 16 ++
  (if new then [2; 0x20] ++ le_bytes 2 (sel FDhe) ++ [3; 0x20] ++ le_bytes 2 (sel FAead) ++
               [4; 0x20] ++ le_bytes 2 (sel FReqAsym) ++ [5; 0x20] ++ le_bytes 2 (sel FKeySched) else []).
(** what the context records as negotiated *)
Definition recorded (n : nego) (f : family) : N :=
  match f with
  | FMeasSpec => n_mspec n | FAsym => n_asym n | FHash => n_hash n | FDhe => n_dhe n | FAead => n_aead n
  | FReqAsym => n_req_asym n | FKeySched => n_ks n
  end.

Lemma select_recorded cfg n f : recorded (select_algs cfg n) f = prioritize (table_of f) (recorded n f) (configured cfg f).
Proof. destruct f; reflexivity. Qed.
Lemma take_alg_recorded l : forall n f, recorded (fold_left take_alg l n) f =
  match f with
  | FMeasSpec => n_mspec n | FAsym => n_asym n | FHash => n_hash n
  | FDhe => last_of (fun a => match a with ADhe v => Some v | _ => None end) l (n_dhe n)
  | FAead => last_of (fun a => match a with AAead v => Some v | _ => None end) l (n_aead n)
  | FReqAsym => last_of (fun a => match a with AReqAsym v => Some v | _ => None end) l (n_req_asym n)
  | FKeySched => last_of (fun a => match a with AKeySched v => Some v | _ => None end) l (n_ks n)
  end.
Proof.
  induction l as [|a l IH]; intros n f; [destruct f; reflexivity|]. cbn [fold_left]. rewrite IH. unfold last_of. cbn [fold_left].
  destruct a as [t [v|v|v|v|]]; destruct f; reflexivity.
Qed.
Lemma offer_recorded p n f : recorded (take_offer p n) f = offered p n f.
Proof. unfold take_offer. rewrite take_alg_recorded. destruct f; reflexivity. Qed.
Lemma emit_fits e : forall w t, xwire e = Some t -> len w + len t <= MAX_SPDM_MSG_SIZE -> emit e w = Some (true, w ++ t).
Proof.
  induction e as [|[c n|] e IH]; intros w t H L; cbn [xwire] in H.
  - replace t with (@nil N) by congruence. rewrite app_nil_r. reflexivity.
  - destruct (xwire e) as [u|]; [|discriminate H]. assert (t = c ++ u) as -> by congruence. rewrite len_app in L. cbn [emit].
    destruct (N.ltb_spec MAX_SPDM_MSG_SIZE (len w + len c)); [lia|]. rewrite (IH (w ++ c) u eq_refl) by (rewrite len_app; lia). rewrite app_assoc. reflexivity.
  - discriminate H.
Qed.
Lemma xw8 v : xwire (x_u8 v) = Some [v]. Proof. unfold x_u8. rewrite xwire_of, wire_u8. reflexivity. Qed.
Lemma xw16 v : xwire (x_u16 v) = Some (le_bytes 2 v). Proof. unfold x_u16. rewrite xwire_of, wire_u16. reflexivity. Qed.
Lemma xw32 v : xwire (x_u32 v) = Some (le_bytes 4 v). Proof. unfold x_u32. rewrite xwire_of, wire_u32. reflexivity. Qed.
Lemma emit_algorithms c n : c_nego c = n ->
  emit (enc_message c (algorithms_msg n)) [] = Some (true, algorithms_message (n_version n) (n_opaque n) (n_mhash n) (recorded n)).
Proof.
  intro Hc. apply (emit_fits _ []).
  - unfold enc_message, algorithms_msg. cbn [m_header m_payload]. unfold enc_payload, enc_algs_rsp, enc_header.
    cbn [h_version h_code ar_count ar_mspec ar_opaque ar_mhash ar_asym ar_hash ar_structs]. unfold alg_len, ver_ge. rewrite Hc. unfold algorithms_message, recorded, V11, V12.
    change (N.to_nat 4) with 4%nat. cbn [firstn map concat]. unfold enc_alg_struct. cbn [as_type as_alg]. change (4 * 4 <? 256) with true. cbv iota. change (36 + 4 * 4) with 52.
    destruct (17 <=? n_version n); destruct (18 <=? n_version n); rewrite ?xwire_app, ?xw8, ?xw16, ?xw32; unfold zeros, x_arr; rewrite ?xwire_arr_cnt; cbn [xwire]; rewrite ?app_nil_r; reflexivity.
  - unfold algorithms_message. destruct (17 <=? n_version n); destruct (18 <=? n_version n); vm_compute; discriminate.
Qed.

(** the answers: an ERROR, or ALGORITHMS with the selections; when the transcript is full an ERROR
    follows ALGORITHMS in the same message *)
Definition selected (E : env) (x : ctx) (b : bytes) (x' : ctx) (m : bytes) : Prop :=
  exists c p rest sel, version_of c = ver x /\ dec_nego_algs c (skipn 2 b) = POk p rest /\
    (forall f, best_common f (offered p (x_nego x) f) (configured (x_cfg x) f) (sel f)) /\
    (forall f, recorded (x_nego x') f = sel f) /\ n_version (x_nego x') = ver x /\
    m = algorithms_message (ver x) (N.land (cf_opaque (x_cfg x)) (na_opaque p)) (cf_mhash (x_cfg x)) sel.
Definition algorithms_answer (E : env) (x : ctx) (b : bytes) (x' : ctx) (m : bytes) : Prop :=
  (exists c d, m = error_message (ver x) c d) \/ selected E x b x' m \/
  (exists m0 c d, selected E x b x' m0 /\ m = m0 ++ error_message (ver x) c d).
Lemma nego_construct cr x r x' : construct_my_cert_chain cr x = (r, x') -> x_nego x' = x_nego x /\ x_cfg x' = x_cfg x.
Proof. unfold construct_my_cert_chain. destruct (construct_slots _ _ _ _) as [o l]. intro H. match type of H with (_, ?y) = _ => replace x' with y by congruence end. split; reflexivity. Qed.
Lemma nego_append_a m x r x' : append_a m x = (r, x') -> x_nego x' = x_nego x /\ x_cfg x' = x_cfg x.
Proof. unfold append_a. destruct (_ <? _); intro H; match type of H with (_, ?y) = _ => replace x' with y by congruence end; split; reflexivity. Qed.
Lemma take_version p n : n_version (take_offer p n) = n_version n.
Proof.
  unfold take_offer. assert (G : forall l m, n_version (fold_left take_alg l m) = n_version m).
  { induction l as [|a l IH]; intro m; cbn [fold_left]; [reflexivity|]. rewrite IH. destruct a as [t [v|v|v|v|]]; reflexivity. }
  rewrite G. reflexivity.
Qed.
Lemma write_algorithm_good E b x w y : write_algorithm E b x = (Ok w, y) -> algorithms_answer E x b y w.
Proof.
  assert (Er : forall z c d u z', ver z = ver x -> write_err_data c d [] z = (Ok u, z') -> algorithms_answer E x b y u).
  { intros z c d u z' V K. rewrite write_err_nil in K. left. exists c, d. rewrite <- V. unfold error_message, error_bytes in *. congruence. }
  intro H. unfold write_algorithm in H. unfold sbind at 1, sget at 1 in H. destruct (x_conn x =? CONN_AFTER_CAPABILITIES); [|exact (Er x _ _ _ _ eq_refl H)].
  unfold with_version in H. unfold sbind at 1, sget at 1 in H. destruct (read_header b) as [[h t]|] eqn:Rh; [|exact (Er x _ _ _ _ eq_refl H)].
  destruct (negb _); [exact (Er x _ _ _ _ eq_refl H)|]. unfold sbind at 1, smod at 1 in H.
  pose proof (calm_reset_buffer RC_NEGOTIATE_ALGORITHMS None x) as [Ko _]. set (y1 := reset_buffer RC_NEGOTIATE_ALGORITHMS None x) in *. clearbody y1.
  assert (N1 : x_nego y1 = x_nego x) by (unfold outline in Ko; congruence). clear Ko.
  bi H. assert (y0 = y1) as -> by (unfold rd in P; destruct (dec_nego_algs _ t); congruence). destruct v as [[p rest]|]; [|exact (Er y1 _ _ _ _ (f_equal n_version N1) H)].
  assert (Dp : dec_nego_algs (xc y1) t = POk p rest) by (unfold rd in P; destruct (dec_nego_algs _ t); congruence). clear P.
  assert (Hb : skipn 2 b = t) by (clear - Rh; unfold read_header in Rh; destruct b as [|b0 [|b1 b2]]; try discriminate Rh; cbn [skipn]; unfold dec_header in Rh; cbn in Rh; congruence).
  unfold sbind at 1, smod at 1 in H. unfold tryelse at 1, scatch at 1 in H.
  set (y2 := modn (take_offer p) y1) in *. assert (N2 : x_nego y2 = take_offer p (x_nego x)) by (unfold y2; rewrite <- N1; reflexivity).
  assert (V2 : ver y2 = ver x) by (unfold ver; rewrite N2; apply take_version). clearbody y2.
  destruct (append_a _ y2) as [[[]| |] y3] eqn:A1; [|apply nego_append_a in A1 as [N3 _]; apply (Er y3 _ _ _ _ (eq_trans (f_equal n_version N3) V2) H)|discriminate H].
  apply nego_append_a in A1 as [N3 _]. unfold sbind at 1, smod at 1 in H.
  set (y4 := modn (select_algs (x_cfg x)) y3) in *. assert (N4 : x_nego y4 = select_algs (x_cfg x) (take_offer p (x_nego x))) by (unfold y4; rewrite <- N2, <- N3; reflexivity). clearbody y4.
  assert (V4 : ver y4 = ver x) by (unfold ver; rewrite N4; change (n_version (take_offer p (x_nego x)) = n_version (x_nego x)); apply take_version).
  unfold tryelse at 1, scatch at 1 in H. destruct (construct_my_cert_chain (e_cr E) y4) as [[[]| |] y5] eqn:C; [|apply nego_construct in C as [N5 _]; apply (Er y5 _ _ _ _ (eq_trans (f_equal n_version N5) V4) H)|discriminate H].
  apply nego_construct in C as [N5 _]. unfold sbind at 1, smod at 1 in H.
  set (op := N.land (cf_opaque (x_cfg x)) (na_opaque p)) in *. set (y6 := modn (set_n_opaque op) y5) in *.
  assert (N6 : x_nego y6 = set_n_opaque op (select_algs (x_cfg x) (take_offer p (x_nego x)))) by (unfold y6; rewrite <- N4, <- N5; reflexivity). clearbody y6.
  unfold sbind at 1, sget at 1 in H. unfold encode_or_err in H. unfold sbind at 1, wenc at 1 in H. rewrite (emit_algorithms (xc y6) (x_nego y6) eq_refl) in H. cbn [fst snd] in H.
  set (n6 := x_nego y6) in *.
  assert (V6 : n_version n6 = ver x) by (rewrite N6; change (n_version (take_offer p (x_nego x)) = n_version (x_nego x)); apply take_version).
  set (m0 := algorithms_message (n_version n6) (n_opaque n6) (n_mhash n6) (recorded n6)) in *.
  assert (Sel : x_nego y = n6 -> selected E x b y m0).
  { intro Ny. exists (xc y1), p, rest, (recorded n6). split; [exact (f_equal n_version N1)|]. split; [rewrite Hb; exact Dp|]. split.
    - intro f. rewrite N6. change (recorded (set_n_opaque op (select_algs (x_cfg x) (take_offer p (x_nego x)))) f) with (recorded (set_n_opaque op (select_algs (x_cfg x) (take_offer p (x_nego x)))) f).
      replace (recorded (set_n_opaque op (select_algs (x_cfg x) (take_offer p (x_nego x)))) f) with (recorded (select_algs (x_cfg x) (take_offer p (x_nego x))) f) by (destruct f; reflexivity).
      rewrite select_recorded, offer_recorded. apply prioritize_best.
    - split; [intro f; rewrite Ny; reflexivity|]. split; [rewrite Ny; exact V6|]. unfold m0. rewrite V6. f_equal; rewrite N6; reflexivity. }
  unfold then_append, tryelse, scatch in H. destruct (append_a m0 y6) as [[[]| |] y7] eqn:A2; apply nego_append_a in A2 as [N7 _]; [|  |discriminate H].
  - unfold sret in H. assert (y = y7) as -> by congruence. assert (w = m0) as -> by congruence. right; left. exact (Sel N7).
  - right; right. unfold write_err, write_err_data in H. unfold sbind at 1, sget at 1 in H. bi H. unfold sret in H. assert (y = y0) as -> by congruence.
    unfold wenc in P. destruct (emit _ m0) as [[ok w0]|] eqn:Em; [|discriminate P]. assert (y0 = y7) as -> by congruence. exists m0.
    assert (F : emit (enc_message (xc y7) (error_msg (ver y7) ERR_UNSPECIFIED 0)) m0 = Some (true, m0 ++ error_message (ver x) ERR_UNSPECIFIED 0)).
    { replace (ver x) with (ver y7) by (unfold ver; rewrite N7; exact V6). apply emit_fits; [reflexivity|]. unfold m0, algorithms_message. destruct (17 <=? n_version n6); destruct (18 <=? n_version n6); vm_compute; discriminate. }
    exists ERR_UNSPECIFIED, 0. split; [exact (Sel N7)|]. rewrite F in Em. destruct v as [vb vw]. cbn [snd] in H. congruence.
Qed.
Lemma version_written E b x w y : write_algorithm E b x = (Ok w, y) -> ver y = ver x.
Proof.
  assert (Rr : rel (fun a c => ver c = ver a) (write_algorithm E b)).
  { assert (Pre : preorder (fun a c : ctx => ver c = ver a)) by (split; congruence).
    unfold write_algorithm, with_version, encode_or_err, then_append. rl Pre.
    all: try (intros z o z' Hz; first [apply nego_append_a in Hz as [Hz _]|apply nego_construct in Hz as [Hz _]]; unfold ver; rewrite Hz; reflexivity).
    all: apply rel_mod; intro z; first [reflexivity|apply take_version|exact (calm_ver None _ _ (calm_reset_buffer _ _ z))]. }
  intro H. exact (Rr _ _ _ H).
Qed.
Definition same_nego (x x' : ctx) : Prop := x_nego x' = x_nego x.
Lemma same_nego_pre : preorder same_nego. Proof. split; unfold same_nego; congruence. Qed.
Lemma nego_send E w : rel same_nego (send_message E w).
Proof.
  assert (I : forall t, rel same_nego (io_send E t)) by (intros t x r x' H; unfold io_send in H; destruct (e_send E (x_io x) t); match type of H with (_, ?y) = _ => replace x' with y by congruence end; reflexivity).
  assert (A : forall op, rel same_nego (after_send op)).
  { intro op. unfold after_send. rl same_nego_pre; try (apply rel_mod; intro; reflexivity); try (intros y o z Hz; unfold on_sess in Hz; destruct (get_sess _ y); [destruct (smod _ _) as [o1 s1]|]; match type of Hz with (_, ?u) = _ => replace z with u by congruence end; reflexivity). all: try (apply rel_mod; intro; destruct (_ <? _); reflexivity). }
  assert (R : forall w, rel same_nego (send_raw E w)) by (intro; unfold send_raw; rl same_nego_pre; try apply I; apply A).
  unfold send_message, write_err, write_err_data. rl same_nego_pre; try apply R.
Qed.

Theorem C17_responder_selects_best_common : forall E f b x r x',
  plain_message E f = Some b -> request_code b = Some 0xE3 -> process_frame E f x = (r, x') ->
  one_reply E x x' (algorithms_answer E x b x').
Proof.
  intros * Pf Rc H. rewrite (frame_plain E f b x Pf) in H. apply is_ok_inv in H as [r0 H].
  assert (D : dispatch_message E b = handle_algorithm E b).
  { destruct (code_header b _ Rc) as (h & t & Rh & Hh). unfold dispatch_message. rewrite Rh, Hh. reflexivity. }
  rewrite D in H. unfold handle_algorithm in H. unfold sbind at 1 in H. destruct (write_algorithm E b x) as [o y] eqn:W.
  assert (Q : rel quiet (write_algorithm E b)).
  { unfold write_algorithm, with_version, encode_or_err, then_append. rl quiet_pre; try apply quiet_append_a; try (apply rel_mod; intro; first [apply quiet_reset_buffer|split; reflexivity]).
    intros z oo z' Hz. unfold construct_my_cert_chain in Hz. destruct (construct_slots _ _ _ _). match type of Hz with (_, ?u) = _ => replace z' with u by congruence end. split; reflexivity. }
  destruct (Q _ _ _ W) as [Q1 _]. destruct o as [w| |]; [|left; congruence|left; congruence].
  pose proof (write_algorithm_good E b x w y W) as Gd. pose proof (nego_send E w y _ _ H) as Nn. red in Nn.
  assert (V : ver y = ver x \/ True) by (right; exact I). clear V.
  assert (Gd' : algorithms_answer E x b x' w).
  { unfold algorithms_answer, selected in *. rewrite Nn. exact Gd. }
  assert (Pe : algorithms_answer E x b x' (error_message (ver y) 0xD 0)).
  { left. exists 0xD, 0. f_equal. exact (version_written E b x w y W). }
  unfold one_reply. rewrite <- Q1. exact (send_message_one E w y r0 x' _ Gd' Pe H).
Qed.
Print Assumptions C17_responder_selects_best_common.
(** with nothing offered twice and an x that has negotiated nothing, "offered" is what the message says *)
Example C17_case_responder :
  plain_message ex_env f3 = Some (tl f3) /\ request_code (tl f3) = Some 0xE3 /\
  x_sent (step f3 ex2) = (5 :: algorithms_message 0x12 2 2 (fun f => match f with FMeasSpec => 1 | FAsym => 0x80 | FHash => 2 | FDhe => 8 | FAead => 2 | FReqAsym => 0x80 | FKeySched => 1 end)) :: x_sent ex2.
Proof. vm_compute. auto. Qed.
