(** C15, C32: transcript buffers and transcripts; C69-C71: where the build without hashed-transcript-data departs. *)
From Verif Require Import Bytes BytesFacts Status Codec CodecProofs Monad Algo MsgConn Crypto KeySchedule Session Context Transcript SpecTranscript RspOpcode ReqMeas ReqHand ReqTrans PropRetr ToyCrypto ExPair.
From Coq Require Import Lia.
Local Open Scope N_scope.

(** ** C15 *)
Definition mb_ok (cap : nat) (b : mbuf) : Prop := (mb_used b <= length (mb_array b))%nat /\ length (mb_array b) = cap.
Lemma mb_new_ok cap : mb_ok cap (mb_new cap).
Proof. split; [cbn; lia|]. cbn [mb_new mb_array]. apply repeat_length. Qed.
Lemma mb_reset_ok cap b : mb_ok cap b -> mb_ok cap (mb_reset b) /\ mb_ref (mb_reset b) = [].
Proof. intros [A B]. split; [split; [cbn; lia|exact B]|reflexivity]. Qed.
Lemma mb_ref_len cap b : mb_ok cap b -> length (mb_ref b) = mb_used b.
Proof. intros [A B]. unfold mb_ref. rewrite firstn_length. lia. Qed.
Lemma mb_append_spec cap m b : mb_ok cap b ->
  if (length (mb_ref b) + length m <=? cap)%nat
  then exists b', mb_append m b = (Some (length m), b') /\ mb_ok cap b' /\ mb_ref b' = mb_ref b ++ m
  else mb_append m b = (None, b).
Proof.
  intro O. rewrite (mb_ref_len cap b O). pose proof O as [A B]. unfold mb_append.
  assert (W : writer_ok (w_init (skipn (mb_used b) (mb_array b)))) by (unfold writer_ok, w_init; cbn; lia).
  pose proof (w_extend_spec _ m W) as S. unfold w_left, w_init in S. cbn [w_buf w_offs] in S. rewrite skipn_length in S.
  unfold w_init. destruct (w_extend _ m) as [w|] eqn:E.
  - destruct S as (S1 & S2 & S3 & S4 & S5). cbn [w_offs Nat.add] in S3.
    assert (length (w_used_slice w) = length m) as Lm. { rewrite S4. reflexivity. }
    assert (w_offs w <= length (w_buf w))%nat as Lw by exact S1.
    destruct (Nat.leb_spec (mb_used b + length m) cap) as [L|L]; [|exfalso; lia].
    eexists. split; [unfold w_used; rewrite S3; reflexivity|]. split.
    + split; cbn [mb_used mb_array]; rewrite app_length, firstn_length; lia.
    + unfold mb_ref. cbn [mb_used mb_array]. rewrite firstn_app, firstn_length, firstn_firstn. replace (Nat.min (mb_used b + length m) (mb_used b)) with (mb_used b) by lia.
      replace (mb_used b + length m - Nat.min (mb_used b) (length (mb_array b)))%nat with (w_offs w) by lia. unfold w_used_slice in S4. rewrite S4. reflexivity.
  - destruct (Nat.leb_spec (mb_used b + length m) cap) as [L|L]; [exfalso; lia|reflexivity].
Qed.
Lemma buffer_run_held cap ops : forall b acc, mb_ok cap b -> mb_ref b = concat acc ->
  let (t, e) := buffer_run ops b in mb_ok cap e /\ mb_ref e = concat (held acc t).
Proof.
  induction ops as [|[m|] ops IH]; intros b acc O R; cbn [buffer_run].
  - split; assumption.
  - pose proof (mb_append_spec cap m b O) as S. destruct (_ <=? _)%nat.
    + destruct S as (b' & -> & O' & R'). specialize (IH b' (acc ++ [m]) O'). rewrite concat_app in IH. cbn [concat] in IH. rewrite app_nil_r in IH. rewrite R' , R in IH. specialize (IH eq_refl).
      destruct (buffer_run ops b') as [t e]. exact IH.
    + rewrite S. specialize (IH b acc O R). destruct (buffer_run ops b) as [t e]. exact IH.
  - destruct (mb_reset_ok cap b O) as [O' R']. specialize (IH (mb_reset b) [] O' R'). destruct (buffer_run ops (mb_reset b)) as [t e]. exact IH.
Qed.
Lemma buffer_of_ok cap b : buffer_of cap b -> mb_ok cap b.
Proof. intros (ops & t & H). pose proof (buffer_run_held cap ops (mb_new cap) [] (mb_new_ok cap) eq_refl) as G. rewrite H in G. apply G. Qed.
(** any history: the contents are what went in since the last reset, within the capacity; and what one more
    append does *)
Theorem C15_buffer_exact : forall cap ops trace b, buffer_run ops (mb_new cap) = (trace, b) ->
  mb_ref b = concat (held [] trace) /\ (length (mb_ref b) <= cap)%nat /\
  (forall m, (length (mb_ref b) + length m <= cap)%nat -> exists b', mb_append m b = (Some (length m), b') /\ mb_ref b' = mb_ref b ++ m) /\
  (forall m, (cap < length (mb_ref b) + length m)%nat -> mb_append m b = (None, b)) /\
  mb_ref (mb_reset b) = [].
Proof.
  intros cap ops trace b H. pose proof (buffer_run_held cap ops (mb_new cap) [] (mb_new_ok cap) eq_refl) as G. rewrite H in G. destruct G as [O R].
  split; [exact R|]. split; [rewrite (mb_ref_len cap b O); destruct O; lia|]. split; [|split; [|reflexivity]].
  - intros m L. pose proof (mb_append_spec cap m b O) as S. rewrite (proj2 (Nat.leb_le _ _) L) in S. destruct S as (b' & E & _ & R'). exists b'. auto.
  - intros m L. pose proof (mb_append_spec cap m b O) as S. rewrite (proj2 (Nat.leb_gt _ _) L) in S. exact S.
Qed.
(** ManagedBufferA is what the rest of the model calls append_a *)
Theorem C15_connection_messages : forall m b x, buffer_of CAP_A b -> x_msg_a x = mb_ref b ->
  match mb_append m b with
  | (Some _, b') => append_a m x = (Ok tt, set_x_msg_a (mb_ref b') x)
  | (None, b') => b' = b /\ append_a m x = (Err ST_BUFFER_FULL, x)
  end.
Proof.
  intros m b x (ops & t & H) R. destruct (C15_buffer_exact _ _ _ _ H) as (_ & L & Y & N & _). unfold append_a. rewrite R.
  destruct (Nat.le_gt_cases (length (mb_ref b) + length m) CAP_A) as [F|F].
  - destruct (Y m F) as (b' & -> & ->). assert (E : (MAX_A <? len (mb_ref b) + len m) = false). { apply N.ltb_ge. unfold len, MAX_A. change CAP_A with 156%nat in F. lia. } rewrite E. reflexivity.
  - rewrite (N m F). split; [reflexivity|]. assert (E : (MAX_A <? len (mb_ref b) + len m) = true). { apply N.ltb_lt. unfold len, MAX_A. change CAP_A with 156%nat in F. lia. } rewrite E. reflexivity.
Qed.
Example C15_case : buffer_run [BAppend [1; 2]; BAppend [3; 4; 5]; BAppend [6]; BReset; BAppend [7]] (mb_new 4) =
  ([(BAppend [1; 2], true); (BAppend [3; 4; 5], false); (BAppend [6], true); (BReset, true); (BAppend [7], true)], mkMb 1 [7; 2; 6; 0]).
Proof. reflexivity. Qed.

(** ** C32: the challenge transcript *)
Lemma mb_push_ok cap m b b' : mb_ok cap b -> mb_push m b = Ok b' -> mb_ok cap b' /\ mb_ref b' = mb_ref b ++ m.
Proof.
  intros O H. pose proof (mb_append_spec cap m b O) as S. unfold mb_push in H. destruct (_ <=? _)%nat.
  - destruct S as (b2 & E & O' & R). rewrite E in H. assert (b2 = b') as -> by congruence. auto.
  - rewrite S in H. discriminate.
Qed.
Lemma mb_push_fits cap m b : mb_ok cap b -> (length (mb_ref b) + length m <= cap)%nat -> exists b', mb_push m b = Ok b' /\ mb_ok cap b' /\ mb_ref b' = mb_ref b ++ m.
Proof. intros O L. pose proof (mb_append_spec cap m b O) as S. rewrite (proj2 (Nat.leb_le _ _) L) in S. destruct S as (b' & E & O' & R). exists b'. unfold mb_push. rewrite E. auto. Qed.
Lemma mb_gather_fits cap ms : forall b, mb_ok cap b -> (length (mb_ref b) + length (concat ms) <= cap)%nat -> exists b', mb_gather ms b = Ok b' /\ mb_ref b' = mb_ref b ++ concat ms.
Proof.
  induction ms as [|m ms IH]; intros b O L; cbn [mb_gather concat].
  - exists b. rewrite app_nil_r. auto.
  - cbn [concat] in L. rewrite app_length in L. destruct (mb_push_fits cap m b O ltac:(lia)) as (b1 & -> & O1 & R1). destruct (IH b1 O1) as (b2 & -> & R2); [rewrite R1, app_length; lia|].
    exists b2. split; [reflexivity|]. rewrite R2, R1, app_assoc. reflexivity.
Qed.
Lemma gathered_fits cap ms : (length (concat ms) <= cap)%nat -> gathered cap ms = Ok (concat ms).
Proof. intro L. unfold gathered. destruct (mb_gather_fits cap ms (mb_new cap) (mb_new_ok cap) L) as (b & -> & R). rewrite R. reflexivity. Qed.
Definition prt_ok (p : plain_rt) : Prop := mb_ok CAP_A (pr_a p) /\ mb_ok CAP_B (pr_b p) /\ mb_ok CAP_C (pr_c p).
Lemma m1m2_is p : prt_ok p -> plain_m1m2 p = Ok (mb_ref (pr_a p) ++ mb_ref (pr_b p) ++ mb_ref (pr_c p)).
Proof.
  intros (A & B & C). unfold plain_m1m2. rewrite gathered_fits; [cbn [concat]; rewrite app_nil_r; reflexivity|]. cbn [concat]. rewrite !app_length, !(mb_ref_len _ _ A), !(mb_ref_len _ _ B), !(mb_ref_len _ _ C).
  destruct A, B, C. unfold CAP_M1M2. cbn [length]. lia.
Qed.
(** what ties the two builds together at a point of a run *)
Definition tied (phase : nat) (p : plain_rt) (x : ctx) : Prop :=
  prt_ok p /\ x_msg_a x = mb_ref (pr_a p) /\
  match x_m1m2 x with
  | None => phase = 0%nat /\ mb_ref (pr_b p) = [] /\ mb_ref (pr_c p) = []
  | Some w => w = mb_ref (pr_a p) ++ mb_ref (pr_b p) ++ mb_ref (pr_c p) /\ phase <> 0%nat /\ (phase = 1%nat -> mb_ref (pr_c p) = [])
  end.
Definition next_phase (o : cop) : nat := match o with CA _ => 0 | CB _ => 1 | CC _ => 2 | CDone | CRestart => 0 end.
Definition may (phase : nat) (o : cop) : Prop := match o with CA _ => phase = 0%nat | CB _ => (phase <= 1)%nat | _ => True end.
Lemma orderly_cons phase o r : orderly phase (o :: r) -> may phase o /\ orderly (next_phase o) r.
Proof. destruct o; cbn [orderly may next_phase]; tauto. Qed.
Lemma hash_kept f x : n_hash (x_nego (set_x_m1m2 f x)) = n_hash (x_nego x). Proof. reflexivity. Qed.
Lemma tied_step cr phase o p x u p' : hash_ok cr (n_hash (x_nego x)) = true -> tied phase p x -> may phase o -> plain_call o p = (Ok u, p') ->
  exists x', hashed_call cr o x = (Ok tt, x') /\ tied (next_phase o) p' x' /\ x_nego x' = x_nego x.
Proof.
  intros HK ((OA & OB & OC) & TA & TM) M H. destruct o as [m|m|m| |]; cbn [plain_call hashed_call next_phase may] in *.
  - unfold p_append_a in H. destruct (mb_push m (pr_a p)) as [b| |] eqn:E; try discriminate. assert (p' = mkPrt b (pr_b p) (pr_c p) (pr_m p)) as -> by congruence.
    destruct (mb_push_ok _ _ _ _ OA E) as [O' R']. exists (set_x_msg_a (mb_ref b) x). split; [|split; [|reflexivity]].
    + unfold append_a. rewrite TA. assert (L : (MAX_A <? len (mb_ref (pr_a p)) + len m) = false).
      { apply N.ltb_ge. pose proof (mb_ref_len _ _ O') as K. rewrite R', app_length in K. destruct O' as [K1 K2]. unfold len, MAX_A. change CAP_A with 156%nat in K2. lia. }
      rewrite L, R'. reflexivity.
    + split; [split; [exact O'|split; assumption]|]. cbn [pr_a pr_b pr_c]. split; [reflexivity|]. change (x_m1m2 (set_x_msg_a (mb_ref b) x)) with (x_m1m2 x). destruct (x_m1m2 x) as [w|]; [destruct TM as (_ & K & _); destruct (K M)|exact (conj eq_refl (proj2 TM))].
  - unfold p_append_b in H. destruct (mb_push m (pr_b p)) as [b| |] eqn:E; try discriminate. assert (p' = mkPrt (pr_a p) b (pr_c p) (pr_m p)) as -> by congruence.
    destruct (mb_push_ok _ _ _ _ OB E) as [O' R']. unfold append_b, append_m1m2. destruct (x_m1m2 x) as [w|] eqn:X.
    + destruct TM as (W & N0 & C0). assert (C1 : mb_ref (pr_c p) = []) by (apply C0; lia). eexists. split; [reflexivity|]. split; [|reflexivity]. split; [split; [exact OA|split; [exact O'|exact OC]]|]. split; [exact TA|]. cbn [pr_a pr_b pr_c]. rewrite C1, app_nil_r in *.
      change (x_m1m2 (set_x_m1m2 (Some (w ++ m)) x)) with (Some (w ++ m)). cbv iota. split; [rewrite W, R', app_assoc; reflexivity|]. split; [discriminate|reflexivity].
    + rewrite HK. destruct TM as (_ & B0 & C0). eexists. split; [reflexivity|]. split; [|reflexivity]. split; [split; [exact OA|split; [exact O'|exact OC]]|]. split; [exact TA|]. cbn [pr_a pr_b pr_c].
      change (x_m1m2 (set_x_m1m2 (Some (x_msg_a x ++ m)) x)) with (Some (x_msg_a x ++ m)). cbv iota. split; [rewrite TA, R', B0, C0, app_nil_r; reflexivity|]. split; [discriminate|intros _; exact C0].
  - unfold p_append_c in H. destruct (mb_push m (pr_c p)) as [b| |] eqn:E; try discriminate. assert (p' = mkPrt (pr_a p) (pr_b p) b (pr_m p)) as -> by congruence.
    destruct (mb_push_ok _ _ _ _ OC E) as [O' R']. unfold append_c, append_m1m2. destruct (x_m1m2 x) as [w|] eqn:X.
    + destruct TM as (W & N0 & C0). eexists. split; [reflexivity|]. split; [|reflexivity]. split; [split; [exact OA|split; [exact OB|exact O']]|]. split; [exact TA|]. cbn [pr_a pr_b pr_c].
      change (x_m1m2 (set_x_m1m2 (Some (w ++ m)) x)) with (Some (w ++ m)). cbv iota. split; [rewrite W, R', !app_assoc; reflexivity|]. split; discriminate.
    + rewrite HK. destruct TM as (_ & B0 & C0). eexists. split; [reflexivity|]. split; [|reflexivity]. split; [split; [exact OA|split; [exact OB|exact O']]|]. split; [exact TA|]. cbn [pr_a pr_b pr_c].
      change (x_m1m2 (set_x_m1m2 (Some (x_msg_a x ++ m)) x)) with (Some (x_msg_a x ++ m)). cbv iota. split; [rewrite TA, R', B0, C0; reflexivity|]. split; discriminate.
  - assert (p' = p_reset_c (p_reset_b p)) as -> by (unfold smod in H; congruence). exists (reset_c (reset_b x)). split; [reflexivity|]. split; [|reflexivity].
    split; [split; [exact OA|split; apply mb_reset_ok; assumption]|]. split; [exact TA|]. split; [reflexivity|]. split; reflexivity.
  - assert (p' = p_reset_c (p_reset_b (p_reset_a p))) as -> by (unfold smod in H; congruence). exists (reset_c (reset_b (reset_a x))). split; [reflexivity|]. split; [|reflexivity].
    split; [split; [apply mb_reset_ok; exact OA|split; apply mb_reset_ok; assumption]|]. split; [reflexivity|]. split; [reflexivity|]. split; reflexivity.
Qed.
(** every orderly history the plain build gets through: the default build gets through it too and both hold the
    same bytes to be signed *)
Theorem C32_challenge_transcript_both_builds : forall cr ops x p, hash_ok cr (n_hash (x_nego x)) = true -> x_msg_a x = [] -> x_m1m2 x = None ->
  orderly 0 ops -> all_of plain_call ops plain_new = (Ok tt, p) ->
  exists x', all_of (hashed_call cr) ops x = (Ok tt, x') /\ same_m1m2 p x' /\ x_msg_a x' = mb_ref (pr_a p).
Proof.
  intros cr ops x p HK A0 M0 Or H.
  assert (T : tied 0 plain_new x). { split; [split; [apply mb_new_ok|split; apply mb_new_ok]|]. split; [rewrite A0; reflexivity|]. rewrite M0. split; [reflexivity|split; reflexivity]. }
  assert (G : forall ops phase p0 x, hash_ok cr (n_hash (x_nego x)) = true -> tied phase p0 x -> orderly phase ops -> all_of plain_call ops p0 = (Ok tt, p) ->
    exists x' phase', all_of (hashed_call cr) ops x = (Ok tt, x') /\ tied phase' p x').
  { clear. induction ops as [|o r IH]; intros phase p0 x HK T Or H.
    - cbn [all_of] in *. unfold sret in *. exists x, phase. split; [reflexivity|]. assert (p0 = p) as -> by congruence. exact T.
    - apply orderly_cons in Or as [M Or]. cbn [all_of] in H. unfold sbind in H. destruct (plain_call o p0) as [[u|e|] p1] eqn:E; try discriminate.
      destruct (tied_step cr phase o p0 x u p1 HK T M E) as (x1 & E1 & T1 & N1). destruct (IH (next_phase o) p1 x1) as (x2 & ph & E2 & T2); [rewrite N1; exact HK|exact T1|exact Or|exact H|].
      exists x2, ph. split; [|exact T2]. cbn [all_of]. unfold sbind. rewrite E1. exact E2. }
  destruct (G ops 0%nat plain_new x HK T Or H) as (x' & ph & E & (O & TA & TM)). exists x'. split; [exact E|]. split; [|exact TA].
  unfold same_m1m2. destruct (x_m1m2 x') as [w|]; [|tauto]. rewrite (m1m2_is p O). f_equal. symmetry. apply TM.
Qed.
(** ** C32: the measurement transcript *)
Theorem C32_measurement_transcript_both_builds : forall cr ms a x p sid s, hash_ok cr (n_hash (x_nego x)) = true ->
  buffer_of CAP_A a -> mb_ref a = x_msg_a x -> ms <> [] ->
  match sid with None => x_l1l2 x = None | Some id => get_sess id x = Some s /\ s_l1l2 s = None end ->
  mb_gather ms (mb_new CAP_M) = Ok p ->
  exists x' w, all_of (append_m cr sid) ms x = (Ok tt, x') /\ plain_l1l2 (ver x) a p = Ok w /\
    match sid with None => x_l1l2 x' = Some w | Some id => exists s', get_sess id x' = Some s' /\ s_l1l2 s' = Some w end.
Proof.
  intros cr ms a x p sid s HK OA RA NE Z H. apply buffer_of_ok in OA.
  assert (G0 : forall ms b, mb_ok CAP_M b -> mb_gather ms b = Ok p -> mb_ok CAP_M p /\ mb_ref p = mb_ref b ++ concat ms).
  { clear. induction ms as [|m ms IH]; intros b O H; cbn [mb_gather concat] in *. - assert (b = p) as -> by congruence. rewrite app_nil_r. auto.
    - destruct (mb_push m b) as [b1| |] eqn:E; try discriminate. destruct (mb_push_ok _ _ _ _ O E) as [O1 R1]. destruct (IH b1 O1 H) as [O2 R2]. split; [exact O2|]. rewrite R2, R1, app_assoc. reflexivity. }
  destruct (G0 ms _ (mb_new_ok CAP_M) H) as [OP RP]. change (mb_ref (mb_new CAP_M)) with (@nil N) in RP. cbn [app] in RP. clear G0 H.
  set (base := if 0x12 <=? ver x then x_msg_a x else []).
  assert (W : plain_l1l2 (ver x) a p = Ok (base ++ concat ms)).
  { unfold plain_l1l2, base. rewrite RA, RP. pose proof (mb_ref_len _ _ OA) as L1. pose proof (mb_ref_len _ _ OP) as L2. rewrite RA in L1. rewrite RP in L2. destruct OA, OP.
    destruct (_ <=? _); cbn [app]; rewrite gathered_fits; cbn [concat]; rewrite ?app_nil_r; try reflexivity; rewrite ?app_length; unfold CAP_L1L2; lia. }
  destruct sid as [id|].
  - destruct Z as [G L0].
    assert (K : forall ms x1 s1 w, get_sess id x1 = Some s1 -> s_l1l2 s1 = Some w -> exists x2 s2, all_of (append_m cr (Some id)) ms x1 = (Ok tt, x2) /\ get_sess id x2 = Some s2 /\ s_l1l2 s2 = Some (w ++ concat ms)).
    { clear. induction ms as [|m ms IH]; intros x1 s1 w G L; cbn [all_of concat].
      - exists x1, s1. rewrite app_nil_r. split; [reflexivity|]. split; assumption.
      - assert (E : append_m cr (Some id) m x1 = (Ok tt, mod_sess id (set_s_l1l2 (Some (w ++ m))) x1)) by (unfold append_m; rewrite G, L; reflexivity).
        destruct (IH (mod_sess id (set_s_l1l2 (Some (w ++ m))) x1) (set_s_l1l2 (Some (w ++ m)) s1) (w ++ m)) as (x2 & s2 & E2 & G2 & L2); [apply get_mod; [exact G|reflexivity]|reflexivity|].
        exists x2, s2. split; [unfold sbind; rewrite E; exact E2|]. split; [exact G2|]. rewrite L2, app_assoc. reflexivity. }
    destruct ms as [|m ms]; [destruct (NE eq_refl)|].
    assert (E : append_m cr (Some id) m x = (Ok tt, mod_sess id (set_s_l1l2 (Some (base ++ m))) x)) by (unfold append_m; rewrite G, L0, HK; reflexivity).
    destruct (K ms (mod_sess id (set_s_l1l2 (Some (base ++ m))) x) (set_s_l1l2 (Some (base ++ m)) s) (base ++ m)) as (x2 & s2 & E2 & G2 & L2); [apply get_mod; [exact G|reflexivity]|reflexivity|].
    exists x2, (base ++ concat (m :: ms)). split; [cbn [all_of]; unfold sbind; rewrite E; exact E2|]. split; [exact W|]. exists s2. split; [exact G2|]. rewrite L2. cbn [concat]. rewrite app_assoc. reflexivity.
  - assert (K : forall ms x1 w, x_l1l2 x1 = Some w -> exists x2, all_of (append_m cr None) ms x1 = (Ok tt, x2) /\ x_l1l2 x2 = Some (w ++ concat ms)).
    { clear. induction ms as [|m ms IH]; intros x1 w L; cbn [all_of concat].
      - exists x1. rewrite app_nil_r. split; [reflexivity|exact L].
      - assert (E : append_m cr None m x1 = (Ok tt, set_x_l1l2 (Some (w ++ m)) x1)) by (unfold append_m; rewrite L; reflexivity).
        destruct (IH (set_x_l1l2 (Some (w ++ m)) x1) (w ++ m) eq_refl) as (x2 & E2 & L2). exists x2. split; [unfold sbind; rewrite E; exact E2|]. rewrite L2, app_assoc. reflexivity. }
    destruct ms as [|m ms]; [destruct (NE eq_refl)|].
    assert (E : append_m cr None m x = (Ok tt, set_x_l1l2 (Some (base ++ m)) x)) by (unfold append_m; rewrite Z, HK; reflexivity).
    destruct (K ms (set_x_l1l2 (Some (base ++ m)) x) (base ++ m) eq_refl) as (x2 & E2 & L2).
    exists x2, (base ++ concat (m :: ms)). split; [cbn [all_of]; unfold sbind; rewrite E; exact E2|]. split; [exact W|]. rewrite L2. cbn [concat]. rewrite app_assoc. reflexivity.
Qed.

(** ** C32: the key-exchange transcript *)
Lemma th_kept id f x s : get_sess id x = Some s -> s_id (f s) = s_id s -> mod_sess id f x = mod_sess id (fun _ => f s) x.
Proof.
  intros G K. unfold mod_sess. f_equal. unfold get_sess, find_sess in G. induction (x_sess x) as [|t l IH]; [discriminate|]. cbn [find upd_sess] in *. destruct (s_id t =? id); [congruence|]. rewrite IH by exact G. reflexivity.
Qed.
(** only the session table differs *)
Definition elsewhere (x x' : ctx) : Prop := exists l, x' = set_x_sess l x.
Lemma else_refl x : elsewhere x x. Proof. exists (x_sess x). destruct x. reflexivity. Qed.
Lemma else_trans a b c : elsewhere a b -> elsewhere b c -> elsewhere a c. Proof. intros (l & ->) (l' & ->). exists l'. reflexivity. Qed.
Lemma else_mod id f x : elsewhere x (mod_sess id f x). Proof. eexists. reflexivity. Qed.
Definition like (s s' : session) : Prop := s_use_psk s' = s_use_psk s /\ s_mut_auth s' = s_mut_auth s /\ s_hash s' = s_hash s /\ s_id s' = s_id s.
Lemma ks_run cr id ks : forall x s t, get_sess id x = Some s -> s_th s = Some t ->
  exists x' s', all_of (append_k cr id) ks x = (Ok tt, x') /\ get_sess id x' = Some s' /\ s_th s' = Some (t ++ concat ks) /\ s_f_init s' = s_f_init s /\ like s s' /\ elsewhere x x'.
Proof.
  induction ks as [|k ks IH]; intros x s t G T; cbn [all_of concat].
  - exists x, s. rewrite app_nil_r. split; [reflexivity|]. split; [exact G|]. split; [exact T|]. split; [reflexivity|]. split; [repeat split|apply else_refl].
  - assert (E : append_k cr id k x = (Ok tt, mod_sess id (fun _ => set_s_th (Some (t ++ k)) s) x)) by (unfold append_k, on_sess; rewrite G, T; reflexivity).
    destruct (IH (mod_sess id (fun _ => set_s_th (Some (t ++ k)) s) x) (set_s_th (Some (t ++ k)) s) (t ++ k)) as (x2 & s2 & E2 & G2 & T2 & F2 & L2 & W2); [apply (put_get id x s); [exact G|reflexivity]|reflexivity|].
    exists x2, s2. split; [unfold sbind; rewrite E; exact E2|]. split; [exact G2|]. split; [rewrite T2, app_assoc; reflexivity|]. split; [exact F2|]. split; [exact L2|]. eapply else_trans; [apply else_mod|exact W2].
Qed.
Lemma fs_run cr req id fs : forall x s t, get_sess id x = Some s -> s_th s = Some t -> s_f_init s = true ->
  exists x' s', all_of (append_f cr req id) fs x = (Ok tt, x') /\ get_sess id x' = Some s' /\ s_th s' = Some (t ++ concat fs) /\ like s s' /\ elsewhere x x'.
Proof.
  induction fs as [|k ks IH]; intros x s t G T F; cbn [all_of concat].
  - exists x, s. rewrite app_nil_r. split; [reflexivity|]. split; [exact G|]. split; [exact T|]. split; [repeat split|apply else_refl].
  - set (f := fun s0 : session => set_s_th match s_th s0 with Some t0 => Some (t0 ++ k) | None => None end s0).
    assert (E : append_f cr req id k x = (Ok tt, mod_sess id f x)). { unfold append_f. unfold sbind at 1. unfold the_sess. rewrite G, T, F. reflexivity. }
    assert (G1 : get_sess id (mod_sess id f x) = Some (f s)) by (apply get_mod; [exact G|reflexivity]).
    assert (T1 : s_th (f s) = Some (t ++ k)) by (unfold f; rewrite T; reflexivity).
    destruct (IH (mod_sess id f x) (f s) (t ++ k) G1 T1 F) as (x2 & s2 & E2 & G2 & T2 & L2 & W2).
    exists x2, s2. split; [unfold sbind at 1; rewrite E; exact E2|]. split; [exact G2|]. split; [rewrite T2, app_assoc; reflexivity|]. split; [exact L2|]. eapply else_trans; [apply else_mod|exact W2].
Qed.
Lemma f_digest_is cr req s x : mut_ready cr req s x -> f_digest cr req s x = Ok (part (mut_hash cr req s x)).
Proof.
  unfold mut_ready, f_digest, mut_hash. destruct (s_use_psk s); cbn [negb andb orb]; [reflexivity|]. destruct (s_mut_auth s =? 0) eqn:M; cbn [negb]; [reflexivity|].
  intros [K|[K|K]]; [discriminate|apply N.eqb_neq in M; destruct (M K)|]. destruct (if req then _ else _) as [c|]; [|destruct (K eq_refl)]. destruct (cr_hash cr _ c); [reflexivity|destruct (K eq_refl)].
Qed.
Lemma f_first cr req id m x s t : get_sess id x = Some s -> s_th s = Some t -> s_f_init s = false -> mut_ready cr req s x ->
  exists x' s', append_f cr req id m x = (Ok tt, x') /\ get_sess id x' = Some s' /\ s_th s' = Some (t ++ part (mut_hash cr req s x) ++ m) /\ s_f_init s' = true /\ like s s' /\ elsewhere x x'.
Proof.
  intros G T F R. set (d := part (mut_hash cr req s x)).
  set (f := fun s : session => set_s_f_init true (set_s_th (match s_th s with Some t => Some (t ++ d) | None => None end) s)).
  set (g := fun s0 : session => set_s_th match s_th s0 with Some t0 => Some (t0 ++ m) | None => None end s0).
  assert (E : append_f cr req id m x = (Ok tt, mod_sess id g (mod_sess id f x))).
  { unfold append_f. unfold sbind at 1. unfold the_sess. rewrite G, T, F. cbn [negb swhen]. unfold sbind at 1. rewrite bind_get. rewrite (f_digest_is cr req s x R). reflexivity. }
  assert (G1 : get_sess id (mod_sess id f x) = Some (f s)) by (apply get_mod; [exact G|reflexivity]).
  assert (G2 : get_sess id (mod_sess id g (mod_sess id f x)) = Some (g (f s))) by (apply get_mod; [exact G1|reflexivity]).
  eexists. exists (g (f s)). split; [exact E|]. split; [exact G2|]. split.
  - unfold g, f. cbn [s_th set_s_th set_s_f_init]. rewrite T, <- app_assoc. reflexivity.
  - split; [reflexivity|]. split; [repeat split|]. eapply else_trans; apply else_mod.
Qed.
Lemma else_mut cr req s s' x x' : elsewhere x x' -> like s s' -> mut_hash cr req s' x' = mut_hash cr req s x.
Proof. intros (l & ->) (A & B & _). unfold mut_hash. rewrite A, B. reflexivity. Qed.
(** one end, default build: any key-exchange messages, then any finish messages *)
Theorem C32_key_transcript_of_each_end : forall cr req id x s ks fs, get_sess id x = Some s -> untouched s -> hash_ok cr (s_hash s) = true ->
  ks <> [] -> (fs = [] \/ mut_ready cr req s x) ->
  exists x' s', (all_of (append_k cr id) ks ;;; all_of (append_f cr req id) fs)%st x = (Ok tt, x') /\ get_sess id x' = Some s' /\
    s_th s' = Some (TH (s_msg_a s) (s_rsp_hash s) ks (mut_hash cr req s x) fs).
Proof.
  intros cr req id x s ks fs G (T0 & F0) HK NE R. destruct ks as [|k ks]; [destruct (NE eq_refl)|].
  set (t0 := s_msg_a s ++ part (s_rsp_hash s) ++ k).
  assert (E : append_k cr id k x = (Ok tt, mod_sess id (fun _ => set_s_th (Some t0) s) x)) by (unfold append_k, on_sess; rewrite G, T0, HK; reflexivity).
  destruct (ks_run cr id ks (mod_sess id (fun _ => set_s_th (Some t0) s) x) (set_s_th (Some t0) s) t0) as (x1 & s1 & E1 & G1 & T1 & F1 & L1 & W1); [apply (put_get id x s); [exact G|reflexivity]|reflexivity|].
  change (s_f_init (set_s_th (Some t0) s)) with (s_f_init s) in F1. rewrite F0 in F1.
  assert (L : like s s1) by exact L1. assert (W : elsewhere x x1) by (eapply else_trans; [apply else_mod|exact W1]).
  assert (EK : all_of (append_k cr id) (k :: ks) x = (Ok tt, x1)) by (cbn [all_of]; unfold sbind; rewrite E; exact E1).
  destruct fs as [|f fs].
  - exists x1, s1. split; [unfold sbind; rewrite EK; reflexivity|]. split; [exact G1|]. rewrite T1. unfold TH, t0. cbn [concat]. rewrite !app_nil_r, <- !app_assoc. reflexivity.
  - destruct R as [R|R]; [discriminate|]. pose proof (else_mut cr req s s1 x x1 W L) as Hm.
    assert (R1 : mut_ready cr req s1 x1) by (unfold mut_ready in *; rewrite Hm; destruct L as (-> & -> & _); exact R).
    destruct (f_first cr req id f x1 s1 _ G1 T1 F1 R1) as (x2 & s2 & E2 & G2 & T2 & F2 & L2 & W2). rewrite Hm in T2.
    destruct (fs_run cr req id fs x2 s2 _ G2 T2 F2) as (x3 & s3 & E3 & G3 & T3 & _ & _). exists x3, s3. split; [unfold sbind at 1; rewrite EK; cbn [all_of]; unfold sbind; rewrite E2; exact E3|].
    split; [exact G3|]. rewrite T3. unfold TH, t0. cbn [concat]. rewrite <- !app_assoc. reflexivity.
Qed.
(** two ends that share what a session starts from, given the same messages, hold the same transcript *)
Theorem C32_key_transcript_both_ends : forall cr id ks fs xq q xr r, get_sess id xq = Some q -> get_sess id xr = Some r -> untouched q -> untouched r ->
  hash_ok cr (s_hash q) = true -> s_hash r = s_hash q -> ks <> [] -> s_msg_a r = s_msg_a q -> s_rsp_hash r = s_rsp_hash q ->
  mut_hash cr true q xq = mut_hash cr false r xr -> (fs = [] \/ mut_ready cr true q xq /\ mut_ready cr false r xr) ->
  exists xq' q' xr' r', (all_of (append_k cr id) ks ;;; all_of (append_f cr true id) fs)%st xq = (Ok tt, xq') /\ get_sess id xq' = Some q' /\
    (all_of (append_k cr id) ks ;;; all_of (append_f cr false id) fs)%st xr = (Ok tt, xr') /\ get_sess id xr' = Some r' /\
    s_th q' = s_th r' /\ s_th q' <> None.
Proof.
  intros cr id ks fs xq q xr r Gq Gr Uq Ur HK HH NE A C M R.
  destruct (C32_key_transcript_of_each_end cr true id xq q ks fs Gq Uq HK NE) as (xq' & q' & E1 & G1 & T1); [tauto|].
  destruct (C32_key_transcript_of_each_end cr false id xr r ks fs Gr Ur ltac:(rewrite HH; exact HK) NE) as (xr' & r' & E2 & G2 & T2); [tauto|].
  exists xq', q', xr', r'. split; [exact E1|]. split; [exact G1|]. split; [exact E2|]. split; [exact G2|]. split; [rewrite T1, T2, A, C, M; reflexivity|rewrite T1; discriminate].
Qed.
(** ** the build without hashed-transcript-data *)
Lemma gather_ok cap ms : forall b p, mb_ok cap b -> mb_gather ms b = Ok p -> mb_ok cap p /\ mb_ref p = mb_ref b ++ concat ms.
Proof.
  induction ms as [|m ms IH]; intros b p O H; cbn [mb_gather concat] in *.
  - assert (b = p) as -> by congruence. rewrite app_nil_r. auto.
  - destruct (mb_push m b) as [b1| |] eqn:E; try discriminate. destruct (mb_push_ok _ _ _ _ O E) as [O1 R1]. destruct (IH b1 p O1 H) as [O2 R2]. split; [exact O2|]. rewrite R2, R1, app_assoc. reflexivity.
Qed.
Lemma th_data_is cr alg psk mut rc mc a k f ra rm : mb_ok CAP_A a -> mb_ok CAP_K k -> mb_ok CAP_F f ->
  (psk = false -> rc = Ok ra /\ (length ra <= CAP_CHAIN)%nat) -> (psk = false -> mut = true -> mc = Ok rm /\ (length rm <= CAP_CHAIN)%nat) ->
  th_data cr alg psk mut rc mc a k (Some f) = Ok (mb_ref a ++ (if psk then [] else ra) ++ mb_ref k ++ (if negb psk && mut then rm else []) ++ mb_ref f).
Proof.
  intros OA OK OF HR HM. unfold th_data. pose proof (mb_ref_len _ _ OA) as LA. pose proof (mb_ref_len _ _ OK) as LK. pose proof (mb_ref_len _ _ OF) as LF.
  assert (BA : (length (mb_ref a) <= CAP_A)%nat) by (destruct OA; lia). assert (BK : (length (mb_ref k) <= CAP_K)%nat) by (destruct OK; lia). assert (BF : (length (mb_ref f) <= CAP_F)%nat) by (destruct OF; lia).
  clear LA LK LF OA OK OF. pose proof (mb_new_ok CAP_TH) as O0.
  destruct (mb_push_fits CAP_TH (mb_ref a) (mb_new CAP_TH) O0) as (b1 & -> & O1 & R1). { change (mb_ref (mb_new CAP_TH)) with (@nil N). unfold CAP_TH. cbn [length]. lia. }
  change (mb_ref (mb_new CAP_TH)) with (@nil N) in R1. cbn [app] in R1. cbn [obind].
  assert (S2 : exists b2, (if psk then Ok b1 else obind rc (fun h : bytes => mb_push h b1)) = Ok b2 /\ mb_ok CAP_TH b2 /\ mb_ref b2 = mb_ref a ++ (if psk then [] else ra)).
  { destruct psk; [exists b1; rewrite app_nil_r; auto|]. destruct (HR eq_refl) as [-> L]. cbn [obind]. destruct (mb_push_fits CAP_TH ra b1 O1) as (b2 & E & O2 & R2); [rewrite R1; unfold CAP_TH; lia|]. exists b2. rewrite <- R1. auto. }
  destruct S2 as (b2 & E2 & O2 & R2). match goal with |- obind ?t _ = _ => replace t with (@Ok mbuf b2) by (symmetry; exact E2) end. cbn [obind].
  assert (L2 : (length (mb_ref b2) <= CAP_A + CAP_CHAIN)%nat). { rewrite R2, app_length. destruct psk; [cbn [length]; lia|]. destruct (HR eq_refl). lia. }
  destruct (mb_push_fits CAP_TH (mb_ref k) b2 O2) as (b3 & -> & O3 & R3); [unfold CAP_TH; lia|]. cbn [obind].
  assert (L3 : (length (mb_ref b3) <= CAP_A + CAP_CHAIN + CAP_K)%nat) by (rewrite R3, app_length; lia).
  assert (S4 : exists b4, (if negb psk && mut then obind mc (fun h : bytes => mb_push h b3) else Ok b3) = Ok b4 /\ mb_ok CAP_TH b4 /\ mb_ref b4 = mb_ref b3 ++ (if negb psk && mut then rm else []) /\ (length (mb_ref b4) <= CAP_A + CAP_CHAIN + CAP_K + CAP_CHAIN)%nat).
  { destruct psk; cbn [negb andb]; [exists b3; rewrite app_nil_r; split; [reflexivity|]; split; [exact O3|]; split; [reflexivity|lia]|]. destruct mut; [|exists b3; rewrite app_nil_r; split; [reflexivity|]; split; [exact O3|]; split; [reflexivity|lia]].
    destruct (HM eq_refl eq_refl) as [-> L]. cbn [obind]. destruct (mb_push_fits CAP_TH rm b3 O3) as (b4 & E & O4 & R4); [unfold CAP_TH; lia|]. exists b4. split; [exact E|]. split; [exact O4|]. split; [exact R4|]. rewrite R4, app_length. lia. }
  destruct S4 as (b4 & E4 & O4 & R4 & L4). match goal with |- obind ?t _ = _ => replace t with (@Ok mbuf b4) by (symmetry; exact E4) end. cbn [obind].
  destruct (mb_push_fits CAP_TH (mb_ref f) b4 O4) as (b5 & -> & O5 & R5); [unfold CAP_TH; lia|]. cbn [obind]. rewrite R5, R4, R3, R2, <- !app_assoc. reflexivity.
Qed.

Definition has_fs (fs : list bytes) : bool := match fs with [] => false | _ => true end.
(** one end without the feature: what calc_req_transcript_data / calc_rsp_transcript_data return after the
    same messages; is_mut_auth as the callers pass it, only once FINISH messages exist *)
Lemma plain_th cr (req psk mut : bool) c slot a k f ks fs rh mh : buffer_of CAP_A a -> mb_gather ks (mb_new CAP_K) = Ok k -> mb_gather fs (mb_new CAP_F) = Ok f ->
  (forall chain h, cr_hash cr (ch_alg c) chain = Some h -> (length h <= 64)%nat) ->
  (psk = false -> exists chain, nth_error (if req then ch_peer c else ch_my c) (N.to_nat slot) = Some (Some chain) /\ cr_hash cr (ch_alg c) chain = Some rh) ->
  (psk = false -> mut = true -> exists chain, nth_error (if req then ch_my c else ch_peer c) (N.to_nat (if req then ch_lslot c else ch_pslot c)) = Some (Some chain) /\ cr_hash cr (ch_alg c) chain = Some mh) ->
  (if req then calc_req_data else calc_rsp_data) cr c psk slot (mut && has_fs fs) a k (Some f) =
  Ok (TH (mb_ref a) (if psk then None else Some rh) ks (if negb psk && mut then Some mh else None) fs).
Proof.
  intros OA HK HF HL HR HM. apply buffer_of_ok in OA. destruct (gather_ok _ _ _ _ (mb_new_ok CAP_K) HK) as [OK RK]. destruct (gather_ok _ _ _ _ (mb_new_ok CAP_F) HF) as [OF RF].
  change (mb_ref (mb_new CAP_K)) with (@nil N) in RK. change (mb_ref (mb_new CAP_F)) with (@nil N) in RF. cbn [app] in RK, RF.
  assert (E : (if req then calc_req_data else calc_rsp_data) cr c psk slot (mut && has_fs fs) a k (Some f) =
              Ok (mb_ref a ++ (if psk then [] else rh) ++ mb_ref k ++ (if negb psk && (mut && has_fs fs) then mh else []) ++ mb_ref f)).
  { assert (SH : psk = false -> forall e l n chain h, nth_error l (N.to_nat n) = Some (Some chain) -> cr_hash cr (ch_alg c) chain = Some h -> slot_hash cr (ch_alg c) e l n = Ok h /\ (length h <= CAP_CHAIN)%nat).
    { intros _ e l n chain h N1 N2. unfold slot_hash. rewrite N1, N2. split; [reflexivity|]. specialize (HL chain h N2). unfold CAP_CHAIN. lia. }
    destruct req; [unfold calc_req_data|unfold calc_rsp_data]; apply th_data_is; try assumption.
    - intro P. destruct (HR P) as (chain & N1 & N2). exact (SH P _ _ _ _ _ N1 N2).
    - intros P M. apply Bool.andb_true_iff in M as [M _]. destruct (HM P M) as (chain & N1 & N2). exact (SH P _ _ _ _ _ N1 N2).
    - intro P. destruct (HR P) as (chain & N1 & N2). exact (SH P _ _ _ _ _ N1 N2).
    - intros P M. apply Bool.andb_true_iff in M as [M _]. destruct (HM P M) as (chain & N1 & N2). exact (SH P _ _ _ _ _ N1 N2). }
  rewrite E, RK, RF. unfold TH, has_fs. destruct psk, mut, fs; reflexivity.
Qed.
(** the two ends without the feature *)
Theorem C32_plain_key_transcript_both_ends : forall cr psk mut cq cp slot a k f ks fs rc mc, buffer_of CAP_A a ->
  mb_gather ks (mb_new CAP_K) = Ok k -> mb_gather fs (mb_new CAP_F) = Ok f ->
  (forall c, exists h, cr_hash cr (ch_alg cq) c = Some h /\ (length h <= 64)%nat) -> ch_alg cp = ch_alg cq ->
  (psk = false -> nth_error (ch_peer cq) (N.to_nat slot) = Some (Some rc) /\ nth_error (ch_my cp) (N.to_nat slot) = Some (Some rc)) ->
  (psk = false -> mut = true -> nth_error (ch_my cq) (N.to_nat (ch_lslot cq)) = Some (Some mc) /\ nth_error (ch_peer cp) (N.to_nat (ch_pslot cp)) = Some (Some mc)) ->
  let th := TH (mb_ref a) (rsp_hash cr (ch_alg cq) psk (Some rc)) ks (if mut then rsp_hash cr (ch_alg cq) psk (Some mc) else None) fs in
  calc_req_data cr cq psk slot (mut && has_fs fs) a k (Some f) = Ok th /\ calc_rsp_data cr cp psk slot (mut && has_fs fs) a k (Some f) = Ok th.
Proof.
  intros cr psk mut cq cp slot a k f ks fs rc mc OA HK HF HH HA HR HM th. destruct (HH rc) as (rh & Hr & _). destruct (HH mc) as (mh & Hm & _).
  assert (HL : forall chain h, cr_hash cr (ch_alg cq) chain = Some h -> (length h <= 64)%nat) by (intros chain h E; destruct (HH chain) as (h' & E' & L); assert (h = h') as -> by congruence; exact L).
  assert (T : th = TH (mb_ref a) (if psk then None else Some rh) ks (if negb psk && mut then Some mh else None) fs) by (unfold th, rsp_hash; rewrite Hr, Hm; destruct psk, mut; reflexivity). rewrite T. clear T th.
  split.
  - apply (plain_th cr true psk mut cq slot a k f ks fs rh mh OA HK HF HL).
    + intro P. exists rc. split; [apply (HR P)|exact Hr].
    + intros P M. exists mc. split; [apply (HM P M)|exact Hm].
  - apply (plain_th cr false psk mut cp slot a k f ks fs rh mh OA HK HF); rewrite ?HA; [exact HL| |].
    + intro P. exists rc. split; [apply (HR P)|exact Hr].
    + intros P M. exists mc. split; [apply (HM P M)|exact Hm].
Qed.
Lemma slot_of_nth l n c : slot_of l n = Some c -> nth_error l (N.to_nat n) = Some (Some c).
Proof.
  unfold slot_of. intro H. destruct (nth_error l (N.to_nat n)) as [o|] eqn:E.
  - apply (nth_error_nth _ _ None) in E. congruence.
  - apply nth_error_None in E. rewrite nth_overflow in H by exact E. discriminate.
Qed.
(** the two builds, at either end: same messages, same transcript *)
Theorem C32_key_transcript_both_builds : forall cr (req : bool) id x s slot a k f ks fs, get_sess id x = Some s -> untouched s -> ks <> [] ->
  (forall c, exists h, cr_hash cr (n_hash (x_nego x)) c = Some h /\ (length h <= 64)%nat) -> s_hash s = n_hash (x_nego x) ->
  mut_ready cr req s x ->
  (** the session began from the same connection messages and responder chain *)
  buffer_of CAP_A a -> s_msg_a s = mb_ref a ->
  (s_use_psk s = false -> slot_of (if req then x_peer_chain x else x_my_chain x) slot <> None) ->
  s_rsp_hash s = rsp_hash cr (n_hash (x_nego x)) (s_use_psk s) (slot_of (if req then x_peer_chain x else x_my_chain x) slot) ->
  mb_gather ks (mb_new CAP_K) = Ok k -> mb_gather fs (mb_new CAP_F) = Ok f ->
  exists x' s' th, (all_of (append_k cr id) ks ;;; all_of (append_f cr req id) fs)%st x = (Ok tt, x') /\ get_sess id x' = Some s' /\ s_th s' = Some th /\
    (if req then calc_req_data else calc_rsp_data) cr (chains_of x) (s_use_psk s) slot (negb (s_mut_auth s =? 0) && has_fs fs) a k (Some f) = Ok th.
Proof.
  intros cr req id x s slot a k f ks fs G U NE HH HS RM OA SA SC SR HK HF.
  destruct (HH []) as (h0 & Hh0 & _).
  assert (HO : hash_ok cr (s_hash s) = true) by (unfold hash_ok; rewrite HS, Hh0; reflexivity).
  destruct (C32_key_transcript_of_each_end cr req id x s ks fs G U HO NE (or_intror RM)) as (x' & s' & E & G' & T). exists x', s', (TH (s_msg_a s) (s_rsp_hash s) ks (mut_hash cr req s x) fs).
  split; [exact E|]. split; [exact G'|]. split; [exact T|].
  assert (HL : forall chain h, cr_hash cr (ch_alg (chains_of x)) chain = Some h -> (length h <= 64)%nat) by (intros chain h E'; destruct (HH chain) as (h' & E2 & L); assert (h = h') as -> by (cbn [chains_of ch_alg] in E'; congruence); exact L).
  set (mut := negb (s_mut_auth s =? 0)).
  assert (RH : exists rh, s_rsp_hash s = (if s_use_psk s then None else Some rh) /\
     (s_use_psk s = false -> exists chain, nth_error (if req then ch_peer (chains_of x) else ch_my (chains_of x)) (N.to_nat slot) = Some (Some chain) /\ cr_hash cr (ch_alg (chains_of x)) chain = Some rh)).
  { rewrite SR. unfold rsp_hash. destruct (s_use_psk s); [exists []; split; [reflexivity|discriminate]|]. specialize (SC eq_refl).
    destruct (slot_of (if req then x_peer_chain x else x_my_chain x) slot) as [chain|] eqn:Es; [|destruct (SC eq_refl)]. destruct (HH chain) as (h & Hh & _). exists h. split; [exact Hh|]. intros _. exists chain. split; [|exact Hh].
    apply slot_of_nth in Es. destruct req; exact Es. }
  destruct RH as (rh & R1 & R2).
  assert (MH : exists mh, mut_hash cr req s x = (if negb (s_use_psk s) && mut then Some mh else None) /\
     (s_use_psk s = false -> mut = true -> exists chain, nth_error (if req then ch_my (chains_of x) else ch_peer (chains_of x)) (N.to_nat (if req then ch_lslot (chains_of x) else ch_pslot (chains_of x))) = Some (Some chain) /\ cr_hash cr (ch_alg (chains_of x)) chain = Some mh)).
  { unfold mut in *. unfold mut_ready, mut_hash in *. destruct (s_use_psk s) eqn:P; [exists []; split; [reflexivity|discriminate]|]. destruct (s_mut_auth s =? 0) eqn:M; cbn [orb negb andb] in *; [exists []; split; [reflexivity|discriminate]|].
    destruct RM as [RM|[RM|RM]]; [discriminate|apply N.eqb_neq in M; destruct (M RM)|]. destruct req.
    - destruct (slot_of (x_my_chain x) (x_lslot x)) as [chain|] eqn:Es; [|destruct (RM eq_refl)]. destruct (HH chain) as (h & Hh & _). exists h. split; [exact Hh|]. intros _ _. exists chain. split; [exact (slot_of_nth _ _ _ Es)|exact Hh].
    - destruct (slot_of (x_peer_chain x) (x_pslot x)) as [chain|] eqn:Es; [|destruct (RM eq_refl)]. destruct (HH chain) as (h & Hh & _). exists h. split; [exact Hh|]. intros _ _. exists chain. split; [exact (slot_of_nth _ _ _ Es)|exact Hh]. }
  destruct MH as (mh & M1 & M2). rewrite SA, R1, M1. exact (plain_th cr req (s_use_psk s) mut (chains_of x) slot a k f ks fs rh mh OA HK HF HL R2 M2).
Qed.

(** ** concrete cases *)
Definition tq_a : mbuf := Eval vm_compute in snd (buffer_run [BAppend [9; 9]] (mb_new CAP_A)).
Definition tq_sess : session := set_s_mut_auth 1 (set_s_rsp_hash (cr_hash toy 2 [1; 2; 3]) (set_s_msg_a [9; 9] (set_s_hash 2 (set_s_id 5 session_new)))).
(** the requester has its chain in slot 1 and the responder's chain for slot 0, and the other way round *)
Definition tq : ctx := set_x_lslot 1 (set_x_my_chain (None :: Some [7; 7] :: repeat None 6) (set_x_peer_chain (Some [1; 2; 3] :: repeat None 7) (set_x_sess [tq_sess] pr1))).
Definition tp : ctx := set_x_pslot 1 (set_x_peer_chain (None :: Some [7; 7] :: repeat None 6) (set_x_my_chain (Some [1; 2; 3] :: repeat None 7) (set_x_sess [tq_sess] pr1))).
Example C32_case :
  n_hash (x_nego tq) = 2 /\ get_sess 5 tq = Some tq_sess /\ untouched tq_sess /\ hash_ok toy (s_hash tq_sess) = true /\
  mut_hash toy true tq_sess tq = mut_hash toy false tq_sess tp /\ mut_hash toy true tq_sess tq <> None /\ buffer_of CAP_A tq_a /\ s_msg_a tq_sess = mb_ref tq_a /\
  s_rsp_hash tq_sess = rsp_hash toy (n_hash (x_nego tq)) false (slot_of (x_peer_chain tq) 0) /\
  (exists k f, mb_gather [[1]; [2; 3]] (mb_new CAP_K) = Ok k /\ mb_gather [[4]; [5]] (mb_new CAP_F) = Ok f) /\
  orderly 0 [CA [1]; CA [2]; CB [3]; CC [4]; CC [5]; CDone; CB [6]; CC [7]] /\
  (exists p, all_of plain_call [CA [1]; CA [2]; CB [3]; CC [4]; CC [5]; CDone; CB [6]; CC [7]] plain_new = (Ok tt, p) /\ plain_m1m2 p = Ok [1; 2; 6; 7]).
Proof.
  split; [reflexivity|]. split; [reflexivity|]. split; [split; reflexivity|]. split; [reflexivity|]. split; [vm_compute; reflexivity|]. split; [vm_compute; discriminate|].
  split; [exists [BAppend [9; 9]]; eexists; vm_compute; reflexivity|]. split; [reflexivity|]. split; [vm_compute; reflexivity|].
  split; [eexists; eexists; split; reflexivity|]. split; [cbn [orderly]; repeat split; lia|]. eexists. split; [vm_compute; reflexivity|vm_compute; reflexivity].
Qed.
Lemma toy_hash_short c : exists h, cr_hash toy 2 c = Some h /\ (length h <= 64)%nat.
Proof. eexists. split; [reflexivity|]. rewrite le_bytes_length. change (N.to_nat 48) with 48%nat. lia. Qed.
(** ** C69: a CHALLENGE that fails after recording its request leaves it in the next M1/M2 of the plain build *)
Theorem C69_digests_start_afresh_refuted : forall cr x a c1 b c2, hash_ok cr (n_hash (x_nego x)) = true -> x_msg_a x = [] -> x_m1m2 x = None ->
  (length a <= CAP_A)%nat -> (length b <= CAP_B)%nat -> (length c1 + length c2 <= CAP_C)%nat ->
  exists p x', (p_append_a a ;;; p_append_c c1 ;;; smod p_reset_b ;;; p_append_b b ;;; p_append_c c2)%st plain_new = (Ok tt, p) /\
    (append_a a ;;; append_c cr c1 ;;; smod reset_b ;;; append_b cr b ;;; append_c cr c2)%st x = (Ok tt, x') /\
    x_m1m2 x' = Some (a ++ b ++ c2) /\ plain_m1m2 p = Ok (a ++ b ++ c1 ++ c2).
Proof.
  intros cr x a c1 b c2 HK A0 M0 LA LB LC.
  destruct (mb_push_fits CAP_A a (mb_new CAP_A) (mb_new_ok _) LA) as (ba & Ea & Oa & Ra).
  destruct (mb_push_fits CAP_C c1 (mb_new CAP_C) (mb_new_ok _)) as (bc & Ec & Oc & Rc); [change (length (mb_ref (mb_new CAP_C))) with 0%nat; lia|].
  destruct (mb_reset_ok CAP_B (mb_new CAP_B) (mb_new_ok _)) as [Or Rr].
  destruct (mb_push_fits CAP_B b (mb_reset (mb_new CAP_B)) Or) as (bb & Eb & Ob & Rb); [rewrite Rr; exact LB|].
  destruct (mb_push_fits CAP_C c2 bc Oc) as (bc2 & Ec2 & Oc2 & Rc2); [rewrite Rc; change (mb_ref (mb_new CAP_C)) with (@nil N); cbn [app]; lia|].
  change (mb_ref (mb_new CAP_A)) with (@nil N) in Ra. change (mb_ref (mb_new CAP_C)) with (@nil N) in Rc. cbn [app] in Ra, Rc. rewrite Rr in Rb. rewrite Rc in Rc2. cbn [app] in Rb.
  assert (EA : append_a a x = (Ok tt, set_x_msg_a a x)). { unfold append_a. rewrite A0. assert (K : (MAX_A <? len (@nil N) + len a) = false) by (apply N.ltb_ge; unfold len, MAX_A; change CAP_A with 156%nat in LA; cbn [length]; lia). rewrite K. reflexivity. }
  exists (mkPrt ba bb bc2 (mb_new CAP_M)). eexists. split.
  - unfold sbind, p_append_a, p_append_c, p_append_b, smod, plain_new. cbn [pr_a]. rewrite Ea. cbn [pr_c]. rewrite Ec. unfold p_reset_b. cbn [pr_a pr_b pr_c pr_m]. rewrite Eb. cbn [pr_a pr_b pr_c pr_m]. rewrite Ec2. reflexivity.
  - split; [|split].
    + unfold sbind. rewrite EA. unfold append_c, append_b, append_m1m2, smod. change (x_m1m2 (set_x_msg_a a x)) with (x_m1m2 x). rewrite M0. change (n_hash (x_nego (set_x_msg_a a x))) with (n_hash (x_nego x)). rewrite HK.
      change (n_hash (x_nego (reset_b (set_x_m1m2 (Some (x_msg_a (set_x_msg_a a x) ++ c1)) (set_x_msg_a a x))))) with (n_hash (x_nego x)). cbn [reset_b x_m1m2 set_x_m1m2]. rewrite HK. reflexivity.
    + cbn [x_m1m2 set_x_m1m2]. rewrite <- app_assoc. reflexivity.
    + rewrite m1m2_is by (split; [exact Oa|split; [exact Ob|exact Oc2]]). cbn [pr_a pr_b pr_c]. rewrite Ra, Rb, Rc2. reflexivity.
Qed.
(** ** C70: resetting K without the feature leaves K as it was (and empties F) *)
Theorem C70_reset_of_key_messages_refuted : forall s, mb_ref (ps_k (p_reset_k s)) = mb_ref (ps_k s) /\ mb_ref (ps_f (p_reset_k s)) = [].
Proof. intro s. split; reflexivity. Qed.
(** ** C71: without the feature the requester's FINISH hashes the chain the peer would have in the requester's own
    slot: with none there it cannot be built, with another one it differs from the responder's *)
Theorem C71_finish_uses_session_slot_refuted :
  (forall cr c req_slot mut a s, buffer_of CAP_A a -> nth_error (ch_peer c) (N.to_nat req_slot) = Some None -> finish_req_hash cr c req_slot mut a s = Err ST_INVALID_PARAMETER) /\
  (exists cq cp rc, nth_error (ch_peer cq) 1 = Some (Some rc) /\ nth_error (ch_my cp) 1 = Some (Some rc) /\ nth_error (ch_peer cq) 0 <> Some None /\
    finish_req_hash toy cq 0 false tq_a plain_sess_new <> calc_rsp_hash toy cp false 1 false tq_a plain_sess_new).
Proof.
  split.
  - intros cr c req_slot mut a s OA N0. apply buffer_of_ok in OA. unfold finish_req_hash, calc_req_hash, calc_req_data, th_data, slot_hash. rewrite N0.
    destruct (mb_push_fits CAP_TH (mb_ref a) (mb_new CAP_TH) (mb_new_ok _)) as (b1 & -> & _). { rewrite (mb_ref_len _ _ OA). change (length (mb_ref (mb_new CAP_TH))) with 0%nat. destruct OA. unfold CAP_TH. lia. }
    reflexivity.
  - exists (mkChains 2 (repeat None 8) [Some [1]; Some [2]] 0 0), (mkChains 2 [Some [1]; Some [2]] (repeat None 8) 0 0), [2].
    split; [reflexivity|]. split; [reflexivity|]. split; [discriminate|]. vm_compute. discriminate.
Qed.
