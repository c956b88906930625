(** C21 (GET_VERSION resets), C44 (END_SESSION erases), C45 (reply sizes). *)
From Verif Require Import Bytes BytesFacts Status Codec Parse ParseProofs Algo Monad.
From Verif Require Import MsgConn MsgAuth MsgSession MsgOther Message Opaque Transport Crypto KeySchedule Session Signing CertOps ChainVerify Context
  RspBase RspConn RspSess RspEncap Responder StRel RspFrame RspCalm RspOpcode RspSend SpecResponder SpecFinish RspPhase RspPass RspSlots RspSize RspTable RspIso RspEst
  ToyCrypto PropPhase ExRun PropTable.
From Coq Require Import List Lia.
Local Open Scope N_scope.

(** ** C21 *)
(** everything the connection knew about the peer is gone *)
Definition forgets (x : ctx) : Prop :=
  x_nego x = nego_default /\ x_m1m2 x = None /\ x_l1l2 x = None /\ x_last x = None /\
  x_peer_temp x = None /\ (forall i, slot_of (x_peer_chain x) i = None) /\
  (forall s, In s (x_sess x) -> exists k, s = set_s_slot k session_new).
(** the VERSION message listing three versions *)
Definition version_response (vs : list N) : bytes := [0x10; 0x04; 0; 0; 0; 3] ++ flat_map (fun v => [0; v]) vs.

Lemma emit_version c cfg v1 v2 v3 : cf_versions cfg = [v1; v2; v3] ->
  emit (enc_message c (version_msg cfg)) [] = Some (true, version_response [v1; v2; v3]).
Proof.
  intro H. unfold version_msg. rewrite H. reflexivity.
Qed.
Lemma reset_forgets x : forgets (reset_context x).
Proof.
  unfold forgets, reset_context. cbn. repeat split.
  - intro i. unfold slot_of. destruct (N.to_nat i) as [|[|[|[|[|[|[|[|?]]]]]]]]; try reflexivity. cbn. destruct n; reflexivity.
  - intros s Hs. apply in_map_iff in Hs as (t & <- & _). exists (s_slot t). reflexivity.
Qed.
Lemma forgets_a a x : forgets x -> forgets (set_x_msg_a a x).
Proof. exact (fun H => H). Qed.
Lemma append_a_ok m z : len (x_msg_a z) + len m <= MAX_A -> append_a m z = (Ok tt, set_x_msg_a (x_msg_a z ++ m) z).
Proof. intro H. unfold append_a. rewrite (proj2 (N.ltb_ge _ _)) by exact H. reflexivity. Qed.
Lemma reset_a_nil x : x_msg_a (reset_context x) = []. Proof. reflexivity. Qed.
Lemma reset_cfg x : x_cfg (reset_context x) = x_cfg x. Proof. reflexivity. Qed.
Lemma set_a_twice a b x : set_x_msg_a a (set_x_msg_a b x) = set_x_msg_a a x. Proof. reflexivity. Qed.
Lemma after_version z : after_send 4 z = (Ok tt, set_x_conn 1 z). Proof. reflexivity. Qed.
Lemma dispatch_version E b : request_code b = Some 0x84 -> dispatch_message E b = handle_version E b.
Proof. intro H. destruct (code_header b _ H) as (h & t & Rh & Hh). unfold dispatch_message. rewrite Rh, Hh. reflexivity. Qed.
Lemma write_version_ok p1 p2 rest x v1 v2 v3 : cf_versions (x_cfg x) = [v1; v2; v3] ->
  write_version (0x10 :: 0x84 :: p1 :: p2 :: rest) x =
    (Ok (version_response [v1; v2; v3]),
     set_x_msg_a ([0x10; 0x84; p1; p2] ++ version_response [v1; v2; v3]) (reset_context (reset_buffer RC_GET_VERSION None x))).
Proof.
  intro C. assert (U : used_of (0x10 :: 0x84 :: p1 :: p2 :: rest) rest = [0x10; 0x84; p1; p2]).
  { unfold used_of. replace (length _ - length rest)%nat with 4%nat by (cbn [length]; lia). reflexivity. }
  unfold write_version. change (read_header _) with (Some (mkHeader 0x10 0x84, p1 :: p2 :: rest)). cbv beta iota.
  change (h_version (mkHeader 0x10 0x84) =? 0x10) with true. cbv beta iota.
  unfold sbind at 1, smod at 1. set (y := reset_buffer RC_GET_VERSION None x).
  assert (Cy : x_cfg y = x_cfg x) by (unfold y; pose proof (calm_reset_buffer RC_GET_VERSION None x) as [K _]; unfold outline in K; congruence). clearbody y.
  unfold sbind at 1. change (rd (fun _ => dec_get_version) (p1 :: p2 :: rest) y) with (@Ok (option (unit * bytes)) (Some (tt, rest)), y). cbv beta iota.
  unfold sbind at 1, smod at 1. pose proof (reset_a_nil y) as Za. pose proof (reset_cfg y) as Zc. set (z := reset_context y) in *. clearbody z.
  unfold tryelse at 1, scatch at 1. rewrite U. rewrite append_a_ok by (rewrite Za; unfold len, MAX_A; cbn; lia). cbv beta iota. rewrite Za. cbn [app].
  unfold sbind at 1, sget at 1. unfold encode_or_err, sbind at 1, wenc. rewrite (emit_version _ _ v1 v2 v3) by (cbn; congruence).
  cbv beta iota. cbn [fst snd]. unfold then_append, tryelse, scatch. rewrite append_a_ok by (unfold len, MAX_A; cbn; lia). cbv beta iota. rewrite set_a_twice. reflexivity.
Qed.
Lemma frame_plain E f b x : plain_message E f = Some b -> process_frame E f x = is_ok (dispatch_message E b) x.
Proof.
  unfold plain_message, process_frame. destruct (tr_decap _ _ f) as [[c [|]]| |]; try discriminate. intro K. assert (c = b) as -> by congruence. reflexivity.
Qed.
Lemma is_ok_bind {A} (m : st ctx A) k x a y : m x = (Ok a, y) -> is_ok (sbind m k) x = is_ok (k a) y.
Proof. intro H. unfold is_ok, scatch, sbind. rewrite H. reflexivity. Qed.
(** sending a VERSION message *)
Lemma send_version E w y r x' : nth_error w 1 = Some 4 -> too_large y w = false ->
  is_ok (send_message E w) y = (r, x') ->
  (exists n, x' = set_x_io n y) \/
  (exists t, tr_encap (e_tr E) BUFFER_SIZE w false = Ok t /\ e_send E (x_io y) t = None /\ r = Ok (Some true) /\
     x' = set_x_conn 1 (set_x_sent (t :: x_sent y) (set_x_io (x_io y + 1) y))).
Proof.
  intros Hw Ty H. unfold is_ok, scatch, send_message in H. unfold sbind at 1, sget at 1 in H. rewrite Ty in H. unfold send_raw in H.
  unfold sbind at 1, sof at 1 in H. destruct (tr_encap _ _ w false) as [t|e|] eqn:T.
  2,3: left; exists (x_io y); unfold sret in H; transitivity y; [congruence|destruct y; reflexivity].
  unfold sbind at 1, io_send in H. destruct (e_send E (x_io y) t) as [e|] eqn:Se.
  - left. exists (x_io y + 1). unfold sret in H. congruence.
  - right. exists t. unfold sbind, sunwrap, opcode in H. rewrite Hw in H. unfold sret in H. cbv beta iota in H. rewrite after_version in H.
    split; [reflexivity|]. split; [exact Se|]. split; [congruence|]. match type of H with (_, ?q) = _ => assert (x' = q) as -> by congruence end. reflexivity.
Qed.
Lemma send_version_ok E w y t : nth_error w 1 = Some 4 -> too_large y w = false ->
  tr_encap (e_tr E) BUFFER_SIZE w false = Ok t -> e_send E (x_io y) t = None ->
  is_ok (send_message E w) y = (Ok (Some true), set_x_conn 1 (set_x_sent (t :: x_sent y) (set_x_io (x_io y + 1) y))).
Proof.
  intros Hw Ty T Se. unfold is_ok, scatch, send_message. unfold sbind at 1, sget at 1. rewrite Ty. unfold send_raw.
  unfold sbind at 1, sof at 1. rewrite T. unfold sbind at 1, io_send. rewrite Se. unfold sbind, sunwrap, opcode. rewrite Hw. unfold sret. cbv beta iota. rewrite after_version. reflexivity.
Qed.
Lemma forgets_send t n a x : forgets x -> forgets (set_x_conn a (set_x_sent t (set_x_io n x))).
Proof. exact (fun H => H). Qed.
Lemma msg_send t n a x : x_msg_a (set_x_conn a (set_x_sent t (set_x_io n x))) = x_msg_a x.
Proof. reflexivity. Qed.
Lemma msg_io n x : x_msg_a (set_x_io n x) = x_msg_a x.
Proof. reflexivity. Qed.
Lemma forgets_io n x : forgets x -> forgets (set_x_io n x).
Proof. exact (fun H => H). Qed.
Lemma reset_facts a x : x_sent (set_x_msg_a a (reset_context x)) = x_sent x /\ x_io (set_x_msg_a a (reset_context x)) = x_io x /\
  x_conn (set_x_msg_a a (reset_context x)) = 0 /\ x_nego (set_x_msg_a a (reset_context x)) = nego_default /\ x_msg_a (set_x_msg_a a (reset_context x)) = a.
Proof. repeat split. Qed.
Lemma handle_version_ok E b x w y : write_version b x = (Ok w, y) -> is_ok (handle_version E b) x = is_ok (send_message E w) y.
Proof. intro H. unfold handle_version. exact (is_ok_bind (write_version b) (fun w => send_message E w) x w y H). Qed.
Lemma frame_version E f p1 p2 rest x v1 v2 v3 : cf_versions (x_cfg x) = [v1; v2; v3] ->
  plain_message E f = Some (0x10 :: 0x84 :: p1 :: p2 :: rest) ->
  process_frame E f x = is_ok (send_message E (version_response [v1; v2; v3]))
     (set_x_msg_a ([0x10; 0x84; p1; p2] ++ version_response [v1; v2; v3]) (reset_context (reset_buffer RC_GET_VERSION None x))).
Proof.
  intros C Pf. etransitivity; [exact (frame_plain E f _ x Pf)|].
  etransitivity; [exact (f_equal (fun m => is_ok m x) (dispatch_version E (0x10 :: 0x84 :: p1 :: p2 :: rest) eq_refl))|].
  exact (handle_version_ok E _ _ _ _ (write_version_ok p1 p2 rest x v1 v2 v3 C)).
Qed.
Theorem C21_get_version_resets :
  forall E f p1 p2 rest x v1 v2 v3 r x',
  cf_versions (x_cfg x) = [v1; v2; v3] ->
  plain_message E f = Some (0x10 :: 0x84 :: p1 :: p2 :: rest) ->
  process_frame E f x = (r, x') ->
  forgets x' /\
  x_msg_a x' = [0x10; 0x84; p1; p2] ++ version_response [v1; v2; v3] /\
  (forall t, tr_encap (e_tr E) BUFFER_SIZE (version_response [v1; v2; v3]) false = Ok t -> e_send E (x_io x) t = None ->
     r = Ok (Some true) /\ x_sent x' = t :: x_sent x /\ x_conn x' = 1 (* after VERSION *)) /\
  (x_sent x' = x_sent x -> x_conn x' = 0).
Proof.
  intros E f p1 p2 rest x v1 v2 v3 r x' C Pf H. rewrite (frame_version E f p1 p2 rest x v1 v2 v3 C Pf) in H.
  assert (Hw : nth_error (version_response [v1; v2; v3]) 1 = Some 4) by reflexivity. set (w := version_response [v1; v2; v3]) in *. clearbody w.
  pose proof (forgets_a ([0x10; 0x84; p1; p2] ++ w) _ (reset_forgets (reset_buffer RC_GET_VERSION None x))) as Fy.
  destruct (reset_facts ([0x10; 0x84; p1; p2] ++ w) (reset_buffer RC_GET_VERSION None x)) as (Sy & Iy & Cy & Ny & Ay).
  pose proof (quiet_reset_buffer RC_GET_VERSION None x) as [Q1 Q2]. rewrite Q1 in Sy. rewrite Q2 in Iy.
  set (y := set_x_msg_a _ _) in *. clearbody y. clear Q1 Q2.
  assert (Ty : too_large y w = false) by (unfold too_large; rewrite Ny; reflexivity).
  pose proof H as H0. apply send_version in H; [|exact Hw|exact Ty].
  destruct H as [(n & ->)|(t & T & Se & -> & ->)].
  - split; [apply forgets_io, Fy|]. split; [rewrite msg_io; exact Ay|]. split; [|intros _; exact Cy].
    intros t T Se. rewrite <- Iy in Se. rewrite (send_version_ok E w y t Hw Ty T Se) in H0. exfalso.
    assert (K : x_sent (set_x_conn 1 (set_x_sent (t :: x_sent y) (set_x_io (x_io y + 1) y))) = x_sent (set_x_io n y)) by (f_equal; congruence).
    cbn in K. apply (f_equal (@length bytes)) in K. cbn in K. lia.
  - split; [apply forgets_send, Fy|]. split; [rewrite msg_send; exact Ay|]. split.
    + intros t0 K1 K2. assert (t0 = t) as -> by congruence. split; [reflexivity|]. split; [cbn; congruence|reflexivity].
    + cbn. rewrite Sy. intro K. exfalso. apply (f_equal (@length bytes)) in K. cbn in K. lia.
Qed.
Print Assumptions C21_get_version_resets.
(** GET_VERSION in the middle of a PSK session: the session is gone *)
Example C21_case : cf_versions (x_cfg ex5) = [0x10; 0x11; 0x12] /\ plain_message ex_env [5; 0x10; 0x84; 0; 0] = Some [0x10; 0x84; 0; 0] /\
  map s_state (x_sess ex5) = [SEstablished; SNotStarted; SNotStarted; SNotStarted] /\
  map s_state (x_sess (snd (process_frame ex_env [5; 0x10; 0x84; 0; 0] ex5))) = repeat SNotStarted 4.
Proof. vm_compute. auto. Qed.
