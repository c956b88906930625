(** C19: the version the requester selects. *)
From Verif Require Import Bytes BytesFacts Status Codec CodecProofs Parse ParseProofs Algo Monad.
From Verif Require Import MsgConn MsgAuth MsgSession MsgOther Message MsgLocal Opaque Transport Crypto KeySchedule Session Signing CertOps ChainVerify Context
  RspBase RspConn RspSess RspEncap Responder StRel RspFrame RspCalm RspOpcode RspPass RspEst ReqBase ReqConn ReqSess SpecReq ReqFrame ReqAnswer ReqTrans SpecAuth ReqSplit ReqHist ReqAuth.
From Verif Require Import ToyCrypto PropPhase ExRun Pair ExPair ExReach.
From Coq Require Import Lia Sorting.Sorted.
Local Open Scope N_scope.

(** a VERSION message that lists [vs] (DSP0274 10.2: three reserved bytes, the count, and per entry an
    update byte and a version byte) *)
Definition version_response (b : bytes) (vs : list N) : Prop :=
  exists hv r1 r2 r3 us rest, b = [hv; 0x04; r1; r2; r3; N.of_nat (length vs)] ++ concat (map (fun p => [fst p; snd p]) (combine us vs)) ++ rest /\
    length us = length vs.

Lemma insert_app v l p : Forall (fun w => w <= v) p -> insert_desc v (l ++ p) = insert_desc v l ++ p.
Proof.
  intro F. induction l as [|w l IH]; cbn [app insert_desc].
  - destruct p as [|w p]; [reflexivity|]. inversion F; subst. cbn [insert_desc]. rewrite (proj2 (N.leb_le _ _)) by assumption. reflexivity.
  - destruct (w <=? v); [reflexivity|]. rewrite IH. reflexivity.
Qed.
Lemma sort_pad vs n : Forall (fun v => 0x10 <= v) vs -> sort_desc (vs ++ repeat 0x10 n) = sort_desc vs ++ repeat 0x10 n.
Proof.
  intro F. assert (P : sort_desc (repeat 0x10 n) = repeat 0x10 n).
  { induction n as [|n IH]; [reflexivity|]. cbn [repeat sort_desc fold_right]. unfold sort_desc in IH. rewrite IH. destruct n; reflexivity. }
  unfold sort_desc in *. rewrite fold_right_app, P. clear P. induction F as [|v vs H F IH]; [reflexivity|]. cbn [fold_right]. rewrite IH. apply insert_app.
  clear -H. induction n; constructor; auto.
Qed.
Lemma insert_len v l : length (insert_desc v l) = S (length l).
Proof. induction l as [|w l IH]; cbn; [reflexivity|]. destruct (_ <=? _); cbn; [reflexivity|]. now rewrite IH. Qed.
Lemma sort_len l : length (sort_desc l) = length l.
Proof. induction l as [|v l IH]; cbn; [reflexivity|]. rewrite insert_len. unfold sort_desc in IH. now rewrite IH. Qed.
Lemma insert_in v l u : In u (insert_desc v l) <-> u = v \/ In u l.
Proof. induction l as [|w l IH]; cbn; [firstorder congruence|]. destruct (_ <=? _); cbn; [firstorder congruence|]. rewrite IH. firstorder congruence. Qed.
Lemma sort_in l u : In u (sort_desc l) <-> In u l.
Proof. induction l as [|v l IH]; cbn; [tauto|]. rewrite insert_in. unfold sort_desc in IH. rewrite IH. firstorder congruence. Qed.
Definition desc (l : list N) : Prop := StronglySorted (fun a b => b <= a) l.
Lemma insert_desc_desc v l : desc l -> desc (insert_desc v l).
Proof.
  unfold desc. induction 1 as [|w l S IH F]; cbn [insert_desc]; [repeat constructor|]. destruct (N.leb_spec w v).
  - constructor; [constructor; assumption|]. constructor; [exact H|]. rewrite Forall_forall in *. intros x I. specialize (F x I). cbn in F. lia.
  - constructor; [exact IH|]. apply Forall_forall. intros x I. apply insert_in in I as [->|I]; [lia|]. rewrite Forall_forall in F. exact (F x I).
Qed.
Lemma sort_desc_desc l : desc (sort_desc l).
Proof. induction l as [|v l IH]; cbn; [constructor|]. apply insert_desc_desc. exact IH. Qed.
Lemma find_max f l v : desc l -> find f l = Some v -> In v l /\ f v = true /\ forall w, In w l -> f w = true -> w <= v.
Proof.
  intro D. induction D as [|a l S IH F]; cbn [find]; [discriminate|]. destruct (f a) eqn:Fa.
  - intro H. assert (v = a) as -> by congruence. split; [now left|]. split; [exact Fa|]. intros w [->|I] _; [lia|]. rewrite Forall_forall in F. exact (F w I).
  - intro H. destruct (IH H) as (I & T & M). split; [now right|]. split; [exact T|]. intros w [->|J] K; [congruence|]. exact (M w J K).
Qed.
Lemma desc_firstn n l : desc l -> desc (firstn n l).
Proof.
  intro D. revert n. induction D as [|a l S IH F]; intros [|n]; cbn; [constructor|constructor|constructor|]. constructor; [apply IH|].
  rewrite Forall_forall in *. intros x I. apply F. rewrite <- (firstn_skipn n l). apply in_or_app. now left.
Qed.
(** [vs]: the entries listed; the array behind them is padded with version 1.0 *)
Lemma select_some mine vs n k : select_version mine (vs ++ repeat 0x10 n) k <> 0 ->
  In (select_version mine (vs ++ repeat 0x10 n) k) mine /\ (In (select_version mine (vs ++ repeat 0x10 n) k) vs \/ select_version mine (vs ++ repeat 0x10 n) k = 0x10).
Proof.
  unfold select_version. destruct (find _ _) as [v|] eqn:F; [|congruence]. intros _. apply find_some in F as [I M]. apply existsb_exists in M as (m & Im & Q). apply N.eqb_eq in Q. subst m. split; [exact Im|].
  assert (J : In v (vs ++ repeat 16 n)) by (apply sort_in; rewrite <- (firstn_skipn (N.to_nat k) (sort_desc _)); apply in_or_app; now left). apply in_app_or in J as [J|J]; [auto|]. right. apply repeat_spec in J. exact J.
Qed.
Lemma select_max mine vs n : Forall (fun v => 0x10 <= v) vs -> let v := select_version mine (vs ++ repeat 0x10 n) (N.of_nat (length vs)) in v <> 0 ->
  In v vs /\ In v mine /\ forall w, In w vs -> In w mine -> w <= v.
Proof.
  intros F v Z. unfold v in *. clear v. unfold select_version in *. rewrite sort_pad in * by exact F.
  rewrite Nnat.Nat2N.id in *. rewrite <- (sort_len vs) in Z |- *. rewrite firstn_app, firstn_all, Nat.sub_diag, firstn_O, app_nil_r in *.
  destruct (find _ _) as [v|] eqn:Fd; [|congruence]. apply find_max in Fd as (I & M & X); [|apply sort_desc_desc]. rewrite sort_in in I.
  split; [exact I|]. apply existsb_exists in M as (m & Im & Q). apply N.eqb_eq in Q. subst m. split; [exact Im|]. intros w Iw Mw. apply X; [now apply sort_in|]. apply existsb_exists. exists w. split; [exact Mw|apply N.eqb_refl].
Qed.
Lemma d_u8_inv r v m : d_u8 r = POk v m -> r = v :: m.
Proof. unfold d_u8. destruct r as [|a r]; [discriminate|]. cbn. intro H. injection H as -> ->. reflexivity. Qed.
Lemma dec_versions_inv n : forall r vs rest, d_rep n dec_version_struct r = POk vs rest ->
  length vs = n /\ r = concat (map (fun p => [fst p; snd p]) (combine (map vs_update vs) (map vs_version vs))) ++ rest.
Proof.
  induction n as [|n IH]; intros r vs rest H; cbn [d_rep] in H.
  - apply dret_ok in H as [-> ->]. auto.
  - apply dbind_ok in H as (v & m & D & H). apply dbind_ok in H as (vs' & m' & D' & H). apply dret_ok in H as [-> ->]. apply IH in D' as [L Er].
    unfold dec_version_struct in D. apply dbind_ok in D as (u & k & D1 & D). apply dbind_ok in D as (w & k' & D2 & D). apply dret_ok in D as [-> ->]. apply d_u8_inv in D1, D2. subst r k.
    split; [cbn [length]; congruence|]. cbn [map combine concat app vs_update vs_version fst snd]. rewrite Er at 1. reflexivity.
Qed.
Lemma dec_version_inv hv r p rest : dec_version_rsp r = POk p rest -> exists vs n,
  version_response (hv :: 0x04 :: r) vs /\ map vs_version (vr_versions p) = vs ++ repeat 0x10 n /\ vr_count p = N.of_nat (length vs) /\ (1 <= length vs <= 3)%nat.
Proof.
  intro H. unfold dec_version_rsp in H. apply dbind_ok in H as (r1 & m1 & D1 & H). apply dbind_ok in H as (r2 & m2 & D2 & H). apply dbind_ok in H as (r3 & m3 & D3 & H).
  apply dbind_ok in H as (c & m4 & D4 & H). apply dguard_ok in H as [G H]. apply d_u8_inv in D1, D2, D3, D4. subst r m1 m2 m3. rename r1 into a0, r2 into a1, r3 into a2, c into a3, m4 into r.
  apply Bool.andb_true_iff in G as [G1 G2]. apply N.leb_le in G1, G2. unfold MAX_SPDM_VERSION_COUNT in G2.
  apply dbind_ok in H as (vs & m6 & D6 & H). apply dret_ok in H as [-> ->]. unfold d_table in D6. apply dbind_ok in D6 as (xs & m7 & D6 & D7). apply dret_ok in D7 as [-> ->]. apply dec_versions_inv in D6 as [L Er].
  replace (Nat.min (N.to_nat a3) 3) with (N.to_nat a3) in L by lia. exists (map vs_version xs), (3 - length xs)%nat. split; [|split; [|split]].
  - exists hv, a0, a1, a2, (map vs_update xs), m7. rewrite !map_length. split; [|reflexivity]. rewrite Er. cbn [app]. repeat f_equal. lia.
  - cbn [vr_versions]. rewrite map_app. f_equal. clear. induction (3 - length xs)%nat; cbn; [reflexivity|]. now rewrite IHn.
  - cbn [vr_count]. rewrite map_length. lia.
  - rewrite map_length. lia.
Qed.
Theorem C19_highest_common_version : forall E x u x', get_version E x = (Ok u, x') ->
  exists b vs, exchanged E None x x' [0x10; 0x84; 0; 0] b /\ version_response b vs /\ (1 <= length vs <= 3)%nat /\
    In (ver x') (cf_versions (x_cfg x)) /\ (ver x' = 0x10 \/ ver x' = 0x11 \/ ver x' = 0x12) /\
    (** in every case a listed version, or the 1.0 the library pads the list with *)
    (In (ver x') vs \/ ver x' = 0x10) /\
    (** the highest common version, if no version below 1.0 is listed *)
    (Forall (fun v => 0x10 <= v) vs ->
       In (ver x') vs /\ forall v, In v vs -> In v (cf_versions (x_cfg x)) -> v <= ver x').
Proof.
  intros E x u x' H. unfold get_version in H. bi H. apply mod_inv in P. bi H. pose proof (q_enc _ _ _ _ P0) as Qy. subst y0. bi H. bi H.
  pose proof (quiet_handle_version _ _ _ _ _ H) as Q.
  assert (v0 = [0x10; 0x84; 0; 0]) as -> by (refine (req_enc_exact _ _ _ _ _ _ _ P0); reflexivity).
  assert (Ex : exchanged E None x x' [0x10; 0x84; 0; 0] v2). { subst y. refine (exchanged_by E None false x _ _ _ _ _ _ _ x' (quiet_reset_buffer _ _ _) P1 (q_refl _) P2 Q). }
  assert (Cf : x_cfg y1 = x_cfg x).
  { pose proof (keeps_send_on E None _ _ _ _ P1) as K1. pose proof (keeps_recv_on E None _ _ _ _ P2) as K2. unfold keeps in K1, K2. rewrite K2. cbn. rewrite K1. cbn. subst y. unfold reset_buffer, reset_m, reset_c, reset_b.
    repeat (match goal with |- context [if ?b then _ else _] => destruct b end); reflexivity. }
  unfold handle_version_rsp in H. apply on_response_any_ok in H as (hv & r & Eb & H). apply reading_ok in H as (p & rest & D & H). bi H. apply mod_inv in P3. bg H. bi H. apply fail_inv in P4 as [Kn ->]. apply Bool.negb_false_iff in Kn.
  bi H. apply mod_inv in P4. bi H. apply sn_append_a in P5. apply sn_append_a in H.
  destruct (dec_version_inv hv r p rest D) as (vs & n & V & Mv & Cn & L).
  assert (Vx : ver x' = select_version (cf_versions (x_cfg x)) (vs ++ repeat 0x10 n) (N.of_nat (length vs)) /\ ver x' = ver y2).
  { unfold same_nego in *. unfold ver. rewrite H, P5, P4. unfold reset_runtime_info. cbn. rewrite P3. cbn. rewrite Mv, Cn, Cf. auto. }
  destruct Vx as [Vx Vy]. rewrite <- Vy in Kn. unfold known_version in Kn. apply Bool.orb_true_iff in Kn. rewrite Bool.orb_true_iff, !N.eqb_eq in Kn.
  change RC_VERSION with 0x04 in Eb. rewrite <- Eb in V. exists v2, vs. split; [exact Ex|]. split; [exact V|]. split; [exact L|].
  assert (Z : ver x' <> 0) by (destruct Kn as [[K|K]|K]; rewrite K; discriminate). pose proof Z as Z'. rewrite Vx in Z'. destruct (select_some _ _ _ _ Z') as [S1 S2]. rewrite <- Vx in S1, S2.
  split; [exact S1|]. split; [tauto|]. split; [exact S2|]. intro F. destruct (select_max (cf_versions (x_cfg x)) vs n F Z') as (M1 & _ & M3). rewrite <- Vx in M1, M3. auto.
Qed.
Print Assumptions C19_highest_common_version.
(** Case: the connection of ExPair.v, 1.2 against 1.0, 1.1 and 1.2. *)
Example C19_case : exists u, get_version pr_env pr_req = (Ok u, snd (get_version pr_env pr_req)) /\ ver (snd (get_version pr_env pr_req)) = 0x12.
Proof.
  destruct (okb_ok (get_version pr_env pr_req) ltac:(vm_compute; reflexivity)) as [u K]. exists u. split; [exact K|]. vm_compute. reflexivity.
Qed.
(** FALSE: the selected version is always one the responder listed.  A responder that lists only version
    0.5 is taken at its padding's word. *)
Definition old_env : env := mkEnv toy mctp_transport (fun _ _ => None) (fun _ _ => Some [5; 0x10; 0x04; 0; 0; 0; 1; 0; 0x05]) (fun _ b => Ok b) (fun b => Ok b) false.
Theorem C64_selected_version_is_listed_refuted : ~ (forall E x u x', reached E x -> get_version E x = (Ok u, x') ->
  exists b vs, exchanged E None x x' [0x10; 0x84; 0; 0] b /\ version_response b vs /\ In (ver x') vs).
Proof.
  intro C. destruct (okb_ok (get_version old_env pr_req) ltac:(vm_compute; reflexivity)) as [u K].
  destruct (C _ _ _ _ ltac:(unfold pr_req; apply r_start) K) as (b & vs & (t & f & _ & _ & _ & _ & R & Rb) & (hv & r1 & r2 & r3 & us & rest & Eb & Lu) & I). clear C.
  assert (V : ver (snd (get_version old_env pr_req)) = 0x10) by (vm_compute; reflexivity). rewrite V in I. clear V K. cbn [old_env e_recv] in R.
  assert (f = [5; 0x10; 0x04; 0; 0; 0; 1; 0; 0x05]) as -> by congruence. clear R. unfold response_in, plain_response in Rb.
  assert (D : tr_decap (e_tr old_env) MAX_SPDM_MSG_SIZE [5; 0x10; 0x04; 0; 0; 0; 1; 0; 0x05] = Ok ([0x10; 0x04; 0; 0; 0; 1; 0; 0x05], false)) by (vm_compute; reflexivity).
  rewrite D in Rb. clear D. assert (b = [0x10; 0x04; 0; 0; 0; 1; 0; 0x05]) as -> by congruence. clear Rb.
  assert (L : length vs = 1%nat). { cbn [app] in Eb. assert (N.of_nat (length vs) = 1) by congruence. lia. }
  destruct vs as [|v [|? ?]]; try discriminate L. destruct us as [|w [|? ?]]; try discriminate Lu. cbn in Eb. assert (v = 5) as -> by congruence. destruct I as [I|[]]. discriminate I.
Qed.
Print Assumptions C64_selected_version_is_listed_refuted.
