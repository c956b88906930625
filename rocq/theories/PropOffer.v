(** C18: the algorithms the requester records. *)
From Verif Require Import Bytes BytesFacts Status Codec CodecProofs Parse ParseProofs Algo Monad.
From Verif Require Import MsgConn MsgAuth MsgSession MsgOther Message SpecMsg MsgProofs MsgCaps MsgRound MsgLocal Opaque Transport Crypto KeySchedule Session Signing CertOps ChainVerify Context
  RspBase RspConn RspSess RspEncap Responder StRel RspFrame RspCalm RspOpcode RspPass RspEst ReqBase ReqConn ReqSess SpecReq ReqFrame ReqAnswer ReqTrans SpecAuth ReqSplit ReqHist ReqAuth.
From Verif Require Import PropAlgs ToyCrypto PropPhase ExRun Pair ExPair ExReach.
From Coq Require Import Lia.
Local Open Scope N_scope.

(** NEGOTIATE_ALGORITHMS with the sets of [c] *)
Definition offer_message (v : N) (c : config) : bytes :=
  let new := 0x11 <=? v in
  [v; 0xE3; (if new then 4 else 0); 0] ++ le_bytes 2 (if new then 48 else 32) ++
  [cf_mspec c; (if 0x12 <=? v then cf_opaque c else 0)] ++
  le_bytes 4 (cf_asym c) ++ le_bytes 4 (cf_hash c) ++ repeat 0 16 ++
  (if new then [2; 0x20] ++ le_bytes 2 (cf_dhe c) ++ [3; 0x20] ++ le_bytes 2 (cf_aead c) ++
               [4; 0x20] ++ le_bytes 2 (cf_req_asym c) ++ [5; 0x20] ++ le_bytes 2 (cf_ks c) else []).
(** what ALGORITHMS message [p] says about family [f] ([before] if it says nothing) *)
Definition answer_structs (p : algs_rsp) : list alg_struct := firstn (N.to_nat (ar_count p)) (ar_structs p).
Definition answer (p : algs_rsp) (before : nego) (f : family) : N :=
  match f with
  | FMeasSpec => ar_mspec p
  | FAsym => ar_asym p
  | FHash => ar_hash p
  | FDhe => last_of (fun a => match a with ADhe v => Some v | _ => None end) (answer_structs p) (n_dhe before)
  | FAead => last_of (fun a => match a with AAead v => Some v | _ => None end) (answer_structs p) (n_aead before)
  | FReqAsym => last_of (fun a => match a with AReqAsym v => Some v | _ => None end) (answer_structs p) (n_req_asym before)
  | FKeySched => last_of (fun a => match a with AKeySched v => Some v | _ => None end) (answer_structs p) (n_ks before)
  end.
Definition mask_of (f : family) : N :=
  match f with FMeasSpec => MSPEC_MASK | FAsym | FReqAsym => ASYM_MASK | FHash => HASH_MASK | FDhe => DHE_MASK | FAead => AEAD_MASK | FKeySched => KS_MASK end.
(** at most one of the algorithms the library knows *)
Definition single (f : family) (v : N) : Prop := v = 0 \/ one_bit (mask_of f) v.

Lemma within_land m v : within m (N.land v m).
Proof. unfold within. rewrite <- N.land_assoc, N.land_diag. reflexivity. Qed.
Lemma sel_single need mask v : within mask v -> sel_ok need mask v = true -> v = 0 \/ one_bit mask v.
Proof. intros W H. unfold sel_ok in H. apply Bool.andb_true_iff in H as [H _]. apply nmto_spec in H as [->|(k & ->)]; [auto|]. right. exists k. auto. Qed.
Lemma flags32_within m r v rest : d_flags32 m r = POk v rest -> within m v.
Proof. intro H. apply dbind_ok in H as (b & k & _ & H). apply dret_ok in H as [-> _]. apply within_land. Qed.
Lemma flags8_within m r v rest : d_flags8 m r = POk v rest -> within m v.
Proof. intro H. apply dbind_ok in H as (b & k & _ & H). apply dret_ok in H as [-> _]. apply within_land. Qed.
Lemma flags16_within m r v rest : d_flags16 m r = POk v rest -> within m v.
Proof. intro H. apply dbind_ok in H as (b & k & _ & H). apply dret_ok in H as [-> _]. apply within_land. Qed.
Definition alg_within (a : alg) : Prop :=
  match a with ADhe v => within DHE_MASK v | AAead v => within AEAD_MASK v | AReqAsym v => within ASYM_MASK v | AKeySched v => within KS_MASK v | AUnknown => True end.
Lemma alg_struct_within r a rest : dec_alg_struct r = POk a rest -> alg_within (as_alg a).
Proof.
  intro H. unfold dec_alg_struct in H. apply dbind_ok in H as (t & m & _ & H). apply dbind_ok in H as (c & m' & _ & H). apply dguard_ok in H as [_ H]. apply dguard_ok in H as [_ H].
  assert (N : forall l (a : alg_struct) (r : bytes), dnone l = POk a r -> False) by (intros; discriminate).
  repeat (match type of H with context [match ?t with _ => _ end] => is_var t; destruct t; try (exfalso; exact (N _ _ _ H)) end);
    apply dbind_ok in H as (v & m2 & D & H); apply dret_ok in H as [-> _]; exact (flags16_within _ _ _ _ D).
Qed.
Lemma alg_sel_inv c a : alg_within (as_alg a) -> alg_sel_ok c (as_alg a) = true -> alg_selection c a.
Proof.
  unfold alg_selection. destruct (as_alg a) as [v|v|v|v|]; cbn; intros W H; [| | | |discriminate]; eapply sel_ok_inv; try exact H; try exact W.
  - apply key_ex_both_spec.
  - unfold rsp_has, req_has, peer_has, req_can. rewrite Bool.orb_true_iff, !Bool.andb_true_iff, !contains_has. reflexivity.
  - unfold rsp_has, req_has, peer_has, req_can. rewrite Bool.andb_true_iff, !contains_has. reflexivity.
  - rewrite Bool.orb_true_iff, key_ex_both_spec, psk_both_spec. reflexivity.
Qed.
Lemma alg_loop_inv c n : forall cur seen r l rest, d_alg_loop (alg_sel_ok c) n cur seen r = POk l rest -> length l = n /\ Forall (alg_selection c) l.
Proof.
  induction n as [|n IH]; intros cur seen r l rest H; cbn [d_alg_loop] in H.
  - apply dret_ok in H as [-> _]. split; [reflexivity|constructor].
  - apply dbind_ok in H as (a & m & D & H). apply dguard_ok in H as [_ H]. apply dguard_ok in H as [_ H]. apply dguard_ok in H as [_ H]. apply dguard_ok in H as [G H].
    apply dbind_ok in H as (l' & m' & D' & H). apply dret_ok in H as [-> _]. apply IH in D' as [L F]. split; [cbn; congruence|]. constructor; [|exact F]. apply alg_sel_inv; [exact (alg_struct_within _ _ _ D)|exact G].
Qed.
Lemma dec_algs_inv c r p rest : dec_algs_rsp c r = POk p rest ->
  selection (must_meas c) MSPEC_MASK (ar_mspec p) /\ selection (must_asym c) ASYM_MASK (ar_asym p) /\ selection (must_hash c) HASH_MASK (ar_hash p) /\ Forall (alg_selection c) (answer_structs p).
Proof.
  intro H. unfold dec_algs_rsp in H. apply dbind_ok in H as (cnt & m0 & D0 & H). apply dbind_ok in H as (? & m1 & _ & H). apply dbind_ok in H as (ln & m2 & _ & H). apply dbind_ok in H as (ms & m3 & D1 & H). apply dguard_ok in H as [G1 H].
  apply dbind_ok in H as (op & m4 & _ & H). apply dguard_ok in H as [_ H]. apply dbind_ok in H as (mh & m5 & _ & H). apply dguard_ok in H as [_ H].
  apply dbind_ok in H as (as_ & m6 & D2 & H). apply dguard_ok in H as [G2 H]. apply dbind_ok in H as (ha & m7 & D3 & H). apply dguard_ok in H as [G3 H]. apply dbind_ok in H as (? & m8 & _ & H).
  apply dbind_ok in H as (? & m9 & _ & H). apply dguard_ok in H as [_ H]. apply dbind_ok in H as (? & m10 & _ & H). apply dguard_ok in H as [_ H]. apply dbind_ok in H as (? & m11 & _ & H).
  apply dbind_ok in H as (st & m12 & D4 & H). apply dbind_ok in H as (? & m13 & _ & H). apply dguard_ok in H as [_ H]. apply dret_ok in H as [-> _]. cbn [ar_mspec ar_asym ar_hash].
  split; [exact (sel_ok_inv _ _ _ _ (need_meas_spec c) (flags8_within _ _ _ _ D1) G1)|]. split; [exact (sel_ok_inv _ _ _ _ (need_asym_spec c) (flags32_within _ _ _ _ D2) G2)|].
  split; [exact (sel_ok_inv _ _ _ _ (need_hash_spec c) (flags32_within _ _ _ _ D3) G3)|]. unfold answer_structs. cbn [ar_count ar_structs]. unfold dec_alg_count in D0. destruct (ver_ge c V11).
  - apply dbind_ok in D0 as (k & q & _ & D0). apply dguard_ok in D0 as [L D0]. apply dret_ok in D0 as [-> _]. apply N.leb_le in L. unfold d_alg_table in D4. apply dbind_ok in D4 as (xs & q' & D4 & D5). apply dret_ok in D5 as [-> _].
    apply alg_loop_inv in D4 as [Lx F]. replace (Nat.min (N.to_nat k) 4) with (N.to_nat k) in Lx by lia. rewrite <- Lx, firstn_app, firstn_all, Nat.sub_diag, firstn_O, app_nil_r. exact F.
  - apply dbind_ok in D0 as (k & q & _ & D0). apply dret_ok in D0 as [-> _]. constructor.
Qed.
Lemma selection_nonzero P m v : selection P m v -> v <> 0 -> one_bit m v.
Proof. intros [[-> _]|S] Z; [congruence|exact S]. Qed.
Lemma emit_offer x : xwire (enc_message (xc x) (nego_algs_msg x)) = Some (offer_message (ver x) (x_cfg x)) /\ xcount (enc_message (xc x) (nego_algs_msg x)) = len (offer_message (ver x) (x_cfg x)).
Proof.
  unfold enc_message, nego_algs_msg. cbn [m_header m_payload]. unfold enc_payload, enc_nego_algs, enc_header.
  cbn [h_version h_code na_count na_mspec na_opaque na_asym na_hash na_structs]. unfold alg_len, ver_ge. unfold offer_message, V11, V12, ver. cbn [xc c_nego].
  change (N.to_nat 4) with 4%nat. cbn [firstn map concat]. unfold enc_alg_struct. cbn [as_type as_alg]. change (4 * 4 <? 256) with true. cbv iota. change (32 + 4 * 4) with 48.
  split.
  - destruct (17 <=? n_version (x_nego x)); destruct (18 <=? n_version (x_nego x)); rewrite ?xwire_app, ?xw8, ?xw16, ?xw32; unfold zeros, x_arr; rewrite ?xwire_arr_cnt; cbn [xwire]; rewrite ?app_nil_r; reflexivity.
  - destruct (17 <=? n_version (x_nego x)); destruct (18 <=? n_version (x_nego x)); vm_compute; reflexivity.
Qed.
Theorem C18_requester_takes_the_answer : forall E x u x', negotiate_algorithms E x = (Ok u, x') ->
  exists b body p rest, exchanged E None x x' (offer_message (ver x) (x_cfg x)) b /\
    b = ver x :: 0x63 :: body /\ dec_algs_rsp (xc x) body = POk p rest /\
    (** every recorded algorithm is the one of the answer *)
    (forall f, recorded (x_nego x') f = answer p (x_nego x) f) /\ ver x' = ver x /\
    (** one hash and one signature algorithm; the others are single, and present where required *)
    one_bit HASH_MASK (n_hash (x_nego x')) /\ one_bit ASYM_MASK (n_asym (x_nego x')) /\
    selection (must_meas (xc x)) MSPEC_MASK (n_mspec (x_nego x')) /\
    Forall (alg_selection (xc x)) (answer_structs p).
Proof.
  intros E x u x' H. unfold negotiate_algorithms in H. bi H. apply mod_inv in P. bg H. bi H. pose proof (q_enc _ _ _ _ P0) as Qy. subst y0. bi H. bi H.
  pose proof (quiet_handle_algorithms _ _ _ _ _ H) as Q.
  assert (Er : x_cfg y = x_cfg x /\ x_nego y = x_nego x /\ xc y = xc x).
  { subst y. unfold reset_buffer, reset_m, reset_c, reset_b. repeat (match goal with |- context [if ?b then _ else _] => destruct b end); auto. }
  destruct Er as (Er1 & Er2 & Er3).
  assert (v0 = offer_message (ver x) (x_cfg x)) as ->. { destruct (emit_offer y) as [K1 K2]. unfold ver in *. rewrite Er1, Er2 in K1, K2. exact (req_enc_exact _ _ _ _ _ K1 K2 P0). }
  assert (Ky : xc y1 = xc x).
  { pose proof (keeps_send_on E None _ _ _ _ P1) as K1. pose proof (keeps_recv_on E None _ _ _ _ P2) as K2. unfold keeps in K1, K2. rewrite K2. unfold xc at 1. cbn. rewrite K1. cbn. exact Er3. }
  assert (Ny : x_nego y1 = x_nego x) by (unfold xc in Ky; congruence).
  assert (Ex : exchanged E None x x' (offer_message (ver x) (x_cfg x)) v2).
  { subst y. refine (exchanged_by E None false x _ _ _ _ _ _ _ x' (quiet_reset_buffer _ _ _) P1 (q_refl _) P2 Q). }
  unfold handle_algorithms_rsp in H. apply on_response_ok in H as (r & Eb & H). apply reading_ok in H as (p & rest & D & H). rewrite Ky in D.
  assert (Vy : ver y1 = ver x) by (unfold ver; congruence). rewrite Vy in Eb.
  bi H. apply mod_inv in P3. bi H. apply fail_inv in P4 as [Z1 ->]. bi H. apply mod_inv in P4. bi H. apply fail_inv in P5 as [Z2 ->]. bi H. apply mod_inv in P5. bi H. apply mod_inv in P6. bi H.
  apply sn_append_a in P7. apply sn_append_a in H. unfold same_nego in *. apply N.eqb_neq in Z1, Z2.
  destruct (dec_algs_inv _ _ _ _ D) as (S1 & S2 & S3 & S4).
  assert (Rx : forall f, recorded (x_nego x') f = answer p (x_nego x) f).
  { intro f. rewrite H, P7, P6. unfold modn at 1. cbn [x_nego set_x_nego]. rewrite take_alg_recorded. rewrite P5. unfold modn at 1. cbn [x_nego set_x_nego]. rewrite P4. unfold modn at 1. cbn [x_nego set_x_nego]. rewrite P3. unfold modn. cbn [x_nego set_x_nego]. rewrite Ny. destruct f; reflexivity. }
  exists v2, r, p, rest. split; [exact Ex|]. split; [exact Eb|]. split; [exact D|]. split; [exact Rx|].
  split. { assert (K : ver x' = ver y1); [|congruence]. unfold ver. rewrite H, P7, P6. unfold modn at 1. cbn [x_nego set_x_nego]. rewrite take_algs_version. rewrite P5, P4, P3. reflexivity. }
  pose proof (Rx FHash) as R1. pose proof (Rx FAsym) as R2. pose proof (Rx FMeasSpec) as R3. cbn in R1, R2, R3. rewrite R1, R2, R3.
  split; [exact (selection_nonzero _ _ _ S3 Z1)|]. split; [exact (selection_nonzero _ _ _ S2 Z2)|]. split; [exact S1|exact S4].
Qed.
Print Assumptions C18_requester_takes_the_answer.
(** Case: the connection of ExPair.v. *)
Definition of2 : ctx := snd (get_capabilities pr_env (snd (get_version pr_env pr_req))).
Example C18_case : exists u, negotiate_algorithms pr_env of2 = (Ok u, snd (negotiate_algorithms pr_env of2)).
Proof. apply okb_ok. vm_compute. reflexivity. Qed.

(** FALSE: the algorithms the requester records are among those it offered.  The responder is the one
    of ExPair.v, except that its ALGORITHMS names SHA-512, which the requester did not offer. *)
Definition swap_hash (f : bytes) : bytes := match f with a :: v :: 0x63 :: r => a :: v :: 0x63 :: firstn 14 r ++ [4] ++ skipn 15 r | _ => f end.
Definition of_env : env := mkEnv (e_cr pr_env) (e_tr pr_env) (e_send pr_env) (fun n sent => option_map swap_hash (e_recv pr_env n sent)) (e_app pr_env) (e_vendor pr_env) false.
Definition of3 : ctx := snd (run of_env OCapabilities (snd (run of_env OVersion pr_req))).
Lemma reached_of3 : reached of_env of3.
Proof.
  unfold of3. apply reached_plain; [|vm_compute; reflexivity]. apply reached_plain; [|vm_compute; reflexivity]. unfold pr_req. apply r_start.
Qed.
Theorem C63_requester_uses_offered_refuted : ~ (forall E x u x', reached E x -> negotiate_algorithms E x = (Ok u, x') ->
  N.land (n_hash (x_nego x')) (cf_hash (x_cfg x)) <> 0).
Proof.
  intro C. destruct (okb_ok (negotiate_algorithms of_env of3) ltac:(vm_compute; reflexivity)) as [u K]. apply (C _ _ _ _ reached_of3 K). vm_compute. reflexivity.
Qed.
Print Assumptions C63_requester_uses_offered_refuted.
