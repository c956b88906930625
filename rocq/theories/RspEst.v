(** How a session of the responder becomes established. *)
From Verif Require Import Bytes BytesFacts Status Codec Parse ParseProofs Algo Monad.
From Verif Require Import MsgConn MsgAuth MsgSession MsgOther Message Opaque Transport Crypto KeySchedule Session Signing CertOps ChainVerify Context
  RspBase RspConn RspSess RspEncap Responder StRel RspFrame RspCalm RspOpcode RspSend SpecResponder SpecFinish RspPhase RspPass RspSlots RspTable RspIso.
From Coq Require Import Lia.
Local Open Scope N_scope.

(** ** the part of a session the verification looks at *)
Definition svw (s : session) := (s_hash s, h_req_fin (s_hs s), s_use_psk s, s_mut_auth s).
Definition xvw (x : ctx) := (xc x, x_peer_chain x, x_pslot x).
Lemma append_f_ok cr id m x u x' s : get_sess id x = Some s -> append_f cr false id m x = (Ok u, x') ->
  exists t d s', s_th s = Some t /\ finish_digest cr x s d /\ get_sess id x' = Some s' /\ s_th s' = Some (t ++ d ++ m) /\ s_f_init s' = true /\
    svw s' = svw s /\ xvw x' = xvw x.
Proof.
  intros G H. assert (Hid : s_id s = id) by (unfold get_sess, find_sess in G; apply find_some in G; apply N.eqb_eq, G).
  unfold append_f in H. bi H. unfold the_sess in P. rewrite G in P. assert (v = s) as -> by congruence. assert (y = x) as -> by congruence. clear P.
  destruct (s_th s) as [t|] eqn:Th; [|discriminate]. bi H. unfold finish_digest. destruct (s_f_init s) eqn:Fi.
  - unfold swhen, sret in P. cbn in P. assert (y = x) as -> by congruence. unfold smod in H.
    match type of H with (_, ?z) = _ => replace x' with z by congruence end. clear H P.
    exists t, []. eexists. split; [reflexivity|]. split; [reflexivity|]. split; [apply get_sess_upd; [exact G|reflexivity || exact Hid]|].
    cbn. rewrite Th. auto.
  - unfold swhen in P. cbn [negb] in P. bi P. unfold sget in P0. assert (v0 = x) as -> by congruence. assert (y0 = x) as -> by congruence. clear P0.
    bi P. unfold sof in P0. destruct (f_digest cr false s x) as [d| |] eqn:D; try discriminate. assert (v0 = d) as -> by congruence. assert (y0 = x) as -> by congruence. clear P0.
    unfold smod in P. match type of P with (_, ?z) = _ => replace y with z in H by congruence end. clear P.
    unfold smod in H. match type of H with (_, ?z) = _ => replace x' with z by congruence end. clear H.
    exists t, d. eexists. split; [reflexivity|]. split.
    { unfold f_digest in D. destruct (negb (s_use_psk s) && negb (s_mut_auth s =? 0)); [|congruence].
      destruct (slot_of _ _) as [c|]; [|discriminate]. exists c. split; [reflexivity|]. destruct (cr_hash _ _ c); [congruence|discriminate]. }
    split; [apply get_sess_upd; [apply get_sess_upd; [exact G|exact Hid]|exact Hid]|]. cbn. rewrite Th, <- app_assoc. auto.
Qed.
Lemma oror_inv {S A} e (m : st S A) x a x' : oror e m x = (Ok a, x') -> m x = (Ok a, x').
Proof. unfold oror, scatch. destruct (m x) as [[b| |] y]; unfold sret, serr, spanic; intro H; congruence. Qed.
Lemma fail_inv {S} c e (x : S) a x' : sfail_if c e x = (Ok a, x') -> c = false /\ x' = x.
Proof. unfold sfail_if. destruct c; [discriminate|]. unfold sret. intro H. split; congruence. Qed.
Lemma the_inv id x a x' : the_sess id x = (Ok a, x') -> get_sess id x = Some a /\ x' = x.
Proof. unfold the_sess. destruct (get_sess id x); [|discriminate]. intro H. split; congruence. Qed.
Lemma calc_inv cr id x h x' s : get_sess id x = Some s -> calc_th cr id x = (Ok h, x') -> x' = x /\ exists t, s_th s = Some t /\ cr_hash cr (s_hash s) t = Some h.
Proof.
  intros G H. unfold calc_th in H. bi H. apply the_inv in P as [P ->]. assert (v = s) as -> by congruence. unfold sof, transcript_hash in H.
  split; [congruence|]. destruct (s_th s) as [t|]; [|discriminate]. exists t. split; [reflexivity|]. unfold orc in H. destruct (cr_hash _ _ t); congruence.
Qed.
Lemma signed_inv E id sg x u x' s t : get_sess id x = Some s -> s_th s = Some t -> verify_finish_signature E id sg x = (Ok u, x') ->
  x' = x /\ finish_signed (e_cr E) x s t (v_bytes sg).
Proof.
  intros G T H. unfold verify_finish_signature in H. bi H. destruct (calc_inv _ _ _ _ _ _ G P) as (-> & t0 & T0 & Hh). assert (t0 = t) as -> by congruence.
  bi H. unfold sget in P0. assert (v0 = x) as -> by congruence. assert (y = x) as -> by congruence. bi H.
  destruct (slot_of (x_peer_chain x) (x_pslot x)) as [c|] eqn:Ch; [|discriminate]. cbn in P1. unfold sret in P1. assert (v0 = c) as -> by congruence. assert (y = x) as -> by congruence.
  bi H. apply unwrap_inv in P2 as [Hl ->]. bi H. assert (y = x) as -> by (unfold sassert in P2; destruct (_ <=? _); [unfold sret in P2; congruence|discriminate]).
  bi H. unfold sof in P3. destruct (sign_input (ver x) SigFinish v) as [m| |] eqn:Sg; try discriminate.
  assert (y = x) as -> by congruence. destruct (cr_verify _ _ _ _ _ _) eqn:V; [|discriminate]. unfold sret in H. split; [congruence|].
  exists v, m, c, v0. assert (m = v2) as -> by congruence. auto.
Qed.
Lemma svw_eqs s s' : svw s' = svw s -> s_hash s' = s_hash s /\ h_req_fin (s_hs s') = h_req_fin (s_hs s) /\ s_use_psk s' = s_use_psk s /\ s_mut_auth s' = s_mut_auth s.
Proof. unfold svw. intro H. repeat split; congruence. Qed.
Lemma xvw_eqs x x' : xvw x' = xvw x -> xc x' = xc x /\ x_peer_chain x' = x_peer_chain x /\ x_pslot x' = x_pslot x /\ x_nego x' = x_nego x.
Proof. unfold xvw. intro H. repeat split; try congruence. assert (K : xc x' = xc x) by congruence. unfold xc in K. congruence. Qed.
Lemma finish_digest_view cr x x' s s' d : xvw x' = xvw x -> svw s' = svw s -> s_f_init s' = s_f_init s -> finish_digest cr x' s' d -> finish_digest cr x s d.
Proof.
  intros A B C. apply xvw_eqs in A as (_ & A1 & A2 & A3). apply svw_eqs in B as (_ & _ & B1 & B2). unfold finish_digest. rewrite A1, A2, A3, B1, B2, C. auto.
Qed.
Lemma finish_signed_view cr x x' s s' t g : xvw x' = xvw x -> svw s' = svw s -> finish_signed cr x' s' t g -> finish_signed cr x s t g.
Proof.
  intros A B. apply xvw_eqs in A as (_ & A1 & A2 & A3). apply svw_eqs in B as (B1 & _ & _ & _). unfold finish_signed, ver. rewrite A1, A2, A3, B1. auto.
Qed.
Lemma finish_verified_view cr x x' s s' b : xvw x' = xvw x -> svw s' = svw s -> s_f_init s' = s_f_init s -> s_th s' = s_th s ->
  finish_verified cr x' s' b -> finish_verified cr x s b.
Proof.
  intros A B C D (p & rest & t & d & h & H1 & H2 & H3 & H4 & H5 & H6 & H7). pose proof (xvw_eqs _ _ A) as (A0 & A1 & A2 & A3). pose proof (svw_eqs _ _ B) as (B0 & B1 & B2 & B3).
  rewrite A0 in H1. rewrite B2 in H2. rewrite D in H3. rewrite B3 in H5, H6. rewrite B0 in H6, H7. rewrite B1 in H7.
  exists p, rest, t, d, h. split; [exact H1|]. split; [exact H2|]. split; [exact H3|]. split; [exact (finish_digest_view _ _ _ _ _ _ A B C H4)|].
  split; [intro Z; exact (finish_signed_view _ _ _ _ _ _ _ A B (H5 Z))|]. auto.
Qed.
Lemma psk_finish_verified_view cr x x' s s' b : xvw x' = xvw x -> svw s' = svw s -> s_th s' = s_th s ->
  psk_finish_verified cr x' s' b -> psk_finish_verified cr x s b.
Proof.
  intros A B D (v & rest & t & h & n & H1 & H2 & H3 & H4 & H5 & H6). pose proof (xvw_eqs _ _ A) as (A0 & A1 & A2 & A3). pose proof (svw_eqs _ _ B) as (B0 & B1 & B2 & B3).
  rewrite A0 in H1. rewrite B2 in H2. rewrite D in H3. rewrite A3 in H4. rewrite B0 in H5, H6. rewrite B1 in H6.
  exists v, rest, t, h, n. auto 10.
Qed.

(** ** the checks succeed only on a verified request *)
Lemma check_finish_ok E id b p x u x' s : get_sess id x = Some s -> check_finish E id b p x = (Ok u, x') ->
  forall rest, dec_finish (xc x) (skipn 2 b) = POk p rest -> finish_verified (e_cr E) x s b.
Proof.
  intros G H rest D. unfold check_finish in H. bi H. apply oror_inv in P.
  destruct (append_f_ok _ _ _ _ _ _ _ G P) as (t & d & s1 & T & Dg & G1 & T1 & F1 & V1 & X1). clear P.
  bi H. apply the_inv in P as [P ->]. assert (v0 = s1) as -> by congruence. clear P. cbv zeta in H.
  bi H. apply fail_inv in P as [Sg ->]. bi H.
  assert (K : exists s2, get_sess id y0 = Some s2 /\ svw s2 = svw s1 /\ xvw y0 = xvw y /\
    s_th s2 = Some (t ++ d ++ firstn 4 b ++ (if s_mut_auth s =? 0 then [] else v_bytes (fi_sig p))) /\
    (s_mut_auth s <> 0 -> finish_signed (e_cr E) x s (t ++ d ++ firstn 4 b) (v_bytes (fi_sig p)))).
  { pose proof (svw_eqs _ _ V1) as (_ & _ & _ & M1). unfold swhen in P. rewrite M1 in P. destruct (N.eqb_spec (s_mut_auth s) 0) as [Z|Z].
    - cbn in P. unfold sret in P. assert (y0 = y) as -> by congruence. exists s1. rewrite app_nil_r. repeat split; auto. intro; contradiction.
    - cbn [negb] in P. bi P. apply oror_inv in P0. destruct (signed_inv _ _ _ _ _ _ _ _ G1 T1 P0) as [-> SS]. apply oror_inv in P.
      destruct (append_f_ok _ _ _ _ _ _ _ G1 P) as (t2 & d2 & s2 & T2 & Dg2 & G2 & T2' & F2 & V2 & X2).
      unfold finish_digest in Dg2. rewrite F1 in Dg2. subst d2. assert (t2 = t ++ d ++ firstn 4 b) as -> by congruence.
      exists s2. repeat split; auto; [rewrite T2'; rewrite <- !app_assoc; reflexivity|]. intros _. exact (finish_signed_view _ _ _ _ _ _ _ X1 V1 SS). }
  destruct K as (s2 & G2 & V2 & X2 & T2 & SS). clear P.
  bi H. apply fail_inv in P as [Up ->]. bi H. apply oror_inv in P. destruct (calc_inv _ _ _ _ _ _ G2 P) as (-> & t3 & T3 & Hh). clear P.
  bi H. apply the_inv in P as [P ->]. assert (v4 = s2) as -> by congruence. clear P. bi H. apply fail_inv in P as [Vf ->].
  unfold verify_req_fin in Vf. assert (t3 = t ++ d ++ firstn 4 b ++ (if s_mut_auth s =? 0 then [] else v_bytes (fi_sig p))) as -> by congruence.
  pose proof (svw_eqs _ _ (eq_trans V2 V1)) as (A0 & A1 & A2 & A3). pose proof (svw_eqs _ _ V1) as (_ & _ & B2 & _).
  rewrite A0 in Hh, Vf. rewrite A1 in Vf. apply Bool.negb_false_iff in Vf.
  exists p, rest, t, d, v3. split; [exact D|]. split; [congruence|]. auto 10.
Qed.
Lemma check_psk_ok E id b rest0 v x u x' s : get_sess id x = Some s -> check_psk_finish E id b rest0 v x = (Ok u, x') ->
  dec_psk_finish (xc x) (skipn 2 b) = POk v rest0 -> psk_finish_verified (e_cr E) x s b.
Proof.
  intros G H D. unfold check_psk_finish in H. bi H. unfold sget in P. assert (v0 = x) as -> by congruence. assert (y = x) as -> by congruence. clear P.
  bi H. apply unwrap_inv in P as [Hn ->]. bi H. unfold sof in P.
  assert (y = x) as -> by (destruct (drop_last v0 (used_of b rest0)); congruence).
  bi H. apply the_inv in P0 as [P0 ->]. assert (v2 = s) as -> by congruence. clear P0. bi H. apply fail_inv in P0 as [Up ->]. bi H. apply oror_inv in P0.
  destruct (append_f_ok _ _ _ _ _ _ _ G P0) as (t & d & s1 & T & Dg & G1 & T1 & F1 & V1 & X1). clear P0.
  bi H. apply oror_inv in P0. destruct (calc_inv _ _ _ _ _ _ G1 P0) as (-> & t3 & T3 & Hh). clear P0.
  bi H. apply the_inv in P0 as [P0 ->]. assert (v5 = s1) as -> by congruence. clear P0. bi H. apply fail_inv in P0 as [Vf ->].
  apply Bool.negb_false_iff in Up, Vf. unfold verify_req_fin in Vf.
  assert (d = []) as ->. { unfold finish_digest in Dg. rewrite Up in Dg. destruct (s_f_init s); exact Dg. }
  pose proof (svw_eqs _ _ V1) as (A0 & A1 & A2 & A3). rewrite A0 in Hh, Vf. rewrite A1 in Vf.
  assert (Hv : v1 = firstn (length b - length rest0 - N.to_nat v0) b).
  { unfold drop_last in P. destruct (N.leb_spec v0 (len (used_of b rest0))) as [L|L]; [|discriminate].
    replace v1 with (firstn (N.to_nat (len (used_of b rest0) - v0)) (used_of b rest0)) by congruence.
    unfold used_of in *. rewrite firstn_firstn. f_equal. unfold len in *. rewrite firstn_length in *. lia. }
  exists v, rest0, t, v4, v0. split; [exact D|]. split; [exact Up|]. split; [exact T|]. split; [exact Hn|]. split; [|exact Vf].
  rewrite <- Hv. rewrite <- Hh. f_equal. cbn [app] in T1. congruence.
Qed.
Lemma get_reset c id x s : get_sess id x = Some s -> exists s', get_sess id (reset_buffer c (Some id) x) = Some s' /\
  svw s' = svw s /\ s_th s' = s_th s /\ s_f_init s' = s_f_init s /\ xvw (reset_buffer c (Some id) x) = xvw x.
Proof.
  intro G. assert (Hid : s_id s = id) by (unfold get_sess, find_sess in G; apply find_some in G; apply N.eqb_eq, G).
  assert (K : exists s', get_sess id (if c =? RC_GET_MEASUREMENTS then x else reset_m (Some id) x) = Some s' /\
    svw s' = svw s /\ s_th s' = s_th s /\ s_f_init s' = s_f_init s /\ xvw (if c =? RC_GET_MEASUREMENTS then x else reset_m (Some id) x) = xvw x).
  { destruct (_ =? _); [exists s; auto|]. exists (set_s_l1l2 None s). split; [apply get_sess_upd; auto|auto]. }
  unfold reset_buffer. generalize dependent (if c =? RC_GET_MEASUREMENTS then x else reset_m (Some id) x). intros y (s' & K1 & K2 & K3 & K4 & K5).
  destruct (existsb _ _); [destruct (_ <? _)|destruct (_ =? _)]; exists s'; auto.
Qed.
Lemma write_finish_ok E id b x w x' s : get_sess id x = Some s -> write_finish E id b x = (Ok w, x') -> finish_verified (e_cr E) x s b.
Proof.
  intros G H. unfold write_finish, with_version_r in H. unfold sbind at 1, sget at 1 in H.
  destruct (read_header b) as [[h t]|] eqn:Rh; [|discriminate]. destruct (negb _); [discriminate|].
  assert (Ht : t = skipn 2 b) by (apply header_rest in Rh; rewrite Rh; reflexivity). subst t.
  bi H. unfold smod in P. assert (y = reset_buffer RC_FINISH (Some id) x) as -> by congruence. clear P.
  destruct (get_reset RC_FINISH id x s G) as (s1 & G1 & V & T & F & X). bi H.
  unfold rd in P. destruct (dec_finish _ (skipn 2 b)) as [p rest| |] eqn:D; [|assert (v0 = None) as -> by congruence; discriminate|discriminate]. assert (v0 = Some (p, rest)) as -> by congruence.
  assert (y = reset_buffer RC_FINISH (Some id) x) as -> by congruence. bi H.
  apply (finish_verified_view _ _ _ _ _ _ X V F T). exact (check_finish_ok _ _ _ _ _ _ _ _ G1 P0 rest D).
Qed.
Lemma write_psk_finish_ok E id b x w x' s : get_sess id x = Some s -> write_psk_finish E id b x = (Ok w, x') -> psk_finish_verified (e_cr E) x s b.
Proof.
  intros G H. unfold write_psk_finish, with_version_r in H. unfold sbind at 1, sget at 1 in H.
  destruct (read_header b) as [[h t]|] eqn:Rh; [|discriminate]. destruct (negb _); [discriminate|].
  assert (Ht : t = skipn 2 b) by (apply header_rest in Rh; rewrite Rh; reflexivity). subst t.
  bi H. unfold smod in P. assert (y = reset_buffer RC_PSK_FINISH (Some id) x) as -> by congruence. clear P.
  destruct (get_reset RC_PSK_FINISH id x s G) as (s1 & G1 & V & T & F & X). bi H.
  unfold rd in P. destruct (dec_psk_finish _ (skipn 2 b)) as [p rest| |] eqn:D; [|assert (v0 = None) as -> by congruence; discriminate|discriminate]. assert (v0 = Some (p, rest)) as -> by congruence.
  assert (y = reset_buffer RC_PSK_FINISH (Some id) x) as -> by congruence. bi H.
  apply (psk_finish_verified_view _ _ _ _ _ _ X V T). exact (check_psk_ok _ _ _ _ _ _ _ _ _ G1 P0 D).
Qed.

(** ** establishment *)
Section est.
  Context (K : Prop) (J : N -> Prop).
  Definition adv (s s' : session) : Prop := s_state s' = SEstablished -> (s_state s = SEstablished /\ s_id s' = s_id s) \/ K \/ J (s_id s').
  Definition est : ctx -> ctx -> Prop := slotwise adv.
  Lemma adv_refl s : adv s s. Proof using. intro H. left. auto. Qed.
  Lemma est_pre : preorder est.
  Proof using.
    apply slotwise_pre; [apply adv_refl|]. intros a b c H1 H2 E. destruct (H2 E) as [[A B]|[A|A]]; auto.
    destruct (H1 A) as [[C D]|[C|C]]; [left; split; congruence|auto|right; right; congruence].
  Qed.
  Lemma est_field x x' : x_sess x' = x_sess x -> est x x'.
  Proof using. intro H. apply slotwise_field; [apply adv_refl|exact H]. Qed.
  Lemma est_calm sid x x' : calm sid x x' -> est x x'.
  Proof using. apply slotwise_calm. intros s s' H _ E. left. unfold skey in H. split; congruence. Qed.
  Lemma est_io : io_ok est.
  Proof using. intros E b. apply (rel_mono (calm None)); [apply est_calm|apply calm_io_send]. Qed.
  Lemma est_teardown id : rel est (on_sess id (session_teardown id)).
  Proof using.
    apply slotwise_on_sess; [apply adv_refl|]. intros s r s' Hid H. unfold session_teardown in H. rewrite Hid, N.eqb_refl in H.
    replace s' with (session_set_default s) by congruence. intro E. discriminate E.
  Qed.
  Lemma est_set id : J id -> rel est (on_sess id (smod (set_s_state SEstablished))).
  Proof using.
    intro Hj. apply slotwise_on_sess; [apply adv_refl|]. intros s r s' Hid H _. unfold smod in H. replace s' with (set_s_state SEstablished s) by congruence.
    right. right. change (J (s_id s)). rewrite Hid. exact Hj.
  Qed.
  Lemma est_send_secured E id w app : (forall op, opcode w = Some op -> (op = RC_FINISH_RSP \/ op = RC_PSK_FINISH_RSP) -> J id) ->
    rel est (send_secured_message E id w app).
  Proof using.
    intro H. apply rel_send_secured; [apply est_pre|apply est_io|intro; apply (rel_mono (calm (Some id))); [apply est_calm|apply calm_on_sess, skeep_encode]|].
    intros op Hop. unfold after_secured_send, swhen. apply rel_bind; [apply est_pre|destruct (_ =? _); [apply est_teardown|apply rel_ret, est_pre]|intros _].
    destruct (N.eqb_spec op RC_FINISH_RSP) as [Z|Z]; [apply est_set; eauto|].
    destruct (N.eqb_spec op RC_PSK_FINISH_RSP) as [Z1|Z1]; [apply est_set; eauto|]. apply rel_ret, est_pre.
  Qed.
  Lemma est_opened (Q : sstate -> Prop) x x' : (Q SEstablished -> K) -> opened Q x x' -> est x x'.
  Proof using.
    intros H [(A & _)|(l1 & s0 & l2 & id & S0 & Z & _ & (_ & s1 & S1 & Hs))]; [now apply est_field|].
    unfold est, slotwise. rewrite S0, S1. apply Forall2_app; [apply Forall2_refl, adv_refl|]. constructor; [|apply Forall2_refl, adv_refl].
    intro E. destruct Hs as [[_ B]|[_ B]]; [|congruence]. right. left. apply H. congruence.
  Qed.
  Lemma est_reset x : est x (reset_context x).
  Proof using.
    unfold est, slotwise, reset_context. cbn [x_sess set_x_sess].
    change (x_sess (reset_peer_info (reset_negotiate_info (reset_runtime_info x)))) with (x_sess x).
    induction (x_sess x) as [|s l IH]; cbn [map]; constructor; [|exact IH]. intro E. discriminate E.
  Qed.
End est.
Ltac es1 :=
  first [ apply rel_mod; intro; apply est_field; reflexivity
        | apply rel_mod; intro; apply (est_calm _ _ None), calm_reset_buffer
        | apply rel_mod; intro; apply est_reset
        | apply (rel_mono (calm None)); [apply est_calm|first [apply calm_append_a|apply calm_random|apply calm_summary]]
        | (intros ? ? ? KK; unfold construct_my_cert_chain in KK; destruct (construct_slots _ _ _ _);
           match type of KK with (_, ?y) = _ => match goal with |- est _ _ _ ?z => replace z with y by congruence end end; apply est_field; reflexivity) ].
Lemma est_version K J b : rel (est K J) (write_version b).
Proof. unfold write_version, then_append. rl (est_pre K J); try es1. Qed.
Lemma est_capability K J b : rel (est K J) (write_capability b).
Proof. unfold write_capability, then_append. rl (est_pre K J); try es1. Qed.
Lemma est_algorithm K J E b : rel (est K J) (write_algorithm E b).
Proof. unfold write_algorithm, then_append. rl (est_pre K J); try es1. Qed.
Lemma decode_view cr req b n s r s1 : decode_secured cr req b n s = (r, s1) -> svw s1 = svw s /\ s_th s1 = s_th s /\ s_f_init s1 = s_f_init s /\ skey s1 = skey s.
Proof.
  intro H. pose proof (skeep_decode _ _ _ _ _ _ _ H) as SK. unfold decode_secured in H. destruct (s_state s) eqn:St.
  1,4: assert (s1 = s) as -> by congruence; auto.
  all: assert (s1 = s \/ bump req s = Some s1) as [->|B] by (destruct (decode_msg _ _ _ _ _); [destruct (bump req s); [right|left]; congruence|destruct (bump req s); [right|left]; congruence|left; congruence]); auto.
  all: unfold bump in B; destruct (_ =? U64_MAX); [discriminate|]; unfold set_dir in B; rewrite St in B.
  all: match type of B with Some ?z = _ => replace s1 with z in * by congruence end; destruct req; auto.
Qed.
Theorem frame_est E f x r x' : hash_lengths (e_cr E) -> app_replies_differ E -> (forall b, plain_message E f = Some b -> bytes_ok b) -> slots8 x -> tok x ->
  process_frame E f x = (r, x') -> est (opens_psk_without_context E f x) (completes E f x) x x'.
Proof.
  intros HL HA HB S8 Tx. set (K := opens_psk_without_context E f x). set (J := completes E f x).
  apply pass_frame with (P := fun b y => y = x /\ plain_message E f = Some b)
    (F := fun id m app y => app = false -> forall s, get_sess id y = Some s -> s_state s = SHandshaking ->
       (request_code m = Some 0xE5 -> finish_verified (e_cr E) y s m -> J id) /\ (request_code m = Some 0xE7 -> psk_finish_verified (e_cr E) y s m -> J id))
    (G := fun _ => True); auto using est_pre.
  - intros sid y y' _ C. exact (est_calm _ _ _ _ _ C).
  - intros; now apply est_field.
  - intros; eapply est_version; eassumption.
  - intros; eapply est_capability; eassumption.
  - intros; eapply est_algorithm; eassumption.
  - intros b y r0 y' [-> Hb] Hc H. eapply (est_opened K J kx_states); [intros [Z|Z]; discriminate|eapply opens_key_exchange; eauto].
  - intros b y r0 y' [-> Hb] Hc H. eapply (est_opened K J (px_states x)); [|eapply opens_psk_exchange; eauto].
    intros [Z|[Z|[Z _]]]; try discriminate. exists b. auto.
  - intros id b y r0 y' s Fs Rq LI Gs Hs H. unfold handle_finish in H. unfold sbind at 1, sget at 1 in H.
    assert (W : rel (calm (Some id)) (write_finish E id b)) by apply calm_write_finish.
    unfold sbind in H. destruct (write_finish E id b y) as [[w|e|] z] eqn:WF; pose proof (W _ _ _ WF) as C;
      [|replace y' with z by congruence; exact (est_calm _ _ _ _ _ C)|replace y' with z by congruence; exact (est_calm _ _ _ _ _ C)].
    assert (Hj : J id) by (apply (proj1 (Fs eq_refl s Gs Hs)); [exact Rq|exact (write_finish_ok _ _ _ _ _ _ _ Gs WF)]).
    eapply est_pre; [exact (est_calm _ _ _ _ _ C)|]. destruct (in_clear (xc y)); [|exact (est_send_secured K J E id w false (fun _ _ _ => Hj) _ _ _ H)].
    assert (LZ : lastid id z). { left. rewrite <- (LI eq_refl). destruct C as [C _]. unfold outline in C. congruence. }
    apply (clear_finish_send (est K J) E id w (est_pre K J)) in H; [exact (proj1 (H LZ))|apply est_calm|..].
    + intros; now apply est_field.
    + intros; now apply est_field.
    + now apply est_set.
  - intros id b y r0 y' s Fs Rq Gs Hs H. unfold handle_psk_finish in H.
    assert (W : rel (calm (Some id)) (write_psk_finish E id b)) by apply calm_write_psk_finish.
    unfold sbind in H. destruct (write_psk_finish E id b y) as [[w|e|] z] eqn:WF; pose proof (W _ _ _ WF) as C;
      [|replace y' with z by congruence; exact (est_calm _ _ _ _ _ C)|replace y' with z by congruence; exact (est_calm _ _ _ _ _ C)].
    assert (Hj : J id) by (apply (proj2 (Fs eq_refl s Gs Hs)); [exact Rq|exact (write_psk_finish_ok _ _ _ _ _ _ _ Gs WF)]).
    eapply est_pre; [exact (est_calm _ _ _ _ _ C)|]. exact (est_send_secured K J E id w false (fun _ _ _ => Hj) _ _ _ H).
  - intros id b y r0 y' s _ _ _ _. unfold handle_end_session.
    apply (rel_bind_any _ (est_pre K J) _ _ (rop RC_END_SESSION_ACK)); [apply (rel_mono (calm (Some id))); [apply est_calm|apply calm_write_end_session]|apply op_end_session|].
    intros w O. apply est_send_secured. intros op Hop Hw. exfalso. destruct O as [O|O]; rewrite O in Hop; injection Hop as <-; destruct Hw as [Hw|Hw]; discriminate Hw.
  - intros id b y r0 y' s _ _. unfold dispatch_app. destruct (e_app E id b) as [rep| |] eqn:Ap; try apply (rel_panic (est K J)), est_pre.
    apply (rel_bind (est K J)); [apply est_pre|apply rel_assert, est_pre|intros _]. apply est_send_secured. intros op Hop Hw.
    destruct (HA _ _ _ Ap) as [A1 A2]. unfold opcode in Hop. destruct Hw as [->| ->]; contradiction.
  - intros b Hb. split; [reflexivity|]. unfold plain_message. rewrite Hb. reflexivity.
  - intros b id Hb Hc Hi Hl _ s Gs Hs. split; [|intro Z; rewrite Hc in Z; discriminate].
    intros _ V. apply (co_clear E f x id b s); auto. unfold plain_message. rewrite Hb. reflexivity.
  - intros b id s a s1 m app Hb Hr Gs D TA -> s2 G2 H2.
    assert (De : delivered E f x id m false). { exists b, s, a, s1. split; [unfold secured_message; rewrite Hb; reflexivity|]. split; [now apply read_names|]. auto. }
    destruct (decode_view _ _ _ _ _ _ _ D) as (V & T & F & SK). assert (Hid : s_id s = id) by (unfold get_sess, find_sess in Gs; apply find_some in Gs; apply N.eqb_eq, Gs).
    assert (s2 = s1) as ->. { rewrite (get_sess_upd id s (fun _ => s1)) in G2; [congruence|exact Gs|]. unfold skey in SK. change (s_id s1 = id). congruence. }
    assert (St : s_state s = SHandshaking) by (unfold skey in SK; congruence).
    split; [intros Rq Vf; apply (co_finish E f x id m s De Rq Gs St)|intros Rq Vf; apply (co_psk E f x id m s De Rq Gs St)].
    + exact (finish_verified_view (e_cr E) x (mod_sess id (fun _ => s1) x) s s1 m eq_refl V F T Vf).
    + exact (psk_finish_verified_view (e_cr E) x (mod_sess id (fun _ => s1) x) s s1 m eq_refl V T Vf).
Qed.
