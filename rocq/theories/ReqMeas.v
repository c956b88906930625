(** The requester's measurement transcripts are those of its history. *)
From Verif Require Import Bytes BytesFacts Status Codec Parse ParseProofs Algo Monad.
From Verif Require Import MsgConn MsgAuth MsgSession MsgOther Message Opaque Transport Crypto KeySchedule Session Signing CertOps ChainVerify Context
  RspBase RspConn RspSess RspEncap Responder StRel RspFrame RspCalm RspOpcode RspPass RspTable RspIso RspEst RspDeliver ReqBase ReqConn ReqSess SpecReq ReqFrame ReqAnswer SpecSession SpecAuth ReqTrans ReqSplit ReqHist ReqAuth
  ReqTable ReqOpen.
From Verif Require Import MsgLocal.
From Coq Require Import Lia.
Local Open Scope N_scope.

Definition l12 (sid : option N) (x : ctx) : option bytes :=
  match sid with
  | None => x_l1l2 x
  | Some id => match get_sess id x with Some s => s_l1l2 s | None => None end
  end.
(** ** unchanged, or dropped *)
Definition lk (sid : option N) (x x' : ctx) : Prop := rtok x -> rtok x' /\ (l12 sid x' = l12 sid x \/ l12 sid x' = None).
Lemma lk_pre sid : preorder (lk sid).
Proof.
  split; unfold lk; [auto|]. intros x y z A B T. destruct (A T) as [T1 A1]. destruct (B T1) as [T2 B1]. split; [exact T2|].
  destruct B1 as [->|]; auto.
Qed.
Lemma find_in id l s : find_sess id l = Some s -> exists l1 l2, l = l1 ++ s :: l2 /\ s_id s = id.
Proof.
  induction l as [|a l IH]; [discriminate|]. unfold find_sess. cbn [find]. destruct (N.eqb_spec (s_id a) id) as [Z|Z]; intro H.
  - assert (a = s) as -> by congruence. exists [], l. auto.
  - destruct (IH H) as (l1 & l2 & -> & K). exists (a :: l1), l2. auto.
Qed.
Lemma find_at id l1 s l2 : s_id s = id -> (forall t, In t l1 -> s_id t <> id) -> find_sess id (l1 ++ s :: l2) = Some s.
Proof.
  intros Z U. induction l1 as [|a l1 IH]; unfold find_sess; cbn [app find].
  - rewrite (proj2 (N.eqb_eq _ _) Z). reflexivity.
  - destruct (N.eqb_spec (s_id a) id) as [Z'|]; [exfalso; exact (U a (or_introl eq_refl) Z')|]. apply IH. intros t Ht. apply U. now right.
Qed.
Lemma forall2_split {A} (R : A -> A -> Prop) l l1 s l2 : Forall2 R l (l1 ++ s :: l2) -> exists k1 s0 k2, l = k1 ++ s0 :: k2 /\ R s0 s /\ length k1 = length l1.
Proof.
  revert l. induction l1 as [|a l1 IH]; intros l H; cbn [app] in H; inversion H; subst.
  - eexists [], _, _. split; [reflexivity|]. auto.
  - match goal with K : Forall2 _ _ (l1 ++ _) |- _ => destruct (IH _ K) as (k1 & s0 & k2 & -> & Q & Ln) end. eexists (_ :: k1), s0, k2. split; [reflexivity|]. split; [exact Q|]. cbn. congruence.
Qed.
Lemma dk_lk ex sx sid x x' : ex <> Some sid -> sid <> Some 0 -> dk ex sx x x' -> lk sid x x'.
Proof.
  intros Nx Nz D T. split; [exact (rtok_dk _ _ _ _ D T)|]. destruct D as [D1 D2]. destruct sid as [id|]; [|cbn [l12]; destruct D2 as [|[|]]; [auto|auto|congruence]].
  cbn [l12]. destruct (get_sess id x') as [s'|] eqn:G; [|auto]. unfold get_sess in G. apply find_in in G as (l1 & l2 & S' & I'). unfold slotwise in D1. rewrite S' in D1.
  apply forall2_split in D1 as (k1 & s0 & k2 & S & Q & _). destruct Q as [[Q _]|(Q1 & _ & Q2)]; [congruence|].
  assert (I0 : s_id s0 = id) by congruence. destruct (rtok_unique x k1 s0 k2 T S) as [U _]; [congruence|].
  unfold get_sess. rewrite S, (find_at id k1 s0 k2 I0) by (intros t Ht; rewrite <- I0; apply U, Ht). destruct Q2 as [|[|]]; [auto|auto|congruence].
Qed.
Lemma l12_map sid x x' : map sk3 (x_sess x') = map sk3 (x_sess x) -> x_l1l2 x' = x_l1l2 x -> l12 sid x' = l12 sid x.
Proof.
  intros H K. destruct sid as [id|]; [|exact K]. cbn [l12]. unfold get_sess. revert H. generalize (x_sess x'). generalize (x_sess x). clear K.
  induction l as [|s l IH]; intros [|s' l'] H; try discriminate; [reflexivity|]. cbn [map] in H. unfold find_sess. cbn [find].
  assert (sk3 s' = sk3 s) as E1 by congruence. unfold sk3 in E1. replace (s_id s') with (s_id s) by congruence. destruct (_ =? _); [congruence|]. apply IH. congruence.
Qed.
Lemma l12_eqk sid x x' : eqk x x' -> l12 sid x' = l12 sid x.
Proof. intros [H K]. apply l12_map; assumption. Qed.
Lemma l12_reset sid x : l12 sid (reset_m sid x) = None.
Proof.
  destruct sid as [id|]; [|reflexivity]. cbn [reset_m l12]. unfold get_sess, mod_sess. cbn [x_sess set_x_sess]. induction (x_sess x) as [|s l IH]; [reflexivity|].
  cbn [upd_sess]. destruct (N.eqb_spec (s_id s) id) as [Z|Z]; unfold find_sess; cbn [find s_id set_s_l1l2]; destruct (N.eqb_spec (s_id s) id); try congruence; [reflexivity|exact IH].
Qed.
Lemma l12_field sid x x' : x_sess x' = x_sess x -> x_l1l2 x' = x_l1l2 x -> l12 sid x' = l12 sid x.
Proof. intros H K. apply l12_map; [now rewrite H|exact K]. Qed.
Lemma l12_reset_buffer c sid x : c <> RC_GET_MEASUREMENTS -> l12 sid (reset_buffer c sid x) = None.
Proof.
  intro H. unfold reset_buffer. cbv zeta. destruct (N.eqb_spec c RC_GET_MEASUREMENTS); [contradiction|]. pose proof (l12_reset sid x) as L. set (y := reset_m sid x) in *. clearbody y.
  destruct (existsb _ _); [destruct (_ <? _)|destruct (_ =? _)]; try exact L; (rewrite (l12_field sid y); [exact L|reflexivity|reflexivity]).
Qed.
Lemma l12_reset_meas sid sid' x : l12 sid (reset_buffer RC_GET_MEASUREMENTS sid' x) = l12 sid x.
Proof. unfold reset_buffer. cbv zeta. change (RC_GET_MEASUREMENTS =? RC_GET_MEASUREMENTS) with true. cbv iota. destruct (existsb _ _); [destruct (_ <? _)|destruct (_ =? _)]; apply l12_field; reflexivity. Qed.

(** ** adding a request and its response *)
Definition fk (x x' : ctx) : Prop := xc x' = xc x /\ x_peer_chain x' = x_peer_chain x /\ x_msg_a x' = x_msg_a x.
Definition start (sid : option N) (x : ctx) : bytes := match l12 sid x with Some d => d | None => l1l2_start x end.
Lemma get_mod id f x s : get_sess id x = Some s -> s_id (f s) = s_id s -> get_sess id (mod_sess id f x) = Some (f s).
Proof.
  unfold get_sess, mod_sess. cbn [x_sess set_x_sess]. intros H K. induction (x_sess x) as [|a l IH]; [discriminate|].
  unfold find_sess in H. cbn [find] in H. cbn [upd_sess]. destruct (N.eqb_spec (s_id a) id) as [Z|Z].
  - assert (a = s) as -> by congruence. unfold find_sess. cbn [find]. rewrite K, Z, N.eqb_refl. reflexivity.
  - unfold find_sess. cbn [find]. destruct (N.eqb_spec (s_id a) id); [contradiction|]. apply IH, H.
Qed.
Lemma append_m_cases cr sid m x : (exists e, append_m cr sid m x = (Err e, x)) \/
  (exists x', append_m cr sid m x = (Ok tt, x') /\ l12 sid x' = Some (start sid x ++ m) /\ fk x x').
Proof.
  unfold append_m, start, next_l1l2, l1l2_start. destruct sid as [id|]; cbn [l12].
  - destruct (get_sess id x) as [s|] eqn:G; [|left; eauto]. destruct (s_l1l2 s) as [d|] eqn:L; [|destruct (hash_ok _ _); [|left; eauto]].
    + right. eexists. split; [reflexivity|]. split; [|split; [reflexivity|split; reflexivity]]. rewrite (get_mod _ _ _ _ G) by reflexivity. reflexivity.
    + right. eexists. split; [reflexivity|]. split; [|split; [reflexivity|split; reflexivity]]. rewrite (get_mod _ _ _ _ G) by reflexivity. reflexivity.
  - destruct (x_l1l2 x) as [d|]; [|destruct (hash_ok _ _); [|left; eauto]]; right; (eexists; split; [reflexivity|]; split; [reflexivity|split; [reflexivity|split; reflexivity]]).
Qed.
Lemma append_m_some cr sid m x d : l12 sid x = Some d -> exists x', append_m cr sid m x = (Ok tt, x') /\ l12 sid x' = Some (d ++ m) /\ fk x x'.
Proof.
  intro H. destruct (append_m_cases cr sid m x) as [[e A]|(x' & A & B & C)]; [|exists x'; unfold start in B; rewrite H in B; auto].
  exfalso. unfold append_m in A. destruct sid as [id|]; cbn [l12] in H; [destruct (get_sess id x) as [s|]; [|discriminate]|]; rewrite H in A; discriminate.
Qed.
Lemma append_m_both cr sid s u x : (exists e, (append_m cr sid s ;;; append_m cr sid u)%st x = (Err e, x)) \/
  (exists x', (append_m cr sid s ;;; append_m cr sid u)%st x = (Ok tt, x') /\ l12 sid x' = Some (start sid x ++ s ++ u) /\ fk x x').
Proof.
  unfold sbind. destruct (append_m_cases cr sid s x) as [[e ->]|(y & -> & L & (K1 & K2 & K3))]; [left; eauto|].
  destruct (append_m_some cr sid u _ _ L) as (x' & -> & L' & (J1 & J2 & J3)). right. exists x'. split; [reflexivity|]. rewrite <- app_assoc in L'. split; [exact L'|].
  split; [congruence|]. split; congruence.
Qed.

(** ** the handler *)
Lemma dec_meas_split c r p rest : dec_meas_rsp c r = POk p rest ->
  exists pre sg, r = pre ++ sg ++ rest /\
    if c_need_sig c then sg = v_bytes (ms_sig p) /\ exists n, asym_size (n_asym (c_nego c)) = Some n /\ len sg = n else sg = [].
Proof.
  intro H. unfold dec_meas_rsp in H. lsplit H dlocal_u8. lsplit H dlocal_u8.
  apply dbind_ok in H as (ac & mc & Dc & H). apply (local_split _ _ _ _ (dlocal_opt _)) in Dc as (w0 & W0).
  lsplit H (dl_mrecord c). lsplit H dl_nonce. lsplit H dl_opaque. apply dbind_ok in H as (sg & m6 & D6 & H). apply dret_ok in H as [-> ->]. cbn [ms_sig].
  rewrite Q, Q0, W0, Q1, Q2, Q3. unfold dec_opt in D6. destruct (c_need_sig c).
  - apply dec_signature_split in D6 as (n & N1 & N2 & N3). rewrite N3. eexists (u ++ u0 ++ w0 ++ u1 ++ u2 ++ u3), (v_bytes sg). split; [rewrite <- !app_assoc; reflexivity|]. eauto.
  - apply dret_ok in D6 as [_ ->]. eexists (u ++ u0 ++ w0 ++ u1 ++ u2 ++ u3), []. split; [rewrite <- !app_assoc; reflexivity|]. reflexivity.
Qed.
Definition signed (E : env) (z : ctx) (slot : N) (t sig : bytes) : Prop :=
  exists n chain, asym_size (n_asym (x_nego z)) = Some n /\ len sig = n /\ slot_of (x_peer_chain z) slot = Some chain /\
    authentic (e_cr E) (x_nego z) chain SigMeasurements t sig.
Lemma handle_meas E sid slot attr op s b z w x' : handle_measurements E sid slot attr op s b z = (Ok w, x') ->
  exists body sig rest, b = body ++ sig ++ rest /\ accepted (OMeasurements sid slot attr op) (asked (OMeasurements sid slot attr op) z) b (body ++ sig) /\
    if N.testbit attr 0 then signed E z slot (start sid z ++ s ++ body) sig /\ l12 sid x' = None
    else sig = [] /\ l12 sid x' = Some (start sid z ++ s ++ body).
Proof.
  unfold handle_measurements. cbv zeta. rewrite contains_bit. intro H. bi H. apply mod_inv in P as ->. apply on_response_ok in H as (r & Eb & H). apply reading_ok in H as (p & rest & D & H).
  pose proof D as D0. apply dec_meas_split in D0 as (pre & sig & Sr & Sg). cbn [xc c_need_sig x_need_sig set_x_need_sig c_nego x_nego] in Sg.
  set (v0 := ver _) in Eb. assert (Eu : used_of b rest = (v0 :: 0x60 :: pre) ++ sig). { apply used_split. rewrite Eb, Sr, <- app_assoc. reflexivity. }
  rewrite Eu in H. clear Eu. bi H. apply mod_inv in P as ->. set (z1 := if _ <=? _ then _ else _) in H.
  assert (Z1 : x_nego z1 = x_nego z /\ x_peer_chain z1 = x_peer_chain z /\ l1l2_start z1 = l1l2_start z).
  { unfold z1. destruct (_ <=? _); (split; [reflexivity|split; reflexivity]). }
  assert (Zl : l12 sid z1 = l12 sid z). { unfold z1. destruct (_ <=? _); apply l12_field; reflexivity. }
  clearbody z1. destruct Z1 as (Zn & Zp & Za). bg H. bi H. apply unwrap_inv in P as [As ->]. bi H. apply of_inv in P as [Dl ->].
  assert (v3 = v0 :: 0x60 :: pre) as ->.
  { destruct (N.testbit attr 0).
    - destruct Sg as (-> & n & N1 & N2). rewrite Zn in As. rewrite drop_last_app in Dl by congruence. congruence.
    - subst sig. rewrite drop_last_app in Dl by reflexivity. congruence. }
  clear Dl. set (body := v0 :: 0x60 :: pre) in *. rewrite <- sbind_assoc in H.
  destruct (append_m_both (e_cr E) sid s body z1) as [[e Ap]|(q & Ap & Lq & (F1 & F2 & F3))].
  { unfold sbind in H at 1. rewrite Ap in H. discriminate. }
  unfold sbind in H at 1. rewrite Ap in H. clear Ap. assert (St : start sid z1 = start sid z) by (unfold start; rewrite Zl, Za; reflexivity). rewrite St in Lq.
  exists body, sig, rest. split; [rewrite Eb, Sr; reflexivity|]. split.
  { exists rest. split; [rewrite Eb, Sr, <- app_assoc; reflexivity|]. exists p. rewrite Eb. exact D. }
  bi H. apply ret_inv in H as [_ ->]. unfold swhen in P. destruct (N.testbit attr 0).
  - destruct Sg as (Sg & n & N1 & N2). subst sig. unfold scatch in P. destruct (verify_measurement_sig E sid slot (v_bytes (ms_sig p)) q) as [res y1] eqn:V.
    destruct res as [a| |]; try (unfold sbind, smod, serr in P; discriminate). unfold sbind, smod, sret in P. replace y with (reset_m sid y1) by congruence. clear P. split; [|apply l12_reset].
    unfold verify_measurement_sig in V. bg V. bi V. assert (v4 = l12 sid q /\ y0 = q) as [-> ->].
    { unfold l12. destruct sid as [id|].
      - destruct (get_sess id q); [apply ret_inv in P as [P ->]; split; [congruence|reflexivity]|unfold serr in P; discriminate].
      - apply ret_inv in P as [P ->]. split; [congruence|reflexivity]. }
    bi V. match goal with K : finalize _ _ _ _ = _ |- _ => apply finalize_ok in K as (t0 & T0 & Hh & ->) end. assert (t0 = start sid z ++ s ++ body) as -> by congruence.
    assert (Nq : x_nego q = x_nego z). { apply (f_equal c_nego) in F1. unfold xc in F1. cbn [c_nego] in F1. congruence. }
    apply (verify_peer_ok _ _ _ _ _ _ _ _ _ V) in Hh as (chain & Ch & Au). rewrite Nq in Au. exists n, chain. split; [exact N1|]. split; [exact N2|]. split; [congruence|exact Au].
  - apply ret_inv in P as [_ ->]. split; [exact Sg|exact Lq].
Qed.
(** a failed measurement keeps or drops the transcript *)
Lemma errs_meas E sid a t o : sid <> Some 0 -> errs (lk sid) (get_measurements E sid a t o).
Proof.
  intro Nz. assert (K : forall A (m : st ctx A), rel (dk None None) m -> rel (lk sid) m). { intros A m. apply rel_mono. intros x y. apply dk_lk; [discriminate|exact Nz]. }
  assert (Kq : forall A (m : st ctx A), rel eqk m -> rel (lk sid) m). { intros A m H. apply K, eqk_of, H. }
  unfold get_measurements. apply (errs_bind _ (lk_pre sid)); [apply (rel_fail_if _ (lk_pre sid))|intros _].
  apply (errs_bind _ (lk_pre sid)); [apply K, rel_mod; intro; apply dk_reset_buffer|intros _].
  apply (errs_bind _ (lk_pre sid)); [apply Kq, eqk_random|intro n]. apply (errs_bind _ (lk_pre sid)); [apply (rel_ok _ (lk_pre sid))|intro nonce].
  apply (errs_bind _ (lk_pre sid)); [apply (rel_get _ (lk_pre sid))|intro x0]. apply (errs_bind _ (lk_pre sid)); [apply (rel_req_enc _ (lk_pre sid))|intro s].
  apply (errs_bind _ (lk_pre sid)); [apply Kq, eqk_send_on|intros _]. apply (errs_bind _ (lk_pre sid)); [apply Kq, eqk_recv_on|intro b].
  unfold handle_measurements. cbv zeta. apply (errs_bind _ (lk_pre sid)); [apply Kq, eqk_mod_field; intro; split; reflexivity|intros _].
  apply (errs_on_response _ (lk_pre sid)); [intro r|apply K, dk_error_main]. apply (errs_reading _ (lk_pre sid)). intros p u.
  apply (errs_bind _ (lk_pre sid)); [apply Kq, eqk_mod_field; intro x1; destruct (_ <=? _); split; reflexivity|intros _].
  apply (errs_bind _ (lk_pre sid)); [apply (rel_get _ (lk_pre sid))|intro x1]. apply (errs_bind _ (lk_pre sid)); [apply (rel_unwrap _ (lk_pre sid))|intro sg]. apply (errs_bind _ (lk_pre sid)); [apply (rel_of _ (lk_pre sid))|intro w].
  intros x e x' H. rewrite <- sbind_assoc in H. destruct (append_m_both (e_cr E) sid s w x) as [[e0 Ap]|(q & Ap & Lq & (F1 & F2 & F3))].
  { unfold sbind in H at 1. rewrite Ap in H. replace x' with x by congruence. apply lk_pre. }
  assert (Dq : dk (Some sid) None x q). { assert (Ra : rel (dk (Some sid) None) (append_m (e_cr E) sid s ;;; append_m (e_cr E) sid w)%st) by (apply rel_bind; [apply dk_pre|apply dk_append_m|intro; apply dk_append_m]). exact (Ra _ _ _ Ap). }
  unfold sbind in H at 1. rewrite Ap in H. unfold sbind in H at 1. unfold swhen in H. destruct (contains t MEAS_ATTR_SIG); [|unfold sret in H; discriminate].
  unfold scatch in H. destruct (verify_measurement_sig E sid a (v_bytes (ms_sig p)) q) as [res y1] eqn:V.
  apply eqk_meas_sig in V. unfold sbind, smod, sret, serr in H. intro T. apply (rtok_dk _ _ _ _ Dq) in T. apply (rtok_dk _ _ _ _ (eqk_dk None None _ _ V)) in T.
  replace x' with (reset_m sid y1) by (destruct res; congruence). split; [exact (rtok_dk _ _ _ _ (dk_reset_m None None sid y1) T)|]. right. apply l12_reset.
Qed.

(** ** the other operations *)
Lemma same_tab_lk sid x x' : same_tab x x' -> sid <> Some 0 -> lk sid x x'.
Proof. intros S Nz. apply (dk_lk None None); [discriminate|exact Nz|]. apply same_tab_dk, S. Qed.
Lemma opened_lk sid x x' : rtok x -> opened x x' -> sid <> Some 0 -> l12 sid x' = l12 sid x \/ l12 sid x' = None.
Proof.
  intros T (id & l1 & s & l2 & z & Ni & S & Z & U1 & U2 & Sz & Lz & D & Tz) Nz. destruct (dk_lk None (Some id) sid z x' ltac:(discriminate) Nz D Tz) as [_ [K|K]]; [|auto]. rewrite K. clear K.
  destruct sid as [i|]; [|exact Lz]. cbn [l12]. unfold get_sess. rewrite S, Sz. assert (i <> 0) by congruence.
  clear -Z U1 H. induction l1 as [|a l1 IH]; unfold find_sess; cbn [app find].
  - cbn [s_id set_s_id]. rewrite Z. destruct (N.eqb_spec 0 i); [congruence|]. destruct (N.eqb_spec id i); [right; reflexivity|]. left. reflexivity.
  - destruct (_ =? _); [auto|]. apply IH. intros t Ht. apply U1. now right.
Qed.
Lemma run_lk E o sid x r x' : sid <> Some 0 -> meas_of o <> Some sid -> rtok x -> run E o x = (r, x') -> l12 sid x' = l12 sid x \/ l12 sid x' = None.
Proof.
  intros Nz Nm T H. destruct (opens_session o) eqn:O.
  - destruct (run_opens _ _ _ _ _ O T H) as [S|S]; [apply (same_tab_lk _ _ _ S Nz T)|apply (opened_lk _ _ _ T S Nz)].
  - apply (run_dk E o O) in H. apply (dk_lk _ _ _ _ _ Nm Nz H T).
Qed.
(** the bare connection's is not touched by anything in a session *)
Definition xl (x x' : ctx) : Prop := x_l1l2 x' = x_l1l2 x.
Lemma xl_pre : preorder xl.
Proof. split; unfold xl; congruence. Qed.
Lemma xl_of {A} (m : st ctx A) : rel eqk m -> rel xl m.
Proof. apply rel_mono. intros x y [_ H]. exact H. Qed.
Lemma xl_on_sess {A} id (m : st session A) : rel xl (on_sess id m).
Proof. intros x r x' H. apply keeps_on_sess in H. unfold keeps in H. unfold xl. rewrite H. reflexivity. Qed.
Lemma xl_reset_m id x : xl x (reset_m (Some id) x). Proof. reflexivity. Qed.
Lemma xl_reset_buffer c id x : xl x (reset_buffer c (Some id) x).
Proof.
  unfold reset_buffer. cbv zeta. set (y := if c =? _ then x else _). assert (xl x y) as B by (unfold y; destruct (_ =? _); reflexivity). clearbody y.
  destruct (existsb _ _); [destruct (_ <? _)|destruct (_ =? _)]; exact B.
Qed.
Lemma xl_error_main {A} sid b : rel xl (@error_main A sid b).
Proof. unfold error_main, simple_error. rl xl_pre; first [apply xl_on_sess|apply rel_mod; intro; reflexivity]. Qed.
Lemma xl_append_m cr id m : rel xl (append_m cr (Some id) m).
Proof. intros x r x' H. unfold append_m in H. destruct (get_sess id x) as [s|]; [|unfold xl; congruence]. destruct (s_l1l2 s); [|destruct (hash_ok _ _)]; match type of H with (_, ?z) = _ => replace x' with z by congruence end; reflexivity. Qed.
Lemma xl_abandon {A} id e : rel xl (@req_abandon A id e).
Proof. unfold req_abandon. rl xl_pre; apply xl_on_sess. Qed.
Ltac lx :=
  rl xl_pre;
  first [apply xl_on_sess|apply xl_error_main|apply xl_append_m|apply xl_abandon
        |apply xl_of; first [apply eqk_append_k|apply eqk_append_f|apply eqk_append_a|apply eqk_append_b_both|apply eqk_append_c
             |apply eqk_chal_sig|apply eqk_meas_sig|apply eqk_random|apply eqk_verify_peer|apply eqk_encode_finish|apply eqk_encode_psk_finish
             |apply eqk_send_on|apply eqk_recv_on|apply eqk_send|apply eqk_recv|apply eqk_send_s|apply eqk_recv_s
             |apply eqk_mod_field; intro; split; reflexivity]
        |apply rel_on_response; [exact xl_pre|intro; lx|apply xl_error_main]
        |apply rel_on_response_any; [exact xl_pre|intro; lx|apply xl_error_main]
        |apply rel_reading; [exact xl_pre|intros; lx]
        |apply (rel_req_enc _ xl_pre)
        |apply rel_mod; intro; first [apply xl_reset_m|apply xl_reset_buffer|reflexivity]
        |idtac].
Lemma xl_or_teardown {A} id (m : st ctx A) : rel xl m -> rel xl (or_teardown id m).
Proof. intro H. unfold or_teardown. rl xl_pre; first [exact H|apply xl_abandon]. Qed.
Lemma xl_or_teardown_if {A} id (m : st ctx A) : rel xl m -> rel xl (or_teardown_if id m).
Proof. intro H. unfold or_teardown_if. rl xl_pre; first [exact H|apply xl_abandon]. Qed.
Lemma run_xl E o : ~ concerns o None -> rel xl (run E o).
Proof.
  intro H. destruct o; cbn [concerns] in H; try (exfalso; apply H; reflexivity); cbn [run].
  - destruct sid as [id|]; [|congruence]. unfold get_digests, handle_digests_rsp. lx.
  - apply (rel_drop _ xl_pre). unfold get_certificate_partial, handle_certificate_rsp. lx.
  - destruct sid as [id|]; [|congruence]. apply (rel_drop _ xl_pre). unfold get_measurements, handle_measurements. lx.
    apply rel_mod. intro. destruct (_ <=? _); reflexivity.
  - unfold finish_req. rl xl_pre; first [apply xl_or_teardown_if | apply xl_or_teardown | apply rel_mod; intro; apply xl_reset_buffer];
      first [unfold handle_finish_rsp; lx; fail | apply xl_of, eqk_encode_finish | destruct (in_clear _); apply xl_of; first [apply eqk_send|apply eqk_send_s|apply eqk_recv|apply eqk_recv_s]].
  - unfold psk_finish_req. rl xl_pre; first [apply xl_or_teardown_if | apply xl_or_teardown | apply rel_mod; intro; apply xl_reset_buffer];
      first [unfold handle_psk_finish_rsp; lx; fail | apply xl_of, eqk_encode_psk_finish | apply xl_of; first [apply eqk_send_s|apply eqk_recv_s]].
  - unfold heartbeat_req, heartbeat_answer. lx.
  - unfold key_update_op_req, handle_key_update_ack. lx.
  - unfold end_session_req, end_session_answer. lx.
Qed.
(** a successful operation of the channel, other than a measurement, starts by dropping it *)
Lemma opens_x h x x' : opens h x x' -> x_l1l2 x = None -> x_l1l2 x' = None.
Proof.
  intros [[_ S]|(id & l1 & s & l2 & z & _ & _ & _ & _ & _ & Lz & [_ D])] H; [destruct S; congruence|]. destruct D as [D|[D|D]]; [|exact D|discriminate]. destruct Lz; congruence.
Qed.
Lemma lk_none sid x x' : lk sid x x' -> rtok x -> l12 sid x = None -> l12 sid x' = None.
Proof. intros K T H. destruct (K T) as [_ [Q|Q]]; congruence. Qed.
Lemma rest_lk {A} ex sx sid (m : st ctx A) y r x' : rel (dk ex sx) m -> ex <> Some sid -> sid <> Some 0 -> m y = (r, x') -> rtok y -> l12 sid y = None -> l12 sid x' = None.
Proof. intros D Nx Nz H. apply lk_none. apply (dk_lk ex sx); auto. exact (D _ _ _ H). Qed.
Lemma rtok_reset_buffer c sid x : rtok x -> rtok (reset_buffer c sid x).
Proof. apply (rtok_dk None None), dk_reset_buffer. Qed.
Lemma run_drop E o sid x x' : sid <> Some 0 -> rtok x -> run E o x = (Ok tt, x') -> concerns o sid -> meas_of o = None -> l12 sid x' = None.
Proof.
  intros Nz T H C M. destruct o; cbn [concerns] in C; try discriminate M; try contradiction; cbn [run] in H.
  - subst sid. unfold get_version in H. bi H. apply mod_inv in P as ->. refine (rest_lk None None None _ _ _ _ _ _ _ H _ _); [|discriminate|discriminate|apply rtok_reset_buffer, T|apply l12_reset_buffer; discriminate].
    unfold handle_version_rsp. dd (@None (option N)) (@None N). apply rel_mod. intro z. split; [|right; left; reflexivity]. apply slotwise_field; [apply D3_refl|reflexivity].
  - subst sid. unfold get_capabilities in H. bi H. apply mod_inv in P as ->. refine (rest_lk None None None _ _ _ _ _ _ _ H _ _); [|discriminate|discriminate|apply rtok_reset_buffer, T|apply l12_reset_buffer; discriminate].
    unfold handle_capabilities_rsp. dd (@None (option N)) (@None N).
  - subst sid. unfold negotiate_algorithms in H. bi H. apply mod_inv in P as ->. refine (rest_lk None None None _ _ _ _ _ _ _ H _ _); [|discriminate|discriminate|apply rtok_reset_buffer, T|apply l12_reset_buffer; discriminate].
    unfold handle_algorithms_rsp. dd (@None (option N)) (@None N).
  - subst sid. unfold get_digests in H. bi H. apply mod_inv in P as ->. refine (rest_lk None None sid0 _ _ _ _ _ _ _ H _ _); [|discriminate|exact Nz|apply rtok_reset_buffer, T|apply l12_reset_buffer; discriminate].
    unfold handle_digests_rsp. dd (@None (option N)) (@None N).
  - subst sid. unfold challenge_req in H. bi H. apply fail_inv in P as [_ ->]. bi H. apply mod_inv in P as ->. refine (rest_lk None None None _ _ _ _ _ _ _ H _ _); [|discriminate|discriminate|apply rtok_reset_buffer, T|apply l12_reset_buffer; discriminate].
    unfold handle_challenge_auth, set_summary. dd (@None (option N)) (@None N).
  - subst sid. apply drop_ok in H as [w H]. unfold key_exchange_req in H. bi H. apply fail_inv in P as [_ ->]. bg H. bi H. apply of_inv in P as [_ ->]. bi H. apply mod_inv in P as ->.
    set (y := reset_buffer _ _ _) in H. assert (Y : x_l1l2 y = None) by (apply (l12_reset_buffer RC_KEY_EXCHANGE None); discriminate). clearbody y.
    cbn [l12]. revert Y. apply (opens_x v0). revert H. match goal with |- ?m y = _ -> _ => assert (K : rel (opens v0) m) end; [|intro H; exact (K _ _ _ H)].
    apply opens_bind; [apply st_encode_kx|intro ks]. apply opens_bind; [apply st_send|intros _]. apply opens_bind; [apply st_recv|intro b]. apply opens_kx.
  - subst sid. unfold finish_req in H. bg H. bi H. assert (y = x) as ->. { destruct req_slot as [q|]; [destruct (8 <=? q); [|destruct (slot_of _ _)]|]; unfold sret, serr in P; congruence. }
    bi H. apply ok_inv in P0 as [_ ->]. bi H. apply mod_inv in P0 as ->. refine (rest_lk None (Some id) (Some id) _ _ _ _ _ _ _ H _ _); [|discriminate|exact Nz|apply rtok_reset_buffer, T|apply l12_reset_buffer; discriminate].
    rl (dk_pre None (Some id)); first [apply dk_or_teardown_if, dk_handle_finish | apply dk_or_teardown];
      first [apply eqk_of, eqk_encode_finish | destruct (in_clear _)]; apply eqk_of; first [apply eqk_send|apply eqk_send_s|apply eqk_recv|apply eqk_recv_s].
  - subst sid. apply drop_ok in H as [w H]. unfold psk_exchange_req in H. bi H. apply mod_inv in P as ->. bg H. bi H. apply of_inv in P as [_ ->].
    set (y := reset_buffer _ _ _) in H. assert (Y : x_l1l2 y = None) by (apply (l12_reset_buffer RC_PSK_EXCHANGE None); discriminate). clearbody y.
    cbn [l12]. revert Y. apply (opens_x v0). revert H. match goal with |- ?m y = _ -> _ => assert (K : rel (opens v0) m) end; [|intro H; exact (K _ _ _ H)].
    apply opens_bind; [apply st_encode_psk|intro ks]. apply opens_bind; [apply st_send|intros _]. apply opens_bind; [apply st_recv|intro b]. apply opens_psk.
  - subst sid. unfold psk_finish_req in H. bg H. bi H. apply ok_inv in P as [_ ->]. bi H. apply mod_inv in P as ->. refine (rest_lk None (Some id) (Some id) _ _ _ _ _ _ _ H _ _); [|discriminate|exact Nz|apply rtok_reset_buffer, T|apply l12_reset_buffer; discriminate].
    rl (dk_pre None (Some id)); first [apply dk_or_teardown_if, dk_handle_psk_finish | apply dk_or_teardown];
      first [apply eqk_of, eqk_encode_psk_finish | apply eqk_of; first [apply eqk_send_s|apply eqk_recv_s]].
  - subst sid. unfold heartbeat_req in H. bi H. apply mod_inv in P as ->. refine (rest_lk None None (Some id) _ _ _ _ _ _ _ H _ _); [|discriminate|exact Nz|apply rtok_reset_buffer, T|apply l12_reset_buffer; discriminate].
    unfold heartbeat_answer. dd (@None (option N)) (@None N).
  - subst sid. unfold key_update_op_req in H. bi H. apply mod_inv in P as ->. refine (rest_lk None None (Some id) _ _ _ _ _ _ _ H _ _); [|discriminate|exact Nz|apply rtok_reset_buffer, T|apply l12_reset_buffer; discriminate].
    unfold handle_key_update_ack. dd (@None (option N)) (@None N).
  - subst sid. unfold end_session_req in H. bi H. apply mod_inv in P as ->. refine (rest_lk None None (Some id) _ _ _ _ _ _ _ H _ _); [|discriminate|exact Nz|apply rtok_reset_buffer, T|apply l12_reset_buffer; discriminate].
    unfold end_session_answer. dd (@None (option N)) (@None N).
  - apply drop_ok in H as [w H]. unfold vendor_req in H. bi H. apply mod_inv in P as ->. bi H. apply mod_inv in P as ->.
    set (y := reset_buffer _ _ _) in H. assert (Y : rtok y) by (apply rtok_reset_buffer, T). clearbody y.
    refine (rest_lk None None sid _ _ _ _ _ _ _ H _ _); [|discriminate|exact Nz|exact (rtok_dk None None _ _ (dk_reset_context _ _ _) Y)|].
    + unfold vendor_answer. dd (@None (option N)) (@None N).
    + destruct sid as [id|]; [|reflexivity]. cbn [l12]. unfold get_sess, reset_context. cbn [x_sess set_x_sess]. induction (x_sess _) as [|a l IH]; [reflexivity|].
      cbn [map]. unfold find_sess. cbn [find]. destruct (_ =? _); [reflexivity|]. exact IH.
Qed.

(** ** a successful measurement *)
Lemma meas_wire y x slot attr op nonce s : req_enc (get_meas_msg y attr op nonce slot) x = (Ok s, x) -> ver y = ver x ->
  s = ver x :: 0xE0 :: attr :: op :: (if N.testbit attr 0 then nonce ++ (if 0x11 <=? ver x then [slot] else []) else []).
Proof.
  intros H V. rewrite <- V at 1. apply (req_enc_exact _ (ver y :: 0xE0 :: attr :: op :: (if N.testbit attr 0 then nonce ++ (if 0x11 <=? ver x then [slot] else []) else []))) in H; [exact H| |];
    unfold get_meas_msg, enc_message, enc_header, enc_payload, enc_get_meas, enc_nonce; cbn [m_header m_payload h_version h_code gm_attr gm_op gm_nonce gm_slot]; rewrite contains_bit.
  - destruct (N.testbit attr 0); cbn [enc_opt]; rewrite !xwire_app; [|reflexivity]. rewrite xwire_arr_cnt. unfold ver_ge, xc, V11. cbn [c_nego]. fold (ver x). destruct (0x11 <=? ver x); reflexivity.
  - destruct (N.testbit attr 0); cbn [enc_opt]; rewrite !xcount_app.
    + rewrite xcount_arr_cnt. unfold ver_ge, xc, V11. cbn [c_nego]. fold (ver x). destruct (0x11 <=? ver x); cbn [enc_opt xcount x_u8 x_of map e_u8]; rewrite ?app_nil_r; unfold len; cbn [length]; rewrite ?app_length; cbn [length]; lia.
    + unfold len. cbn [length xcount x_u8 x_of map e_u8]. unfold len. cbn [length]. lia.
Qed.
Lemma meas_run E sid slot attr op x w x' : get_measurements E sid slot attr op x = (Ok w, x') ->
  exists nonce b body sig rest, length nonce = 32%nat /\
    let s := ver x :: 0xE0 :: attr :: op :: (if N.testbit attr 0 then nonce ++ (if 0x11 <=? ver x then [slot] else []) else []) in
    exchanged E sid x x' s b /\ b = body ++ sig ++ rest /\
    accepted (OMeasurements sid slot attr op) (asked (OMeasurements sid slot attr op) x) b (body ++ sig) /\
    if N.testbit attr 0 then signed E x slot (start sid x ++ s ++ body) sig /\ l12 sid x' = None
    else sig = [] /\ l12 sid x' = Some (start sid x ++ s ++ body).
Proof.
  unfold get_measurements. intro H. bi H. apply fail_inv in P as [_ ->]. bi H. apply mod_inv in P as ->. bi H. bi H. apply ok_inv in P0 as [Nn ->].
  bg H. bi H. pose proof (q_enc _ _ _ _ P0) as ->. bi H. bi H.
  pose proof (quiet_handle_measurements _ _ _ _ _ _ _ _ _ _ H) as Q. destruct (send_frames E sid _ _ _ _ P1) as [S1 S2]. destruct (recv_frames E sid _ _ _ _ P2) as [R1 R2].
  apply tk_random in P as T. apply xk_random in P as X. apply eqk_random in P as K. apply eqk_send_on in P1 as K1. apply eqk_recv_on in P2 as K2.
  assert (Ex : exchanged E sid x x' v3 v5). { refine (exchanged_by E sid true x _ _ _ _ _ _ _ x' _ P1 (q_refl _) P2 Q); eapply q_trans; [apply quiet_reset_buffer|]; exact (quiet_random _ _ _ _ _ P). }
  assert (Xy : xk x y). { eapply xk_trans; [apply xk_reset_buffer|]. exact X. }
  assert (Xk : xk x y1). { eapply xk_trans; [exact Xy|]. eapply xk_trans; eassumption. }
  assert (L : l12 sid y1 = l12 sid x). { rewrite (l12_eqk sid _ _ K2), (l12_eqk sid _ _ K1), (l12_eqk sid _ _ K). apply l12_reset_meas. }
  assert (Ma : x_msg_a y1 = x_msg_a x).
  { destruct T as (T & _ & _). destruct S1 as (S1 & _ & _). destruct R1 as (R1 & _ & _). rewrite R1, S1, T. unfold reset_buffer. cbv zeta. change (RC_GET_MEASUREMENTS =? RC_GET_MEASUREMENTS) with true. cbv iota.
    destruct (existsb _ _); [destruct (_ <? _)|destruct (_ =? _)]; reflexivity. }
  assert (Nz : x_nego y1 = x_nego x). { destruct Xk as [Xc _]. apply (f_equal c_nego) in Xc. exact Xc. }
  assert (Vy : ver y = ver x). { destruct Xy as [Xc _]. unfold ver. apply (f_equal c_nego) in Xc. unfold xc in Xc. cbn [c_nego] in Xc. congruence. }
  apply meas_wire in P0; [|reflexivity]. rewrite Vy in P0. assert (St : start sid y1 = start sid x). { unfold start, l1l2_start, ver. rewrite L, Ma, Nz. reflexivity. }
  apply handle_meas in H as (body & sig & rest & H1 & H2 & H3). destruct Xk as [Xc Xp]. rewrite (asked_xk _ _ _ Xc) in H2. rewrite St in H3.
  exists v2, v5, body, sig, rest. split. { unfold get_random in P. subst v1. destruct (cr_random _ _ _) as [q|]; [|discriminate]. destruct (Nat.eqb_spec (length q) 32); [|discriminate]. congruence. }
  cbv zeta. rewrite <- P0. split; [exact Ex|]. split; [exact H1|]. split; [exact H2|]. unfold signed in H3 |- *. rewrite Nz, Xp in H3. exact H3.
Qed.

(** ** the whole history *)
Definition traced (E : env) (x : ctx) : Prop := forall sid, sid <> Some 0 -> measured E sid (l12 sid x) x.
Lemma concerns_dec o sid : concerns o sid \/ ~ concerns o sid.
Proof.
  assert (D : forall a b : option N, a = b \/ a <> b). { intros [a|] [b|]; try (right; congruence); [|left; reflexivity]. destruct (N.eq_dec a b); [left|right]; congruence. }
  destruct o; cbn [concerns]; auto.
Qed.
Lemma meas_concerns o sid : meas_of o = Some sid -> exists slot attr op, o = OMeasurements sid slot attr op.
Proof. destruct o; cbn [meas_of]; try discriminate. intro H. eexists _, _, _. f_equal. congruence. Qed.
Lemma traced_run E o x r x' : rtok x -> traced E x -> run E o x = (r, x') -> r <> Panic -> traced E x'.
Proof.
  intros T I H NP sid Nz. specialize (I sid Nz). destruct (concerns_dec o sid) as [C|C].
  - assert (Dm : meas_of o = Some sid \/ meas_of o <> Some sid).
    { destruct (meas_of o) as [c|]; [|right; discriminate]. destruct c as [a|], sid as [b|]; try (right; congruence); [|left; reflexivity]. destruct (N.eq_dec a b); [left|right]; congruence. }
    destruct Dm as [M|M].
    + destruct (meas_concerns _ _ M) as (slot & attr & op & ->). pose proof H as R. cbn [run] in H. destruct r as [[]|e|]; [| |congruence].
      * apply drop_ok in H as [w H]. apply meas_run in H as (nonce & b & body & sig & rest & _ & Ex & _ & Ac & K). cbv zeta in Ex, K. destruct (N.testbit attr 0) eqn:B.
        -- destruct K as [_ ->]. refine (ms_drop _ _ _ _ _ _ I R eq_refl _). intros (sl & at' & ix & Q & B'). assert (at' = attr) by congruence. congruence.
        -- destruct K as [-> ->]. rewrite app_nil_r in Ac. exact (ms_add _ _ _ _ _ _ _ _ _ _ _ I R B Ex Ac).
      * refine (ms_failed _ _ _ _ _ _ _ _ I R C _). unfold drop, sbind in H. destruct (get_measurements E sid slot attr op x) as [[w|e'|] y] eqn:G; [unfold sret in H; discriminate| |discriminate].
        replace x' with y by congruence. exact (proj2 (errs_meas E sid slot attr op Nz _ _ _ G T)).
    + destruct r as [[]|e|]; [| |congruence].
      * assert (M0 : meas_of o = None). { destruct o; cbn [meas_of concerns] in *; try reflexivity. congruence. }
        rewrite (run_drop _ _ _ _ _ Nz T H C M0). refine (ms_drop _ _ _ _ _ _ I H C _). intros (sl & at' & ix & -> & _). discriminate.
      * exact (ms_failed _ _ _ _ _ _ _ _ I H C (run_lk _ _ _ _ _ _ Nz M T H)).
  - refine (ms_elsewhere _ _ _ _ _ _ _ _ I H NP C _). destruct sid as [id|].
    + destruct (run_lk E o (Some id) x r x' Nz) as [K|K]; auto.
      * intro M. apply C. destruct (meas_concerns _ _ M) as (sl & at' & ix & ->). reflexivity.
      * right. split; [discriminate|exact K].
    + left. exact (run_xl E o C _ _ _ H).
Qed.
Lemma traced_loop E sid slot fuel : forall total offset l x r x', rtok x -> traced E x -> certificate_loop E sid slot fuel total offset l x = (r, x') -> r <> Panic -> rtok x' /\ traced E x'.
Proof.
  induction fuel as [|f IH]; intros total offset l x r x' T F H NP; cbn [certificate_loop] in H; destruct (l =? 0).
  - apply ret_inv in H as [_ ->]. auto.
  - apply ret_inv in H as [_ ->]. auto.
  - apply ret_inv in H as [_ ->]. auto.
  - unfold sbind in H at 1. destruct (get_certificate_partial E sid slot total offset l x) as [[p|e|] y] eqn:G; [| |congruence].
    + assert (R : run E (OCertPart sid slot total offset l) x = (Ok tt, y)) by (cbn [run]; exact (drop_run _ _ _ _ G)).
      destruct p as [p q]. refine (IH _ _ _ _ _ _ _ _ H NP); [exact (rtok_run _ _ _ _ _ T R)|exact (traced_run _ _ _ _ _ T F R ltac:(discriminate))].
    + assert (R : run E (OCertPart sid slot total offset l) x = (Err e, y)) by (cbn [run]; unfold drop, sbind; rewrite G; reflexivity).
      replace x' with y by congruence. split; [exact (rtok_run _ _ _ _ _ T R)|exact (traced_run _ _ _ _ _ T F R ltac:(discriminate))].
Qed.
Lemma traced_begin E sid x : traced E x -> traced E (set_x_peer_temp (Some []) (reset_m sid x)).
Proof.
  intros F c Nz. specialize (F c Nz). apply (ms_cert_begin _ _ _ _ sid) in F.
  replace (l12 c (set_x_peer_temp (Some []) (reset_m sid x))) with (if match c, sid with Some a, Some b => a =? b | None, None => true | _, _ => false end then None else l12 c x); [exact F|].
  rewrite (l12_field c (reset_m sid x) (set_x_peer_temp (Some []) (reset_m sid x))) by reflexivity. destruct c as [a|], sid as [b|]; [|reflexivity|reflexivity|reflexivity].
  clear F Nz. destruct (N.eqb_spec a b) as [Q|D]; [subst a; symmetry; apply l12_reset|]. cbn [l12 reset_m]. unfold get_sess, mod_sess. cbn [x_sess set_x_sess]. induction (x_sess x) as [|s l IH]; [reflexivity|].
  cbn [upd_sess]. destruct (N.eqb_spec (s_id s) b) as [Z|Z]; unfold find_sess; cbn [find s_id set_s_l1l2].
  - destruct (N.eqb_spec (s_id s) a); [congruence|]. reflexivity.
  - destruct (s_id s =? a); [reflexivity|exact IH].
Qed.
Lemma traced_end E x ch : traced E x -> traced E (set_x_peer_temp None (set_x_peer_chain ch x)).
Proof. intros F sid Nz. specialize (F sid Nz). apply (ms_cert_end _ _ _ _ ch) in F. rewrite (l12_field sid x (set_x_peer_temp None (set_x_peer_chain ch x))) by reflexivity. exact F. Qed.
Lemma traced_end' E x : traced E x -> traced E (set_x_peer_temp None x).
Proof. intro F. apply (traced_end E x (x_peer_chain x)) in F. rewrite set_chain_same in F. exact F. Qed.
Lemma traced_cert E fuel sid slot x r x' : rtok x -> traced E x -> get_certificate E fuel sid slot x = (r, x') -> r <> Panic -> traced E x'.
Proof.
  intros T F H NP. unfold get_certificate in H. rewrite bind_fail in H. destruct (8 <=? slot); [replace x' with x by congruence; exact F|].
  unfold sbind at 1 2 in H. unfold smod at 1 2 in H.
  set (x1 := set_x_peer_temp (Some []) (reset_buffer RC_GET_CERTIFICATE sid x)) in H.
  assert (F1 : traced E x1) by (replace x1 with (set_x_peer_temp (Some []) (reset_m sid x)) by reflexivity; apply traced_begin, F).
  assert (T1 : rtok x1). { replace x1 with (set_x_peer_temp (Some []) (reset_m sid x)) by reflexivity. apply (rtok_dk None None _ _ (dk_reset_m None None sid x)) in T. exact T. }
  clearbody x1. clear F T. unfold sbind at 1 in H. destruct (certificate_loop E sid slot fuel 0 0 512 x1) as [[t|e|] y] eqn:L; [| |congruence].
  - assert (Fy : traced E y) by (apply (traced_loop _ _ _ _ _ _ _ _ _ _ T1 F1 L); discriminate). destruct t as [total|]; [|apply ret_inv in H as [_ ->]; exact Fy].
    destruct (total =? 0).
    + unfold sbind, smod, serr in H. replace x' with (set_x_peer_temp None y) by congruence. apply traced_end', Fy.
    + rewrite bind_get in H. unfold sbind at 1 in H. unfold sok in H. destruct (x_peer_temp y) as [chain|]; unfold sret at 1, serr at 1 in H; [|replace x' with y by congruence; exact Fy].
      destruct (verify_chain _ _ _ _) as [v|e|].
      * unfold sbind, smod, sret in H. match type of H with (_, ?z) = _ => replace x' with z by congruence end. apply traced_end, Fy.
      * unfold sbind, smod, serr in H. replace x' with (set_x_peer_temp None y) by congruence. apply traced_end', Fy.
      * unfold spanic in H. congruence.
  - replace x' with y by congruence. apply (traced_loop _ _ _ _ _ _ _ _ _ _ T1 F1 L). discriminate.
Qed.
Theorem reached_traced E x : reached E x -> traced E x.
Proof.
  induction 1 as [cfg cd mc root|x o r x' R0 IH R NP|x fuel sid slot r x' R0 IH R NP].
  - intros sid Nz. replace (l12 sid (ctx_new cfg cd mc root)) with (@None bytes); [apply ms_start|]. destruct sid as [id|]; [|reflexivity].
    cbn [l12]. assert (id <> 0) by congruence. unfold get_sess, find_sess, ctx_new. cbn. destruct id; [contradiction|reflexivity].
  - exact (traced_run _ _ _ _ _ (reached_rtok _ _ R0) IH R NP).
  - exact (traced_cert _ _ _ _ _ _ _ (reached_rtok _ _ R0) IH R NP).
Qed.
