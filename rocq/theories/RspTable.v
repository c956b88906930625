(** The responder's session table. *)
From Verif Require Import Bytes BytesFacts Status Codec Parse ParseProofs Algo Monad.
From Verif Require Import MsgConn MsgAuth MsgSession MsgOther Message Opaque Transport Crypto KeySchedule Session CertOps ChainVerify Context
  RspBase RspConn RspSess RspEncap Responder StRel RspFrame RspCalm RspOpcode RspSend SpecResponder RspPhase RspPass RspSlots.
From Coq Require Import Lia.
Local Open Scope N_scope.

(** ** two-byte ids *)
Lemma dbind_inv {A B} (d : dec A) (k : A -> dec B) l b r :
  dbind d k l = POk b r -> exists a m, d l = POk a m /\ k a m = POk b r.
Proof. unfold dbind. destruct (d l) as [a m| |]; try discriminate. intro H. exists a, m. auto. Qed.
Lemma dguard_inv {A} c (k : dec A) l b r : dguard c k l = POk b r -> k l = POk b r.
Proof. unfold dguard. destruct c; [auto|discriminate]. Qed.
Lemma u8_inv l a m : d_u8 l = POk a m -> l = a :: m.
Proof. unfold d_u8, dlift, p_u8. destruct l; [discriminate|]. intro H. congruence. Qed.
Lemma u16_bound l a m : bytes_ok l -> d_u16 l = POk a m -> a < 65536 /\ bytes_ok m.
Proof.
  intros Hl H. unfold d_u16, dlift, p_u16, p_le, ptake in H. destruct l as [|b0 [|b1 l]]; try discriminate. change ((length (b0 :: b1 :: l) <? 2)%nat) with false in H. cbv iota in H.
  cbn [firstn skipn] in H. assert (a = le_val [b0; b1]) as -> by congruence. assert (m = l) as -> by congruence.
  apply (bytes_ok_app [b0; b1] l) in Hl as [A B]. split; [|exact B]. exact (le_val_lt _ A).
Qed.
Ltac dinv H := apply dbind_inv in H as (? & ? & ? & H); cbv beta in H.
Lemma key_ex_session c l p r : bytes_ok l -> dec_key_ex c l = POk p r -> kx_session p < 65536.
Proof.
  intros Hl H. unfold dec_key_ex in H. dinv H. apply u8_inv in H0. subst l. apply dguard_inv in H.
  dinv H. apply u8_inv in H0. subst x0. dinv H. inversion Hl as [|? ? _ Hl1]; subst. inversion Hl1 as [|? ? _ Hl2]; subst.
  destruct (u16_bound _ _ _ Hl2 H0) as [Hb _]. do 5 dinv H. unfold dret in H.
  match type of H with POk ?q _ = _ => replace p with q by congruence end. exact Hb.
Qed.
Lemma psk_ex_session c l p r : bytes_ok l -> dec_psk_ex c l = POk p r -> px_session p < 65536.
Proof.
  intros Hl H. unfold dec_psk_ex in H. dinv H. apply u8_inv in H0. subst l. apply dguard_inv in H.
  dinv H. apply u8_inv in H0. subst x0. dinv H. inversion Hl as [|? ? _ Hl1]; subst. inversion Hl1 as [|? ? _ Hl2]; subst.
  destruct (u16_bound _ _ _ Hl2 H0) as [Hb _]. do 3 (dinv H; apply dguard_inv in H). do 3 dinv H. unfold dret in H.
  match type of H with POk ?q _ = _ => replace p with q by congruence end. exact Hb.
Qed.
Lemma header_rest b h t : read_header b = Some (h, t) -> b = h_version h :: h_code h :: t.
Proof.
  unfold read_header, dec_header, dbind, d_u8, dlift, p_u8, dret. destruct b as [|v [|c b]]; try discriminate. intro H.
  assert (h = mkHeader v c) as -> by congruence. assert (t = b) as -> by congruence. reflexivity.
Qed.

(** ** the invariant *)
Definition slot_fine (i : N) (s : session) : Prop :=
  (s_id s = 0 /\ s_state s = SNotStarted) \/ s_id s / 65536 = 0xFFFD - i.
Fixpoint fine_from (i : N) (l : list session) : Prop :=
  match l with [] => True | s :: l' => slot_fine i s /\ fine_from (i + 1) l' end.
Definition tok (x : ctx) : Prop := length (x_sess x) = 4%nat /\ fine_from 0 (x_sess x) /\ x_last x <> Some 0.

Lemma fine_app i a b : fine_from i (a ++ b) <-> fine_from i a /\ fine_from (i + len a) b.
Proof.
  revert i. induction a as [|s a IH]; intro i; cbn [fine_from app].
  - unfold len. cbn. rewrite N.add_0_r. tauto.
  - rewrite IH. unfold len. cbn [length]. replace (i + 1 + N.of_nat (length a)) with (i + N.of_nat (S (length a))) by lia. tauto.
Qed.
Lemma fine_id i s : slot_fine i s -> i < 4 -> s_id s <> 0 -> s_id s / 65536 = 0xFFFD - i.
Proof. intros [[A _]|A]; [contradiction|auto]. Qed.
Lemma fine_high i l s : fine_from i l -> i + len l <= 4 -> In s l -> s_id s <> 0 -> exists j, i <= j < i + len l /\ s_id s / 65536 = 0xFFFD - j.
Proof.
  revert i. induction l as [|a l IH]; intros i F L Hin Hs; [contradiction|]. unfold len in *. cbn [length fine_from] in *.
  destruct F as [F0 F]. destruct Hin as [->|Hin].
  - exists i. split; [lia|]. apply fine_id; auto. lia.
  - destruct (IH (i + 1) F ltac:(lia) Hin Hs) as (j & J & K). exists j. split; [lia|exact K].
Qed.
Lemma half_high s i : i < 4 -> s_id s / 65536 = 0xFFFD - i -> half false (s_id s) = 0xFFFD - i.
Proof. intros Hi H. unfold half. rewrite H. apply N.mod_small. lia. Qed.
(** the half id chosen belongs to the first unused slot *)
Lemma next_half_split l : forall i rsp, fine_from i l -> i + len l <= 4 -> next_half false i l = Some rsp ->
  exists l1 s l2, l = l1 ++ s :: l2 /\ s_id s = 0 /\ s_state s = SNotStarted /\ rsp = 0xFFFD - (i + len l1) /\ (forall t, In t l1 -> s_id t <> 0).
Proof.
  induction l as [|a l IH]; intros i rsp F L H; [discriminate|]. cbn [next_half fine_from] in *. unfold len in *. cbn [length] in *.
  destruct F as [F0 F]. destruct (N.eqb_spec (half false (s_id a)) 0) as [Z|Z].
  - exists [], a, l. destruct F0 as [[A B]|A].
    + split; [reflexivity|]. split; [exact A|]. split; [exact B|]. split; [unfold INITIAL_SESSION_ID in H; injection H as <-; cbn; lia|intros ? []].
    + exfalso. rewrite (half_high a i) in Z by (try lia; exact A). lia.
  - destruct (IH (i + 1) rsp F ltac:(lia) H) as (l1 & s & l2 & -> & A & B & C & D).
    exists (a :: l1), s, l2. split; [reflexivity|]. split; [exact A|]. split; [exact B|].
    split; [cbn [length]; lia|]. intros t [<-|Ht]; [|auto]. intro K. apply Z. rewrite K. reflexivity.
Qed.
Lemma session_id_high rsp req : req < 65536 -> session_id rsp req / 65536 = rsp.
Proof. intro H. unfold session_id. rewrite N.div_add_l by lia. rewrite (N.div_small req) by exact H. lia. Qed.

Lemma find_app id a b : (forall t, In t a -> s_id t <> id) -> find_sess id (a ++ b) = find_sess id b.
Proof.
  unfold find_sess. induction a as [|t a IH]; intro H; [reflexivity|]. cbn. rewrite (proj2 (N.eqb_neq _ _)) by (apply H; now left).
  apply IH. intros u Hu. apply H. now right.
Qed.
Lemma upd_app id f a b : (forall t, In t a -> s_id t <> id) -> upd_sess id f (a ++ b) = a ++ upd_sess id f b.
Proof.
  induction a as [|t a IH]; intro H; [reflexivity|]. cbn. rewrite (proj2 (N.eqb_neq _ _)) by (apply H; now left).
  f_equal. apply IH. intros u Hu. apply H. now right.
Qed.
Lemma upd_none id f b : (forall t, In t b -> s_id t <> id) -> upd_sess id f b = b.
Proof. intro H. rewrite <- (app_nil_r b) at 1. rewrite upd_app by exact H. cbn. apply app_nil_r. Qed.

(** ** a session being opened: everything else in the table stays *)
Section opening.
  Context (l1 l2 : list session) (id : N) (last0 : option N) (Q : sstate -> Prop).
  Context (U1 : forall t, In t l1 -> s_id t <> id) (U2 : forall t, In t l2 -> s_id t <> id) (I0 : id <> 0).
  Definition held (s : session) : Prop :=
    (s_id s = id /\ Q (s_state s)) \/ (s_id s = 0 /\ s_state s = SNotStarted).
  Definition opening (x : ctx) : Prop :=
    (x_last x = last0 \/ x_last x = Some id) /\ exists s, x_sess x = l1 ++ s :: l2 /\ held s.
  (** session methods that keep the session or tear it down *)
  Definition holds {A} (m : st session A) : Prop :=
    forall s r s', s_id s = id -> Q (s_state s) -> m s = (r, s') -> held s'.
  Lemma holds_skeep {A} (m : st session A) : skeep m -> holds m.
  Proof using. intros H s r s' A1 A2 E. apply H in E. unfold skey in E. left. split; congruence. Qed.
  Lemma holds_teardown : holds (session_teardown id).
  Proof using.
    intros s r s' A1 A2 E. unfold session_teardown in E. rewrite A1, N.eqb_refl in E.
    replace s' with (session_set_default s) by congruence. right. split; reflexivity.
  Qed.
  Lemma opening_on_sess {A} (m : st session A) : holds m -> rel (steady opening) (on_sess id m).
  Proof using U1 U2 I0.
    intros H x r x' E [L (s & S & Hs)]. unfold on_sess, get_sess in E. rewrite S in E. rewrite find_app in E by exact U1.
    unfold find_sess in E. cbn [find] in E. destruct (N.eqb_spec (s_id s) id) as [Z|Z].
    - destruct (m s) as [o s1] eqn:M.
      assert (Hs1 : held s1).
      { destruct Hs as [[_ Hq]|[Z0 Hq]]; [exact (H s o s1 Z Hq M)|congruence]. }
      replace x' with (mod_sess id (fun _ => s1) x) by congruence.
      split; [exact L|]. exists s1. split; [|exact Hs1].
      unfold mod_sess. cbn [x_sess set_x_sess]. rewrite S, upd_app by exact U1. cbn [upd_sess]. rewrite Z, N.eqb_refl. reflexivity.
    - assert (F : find (fun t => s_id t =? id) l2 = None).
      { clear -U2. induction l2 as [|t l IH]; [reflexivity|]. cbn. rewrite (proj2 (N.eqb_neq _ _)) by (apply U2; now left). apply IH. intros u Hu. apply U2. now right. }
      rewrite F in E. replace x' with x by congruence. split; [exact L|]. exists s. auto.
  Qed.
  Lemma opening_field x x' : x_sess x' = x_sess x -> x_last x' = x_last x -> steady opening x x'.
  Proof using. intros A B [L S]. split; [rewrite B; exact L|rewrite A; exact S]. Qed.
  Lemma opening_mod f : (forall s, skey (f s) = skey s) -> rel (steady opening) (smod (mod_sess id f)).
  Proof using U1 U2 I0.
    intros H x r x' E. unfold smod in E. replace x' with (mod_sess id f x) by congruence. intros [L (s & S & Hs)].
    split; [exact L|]. unfold mod_sess. cbn [x_sess set_x_sess]. rewrite S, upd_app by exact U1. cbn [upd_sess].
    destruct (N.eqb_spec (s_id s) id) as [Z|Z].
    - exists (f s). split; [reflexivity|]. specialize (H s). unfold skey in H. destruct Hs as [[A B]|[A B]]; [left|right]; split; congruence.
    - exists s. rewrite upd_none by exact U2. auto.
  Qed.
  Lemma opening_append_k cr m : rel (steady opening) (append_k cr id m).
  Proof using U1 U2 I0.
    apply opening_on_sess, holds_skeep. intros s r s' E.
    destruct (s_th s); [|destruct (hash_ok _ _)]; match type of E with (_, ?y) = _ => replace s' with y by congruence end; reflexivity.
  Qed.
  Lemma opening_random cr n : rel (steady opening) (get_random cr n).
  Proof using.
    intros x r x' E. unfold get_random in E. match type of E with (_, ?y) = _ => replace x' with y by congruence end.
    now apply opening_field.
  Qed.
  Lemma opening_last : rel (steady opening) (smod (set_x_last (Some id))).
  Proof using. intros x r x' E. unfold smod in E. replace x' with (set_x_last (Some id) x) by congruence. intros [_ S]. split; [now right|exact S]. Qed.
  Lemma opening_state v f : Q v -> (forall s, skey (f s) = (s_id s, v)) -> rel (steady opening) (on_sess id (smod f)).
  Proof using U1 U2 I0.
    intros Hv Hf. apply opening_on_sess. intros s r s' A B E. unfold smod in E. replace s' with (f s) by congruence.
    specialize (Hf s). unfold skey in Hf. left. split; congruence.
  Qed.
  Lemma opening_abandon {A} (m : st ctx A) : rel (steady opening) m -> rel (steady opening) (or_abandon id m).
  Proof using U1 U2 I0.
    intro H. unfold or_abandon, abandon. apply rel_catch; [apply steady_pre|exact H|]. intros [a| |].
    - apply rel_ret, steady_pre.
    - apply rel_bind; [apply steady_pre|apply opening_on_sess, holds_teardown|intro; apply rel_err, steady_pre].
    - apply rel_panic, steady_pre.
  Qed.
  Lemma opening_rsp_hmac E : rel (steady opening) (rsp_hmac E id).
  Proof using U1 U2 I0. unfold rsp_hmac. rl (steady_pre opening). apply opening_abandon. rl (steady_pre opening). Qed.
  Ltac op :=
    repeat (progress (rl (steady_pre opening);
      try first [ apply opening_append_k | apply opening_random | apply opening_rsp_hmac | apply opening_last
                | apply opening_abandon
                | apply opening_on_sess, holds_skeep; first [apply skeep_hs|apply skeep_data|apply skeep_dhe]
                | apply opening_mod; intro; reflexivity ])).
  Lemma opening_kx_finishing E req o sg hash w : Q SHandshaking -> rel (steady opening) (key_exchange_finishing E id req o sg hash w).
  Proof using U1 U2 I0.
    intro HQ. unfold key_exchange_finishing. op.
    apply (opening_state SHandshaking); [exact HQ|]. intro s. unfold take_secver. destruct (v_size o =? 0); reflexivity.
  Qed.
  Lemma opening_psk_finishing E without req o hash w : Q SHandshaking -> (without = true -> Q SEstablished) ->
    rel (steady opening) (psk_exchange_finishing E without id req o hash w).
  Proof using U1 U2 I0.
    intros HQ HE. unfold psk_exchange_finishing, swhen.
    assert (K : rel (steady opening) (on_sess id (smod (set_s_state SHandshaking))))
      by (apply (opening_state SHandshaking); [exact HQ|reflexivity]).
    assert (K2 : forall h, rel (steady opening) (on_sess id (smod (fun s => take_secver o (set_s_heartbeat h s))))).
    { intro h. apply opening_on_sess, holds_skeep. intros s r s' E1. unfold smod in E1.
      match type of E1 with (_, ?y) = _ => replace s' with y by congruence end. unfold take_secver. destruct (v_size o =? 0); reflexivity. }
    destruct without; cbv iota; op; try apply K2; try exact K.
    apply (opening_state SEstablished); [auto|reflexivity].
  Qed.
End opening.

(** ** what an exchange does to the table *)
Definition tabeq (x x' : ctx) : Prop := x_sess x' = x_sess x /\ x_last x' = x_last x /\ psk_no_ctx (xc x') = psk_no_ctx (xc x).
(** the table is untouched, or one unused slot now holds (or gave back) the new session *)
Definition opened (Q : sstate -> Prop) (x x' : ctx) : Prop :=
  tabeq x x' \/
  exists l1 s0 l2 id, x_sess x = l1 ++ s0 :: l2 /\ s_id s0 = 0 /\ id / 65536 = 0xFFFD - len l1 /\
    opening l1 l2 id (x_last x) Q x'.
Lemma tabeq_pre : preorder tabeq.
Proof. split; unfold tabeq; intuition congruence. Qed.
Definition leads (Q : sstate -> Prop) (x0 : ctx) {A} (m : st ctx A) : Prop :=
  forall y r y', tabeq x0 y -> m y = (r, y') -> opened Q x0 y'.
Section leads.
  Context (Q : sstate -> Prop) (x0 : ctx).
  Lemma leads_tab {A} (m : st ctx A) : rel tabeq m -> leads Q x0 m.
  Proof using. intros H y r y' T E. left. exact (proj2 tabeq_pre _ _ _ T (H _ _ _ E)). Qed.
  Lemma leads_bind {A B} (m : st ctx A) (k : A -> st ctx B) : rel tabeq m -> (forall a, leads Q x0 (k a)) -> leads Q x0 (sbind m k).
  Proof using.
    intros Hm Hk y r y' T E. unfold sbind in E. destruct (m y) as [[a| |] y1] eqn:M; pose proof (proj2 tabeq_pre _ _ _ T (Hm _ _ _ M)) as T1.
    - exact (Hk a y1 r y' T1 E).
    - replace y' with y1 by congruence. now left.
    - replace y' with y1 by congruence. now left.
  Qed.
  Lemma leads_get {B} (k : ctx -> st ctx B) : (forall y, tabeq x0 y -> leads Q x0 (k y)) -> leads Q x0 (sbind sget k).
  Proof using. intros H y r y' T E. exact (H y T y r y' T E). Qed.
  Lemma leads_oror {A B} (o : outcome A) e (k : A -> st ctx B) : (forall a, o = Ok a -> leads Q x0 (k a)) -> leads Q x0 (sbind (oror e (sof o)) k).
  Proof using.
    intros H y r y' T E. unfold sbind, oror, scatch, sof in E. destruct o as [a| |].
    - exact (H a eq_refl y r y' T E).
    - left. unfold serr in E. replace y' with y by congruence. exact T.
    - left. replace y' with y by congruence. exact T.
  Qed.
  Lemma leads_rd {A B} (d : cctx -> dec A) l (k : option (A * bytes) -> st ctx B) :
    (forall c, (forall a r, d c l = POk a r -> leads Q x0 (k (Some (a, r))))) -> leads Q x0 (k None) -> leads Q x0 (sbind (rd d l) k).
  Proof using.
    intros H1 H2 y r y' T E. unfold sbind, rd in E. destruct (d (xc y) l) as [a t| |] eqn:D.
    - exact (H1 _ a t D y r y' T E).
    - exact (H2 y r y' T E).
    - left. replace y' with y by congruence. exact T.
  Qed.
End leads.
Lemma tab_random cr n : rel tabeq (get_random cr n).
Proof. intros x r x' E. unfold get_random in E. match type of E with (_, ?y) = _ => replace x' with y by congruence end. repeat split. Qed.
Lemma tab_summary E t : rel tabeq (summary E t).
Proof. unfold summary. rl tabeq_pre; apply rel_mod; intro; repeat split; auto. Qed.
Lemma tab_reset c x : tabeq x (reset_buffer c None x).
Proof.
  unfold reset_buffer. repeat match goal with |- context [if ?c then _ else _] => destruct c end; repeat split.
Qed.

Definition fresh_state (Q : sstate -> Prop) : Prop := Q SNotStarted.
(** opening the slot chosen by the half session id *)
Lemma open_split x rsp req : tok x -> get_next_half_session_id false x = Ok rsp -> req < 65536 ->
  exists l1 s0 l2, x_sess x = l1 ++ s0 :: l2 /\ s_id s0 = 0 /\ s_state s0 = SNotStarted /\ (forall t, In t l1 -> s_id t <> 0) /\
    session_id rsp req / 65536 = 0xFFFD - len l1 /\ session_id rsp req <> 0 /\
    (forall t, In t l1 -> s_id t <> session_id rsp req) /\ (forall t, In t l2 -> s_id t <> session_id rsp req).
Proof.
  intros (L & F & _) H Hr. unfold get_next_half_session_id in H.
  rewrite firstn_all2 in H by (rewrite L; reflexivity).
  destruct (next_half false 0 (x_sess x)) as [h|] eqn:N; [|discriminate]. assert (h = rsp) as -> by congruence.
  destruct (next_half_split _ 0 rsp F ltac:(unfold len; lia) N) as (l1 & s0 & l2 & S & A & B & C & D).
  assert (Len : (length l1 + (1 + length l2) = 4)%nat) by (rewrite S, app_length in L; exact L).
  pose proof (session_id_high rsp req Hr) as HH. rewrite C in HH. rewrite N.add_0_l in HH.
  assert (L1 : len l1 < 4) by (unfold len; lia).
  exists l1, s0, l2. rewrite <- C in HH at 1. split; [exact S|]. split; [exact A|]. split; [exact B|]. split; [exact D|].
  split; [exact HH|]. split; [intro Z; rewrite Z in HH; rewrite N.div_0_l in HH by lia; lia|].
  rewrite S in F. apply fine_app in F as [F1 F2]. cbn [fine_from] in F2. destruct F2 as [_ F2].
  split; intros t Ht Z.
  - destruct (fine_high 0 l1 t F1 ltac:(unfold len; lia) Ht (D t Ht)) as (j & J & K). rewrite Z, HH in K. unfold len in *. lia.
  - assert (s_id t <> 0) by (intro Z0; rewrite Z0 in Z; rewrite <- Z in HH; rewrite N.div_0_l in HH by lia; lia).
    destruct (fine_high _ l2 t F2 ltac:(unfold len in *; lia) Ht H0) as (j & J & K). rewrite Z, HH in K. unfold len in *. lia.
Qed.
Lemma setup_opening x l1 s0 l2 id last0 (Q : sstate -> Prop) r x' : x_sess x = l1 ++ s0 :: l2 -> s_id s0 = 0 -> (forall t, In t l1 -> s_id t <> 0) ->
  x_last x = last0 -> Q SNotStarted -> on_sess 0 (session_setup id) x = (r, x') -> opening l1 l2 id last0 Q x'.
Proof.
  intros S A D L HQ E. unfold on_sess, get_sess in E. rewrite S, find_app in E by exact D. unfold find_sess in E. cbn [find] in E.
  rewrite A in E. cbn [N.eqb] in E. unfold session_setup in E. rewrite A in E. cbn [N.eqb] in E.
  match type of E with (_, ?y) = _ => replace x' with y by congruence end. split; [left; exact L|].
  unfold mod_sess. cbn [x_sess set_x_sess]. rewrite S, upd_app by exact D. cbn [upd_sess]. rewrite A. cbn [N.eqb].
  eexists. split; [reflexivity|]. left. split; [reflexivity|exact HQ].
Qed.
Ltac tb := rl tabeq_pre; try first [apply tab_random|apply tab_summary|apply rel_mod; intro; apply tab_reset|apply rel_mod; intro; repeat split].
Lemma tok_tab x y : tabeq x y -> tok x -> tok y.
Proof. intros (A & B & _) (C & D & F). unfold tok. rewrite A, B. auto. Qed.
Lemma leads_then_opening {A} Q x0 y0 l1 s0 l2 id (m : st ctx A) : tabeq x0 y0 -> x_sess y0 = l1 ++ s0 :: l2 -> s_id s0 = 0 ->
  id / 65536 = 0xFFFD - len l1 ->
  (forall y r y', tabeq x0 y -> m y = (r, y') -> tabeq x0 y' \/ opening l1 l2 id (x_last x0) Q y') -> leads Q x0 m.
Proof.
  intros (T1 & T2 & _) S0 A0 H K y r y' T E. destruct (K y r y' T E) as [K1|K1]; [now left|]. right. exists l1, s0, l2, id. rewrite <- T1. auto.
Qed.
Lemma bind_cases {A B} (m : st ctx A) (k : A -> st ctx B) y r y' : sbind m k y = (r, y') ->
  (exists a y1, m y = (Ok a, y1) /\ k a y1 = (r, y')) \/ (exists r0, m y = (r0, y') /\ forall a, r0 <> Ok a).
Proof.
  unfold sbind. destruct (m y) as [[a|e|] y1]; intro H.
  - left. exists a, y1. auto.
  - right. exists (Err e). split; [f_equal; congruence|discriminate].
  - right. exists Panic. split; [f_equal; congruence|discriminate].
Qed.

Definition kx_states (v : sstate) : Prop := v = SNotStarted \/ v = SHandshaking.
Lemma opens_key_exchange E b x r x' : bytes_ok b -> tok x -> write_key_exchange E b x = (r, x') -> opened kx_states x x'.
Proof.
  intros Hb Ht. enough (K : leads kx_states x (write_key_exchange E b)) by (intro H; exact (K x r x' (proj1 tabeq_pre x) H)).
  unfold write_key_exchange, exchange_start. apply leads_get. intros y0 T0.
  destruct (negotiated y0); [|apply leads_tab; tb]. unfold with_version_r. apply leads_get. intros y1 T1.
  destruct (read_header b) as [[h t]|] eqn:Rh; [|apply leads_tab; tb]. destruct (negb _); [apply leads_tab; tb|].
  destruct (0x11 <=? ver y0); [|apply leads_tab; tb]. apply leads_bind; [tb|]. intros _.
  apply leads_rd; [|apply leads_tab; tb]. intros c p rest Hd.
  assert (Hq : kx_session p < 65536).
  { apply header_rest in Rh. subst b. inversion Hb as [|? ? _ Hb1]; subst. inversion Hb1 as [|? ? _ Hb2]; subst. exact (key_ex_session c t p rest Hb2 Hd). }
  apply leads_bind; [tb|intro s]. apply leads_bind; [tb|intro sum]. apply leads_bind; [tb|intros _]. apply leads_get. intros y2 T2.
  apply leads_bind; [tb|intro o]. destruct (slot_ok y2 _); [|apply leads_tab; tb]. apply leads_bind; [tb|intros _]. apply leads_bind; [tb|intros _].
  apply leads_bind; [tb|intro ex]. apply leads_bind; [tb|intro final].
  apply leads_oror. intros rsp Hn. apply leads_bind; [tb|intro chash].
  destruct (open_split y2 rsp (kx_session p) (tok_tab _ _ T2 Ht) Hn Hq) as (l1 & s0 & l2 & S & A & B & D & Hh & I0 & U1 & U2).
  set (id := session_id rsp (kx_session p)) in *.
  apply (leads_then_opening _ _ y2 l1 s0 l2 id); try assumption. intros y r0 y' T E0.
  assert (Sy : x_sess y = l1 ++ s0 :: l2) by (destruct T as (? & ?), T2 as (? & ?); congruence).
  assert (HQ : kx_states SNotStarted) by now left. assert (HH : kx_states SHandshaking) by now right.
  assert (Rest : forall z, rel (steady (opening l1 l2 id (x_last x) kx_states))
    (smod (mod_sess id (fun s => set_s_mut_auth (rsp_mut_auth E) (session_params E (x_nego z) (set_s_slot (kx_slot p) (set_s_use_psk false s))))) ;;;
     or_abandon id (on_sess id (set_dhe_secret (e_cr E) (ver z) final)) ;;;
     smod (mod_sess id (fun s => set_s_req_hash None (set_s_rsp_hash (Some chash) (set_s_msg_a (x_msg_a z) s)))))%st).
  { intro z. apply rel_bind; [apply steady_pre|apply opening_mod; auto; intro; reflexivity|intros _].
    apply rel_bind; [apply steady_pre| |intros _; apply opening_mod; auto; intro; reflexivity].
    apply opening_abandon; auto. apply opening_on_sess; auto. apply holds_skeep, skeep_dhe. }
  assert (O : forall r1 y1, open_session E p final chash rsp y = (r1, y1) -> opening l1 l2 id (x_last x) kx_states y1).
  { intros r1 z E1. unfold open_session in E1. unfold sbind at 1, sget at 1 in E1. unfold get_sess in E1.
    rewrite Sy, find_app in E1 by exact D. unfold find_sess in E1. cbn [find] in E1. rewrite A in E1. cbn [N.eqb] in E1. cbv zeta in E1. fold id in E1.
    destruct (bind_cases _ _ _ _ _ E1) as [(u & z1 & E2 & E3)|(r2 & E2 & _)].
    - refine (Rest y z1 r1 z E3 _). eapply setup_opening; try eassumption. apply T.
    - eapply setup_opening; try eassumption. apply T. }
  right. destruct (bind_cases _ _ _ _ _ E0) as [(u & z1 & E2 & E3)|(r2 & E2 & _)]; [|exact (O _ _ E2)].
  cbv beta in E3. match type of E3 with ?m z1 = _ => assert (RR : rel (steady (opening l1 l2 id (x_last x) kx_states)) m) end.
  2:{ exact (RR z1 r0 y' E3 (O _ _ E2)). }
  rl (steady_pre (opening l1 l2 id (x_last x) kx_states)).
  - apply opening_random.
  - apply opening_kx_finishing; auto.
Qed.
Definition px_states (x : ctx) (v : sstate) : Prop :=
  v = SNotStarted \/ v = SHandshaking \/ (psk_no_ctx (xc x) = true /\ v = SEstablished).
Lemma tab_xc x y : tabeq x y -> psk_no_ctx (xc y) = psk_no_ctx (xc x).
Proof. intros (_ & _ & H). exact H. Qed.
Lemma opens_psk_exchange E b x r x' : bytes_ok b -> tok x -> write_psk_exchange E b x = (r, x') -> opened (px_states x) x x'.
Proof.
  intros Hb Ht. enough (K : leads (px_states x) x (write_psk_exchange E b)) by (intro H; exact (K x r x' (proj1 tabeq_pre x) H)).
  unfold write_psk_exchange, exchange_start. apply leads_get. intros y0 T0.
  destruct (negotiated y0); [|apply leads_tab; tb]. unfold with_version_r. apply leads_get. intros y1 T1.
  destruct (read_header b) as [[h t]|] eqn:Rh; [|apply leads_tab; tb]. destruct (negb _); [apply leads_tab; tb|].
  destruct (0x11 <=? ver y0); [|apply leads_tab; tb]. apply leads_bind; [tb|]. intros _.
  apply leads_rd; [|apply leads_tab; tb]. intros c p rest Hd.
  assert (Hq : px_session p < 65536).
  { apply header_rest in Rh. subst b. inversion Hb as [|? ? _ Hb1]; subst. inversion Hb1 as [|? ? _ Hb2]; subst. exact (psk_ex_session c t p rest Hb2 Hd). }
  apply leads_bind; [tb|intro s]. apply leads_bind; [tb|intro sum]. apply leads_get. intros y2 T2.
  apply leads_bind; [tb|intro o]. cbv zeta.
  apply leads_bind; [unfold psk_context; destruct (psk_no_ctx (xc y2)); tb|intro con].
  apply leads_oror. intros rsp Hn.
  destruct (open_split y2 rsp (px_session p) (tok_tab _ _ T2 Ht) Hn Hq) as (l1 & s0 & l2 & S & A & B & D & Hh & I0 & U1 & U2).
  set (id := session_id rsp (px_session p)) in *.
  apply (leads_then_opening _ _ y2 l1 s0 l2 id); try assumption. intros y r0 y' T E0.
  assert (Sy : x_sess y = l1 ++ s0 :: l2) by (destruct T as (? & ?), T2 as (? & ?); congruence).
  assert (HQ : px_states x SNotStarted) by now left. assert (HH : px_states x SHandshaking) by (right; now left).
  assert (O : forall r1 y1, open_psk_session E p rsp y = (r1, y1) -> opening l1 l2 id (x_last x) (px_states x) y1).
  { intros r1 z E1. unfold open_psk_session in E1. unfold sbind at 1, sget at 1 in E1. unfold get_sess in E1.
    rewrite Sy, find_app in E1 by exact D. unfold find_sess in E1. cbn [find] in E1. rewrite A in E1. cbn [N.eqb] in E1. cbv zeta in E1. fold id in E1.
    destruct (bind_cases _ _ _ _ _ E1) as [(u & z1 & E2 & E3)|(r2 & E2 & _)].
    - refine (opening_mod l1 l2 id (x_last x) (px_states x) U1 U2 I0 _ _ z1 r1 z E3 _); [intro; reflexivity|].
      eapply setup_opening; try eassumption. apply T.
    - eapply setup_opening; try eassumption. apply T. }
  right. destruct (bind_cases _ _ _ _ _ E0) as [(u & z1 & E2 & E3)|(r2 & E2 & _)]; [|exact (O _ _ E2)].
  cbv beta in E3. match type of E3 with ?m z1 = _ => assert (RR : rel (steady (opening l1 l2 id (x_last x) (px_states x))) m) end.
  2:{ exact (RR z1 r0 y' E3 (O _ _ E2)). }
  rl (steady_pre (opening l1 l2 id (x_last x) (px_states x))).
  apply opening_psk_finishing; auto. intro W. right. right. rewrite (tab_xc _ _ T2) in W. auto.
Qed.

(** ** the invariant is kept by every frame *)
Lemma fine_keys l l' i : map skey l' = map skey l -> fine_from i l -> fine_from i l'.
Proof.
  revert l' i. induction l as [|s l IH]; intros [|s' l'] i H F; try discriminate; [exact I|].
  cbn [map fine_from] in *. destruct F as [F0 F]. assert (K : skey s' = skey s) by congruence. unfold skey in K.
  split; [|apply IH; [congruence|exact F]]. unfold slot_fine in *. replace (s_id s') with (s_id s) by congruence. replace (s_state s') with (s_state s) by congruence. exact F0.
Qed.
Lemma tok_calm sid : forall x x', calm sid x x' -> steady tok x x'.
Proof.
  intros x x' [H _] (L & F & X). unfold outline in H. assert (K : map skey (x_sess x') = map skey (x_sess x)) by congruence.
  split; [|split].
  - rewrite <- (map_length skey), K, map_length. exact L.
  - exact (fine_keys _ _ _ K F).
  - congruence.
Qed.
Lemma tok_field x x' : x_sess x' = x_sess x -> x_last x' = x_last x -> steady tok x x'.
Proof. intros A B (L & F & X). unfold tok. rewrite A, B. auto. Qed.
(** a session method that keeps the session's id or tears it down *)
Definition gentle {A} (m : st session A) : Prop :=
  forall s r s', m s = (r, s') -> s_id s' = s_id s \/ (s_id s' = 0 /\ s_state s' = SNotStarted).
Lemma fine_upd id s' l i : id <> 0 -> (s_id s' = id \/ (s_id s' = 0 /\ s_state s' = SNotStarted)) -> i + len l <= 4 ->
  fine_from i l -> fine_from i (upd_sess id (fun _ => s') l).
Proof.
  intros I0 H. revert i. induction l as [|s l IH]; intros i L F; [exact F|]. cbn [upd_sess fine_from] in *. unfold len in *. cbn [length] in L. destruct F as [F0 F].
  destruct (N.eqb_spec (s_id s) id) as [Z|Z]; cbn [fine_from]; split; auto.
  - destruct H as [H|H]; [right|now left]. rewrite H, <- Z. apply fine_id; [exact F0|lia|congruence].
  - apply IH; [lia|exact F].
Qed.
Lemma upd_length id f l : length (upd_sess id f l) = length l.
Proof. induction l as [|s l IH]; cbn; [reflexivity|]. destruct (_ =? _); cbn; congruence. Qed.
Lemma tok_on_sess {A} id (m : st session A) : id <> 0 -> gentle m -> rel (steady tok) (on_sess id m).
Proof.
  intros I0 Hm x r x' E (L & F & X). unfold on_sess in E. destruct (get_sess id x) as [s|] eqn:G; [|replace x' with x by congruence; repeat split; auto].
  destruct (m s) as [o s1] eqn:M. replace x' with (mod_sess id (fun _ => s1) x) by congruence.
  unfold mod_sess, tok. cbn [x_sess set_x_sess x_last]. rewrite upd_length. split; [exact L|]. split; [|exact X].
  assert (s_id s = id) by (unfold get_sess, find_sess in G; apply find_some in G; apply N.eqb_eq, G).
  apply fine_upd; auto; [|unfold len; rewrite L; cbn; lia]. destruct (Hm _ _ _ M) as [K|K]; [left; congruence|now right].
Qed.
Lemma gentle_skeep {A} (m : st session A) : skeep m -> gentle m.
Proof. intros H s r s' E. apply H in E. unfold skey in E. left. congruence. Qed.
Lemma gentle_teardown id : gentle (session_teardown id).
Proof.
  intros s r s' E. unfold session_teardown in E. destruct (_ =? _); match type of E with (_, ?y) = _ => replace s' with y by congruence end; [right; split; reflexivity|now left].
Qed.
Lemma gentle_state v : gentle (smod (set_s_state v)).
Proof. intros s r s' E. unfold smod in E. match type of E with (_, ?y) = _ => replace s' with y by congruence end. now left. Qed.
Lemma tok_after_secured id op : id <> 0 -> rel (steady tok) (after_secured_send id op).
Proof.
  intro H. unfold after_secured_send. rl (steady_pre tok); apply tok_on_sess; auto using gentle_teardown, gentle_state.
Qed.
Lemma tok_io : io_ok (steady tok).
Proof. intros E b. apply (rel_mono (calm None)); [apply tok_calm|apply calm_io_send]. Qed.
Lemma tok_send_secured E id w app : id <> 0 -> rel (steady tok) (send_secured_message E id w app).
Proof.
  intro H. apply rel_send_secured; [apply steady_pre|apply tok_io|intro; apply tok_on_sess; auto using gentle_skeep, skeep_encode|intros; now apply tok_after_secured].
Qed.
Lemma tok_after op : rel (steady tok) (after_send op).
Proof.
  unfold after_send. repeat match goal with |- rel _ (if ?c then _ else _) => destruct c end;
    try (apply rel_mod; intro; try match goal with |- steady _ _ (if ?c then _ else _) => destruct c end; now apply tok_field).
  intros x r x' E T. unfold sbind at 1, sget at 1 in E. destruct (x_last x) as [id|] eqn:L.
  - unfold sbind at 1, sunwrap in E. cbv beta iota in E. assert (I0 : id <> 0) by (destruct T as (_ & _ & X); congruence). clear L. revert E T.
    apply (rel_bind (steady tok)); [apply steady_pre|apply tok_on_sess; auto using gentle_state|].
    intros _. apply rel_mod. intros y (A & B & C). repeat split; auto. discriminate.
  - unfold sbind at 1, sunwrap, spanic in E. replace x' with x by congruence. exact T.
Qed.
Lemma tok_live id x s : tok x -> get_sess id x = Some s -> s_state s <> SNotStarted -> id <> 0.
Proof.
  intros (L & F & _) G H ->. unfold get_sess, find_sess in G. apply find_some in G as [Hin Hid]. apply N.eqb_eq in Hid.
  assert (K : forall l i, fine_from i l -> i + len l <= 4 -> In s l -> False); [|apply (K _ _ F); [unfold len; rewrite L; cbn; lia|exact Hin]].
  clear -Hid H. induction l as [|a l IH]; intros i F0 L0 Hin; [exact Hin|]. cbn [fine_from] in F0. unfold len in *. cbn [length] in L0. destruct F0 as [[[A B]|A] F0], Hin as [<-|Hin].
  - contradiction.
  - apply (IH (i + 1)); auto. lia.
  - rewrite Hid in A. change (0 / 65536) with 0 in A. lia.
  - apply (IH (i + 1)); auto. lia.
Qed.
Lemma opening_tok (Q : sstate -> Prop) x l1 s0 l2 id x' : tok x -> x_sess x = l1 ++ s0 :: l2 -> id / 65536 = 0xFFFD - len l1 -> opening l1 l2 id (x_last x) Q x' -> tok x'.
Proof.
  intros (L & F & X) S D [Y (s & S' & H)]. rewrite S in L, F. rewrite app_length in L. cbn [length] in L. apply fine_app in F as [F1 F2]. cbn [fine_from] in F2.
  split; [|split].
  - rewrite S', app_length. exact L.
  - rewrite S'. apply fine_app. split; [exact F1|]. cbn [fine_from]. split; [|apply F2]. rewrite N.add_0_l in *.
    destruct H as [[H _]|H]; [right; rewrite H; exact D|now left].
  - destruct Y as [Y|Y]; [congruence|]. rewrite Y. intro Z. assert (id = 0) as -> by congruence. change (0 / 65536) with 0 in D. unfold len in D. lia.
Qed.
Lemma opened_tok Q x x' : tok x -> opened Q x x' -> tok x'.
Proof.
  intros T [(A & B & _)|(l1 & s0 & l2 & id & S & Z & D & O)]; [now apply (tok_field x)|]. exact (opening_tok Q x l1 s0 l2 id x' T S D O).
Qed.
Lemma tok_fresh x : x_sess x = repeat session_new MAX_SESSION_COUNT -> x_last x = None -> tok x.
Proof. intros A B. unfold tok. rewrite A, B. split; [reflexivity|]. split; [|discriminate]. cbn. repeat split; left; split; reflexivity. Qed.
Lemma tok_reset x : tok x -> tok (reset_context x).
Proof.
  intros (L & F & X). unfold reset_context, tok. cbn [x_sess set_x_sess x_last]. rewrite map_length.
  split; [exact L|]. split; [|discriminate].
  assert (K : forall l i, fine_from i (map session_set_default l)); [|apply K].
  induction l as [|a l IH]; intro i; cbn [map fine_from]; [exact I|]. split; [left; split; reflexivity|apply IH].
Qed.
Ltac tk1 :=
  first [ apply rel_mod; intro; apply tok_field; reflexivity
        | apply rel_mod; intro; apply (tok_calm None), calm_reset_buffer
        | apply (rel_mono (calm None)); [apply tok_calm|first [apply calm_append_a|apply calm_random|apply calm_summary]]
        | apply rel_mod; exact tok_reset
        | (intros ? ? ? KK; unfold construct_my_cert_chain in KK; destruct (construct_slots _ _ _ _);
           match type of KK with (_, ?y) = _ => match goal with |- steady _ _ ?z => replace z with y by congruence end end; apply tok_field; reflexivity) ].
Ltac tk := rl (steady_pre tok); try tk1.
Lemma tok_version b : rel (steady tok) (write_version b).
Proof. unfold write_version, then_append. tk. Qed.
Lemma tok_capability b : rel (steady tok) (write_capability b).
Proof. unfold write_capability, then_append. tk. Qed.
Lemma tok_algorithm E b : rel (steady tok) (write_algorithm E b).
Proof. unfold write_algorithm, then_append. tk. Qed.
Lemma decode_live cr b n s a s1 : decode_secured cr true b n s = (Ok a, s1) -> s_state s <> SNotStarted.
Proof. unfold decode_secured. intros H K. rewrite K in H. discriminate. Qed.
Theorem frame_tok E f x r x' : hash_lengths (e_cr E) -> (forall b, plain_message E f = Some b -> bytes_ok b) -> slots8 x -> tok x ->
  process_frame E f x = (r, x') -> tok x'.
Proof.
  intros HL HB S8 T H.
  assert (K : steady tok x x'); [|exact (K T)]. revert H.
  apply pass_frame with (P := fun b _ => bytes_ok b) (F := fun id _ app _ => app = true -> id <> 0) (G := fun _ => True);
    auto using steady_pre.
  - intros sid y y' _. apply tok_calm.
  - intros; now apply tok_field.
  - intros; eapply tok_version; eassumption.
  - intros; eapply tok_capability; eassumption.
  - intros; eapply tok_algorithm; eassumption.
  - intros b y r0 y' Hb _ H Ty. exact (opened_tok _ _ _ Ty (opens_key_exchange E b y r0 y' Hb Ty H)).
  - intros b y r0 y' Hb _ H Ty. exact (opened_tok _ _ _ Ty (opens_psk_exchange E b y r0 y' Hb Ty H)).
  - intros id b y r0 y' s _ _ _ Gs Hs H Ty. assert (I0 : id <> 0) by (apply (tok_live id y s); congruence). revert H Ty.
    unfold handle_finish. apply (rel_bind _ (steady_pre tok) _ _ (rel_get _ (steady_pre tok))). intro z.
    apply rel_bind; [apply steady_pre|apply (rel_mono (calm (Some id))); [apply tok_calm|apply calm_write_finish]|].
    intro w. destruct (in_clear _); [|now apply tok_send_secured].
    apply rel_send_message; [apply steady_pre|apply tok_io|intros; apply tok_after].
  - intros id b y r0 y' s _ _ Gs Hs H Ty. assert (I0 : id <> 0) by (apply (tok_live id y s); congruence). revert H Ty.
    unfold handle_psk_finish. apply (rel_bind (steady tok)); [apply steady_pre|apply (rel_mono (calm (Some id))); [apply tok_calm|apply calm_write_psk_finish]|].
    intro w. now apply tok_send_secured.
  - intros id b y r0 y' s _ _ Gs Hs H Ty. assert (I0 : id <> 0) by (apply (tok_live id y s); congruence). revert H Ty.
    unfold handle_end_session. apply (rel_bind (steady tok)); [apply steady_pre|apply (rel_mono (calm (Some id))); [apply tok_calm|apply calm_write_end_session]|].
    intro w. now apply tok_send_secured.
  - intros id b y r0 y' s I0 Gs H Ty. specialize (I0 eq_refl). revert H Ty. unfold dispatch_app. destruct (e_app E id b); try apply (rel_panic (steady tok)), steady_pre.
    apply (rel_bind (steady tok)); [apply steady_pre|apply rel_assert, steady_pre|intro; now apply tok_send_secured].
  - intros b Hb. apply HB. unfold plain_message. rewrite Hb. reflexivity.
  - intros b id _ _ _ _. discriminate.
  - intros b id s a s1 m app _ _ Gs D _ _. apply (tok_live id x s T Gs). exact (decode_live _ _ _ _ _ _ D).
Qed.

(** ** the invariant and the table's integrity *)
Lemma fine_nth i l : fine_from i l -> forall k s, nth_error l k = Some s -> slot_fine (i + N.of_nat k) s.
Proof.
  revert i. induction l as [|a l IH]; intros i F [|k] s H; try discriminate; cbn [fine_from] in F; destruct F as [F0 F].
  - assert (a = s) as <- by (cbn in H; congruence). replace (i + N.of_nat 0) with i by lia. exact F0.
  - replace (i + N.of_nat (S k)) with (i + 1 + N.of_nat k) by lia. exact (IH _ F k s H).
Qed.
Lemma tok_integrity x : tok x -> table_integrity (x_sess x).
Proof.
  intros (L & F & _). split; [exact L|]. split.
  - intros s Hin Hs. apply In_nth_error in Hin as [k Hk]. assert (k < 4)%nat by (rewrite <- L; apply nth_error_Some; congruence).
    destruct (fine_nth _ _ F k s Hk) as [[_ A]|A]; [exact A|]. rewrite Hs in A. change (0 / 65536) with 0 in A. lia.
  - intros i j s t Hi Hj E N0. assert (i < 4)%nat by (rewrite <- L; apply nth_error_Some; congruence). assert (j < 4)%nat by (rewrite <- L; apply nth_error_Some; congruence).
    destruct (fine_nth _ _ F i s Hi) as [[A _]|A]; [contradiction|]. destruct (fine_nth _ _ F j t Hj) as [[B _]|B]; [congruence|].
    rewrite E in A. lia.
Qed.
