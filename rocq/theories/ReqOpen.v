(** How the requester opens sessions, and the invariant of its table. *)
From Verif Require Import Bytes BytesFacts Status Codec Parse ParseProofs Algo Monad.
From Verif Require Import MsgConn MsgAuth MsgSession MsgOther Message Opaque Transport Crypto KeySchedule Session Signing CertOps ChainVerify Context
  RspBase RspConn RspSess RspEncap Responder StRel RspFrame RspCalm RspOpcode RspPass RspSlots RspTable RspIso RspEst ReqBase ReqConn ReqSess SpecReq ReqFrame ReqAnswer ReqTrans SpecAuth ReqSplit ReqTable.
From Coq Require Import Lia.
Local Open Scope N_scope.

Definition rfine (i : N) (s : session) : Prop := s_id s = 0 \/ s_id s mod 65536 = 0xFFFD - i.
Fixpoint rfine_from (i : N) (l : list session) : Prop :=
  match l with [] => True | s :: l' => rfine i s /\ rfine_from (i + 1) l' end.
Definition rtok (x : ctx) : Prop := length (x_sess x) = 4%nat /\ rfine_from 0 (x_sess x).
Lemma rfine_app i a b : rfine_from i (a ++ b) <-> rfine_from i a /\ rfine_from (i + len a) b.
Proof.
  revert i. induction a as [|s a IH]; intro i; cbn [rfine_from app].
  - unfold len. cbn. rewrite N.add_0_r. tauto.
  - rewrite IH. unfold len. cbn [length]. replace (i + 1 + N.of_nat (length a)) with (i + N.of_nat (S (length a))) by lia. tauto.
Qed.
Lemma D3_rfine ex sx i s s' : D3 ex sx s s' -> rfine i s -> rfine i s'.
Proof. unfold D3, rfine. intros [[H _]|(-> & _)] F; [left; exact H|exact F]. Qed.
Lemma rtok_dk ex sx x x' : dk ex sx x x' -> rtok x -> rtok x'.
Proof.
  intros [H _] [L F]. unfold slotwise in H. split.
  - rewrite <- L. clear - H. induction H; cbn; congruence.
  - revert F. generalize 0. clear L. induction H as [|s s' l l' H0 _ IH]; intros i F; [exact I|]. destruct F as [F0 F]. split; [exact (D3_rfine _ _ _ _ _ H0 F0)|exact (IH _ F)].
Qed.
(** an id in use belongs to one slot *)
Lemma rfine_low i l s : rfine_from i l -> In s l -> s_id s <> 0 -> exists j, i <= j < i + len l /\ s_id s mod 65536 = 0xFFFD - j.
Proof.
  revert i. induction l as [|a l IH]; intros i F Hin Hs; [contradiction|]. unfold len in *. cbn [length rfine_from] in *.
  destruct F as [F0 F]. destruct Hin as [->|Hin].
  - exists i. split; [lia|]. destruct F0; [contradiction|assumption].
  - destruct (IH (i + 1) F Hin Hs) as (j & J & K). exists j. split; [lia|exact K].
Qed.
Lemma rtok_unique x l1 s l2 : rtok x -> x_sess x = l1 ++ s :: l2 -> s_id s <> 0 ->
  (forall t, In t l1 -> s_id t <> s_id s) /\ (forall t, In t l2 -> s_id t <> s_id s).
Proof.
  intros [L F] S Z. rewrite S in L, F. rewrite app_length in L. cbn [length] in L. apply rfine_app in F as [F1 F2]. cbn [rfine_from] in F2. destruct F2 as [F0 F2].
  destruct F0 as [F0|F0]; [contradiction|]. unfold len in *. split; intros t Ht E.
  - destruct (rfine_low 0 l1 t F1 Ht ltac:(congruence)) as (j & J & K). unfold len in J. rewrite E, F0 in K. lia.
  - destruct (rfine_low _ l2 t F2 Ht ltac:(congruence)) as (j & J & K). unfold len in J. rewrite E, F0 in K. lia.
Qed.

(** ** the half id belongs to the first unused slot *)
Lemma next_half_req l : forall i h, rfine_from i l -> i + len l <= 4 -> next_half true i l = Some h ->
  exists l1 s l2, l = l1 ++ s :: l2 /\ s_id s = 0 /\ h = 0xFFFD - (i + len l1) /\ (forall t, In t l1 -> s_id t <> 0).
Proof.
  induction l as [|a l IH]; intros i h F L H; [discriminate|]. cbn [next_half rfine_from] in *. unfold len in *. cbn [length] in *.
  destruct F as [F0 F]. destruct (N.eqb_spec (half true (s_id a)) 0) as [Z|Z].
  - exists [], a, l. destruct F0 as [A|A].
    + split; [reflexivity|]. split; [exact A|]. split; [unfold INITIAL_SESSION_ID in H; injection H as <-; cbn; lia|intros ? []].
    + exfalso. unfold half in Z. rewrite A in Z. lia.
  - destruct (IH (i + 1) h F ltac:(lia) H) as (l1 & s & l2 & -> & A & C & D).
    exists (a :: l1), s, l2. split; [reflexivity|]. split; [exact A|].
    split; [cbn [length]; lia|]. intros t [<-|Ht]; [|auto]. intro K. apply Z. rewrite K. reflexivity.
Qed.
Lemma next_half_none l : forall i, next_half true i l = None -> forall s, In s l -> s_id s <> 0.
Proof.
  induction l as [|a l IH]; intros i H s Hs; [contradiction|]. cbn [next_half] in H. destruct (N.eqb_spec (half true (s_id a)) 0) as [Z|Z]; [discriminate|].
  destruct Hs as [<-|Hs]; [|exact (IH _ H _ Hs)]. intro K. apply Z. rewrite K. reflexivity.
Qed.
Lemma half_split x h : rtok x -> get_next_half_session_id true x = Ok h ->
  exists l1 s l2, x_sess x = l1 ++ s :: l2 /\ s_id s = 0 /\ h = 0xFFFD - len l1 /\ (forall t, In t l1 -> s_id t <> 0) /\ len l1 < 4.
Proof.
  intros [L F] H. unfold get_next_half_session_id in H. unfold MAX_SESSION_COUNT in H. rewrite firstn_all2 in H by lia.
  destruct (next_half true 0 (x_sess x)) as [h'|] eqn:Nh; [|discriminate]. replace h' with h in * by congruence.
  destruct (next_half_req _ 0 h F ltac:(unfold len; lia) Nh) as (l1 & s & l2 & S & Z & K & U). exists l1, s, l2.
  rewrite N.add_0_l in K. rewrite S, app_length in L. cbn [length] in L. unfold len. repeat split; auto. lia.
Qed.

(** ** opening *)
Definition same_tab (x x' : ctx) : Prop := x_sess x' = x_sess x /\ (x_l1l2 x' = x_l1l2 x \/ x_l1l2 x' = None).
Lemma same_tab_pre : preorder same_tab.
Proof. split; unfold same_tab; [auto|]. intros x y z [A B] [C D]. split; [congruence|]. destruct D as [D|D]; [|auto]. destruct B as [B|B]; [left|right]; congruence. Qed.
Lemma same_tab_dk ex sx x x' : same_tab x x' -> dk ex sx x x'.
Proof. intros [A B]. split; [apply slotwise_field; [apply D3_refl|exact A]|tauto]. Qed.
(** a new session [id] with low half [h] took the first unused slot; [o] says what is known about what follows *)
Definition opens (h : N) (x x' : ctx) : Prop :=
  same_tab x x' \/
  exists id l1 s l2 z, id mod 65536 = h mod 65536 /\ x_sess x = l1 ++ s :: l2 /\ s_id s = 0 /\ (forall t, In t l1 -> s_id t <> 0) /\
    x_sess z = l1 ++ set_s_id id (session_set_default s) :: l2 /\ (x_l1l2 z = x_l1l2 x \/ x_l1l2 z = None) /\ dk None (Some id) z x'.
Lemma opens_after h x y x' : same_tab x y -> opens h y x' -> opens h x x'.
Proof.
  intros S [H|(id & l1 & s & l2 & z & H1 & H2 & H3 & H4 & H5 & H6 & H7)]; [left; exact (proj2 same_tab_pre _ _ _ S H)|]. right.
  destruct S as [S1 S2]. exists id, l1, s, l2, z. rewrite <- S1. repeat split; auto; [|apply H7|apply H7]. destruct H6 as [H6|H6]; [|auto]. destruct S2; [left|right]; congruence.
Qed.
Lemma opens_bind {A B} h (m : st ctx A) (k : A -> st ctx B) : rel same_tab m -> (forall a, rel (opens h) (k a)) -> rel (opens h) (sbind m k).
Proof.
  intros M K x r x' H. unfold sbind in H. destruct (m x) as [[a|e|] y] eqn:F.
  - exact (opens_after _ _ _ _ (M _ _ _ F) (K _ _ _ _ H)).
  - left. replace x' with y by congruence. exact (M _ _ _ F).
  - left. replace x' with y by congruence. exact (M _ _ _ F).
Qed.
Lemma opens_same {A} h (m : st ctx A) : rel same_tab m -> rel (opens h) m.
Proof. apply rel_mono. intros x y H. now left. Qed.
Lemma opens_on_response {A} h c b (k : bytes -> st ctx A) : (forall r, rel (opens h) (k r)) -> rel (opens h) (on_response c None b k).
Proof.
  intro K. unfold on_response. apply opens_bind; [apply (rel_get _ same_tab_pre)|intro x]. destruct (read_header b) as [[hd r]|]; [|apply opens_same, (rel_err _ same_tab_pre)].
  destruct (negb _); [apply opens_same, (rel_err _ same_tab_pre)|]. unfold on_code. destruct (_ =? _); [apply K|]. apply opens_same. destruct (_ =? _); [|apply (rel_err _ same_tab_pre)].
  unfold error_main, simple_error. rl same_tab_pre.
Qed.
Lemma opens_reading {P A} h (d : cctx -> dec P) b r (k : P -> bytes -> st ctx A) : (forall p u, rel (opens h) (k p u)) -> rel (opens h) (reading d b r k).
Proof.
  intro K. unfold reading. apply opens_bind; [apply (rel_rd _ same_tab_pre)|intro o]. destruct o as [[p rest]|]; [apply K|apply opens_same, (rel_err _ same_tab_pre)].
Qed.
Lemma sbind_assoc {S A B C} (m : st S A) (f : A -> st S B) (g : B -> st S C) x : sbind (sbind m f) g x = sbind m (fun a => sbind (f a) g) x.
Proof. unfold sbind. destruct (m x) as [[a|e|] y]; reflexivity. Qed.
Lemma setup_first id l1 s l2 z r z1 : x_sess z = l1 ++ s :: l2 -> s_id s = 0 -> (forall t, In t l1 -> s_id t <> 0) ->
  on_sess 0 (session_setup id) z = (r, z1) -> r = Ok tt /\ z1 = set_x_sess (l1 ++ set_s_id id (session_set_default s) :: l2) z.
Proof.
  intros S Z U H. unfold on_sess, get_sess in H. rewrite S in H. rewrite find_app in H by exact U. unfold find_sess in H. cbn [find] in H. rewrite Z, N.eqb_refl in H.
  unfold session_setup in H. rewrite Z, N.eqb_refl in H. split; [congruence|]. 
  match type of H with (_, ?y) = _ => replace z1 with y by congruence end. unfold mod_sess. rewrite S, upd_app by exact U. cbn [upd_sess]. rewrite Z, N.eqb_refl. reflexivity.
Qed.
Lemma find_first l : find_sess 0 l <> None -> exists l1 s l2, l = l1 ++ s :: l2 /\ s_id s = 0 /\ forall t, In t l1 -> s_id t <> 0.
Proof.
  unfold find_sess. induction l as [|a l IH]; cbn [find]; [congruence|]. destruct (N.eqb_spec (s_id a) 0) as [Z|Z]; intro H.
  - exists [], a, l. split; [reflexivity|]. split; [exact Z|]. intros ? [].
  - destruct (IH H) as (l1 & s & l2 & -> & K & U). exists (a :: l1), s, l2. repeat split; auto. intros t [<-|Ht]; auto.
Qed.
Lemma opens_setup {B} h id (k : unit -> st ctx B) z r x' : id mod 65536 = h mod 65536 -> get_sess 0 z <> None -> (forall u, rel (dk None (Some id)) (k u)) ->
  (on_sess 0 (session_setup id) ;;; k tt)%st z = (r, x') -> opens h z x'.
Proof.
  intros Hh G K H. destruct (find_first _ G) as (l1 & s & l2 & S & Z & U). unfold sbind in H. destruct (on_sess 0 (session_setup id) z) as [o z1] eqn:O.
  destruct (setup_first id _ _ _ _ _ _ S Z U O) as [-> ->]. right. exists id, l1, s, l2, (set_x_sess (l1 ++ set_s_id id (session_set_default s) :: l2) z). split; [exact Hh|]. split; [exact S|]. split; [exact Z|]. split; [exact U|]. split; [reflexivity|]. split; [left; reflexivity|]. exact (K tt _ _ _ H).
Qed.
Lemma session_id_low a h : session_id a h mod 65536 = h mod 65536.
Proof. unfold session_id. rewrite N.add_comm, N.mod_add by lia. reflexivity. Qed.
Ltac ste := apply (proj1 same_tab_pre).
Lemma st_send E b : rel same_tab (req_send E b).
Proof. unfold req_send. rl same_tab_pre; intros x r x' H; (split; [exact (io_send_sess _ _ _ _ _ H)|left; pose proof (keeps_io_send _ _ _ _ _ H) as K; rewrite K; reflexivity]). Qed.
Lemma st_recv E c : rel same_tab (req_recv E c).
Proof. unfold req_recv, req_timeout, decap. rl same_tab_pre; intros x r x' H; (split; [exact (io_recv_sess _ _ _ _ H)|left; pose proof (keeps_io_recv _ _ _ _ H) as K; rewrite K; reflexivity]). Qed.
Lemma st_reset_buffer c x : same_tab x (reset_buffer c None x).
Proof.
  unfold reset_buffer. cbv zeta. apply (proj2 same_tab_pre _ (if c =? RC_GET_MEASUREMENTS then x else reset_m None x)).
  - destruct (_ =? _); [ste|split; [reflexivity|right; reflexivity]].
  - set (y := if c =? RC_GET_MEASUREMENTS then x else reset_m None x). clearbody y.
    destruct (existsb _ _); [destruct (_ <? _)|destruct (_ =? _)]; split; first [reflexivity|left; reflexivity].
Qed.
Ltac stf := apply rel_mod; intro; first [apply st_reset_buffer|split; [reflexivity|left; reflexivity]].
Lemma st_random cr n : rel same_tab (get_random cr n).
Proof. intros x r x' H. unfold get_random in H. match type of H with (_, ?z) = _ => replace x' with z by congruence end. split; [reflexivity|left; reflexivity]. Qed.
Lemma opens_kx E slot t h key s b : rel (opens h) (handle_key_exchange_rsp E h slot t key s b).
Proof.
  unfold handle_key_exchange_rsp, set_summary. apply opens_bind; [stf|intros _]. apply opens_on_response. intro r. apply opens_reading. intros p u.
  apply opens_bind; [apply (rel_get _ same_tab_pre)|intro x0]. apply opens_bind; [apply (rel_ok _ same_tab_pre)|intro final]. apply opens_bind; [apply (rel_ok _ same_tab_pre)|intro ch]. cbv zeta.
  intros x r' x' H. unfold req_open_session in H. rewrite sbind_assoc in H. unfold sbind at 1 in H. unfold sget at 1 in H.
  destruct (get_sess 0 x) as [s0|] eqn:G.
  - rewrite sbind_assoc in H.
    match type of H with (on_sess 0 (session_setup ?id) ;;; ?k)%st x = _ => refine (opens_setup h id (fun _ => k) x r' x' _ _ _ H) end.
    + apply session_id_low.
    + congruence.
    + intros _. ds (session_id (kr_session p) h). apply dk_finish_kx.
  - left. unfold sbind, serr in H. replace x' with x by congruence. ste.
Qed.
Lemma opens_psk E t h hint s b : rel (opens h) (handle_psk_exchange_rsp E h t hint s b).
Proof.
  unfold handle_psk_exchange_rsp, set_summary. apply opens_bind; [stf|intros _]. apply opens_on_response. intro r. apply opens_reading. intros p u. cbv zeta.
  intros x r' x' H. unfold req_open_psk_session in H. rewrite sbind_assoc in H. unfold sbind at 1 in H. unfold sget at 1 in H.
  destruct (get_sess 0 x) as [s0|] eqn:G.
  - rewrite sbind_assoc in H.
    match type of H with (on_sess 0 (session_setup ?id) ;;; ?k)%st x = _ => refine (opens_setup h id (fun _ => k) x r' x' _ _ _ H) end.
    + apply session_id_low.
    + congruence.
    + intros _. ds (session_id (pr_session p) h). apply dk_finish_psk.
  - left. unfold sbind, serr in H. replace x' with x by congruence. ste.
Qed.
(** the two exchanges: nothing opened, or the slot of the half id *)
Definition opening_of (x x' : ctx) : Prop :=
  same_tab x x' \/ exists h, get_next_half_session_id true x = Ok h /\ opens h x x'.
Lemma st_encode_kx E h slot t : rel same_tab (encode_key_exchange E h slot t).
Proof. unfold encode_key_exchange. rl same_tab_pre; first [apply st_random|stf|idtac]. Qed.
Lemma st_encode_psk E h t hint : rel same_tab (encode_psk_exchange E h t hint).
Proof. unfold encode_psk_exchange. rl same_tab_pre; first [apply st_random|apply (rel_req_enc _ same_tab_pre)|idtac]. Qed.
Lemma kx_opening E slot t : rel opening_of (key_exchange_req E slot t).
Proof.
  intros x r x' H. unfold key_exchange_req in H. rewrite bind_fail in H. destruct (8 <=? slot); [left; replace x' with x by congruence; ste|].
  unfold sbind at 1 2 in H. unfold sget, sof in H. destruct (get_next_half_session_id true x) as [h|e|] eqn:Nh; [|left; replace x' with x by congruence; ste|left; replace x' with x by congruence; ste].
  right. exists h. split; [exact Nh|]. revert H. match goal with |- ?m x = _ -> _ => assert (K : rel (opens h) m) end; [|intro H; exact (K _ _ _ H)].
  apply opens_bind; [stf|intros _]. apply opens_bind; [apply st_encode_kx|intro ks]. apply opens_bind; [apply st_send|intros _]. apply opens_bind; [apply st_recv|intro b]. apply opens_kx.
Qed.
Lemma psk_opening E t hint : rel opening_of (psk_exchange_req E t hint).
Proof.
  intros x r x' H. unfold psk_exchange_req in H. unfold sbind at 1 2 3 in H. unfold smod, sget, sof in H. set (y := reset_buffer RC_PSK_EXCHANGE None x) in H.
  assert (Y : same_tab x y) by apply st_reset_buffer. assert (Nx : get_next_half_session_id true y = get_next_half_session_id true x). { unfold get_next_half_session_id. destruct Y as [-> _]. reflexivity. }
  rewrite Nx in H. clear Nx. clearbody y.
  destruct (get_next_half_session_id true x) as [h|e|] eqn:Nh; [|left; replace x' with y by congruence; exact Y|left; replace x' with y by congruence; exact Y].
  right. exists h. split; [exact Nh|]. apply (opens_after h x y x' Y). revert H. match goal with |- ?m y = _ -> _ => assert (K : rel (opens h) m) end; [|intro H; exact (K _ _ _ H)].
  apply opens_bind; [apply st_encode_psk|intro ks]. apply opens_bind; [apply st_send|intros _]. apply opens_bind; [apply st_recv|intro b]. apply opens_psk.
Qed.
Lemma first_unique l1 s l2 : forall l1' s' l2', l1 ++ s :: l2 = l1' ++ s' :: l2' -> s_id s = 0 -> s_id s' = 0 -> (forall t, In t l1 -> s_id t <> 0) -> (forall t, In t l1' -> s_id t <> 0) ->
  l1 = l1' /\ s = s' /\ l2 = l2'.
Proof.
  induction l1 as [|a l1 IH]; intros [|a' l1'] s' l2' H Z Z' U U'; cbn [app] in H.
  - repeat split; congruence.
  - exfalso. apply (U' a'); [now left|congruence].
  - exfalso. apply (U a); [now left|congruence].
  - destruct (IH l1' s' l2') as (-> & -> & ->); [congruence|auto|auto|intros; apply U; now right|intros; apply U'; now right|]. repeat split; congruence.
Qed.
(** all that the two exchanges do to the table *)
Definition opened (x x' : ctx) : Prop :=
  exists id l1 s l2 z, id <> 0 /\ x_sess x = l1 ++ s :: l2 /\ s_id s = 0 /\ (forall t, In t l1 -> s_id t <> 0 /\ s_id t <> id) /\ (forall t, In t l2 -> s_id t <> id) /\
    x_sess z = l1 ++ set_s_id id (session_set_default s) :: l2 /\ (x_l1l2 z = x_l1l2 x \/ x_l1l2 z = None) /\ dk None (Some id) z x' /\ rtok z.
Lemma opening_opened x x' : rtok x -> opening_of x x' -> same_tab x x' \/ opened x x'.
Proof.
  intros T [S|(h & Nh & [S|(id & l1 & s & l2 & z & H1 & H2 & H3 & H4 & H5 & H6 & H7)])]; auto. right.
  destruct (half_split _ _ T Nh) as (l1' & s' & l2' & S & Z & K & U & L). rewrite H2 in S.
  destruct (first_unique _ _ _ _ _ _ S H3 Z H4 U) as (<- & <- & <-). clear S Z U.
  assert (Low : id mod 65536 = 0xFFFD - len l1). { rewrite H1, K. apply N.mod_small. lia. }
  assert (Nz : id <> 0). { intros ->. rewrite N.mod_0_l in Low by lia. lia. }
  assert (Rz : rtok z).
  { destruct T as [T1 T2]. rewrite H2 in T1, T2. apply rfine_app in T2 as [T2 T3]. cbn [rfine_from] in T3. split; rewrite H5.
    - rewrite app_length in *. exact T1.
    - apply rfine_app. split; [exact T2|]. cbn [rfine_from]. split; [|apply T3]. right. cbn [s_id set_s_id]. rewrite N.add_0_l. exact Low. }
  exists id, l1, s, l2, z. destruct (rtok_unique z l1 _ l2 Rz H5) as [U1 U2]; [exact Nz|]. cbn [s_id set_s_id] in U1, U2.
  split; [exact Nz|]. split; [exact H2|]. split; [exact H3|]. split; [intros t Ht; split; [apply H4, Ht|apply U1, Ht]|]. split; [exact U2|]. auto.
Qed.
(** which measurement transcript an operation is about *)
Definition meas_of (o : operation) : option (option N) := match o with OMeasurements sid _ _ _ => Some sid | _ => None end.
Definition opens_session (o : operation) : bool := match o with OKeyExchange _ _ | OPskExchange _ _ => true | _ => false end.
Definition finishes (o : operation) : option N := match o with OFinish _ id | OPskFinish id => Some id | _ => None end.
Lemma rel_drop {A} R (HR : preorder R) (m : st ctx A) : rel R m -> rel R (drop m).
Proof. intro H. unfold drop. apply rel_bind; [exact HR|exact H|intro; apply (rel_ret _ HR)]. Qed.
Lemma run_dk E o : opens_session o = false -> rel (dk (meas_of o) (finishes o)) (run E o).
Proof.
  intro H. destruct o; try discriminate H; cbn [run meas_of finishes].
  - apply dk_version.
  - apply dk_capabilities.
  - apply dk_algorithms.
  - apply dk_digests.
  - apply (rel_drop _ (dk_pre _ _)), dk_cert.
  - apply dk_challenge.
  - apply (rel_drop _ (dk_pre _ _)), dk_measurements.
  - apply dk_finish.
  - apply dk_psk_finish.
  - apply dk_heartbeat.
  - apply dk_ku.
  - apply dk_end.
  - apply (rel_drop _ (dk_pre _ _)), dk_vendor.
Qed.
Lemma run_opens E o x r x' : opens_session o = true -> rtok x -> run E o x = (r, x') -> same_tab x x' \/ opened x x'.
Proof.
  intros H T R. destruct o; try discriminate H; cbn [run] in R; apply drop_inv in R as (r' & R & _); apply (opening_opened x x' T); [exact (kx_opening _ _ _ _ _ _ R)|exact (psk_opening _ _ _ _ _ _ R)].
Qed.
Lemma rtok_run E o x r x' : rtok x -> run E o x = (r, x') -> rtok x'.
Proof.
  intros T R. destruct (opens_session o) eqn:O.
  - destruct (run_opens _ _ _ _ _ O T R) as [S|(id & l1 & s & l2 & z & _ & _ & _ & _ & _ & _ & _ & K & Rz)].
    + exact (rtok_dk None None _ _ (same_tab_dk _ _ _ _ S) T).
    + exact (rtok_dk _ _ _ _ K Rz).
  - exact (rtok_dk _ _ _ _ (run_dk E o O _ _ _ R) T).
Qed.
Lemma dk_loop ex sx E sid slot fuel : forall total offset l, rel (dk ex sx) (certificate_loop E sid slot fuel total offset l).
Proof.
  induction fuel as [|f IH]; intros; cbn [certificate_loop]; destruct (_ =? _); try apply (rel_ret _ (dk_pre ex sx)).
  apply rel_bind; [exact (dk_pre ex sx)|apply dk_cert|intros [p q]]. apply IH.
Qed.
Lemma dk_get_certificate ex sx E fuel sid slot : rel (dk ex sx) (get_certificate E fuel sid slot).
Proof.
  unfold get_certificate. dd ex sx; apply dk_loop.
Qed.
Theorem reached_rtok E x : reached E x -> rtok x.
Proof.
  induction 1 as [cfg cd mc root|x o r x' _ IH R NP|x fuel sid slot r x' _ IH R NP].
  - split; [reflexivity|]. cbn. repeat split; left; reflexivity.
  - exact (rtok_run _ _ _ _ _ IH R).
  - exact (rtok_dk None None _ _ (dk_get_certificate _ _ _ _ _ _ _ _ _ R) IH).
Qed.
