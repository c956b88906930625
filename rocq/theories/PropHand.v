(** C42: a requester session becomes usable only through a verified handshake. *)
From Verif Require Import Bytes BytesFacts Status Codec Parse ParseProofs Algo Monad.
From Verif Require Import MsgConn MsgAuth MsgSession MsgOther Message Opaque Transport Crypto KeySchedule Session Signing CertOps ChainVerify Context
  RspBase RspConn RspSess RspEncap Responder StRel RspFrame RspCalm RspOpcode RspPass RspSlots RspTable RspIso RspEst ReqBase ReqConn ReqSess SpecReq ReqFrame ReqAnswer ReqTrans SpecAuth ReqSplit ReqHist ReqTable ReqOpen ReqAuth.
From Verif Require Import SpecSession SpecKeys SpecHand ReqHand ReqHand2 ReqHand3 ToyCrypto Pair ExPair ExReach.
From Coq Require Import Lia.
Local Open Scope N_scope.

Lemma get_in id x s : get_sess id x = Some s -> In s (x_sess x) /\ s_id s = id.
Proof. unfold get_sess, find_sess. intro H. apply find_some in H as [A B]. apply N.eqb_eq in B. auto. Qed.
Lemma in_get x s : rtok x -> In s (x_sess x) -> s_id s <> 0 -> get_sess (s_id s) x = Some s.
Proof.
  intros T I Z. unfold get_sess, find_sess. apply in_split in I as (l1 & l2 & S). destruct (rtok_unique x l1 s l2 T S Z) as [U _]. rewrite S. clear S T.
  induction l1 as [|a l1 IH]; cbn; [rewrite N.eqb_refl; reflexivity|]. rewrite (proj2 (N.eqb_neq _ _)) by (apply U; now left). apply IH. intros t Ht. apply U. now right.
Qed.
Lemma nonew_get x x' id ss : rtok x -> nonew x x' -> id <> 0 -> get_sess id x' = Some ss -> s_state ss <> SNotStarted ->
  exists s, get_sess id x = Some s /\ s_state s = s_state ss.
Proof.
  intros T K Z G S. apply get_in in G as [I Q]. destruct (K ss I ltac:(congruence) S) as (s & Is & K1 & K2). exists s. split; [|exact K2].
  rewrite <- Q, <- K1. apply in_get; [exact T|exact Is|congruence].
Qed.
Lemma opened_kept x x' id : rtok x -> opened x x' -> get_sess id x = None -> get_sess id x' <> None -> id <> 0 -> kept_states id x x'.
Proof.
  intros T (i & l1 & s & l2 & z & H1 & H2 & H3 & H4 & H5 & H6 & _ & [D _] & _) Gn Gs Z.
  assert (Q : i = id).
  { destruct (get_sess id x') as [ss|] eqn:G; [|congruence]. apply get_in in G as [I Q]. destruct (Forall2_in_r _ _ _ _ D I) as (t & It & Kt).
    assert (Et : s_id t = id) by (destruct Kt as [[K _]|(K & _)]; congruence). rewrite H6 in It. apply in_app_or in It as [It|[It|It]].
    - exfalso. assert (In t (x_sess x)) as J by (rewrite H2; apply in_or_app; now left). apply (in_get x t T) in J; congruence.
    - rewrite <- It in Et. exact Et.
    - exfalso. assert (In t (x_sess x)) as J by (rewrite H2; apply in_or_app; right; now right). apply (in_get x t T) in J; congruence. }
  subst i. intros ss I Zs S Ne. destruct (Forall2_in_r _ _ _ _ D I) as (t & It & [[K _]|(K & K2 & _)]); [contradiction|]. rewrite H6 in It.
  assert (Ix : In t (x_sess x)). { rewrite H2. apply in_or_app. apply in_app_or in It as [It|[It|It]]; [now left| |right; now right]. exfalso. apply Ne. rewrite K, <- It. reflexivity. }
  exists t. split; [exact Ix|]. split; [congruence|]. destruct K2 as [K2|[K2|K2]]; [congruence|contradiction|]. exfalso. apply Ne. congruence.
Qed.
Lemma kept_get x x' id0 id ss : rtok x -> kept_states id0 x x' -> id <> id0 -> id <> 0 -> get_sess id x' = Some ss -> s_state ss <> SNotStarted ->
  exists s, get_sess id x = Some s /\ s_state s = s_state ss.
Proof.
  intros T K Ne Z G S. apply get_in in G as [I Q]. destruct (K ss I ltac:(congruence) S ltac:(congruence)) as (s & Is & K1 & K2). exists s. split; [|exact K2].
  rewrite <- Q, <- K1. apply in_get; [exact T|exact Is|congruence].
Qed.
Lemma dk_kept id x x' : dk None (Some id) x x' -> kept_states id x x'.
Proof.
  intros [D _] ss I Z S Ne. destruct (Forall2_in_r _ _ _ _ D I) as (s & Is & [[K _]|(K1 & [K2|[K2|K2]] & _)]); [contradiction| |contradiction|exfalso; apply Ne; congruence].
  exists s. auto.
Qed.

Lemma drop_result {A} (m : st ctx A) x r x' : drop m x = (r, x') -> exists r', m x = (r', x') /\ r = match r' with Ok _ => Ok tt | Err e => Err e | Panic => Panic end.
Proof. unfold drop, sbind. destruct (m x) as [o y]. destruct o; unfold sret; intro H; (eexists; split; [f_equal; congruence|]); cbn; congruence. Qed.

(** ** the step: how a session other than id 0 can come to be Handshaking or Established *)
Theorem C42_usable_only_by_verified_handshake : forall E x o r x' id ss,
  reached E x -> run E o x = (r, x') -> r <> Panic ->
  id <> 0 -> get_sess id x' = Some ss -> s_state ss <> SNotStarted ->
  (* it was so before *)
  (exists s, get_sess id x = Some s /\ s_state s = s_state ss) \/
  (* or its handshake was just verified *)
  match o with
  | OKeyExchange slot t => r = Ok tt /\ key_exchange_verified E x x' slot t id /\ s_state ss = SHandshaking
  | OPskExchange t hint => psk_exchange_verified E x x' t hint id
  | OFinish rs i => r = Ok tt /\ i = id /\ finish_accepted E x x' (match rs with Some s => s | None => 0 end) id /\ s_state ss = SEstablished
  | OPskFinish i => r = Ok tt /\ i = id /\ psk_finish_accepted E x x' id /\ s_state ss = SEstablished
  | _ => False
  end.
Proof.
  intros E x o r x' id ss R H NP Z G S. pose proof (reached_rtok _ _ R) as T.
  assert (Oth : opens_session o = false -> finishes o = None -> exists s, get_sess id x = Some s /\ s_state s = s_state ss).
  { intros O F. pose proof (run_dk E o O _ _ _ H) as [D _]. rewrite F in D. apply (nonew_get x x' id ss T); auto.
    intros t I Zt St. destruct (Forall2_in_r _ _ _ _ D I) as (s & Is & [[K _]|(K1 & [K2|[K2|K2]] & _)]); [contradiction| |contradiction|discriminate]. exists s. auto. }
  destruct o as [| | | | | | |slot t|rs i|t hint|i| | | |]; try (left; apply Oth; reflexivity); clear Oth.
  - pose proof (run_opens E (OKeyExchange slot t) x r x' eq_refl T H) as Op. cbn [run] in H. apply drop_result in H as (r' & H & Hr). destruct r' as [a|e|].
    + pose proof (key_exchange_ok _ _ _ _ _ _ T H) as V. pose proof V as V'. destruct V' as (half & key & public & nonce & opaque & b & body & sig & mac & rest & p & ss' & t0 & th1 & n & final & V').
      cbv zeta in V'. destruct V' as (_ & _ & _ & _ & _ & _ & _ & _ & _ & _ & Gn & Gs & St & _).
      destruct (N.eq_dec id a) as [Q|Ne].
      * right. subst a. rewrite Gs in G. split; [rewrite Hr; reflexivity|]. split; [exact V|congruence].
      * left. destruct (N.eq_dec a 0) as [Qa|Za].
        { subst a. exfalso. destruct Op as [Sm|(i & l1 & s & l2 & z & H1 & H2 & H3 & _)].
          - unfold same_tab in Sm. apply get_in in Gs as [Is Qs]. destruct Sm as [Sm _]. rewrite Sm in Is. unfold get_sess, find_sess in Gn. apply (find_none _ _ Gn) in Is. rewrite Qs in Is. discriminate.
          - unfold get_sess, find_sess in Gn. assert (In s (x_sess x)) as Is by (rewrite H2; apply in_or_app; right; now left). apply (find_none _ _ Gn) in Is. rewrite H3 in Is. discriminate. }
        destruct Op as [Sm|Op]; [|exact (kept_get x x' a id ss T (opened_kept x x' a T Op Gn ltac:(congruence) Za) Ne Z G S)].
        apply (nonew_get x x' id ss T); auto. apply dk_nonew. exact (same_tab_dk _ _ _ _ Sm).
    + left. exact (nonew_get x x' id ss T (errs_kx _ _ _ _ _ _ H) Z G S).
    + exfalso. apply NP. rewrite Hr. reflexivity.
  - cbn [run] in H. pose proof (run_dk E (OFinish rs i) eq_refl _ _ _ H) as D. cbn [finishes meas_of] in D. destruct r as [[]|e|]; [|left; exact (nonew_get x x' id ss T (errs_finish _ _ _ _ _ _ H) Z G S)|congruence].
    destruct (N.eq_dec id i) as [Q|Ne]; [|left; exact (kept_get x x' i id ss T (dk_kept _ _ _ D) Ne Z G S)]. subst i. right. split; [reflexivity|]. split; [reflexivity|].
    pose proof (finish_ok _ _ _ _ _ _ H) as V. split; [exact V|]. destruct V as (s & t & w & own & bv & body & mac & rest & s' & th2 & V). cbv zeta in V. destruct V as (_ & _ & _ & _ & _ & _ & V1 & V2 & _). congruence.
  - cbn [run] in H. apply drop_result in H as (r' & H & Hr). destruct (psk_exchange_run _ _ _ _ _ _ T H) as [[K _]|(a & V & K & _)]; [left; exact (nonew_get x x' id ss T K Z G S)|].
    destruct (N.eq_dec id a) as [Q|Ne]; [|left; exact (kept_get x x' a id ss T K Ne Z G S)]. subst a. right. exact V.
  - cbn [run] in H. pose proof (run_dk E (OPskFinish i) eq_refl _ _ _ H) as D. cbn [finishes meas_of] in D. destruct r as [[]|e|]; [|left; exact (nonew_get x x' id ss T (errs_psk_finish _ _ _ _ _ H) Z G S)|congruence].
    destruct (N.eq_dec id i) as [Q|Ne]; [|left; exact (kept_get x x' i id ss T (dk_kept _ _ _ D) Ne Z G S)]. subst i. right. split; [reflexivity|]. split; [reflexivity|].
    pose proof (psk_finish_ok _ _ _ _ _ H) as V. split; [exact V|]. destruct V as (s & t & w & own & body & rest & s' & th2 & V). cbv zeta in V. destruct V as (_ & _ & _ & _ & _ & V1 & V2 & _). congruence.
Qed.
Print Assumptions C42_usable_only_by_verified_handshake.
(** no other call makes a session usable *)
Theorem C42_certificate_retrieval_opens_nothing : forall E x fuel sid slot r x' id ss,
  reached E x -> get_certificate E fuel sid slot x = (r, x') ->
  id <> 0 -> get_sess id x' = Some ss -> s_state ss <> SNotStarted ->
  exists s, get_sess id x = Some s /\ s_state s = s_state ss.
Proof.
  intros E x fuel sid slot r x' id ss R H. apply nonew_get; [exact (reached_rtok _ _ R)|]. apply dk_nonew. exact (dk_get_certificate None None _ _ _ _ _ _ _ H).
Qed.
Print Assumptions C42_certificate_retrieval_opens_nothing.

Lemma driven_reached E x : driven E x -> reached E x.
Proof. induction 1; [apply r_start|eapply r_op; eauto|eapply r_cert; eauto]. Qed.
Lemma usable_some id x s : get_sess id x = Some s -> s_state s <> SNotStarted -> usable id x.
Proof. intros. exists s. auto. Qed.
Lemma kx_established_not E x x' id ss : exchange_verified E x x' id -> get_sess id x' = Some ss -> s_state ss <> SNotStarted.
Proof.
  intros [(slot & t & V)|(t & hint & V)] G.
  - destruct V as (half & key & public & nonce & opaque & b & body & sig & mac & rest & p & ss' & t0 & th1 & n & final & V'). cbv zeta in V'. destruct V' as (_ & _ & _ & _ & _ & _ & _ & _ & _ & _ & _ & Gs & St & _). congruence.
  - destruct V as (half & context & opaque & b & body & mac & rest & p & ss' & th1 & V'). cbv zeta in V'. destruct V' as (_ & _ & _ & _ & _ & _ & Gs & _ & _ & _ & _ & _ & _ & _ & _ & _ & [St|(_ & St & _)]); congruence.
Qed.
(** ** the history of a usable session: a verified key exchange; and of an established one: a FINISH
    exchange after it, unless the responder has no PSK context *)
Theorem C42_history : forall E x id ss, driven E x -> id <> 0 -> get_sess id x = Some ss -> s_state ss <> SNotStarted ->
  exists x1 x2, driven E x1 /\ exchange_verified E x1 x2 id /\ carried E id x2 x /\
    (s_state ss = SEstablished ->
     (exists x3 x4, carried E id x2 x3 /\ finish_verified E x3 x4 id /\ carried E id x4 x) \/
     (exists s2 t hint, psk_exchange_verified E x1 x2 t hint id /\ psk_no_ctx (asked (OPskExchange t hint) x1) = true /\
        get_sess id x2 = Some s2 /\ s_state s2 = SEstablished)).
Proof.
  intros E x id ss D Z. revert ss. induction D as [cfg cd mc root|x o r x' D IH Pr H NP|x fuel sid slot r x' D IH H NP]; intros ss G S.
  - exfalso. apply get_in in G as [I Q]. apply Z. rewrite <- Q. cbn [ctx_new x_sess repeat] in I. cbn in I. destruct I as [<-|[<-|[<-|[<-|[]]]]]; reflexivity.
  - assert (U : usable id x') by (exists ss; auto). destruct (C42_usable_only_by_verified_handshake _ _ _ _ _ _ _ (driven_reached _ _ D) H NP Z G S) as [(s & Gs & Es)|K].
    + destruct (IH s Gs ltac:(congruence)) as (x1 & x2 & D1 & V & C & K). exists x1, x2. split; [exact D1|]. split; [exact V|]. split; [exact (ca_op _ _ _ _ _ _ _ C H NP U)|].
      intro Se. destruct (K ltac:(congruence)) as [(x3 & x4 & C3 & F & C4)|K']; [left|right; exact K']. exists x3, x4. split; [exact C3|]. split; [exact F|exact (ca_op _ _ _ _ _ _ _ C4 H NP U)].
    + destruct o as [| | | | | | |slot t|rs i|t hint|i| | | |]; try contradiction.
      * destruct K as (_ & V & St). exists x, x'. split; [exact D|]. split; [left; eauto|]. split; [apply ca_here; exact U|congruence].
      * destruct K as (-> & -> & V & St). cbn [proper] in Pr. assert (Gs : exists s, get_sess id x = Some s /\ s_state s <> SNotStarted).
        { destruct Pr as [Pr|Pr]; [exact Pr|]. exfalso. destruct V as (s & t & w & own & bv & body & mac & rest & s' & th2 & V). cbv zeta in V. destruct V as (V & _). congruence. }
        destruct Gs as (s & Gs & Ss). destruct (IH s Gs Ss) as (x1 & x2 & D1 & V1 & C & _). exists x1, x2. split; [exact D1|]. split; [exact V1|]. split; [exact (ca_op _ _ _ _ _ _ _ C H NP U)|].
        intros _. left. exists x, x'. split; [exact C|]. split; [left; eauto|apply ca_here; exact U].
      * exists x, x'. split; [exact D|]. split; [right; eauto|]. split; [apply ca_here; exact U|]. intro Se. right. exists ss, t, hint. split; [exact K|].
        destruct K as (half & context & opaque & b & body & mac & rest & p & ss' & th1 & V'). cbv zeta in V'. destruct V' as (_ & _ & _ & _ & _ & _ & Gs & _ & _ & _ & _ & _ & _ & _ & _ & _ & [St|(Nc & St & _)]); [congruence|]. auto.
      * destruct K as (-> & -> & V & St). cbn [proper] in Pr. assert (Gs : exists s, get_sess id x = Some s /\ s_state s <> SNotStarted).
        { destruct Pr as [Pr|Pr]; [exact Pr|]. exfalso. destruct V as (s & t & w & own & body & rest & s' & th2 & V). cbv zeta in V. destruct V as (V & _). congruence. }
        destruct Gs as (s & Gs & Ss). destruct (IH s Gs Ss) as (x1 & x2 & D1 & V1 & C & _). exists x1, x2. split; [exact D1|]. split; [exact V1|]. split; [exact (ca_op _ _ _ _ _ _ _ C H NP U)|].
        intros _. left. exists x, x'. split; [exact C|]. split; [right; exact V|apply ca_here; exact U].
  - assert (U : usable id x') by (exists ss; auto). destruct (C42_certificate_retrieval_opens_nothing _ _ _ _ _ _ _ _ _ (driven_reached _ _ D) H Z G S) as (s & Gs & Es).
    destruct (IH s Gs ltac:(congruence)) as (x1 & x2 & D1 & V & C & K). exists x1, x2. split; [exact D1|]. split; [exact V|]. split; [exact (ca_cert _ _ _ _ _ _ _ _ _ C H NP U)|].
    intro Se. destruct (K ltac:(congruence)) as [(x3 & x4 & C3 & F & C4)|K']; [left|right; exact K']. exists x3, x4. split; [exact C3|]. split; [exact F|exact (ca_cert _ _ _ _ _ _ _ _ _ C4 H NP U)].
Qed.
Print Assumptions C42_history.
(** ** start_session *)
Theorem C42_start_session : forall E x psk slot t id x', reached E x -> start_session E psk slot t x = (Ok id, x') ->
  exists x1, (if psk then psk_exchange_verified E x x1 t (v_default MAX_PSK_HINT_SIZE) id /\ psk_finish_accepted E x1 x' id
              else key_exchange_verified E x x1 slot t id /\ finish_accepted E x1 x' 0 id) /\
             exists s, get_sess id x' = Some s /\ s_state s = SEstablished.
Proof.
  intros E x psk slot t id x' R H. pose proof (reached_rtok _ _ R) as T. unfold start_session in H. destruct psk.
  - bi H. destruct (psk_exchange_run _ _ _ _ _ _ T P) as [[_ K]|(a & V & _ & K)]; [exfalso; exact (K _ eq_refl)|]. destruct (K _ eq_refl) as [Qv _]. subst a.
    bi H. apply ret_inv in H as [Q ->]. assert (id = v) as -> by congruence. exists y. pose proof (psk_finish_ok _ _ _ _ _ P0) as F. split; [auto|].
    destruct F as (s & t1 & w & own & body & rest & s' & th2 & F). cbv zeta in F. destruct F as (_ & _ & _ & _ & _ & V1 & V2 & _). eauto.
  - bi H. pose proof (key_exchange_ok _ _ _ _ _ _ T P) as V. bi H. apply ret_inv in H as [Q ->]. assert (id = v) as -> by congruence. exists y. pose proof (finish_ok _ _ _ _ _ _ P0) as F. split; [auto|].
    destruct F as (s & t1 & w & own & bv & body & mac & rest & s' & th2 & F). cbv zeta in F. destruct F as (_ & _ & _ & _ & _ & _ & V1 & V2 & _). eauto.
Qed.
Print Assumptions C42_start_session.
Lemma drop_ok1 {A} (m : st ctx A) x : okb (fst (m x)) = true -> exists u, drop m x = (Ok u, snd (m x)).
Proof. intro H. destruct (okb_ok _ H) as [a Ha]. exists tt. unfold drop, sbind. rewrite Ha. reflexivity. Qed.
(** Case: the handshake of ExPair.v, KEY_EXCHANGE from [pr5] and FINISH from [pr6]; the session is in
    state Handshaking in [pr6] and Established in [pr7]. *)
Example C42_case : reached pr_env pr5 /\ (exists u, run pr_env (OKeyExchange 0 1) pr5 = (Ok u, pr6)) /\ (exists u, run pr_env (OFinish None pr_id) pr6 = (Ok u, pr7)) /\ pr_id <> 0 /\
  option_map s_state (get_sess pr_id pr5) = None /\ option_map s_state (get_sess pr_id pr6) = Some SHandshaking /\ option_map s_state (get_sess pr_id pr7) = Some SEstablished.
Proof.
  split; [exact reached_pr5|]. split; [exists tt; exact (drop_run _ _ _ _ run6)|]. split; [exists tt; exact run7|]. split; [discriminate|]. split; [|split]; vm_compute; reflexivity.
Qed.
