(** C91: the running digests of all transcripts, in all interleavings, stay apart. *)
From Verif Require Import Bytes HashCtx SpecHashCtx.
Local Open Scope N_scope.

Definition stands (K : hasher) (c : hs_ctx K) (p : option (N * bytes)) : Prop :=
  exists alg c0 pieces, p = Some (alg, concat pieces) /\ hs_new K alg = Some c0 /\ c = fold_left (hs_update K) pieces c0.
Record inv (K : hasher) (g : heap K) (s : N -> option (N * bytes)) : Prop := mkInv {
  i_owned : forall v h, g_owned K g v = Some h -> h <> 0 /\ exists c, g_table K g h = Some c /\ stands K c (s v);
  i_one : forall v w h, g_owned K g v = Some h -> g_owned K g w = Some h -> v = w;
  i_no_leak : forall h c, g_table K g h = Some c -> exists v, g_owned K g v = Some h;
  i_boxed : forall w a c, g_boxed K g w = Some (a, c) -> a <> 0 /\ g_table K g a = None /\ stands K c (s w) /\ g_owned K g w = None;
  i_box_one : forall v w a c d, g_boxed K g v = Some (a, c) -> g_boxed K g w = Some (a, d) -> v = w;
  i_taken : forall v c, g_taken K g v = Some c -> stands K c (s v) /\ g_owned K g v = None /\ g_boxed K g v = None;
}.
Lemma put_same {A} k (a : option A) f : put k a f k = a. Proof. unfold put. now rewrite N.eqb_refl. Qed.
Lemma put_other {A} k (a : option A) f x : x <> k -> put k a f x = f x. Proof. unfold put. intro H. now rewrite (proj2 (N.eqb_neq _ _) H). Qed.
Lemma written_snoc l e : written (l ++ [e]) = told (written l) e. Proof. unfold written. now rewrite fold_left_app. Qed.

Definition answered (H : N -> bytes -> option bytes) (s : N -> option (N * bytes)) (e : event) : Prop :=
  match e with
  | EInit _ alg ok => ok = true <-> H alg [] <> None
  | EDup _ _ ok | EUpdate _ _ ok | ETake _ ok => ok = true
  | EReady _ => True
  | EDigest v d => exists alg data, s v = Some (alg, data) /\ H alg data = Some d
  end.
Ltac look v w := destruct (N.eq_dec v w) as [?EQ|?NE]; [|].
Lemma step_inv K H g s e g' : hashes K H -> inv K g s -> step K g e g' -> inv K g' (told s e) /\ answered H s e.
Proof.
  intros HH I S. destruct S as [g w alg c a U Nw F|g w alg U Nw|g w v h c a U O T F|g w v h U O T|g w a c B|g v h data O|g v h O|g v c T].
  - (* init *) destruct U as (U1 & U2 & U3). destruct F as (F1 & F2 & F3). split.
    + constructor; cbn [g_table g_owned g_boxed g_taken told].
      * intros v h O. destruct (i_owned K g s I v h O) as (Z & x & T & W). split; [exact Z|]. exists x. split; [exact T|].
        look v w; [congruence|]. now rewrite (proj2 (N.eqb_neq _ _) NE).
      * apply (i_one K g s I).
      * apply (i_no_leak K g s I).
      * intros v b d Q. look v w.
        -- rewrite EQ, put_same in Q. assert (b = a) by congruence. assert (d = c) by congruence. rewrite H0, H1, EQ, N.eqb_refl. split; [exact F1|]. split; [exact F2|]. split; [|exact U1].
           exists alg, c, []. split; [reflexivity|]. split; [exact Nw|reflexivity].
        -- rewrite put_other in Q by exact NE. rewrite (proj2 (N.eqb_neq _ _) NE). apply (i_boxed K g s I v b d Q).
      * intros v x b d d' Q1 Q2. look v w; look x w; [congruence| | |].
        -- rewrite EQ, put_same in Q1. rewrite put_other in Q2 by exact NE. exfalso. apply (F3 x d'). congruence.
        -- rewrite EQ, put_same in Q2. rewrite put_other in Q1 by exact NE. exfalso. apply (F3 v d). congruence.
        -- rewrite put_other in Q1, Q2 by assumption. apply (i_box_one K g s I _ _ _ _ _ Q1 Q2).
      * intros v d Q. destruct (i_taken K g s I v d Q) as (W & A & B). look v w; [congruence|]. rewrite (proj2 (N.eqb_neq _ _) NE), put_other by exact NE. auto.
    + cbn [answered]. specialize (HH alg). rewrite Nw in HH. specialize (HH []). cbn [concat] in HH. split; [congruence|reflexivity].
  - split; [destruct I; constructor; assumption|]. cbn [answered]. specialize (HH alg). rewrite Nw in HH. rewrite HH. split; [discriminate|intro X; now elim X].
  - (* dup *) destruct U as (U1 & U2 & U3). destruct F as (F1 & F2 & F3). destruct (i_owned K g s I v h O) as (_ & c' & T' & W'). assert (c' = c) by congruence. rewrite H0 in W'. split; [|reflexivity].
    constructor; cbn [g_table g_owned g_boxed g_taken told].
    + intros u k Q. destruct (i_owned K g s I u k Q) as (Z & x & T2 & W). split; [exact Z|]. exists x. split; [exact T2|].
      look u w; [congruence|]. now rewrite (proj2 (N.eqb_neq _ _) NE).
    + apply (i_one K g s I).
    + apply (i_no_leak K g s I).
    + intros u b d Q. look u w.
      * rewrite EQ, put_same in Q. assert (b = a) by congruence. assert (d = c) by congruence. rewrite H1, H2, EQ, N.eqb_refl. auto.
      * rewrite put_other in Q by exact NE. rewrite (proj2 (N.eqb_neq _ _) NE). apply (i_boxed K g s I u b d Q).
    + intros u x b d d' Q1 Q2. look u w; look x w; [congruence| | |].
      * rewrite EQ, put_same in Q1. rewrite put_other in Q2 by exact NE. exfalso. apply (F3 x d'). congruence.
      * rewrite EQ, put_same in Q2. rewrite put_other in Q1 by exact NE. exfalso. apply (F3 u d). congruence.
      * rewrite put_other in Q1, Q2 by assumption. apply (i_box_one K g s I _ _ _ _ _ Q1 Q2).
    + intros u d Q. destruct (i_taken K g s I u d Q) as (W & A & B). look u w; [congruence|]. rewrite (proj2 (N.eqb_neq _ _) NE), put_other by exact NE. auto.
  - exfalso. destruct (i_owned K g s I v h O) as (_ & c' & T' & _). congruence.
  - (* ready *) destruct (i_boxed K g s I w a c B) as (Z & T & W & O). split; [|exact Logic.I].
    constructor; cbn [g_table g_owned g_boxed g_taken told]; unfold table_insert.
    + intros u k Q. look u w.
      * rewrite EQ, put_same in Q. assert (k = a) by congruence. rewrite H0, EQ. split; [exact Z|]. exists c. rewrite put_same. auto.
      * rewrite put_other in Q by exact NE. destruct (i_owned K g s I u k Q) as (Z2 & x & T2 & W2). split; [exact Z2|]. exists x. rewrite put_other by congruence. auto.
    + intros u x k Q1 Q2. look u w; look x w; [congruence| | |].
      * rewrite EQ, put_same in Q1. rewrite put_other in Q2 by exact NE. destruct (i_owned K g s I x k Q2) as (_ & y & T2 & _). congruence.
      * rewrite EQ, put_same in Q2. rewrite put_other in Q1 by exact NE. destruct (i_owned K g s I u k Q1) as (_ & y & T2 & _). congruence.
      * rewrite put_other in Q1, Q2 by assumption. apply (i_one K g s I _ _ _ Q1 Q2).
    + intros k d Q. look k a; [exists w; rewrite put_same; congruence|]. rewrite put_other in Q by exact NE. destruct (i_no_leak K g s I k d Q) as (u & U). exists u. rewrite put_other; [exact U|congruence].
    + intros u b d Q. look u w; [rewrite EQ, put_same in Q; discriminate|]. rewrite put_other in Q by exact NE. destruct (i_boxed K g s I u b d Q) as (Z2 & T2 & W2 & O2).
      split; [exact Z2|]. split; [|split; [exact W2|now rewrite put_other by exact NE]]. rewrite put_other; [exact T2|]. intro E. apply NE. apply (i_box_one K g s I u w a d c); [congruence|exact B].
    + intros u x b d d' Q1 Q2. look u w; [rewrite EQ, put_same in Q1; discriminate|]. look x w; [rewrite EQ, put_same in Q2; discriminate|].
      rewrite put_other in Q1, Q2 by assumption. apply (i_box_one K g s I _ _ _ _ _ Q1 Q2).
    + intros u d Q. destruct (i_taken K g s I u d Q) as (W2 & A & A2). look u w; [congruence|]. rewrite !put_other by exact NE. auto.
  - (* update *) destruct (i_owned K g s I v h O) as (Z & c & T & W). unfold hash_ctx_update. rewrite T. cbn [fst snd]. split; [|reflexivity].
    assert (W2 : stands K (hs_update K c data) (option_map (fun p => (fst p, snd p ++ data)) (s v))).
    { destruct W as (alg & c0 & pieces & E & Nw & ->). exists alg, c0, (pieces ++ [data]). rewrite E, concat_app, fold_left_app. cbn [option_map fst snd concat fold_left]. rewrite app_nil_r. auto. }
    constructor; cbn [g_table g_owned g_boxed g_taken told].
    + intros u k Q. look u v.
      * rewrite EQ, N.eqb_refl. assert (k = h) by congruence. rewrite H0. split; [exact Z|]. eexists. rewrite put_same. split; [reflexivity|exact W2].
      * rewrite (proj2 (N.eqb_neq _ _) NE). destruct (i_owned K g s I u k Q) as (Z2 & x & T2 & W3). split; [exact Z2|]. exists x. rewrite put_other; [auto|]. intro E. apply NE. apply (i_one K g s I u v h); congruence.
    + apply (i_one K g s I).
    + intros k d Q. look k h; [exists v; congruence|]. rewrite put_other in Q by exact NE. apply (i_no_leak K g s I k d Q).
    + intros u b d Q. destruct (i_boxed K g s I u b d Q) as (Z2 & T2 & W3 & O2). look u v; [congruence|]. rewrite (proj2 (N.eqb_neq _ _) NE). rewrite put_other by congruence. auto.
    + apply (i_box_one K g s I).
    + intros u d Q. destruct (i_taken K g s I u d Q) as (W3 & A & A2). look u v; [congruence|]. rewrite (proj2 (N.eqb_neq _ _) NE). auto.
  - (* take *) destruct (i_owned K g s I v h O) as (Z & c & T & W). unfold table_remove. cbn [fst snd]. rewrite T. split; [|reflexivity].
    constructor; cbn [g_table g_owned g_boxed g_taken told].
    + intros u k Q. look u v; [rewrite EQ, put_same in Q; discriminate|]. rewrite put_other in Q by exact NE. destruct (i_owned K g s I u k Q) as (Z2 & x & T2 & W3). split; [exact Z2|]. exists x. rewrite put_other; [auto|].
      intro E. apply NE. apply (i_one K g s I u v h); congruence.
    + intros u x k Q1 Q2. look u v; [rewrite EQ, put_same in Q1; discriminate|]. look x v; [rewrite EQ, put_same in Q2; discriminate|]. rewrite put_other in Q1, Q2 by assumption. apply (i_one K g s I _ _ _ Q1 Q2).
    + intros k d Q. look k h; [rewrite EQ, put_same in Q; discriminate|]. rewrite put_other in Q by exact NE. destruct (i_no_leak K g s I k d Q) as (u & U). exists u. rewrite put_other; [exact U|congruence].
    + intros u b d Q. destruct (i_boxed K g s I u b d Q) as (Z2 & T2 & W3 & O2). split; [exact Z2|]. split; [|split; [exact W3|]].
      * look b h; [rewrite EQ, put_same; reflexivity|now rewrite put_other by exact NE].
      * look u v; [rewrite EQ, put_same; reflexivity|now rewrite put_other by exact NE].
    + apply (i_box_one K g s I).
    + intros u d Q. look u v.
      * rewrite EQ, put_same in Q. rewrite EQ, put_same. assert (d = c) by congruence. rewrite H0. split; [exact W|]. split; [reflexivity|]. destruct (g_boxed K g v) as [[b x]|] eqn:Bx; [|reflexivity]. destruct (i_boxed K g s I v b x Bx) as (_ & _ & _ & ?). congruence.
      * rewrite put_other in Q by exact NE. rewrite (put_other v None) by exact NE. apply (i_taken K g s I u d Q).
  - (* digest *) destruct (i_taken K g s I v c T) as (W & A & B). split.
    + destruct I as [I1 I2 I3 I4 I5 I6]. constructor; cbn [g_table g_owned g_boxed g_taken told]; auto.
      intros u d Q. look u v; [rewrite EQ, put_same in Q; discriminate|]. rewrite put_other in Q by exact NE. apply (I6 u d Q).
    + cbn [answered]. destruct W as (alg & c0 & pieces & E & Nw & ->). exists alg, (concat pieces). split; [exact E|]. specialize (HH alg). rewrite Nw in HH. apply HH.
Qed.
Lemma process_inv K H l g : hashes K H -> process K l g -> inv K g (written l) /\ forall l1 e l2, l = l1 ++ e :: l2 -> answered H (written l1) e.
Proof.
  intros HH P. induction P as [|l g e g' P (I & A) S].
  - split; [constructor; cbn; intros; discriminate|]. intros l1 e l2 E. destruct l1; discriminate.
  - destruct (step_inv K H g (written l) e g' HH I S) as (I2 & A2). rewrite written_snoc. split; [exact I2|].
    intros l1 e2 l2 E. destruct l2 as [|x l2 _] using rev_ind.
    + apply app_inj_tail in E as (-> & ->). exact A2.
    + rewrite app_comm_cons, app_assoc in E. apply app_inj_tail in E as (E & _). eapply A. exact E.
Qed.

(** In every execution of the process — any number of connections, sessions and threads, any order of
    their steps, any allocator that does not hand out memory in use: *)
Theorem C91_running_digests : forall K H l g l1 e l2, hashes K H -> process K l g -> l = l1 ++ e :: l2 ->
  match e with
  | EInit _ alg ok => ok = true <-> H alg [] <> None                           (* starting fails for unknown algorithms only *)
  | EDup _ _ ok | EUpdate _ _ ok | ETake _ ok => ok = true                     (* copying, appending, finishing never fail *)
  | EDigest v d => exists alg data, written l1 v = Some (alg, data) /\ H alg data = Some d (* and the digest is of what was written to it *)
  | EReady _ => True
  end.
Proof. intros K H l g l1 e l2 HH P E. destruct (process_inv K H l g HH P) as (_ & A). exact (A l1 e l2 E). Qed.
Print Assumptions C91_running_digests.

(** and nothing is left behind in the table: its entries are the values that exist, one each *)
Theorem C91_no_leak : forall K H l g, hashes K H -> process K l g ->
  (forall h, g_table K g h <> None <-> exists v, g_owned K g v = Some h) /\
  (forall v w h, g_owned K g v = Some h -> g_owned K g w = Some h -> v = w).
Proof.
  intros K H l g HH P. destruct (process_inv K H l g HH P) as (I & _). split; [|apply (i_one K g _ I)].
  intro h. split.
  - intro T. destruct (g_table K g h) as [c|] eqn:E; [|now elim T]. apply (i_no_leak K g _ I h c E).
  - intros (v & O). destruct (i_owned K g _ I v h O) as (_ & c & T & _). congruence.
Qed.
Print Assumptions C91_no_leak.

(** a hash library: remembers what it was given; two threads, one copying a digest while the other
    starts one in between, and memory used again *)
Definition toy_hasher : hasher := mkHasher (N * bytes) (fun a => if a =? 4 then None else Some (a, [])) (fun c d => (fst c, snd c ++ d)) (fun c => fst c :: snd c).
Definition toy_H (a : N) (d : bytes) : option bytes := if a =? 4 then None else Some (a :: d).
Lemma toy_hashes : hashes toy_hasher toy_H.
Proof.
  intro a. cbn [hs_new toy_hasher]. unfold toy_H. destruct (a =? 4); [reflexivity|]. intro p.
  assert (G : forall p c, fold_left (hs_update toy_hasher) p c = (fst c, snd c ++ concat p)).
  { induction p0 as [|x p0 IH]; intros [b y]; cbn [fold_left concat fst snd]; [now rewrite app_nil_r|]. rewrite IH. cbn [hs_update toy_hasher fst snd]. now rewrite app_assoc. }
  rewrite G. reflexivity.
Qed.
Definition toy_events : list event :=
  [EInit 1 2 true; EReady 1; EUpdate 1 [7; 8] true; EDup 2 1 true; EInit 3 1 true; EUpdate 1 [9] true; EReady 3; EReady 2; EUpdate 2 [6] true;
   ETake 1 true; EInit 4 2 true; EDigest 1 [2; 7; 8; 9]; EReady 4; EInit 5 4 false; ETake 2 true; EDigest 2 [2; 7; 8; 6]].
Ltac fr := split; [discriminate|split; [now vm_compute|intros w c; cbn [g_boxed]; unfold put, heap0; cbn [g_boxed]; repeat match goal with |- context [?x =? ?y] => destruct (x =? y) end; congruence]].
Ltac nxt e tac := match goal with P : process toy_hasher ?l ?g |- _ =>
  let Q := fresh in eassert (Q : step toy_hasher g e _); [tac|]; let R := fresh in pose proof (pr_step _ _ _ _ _ P Q) as R; clear P Q; unfold heap0 in R; cbn [g_table g_owned g_boxed g_taken app] in R end.
Example C91_case : exists g, process toy_hasher toy_events g /\ written toy_events 2 = Some (2, [7; 8; 6]) /\ g_owned toy_hasher g 4 = Some 100.
Proof.
  assert (P0 := pr_start toy_hasher).
  nxt (EInit 1 2 true) ltac:(apply (st_init toy_hasher) with (a := 100) (c := (2, [])); [split; [|split]; now vm_compute|now vm_compute|fr]).
  nxt (EReady 1) ltac:(apply (st_ready toy_hasher) with (a := 100) (c := (2, [])); now vm_compute).
  nxt (EUpdate 1 [7; 8] true) ltac:(apply (st_update toy_hasher) with (h := 100); now vm_compute).
  nxt (EDup 2 1 true) ltac:(apply (st_dup toy_hasher) with (a := 200) (h := 100) (c := (2, [7; 8])); [split; [|split]; now vm_compute|now vm_compute|now vm_compute|fr]).
  nxt (EInit 3 1 true) ltac:(apply (st_init toy_hasher) with (a := 300) (c := (1, [])); [split; [|split]; now vm_compute|now vm_compute|fr]).
  nxt (EUpdate 1 [9] true) ltac:(apply (st_update toy_hasher) with (h := 100); now vm_compute).
  nxt (EReady 3) ltac:(apply (st_ready toy_hasher) with (a := 300) (c := (1, [])); now vm_compute).
  nxt (EReady 2) ltac:(apply (st_ready toy_hasher) with (a := 200) (c := (2, [7; 8])); now vm_compute).
  nxt (EUpdate 2 [6] true) ltac:(apply (st_update toy_hasher) with (h := 200); now vm_compute).
  nxt (ETake 1 true) ltac:(apply (st_take toy_hasher) with (h := 100); now vm_compute).
  nxt (EInit 4 2 true) ltac:(apply (st_init toy_hasher) with (a := 100) (c := (2, [])); [split; [|split]; now vm_compute|now vm_compute|fr]).
  nxt (EDigest 1 [2; 7; 8; 9]) ltac:(apply (st_digest toy_hasher) with (c := (2, [7; 8; 9])); now vm_compute).
  nxt (EReady 4) ltac:(apply (st_ready toy_hasher) with (a := 100) (c := (2, [])); now vm_compute).
  nxt (EInit 5 4 false) ltac:(apply (st_init_bad toy_hasher); [split; [|split]; now vm_compute|now vm_compute]).
  nxt (ETake 2 true) ltac:(apply (st_take toy_hasher) with (h := 200); now vm_compute).
  nxt (EDigest 2 [2; 7; 8; 6]) ltac:(apply (st_digest toy_hasher) with (c := (2, [7; 8; 6])); now vm_compute).
  match goal with P : process toy_hasher _ ?g |- _ => exists g; split; [exact P|]; split; vm_compute; reflexivity end.
Qed.
