(** C28: no (key, nonce) pair is used twice. *)
From Coq Require Import Lia Permutation.
From Verif Require Import Bytes BytesFacts Status Algo Crypto KeySchedule Session Monad SpecSession SessionProofs.
Local Open Scope N_scope.

Inductive slot := L (l : lane) | Bq | Bp.
Definition slot_dir (s : session) (x : slot) : dir :=
  match x with L l => lane_dir l s | Bq => a_req_dir (s_backup s) | Bp => a_rsp_dir (s_backup s) end.
Definition active (q p : bool) (x : slot) : Prop :=
  match x with L _ => True | Bq => q = true | Bp => p = true end.

Record Inv (E : list (bytes * bytes)) (seen : list bytes) (s : session) (q p : bool) : Prop := {
  inv_used : forall x, active q p x -> forall e, In e E -> fst e = d_key (slot_dir s x) ->
     exists n, n < d_seq (slot_dir s x) /\ n < 2 ^ 64 /\ snd e = wire_nonce (d_salt (slot_dir s x)) n;
  inv_distinct : forall x y, active q p x -> active q p y -> x <> y ->
     d_key (slot_dir s x) = d_key (slot_dir s y) -> d_key (slot_dir s x) = [];
  inv_seen : forall e, In e E -> In (fst e) seen;
  inv_nodup : NoDup E
}.

Lemma lane_key_in l s : In (d_key (lane_dir l s)) (lane_keys s).
Proof. unfold lane_keys. apply (in_map (fun l => d_key (lane_dir l s))), in_lanes. Qed.

Lemma slot_key_in x s : In (d_key (slot_dir s x)) (held_keys s).
Proof. unfold held_keys. apply in_or_app. destruct x as [l| |]; [left; apply lane_key_in|right; cbn; tauto|right; cbn; tauto]. Qed.
Lemma inv_step E seen s q p s' q' p' (f : slot -> option slot) :
  Inv E seen s q p ->
  (forall x y, active q' p' x -> f x = Some y -> active q p y /\
     d_key (slot_dir s' x) = d_key (slot_dir s y) /\ d_salt (slot_dir s' x) = d_salt (slot_dir s y) /\
     d_seq (slot_dir s y) <= d_seq (slot_dir s' x)) ->
  (forall x, active q' p' x -> f x = None -> ~ In (d_key (slot_dir s' x)) (seen ++ held_keys s)) ->
  (forall x x' y, active q' p' x -> active q' p' x' -> f x = Some y -> f x' = Some y -> x = x') ->
  (forall x x', active q' p' x -> active q' p' x' -> x <> x' -> f x = None -> f x' = None ->
     d_key (slot_dir s' x) = d_key (slot_dir s' x') -> d_key (slot_dir s' x) = []) ->
  Inv E seen s' q' p'.
Proof.
  intros [I1 I2 I3 I5] H1 H2 H3 H4. constructor.
  - intros x Hx e He Hk. destruct (f x) as [y|] eqn:Ef.
    + destruct (H1 x y Hx Ef) as (Hy & K1 & K2 & K3). rewrite K1 in Hk.
      destruct (I1 y Hy e He Hk) as (n & N1 & N2 & N3). exists n. rewrite K2. repeat split; auto. lia.
    + exfalso. apply (H2 x Hx Ef). rewrite <- Hk. apply in_or_app. left. auto.
  - intros x x' Hx Hx' Hne Hk. destruct (f x) as [y|] eqn:Ef, (f x') as [y'|] eqn:Ef'.
    + destruct (H1 x y Hx Ef) as (Hy & K1 & _). destruct (H1 x' y' Hx' Ef') as (Hy' & K1' & _).
      rewrite K1. apply (I2 y y'); auto; [|congruence]. intro; subst y'. apply Hne. eauto.
    + destruct (H1 x y Hx Ef) as (Hy & K1 & _). exfalso. apply (H2 x' Hx' Ef'). rewrite <- Hk, K1.
      apply in_or_app. right. apply slot_key_in.
    + destruct (H1 x' y' Hx' Ef') as (Hy' & K1' & _). exfalso. apply (H2 x Hx Ef). rewrite Hk, K1'.
      apply in_or_app. right. apply slot_key_in.
    + eauto.
  - exact I3.
  - exact I5.
Qed.
Lemma inv_same E seen s q p s' :
  Inv E seen s q p ->
  (forall x, slot_dir s' x = slot_dir s x) -> Inv E seen s' q p.
Proof.
  intros HI H. apply (inv_step E seen s q p s' q p Some HI).
  - intros x y Hx Hy. assert (x = y) by congruence. subst y. rewrite H. repeat split; auto. lia.
  - discriminate.
  - congruence.
  - discriminate.
Qed.
Lemma slot_with_lane l d s x :
  slot_dir (with_lane l d s) x = match x with L l' => if lane_eq_dec l' l then d else lane_dir l' s | _ => slot_dir s x end.
Proof. destruct s, l, x as [[]| |]; reflexivity. Qed.
Lemma inv_bump E seen s q p l :
  Inv E seen s q p ->
  Inv E seen (let d := lane_dir l s in with_lane l (mkDir (d_key d) (d_salt d) (d_seq d + 1)) s) q p.
Proof.
  intro HI. cbn zeta. apply (inv_step E seen s q p _ q p Some HI).
  - intros x y Hx Hy. assert (x = y) by congruence. subst y. rewrite slot_with_lane.
    destruct x as [l'| |]; [destruct (lane_eq_dec l' l); [subst l'; cbn|cbn]|cbn|cbn]; repeat split; auto; lia.
  - discriminate.
  - congruence.
  - discriminate.
Qed.
Lemma inv_event E seen s q p l :
  Inv E seen s q p ->
  let d := lane_dir l s in
  d_key d <> [] -> len (d_salt d) = 12 -> d_seq d < 2 ^ 64 ->
  Inv ((d_key d, wire_nonce (d_salt d) (d_seq d)) :: E) (d_key d :: seen)
      (with_lane l (mkDir (d_key d) (d_salt d) (d_seq d + 1)) s) q p.
Proof.
  intros HI d Hk Hs Hq. pose proof (inv_bump E seen s q p l HI) as HI'. cbn zeta in HI'. fold d in HI'.
  set (s' := with_lane _ _ _) in *.
  assert (Hd : slot_dir s' (L l) = mkDir (d_key d) (d_salt d) (d_seq d + 1)).
  { unfold s'. rewrite slot_with_lane. destruct (lane_eq_dec l l); congruence. }
  destruct HI' as [J1 J2 J3 J5]. constructor.
  - intros x Hx e [He|He] Hke; [|eauto]. subst e. cbn [fst snd] in *.
    assert (x = L l).
    { assert (Hdec : x = L l \/ x <> L l).
      { destruct x as [l'| |]; [destruct (lane_eq_dec l' l); [left|right]; congruence|right; discriminate|right; discriminate]. }
      destruct Hdec as [|Hne]; auto. exfalso. apply Hk.
      rewrite <- (J2 x (L l) Hx I Hne); [exact Hke|]. rewrite <- Hke, Hd. reflexivity. }
    subst x. rewrite Hd. cbn. exists (d_seq d). repeat split; auto; lia.
  - exact J2.
  - intros e [He|He]; [subst e; left; reflexivity|right; auto].
  - constructor; auto. intro Hin. destruct (inv_used _ _ _ _ _ HI (L l) I _ Hin eq_refl) as (n & N1 & N2 & N3).
    cbn [slot_dir snd] in N1, N3. fold d in N1, N3.
    apply wire_nonce_inj in N3; auto; [lia|]. unfold len in Hs. lia.
Qed.

(** predicates kept by the key-deriving functions *)
Definition keeps {S A} (P : S -> Prop) (m : st S A) : Prop := forall s, P s -> P (snd (m s)).
Lemma keeps_bind {S A B} (P : S -> Prop) (m : st S A) (k : A -> st S B) :
  keeps P m -> (forall a, keeps P (k a)) -> keeps P (sbind m k).
Proof. intros Hm Hk s Hs. unfold sbind. specialize (Hm s Hs). destruct (m s) as [[a|e|] s1]; cbn in *; auto. apply Hk, Hm. Qed.
Lemma keeps_sof {S A} (P : S -> Prop) (o : outcome A) : keeps P (sof o).
Proof. intros s Hs. exact Hs. Qed.
Lemma keeps_sget {S} (P : S -> Prop) : keeps P (@sget S).
Proof. intros s Hs. exact Hs. Qed.
Lemma keeps_smod {S} (P : S -> Prop) f : (forall s, P s -> P (f s)) -> keeps P (@smod S f).
Proof. intros H s Hs. cbn. auto. Qed.
Lemma keeps_when {S} (P : S -> Prop) c m : (c = true -> keeps P m) -> keeps P (@swhen S c m).
Proof. intros H. destruct c; cbn; [auto|]. intros s Hs. exact Hs. Qed.
Ltac keep := repeat (first [apply keeps_bind; [|intro] | apply keeps_sof | apply keeps_sget | apply keeps_smod]).

Lemma hs_keeps_backup cr v th b : keeps (fun s => s_backup s = b) (generate_handshake_secret cr v th).
Proof. unfold generate_handshake_secret. keep; intros; destruct s; exact H. Qed.
Lemma data_keeps_backup cr v th b : keeps (fun s => s_backup s = b) (generate_data_secret cr v th).
Proof. unfold generate_data_secret. keep; intros; destruct s; exact H. Qed.
Lemma update_keeps_req cr v c d : keeps (fun s => a_req_dir (s_backup s) = d) (create_data_secret_update cr v false c).
Proof.
  unfold create_data_secret_update, update_req, update_rsp. apply keeps_bind; [|intro]; apply keeps_when.
  - discriminate.
  - intro. keep; intros s Hs; destruct s; exact Hs.
Qed.
Lemma update_keeps_rsp cr v c d : keeps (fun s => a_rsp_dir (s_backup s) = d) (create_data_secret_update cr v c false).
Proof.
  unfold create_data_secret_update, update_req, update_rsp. apply keeps_bind; [|intro]; apply keeps_when.
  - intro. keep; intros s Hs; destruct s; exact Hs.
  - discriminate.
Qed.
(** after a successful update the backup holds the previous direction *)
Lemma update_backup_req cr v c s u s' : create_data_secret_update cr v true c s = (Ok u, s') ->
  a_req_dir (s_backup s') = lane_dir AppReq s.
Proof.
  unfold create_data_secret_update. intro H. apply sbind_ok in H as (u' & s1 & H1 & H2). cbn [swhen] in H1.
  apply update_req_ok in H1 as (sec & k & _ & _ & ->).
  destruct c; cbn [swhen] in H2.
  - apply update_rsp_ok in H2 as (sec' & k' & _ & _ & ->). destruct s; reflexivity.
  - unfold sret in H2. assert (s' = set_s_backup (set_a_req_secret (a_req_secret (s_app s)) (set_a_req_dir (a_req_dir (s_app s)) (s_backup s)))
         (set_s_app (set_a_req_secret sec (set_a_req_dir (mkDir (fst k) (snd k) 0) (s_app s))) s)) by congruence. subst s'. destruct s; reflexivity.
Qed.
Lemma update_backup_rsp cr v c s u s' : create_data_secret_update cr v c true s = (Ok u, s') ->
  a_rsp_dir (s_backup s') = lane_dir AppRsp s.
Proof.
  unfold create_data_secret_update. intro H. apply sbind_ok in H as (u' & s1 & H1 & H2). cbn [swhen] in H2.
  apply update_rsp_ok in H2 as (sec' & k' & _ & _ & ->).
  destruct c; cbn [swhen] in H1.
  - apply update_req_ok in H1 as (sec & k & _ & _ & ->). destruct s; reflexivity.
  - unfold sret in H1. assert (s1 = s) by congruence. subst s1. destruct s; reflexivity.
Qed.

Lemma bytes_eq_dec (a b : bytes) : {a = b} + {a <> b}.
Proof. apply list_eq_dec, N.eq_dec. Qed.
Lemma dir_eq_dec (a b : dir) : {a = b} + {a <> b}.
Proof. decide equality; try apply bytes_eq_dec; apply N.eq_dec. Qed.

(** a key-deriving step, as far as the slots are concerned *)
Lemma inv_keys E seen s q p s' q' p' a b :
  Inv E seen s q p -> fresh_step seen s s' -> lanes_distinct s' ->
  (a = true -> ~ In (d_key (lane_dir AppReq s')) (seen ++ held_keys s)) ->
  (b = true -> ~ In (d_key (lane_dir AppRsp s')) (seen ++ held_keys s)) ->
  (q' = true -> if a then a_req_dir (s_backup s') = lane_dir AppReq s
                else q = true /\ a_req_dir (s_backup s') = a_req_dir (s_backup s)) ->
  (p' = true -> if b then a_rsp_dir (s_backup s') = lane_dir AppRsp s
                else p = true /\ a_rsp_dir (s_backup s') = a_rsp_dir (s_backup s)) ->
  Inv E seen s' q' p'.
Proof.
  intros HI Hf Hd Ha Hb Hq Hp.
  set (f := fun x => match x with
    | L l => if dir_eq_dec (lane_dir l s') (lane_dir l s) then Some (L l) else None
    | Bq => Some (if a then L AppReq else Bq) | Bp => Some (if b then L AppRsp else Bp) end).
  assert (Hchg : forall l, ~ In (d_key (lane_dir l s')) (seen ++ held_keys s) -> lane_dir l s' <> lane_dir l s).
  { intros l Hn He. apply Hn. rewrite He. apply in_or_app. right. apply (slot_key_in (L l)). }
  assert (FL : forall l y, f (L l) = Some y -> y = L l /\ lane_dir l s' = lane_dir l s).
  { intros l y. cbn. destruct (dir_eq_dec _ _); intro; [split; congruence|discriminate]. }
  apply (inv_step E seen s q p s' q' p' f HI).
  - intros x y Hx Hy. destruct x as [l| |].
    + apply FL in Hy as [-> He]. cbn. rewrite He. repeat split; auto. lia.
    + cbn in Hx, Hy. specialize (Hq Hx). assert (y = if a then L AppReq else Bq) by congruence. subst y.
      destruct a; cbn.
      * rewrite Hq. repeat split; auto. cbn. lia.
      * destruct Hq as [Hq1 Hq2]. rewrite Hq2. repeat split; auto. lia.
    + cbn in Hx, Hy. specialize (Hp Hx). assert (y = if b then L AppRsp else Bp) by congruence. subst y.
      destruct b; cbn.
      * rewrite Hp. repeat split; auto. cbn. lia.
      * destruct Hp as [Hp1 Hp2]. rewrite Hp2. repeat split; auto. lia.
  - intros x Hx Hn. destruct x as [l| |]; cbn in Hn; try discriminate.
    destruct (dir_eq_dec _ _); [discriminate|]. destruct (Hf l (in_lanes l)); [contradiction|assumption].
  - assert (Xq : a = true -> f (L AppReq) = None).
    { intro X. cbn. destruct (dir_eq_dec _ _) as [e|]; [|reflexivity]. exfalso. exact (Hchg _ (Ha X) e). }
    assert (Xp : b = true -> f (L AppRsp) = None).
    { intro X. cbn. destruct (dir_eq_dec _ _) as [e|]; [|reflexivity]. exfalso. exact (Hchg _ (Hb X) e). }
    intros x x' y Hx Hx' H1 H2. destruct x as [l| |], x' as [l'| |]; try reflexivity.
    + apply FL in H1 as [-> _]. apply FL in H2 as [H2 _]. congruence.
    + apply FL in H1 as [-> H1']. cbn in H2. destruct a; [|discriminate]. assert (l = AppReq) by congruence. subst l.
      exfalso. exact (Hchg _ (Ha eq_refl) H1').
    + apply FL in H1 as [-> H1']. cbn in H2. destruct b; [|discriminate]. assert (l = AppRsp) by congruence. subst l.
      exfalso. exact (Hchg _ (Hb eq_refl) H1').
    + apply FL in H2 as [-> H2']. cbn in H1. destruct a; [|discriminate]. assert (l' = AppReq) by congruence. subst l'.
      exfalso. exact (Hchg _ (Ha eq_refl) H2').
    + cbn in H1, H2. destruct a, b; congruence.
    + apply FL in H2 as [-> H2']. cbn in H1. destruct b; [|discriminate]. assert (l' = AppRsp) by congruence. subst l'.
      exfalso. exact (Hchg _ (Hb eq_refl) H2').
    + cbn in H1, H2. destruct a, b; congruence.
  - intros x x' Hx Hx' Hne H1 H2 Hk. destruct x as [l| |], x' as [l'| |]; try discriminate.
    apply (Hd l l'); auto using in_lanes. congruence.
Qed.

(** every counter is a u64 *)
Definition U (s : session) : Prop := forall x, d_seq (slot_dir s x) < 2 ^ 64.
Lemma U_intro s : d_seq (h_req_dir (s_hs s)) < 2 ^ 64 -> d_seq (h_rsp_dir (s_hs s)) < 2 ^ 64 ->
  d_seq (a_req_dir (s_app s)) < 2 ^ 64 -> d_seq (a_rsp_dir (s_app s)) < 2 ^ 64 ->
  d_seq (a_req_dir (s_backup s)) < 2 ^ 64 -> d_seq (a_rsp_dir (s_backup s)) < 2 ^ 64 -> U s.
Proof. intros. intros [[]| |]; assumption. Qed.
Ltac uslots H :=
  pose proof (H (L HsReq)); pose proof (H (L HsRsp)); pose proof (H (L AppReq)); pose proof (H (L AppRsp));
  pose proof (H Bq); pose proof (H Bp).
Ltac usolve :=
  let s := fresh "s" in let Hs := fresh "Hs" in
  intros s Hs; uslots Hs; destruct s; cbn in *; apply U_intro; cbn; first [assumption | reflexivity].
Lemma U_hs cr v th : keeps U (generate_handshake_secret cr v th).
Proof. unfold generate_handshake_secret. keep; usolve. Qed.
Lemma U_data cr v th : keeps U (generate_data_secret cr v th).
Proof. unfold generate_data_secret. keep; usolve. Qed.
Lemma U_update cr v a b : keeps U (create_data_secret_update cr v a b).
Proof.
  unfold create_data_secret_update, update_req, update_rsp. apply keeps_bind; [|intro]; apply keeps_when; intro; keep; usolve.
Qed.
Lemma U_activate a b c s : U s -> U (activate_data_secret_update a b c s).
Proof.
  intro Hs. uslots Hs. unfold activate_data_secret_update. destruct s; cbn in *. destruct a, b, c; cbn;
  apply U_intro; cbn; first [assumption | reflexivity].
Qed.
Lemma U_bump s l : U s -> d_seq (lane_dir l s) <> U64_MAX ->
  U (let d := lane_dir l s in with_lane l (mkDir (d_key d) (d_salt d) (d_seq d + 1)) s).
Proof.
  intros Hs Hn x. cbn zeta. rewrite slot_with_lane. destruct x as [l'| |]; [|apply (Hs Bq)|apply (Hs Bp)].
  destruct (lane_eq_dec l' l); [|apply (Hs (L l'))]. cbn.
  pose proof (Hs (L l)) as X. cbn [slot_dir] in X. unfold U64_MAX in Hn. lia.
Qed.

Lemma encode_cases cr req app room s r s' :
  encode_secured cr req app room s = (r, s') ->
  s' = s \/ (d_seq (lane_dir (cur_lane req s) s) <> U64_MAX /\
     s' = (let d := lane_dir (cur_lane req s) s in with_lane (cur_lane req s) (mkDir (d_key d) (d_salt d) (d_seq d + 1)) s)).
Proof.
  unfold encode_secured. intro H.
  assert (X : forall r0 : outcome bytes, match bump req s with None => (Panic, s) | Some s1 => (r0, s1) end = (r, s') ->
    s' = s \/ (d_seq (lane_dir (cur_lane req s) s) <> U64_MAX /\
     s' = (let d := lane_dir (cur_lane req s) s in with_lane (cur_lane req s) (mkDir (d_key d) (d_salt d) (d_seq d + 1)) s))).
  { intros r0 X. destruct (bump req s) as [s1|] eqn:Eb; [|left; congruence]. apply bump_eq in Eb as [Hn Eb].
    right. rewrite get_dir_lane in Hn. rewrite get_dir_lane, with_lane_set_dir in Eb. assert (s' = s1) by congruence. subst s1. auto. }
  destruct (s_state s); try (left; congruence); (destruct (encode_msg _ _ _ _ _); [eauto|eauto|left; congruence]).
Qed.
Lemma decode_cases cr req m room s r s' :
  decode_secured cr req m room s = (r, s') ->
  s' = s \/ (d_seq (lane_dir (cur_lane req s) s) <> U64_MAX /\
     s' = (let d := lane_dir (cur_lane req s) s in with_lane (cur_lane req s) (mkDir (d_key d) (d_salt d) (d_seq d + 1)) s)).
Proof.
  intro H. apply decode_secured_cases in H as [(_ & _ & ->)|[(_ & _ & ->)|(_ & _ & _ & Hn & ->)]]; auto.
  right. rewrite get_dir_lane in *. rewrite with_lane_set_dir. auto.
Qed.

Lemma slot_activate a b s x : slot_dir (activate_data_secret_update a b false s) x =
  match x with
  | L AppReq => if a then slot_dir s Bq else slot_dir s x
  | L AppRsp => if b then slot_dir s Bp else slot_dir s x
  | _ => slot_dir s x
  end.
Proof. unfold activate_data_secret_update. cbn [negb]. destruct s, a, b, x as [[]| |]; reflexivity. Qed.
Lemma slot_commit a b s x : slot_dir (activate_data_secret_update a b true s) x =
  match x with
  | Bq => if a then mkDir [] [] 0 else slot_dir s x
  | Bp => if b then mkDir [] [] 0 else slot_dir s x
  | _ => slot_dir s x
  end.
Proof. unfold activate_data_secret_update. cbn [negb]. destruct s, a, b, x as [[]| |]; reflexivity. Qed.

Lemma nonce_main cr os : forall s E seen q p,
  Inv E seen s q p -> U s -> fresh_history cr os seen s -> disciplined cr os q p s ->
  NoDup (sealed_run cr os s ++ E).
Proof.
  induction os as [|o os IH]; intros s E seen q p HI HU Hf Hd; [exact (inv_nodup _ _ _ _ _ HI)|].
  cbn [fresh_history] in Hf. destruct Hf as [Hf Hfr]. cbn [sealed_run].
  destruct o as [r a room|r m room|v th|v th|v a b|a b|a b|x].
  - (* encode *)
    cbn [disciplined] in Hd. cbn [sealed_with sop_run] in *.
    destruct (encode_secured cr r a room s) as [res s'] eqn:Ee. cbn [fst snd] in *.
    destruct res as [w|e|].
    + apply encode_secured_ok in Ee as (Hl & He & Hs').
      apply encode_msg_ok in He as (tag & c & t & Ht & Hi & Hk & Hn & _).
      rewrite get_dir_lane in *. rewrite with_lane_set_dir in Hs'.
      set (l := cur_lane r s) in *. set (d := lane_dir l s) in *.
      change (set_d_seq (d_seq d + 1) d) with (mkDir (d_key d) (d_salt d) (d_seq d + 1)) in Hs'.
      destruct (aead_sizes _ _ Ht) as (_ & Hiv & k & Hks & Hk16).
      assert (Hkey : d_key d <> []).
      { intro X. rewrite X in Hk. cbn in Hk. assert (k = 0) by congruence. lia. }
      assert (Hsalt : len (d_salt d) = 12) by congruence.
      pose proof (inv_event E seen s q p l HI Hkey Hsalt (HU (L l))) as HI'. fold d in HI'.
      rewrite <- Hs' in HI'.
      assert (HU' : U s') by (rewrite Hs'; apply (U_bump s l HU Hn)).
      specialize (IH s' _ _ _ _ HI' HU' Hfr Hd). cbn [app].
      eapply Permutation_NoDup; [|exact IH]. apply Permutation_sym, Permutation_middle.
    + cbn [app]. apply encode_cases in Ee as [->|[Hn ->]].
      * refine (IH _ _ _ _ _ _ HU Hfr Hd). apply (inv_same E seen s); auto.
      * refine (IH _ _ _ _ _ _ _ Hfr Hd); [apply inv_bump; exact HI|apply U_bump; auto].
    + cbn [app]. apply encode_cases in Ee as [->|[Hn ->]].
      * refine (IH _ _ _ _ _ _ HU Hfr Hd). apply (inv_same E seen s); auto.
      * refine (IH _ _ _ _ _ _ _ Hfr Hd); [apply inv_bump; exact HI|apply U_bump; auto].
  - (* decode *)
    cbn [disciplined] in Hd. cbn [sealed_with sop_run app] in *.
    destruct (decode_secured cr r m room s) as [res s'] eqn:Ee. cbn [fst snd] in *.
    apply decode_cases in Ee as [->|[Hn ->]].
    + refine (IH _ _ _ _ _ _ HU Hfr Hd). apply (inv_same E seen s); auto.
    + refine (IH _ _ _ _ _ _ _ Hfr Hd); [apply inv_bump; exact HI|apply U_bump; auto].
  - (* handshake keys *)
    cbn [disciplined] in Hd. cbn [sealed_with sop_run app] in *. destruct Hf as [F1 F2].
    pose proof (hs_keeps_backup cr v th (s_backup s) s eq_refl) as Hb. cbn beta in Hb.
    refine (IH _ _ _ _ _ _ _ Hfr Hd); [|exact (U_hs cr v th s HU)].
    apply (inv_keys E seen s q p _ q p false false); auto; try discriminate; intro; split; auto; now rewrite Hb.
  - cbn [disciplined] in Hd. cbn [sealed_with sop_run app] in *. destruct Hf as [F1 F2].
    pose proof (data_keeps_backup cr v th (s_backup s) s eq_refl) as Hb. cbn beta in Hb.
    refine (IH _ _ _ _ _ _ _ Hfr Hd); [|exact (U_data cr v th s HU)].
    apply (inv_keys E seen s q p _ q p false false); auto; try discriminate; intro; split; auto; now rewrite Hb.
  - (* update *)
    cbn [disciplined] in Hd. cbn [sealed_with sop_run app] in *. destruct Hf as (F1 & F2 & F3).
    pose proof (U_update cr v a b s HU) as HU'.
    pose proof (fun X : a = false => ltac:(rewrite X; exact (update_keeps_req cr v b _ s eq_refl)) :
       a_req_dir (s_backup (snd (create_data_secret_update cr v a b s))) = a_req_dir (s_backup s)) as Kq.
    pose proof (fun X : b = false => ltac:(rewrite X; exact (update_keeps_rsp cr v a _ s eq_refl)) :
       a_rsp_dir (s_backup (snd (create_data_secret_update cr v a b s))) = a_rsp_dir (s_backup s)) as Kp.
    destruct (create_data_secret_update cr v a b s) as [res s'] eqn:Eu. cbn [fst snd] in *.
    destruct res as [u|e|].
    + destruct u. destruct (F3 eq_refl) as [Fa Fb].
      refine (IH _ _ _ _ _ _ HU' Hfr Hd).
      apply (inv_keys E seen s q p s' (a || q) (b || p) a b); auto.
      * intro Hq. destruct a; [eapply update_backup_req; eauto|cbn in Hq; split; [exact Hq|auto]].
      * intro Hp. destruct b; [eapply update_backup_rsp; eauto|cbn in Hp; split; [exact Hp|auto]].
    + refine (IH _ _ _ _ _ _ HU' Hfr Hd).
      apply (inv_keys E seen s q p s' (negb a && q) (negb b && p) false false); auto; try discriminate.
      * intro Hq. apply andb_prop in Hq as [X Y]. apply negb_true_iff in X. auto.
      * intro Hq. apply andb_prop in Hq as [X Y]. apply negb_true_iff in X. auto.
    + refine (IH _ _ _ _ _ _ HU' Hfr Hd).
      apply (inv_keys E seen s q p s' (negb a && q) (negb b && p) false false); auto; try discriminate.
      * intro Hq. apply andb_prop in Hq as [X Y]. apply negb_true_iff in X. auto.
      * intro Hq. apply andb_prop in Hq as [X Y]. apply negb_true_iff in X. auto.
  - (* commit *)
    cbn [disciplined] in Hd. cbn [sealed_with sop_run app] in *.
    refine (IH _ _ _ _ _ _ _ Hfr Hd); [|apply U_activate; exact HU].
    apply (inv_step E seen s q p _ _ _ Some HI); try discriminate; try congruence; try (split; discriminate).
    intros x y Hx Hy. assert (x = y) by congruence. subst y. rewrite slot_commit.
    destruct x as [l| |]; cbn in Hx |- *.
    + repeat split; auto. lia.
    + apply andb_prop in Hx as [X Y]. apply negb_true_iff in X. subst a. repeat split; auto. lia.
    + apply andb_prop in Hx as [X Y]. apply negb_true_iff in X. subst b. repeat split; auto. lia.
  - (* rollback *)
    cbn [disciplined] in Hd. cbn [sealed_with sop_run app] in *. destruct Hd as (Da & Db & Hd).
    refine (IH _ _ _ _ _ _ _ Hfr Hd); [|apply U_activate; exact HU].
    set (f := fun x => match x with
       | L AppReq => Some (if a then Bq else L AppReq)
       | L AppRsp => Some (if b then Bp else L AppRsp)
       | _ => Some x end).
    apply (inv_step E seen s q p _ _ _ f HI).
    + intros x y Hx Hy. rewrite slot_activate. destruct x as [[]| |]; cbn in Hx, Hy; 
      try (assert (y = if a then Bq else L AppReq) by congruence; subst y; destruct a; cbn; repeat split; auto; lia);
      try (assert (y = if b then Bp else L AppRsp) by congruence; subst y; destruct b; cbn; repeat split; auto; lia);
      try (match type of Hy with Some ?z = Some ?w => assert (w = z) by congruence; subst w end; cbn; repeat split; auto; try lia;
           apply andb_prop in Hx as [X Y]; exact Y).
    + intros x _ Hn. destruct x as [[]| |]; discriminate.
    + intros x x' y Hx Hx' H1 H2. destruct x as [[]| |], x' as [[]| |], a, b; cbn in *; try reflexivity; try congruence.
    + intros x x' _ _ _ Hn. destruct x as [[]| |]; discriminate.
  - cbn [disciplined] in Hd. cbn [sealed_with sop_run app] in *.
    refine (IH _ _ _ _ _ _ _ Hfr Hd); [apply (inv_same E seen s); auto; intros [[]| |]; destruct s; reflexivity|].
    intros [[]| |]; [apply (HU (L HsReq))|apply (HU (L HsRsp))|apply (HU (L AppReq))|apply (HU (L AppRsp))|apply (HU Bq)|apply (HU Bp)].
Qed.

Lemma nonce_unique cr os s :
  lanes_distinct s -> (forall l, In l lanes -> d_seq (lane_dir l s) < 2 ^ 64) ->
  d_seq (a_req_dir (s_backup s)) < 2 ^ 64 -> d_seq (a_rsp_dir (s_backup s)) < 2 ^ 64 ->
  fresh_history cr os [] s -> disciplined cr os false false s ->
  NoDup (sealed_run cr os s).
Proof.
  intros Hd Hl Hq Hp Hf Hdis. rewrite <- (app_nil_r (sealed_run cr os s)).
  eapply nonce_main; eauto.
  - constructor; cbn.
    + intros x _ e [].
    + intros x y Hx Hy Hne Hk. destruct x as [l| |], y as [l'| |]; cbn in *; try discriminate.
      apply (Hd l l'); auto using in_lanes. congruence.
    + intros e [].
    + constructor.
  - intros [l| |]; cbn; auto using in_lanes.
Qed.
