(** Lemmas about Parse.v: round-trip, locality and panic-freedom are
    established compositionally. *)
From Verif Require Import Bytes BytesFacts Codec CodecProofs Parse.
Local Open Scope N_scope.

(** ** encoder algebra *)
Lemma xwire_app a b :
  xwire (a ++ b) = match xwire a, xwire b with Some x, Some y => Some (x ++ y) | _, _ => None end.
Proof.
  induction a as [|[c n|] a IH]; cbn [xwire app]; auto.
  - destruct (xwire b); reflexivity.
  - rewrite IH. destruct (xwire a), (xwire b); auto. rewrite app_assoc; reflexivity.
Qed.

Lemma xwire_of cs : xwire (x_of cs) = Some (wire cs).
Proof. induction cs as [|c cs IH]; cbn; auto. unfold x_of in IH. rewrite IH. reflexivity. Qed.

Lemma xcount_app a b : xcount (a ++ b) = xcount a + xcount b.
Proof. induction a as [|[c n|] a IH]; cbn [xcount app]; rewrite ?IH; lia. Qed.

Lemma xcount_of cs : xcount (x_of cs) = len (wire cs).
Proof.
  induction cs as [|c cs IH]; cbn; auto. unfold x_of in IH. rewrite IH, len_app. reflexivity.
Qed.

Lemma xwire_arr_cnt l n : xwire (x_arr_cnt l n) = Some l.
Proof.
  unfold x_arr_cnt. induction l as [|b l IH]; cbn; auto. rewrite IH. reflexivity.
Qed.
Lemma xcount_arr_cnt l n : xcount (x_arr_cnt l n) = n.
Proof.
  unfold x_arr_cnt. rewrite xcount_app. cbn [xcount].
  replace (xcount (map (fun b => EC [b] 0) l)) with 0; [lia|].
  induction l as [|b l IH]; cbn [map xcount]; auto.
Qed.

(** running an encoder whose wire form is known *)
Lemma xemit_spec e : forall w acc bs,
  writer_ok w -> xwire e = Some bs ->
  match xemit e w acc with
  | XOk w' n =>
      (length bs <= w_left w)%nat /\ writer_ok w' /\ length (w_buf w') = length (w_buf w) /\
      w_offs w' = (w_offs w + length bs)%nat /\ w_used_slice w' = w_used_slice w ++ bs /\
      skipn (w_offs w') (w_buf w') = skipn (w_offs w') (w_buf w) /\ n = acc + xcount e
  | XErr w' =>
      (w_left w < length bs)%nat /\ writer_ok w' /\ length (w_buf w') = length (w_buf w) /\
      (exists done todo, bs = done ++ todo /\ todo <> [] /\
         w_offs w' = (w_offs w + length done)%nat /\ w_used_slice w' = w_used_slice w ++ done) /\
      skipn (w_offs w') (w_buf w') = skipn (w_offs w') (w_buf w)
  | XPanic => False
  end.
Proof.
  induction e as [|[b n|] e IH]; intros w acc bs H HW; cbn [xemit xwire xcount] in *.
  - inversion HW; subst. simpl. repeat split; auto; try lia. rewrite app_nil_r; auto.
  - destruct (xwire e) as [ws|] eqn:EW; [|discriminate]. inversion HW; subst; clear HW.
    pose proof (w_extend_spec w b H) as HS. unfold w_left in *.
    destruct (w_extend w b) as [w1|] eqn:E1.
    + destruct HS as (O1 & L1 & F1 & U1 & S1). specialize (IH w1 (acc + n) ws O1 eq_refl).
      destruct (xemit e w1 (acc + n)) as [w2 m|w2|]; auto.
      * destruct IH as (HL & O2 & L2 & F2 & U2 & S2 & C2). unfold writer_ok in *.
        rewrite app_length. repeat split; try lia.
        -- rewrite U2, U1, app_assoc; reflexivity.
        -- rewrite S2, F2, <- !(skipn_skipn (length ws)), S1. reflexivity.
      * destruct IH as (HL & O2 & L2 & (dn & td & Hd & Ht & F2 & U2) & S2). unfold writer_ok in *.
        rewrite app_length. repeat split; try lia.
        -- exists (b ++ dn), td. rewrite Hd, app_length, <- app_assoc. repeat split; auto; try lia.
           rewrite U2, U1, app_assoc; reflexivity.
        -- rewrite S2, F2, <- !(skipn_skipn (length dn)), S1. reflexivity.
    + rewrite app_length. repeat split; auto; try lia.
      exists [], (b ++ ws). repeat split; simpl; auto.
      * intro E. apply app_eq_nil in E as [-> _]. simpl in HS. lia.
      * rewrite app_nil_r; auto.
  - discriminate.
Qed.

(** ** round trips, composed *)
Definition rt {A} (e : enc) (d : dec A) (a : A) : Prop :=
  exists w, xwire e = Some w /\ xcount e = len w /\ forall rest, d (w ++ rest) = POk a rest.

Lemma rt_ret {A} (a : A) : rt [] (dret a) a.
Proof. exists []. repeat split; auto. Qed.

Lemma rt_bind {A B} e1 e2 (d : dec A) (k : A -> dec B) a b :
  rt e1 d a -> rt e2 (k a) b -> rt (e1 ++ e2) (dbind d k) b.
Proof.
  intros (w1 & W1 & C1 & D1) (w2 & W2 & C2 & D2). exists (w1 ++ w2).
  rewrite xwire_app, W1, W2, xcount_app, C1, C2, len_app. repeat split; auto.
  intro rest. unfold dbind. rewrite <- app_assoc, D1. apply D2.
Qed.

Lemma rt_bind_last {A B} e1 (d : dec A) (k : A -> dec B) a b :
  rt e1 d a -> rt [] (k a) b -> rt e1 (dbind d k) b.
Proof. intros H1 H2. rewrite <- (app_nil_r e1). eapply rt_bind; eauto. Qed.

Lemma rt_nil_bind {A B} e (d : dec A) (k : A -> dec B) a b :
  (forall l, d l = POk a l) -> rt e (k a) b -> rt e (dbind d k) b.
Proof.
  intros H (w & W & C & D). exists w. repeat split; auto. intro rest. unfold dbind. rewrite H. apply D.
Qed.

Lemma rt_guard {A} e c (k : dec A) a : c = true -> rt e k a -> rt e (dguard c k) a.
Proof. intros -> H; exact H. Qed.

Lemma rt_assert {A} e c (d : dec A) a : c = true -> rt e d a -> rt (x_assert c ++ e) d a.
Proof. intros -> H; exact H. Qed.

Lemma rt_size {A B} e (o : option A) (k : A -> dec B) n b :
  o = Some n -> rt e (k n) b -> rt e (dbind (dsize o) k) b.
Proof. intros -> H. apply rt_nil_bind with (a := n); auto. Qed.

Lemma rt_opt {A B} e (o : option A) (k : A -> dec B) n b :
  o = Some n -> rt e (k n) b -> rt e (dbind (dopt o) k) b.
Proof. intros -> H. apply rt_nil_bind with (a := n); auto. Qed.

Lemma rt_retbind {A B} e (x : A) (k : A -> dec B) b :
  rt e (k x) b -> rt e (dbind (dret x) k) b.
Proof. apply rt_nil_bind. reflexivity. Qed.

Lemma rt_of {A} cs (d : dec A) a : (forall rest, d (wire cs ++ rest) = POk a rest) -> rt (x_of cs) d a.
Proof. intro H. exists (wire cs). rewrite xwire_of, xcount_of. auto. Qed.

Lemma rt_u8 v : rt (x_u8 v) d_u8 v.
Proof. apply rt_of. reflexivity. Qed.

Lemma dlift_le n v rest : v < 256 ^ N.of_nat n -> dlift (p_le n) (le_bytes n v ++ rest) = POk v rest.
Proof. intro H. unfold dlift. rewrite p_le_app; auto. Qed.

Lemma rt_u16 v : v < 65536 -> rt (x_u16 v) d_u16 v.
Proof. intro H. apply rt_of. intro rest. rewrite wire_u16. apply dlift_le. exact H. Qed.
Lemma rt_u24 v : v < 16777216 -> rt (x_u24 v) d_u24 v.
Proof. intro H. apply rt_of. intro rest. rewrite wire_u24. apply dlift_le. exact H. Qed.
Lemma rt_u32 v : v < 4294967296 -> rt (x_u32 v) d_u32 v.
Proof. intro H. apply rt_of. intro rest. rewrite wire_u32. apply dlift_le. exact H. Qed.
Lemma rt_u64 v : v < 2 ^ 64 -> rt (x_u64 v) d_u64 v.
Proof. intro H. apply rt_of. intro rest. rewrite wire_u64. apply dlift_le. exact H. Qed.
Lemma rt_u128 v : v < 2 ^ 128 -> rt (x_u128 v) d_u128 v.
Proof. intro H. apply rt_of. intro rest. rewrite wire_u128. apply dlift_le. exact H. Qed.

Lemma d_arr_app n a rest : length a = n -> d_arr n (a ++ rest) = POk a rest.
Proof. intro H. unfold d_arr, dlift. rewrite p_arr_app; auto. Qed.

Lemma rt_arr n a : length a = n -> rt (x_arr a) (d_arr n) a.
Proof. intro H. apply rt_of. intro rest. rewrite wire_arr. apply d_arr_app; auto. Qed.

Lemma rt_slice n a : length a = n -> rt (x_slice a) (d_arr n) a.
Proof. intro H. apply rt_of. intro rest. rewrite wire_slice. apply d_arr_app; auto. Qed.

(** an array of [max] bytes whose bytes from [n] on are zero *)
Definition padded (max : nat) (n : N) (a : bytes) : Prop :=
  exists b, length b = N.to_nat n /\ (length b <= max)%nat /\ a = pad_to max b.

Lemma padded_length max n a : padded max n a -> length a = max.
Proof. intros (b & _ & _ & ->). apply pad_to_length. Qed.

Lemma padded_firstn max n a : padded max n a -> length (firstn (N.to_nat n) a) = N.to_nat n.
Proof. intros (b & H1 & H2 & ->). rewrite <- H1, pad_to_firstn; auto. Qed.

Lemma padded_eq max n a : padded max n a -> a = pad_to max (firstn (N.to_nat n) a).
Proof. intros (b & H1 & H2 & ->). rewrite <- H1, pad_to_firstn; auto. Qed.

Lemma padded_le max n a : padded max n a -> n <= N.of_nat max.
Proof. intros (b & H1 & H2 & _). lia. Qed.

Lemma padded_intro max b : (length b <= max)%nat -> padded max (len b) (pad_to max b).
Proof. intro H. exists b. unfold len. rewrite Nat2N.id. auto. Qed.

Lemma pad_to_nil max : pad_to max [] = fill max 0.
Proof. unfold pad_to. rewrite firstn_nil, Nat.sub_0_r. reflexivity. Qed.

Lemma padded_0 max : padded max 0 (fill max 0).
Proof. exists []. simpl. repeat split; try lia. symmetry; apply pad_to_nil. Qed.

Lemma d_fixed_app max n a rest :
  padded max n a -> d_fixed max n (firstn (N.to_nat n) a ++ rest) = POk a rest.
Proof.
  intros H. pose proof (padded_le _ _ _ H) as HL. unfold d_fixed.
  rewrite d_arr_app by (rewrite (padded_firstn max n a H); lia).
  rewrite <- padded_eq; auto.
Qed.

Lemma rt_fixed max n a : padded max n a -> rt (x_arr (firstn (N.to_nat n) a)) (d_fixed max n) a.
Proof. intro H. apply rt_of. intro rest. rewrite wire_arr. apply d_fixed_app; auto. Qed.

Lemma rt_fixed_cnt max n a :
  padded max n a -> rt (x_arr_cnt (firstn (N.to_nat n) a) n) (d_fixed max n) a.
Proof.
  intro H. exists (firstn (N.to_nat n) a). rewrite xwire_arr_cnt, xcount_arr_cnt.
  repeat split.
  - unfold len. rewrite (padded_firstn max n a H). lia.
  - intro rest. apply d_fixed_app; auto.
Qed.

Lemma rt_arr_cnt n a : length a = n -> rt (x_arr_cnt a (len a)) (d_arr n) a.
Proof.
  intro H. exists a. rewrite xwire_arr_cnt, xcount_arr_cnt. repeat split; auto.
  intro rest. apply d_arr_app; auto.
Qed.

Lemma rt_if {A} e1 e2 (b : bool) (d1 d2 : dec A) a :
  (b = true -> rt e1 d1 a) -> (b = false -> rt e2 d2 a) ->
  rt (if b then e1 else e2) (if b then d1 else d2) a.
Proof. destruct b; auto. Qed.

(** ** locality *)
Definition dlocal {A} (d : dec A) : Prop :=
  forall l a r, d l = POk a r -> exists u, l = u ++ r /\ forall e, d (u ++ e) = POk a e.

Lemma dlocal_ret {A} (a : A) : dlocal (dret a).
Proof. intros l x r E. inversion E; subst. exists []. split; reflexivity. Qed.
Lemma dlocal_none {A} : dlocal (@dnone A).
Proof. intros l x r E. discriminate. Qed.
Lemma dlocal_panic {A} : dlocal (@dpanic A).
Proof. intros l x r E. discriminate. Qed.
Lemma dlocal_bind {A B} (d : dec A) (k : A -> dec B) :
  dlocal d -> (forall a, dlocal (k a)) -> dlocal (dbind d k).
Proof.
  intros Hd Hk l b r E. unfold dbind in E. destruct (d l) as [a m| |] eqn:Ed; try discriminate.
  destruct (Hd _ _ _ Ed) as (u & -> & Hu). destruct (Hk _ _ _ _ E) as (v & -> & Hv).
  exists (u ++ v). split; [apply app_assoc|]. intro e. unfold dbind. rewrite <- app_assoc, Hu. apply Hv.
Qed.
Lemma dlocal_guard {A} c (k : dec A) : dlocal k -> dlocal (dguard c k).
Proof. intro H. destruct c; [exact H|apply dlocal_none]. Qed.
Lemma dlocal_size {A} (o : option A) : dlocal (dsize o).
Proof. destruct o; [apply dlocal_ret|apply dlocal_panic]. Qed.
Lemma dlocal_opt {A} (o : option A) : dlocal (dopt o).
Proof. destruct o; [apply dlocal_ret|apply dlocal_none]. Qed.
Lemma dlocal_u8 : dlocal d_u8.
Proof.
  intros [|b l] a r E; [discriminate|]. inversion E; subst. exists [a]. split; reflexivity.
Qed.
Lemma dlocal_le n : dlocal (dlift (p_le n)).
Proof.
  intros l a r E. unfold dlift, p_le in *. destruct (ptake n l) as [[b s]|] eqn:Ep; [|discriminate].
  apply ptake_Some in Ep as [-> Hl].
  assert (le_val b = a /\ s = r) as [Ha ->] by (split; congruence).
  exists b. split; auto. intro e. rewrite ptake_app by auto. congruence.
Qed.
Lemma dlocal_arr n : dlocal (d_arr n).
Proof.
  intros l a r E. unfold d_arr, dlift in *. rewrite p_arr_ptake in E.
  destruct (ptake n l) as [[b s]|] eqn:Ep; [|discriminate].
  apply ptake_Some in Ep as [-> Hl]. inversion E; subst. exists a. split; auto.
  intro e. rewrite p_arr_app; auto.
Qed.
Lemma dlocal_fixed max n : dlocal (d_fixed max n).
Proof.
  intros l a r E. unfold d_fixed in *.
  destruct (d_arr (Nat.min (N.to_nat n) max) l) as [b s| |] eqn:Ed; try discriminate.
  inversion E; subst. destruct (dlocal_arr _ _ _ _ Ed) as (u & -> & Hu). exists u. split; auto.
  intro e. rewrite Hu. reflexivity.
Qed.

(** ** panic freedom *)
Definition dsafe {A} (d : dec A) : Prop := forall l, d l <> PPanic.
Lemma dsafe_ret {A} (a : A) : dsafe (dret a). Proof. intros l E; discriminate. Qed.
Lemma dsafe_none {A} : dsafe (@dnone A). Proof. intros l E; discriminate. Qed.
Lemma dsafe_bind {A B} (d : dec A) (k : A -> dec B) :
  dsafe d -> (forall a, dsafe (k a)) -> dsafe (dbind d k).
Proof.
  intros Hd Hk l E. unfold dbind in E. destruct (d l) eqn:Ed; try discriminate.
  - eapply Hk; eauto. - eapply Hd; eauto.
Qed.
Lemma dsafe_guard {A} c (k : dec A) : dsafe k -> dsafe (dguard c k).
Proof. intro H. destruct c; [exact H|apply dsafe_none]. Qed.
Lemma dsafe_size {A} (o : option A) : o <> None -> dsafe (dsize o).
Proof. destruct o; [intros _; apply dsafe_ret|congruence]. Qed.
Lemma dsafe_opt {A} (o : option A) : dsafe (dopt o).
Proof. destruct o; [apply dsafe_ret|apply dsafe_none]. Qed.
Lemma dsafe_lift {A} (p : parser A) : dsafe (dlift p).
Proof. intros l E. unfold dlift in E. destruct (p l) as [[]|]; discriminate. Qed.
Lemma dsafe_u8 : dsafe d_u8. Proof. apply dsafe_lift. Qed.
Lemma dsafe_arr n : dsafe (d_arr n). Proof. apply dsafe_lift. Qed.
Lemma dsafe_fixed max n : dsafe (d_fixed max n).
Proof.
  intros l E. unfold d_fixed in E. pose proof (dsafe_arr (Nat.min (N.to_nat n) max) l).
  destruct (d_arr _ l); try discriminate; congruence.
Qed.

(** inversion of a decode *)
Lemma dbind_ok {A B} (d : dec A) (k : A -> dec B) l b r :
  dbind d k l = POk b r <-> exists a m, d l = POk a m /\ k a m = POk b r.
Proof.
  unfold dbind. destruct (d l) as [a m| |]; split; intro H; try discriminate.
  - eauto. - destruct H as (? & ? & E & ?). inversion E; subst; auto.
  - destruct H as (? & ? & E & ?). discriminate.
  - destruct H as (? & ? & E & ?). discriminate.
Qed.
Lemma dguard_ok {A} c (k : dec A) l a r : dguard c k l = POk a r <-> c = true /\ k l = POk a r.
Proof. unfold dguard, dnone. destruct c; split; intro H; try tauto; try discriminate. destruct H; discriminate. Qed.
Lemma dret_ok {A} (x : A) l a r : dret x l = POk a r <-> a = x /\ r = l.
Proof. unfold dret. split; [intro E; inversion E; auto|intros [-> ->]; reflexivity]. Qed.
