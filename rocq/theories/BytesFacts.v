(** Lemmas about Bytes.v *)
From Verif Require Import Bytes.
Local Open Scope N_scope.

Lemma le_bytes_length n v : length (le_bytes n v) = n.
Proof. revert v; induction n as [|n IH]; intro v; simpl; auto. Qed.

Lemma le_bytes_ok n v : bytes_ok (le_bytes n v).
Proof.
  revert v; induction n as [|n IH]; intro v; simpl; constructor.
  - unfold byte_ok. apply N.mod_lt. discriminate.
  - apply IH.
Qed.

Lemma le_val_bytes n v : v < 256 ^ N.of_nat n -> le_val (le_bytes n v) = v.
Proof.
  revert v; induction n as [|n IH]; intros v Hv.
  - change (256 ^ N.of_nat 0) with 1 in Hv. simpl. lia.
  - cbn [le_bytes le_val].
    rewrite Nat2N.inj_succ, N.pow_succ_r' in Hv.
    rewrite IH.
    + rewrite N.add_comm. symmetry. apply N.div_mod'.
    + apply N.div_lt_upper_bound; lia.
Qed.

Lemma le_val_lt l : bytes_ok l -> le_val l < 256 ^ len l.
Proof.
  unfold len; induction 1 as [|b l Hb Hl IH]; cbn [le_val length].
  - reflexivity.
  - rewrite Nat2N.inj_succ, N.pow_succ_r'. unfold byte_ok in Hb. lia.
Qed.

Lemma le_bytes_val l : bytes_ok l -> le_bytes (length l) (le_val l) = l.
Proof.
  induction 1 as [|b l Hb Hl IH]; cbn [le_val length le_bytes]; auto.
  unfold byte_ok in Hb.
  replace ((b + 256 * le_val l) mod 256) with b.
  2:{ rewrite N.mul_comm, N.mod_add by discriminate. symmetry; apply N.mod_small; auto. }
  replace ((b + 256 * le_val l) / 256) with (le_val l).
  2:{ rewrite N.mul_comm, N.div_add by discriminate.
      rewrite (N.div_small b 256) by auto. reflexivity. }
  rewrite IH. reflexivity.
Qed.

Lemma le_bytes_inj n v w :
  v < 256 ^ N.of_nat n -> w < 256 ^ N.of_nat n -> le_bytes n v = le_bytes n w -> v = w.
Proof.
  intros Hv Hw E. rewrite <- (le_val_bytes n v Hv), <- (le_val_bytes n w Hw), E. reflexivity.
Qed.

Lemma le_val_inj l m : length l = length m -> bytes_ok l -> bytes_ok m -> le_val l = le_val m -> l = m.
Proof.
  intros HL H1 H2 E. rewrite <- (le_bytes_val l H1), <- (le_bytes_val m H2), HL, E. reflexivity.
Qed.

Lemma bytes_ok_app a b : bytes_ok (a ++ b) <-> bytes_ok a /\ bytes_ok b.
Proof. apply Forall_app. Qed.

Lemma bytes_ok_firstn n l : bytes_ok l -> bytes_ok (firstn n l).
Proof.
  revert n; induction l as [|b l IH]; intros [|n] H; simpl; auto; inversion H; subst; constructor; auto.
  apply IH; auto.
Qed.

Lemma bytes_ok_skipn n l : bytes_ok l -> bytes_ok (skipn n l).
Proof.
  revert n; induction l as [|b l IH]; intros [|n] H; simpl; auto. inversion H; subst; apply IH; auto.
Qed.

Lemma bytes_ok_fill n b : byte_ok b -> bytes_ok (fill n b).
Proof. intro; unfold fill; induction n; simpl; constructor; auto. Qed.

Lemma fill_length n b : length (fill n b) = n.
Proof. apply repeat_length. Qed.

Lemma len_app {A} (a b : list A) : len (a ++ b) = len a + len b.
Proof. unfold len; rewrite app_length; lia. Qed.

Lemma len_cons {A} (x : A) l : len (x :: l) = len l + 1.
Proof. unfold len; simpl; lia. Qed.

Lemma len_nil {A} : len (@nil A) = 0.
Proof. reflexivity. Qed.

Lemma len_eq_length {A} (l m : list A) : len l = len m <-> length l = length m.
Proof. unfold len; lia. Qed.

Lemma firstn_app_exact {A} (a b : list A) n : length a = n -> firstn n (a ++ b) = a.
Proof.
  intro H; subst n. rewrite firstn_app, Nat.sub_diag. simpl. rewrite app_nil_r. apply firstn_all.
Qed.

Lemma skipn_app_exact {A} (a b : list A) n : length a = n -> skipn n (a ++ b) = b.
Proof.
  intro H; subst n. rewrite skipn_app, Nat.sub_diag, skipn_all. reflexivity.
Qed.

Lemma slice_length a n l : (a + n <= length l)%nat -> length (slice a n l) = n.
Proof. intro H; unfold slice. rewrite firstn_length, skipn_length. lia. Qed.

Lemma pad_to_length n l : length (pad_to n l) = n.
Proof.
  unfold pad_to. rewrite app_length, firstn_length, fill_length. lia.
Qed.

Lemma pad_to_firstn n l : (length l <= n)%nat -> firstn (length l) (pad_to n l) = l.
Proof.
  intro H. unfold pad_to. rewrite (@firstn_all2 N n l) by lia. apply firstn_app_exact. reflexivity.
Qed.

Lemma patch_length a d l : (a + length d <= length l)%nat -> length (patch a d l) = length l.
Proof.
  intro H. unfold patch. rewrite !app_length, firstn_length, skipn_length, Nat.min_l by lia. lia.
Qed.

Lemma bytes_eqb_eq a b : bytes_eqb a b = true <-> a = b.
Proof. unfold bytes_eqb; destruct (list_eq_dec N.eq_dec a b); split; intro; auto; discriminate. Qed.

Lemma bytes_eqb_refl a : bytes_eqb a a = true.
Proof. apply bytes_eqb_eq; reflexivity. Qed.

Lemma bytes_eqb_neq a b : bytes_eqb a b = false <-> a <> b.
Proof.
  unfold bytes_eqb; destruct (list_eq_dec N.eq_dec a b); split; intro; auto; try discriminate; congruence.
Qed.

Lemma app_inj_len {A} (a b c d : list A) :
  length a = length c -> a ++ b = c ++ d -> a = c /\ b = d.
Proof.
  revert c; induction a as [|x a IH]; intros [|y c] HL E; simpl in *; try discriminate; auto.
  inversion E; subst. destruct (IH c ltac:(lia) H1) as [-> ->]; auto.
Qed.

Lemma concat_singletons {A} (l : list A) : concat (map (fun b => [b]) l) = l.
Proof. induction l as [|x l IH]; simpl; congruence. Qed.

Lemma nth_error_skipn_hd {A} n (l : list A) x : nth_error l n = Some x -> exists r, skipn n l = x :: r.
Proof.
  revert n; induction l as [|y l IH]; intros [|n] H; simpl in *; try discriminate.
  - inversion H; subst; eauto.
  - auto.
Qed.

Lemma skipn_skipn {A} a b (l : list A) : skipn a (skipn b l) = skipn (b + a) l.
Proof.
  revert b; induction l as [|x l IH]; intros [|b]; simpl; auto.
  - apply skipn_nil.
Qed.

Lemma firstn_skipn_slice a n l : firstn a l ++ slice a n l = firstn (a + n) l.
Proof.
  unfold slice. revert a; induction l as [|x l IH]; intros [|a]; simpl; auto.
  - rewrite !firstn_nil. reflexivity.
  - f_equal. apply IH.
Qed.
