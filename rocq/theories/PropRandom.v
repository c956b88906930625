(** C92: random data is the generator's output, every byte of it and each used once. *)
From Verif Require Import Bytes Status GetRandom X509Proofs.
Local Open Scope N_scope.

Lemma copy_at (done tail src : bytes) : len src <= len tail ->
  copy_into (len done) (len done + len src) src (done ++ tail) = Ok (done ++ src ++ skipn (length src) tail).
Proof.
  intro L. unfold copy_into. rewrite (proj2 (N.ltb_ge _ _)) by lia. rewrite len_app, (proj2 (N.ltb_ge _ _)) by lia.
  rewrite (proj2 (N.eqb_eq _ _)) by lia. cbn [orb negb]. f_equal.
  assert (A : N.to_nat (len done) = length done) by (unfold len; lia). assert (B : N.to_nat (len done + len src) = (length done + length src)%nat) by (unfold len; lia).
  rewrite A, B, firstn_app, Nat.sub_diag, firstn_all, firstn_O, app_nil_r. f_equal. f_equal.
  rewrite skipn_app, skipn_all2 by lia. cbn [app]. f_equal. lia.
Qed.
Lemma loop_runs : forall (bs : list bytes) rest done tail, Forall (fun b => len b = 64) bs ->
  let r := random_loop (map Some bs ++ rest) (done ++ tail) (len tail) (len done) in
  (len bs = (len tail + 63) / 64 -> r = Ok (done ++ firstn (length tail) (concat bs), rest)) /\
  (len bs < (len tail + 63) / 64 -> (rest = [] \/ exists more, rest = None :: more) -> r = Err ST_CRYPTO_ERROR).
Proof.
  induction bs as [|b bs IH]; intros rest done tail F; cbv zeta.
  - cbn [map app]. split.
    + intro H. change (len (@nil bytes)) with 0 in H. assert (L : len tail = 0). { destruct (N.eq_0_gt_0_cases (len tail)) as [E|E]; [exact E|]. exfalso. assert (1 <= (len tail + 63) / 64); [|lia]. apply N.div_le_lower_bound; lia. }
      destruct rest as [|x rest]; cbn [random_loop]; rewrite L; cbn [N.eqb]; destruct tail; [|discriminate| |discriminate]; cbn [length firstn concat]; reflexivity.
    + intros H R. change (len (@nil bytes)) with 0 in H. assert (L : (len tail =? 0) = false). { apply N.eqb_neq. intro E. rewrite E in H. cbv in H. discriminate. }
      destruct R as [-> | (more & ->)]; cbn [random_loop]; rewrite L; reflexivity.
  - pose proof (Forall_inv F) as L64. apply Forall_inv_tail in F. cbv beta in L64. cbn [map app]. rewrite len_cons.
    destruct (N.eq_0_gt_0_cases (len tail)) as [E|E].
    { rewrite E. change ((0 + 63) / 64) with 0. split; [intro; lia|intros; lia]. }
    cbn [random_loop]. rewrite (proj2 (N.eqb_neq _ _)) by lia. destruct (N.ltb_spec 64 (len tail)) as [Big|Small].
    + assert (C := copy_at done tail b ltac:(lia)). rewrite L64 in C. rewrite C. cbn [obind].
      assert (LT : len (skipn (length b) tail) = len tail - 64) by (unfold len in *; rewrite skipn_length; lia).
      destruct (IH rest (done ++ b) (skipn (length b) tail) F) as (I1 & I2). rewrite <- app_assoc, LT, len_app, L64 in I1, I2.
      assert (D : (len tail + 63) / 64 = 1 + (len tail - 64 + 63) / 64). { replace (len tail + 63) with (len tail - 64 + 63 + 1 * 64) by lia. rewrite N.div_add by lia. lia. }
      split.
      * intro H. rewrite I1 by lia. f_equal. f_equal. rewrite <- app_assoc. f_equal. cbn [concat].
        rewrite firstn_app, (firstn_all2 b) by (unfold len in *; lia). f_equal. f_equal. unfold len in *. rewrite skipn_length. lia.
      * intros H R. apply I2; [lia|exact R].
    + assert (D : (len tail + 63) / 64 = 1) by (symmetry; apply (N.div_unique _ _ _ (len tail - 1)); lia). rewrite D. split.
      * intro H. assert (bs = []) by (destruct bs; [reflexivity|rewrite len_cons in H; lia]). rewrite H0. rewrite (proj2 (N.ltb_ge _ _)) by lia.
        set (src := firstn (N.to_nat (len tail)) b). assert (LS : len src = len tail) by (unfold src, len in *; rewrite firstn_length; lia).
        assert (C := copy_at done tail src ltac:(lia)). rewrite LS in C. rewrite C. cbn [obind map app concat]. rewrite app_nil_r.
        rewrite (skipn_all2 tail) by (unfold len in LS; lia). rewrite app_nil_r. unfold src, len. rewrite Nat2N.id. reflexivity.
      * intros H. lia.
Qed.

(** A buffer of any length is filled completely with the first bytes of consecutive blocks of the
    generator, one per started 64 bytes, and its length returned; if the generator fails in one of them,
    so does the call. Never a panic. *)
Theorem C92_random_fills_the_buffer : forall (bs : list bytes) rest data, Forall (fun b => len b = 64) bs ->
  let needed := (len data + 63) / 64 in
  (len bs = needed -> get_random (map Some bs ++ rest) data = Ok (firstn (length data) (concat bs), len data, rest)) /\
  (len bs < needed -> get_random (map Some bs ++ None :: rest) data = Err ST_CRYPTO_ERROR).
Proof.
  intros bs rest data F needed. unfold get_random. split; intro H.
  - destruct (loop_runs bs rest [] data F) as (A & _). cbn [app] in A. change (len (@nil N)) with 0 in A. rewrite A by exact H. reflexivity.
  - destruct (loop_runs bs (None :: rest) [] data F) as (_ & A). cbn [app] in A. change (len (@nil N)) with 0 in A. rewrite A; [reflexivity|exact H|right; eauto].
Qed.
Print Assumptions C92_random_fills_the_buffer.
Example C92_case : get_random [Some (repeat 7 64); Some (repeat 9 64); None] (repeat 0 66) = Ok (repeat 7 64 ++ [9; 9], 66, [None]) /\
  get_random [Some (repeat 7 64); None] (repeat 0 66) = Err ST_CRYPTO_ERROR /\ get_random [None] [] = Ok ([], 0, [None]).
Proof. split; [|split]; vm_compute; reflexivity. Qed.
