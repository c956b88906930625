(** Reasoning about state-and-result programs: [rel R m] says that running [m] from [x] ends, on
    every outcome, in a state [R]-related to [x]. *)
From Verif Require Import Bytes Status Codec Parse Algo Monad.
From Verif Require Import MsgConn MsgAuth MsgSession MsgOther Message Crypto Session Context RspBase RspConn RspSess RspEncap.
Local Open Scope N_scope.

Definition rel {S A} (R : S -> S -> Prop) (m : st S A) : Prop := forall x r x', m x = (r, x') -> R x x'.
Definition preorder {S} (R : S -> S -> Prop) : Prop :=
  (forall x, R x x) /\ (forall x y z, R x y -> R y z -> R x z).

Section rules.
  Context {S : Type} (R : S -> S -> Prop) (HR : preorder R).
  Lemma rel_ret {A} (a : A) : rel R (sret a).
  Proof using HR. intros x r x' H. unfold sret in H. replace x' with x by congruence. apply HR. Qed.
  Lemma rel_err {A} e : rel R (@serr S A e).
  Proof using HR. intros x r x' H. unfold serr in H. replace x' with x by congruence. apply HR. Qed.
  Lemma rel_panic {A} : rel R (@spanic S A).
  Proof using HR. intros x r x' H. unfold spanic in H. replace x' with x by congruence. apply HR. Qed.
  Lemma rel_get : rel R (@sget S).
  Proof using HR. intros x r x' H. unfold sget in H. replace x' with x by congruence. apply HR. Qed.
  Lemma rel_of {A} (o : outcome A) : rel R (sof o).
  Proof using HR. intros x r x' H. unfold sof in H. replace x' with x by congruence. apply HR. Qed.
  Lemma rel_ok {A} e (o : option A) : rel R (sok e o).
  Proof using HR. destruct o; [apply rel_ret|apply rel_err]. Qed.
  Lemma rel_unwrap {A} (o : option A) : rel R (sunwrap o).
  Proof using HR. destruct o; [apply rel_ret|apply rel_panic]. Qed.
  Lemma rel_fail_if c e : rel R (sfail_if c e).
  Proof using HR. destruct c; [apply rel_err|apply rel_ret]. Qed.
  Lemma rel_assert c : rel R (sassert c).
  Proof using HR. destruct c; [apply rel_ret|apply rel_panic]. Qed.
  Lemma rel_mod f : (forall x, R x (f x)) -> rel R (smod f).
  Proof. intros Hf x r x' H. unfold smod in H. replace x' with (f x) by congruence. apply Hf. Qed.
  Lemma rel_bind {A B} (m : st S A) (k : A -> st S B) :
    rel R m -> (forall a, rel R (k a)) -> rel R (sbind m k).
  Proof using HR.
    intros Hm Hk x r x' H. unfold sbind in H. destruct (m x) as [o x1] eqn:Em. apply Hm in Em.
    destruct o; [apply Hk in H; eapply HR; eassumption| |]; replace x' with x1 by congruence; exact Em.
  Qed.
  (** [sget] binds the state itself *)
  Lemma rel_bind_get {B} (k : S -> st S B) : (forall x r x', k x x = (r, x') -> R x x') -> rel R (sbind sget k).
  Proof. intros Hk x r x' H. exact (Hk _ _ _ H). Qed.
  Lemma rel_catch {A B} (m : st S A) (k : outcome A -> st S B) :
    rel R m -> (forall a, rel R (k a)) -> rel R (scatch m k).
  Proof using HR.
    intros Hm Hk x r x' H. unfold scatch in H. destruct (m x) as [o x1] eqn:Em. apply Hm in Em.
    destruct o; [| |replace x' with x1 by congruence; exact Em]; apply Hk in H; eapply HR; eassumption.
  Qed.
  Lemma rel_when c m : rel R m -> rel R (swhen c m).
  Proof using HR. destruct c; [trivial|intros _; apply rel_ret]. Qed.
  Lemma rel_try {A B} (m : st S A) (e : st S B) (k : A -> st S B) :
    rel R m -> rel R e -> (forall a, rel R (k a)) -> rel R (tryelse m e k).
  Proof using HR.
    intros Hm He Hk. apply rel_catch; [exact Hm|]. intros [a|e'|]; [apply Hk|exact He|apply rel_panic].
  Qed.
  Lemma rel_oror {A} e (m : st S A) : rel R m -> rel R (oror e m).
  Proof using HR.
    intros Hm. apply rel_catch; [exact Hm|]. intros [a|e'|]; [apply rel_ret|apply rel_err|apply rel_panic].
  Qed.
End rules.

Lemma rel_mono {S A} (R R' : S -> S -> Prop) (m : st S A) :
  (forall x y, R x y -> R' x y) -> rel R m -> rel R' m.
Proof. intros H Hm x r x' E. apply H, (Hm _ _ _ E). Qed.
Lemma rel_and {S A} (R R' : S -> S -> Prop) (m : st S A) :
  rel R m -> rel R' m -> rel (fun x y => R x y /\ R' x y) m.
Proof. intros H1 H2 x r x' E. split; [exact (H1 _ _ _ E)|exact (H2 _ _ _ E)]. Qed.

(** programs that only look at the state *)
Lemma wenc_state m w x r x' : wenc m w x = (r, x') -> x' = x.
Proof. unfold wenc. destruct (emit _ _); congruence. Qed.
Lemma wput_state e w x r x' : wput e w x = (r, x') -> x' = x.
Proof. unfold wput. destruct (emit _ _); congruence. Qed.
Lemma rd_state {A} (d : cctx -> dec A) l x r x' : rd d l x = (r, x') -> x' = x.
Proof. unfold rd. destruct (d _ _); congruence. Qed.
Lemma the_sess_state id x r x' : the_sess id x = (r, x') -> x' = x.
Proof. unfold the_sess. destruct (get_sess id x); congruence. Qed.
Section ctxrules.
  Context (R : ctx -> ctx -> Prop) (HR : preorder R).
  Lemma rel_wenc m w : rel R (wenc m w).
  Proof using HR. intros x r x' H. apply wenc_state in H. subst. apply HR. Qed.
  Lemma rel_wput e w : rel R (wput e w).
  Proof using HR. intros x r x' H. apply wput_state in H. subst. apply HR. Qed.
  Lemma rel_rd {A} (d : cctx -> dec A) l : rel R (rd d l).
  Proof using HR. intros x r x' H. apply rd_state in H. subst. apply HR. Qed.
  Lemma rel_the_sess id : rel R (the_sess id).
  Proof using HR. intros x r x' H. apply the_sess_state in H. subst. apply HR. Qed.
  Lemma rel_err_data c d w : rel R (write_err_data c d w).
  Proof using HR.
    unfold write_err_data. apply rel_bind; [exact HR|apply rel_get, HR|intro].
    apply rel_bind; [exact HR|apply rel_wenc|intro; apply rel_ret, HR].
  Qed.
  Lemma rel_err_msg c w : rel R (write_err c w).
  Proof using HR. apply rel_err_data. Qed.
  Lemma rel_with_version b k : (forall r, rel R (k r)) -> rel R (with_version b k).
  Proof using HR.
    intro Hk. unfold with_version. apply rel_bind; [exact HR|apply rel_get, HR|intro x].
    destruct (read_header b) as [[h r]|]; [|apply rel_err_msg]. destruct (negb _); [apply rel_err_msg|apply Hk].
  Qed.
  Lemma rel_with_version_r b k : (forall r, rel R (k r)) -> rel R (with_version_r b k).
  Proof using HR.
    intro Hk. unfold with_version_r. apply rel_bind; [exact HR|apply rel_get, HR|intro x].
    destruct (read_header b) as [[h r]|]; [|apply rel_err, HR]. destruct (negb _); [apply rel_err, HR|apply Hk].
  Qed.
  Lemma rel_encode_or_err m k : (forall w, rel R (k w)) -> rel R (encode_or_err m k).
  Proof using HR.
    intro Hk. unfold encode_or_err. apply rel_bind; [exact HR|apply rel_wenc|intro r].
    destruct (fst r); [apply Hk|apply rel_err_msg].
  Qed.
  Lemma rel_encode_r m k : (forall w, rel R (k w)) -> rel R (encode_r m k).
  Proof using HR.
    intro Hk. unfold encode_r. apply rel_bind; [exact HR|apply rel_wenc|intro r].
    destruct (fst r); [apply Hk|apply rel_err, HR].
  Qed.
  Lemma rel_calc_th cr id : rel R (calc_th cr id).
  Proof using HR. unfold calc_th. apply rel_bind; [exact HR|apply rel_the_sess|intro; apply rel_of, HR]. Qed.
  Lemma rel_sign_transcript E op t : rel R (sign_transcript E op t).
  Proof using HR.
    unfold sign_transcript. apply rel_bind; [exact HR|apply rel_get, HR|intro].
    apply rel_bind; [exact HR|apply rel_ok, HR|intro]. apply rel_bind; [exact HR|apply rel_of, HR|intro].
    apply rel_ok, HR.
  Qed.
  Lemma rel_sign_th E op id : rel R (sign_th E op id).
  Proof using HR.
    unfold sign_th. apply rel_bind; [exact HR|apply rel_calc_th|intro].
    apply rel_bind; [exact HR|apply rel_get, HR|intro]. apply rel_bind; [exact HR|apply rel_of, HR|intro].
    apply rel_ok, HR.
  Qed.
End ctxrules.

(** structural decomposition; [HR : preorder R], leftover goals are about the primitives that
    change the state *)
Ltac rl1 HR :=
  lazymatch goal with
  | |- rel _ (match ?e with _ => _ end) => destruct e
  | |- rel _ (let _ := _ in _) => cbv zeta
  | |- rel _ ((fun _ => _) _) => cbv beta
  | |- rel _ (sbind _ _) => apply (rel_bind _ HR); [|intro]
  | |- rel _ (scatch _ _) => apply (rel_catch _ HR); [|intro]
  | |- rel _ (tryelse _ _ _) => apply (rel_try _ HR); [| |intro]
  | |- rel _ (oror _ _) => apply (rel_oror _ HR)
  | |- rel _ (swhen _ _) => apply (rel_when _ HR)
  | |- rel _ (sret _) => apply (rel_ret _ HR)
  | |- rel _ (serr _) => apply (rel_err _ HR)
  | |- rel _ spanic => apply (rel_panic _ HR)
  | |- rel _ sget => apply (rel_get _ HR)
  | |- rel _ (sof _) => apply (rel_of _ HR)
  | |- rel _ (sok _ _) => apply (rel_ok _ HR)
  | |- rel _ (sunwrap _) => apply (rel_unwrap _ HR)
  | |- rel _ (sfail_if _ _) => apply (rel_fail_if _ HR)
  | |- rel _ (sassert _) => apply (rel_assert _ HR)
  | |- rel _ (wenc _ _) => apply (rel_wenc _ HR)
  | |- rel _ (wput _ _) => apply (rel_wput _ HR)
  | |- rel _ (rd _ _) => apply (rel_rd _ HR)
  | |- rel _ (the_sess _) => apply (rel_the_sess _ HR)
  | |- rel _ (write_err_data _ _ _) => apply (rel_err_data _ HR)
  | |- rel _ (write_err _ _) => apply (rel_err_msg _ HR)
  | |- rel _ (with_version _ _) => apply (rel_with_version _ HR); intro
  | |- rel _ (with_version_r _ _) => apply (rel_with_version_r _ HR); intro
  | |- rel _ (encode_or_err _ _) => apply (rel_encode_or_err _ HR); intro
  | |- rel _ (encode_r _ _) => apply (rel_encode_r _ HR); intro
  | |- rel _ (calc_th _ _) => apply (rel_calc_th _ HR)
  | |- rel _ (sign_transcript _ _ _) => apply (rel_sign_transcript _ HR)
  | |- rel _ (sign_th _ _ _) => apply (rel_sign_th _ HR)
  end.
Ltac rl HR := repeat rl1 HR.
