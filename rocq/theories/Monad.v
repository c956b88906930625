(** State-and-result monad for functions of type [&mut self -> SpdmResult<T>].
    The state reached before an error is kept, as in Rust: an [Err] return does not undo the
    assignments made before it.  Models no particular file. *)
From Verif Require Import Bytes Status.
Local Open Scope N_scope.

Definition st (S A : Type) := S -> outcome A * S.
Definition sret {S A} (a : A) : st S A := fun s => (Ok a, s).
Definition serr {S A} (e : status) : st S A := fun s => (Err e, s).
Definition spanic {S A} : st S A := fun s => (Panic, s).
Definition sbind {S A B} (m : st S A) (k : A -> st S B) : st S B :=
  fun s => match m s with
           | (Ok a, s') => k a s'
           | (Err e, s') => (Err e, s')
           | (Panic, s') => (Panic, s')
           end.
Definition sget {S} : st S S := fun s => (Ok s, s).
Definition smod {S} (f : S -> S) : st S unit := fun s => (Ok tt, f s).
(** [opt.ok_or(e)?] *)
Definition sok {S A} (e : status) (o : option A) : st S A :=
  match o with Some a => sret a | None => serr e end.
(** [opt.unwrap()] *)
Definition sunwrap {S A} (o : option A) : st S A :=
  match o with Some a => sret a | None => spanic end.
(** [if c { return Err(e) }] *)
Definition sfail_if {S} (c : bool) (e : status) : st S unit := if c then serr e else sret tt.
(** [assert!(c)] *)
Definition sassert {S} (c : bool) : st S unit := if c then sret tt else spanic.
Definition sof {S A} (o : outcome A) : st S A := fun s => (o, s).
Definition swhen {S} (c : bool) (m : st S unit) : st S unit := if c then m else sret tt.
(** [if let Err(e) = m { handler; ... }]: run [m], keep its state, look at the result *)
Definition scatch {S A B} (m : st S A) (k : outcome A -> st S B) : st S B :=
  fun s => match m s with
           | (Panic, s') => (Panic, s')
           | (r, s') => k r s'
           end.

Declare Scope st_scope.
Delimit Scope st_scope with st.
Notation "x <-- m ;; k" := (sbind m (fun x => k%st)) (at level 61, m at next level, right associativity) : st_scope.
Notation "m ;;; k" := (sbind m (fun _ => k%st)) (at level 61, right associativity) : st_scope.
