(** Bytes, little-endian numbers and small list helpers shared by the whole
    model.  A byte is an [N]; a Rust [&[u8]] / [[u8; n]] is a [list N].
    Nothing here models a particular source file. *)
From Coq Require Export NArith ZArith List Bool Lia Arith.
From Coq Require Export ZifyBool ZifyNat ZifyN.
Export ListNotations.
Ltac Zify.zify_post_hook ::= Z.div_mod_to_equations.

Global Arguments N.add : simpl never.
Global Arguments N.mul : simpl never.
Global Arguments N.sub : simpl never.
Global Arguments N.div : simpl never.
Global Arguments N.modulo : simpl never.
Global Arguments N.pow : simpl never.
Global Arguments N.land : simpl never.
Global Arguments N.lor : simpl never.
Global Arguments N.shiftl : simpl never.
Global Arguments N.shiftr : simpl never.

Definition bytes := list N.

(** every element is a u8 *)
Definition byte_ok (b : N) : Prop := (b < 256)%N.
Definition bytes_ok (l : bytes) : Prop := Forall byte_ok l.

(** length as an [N] (used to compare against the large buffer constants) *)
Definition len {A} (l : list A) : N := N.of_nat (length l).

(** [n] little-endian bytes of [v] *)
Fixpoint le_bytes (n : nat) (v : N) : bytes :=
  match n with
  | O => []
  | S n' => (v mod 256)%N :: le_bytes n' (v / 256)%N
  end.

Fixpoint le_val (l : bytes) : N :=
  match l with
  | [] => 0%N
  | b :: l' => (b + 256 * le_val l')%N
  end.

(** [n] copies of byte [b] *)
Definition fill (n : nat) (b : N) : bytes := repeat b n.

(** slice [l[a..a+n]] *)
Definition slice (a n : nat) (l : bytes) : bytes := firstn n (skipn a l).

(** overwrite [l] at offset [a] with [d] (the two surrounding parts are kept) *)
Definition patch (a : nat) (d l : bytes) : bytes :=
  firstn a l ++ d ++ skipn (a + length d) l.

(** bytewise equality test *)
Definition bytes_eqb (a b : bytes) : bool :=
  if list_eq_dec N.eq_dec a b then true else false.

(** truncate / zero-extend to exactly [n] bytes: how a fixed array [[u8; n]]
    holds data copied into its front *)
Definition pad_to (n : nat) (l : bytes) : bytes :=
  firstn n l ++ fill (n - length l) 0%N.
