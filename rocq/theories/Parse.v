(** Message encoders and decoders over the Reader/Writer of Codec.v, with
    panics kept visible.  No proofs here.

    A decoder ([spdm_read]) sees the unread suffix of its Reader and either
    returns a value and the new suffix, returns [None], or panics.
    An encoder ([spdm_encode]) is the list of the writes it performs in order,
    with the amount each one adds to the size it reports ([cnt]). *)
From Verif Require Import Bytes Codec.
Local Open Scope N_scope.

Inductive pres (A : Type) := POk (a : A) (rest : bytes) | PNone | PPanic.
Arguments POk {A} a rest. Arguments PNone {A}. Arguments PPanic {A}.

Definition dec (A : Type) := bytes -> pres A.

Definition dret {A} (a : A) : dec A := fun l => POk a l.
Definition dnone {A} : dec A := fun _ => PNone.
Definition dpanic {A} : dec A := fun _ => PPanic.
Definition dbind {A B} (d : dec A) (k : A -> dec B) : dec B :=
  fun l => match d l with POk a r => k a r | PNone => PNone | PPanic => PPanic end.
(** [if !c { return None; }] *)
Definition dguard {A} (c : bool) (k : dec A) : dec A := if c then k else dnone.
Definition dlift {A} (p : parser A) : dec A :=
  fun l => match p l with Some (a, r) => POk a r | None => PNone end.
(** a pure function that may panic, used inside a decoder *)
Definition dsize {A} (o : option A) : dec A := match o with Some a => dret a | None => dpanic end.
(** an [Option] propagated with [?] *)
Definition dopt {A} (o : option A) : dec A := match o with Some a => dret a | None => dnone end.

Declare Scope dec_scope.
Delimit Scope dec_scope with dec.
Notation "x <- p ;; k" := (dbind p (fun x => k%dec)) (at level 61, p at next level, right associativity) : dec_scope.
Notation "'guard' c ;; k" := (dguard c k%dec) (at level 61, c at next level, right associativity) : dec_scope.

Definition d_u8 : dec N := dlift p_u8.
Definition d_u16 : dec N := dlift p_u16.
Definition d_u24 : dec N := dlift p_u24.
Definition d_u32 : dec N := dlift p_u32.
Definition d_u64 : dec N := dlift p_u64.
Definition d_u128 : dec N := dlift p_u128.
(** n times [u8::read(r)?] *)
Definition d_arr (n : nat) : dec bytes := dlift (p_arr n).
(** [for d in data.iter_mut().take(n) { *d = u8::read(r)?; }] on a zeroed
    array of [max] bytes *)
Definition d_fixed (max : nat) (n : N) : dec bytes :=
  fun l => match d_arr (Nat.min (N.to_nat n) max) l with
           | POk b r => POk (pad_to max b) r | PNone => PNone | PPanic => PPanic end.

(** ** encoders *)
(** one write: the bytes handed to the Writer (all or nothing) and the amount
    added to [cnt]; or a panic at this point *)
Inductive echunk := EC (b : bytes) (cnt : N) | EPanic.
Definition enc := list echunk.

Definition x_of (cs : list bytes) : enc := map (fun b => EC b (len b)) cs.
Definition x_u8 (v : N) : enc := x_of (e_u8 v).
Definition x_u16 (v : N) : enc := x_of (e_u16 v).
Definition x_u24 (v : N) : enc := x_of (e_u24 v).
Definition x_u32 (v : N) : enc := x_of (e_u32 v).
Definition x_u64 (v : N) : enc := x_of (e_u64 v).
Definition x_u128 (v : N) : enc := x_of (e_u128 v).
Definition x_arr (l : bytes) : enc := x_of (e_arr l).
Definition x_slice (l : bytes) : enc := x_of (e_slice l).
(** byte loop whose own return values are dropped, then [Ok(n)] *)
Definition x_arr_cnt (l : bytes) (n : N) : enc := map (fun b => EC [b] 0) l ++ [EC [] n].
Definition x_assert (c : bool) : enc := if c then [] else [EPanic].

Inductive xres := XOk (w : writer) (cnt : N) | XErr (w : writer) | XPanic.

(** run an encoder on a Writer *)
Fixpoint xemit (e : enc) (w : writer) (acc : N) : xres :=
  match e with
  | [] => XOk w acc
  | EPanic :: _ => XPanic
  | EC b n :: e' =>
      match w_extend w b with
      | None => XErr w
      | Some w' => xemit e' w' (acc + n)
      end
  end.

(** the bytes an encoder produces when there is room, [None] if it panics *)
Fixpoint xwire (e : enc) : option bytes :=
  match e with
  | [] => Some []
  | EPanic :: _ => None
  | EC b _ :: e' => match xwire e' with Some w => Some (b ++ w) | None => None end
  end.

Fixpoint xcount (e : enc) : N :=
  match e with
  | [] => 0
  | EPanic :: e' => xcount e'
  | EC _ n :: e' => n + xcount e'
  end.
