(** Small specifications used by PropCodec.v; independent of the model's helpers. *)
From Verif Require Import Bytes Codec Status.
Local Open Scope N_scope.

(** the i-th little-endian byte of v is (v / 256^i) mod 256 *)
Definition le_spec (n : nat) (v : N) : list N :=
  map (fun i => (v / 256 ^ N.of_nat i) mod 256) (seq 0 n).

(** the six integer types with a codec *)
Inductive width := W8 | W16 | W24 | W32 | W64 | W128.
Definition width_bytes (k : width) : nat :=
  match k with W8 => 1 | W16 => 2 | W24 => 3 | W32 => 4 | W64 => 8 | W128 => 16 end.
Definition enc_int (k : width) : N -> writer -> wres :=
  match k with W8 => enc_u8 | W16 => enc_u16 | W24 => enc_u24 | W32 => enc_u32 | W64 => enc_u64 | W128 => enc_u128 end.
Definition read_int (k : width) : reader -> option (N * reader) :=
  match k with W8 => read_u8 | W16 => read_u16 | W24 => read_u24 | W32 => read_u32 | W64 => read_u64 | W128 => read_u128 end.

(** operations on a Reader, and what they hand to the caller ([None]: the call returned None) *)
Inductive rop := RTake (n : nat) | RRest | RSub (n : nat) | RInt (k : width).
Definition rop_step (r : reader) (o : rop) : option bytes * reader :=
  match o with
  | RTake n => match r_take r n with Some (b, r') => (Some b, r') | None => (None, r) end
  | RRest => let (b, r') := r_rest r in (Some b, r')
  | RSub n => match r_sub r n with Some (s, r') => (Some (r_buf s), r') | None => (None, r) end
  | RInt k => match read_int k r with
              | Some (v, r') => (Some (le_spec (width_bytes k) v), r')
              | None => (None, r) end
  end.
Fixpoint rop_run (r : reader) (os : list rop) : list (option bytes) * reader :=
  match os with
  | [] => ([], r)
  | o :: os => let (x, r1) := rop_step r o in
               let (xs, r2) := rop_run r1 os in (x :: xs, r2)
  end.
Definition given (xs : list (option bytes)) : bytes :=
  concat (map (fun x => match x with Some b => b | None => [] end) xs).

(** operations on a Writer *)
Inductive wop := WExtend (b : bytes) | WPush (b : N) | WInt (k : width) (v : N).
(** [true]: the call reported success *)
Definition wop_step (w : writer) (o : wop) : bool * writer :=
  match o with
  | WExtend b => match w_extend w b with Some w' => (true, w') | None => (false, w) end
  | WPush b => match w_push w b with Some w' => (true, w') | None => (false, w) end
  | WInt k v => match enc_int k v w with WOk w' => (true, w') | WErr w' => (false, w') end
  end.
(** the bytes a successful operation must append *)
Definition wop_bytes (o : wop) : bytes :=
  match o with WExtend b => b | WPush b => [b] | WInt k v => le_spec (width_bytes k) v end.
(** [appended o ok d]: what an operation may append *)
Definition appended (o : wop) (ok : bool) (d : bytes) : Prop :=
  if ok then d = wop_bytes o
  else match o with
       | WInt (W24 | W32) _ => exists t, t <> [] /\ wop_bytes o = d ++ t
       | _ => d = []
       end.
Fixpoint wop_run (w : writer) (os : list wop) : list bool * writer :=
  match os with
  | [] => ([], w)
  | o :: os => let (x, w1) := wop_step w o in
               let (xs, w2) := wop_run w1 os in (x :: xs, w2)
  end.
Definition wop_ok (o : wop) : Prop :=
  match o with WInt k v => v < 256 ^ N.of_nat (width_bytes k) | _ => True end.
