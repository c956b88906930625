(** Model of codec/src/codec.rs (Reader, Writer, integer codecs) and of the
    [enum_builder!] macro in codec/src/macros.rs.  No proofs here. *)
From Verif Require Import Bytes.
Local Open Scope N_scope.

(** ** Reader — codec.rs:8-51 *)
(** [Reader {buf, offs}] — codec.rs:8-11 *)
Record reader := mkReader { r_buf : bytes; r_offs : nat }.

(** Reader::init — codec.rs:14-19 *)
Definition r_init (b : bytes) : reader := mkReader b 0.

(** Reader::left — codec.rs:41-43 *)
Definition r_left (r : reader) : nat := (length (r_buf r) - r_offs r)%nat.

(** Reader::used — codec.rs:45-47 *)
Definition r_used (r : reader) : nat := r_offs r.

(** Reader::any_left — codec.rs:37-39 *)
Definition r_any_left (r : reader) : bool := (r_offs r <? length (r_buf r))%nat.

(** Reader::rest — codec.rs:21-25 *)
Definition r_rest (r : reader) : bytes * reader :=
  (skipn (r_offs r) (r_buf r), mkReader (r_buf r) (length (r_buf r))).

(** Reader::take — codec.rs:27-35 *)
Definition r_take (r : reader) (n : nat) : option (bytes * reader) :=
  if (r_left r <? n)%nat then None
  else Some (slice (r_offs r) n (r_buf r), mkReader (r_buf r) (r_offs r + n)).

(** Reader::sub — codec.rs:49-51 *)
Definition r_sub (r : reader) (n : nat) : option (reader * reader) :=
  match r_take r n with
  | None => None
  | Some (b, r') => Some (r_init b, r')
  end.

(** ** Writer — codec.rs:55-104 *)
Record writer := mkWriter { w_buf : bytes; w_offs : nat }.

(** Writer::init — codec.rs:61-66 *)
Definition w_init (b : bytes) : writer := mkWriter b 0.

(** Writer::left — codec.rs:89-91 *)
Definition w_left (w : writer) : nat := (length (w_buf w) - w_offs w)%nat.

(** Writer::used — codec.rs:93-95 *)
Definition w_used (w : writer) : nat := w_offs w.

(** Writer::used_slice — codec.rs:97-99 *)
Definition w_used_slice (w : writer) : bytes := firstn (w_offs w) (w_buf w).

(** The byte loop of extend_from_slice — codec.rs:73-75 *)
Fixpoint write_loop (buf : bytes) (at_ : nat) (v : bytes) : bytes :=
  match v with
  | [] => buf
  | b :: v' => write_loop (patch at_ [b] buf) (S at_) v'
  end.

(** Writer::extend_from_slice — codec.rs:68-78; [None] leaves the writer unchanged *)
Definition w_extend (w : writer) (v : bytes) : option writer :=
  if (w_left w <? length v)%nat then None
  else Some (mkWriter (write_loop (w_buf w) (w_offs w) v) (w_offs w + length v)).

(** Writer::push — codec.rs:80-87 *)
Definition w_push (w : writer) (v : N) : option writer :=
  if (w_left w <? 1)%nat then None
  else Some (mkWriter (patch (w_offs w) [v] (w_buf w)) (w_offs w + 1)).

(** Outcome of an encode: the writer is mutated in place, so an error still
    leaves the bytes pushed before it. *)
Inductive wres := WOk (w : writer) | WErr (w : writer).
Definition wres_writer (r : wres) : writer := match r with WOk w => w | WErr w => w end.

Definition of_opt (w : writer) (o : option writer) : wres :=
  match o with Some w' => WOk w' | None => WErr w end.

(** Sequencing with [?] *)
Definition wthen (r : wres) (k : writer -> wres) : wres :=
  match r with WOk w => k w | WErr w => WErr w end.

(** ** Integer codecs — codec.rs:128-273 *)
(** [v as u8] *)
Definition as_u8 (v : N) : N := v mod 256.

(** impl Codec for u8 — codec.rs:128-140 *)
Definition enc_u8 (v : N) (w : writer) : wres := of_opt w (w_push w v).
Definition decode_u8 (b : bytes) : N := nth 0 b 0.
Definition read_u8 (r : reader) : option (N * reader) :=
  match r_take r 1 with None => None | Some (b, r') => Some (decode_u8 b, r') end.

(** put_u16 / decode_u16 / impl Codec for u16 — codec.rs:142-162 *)
Definition put_u16 (v : N) : bytes := [as_u8 v; as_u8 (N.shiftr v 8)].
Definition enc_u16 (v : N) (w : writer) : wres := of_opt w (w_extend w (put_u16 v)).
Definition decode_u16 (b : bytes) : N := N.lor (nth 0 b 0) (N.shiftl (nth 1 b 0) 8).
Definition read_u16 (r : reader) : option (N * reader) :=
  match r_take r 2 with None => None | Some (b, r') => Some (decode_u16 b, r') end.

(** u24 — codec.rs:164-197; [u24_new] is [None] where [assert_eq!(v >> 24, 0)] panics *)
Definition u24_new (v : N) : option N := if N.shiftr v 24 =? 0 then Some v else None.
Definition enc_u24 (v : N) (w : writer) : wres :=
  wthen (enc_u8 (as_u8 v) w) (fun w =>
  wthen (enc_u8 (as_u8 (N.shiftr v 8)) w) (fun w =>
  enc_u8 (as_u8 (N.shiftr v 16)) w)).
Definition decode_u24 (b : bytes) : N :=
  N.lor (N.lor (nth 0 b 0) (N.shiftl (nth 1 b 0) 8)) (N.shiftl (nth 2 b 0) 16).
Definition read_u24 (r : reader) : option (N * reader) :=
  match r_take r 3 with None => None | Some (b, r') => Some (decode_u24 b, r') end.

(** u32 — codec.rs:199-220 *)
Definition enc_u32 (v : N) (w : writer) : wres :=
  wthen (enc_u8 (as_u8 v) w) (fun w =>
  wthen (enc_u8 (as_u8 (N.shiftr v 8)) w) (fun w =>
  wthen (enc_u8 (as_u8 (N.shiftr v 16)) w) (fun w =>
  enc_u8 (as_u8 (N.shiftr v 24)) w))).
Definition decode_u32 (b : bytes) : N :=
  N.lor (N.lor (N.lor (nth 0 b 0) (N.shiftl (nth 1 b 0) 8)) (N.shiftl (nth 2 b 0) 16))
        (N.shiftl (nth 3 b 0) 24).
Definition read_u32 (r : reader) : option (N * reader) :=
  match r_take r 4 with None => None | Some (b, r') => Some (decode_u32 b, r') end.

(** u64 — codec.rs:222-257 *)
Definition put_u64 (v : N) : bytes :=
  [as_u8 v; as_u8 (N.shiftr v 8); as_u8 (N.shiftr v 16); as_u8 (N.shiftr v 24);
   as_u8 (N.shiftr v 32); as_u8 (N.shiftr v 40); as_u8 (N.shiftr v 48); as_u8 (N.shiftr v 56)].
Definition enc_u64 (v : N) (w : writer) : wres := of_opt w (w_extend w (put_u64 v)).
Definition decode_u64 (b : bytes) : N :=
  N.lor (N.lor (N.lor (N.lor (N.lor (N.lor (N.lor (nth 0 b 0)
    (N.shiftl (nth 1 b 0) 8)) (N.shiftl (nth 2 b 0) 16)) (N.shiftl (nth 3 b 0) 24))
    (N.shiftl (nth 4 b 0) 32)) (N.shiftl (nth 5 b 0) 40)) (N.shiftl (nth 6 b 0) 48))
    (N.shiftl (nth 7 b 0) 56).
Definition read_u64 (r : reader) : option (N * reader) :=
  match r_take r 8 with None => None | Some (b, r') => Some (decode_u64 b, r') end.

(** u128 uses the standard library's to_le_bytes/from_le_bytes — codec.rs:259-273 *)
Definition enc_u128 (v : N) (w : writer) : wres := of_opt w (w_extend w (le_bytes 16 v)).
Definition read_u128 (r : reader) : option (N * reader) :=
  match r_take r 16 with None => None | Some (b, r') => Some (le_val b, r') end.

(** ** Chunked encoders
    Every [spdm_encode] / [encode] in the repository is a sequence of
    [u8/u16/u24/u32/u64::encode] and [extend_from_slice] calls chained with
    [?] (or [map_err(..)?]).  Such an encoder is modelled by the list of slices it
    hands to the writer, in order; each slice is all-or-nothing. *)
Fixpoint emit (chunks : list bytes) (w : writer) : wres :=
  match chunks with
  | [] => WOk w
  | c :: cs => wthen (of_opt w (w_extend w c)) (emit cs)
  end.

(** bytes an encoder puts on the wire when there is room *)
Definition wire (chunks : list bytes) : bytes := concat chunks.

Definition e_u8 (v : N) : list bytes := [[v]].
Definition e_u16 (v : N) : list bytes := [put_u16 v].
Definition e_u24 (v : N) : list bytes := [[as_u8 v]; [as_u8 (N.shiftr v 8)]; [as_u8 (N.shiftr v 16)]].
Definition e_u32 (v : N) : list bytes :=
  [[as_u8 v]; [as_u8 (N.shiftr v 8)]; [as_u8 (N.shiftr v 16)]; [as_u8 (N.shiftr v 24)]].
Definition e_u64 (v : N) : list bytes := [put_u64 v].
Definition e_u128 (v : N) : list bytes := [le_bytes 16 v].
(** [for d in xs { d.encode(bytes)?; }] *)
Definition e_arr (l : bytes) : list bytes := map (fun b => [b]) l.
(** [bytes.extend_from_slice(xs)] *)
Definition e_slice (l : bytes) : list bytes := [l].

(** ** Suffix view of a Reader
    A decoder that starts at offset [offs] sees exactly [skipn offs buf]; decoders
    are written on that suffix and return the unread suffix.  CodecProofs.v proves the
    primitives agree with the Reader operations above. *)
Definition parser (A : Type) := bytes -> option (A * bytes).

Definition ptake (n : nat) : parser bytes :=
  fun l => if (length l <? n)%nat then None else Some (firstn n l, skipn n l).
(** [take] with a length held in an [N] that may be large: the comparison is done in [N] *)
Definition p_u8 : parser N := fun l => match l with b :: r => Some (b, r) | [] => None end.
Definition p_le (n : nat) : parser N :=
  fun l => match ptake n l with Some (b, r) => Some (le_val b, r) | None => None end.
Definition p_u16 := p_le 2.
Definition p_u24 := p_le 3.
Definition p_u32 := p_le 4.
Definition p_u64 := p_le 8.
Definition p_u128 := p_le 16.

Definition pret {A} (a : A) : parser A := fun l => Some (a, l).
Definition pfail {A} : parser A := fun _ => None.
Definition pbind {A B} (p : parser A) (k : A -> parser B) : parser B :=
  fun l => match p l with Some (a, r) => k a r | None => None end.
(** [if !c { return None; }] *)
Definition pguard {A} (c : bool) (k : parser A) : parser A := if c then k else pfail.

Declare Scope parser_scope.
Delimit Scope parser_scope with parser.
Notation "x <- p ;; k" := (pbind p (fun x => k%parser)) (at level 61, p at next level, right associativity) : parser_scope.
Notation "'guard' c ;; k" := (pguard c k%parser) (at level 61, c at next level, right associativity) : parser_scope.

(** [for d in xs.iter_mut().take(n) { *d = u8::read(r)?; }] reads [n] bytes;
    equal to [ptake n] when it succeeds *)
Fixpoint p_arr (n : nat) : parser bytes :=
  match n with
  | O => pret []
  | S n' => pbind p_u8 (fun b => pbind (p_arr n') (fun l => pret (b :: l)))
  end.

(** run a suffix decoder on a Reader *)
Definition run_reader {A} (p : parser A) (r : reader) : option (A * reader) :=
  match p (skipn (r_offs r) (r_buf r)) with
  | None => None
  | Some (a, rest) => Some (a, mkReader (r_buf r) (length (r_buf r) - length rest))
  end.

(** ** enum_builder! — codec/src/macros.rs:8-113
    The macro is given a table of (variant, value).  [EnumKnown i] is the i-th
    named variant, [EnumUnknown x] the generated [Unknown(x)]. *)
Inductive enum_val := EnumKnown (i : nat) | EnumUnknown (x : N).

(** get_u8 / get_u16 / get_u32 — macros.rs:21-28 *)
Definition enum_get (tbl : list N) (e : enum_val) : N :=
  match e with EnumKnown i => nth i tbl 0 | EnumUnknown x => x end.

(** [read]: match arms in declaration order, first match wins — macros.rs:35-41 *)
Fixpoint enum_find (tbl : list N) (i : nat) (x : N) : option nat :=
  match tbl with
  | [] => None
  | v :: t => if x =? v then Some i else enum_find t (S i) x
  end.
Definition enum_of (tbl : list N) (x : N) : enum_val :=
  match enum_find tbl 0 x with Some i => EnumKnown i | None => EnumUnknown x end.
Definition enum_read_u8 (tbl : list N) (r : reader) : option (enum_val * reader) :=
  match read_u8 r with None => None | Some (x, r') => Some (enum_of tbl x, r') end.
Definition enum_read_u16 (tbl : list N) (r : reader) : option (enum_val * reader) :=
  match read_u16 r with None => None | Some (x, r') => Some (enum_of tbl x, r') end.
Definition enum_read_u32 (tbl : list N) (r : reader) : option (enum_val * reader) :=
  match read_u32 r with None => None | Some (x, r') => Some (enum_of tbl x, r') end.
Definition enum_enc_u8 (tbl : list N) (e : enum_val) (w : writer) : wres := enc_u8 (enum_get tbl e) w.
Definition enum_enc_u16 (tbl : list N) (e : enum_val) (w : writer) : wres := enc_u16 (enum_get tbl e) w.
Definition enum_enc_u32 (tbl : list N) (e : enum_val) (w : writer) : wres := enc_u32 (enum_get tbl e) w.
