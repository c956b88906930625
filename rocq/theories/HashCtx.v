(** Model of the running digests of the default build (feature hashed-transcript-data):
    the global table of spdmlib/src/crypto/spdm_ring/hash_impl.rs:35-92 and the owned handle
    [SpdmHashCtx] of spdmlib/src/crypto/mod.rs:67-119, used by any number of threads at once.
    No proofs here.  ring's digest::Context is a parameter; a Box's address is its handle. *)
From Verif Require Import Bytes.
Local Open Scope N_scope.

(** ring::digest: Context::new, update, finish — and digest::digest for hash_all *)
Record hasher := mkHasher {
  hs_ctx : Type;
  hs_new : N -> option hs_ctx;          (* [None]: the algorithm is none of the three, hash_impl.rs:75-80 *)
  hs_update : hs_ctx -> bytes -> hs_ctx;
  hs_finish : hs_ctx -> bytes;
}.
(** HASH_CTX_TABLE, a BTreeMap from handles — hash_impl.rs:45-48 *)
Definition table (C : Type) := N -> option C.
Definition put {A} (k : N) (a : option A) (f : N -> option A) : N -> option A := fun x => if x =? k then a else f x.

Section Ops.
Variable K : hasher.
Notation C := (hs_ctx K).
(** hash_ctx_update — hash_impl.rs:51-56: [false] is Err(CRYPTO_ERROR) *)
Definition hash_ctx_update (t : table C) (handle : N) (data : bytes) : table C * bool :=
  match t handle with None => (t, false) | Some c => (put handle (Some (hs_update K c data)) t, true) end.
(** the removal of hash_ctx_finalize — hash_impl.rs:59 *)
Definition table_remove (t : table C) (handle : N) : table C * option C := (put handle None t, t handle).
(** the insertion of insert_to_table — hash_impl.rs:88: an entry with the same key is replaced *)
Definition table_insert (t : table C) (handle : N) (c : C) : table C := put handle (Some c) t.

(** The whole process.  [g_owned v] is the handle in the SpdmHashCtx value called [v] (the values that
    exist; names stand for the variables and fields of all contexts and threads).  [g_boxed w] is a Box
    that hash_ctx_init or hash_ctx_dup allocated and has not yet inserted — the lock is not held in
    between — under the name of the value it will become.  [g_taken v] is what a finalisation has
    removed and not yet finished. *)
Record heap := mkHeap { g_table : table C; g_owned : N -> option N; g_boxed : N -> option (N * C); g_taken : N -> option C }.
Definition heap0 : heap := mkHeap (fun _ => None) (fun _ => None) (fun _ => None) (fun _ => None).
Definition unused (g : heap) (w : N) : Prop := g_owned g w = None /\ g_boxed g w = None /\ g_taken g w = None.
(** what the allocator can return: not null, and not the address of a Box that lives — those in the
    table and those not yet inserted *)
Definition fresh (g : heap) (a : N) : Prop := a <> 0 /\ g_table g a = None /\ forall w c, g_boxed g w <> Some (a, c).

(** what a thread does to a running digest, with what it is told *)
Inductive event :=
| EInit (w alg : N) (ok : bool)        (* hash_ctx_init, up to the allocation *)
| EDup (w v : N) (ok : bool)           (* hash_ctx_dup / clone, up to the allocation *)
| EReady (w : N)                       (* ... the insertion: [w] is there *)
| EUpdate (v : N) (data : bytes) (ok : bool)
| ETake (v : N) (ok : bool)            (* hash_ctx_finalize or drop, up to the removal *)
| EDigest (v : N) (digest : bytes).    (* ... the result *)

(** The steps of all threads, in any order.  Ownership gives the conditions: a new value has a name of its
    own, and an operation is on a value that exists.
    hash_impl.rs:74-83 (init), 64-72 (dup), 85-90 (insert), 51-56 (update), 58-62 (finalize; mod.rs:79-85
    for drop, which finalises the same handle and forgets the result; the handle is cleared, mod.rs:106,
    so that the moved-from value is not finalised again). *)
Inductive step : heap -> event -> heap -> Prop :=
| st_init g w alg c a : unused g w -> hs_new K alg = Some c -> fresh g a ->
    step g (EInit w alg true) (mkHeap (g_table g) (g_owned g) (put w (Some (a, c)) (g_boxed g)) (g_taken g))
| st_init_bad g w alg : unused g w -> hs_new K alg = None -> step g (EInit w alg false) g
| st_dup g w v h c a : unused g w -> g_owned g v = Some h -> g_table g h = Some c -> fresh g a ->
    step g (EDup w v true) (mkHeap (g_table g) (g_owned g) (put w (Some (a, c)) (g_boxed g)) (g_taken g))
| st_dup_bad g w v h : unused g w -> g_owned g v = Some h -> g_table g h = None -> step g (EDup w v false) g
| st_ready g w a c : g_boxed g w = Some (a, c) ->
    step g (EReady w) (mkHeap (table_insert (g_table g) a c) (put w (Some a) (g_owned g)) (put w None (g_boxed g)) (g_taken g))
| st_update g v h data : g_owned g v = Some h ->
    step g (EUpdate v data (snd (hash_ctx_update (g_table g) h data)))
      (mkHeap (fst (hash_ctx_update (g_table g) h data)) (g_owned g) (g_boxed g) (g_taken g))
| st_take g v h : g_owned g v = Some h ->
    step g (ETake v (match snd (table_remove (g_table g) h) with Some _ => true | None => false end))
      (mkHeap (fst (table_remove (g_table g) h)) (put v None (g_owned g)) (g_boxed g) (put v (snd (table_remove (g_table g) h)) (g_taken g)))
| st_digest g v c : g_taken g v = Some c ->
    step g (EDigest v (hs_finish K c)) (mkHeap (g_table g) (g_owned g) (g_boxed g) (put v None (g_taken g))).

(** an execution of the process from its start; the events in the order they happen *)
Inductive process : list event -> heap -> Prop :=
| pr_start : process [] heap0
| pr_step l g e g' : process l g -> step g e g' -> process (l ++ [e]) g'.
End Ops.
