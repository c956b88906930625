(** What running digests are for: each is a string of bytes of its own, hashed at the end. *)
From Verif Require Import Bytes HashCtx.
Local Open Scope N_scope.

(** algorithm and bytes each value stands for, by the events so far *)
Definition told (s : N -> option (N * bytes)) (e : event) : N -> option (N * bytes) :=
  fun x =>
    match e with
    | EInit w alg true => if x =? w then Some (alg, []) else s x                              (* starts empty *)
    | EDup w v true => if x =? w then s v else s x                                            (* starts as a copy *)
    | EUpdate v data true => if x =? v then option_map (fun p => (fst p, snd p ++ data)) (s v) else s x (* appends *)
    | _ => s x
    end.
Definition written (l : list event) : N -> option (N * bytes) := fold_left told l (fun _ => None).
(** the hash functions a library of running digests computes: [None] for an unknown algorithm *)
Definition hashes (K : hasher) (H : N -> bytes -> option bytes) : Prop :=
  forall alg, match hs_new K alg with
              | None => forall d, H alg d = None
              | Some c => forall pieces, H alg (concat pieces) = Some (hs_finish K (fold_left (hs_update K) pieces c))
              end.
