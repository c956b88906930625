(** Model of get_random — spdmlib/src/crypto/spdm_ring/rand_impl.rs:12-34.  No proofs here.
    The generator is a list of what its next calls give: a block of 64 bytes, or [None] for a failure.
    A slice outside [data] is a panic. *)
From Verif Require Import Bytes Status.
Local Open Scope N_scope.

(** [data[a..b].copy_from_slice(src)] *)
Definition copy_into (a b : N) (src data : bytes) : outcome bytes :=
  if (b <? a) || (len data <? b) || negb (len src =? b - a) then Panic
  else Ok (firstn (N.to_nat a) data ++ src ++ skipn (N.to_nat b) data).
(** the loop — rand_impl.rs:17-31; the blocks used up are gone from the result.  An exhausted list stands for a
    generator that fails. *)
Fixpoint random_loop (blocks : list (option bytes)) (data : bytes) (left offset : N) : outcome (bytes * list (option bytes)) :=
  if left =? 0 then Ok (data, blocks)
  else
    match blocks with
    | Some rd :: rest =>
        if 64 <? left then
          obind (copy_into offset (offset + 64) rd data) (fun d => random_loop rest d (left - 64) (offset + 64))
        else
          if len rd <? left then Panic
          else obind (copy_into offset (offset + left) (firstn (N.to_nat left) rd) data) (fun d => Ok (d, rest))
    | None :: _ | [] => Err ST_CRYPTO_ERROR
    end.
(** the function: [data] is the buffer before; the result the buffer after and [data.len()] — rand_impl.rs:12-34 *)
Definition get_random (blocks : list (option bytes)) (data : bytes) : outcome (bytes * N * list (option bytes)) :=
  obind (random_loop blocks data (len data) 0) (fun r => Ok (fst r, len data, snd r)).
