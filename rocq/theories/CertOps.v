(** Model of get_cert_from_cert_chain — spdmlib/src/crypto/spdm_ring/cert_operation_impl.rs:19-48.
    No proofs here. *)
From Verif Require Import Bytes Status.
Local Open Scope N_scope.

(** the loop — cert_operation_impl.rs:23-47.  [fuel] bounds the iterations; every iteration that
    continues advances [offset] by at least 4, so [length chain + 1] is never exhausted
    (no theorem relies on the [Panic] of an exhausted fuel: PropRetr.v and PropCert.v characterise the results).  [index] is the isize argument. *)
Fixpoint cert_loop (fuel : nat) (chain : bytes) (index : Z) (offset : N) (this : Z) : outcome (N * N) :=
  match fuel with
  | O => Panic
  | S fuel' =>
      if (len chain <? offset) then Panic (* slice start out of range *)
      else if (len chain - offset <? 4) then Err ST_INVALID_CERT
      else
        match skipn (N.to_nat offset) chain with
        | t :: l0 :: hi :: lo :: _ =>
            if negb (t =? 0x30) || negb (l0 =? 0x82) then Err ST_INVALID_CERT
            else
              let n := hi * 256 + lo + 4 in
              if len chain - offset <? n then Err ST_INVALID_CERT
              else if (this =? index)%Z then Ok (offset, offset + n)
              else if (offset + n =? len chain) && (index =? -1)%Z then Ok (offset, offset + n)
              else cert_loop fuel' chain index (offset + n) (this + 1)
        | _ => Err ST_INVALID_CERT
        end
  end.
Definition get_cert (chain : bytes) (index : Z) : outcome (N * N) :=
  cert_loop (S (length chain)) chain index 0 0.
