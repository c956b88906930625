(** ECDSA signatures as DSP0274 and as X.690/RFC 3279 write them. *)
From Verif Require Import Bytes SpecDer.
Local Open Scope N_scope.

(** DER INTEGER of a positive number below 2^1016: shortest, top bit clear *)
Definition der_positive (n : N) (t : bytes) : Prop :=
  exists first rest, t = 2 :: len (first :: rest) :: first :: rest /\ len (first :: rest) < 128 /\
    be_val (first :: rest) = n /\ 0 < n /\ first < 128 /\ bytes_ok rest /\
    (first = 0 -> exists b more, rest = b :: more /\ 128 <= b).
(** ECDSA-Sig-Value ::= SEQUENCE { r INTEGER, s INTEGER }, length in the short form *)
Definition ecdsa_sig_value (r s : N) (t : bytes) : Prop :=
  exists tr ts, der_positive r tr /\ der_positive s ts /\ len (tr ++ ts) < 128 /\ t = 0x30 :: len (tr ++ ts) :: tr ++ ts.
(** DSP0274: r and s as big-endian numbers of the same number of bytes, one after the other *)
Definition spdm_signature (n r s : N) (t : bytes) : Prop :=
  exists br bs, t = br ++ bs /\ bytes_ok t /\ len br = n /\ len bs = n /\ be_val br = r /\ be_val bs = s.
