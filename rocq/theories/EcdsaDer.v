(** Model of spdmlib/src/crypto/spdm_ring/asym_verify_impl.rs:14-187: the glue between SPDM's
    signatures and webpki.  No proofs here.  Indices out of range and copies between slices of
    different lengths are panics.  webpki itself is a parameter. *)
From Verif Require Import Bytes Codec Parse Algo Status X509 CertOps.
Local Open Scope N_scope.

(** how many zeros lead — the index found by the two search loops, asym_verify_impl.rs:125-131 and
    135-141 (the length if every byte is zero, as the loops leave the index at [half_size]) *)
Fixpoint lead_zeros (l : bytes) : N :=
  match l with [] => 0 | b :: r => if negb (b =? 0) then 0 else 1 + lead_zeros r end.
(** a number as it is copied — asym_verify_impl.rs:170-175 and 179-184: a zero first if the top bit is set *)
Definition padded (n : bytes) : bytes := if nth 0 n 0 <? 0x80 then n else 0 :: n.
(** ecc_signature_bin_to_der — asym_verify_impl.rs:121-187.  [cap] is [der_signature.len()]; the
    result is the part of the buffer the caller uses, [&der_signature[..der_sign_size]]. *)
Definition ecc_signature_bin_to_der (signature : bytes) (cap : N) : outcome bytes :=
  let half := len signature / 2 in
  let r_index := lead_zeros (firstn (N.to_nat half) signature) in
  let r_size := half - r_index in
  let r := slice (N.to_nat r_index) (N.to_nat (half - r_index)) signature in
  let s_index := lead_zeros (slice (N.to_nat half) (N.to_nat half) signature) in
  let s_size := half - s_index in
  let s := skipn (N.to_nat (half + s_index)) signature in
  if (r_size =? 0) || (s_size =? 0) then Ok []
  else
    let der_r_size := if nth 0 r 0 <? 0x80 then r_size else r_size + 1 in
    let der_s_size := if nth 0 s 0 <? 0x80 then s_size else s_size + 1 in
    let total := der_r_size + der_s_size + 6 in
    if cap <? total then vfail
    else if (255 <? der_r_size) || (255 <? der_s_size) || (255 <? total) then vfail
    else if negb (len s =? s_size) then Panic
    else Ok ([0x30; total - 2; 2; der_r_size] ++ padded r ++ [2; der_s_size] ++ padded s).

(** the webpki algorithms used — asym_verify_impl.rs:25-71 *)
Inductive curve := P256 | P384.
Inductive digest := SHA256 | SHA384 | SHA512.
Inductive webpki_alg := WEcdsa (c : curve) (h : digest) | WPkcs1 (h : digest) | WPss (h : digest).
(** the [match] on the two algorithms — asym_verify_impl.rs:25-71; [None] is the [panic!()] of line 69.
    Bits: algo.rs:257-267 (hash) and 170-187 (asym). *)
Definition webpki_alg_of (hash asym : N) : option webpki_alg :=
  match hash, asym with
  | 1, 0x10 => Some (WEcdsa P256 SHA256)
  | 1, 0x80 => Some (WEcdsa P384 SHA256)
  | 2, 0x10 => Some (WEcdsa P256 SHA384)
  | 2, 0x80 => Some (WEcdsa P384 SHA384)
  | 1, 0x1 | 1, 0x4 | 1, 0x20 => Some (WPkcs1 SHA256)
  | 1, 0x2 | 1, 0x8 | 1, 0x40 => Some (WPss SHA256)
  | 2, 0x1 | 2, 0x4 | 2, 0x20 => Some (WPkcs1 SHA384)
  | 2, 0x2 | 2, 0x8 | 2, 0x40 => Some (WPss SHA384)
  | 4, 0x1 | 4, 0x4 | 4, 0x20 => Some (WPkcs1 SHA512)
  | 4, 0x2 | 4, 0x8 | 4, 0x40 => Some (WPss SHA512)
  | _, _ => None
  end.

(** what is used of webpki: EndEntityCert::try_from succeeds; cert.verify_signature succeeds *)
Record webpki := mkWebpki {
  wp_parse : bytes -> bool;
  wp_verify : webpki_alg -> bytes -> bytes -> bytes -> bool; (* algorithm, certificate, data, signature *)
}.
(** the buffer — asym_verify_impl.rs:90-91, with ECDSA_ECC_NIST_P384_KEY_SIZE from algo.rs:26 *)
Definition DER_BUFFER : N := 48 * 2 + 8.
(** asym_verify — asym_verify_impl.rs:14-118; [signature] is [signature.as_ref()], of
    [signature.data_size] bytes *)
Definition asym_verify (W : webpki) (hash asym : N) (chain data signature : bytes) : outcome unit :=
  match asym_size asym with
  | None => Panic
  | Some n =>
      if negb (len signature =? n) then vfail
      else
        match webpki_alg_of hash asym with
        | None => Panic
        | Some alg =>
            _ <-o check_chain chain asym ;;
            span <-o get_cert chain (-1) ;;
            let leaf := slice (N.to_nat (fst span)) (N.to_nat (snd span - fst span)) chain in
            if negb (wp_parse W leaf) then Err ST_INVALID_CERT
            else
              match asym with
              | 0x10 | 0x80 =>
                  der <-o ecc_signature_bin_to_der signature DER_BUFFER ;;
                  if wp_verify W alg leaf data der then Ok tt else vfail
              | 0x1 | 0x2 | 0x4 | 0x8 | 0x20 | 0x40 =>
                  if wp_verify W alg leaf data signature then Ok tt else vfail
              | _ => vfail
              end
        end
  end.
