(** Model of verify_spdm_certificate_chain, which the requester
    (requester/get_certificate_req.rs:228-324) and the responder
    (responder/encap_get_certificate.rs:165-261) implement with the same statements.
    No proofs here. *)
From Verif Require Import Bytes Codec Parse Status Algo Crypto CertOps.
Local Open Scope N_scope.

(** [SpdmCertChainBuffer.data[0] + (data[1] << 8)] *)
Definition chain_length_field (chain : bytes) : N := nth 0 chain 0 + 256 * nth 1 chain 0.
(** the certificates behind the 4-byte prefix and the root hash *)
Definition chain_body (hash_len : N) (chain : bytes) : bytes := skipn (N.to_nat (4 + hash_len)) chain.
(** verify_spdm_certificate_chain; [chain] is the retrieved buffer up to its data_size, [root] the
    provisioned peer root certificate.  [base_hash_sel.get_size()] panics for an unknown hash
    (algo.rs:46-55), modelled by [hash_size] being [None]. *)
Definition verify_chain (cr : crypto) (hash : N) (root : option bytes) (chain : bytes) : outcome unit :=
  match hash_size hash with
  | None => Panic
  | Some h =>
      if len chain <=? 4 + h then Err ST_INVALID_CERT
      else if negb (chain_length_field chain =? len chain) then Err ST_INVALID_CERT
      else
        let body := chain_body h chain in
        if 4096 <? len body then Panic
        else if negb (cr_verify_chain cr body) then Err ST_INVALID_CERT
        else
          obind (get_cert body 0) (fun p =>
            let rc := slice (N.to_nat (fst p)) (N.to_nat (snd p - fst p)) body in
            match cr_hash cr hash rc with
            | None => Err ST_CRYPTO_ERROR
            | Some rh =>
                if negb (bytes_eqb rh (slice 4 (N.to_nat h) chain)) then Err ST_INVALID_CERT
                else match root with
                     | Some r => if bytes_eqb rc r then Ok tt else Err ST_INVALID_CERT
                     | None => Ok tt
                     end
            end)
  end.
