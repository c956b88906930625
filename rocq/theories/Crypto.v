(** The cryptographic and platform callbacks of the library, as one record of functions.
    spdmlib/src/crypto/crypto_callbacks.rs, spdmlib/src/secret/secret_callback.rs.
    Nothing is assumed about them here: theorems that need a law take it as a premise.

    Byte-string arguments are the meaningful prefix of the Rust structs ([as_ref()]). *)
From Verif Require Import Bytes Codec Parse Status Algo MsgConn MsgAuth.
Local Open Scope N_scope.

Record crypto := mkCrypto {
  (** crypto::hash::hash_all; the hash_ctx_* interface is modelled by [hash_all] of the
      concatenation of the updates *)
  cr_hash : N -> bytes -> option bytes;
  (** crypto::hkdf::hkdf_extract hash salt ikm *)
  cr_extract : N -> bytes -> bytes -> option bytes;
  (** crypto::hkdf::hkdf_expand hash prk info out_size *)
  cr_expand : N -> bytes -> bytes -> N -> option bytes;
  (** crypto::hmac::hmac hash key data *)
  cr_hmac : N -> bytes -> bytes -> option bytes;
  (** crypto::hmac::hmac_verify hash key data mac *)
  cr_hmac_verify : N -> bytes -> bytes -> bytes -> bool;
  (** the raw AEAD under crypto::aead::encrypt / decrypt: alg key nonce aad text *)
  cr_seal : N -> bytes -> bytes -> bytes -> bytes -> option (bytes * bytes);
  cr_open : N -> bytes -> bytes -> bytes -> bytes -> bytes -> option bytes;
  (** crypto::asym_verify::verify hash asym cert_chain_der data signature *)
  cr_verify : N -> N -> bytes -> bytes -> bytes -> bool;
  (** secret::asym_sign::sign hash asym data *)
  cr_sign : N -> N -> bytes -> option bytes;
  (** crypto::cert_operation::verify_cert_chain *)
  cr_verify_chain : bytes -> bool;
  (** crypto::dhe::generate_key_pair (n-th call): the public exchange data *)
  cr_dhe_public : N -> N -> option bytes;
  (** compute_final_key of that key pair with the peer's exchange data *)
  cr_dhe_final : N -> N -> bytes -> option bytes;
  (** crypto::rand::get_random, n-th call, for [len] bytes *)
  cr_random : N -> nat -> option bytes;
  (** secret::psk::handshake_secret_hkdf_expand version hash hint info *)
  cr_psk_hs : N -> N -> bytes -> bytes -> option bytes;
  (** secret::psk::master_secret_hkdf_expand *)
  cr_psk_ms : N -> N -> bytes -> bytes -> option bytes;
  (** secret::measurement::measurement_collection version spec hash index *)
  cr_measure : N -> N -> N -> N -> option mrecord;
  (** secret::measurement::generate_measurement_summary_hash version hash spec mhash type *)
  cr_summary : N -> N -> N -> N -> N -> option bytes
}.

(** crypto::aead::encrypt — crypto/spdm_ring/aead_impl.rs:16-66.  [Err] is CRYPTO_ERROR.
    The output buffers have the text's and the tag's length; a primitive returning other
    lengths would make copy_from_slice panic. *)
Definition aead_encrypt (cr : crypto) (alg : N) (key iv aad plain : bytes) (tag_len : N) : outcome (bytes * bytes) :=
  match aead_key_size alg, aead_iv_size alg, aead_tag_size alg with
  | Some ks, Some ivs, Some ts =>
      if negb (len key =? ks) then Err ST_CRYPTO_ERROR
      else if negb (len iv =? ivs) then Err ST_CRYPTO_ERROR
      else if negb (tag_len =? ts) then Err ST_CRYPTO_ERROR
      else match cr_seal cr alg key iv aad plain with
           | None => Err ST_CRYPTO_ERROR
           | Some (c, t) => if (len c =? len plain) && (len t =? tag_len) then Ok (c, t) else Panic
           end
  | _, _, _ => Panic
  end.
(** crypto::aead::decrypt — crypto/spdm_ring/aead_impl.rs:68-115 *)
Definition aead_decrypt (cr : crypto) (alg : N) (key iv aad cipher tag : bytes) : outcome bytes :=
  match aead_key_size alg, aead_iv_size alg, aead_tag_size alg with
  | Some ks, Some ivs, Some ts =>
      if negb (len key =? ks) then Err ST_CRYPTO_ERROR
      else if negb (len iv =? ivs) then Err ST_CRYPTO_ERROR
      else if negb (len tag =? ts) then Err ST_CRYPTO_ERROR
      else match cr_open cr alg key iv aad cipher tag with
           | None => Err ST_CRYPTO_ERROR
           | Some p => if len cipher <=? len p then Ok (firstn (length cipher) p) else Panic
           end
  | _, _, _ => Panic
  end.
