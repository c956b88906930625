(** An example instance of the callbacks, used only to show that the premises of theorems are
    satisfiable and to run concrete cases.  Models no code. *)
From Verif Require Import Bytes Algo Crypto MsgAuth.
Local Open Scope N_scope.

Definition poly (l : bytes) : N := fold_left (fun a b => N.land (a * 65599 + b + 1) 0xFFFFFFFFFFFFFFFFFFFFFFFFFFFFFFFF) l 7.
Definition toy_tag (key nonce aad plain : bytes) : bytes :=
  le_bytes 16 (poly (key ++ nonce ++ aad ++ plain)).
Definition toy : crypto := {|
  cr_hash := fun h d => match hash_size h with Some n => Some (le_bytes (N.to_nat n) (poly d)) | None => None end;
  cr_extract := fun h salt ikm => match hash_size h with Some n => Some (le_bytes (N.to_nat n) (poly (salt ++ ikm))) | None => None end;
  cr_expand := fun h prk info n => Some (le_bytes (N.to_nat n) (poly (prk ++ info)));
  cr_hmac := fun h key d => match hash_size h with Some n => Some (le_bytes (N.to_nat n) (poly (key ++ d))) | None => None end;
  cr_hmac_verify := fun h key d mac => match hash_size h with Some n => bytes_eqb mac (le_bytes (N.to_nat n) (poly (key ++ d))) | None => false end;
  cr_seal := fun alg key nonce aad plain => Some (plain, toy_tag key nonce aad plain);
  cr_open := fun alg key nonce aad c t => if bytes_eqb t (toy_tag key nonce aad c) then Some c else None;
  cr_verify := fun h a cert d sig => bytes_eqb sig (le_bytes 96 (poly d));
  cr_sign := fun h a d => Some (le_bytes 96 (poly d));
  cr_verify_chain := fun c => true;
  cr_dhe_public := fun alg n => match dhe_size alg with Some k => Some (fill (N.to_nat k) 5) | None => None end;
  cr_dhe_final := fun alg n peer => match dhe_size alg with Some k => Some (fill (N.to_nat (k / 2)) 9) | None => None end;
  cr_random := fun n k => Some (fill k (n mod 256));
  cr_psk_hs := fun v h hint info => match hash_size h with Some n => Some (le_bytes (N.to_nat n) (poly (1 :: hint ++ info))) | None => None end;
  cr_psk_ms := fun v h hint info => match hash_size h with Some n => Some (le_bytes (N.to_nat n) (poly (2 :: hint ++ info))) | None => None end;
  cr_measure := fun v spec h idx => Some (mkRecord 1 9 [1; 1; 5; 0; 0x81; 2; 0; 0xAB; 0xCD]);
  cr_summary := fun v h spec mh ty => match hash_size h with Some n => Some (fill (N.to_nat n) 3) | None => None end
|}.
