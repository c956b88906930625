(** Model of spdmlib/src/crypto/x509v3.rs:1-318, the DER walk done before every signature
    verification (spdm_ring/asym_verify_impl.rs:73).  No proofs here.
    [usize] is 64 bits; an addition that overflows, a slice that starts beyond its end and an index
    out of range are panics (debug profile). *)
From Verif Require Import Bytes Status.
Local Open Scope N_scope.

Notation "x <-o m ;; k" := (obind m (fun x => k)) (at level 61, m at next level, right associativity).

Definition USIZE : N := 2 ^ 64.
(** [a + b] on usize *)
Definition uadd (a b : N) : outcome N := if USIZE <=? a + b then Panic else Ok (a + b).
(** [&data[n..]] *)
Definition from (n : N) (d : bytes) : outcome bytes := if len d <? n then Panic else Ok (skipn (N.to_nat n) d).
Definition vfail {A} : outcome A := Err ST_VERIF_FAIL.

(** the OIDs — x509v3.rs:25-29 *)
Definition OID_RSA256 : bytes := [0x2a; 0x86; 0x48; 0x86; 0xf7; 0x0d; 0x01; 0x01; 0x0b].
Definition OID_RSA384 : bytes := [0x2a; 0x86; 0x48; 0x86; 0xf7; 0x0d; 0x01; 0x01; 0x0c].
Definition OID_RSA512 : bytes := [0x2a; 0x86; 0x48; 0x86; 0xf7; 0x0d; 0x01; 0x01; 0x0d].
Definition OID_ECDSA256 : bytes := [0x2a; 0x86; 0x48; 0xce; 0x3d; 0x04; 0x03; 0x02].
Definition OID_ECDSA384 : bytes := [0x2a; 0x86; 0x48; 0xce; 0x3d; 0x04; 0x03; 0x03].
(** get_oid_by_base_asym_algo — x509v3.rs:287-299; the algorithm bits are those of algo.rs:189-199 *)
Definition oid_of (asym : N) : option bytes :=
  match asym with
  | 0x1 => Some OID_RSA256 | 0x2 => Some OID_RSA256
  | 0x4 => Some OID_RSA384 | 0x8 => Some OID_RSA384
  | 0x10 => Some OID_ECDSA256
  | 0x20 => Some OID_RSA512 | 0x40 => Some OID_RSA512
  | 0x80 => Some OID_ECDSA384
  | _ => None
  end.

(** check_tag_is_sequence — x509v3.rs:175-183 *)
Definition check_seq (d : bytes) : outcome unit :=
  match d with
  | [] => vfail
  | t :: _ => if t =? 0x30 then Ok tt else vfail
  end.
(** check_length — x509v3.rs:188-207.  More than eight length octets index [length] out of range. *)
Definition check_length (d : bytes) : outcome (N * N) :=
  match d with
  | [] => vfail
  | b :: _ =>
      if N.land b 0x80 =? 0 then Ok (b, 1)
      else
        let n := b - 0x80 in
        if (len d <? n + 1) || (n =? 0) then vfail
        else if 8 <? n then Panic
        else Ok (le_val (rev (slice 1 (N.to_nat n) d)), n + 1)
  end.
(** check_version — x509v3.rs:209-226 *)
Definition check_version (d : bytes) : outcome N :=
  match d with
  | a :: b :: c :: e :: v :: _ =>
      if (a =? 0xA0) && (b =? 3) && (c =? 2) && (e =? 1) && (v =? 2) then Ok 5 else vfail
  | _ => vfail
  end.
(** object_identifiers_are_same — x509v3.rs:301-313 *)
Fixpoint oid_same (a b : bytes) : bool :=
  match a, b with
  | [], [] => true
  | x :: a', y :: b' => (x =? y) && oid_same a' b'
  | _, _ => false
  end.
(** check_object_identifier — x509v3.rs:228-246 *)
Definition check_oid (d : bytes) (oid : option bytes) : outcome N :=
  match d with
  | t :: n :: _ =>
      if negb (t =? 6) then vfail
      else if (len d <? n + 2) || (0x80 <=? n) then vfail
      else match oid with
           | None => Ok (n + 2)
           | Some o => if oid_same (slice 2 (N.to_nat n) d) o then Ok (n + 2) else vfail
           end
  | _ => vfail
  end.
(** the common tail of check_and_skip_common_sequence (260-272) and check_and_skip_common_tag
    (274-285): the length after the tag byte, the payload inside [data] *)
Definition skip_body (d : bytes) : outcome N :=
  (r <-o from 1 d ;;
   p <-o check_length r ;;
   a <-o uadd 1 (snd p) ;;
   n <-o uadd a (fst p) ;;
   if len d <? n then vfail else Ok n).
Definition skip_tag (d : bytes) : outcome N := match d with [] => vfail | _ => skip_body d end.
Definition skip_seq (d : bytes) : outcome N :=
  match d with [] => vfail | t :: _ => if t =? 0x30 then skip_body d else vfail end.

(** check_tbs_certificate — x509v3.rs:89-149 *)
Definition check_tbs (d : bytes) (asym : N) (leaf : bool) : outcome N :=
  (_ <-o check_seq d ;;
   r <-o from 1 d ;;
   p <-o check_length r ;;
   before <-o uadd 1 (snd p) ;;
   all <-o uadd before (fst p) ;;
   if len d <? all then vfail
   else
     r <-o from before d ;; n <-o check_version r ;; w <-o uadd before n ;;
     r <-o from w d ;; n <-o skip_tag r ;; w <-o uadd w n ;;
     r <-o from w d ;; _ <-o check_seq r ;; w <-o uadd w 1 ;;
     r <-o from w d ;; q <-o check_length r ;; w <-o uadd w (snd q) ;;
     r <-o from w d ;; _ <-o check_oid r (if leaf then oid_of asym else None) ;; w <-o uadd w (fst q) ;;
     r <-o from w d ;; n <-o skip_seq r ;; w <-o uadd w n ;;
     r <-o from w d ;; n <-o skip_seq r ;; w <-o uadd w n ;;
     r <-o from w d ;; n <-o skip_seq r ;; w <-o uadd w n ;;
     r <-o from w d ;; _ <-o skip_seq r ;;
     uadd before (fst p)).
(** check_signature_algorithm — x509v3.rs:151-171 *)
Definition check_sig_alg (d : bytes) (asym : N) (leaf : bool) : outcome N :=
  (_ <-o check_seq d ;;
   r <-o from 1 d ;;
   p <-o check_length r ;;
   w <-o uadd 1 (snd p) ;;
   r <-o from w d ;; _ <-o check_oid r (if leaf then oid_of asym else None) ;;
   uadd w (fst p)).
(** check_cert_format — x509v3.rs:62-87 *)
Definition check_cert (d : bytes) (asym : N) : outcome N :=
  (_ <-o check_seq d ;;
   r <-o from 1 d ;;
   p <-o check_length r ;;
   w0 <-o uadd 1 (snd p) ;;
   e <-o uadd w0 (fst p) ;;
   let leaf := len d =? e in
   r <-o from w0 d ;; n <-o check_tbs r asym leaf ;; w <-o uadd w0 n ;;
   r <-o from w d ;; n <-o check_sig_alg r asym leaf ;; w <-o uadd w n ;;
   r <-o from w d ;; n <-o skip_tag r ;; w <-o uadd w n ;;
   if w =? e then Ok w else vfail).
(** check_cert_chain_format — x509v3.rs:39-57.  [fuel] bounds the iterations of the while loop;
    X509Proofs.v shows it is never exhausted when it is at least the length of the chain.  The
    count and the walker cannot overflow: both stay at most the length of the chain. *)
Fixpoint chain_loop (fuel : nat) (chain : bytes) (asym : N) (w count : N) : outcome N :=
  if w <? len chain then
    match fuel with
    | O => Panic
    | S fuel' =>
        (r <-o from w chain ;;
         n <-o check_cert r asym ;;
         w' <-o uadd w n ;;
         chain_loop fuel' chain asym w' (count + 1))
    end
  else if w =? len chain then Ok count else vfail.
Definition check_chain (chain : bytes) (asym : N) : outcome N := chain_loop (length chain) chain asym 0 0.
