(** Vocabulary for the content of the responder's authenticated replies (C76, C77). *)
From Verif Require Import Bytes Status Codec Algo Monad MsgAuth Message Transport Crypto KeySchedule Session Signing CertOps ChainVerify Context SpecMsg SpecSession SpecResponder.
Local Open Scope N_scope.

(** the device can hash and sign under what was negotiated *)
Definition can_sign (E : env) (x : ctx) : Prop :=
  (forall d, cr_hash (e_cr E) (n_hash (x_nego x)) d <> None) /\ (forall m, cr_sign (e_cr E) (n_hash (x_nego x)) (n_asym (x_nego x)) m <> None).
(** [sig] is the device's signature, for purpose [op], over the transcript [t] (SPDM 1.2 signing string) *)
Definition signs (E : env) (x : ctx) (op : sig_op) (t sig : bytes) : Prop :=
  exists h, cr_hash (e_cr E) (n_hash (x_nego x)) t = Some h /\
    cr_sign (e_cr E) (n_hash (x_nego x)) (n_asym (x_nego x)) (spec_prefix ++ spec_context op ++ h) = Some sig.
(** the certificate chain provisioned in slot [k] *)
Definition provisioned (x : ctx) (k : N) (chain : bytes) : Prop := nth_error (x_my_chain x) (N.to_nat k) = Some (Some chain).
(** an ERROR message of the negotiated version *)
Definition is_error (x : ctx) (m : bytes) : Prop := exists c d, m = error_message (ver x) c d.
(** M1/M2 recorded so far: A, or A and B once B has begun *)
Definition m1m2_so_far (x : ctx) : bytes := match x_m1m2 x with Some d => d | None => x_msg_a x end.
(** the measurement summary hash of type [t] (0: none, 1: TCB, 255: all) *)
Definition summary_of (E : env) (x : ctx) (t : N) (s : bytes) : Prop :=
  if (t =? 1) || (t =? 255) then cr_summary (e_cr E) (ver x) (n_hash (x_nego x)) (n_mspec (x_nego x)) (n_mhash (x_nego x)) t = Some s else s = [].
(** CHALLENGE [q] = version, 0x83, slot, summary type, 32-byte nonce; its answer is CHALLENGE_AUTH:
    the slot, slot mask 1, the hash of that slot's chain, a fresh nonce, the summary asked for, no
    opaque data, and a signature over M1/M2 so far, the request and the reply up to the signature *)
Definition challenge_auth_for (E : env) (x : ctx) (q m : bytes) : Prop :=
  exists slot t nonce chain hash fresh sum sig,
    let body := [ver x; 0x03; slot; 1] ++ hash ++ fresh ++ sum ++ [0; 0] in
    q = [ver x; 0x83; slot; t] ++ nonce /\ length nonce = 32%nat /\ slot < 8 /\ provisioned x slot chain /\
    cr_hash (e_cr E) (n_hash (x_nego x)) chain = Some hash /\ cr_random (e_cr E) (x_rng x) 32 = Some fresh /\ length fresh = 32%nat /\ summary_of E x t sum /\
    signs E x SigChallenge (m1m2_so_far x ++ q ++ body) sig /\ m = body ++ sig.
(** the digest a reply's summary has is that of the negotiated hash; measurement records fit a message *)
Definition summaries_sized (cr : crypto) : Prop := forall v alg sp mh t h, cr_summary cr v alg sp mh t = Some h -> hash_size alg = Some (len h).
Definition records_fit (cr : crypto) : Prop := forall v sp mh i r, cr_measure cr v sp mh i = Some r -> mr_length r <= 3500 /\ (N.to_nat (mr_length r) <= length (mr_data r))%nat.

(** L1/L2 recorded so far on a channel (the connection or a session); it starts with A *)
Definition l1l2_so_far (sid : option N) (x : ctx) : bytes :=
  match match sid with None => x_l1l2 x | Some id => match get_sess id x with Some s => s_l1l2 s | None => None end end with
  | Some d => d | None => x_msg_a x end.
(** what operation [op] of GET_MEASUREMENTS asks for: 0 the number of blocks, 255 all blocks,
    otherwise the block of that index; [n] is the count byte (written as 0 when it would be 1) *)
Definition measured_record (E : env) (x : ctx) (op n : N) (r : mrecord) : Prop :=
  let read i := cr_measure (e_cr E) (ver x) (n_mspec (x_nego x)) (n_mhash (x_nego x)) i in
  exists total, read 0 = Some total /\
    if op =? 0 then n = mr_blocks total /\ mr_blocks r = 0 /\ mr_length r = 0
    else if op =? 255 then n = mr_blocks total /\ read 255 = Some r
    else n = 1 /\ op <= mr_blocks total /\ read op = Some r.
(** GET_MEASUREMENTS [q] = version, 0xE0, attributes, operation (and a nonce and slot when a signature
    is asked for); its answer is MEASUREMENTS with the record asked for, and, when asked for, a
    signature over L1/L2 so far, the request and the reply up to the signature *)
Definition measurements_for (E : env) (sid : option N) (x : ctx) (q m : bytes) : Prop :=
  exists attr op n slot changed r fresh,
    let body := [ver x; 0x60; if n =? 1 then 0 else n; N.lor slot changed] ++ wire_mrecord r ++ fresh ++ [0; 0] in
    measured_record E x op n r /\ cr_random (e_cr E) (x_rng x) 32 = Some fresh /\ length fresh = 32%nat /\
    if N.testbit attr 0 then
      exists nonce chain sig, q = [ver x; 0xE0; attr; op] ++ nonce ++ [slot] /\ length nonce = 32%nat /\ slot < 8 /\ provisioned x slot chain /\
        changed = (if cf_content_change (x_cfg x) then x_changed x else 0) /\
        signs E x SigMeasurements (l1l2_so_far sid x ++ q ++ body) sig /\ m = body ++ sig
    else q = [ver x; 0xE0; attr; op] /\ slot = 0 /\ changed = 0 /\ m = body.
