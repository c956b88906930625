(** Vocabulary for C85: the requests for proofs and measurements that must not be refused. *)
From Verif Require Import Bytes Status Codec Algo Monad MsgAuth Message Transport Crypto KeySchedule Session Signing CertOps ChainVerify Context RspBase SpecMsg SpecSession SpecResponder SpecReply.
Local Open Scope N_scope.

(** the device's signatures are as long as the negotiated algorithm says *)
Definition signatures_sized (E : env) (x : ctx) : Prop :=
  forall m s, cr_sign (e_cr E) (n_hash (x_nego x)) (n_asym (x_nego x)) m = Some s -> asym_size (n_asym (x_nego x)) = Some (len s).
(** the random source has 32 bytes *)
Definition random_ready (E : env) (x : ctx) : Prop := exists fresh, cr_random (e_cr E) (x_rng x) 32 = Some fresh /\ length fresh = 32%nat.
(** the responder's negotiated capabilities include measurements *)
Definition offers_measurements (x : ctx) : Prop := has (n_rsp_cap (x_nego x)) RSP_MEAS_SIG \/ has (n_rsp_cap (x_nego x)) RSP_MEAS_NO_SIG.
(** a CHALLENGE the responder has everything to answer: an existing slot, a summary it can compute *)
Definition asks_challenge (E : env) (x : ctx) (q : bytes) : Prop :=
  exists slot t nonce chain, q = [ver x; 0x83; slot; t] ++ nonce /\ length nonce = 32%nat /\ slot < 8 /\ provisioned x slot chain /\
    (t = 0 \/ (t = 1 \/ t = 255) /\ offers_measurements x /\
       exists s, cr_summary (e_cr E) (ver x) (n_hash (x_nego x)) (n_mspec (x_nego x)) (n_mhash (x_nego x)) t = Some s).
(** a GET_MEASUREMENTS the responder has everything to answer: attributes 0 to 3, operation 0, 255 or
    the index of an existing block, and an existing slot when a signature is asked for *)
Definition asks_measurements (E : env) (x : ctx) (q : bytes) : Prop :=
  let read i := cr_measure (e_cr E) (ver x) (n_mspec (x_nego x)) (n_mhash (x_nego x)) i in
  exists attr op total, attr < 4 /\ read 0 = Some total /\
    (op = 0 \/ (op = 255 \/ op <= mr_blocks total) /\ exists r, read op = Some r) /\
    if N.testbit attr 0 then exists nonce slot chain, q = [ver x; 0xE0; attr; op] ++ nonce ++ [slot] /\ length nonce = 32%nat /\ slot < 8 /\ provisioned x slot chain
    else q = [ver x; 0xE0; attr; op].
(** the message given in the end: [m], or, when the peer said it cannot take so long a message,
    the ERROR that says so *)
Definition given (x : ctx) (P : bytes -> Prop) (m : bytes) : Prop :=
  exists w, P w /\ (m = w \/ n_req_dts (x_nego x) < len w /\ n_req_dts (x_nego x) <> 0 /\ m = error_message (ver x) 0xD 0).
(** the device and the transport binding take every message of at most 4096 bytes *)
Definition device_works (E : env) : Prop :=
  (forall n t, e_send E n t = None) /\ forall m, len m <= 4096 -> exists t, tr_encap (e_tr E) BUFFER_SIZE m false = Ok t.
