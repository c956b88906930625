(** Vocabulary for a session opened between the library's two ends (C74, C75). *)
From Verif Require Import Bytes Status Algo Monad Codec MsgSession Transport Crypto Session Context.
Import ListNotations.
Local Open Scope N_scope.

(** the two ends use the same hash, HKDF, HMAC, AEAD and pre-shared keys; their key pairs, random
    numbers and measurements are their own *)
Definition same_algorithms (c d : crypto) : Prop :=
  cr_hash c = cr_hash d /\ cr_extract c = cr_extract d /\ cr_expand c = cr_expand d /\ cr_hmac c = cr_hmac d /\ cr_hmac_verify c = cr_hmac_verify d /\
  cr_seal c = cr_seal d /\ cr_open c = cr_open d /\ cr_psk_hs c = cr_psk_hs d /\ cr_psk_ms c = cr_psk_ms d.
(** requester [x] and responder [y] hold the same version, responder capabilities and algorithms *)
Definition same_parameters (x y : ctx) : Prop :=
  let n := x_nego x in let m := x_nego y in
  n_version n = n_version m /\ n_rsp_cap n = n_rsp_cap m /\ n_mspec n = n_mspec m /\ n_mhash n = n_mhash m /\ n_hash n = n_hash m /\ n_asym n = n_asym m /\
  n_dhe n = n_dhe m /\ n_aead n = n_aead m /\ n_req_asym n = n_req_asym m /\ n_ks n = n_ks m /\ n_opaque n = n_opaque m.
(** ... and they have recorded the same negotiation messages *)
Definition agreed (x y : ctx) : Prop := same_parameters x y /\ x_msg_a x = x_msg_a y.
(** a PSK hint the caller may pass: at most 32 bytes *)
Definition hint_ok (hint : vbuf) : Prop := v_size hint = len (v_bytes hint) /\ len (v_bytes hint) <= 32 /\ bytes_ok (v_bytes hint).
(** what the responder's integrator configures fits the wire fields *)
Definition wire_config (cfg : config) : Prop := cf_heartbeat cfg < 256 /\ Forall (fun v => v < 256) (cf_secver cfg).
(** random numbers are bytes *)
Definition draws_bytes (cr : crypto) : Prop := forall i n b, cr_random cr i n = Some b -> bytes_ok b.
(** what a peer measures, hashes and authenticates comes out in bytes of the right size *)
Definition well_sized (cr : crypto) : Prop :=
  draws_bytes cr /\ (forall alg d h, cr_hash cr alg d = Some h -> hash_size alg = Some (len h) /\ bytes_ok h) /\
  (forall alg k d h, cr_hmac cr alg k d = Some h -> hash_size alg = Some (len h) /\ bytes_ok h) /\
  (forall v alg sp mh t h, cr_summary cr v alg sp mh t = Some h -> hash_size alg = Some (len h) /\ bytes_ok h).
(** an integrator's settings fit their wire fields and use only defined flags (the library's bit-flag
    types guarantee the latter); three versions are configured *)
Definition wire_requester (c : config) : Prop := cf_req_ct c < 256 /\ cf_mspec c < 256 /\ cf_opaque c < 256 /\ N.land (cf_req_cap c) REQ_CAP_MASK = cf_req_cap c.
Definition wire_responder (c : config) : Prop :=
  length (cf_versions c) = 3%nat /\ Forall (fun v => v < 256) (cf_versions c) /\ cf_rsp_ct c < 256 /\ N.land (cf_rsp_cap c) RSP_CAP_MASK = cf_rsp_cap c /\ N.land (cf_mhash c) MHASH_MASK = cf_mhash c.
(** Diffie-Hellman: public shares have the size of the negotiated group; the two ends derive the same
    secret from each other's shares; signatures are bytes *)
Definition shares_ok (cr : crypto) : Prop := forall alg n p, cr_dhe_public cr alg n = Some p -> dhe_size alg = Some (len p) /\ bytes_ok p.
Definition agreement (c d : crypto) : Prop := forall alg n m p q, cr_dhe_public c alg n = Some p -> cr_dhe_public d alg m = Some q -> cr_dhe_final c alg n q = cr_dhe_final d alg m p.
Definition signs_bytes (c : crypto) : Prop := forall h a m s, cr_sign c h a m = Some s -> bytes_ok s.
