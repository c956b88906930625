(** Model of spdmlib/src/requester/{get_version,get_capabilities,negotiate_algorithms,get_digests,
    get_certificate,challenge,get_measurements}_req.rs.  No proofs here. *)
From Verif Require Import Bytes Codec Parse Status Algo MsgConn MsgAuth MsgSession MsgOther Message
  Transport Crypto KeySchedule Session Signing Monad CertOps Context RspBase RspConn ChainVerify ReqBase.
Local Open Scope N_scope.

(** ** GET_VERSION *)
(** SpdmVersion::SpdmVersion1x, i.e. not Unknown(_) — config.rs / protocol/version.rs *)
Definition known_version (v : N) : bool := (v =? 0x10) || (v =? 0x11) || (v =? 0x12).
(** versions.sort_unstable_by(descending version byte) — get_version_req.rs:59-60.  Only the
    version bytes of the sorted array are used afterwards. *)
Fixpoint insert_desc (v : N) (l : list N) : list N :=
  match l with
  | [] => [v]
  | w :: l' => if w <=? v then v :: l else w :: insert_desc v l'
  end.
Definition sort_desc (l : list N) : list N := fold_right insert_desc [] l.
(** the selection loop — get_version_req.rs:62-78; 0 stands for Unknown(0) *)
Definition select_version (mine offered : list N) (count : N) : N :=
  match find (fun v => existsb (N.eqb v) mine) (firstn (N.to_nat count) (sort_desc offered)) with
  | Some v => v
  | None => 0
  end.
(** encode_spdm_version — get_version_req.rs:26-36 *)
Definition get_version_msg : message := mkMsg (mkHeader 0x10 RC_GET_VERSION) PGetVersion.
(** handle_spdm_version_response — get_version_req.rs:38-117 *)
Definition handle_version_rsp (s b : bytes) : st ctx unit :=
  on_response_any RC_VERSION (Some 0) b (fun r =>
    reading (fun _ => dec_version_rsp) b r (fun p used =>
      (smod (fun x => modn (set_n_version
          (select_version (cf_versions (x_cfg x)) (map vs_version (vr_versions p)) (vr_count p))) x) ;;;
       x <-- sget ;;
       _ <-- sfail_if (negb (known_version (ver x))) ST_NEGOTIATION_FAIL ;;
       smod reset_runtime_info ;;;
       append_a s ;;; append_a used)%st)).
(** send_receive_spdm_version — get_version_req.rs:13-24 *)
Definition get_version (E : env) : st ctx unit :=
  (smod (reset_buffer RC_GET_VERSION None) ;;;
   s <-- req_enc get_version_msg ;;
   req_send E s ;;;
   b <-- req_recv E false ;;
   handle_version_rsp s b)%st.

(** ** GET_CAPABILITIES *)
(** encode_spdm_capability — get_capabilities_req.rs:26-43 *)
Definition get_capabilities_msg (x : ctx) : message :=
  mkMsg (mkHeader (ver x) RC_GET_CAPABILITIES)
    (PGetCapabilities (mkCaps (cf_req_ct (x_cfg x)) (cf_req_cap (x_cfg x)) (cf_dts (x_cfg x)) (cf_max (x_cfg x)))).
(** the assignments — get_capabilities_req.rs:65-87 *)
Definition take_capabilities (cfg : config) (p : capabilities) (n : nego) : nego :=
  let n := set_n_rsp_cap (cp_flags p) (set_n_rsp_ct (cp_ct p)
             (set_n_req_cap (cf_req_cap cfg) (set_n_req_ct (cf_req_ct cfg) n))) in
  if 0x12 <=? n_version n then
    set_n_rsp_max (cp_max p) (set_n_rsp_dts (cp_dts p) (set_n_req_max (cf_max cfg) (set_n_req_dts (cf_dts cfg) n)))
  else n.
(** handle_spdm_capability_response — get_capabilities_req.rs:45-111 *)
Definition handle_capabilities_rsp (s b : bytes) : st ctx unit :=
  on_response RC_CAPABILITIES (Some 0) b (fun r =>
    reading dec_capabilities b r (fun p used =>
      (smod (fun x => modn (take_capabilities (x_cfg x) p) x) ;;;
       append_a s ;;; append_a used)%st)).
(** send_receive_spdm_capability — get_capabilities_req.rs:11-24 *)
Definition get_capabilities (E : env) : st ctx unit :=
  (smod (reset_buffer RC_GET_CAPABILITIES None) ;;;
   x <-- sget ;;
   s <-- req_enc (get_capabilities_msg x) ;;
   req_send E s ;;;
   b <-- req_recv E false ;;
   handle_capabilities_rsp s b)%st.

(** ** NEGOTIATE_ALGORITHMS *)
(** encode_spdm_algorithm — negotiate_algorithms_req.rs:29-71 *)
Definition nego_algs_msg (x : ctx) : message :=
  let c := x_cfg x in
  mkMsg (mkHeader (ver x) RC_NEGOTIATE_ALGORITHMS)
    (PNegoAlgs (mkNegoAlgs (cf_mspec c) (cf_opaque c) (cf_asym c) (cf_hash c) 4
       [mkAlgStruct 2 (ADhe (cf_dhe c)); mkAlgStruct 3 (AAead (cf_aead c));
        mkAlgStruct 4 (AReqAsym (cf_req_asym c)); mkAlgStruct 5 (AKeySched (cf_ks c))])).
(** handle_spdm_algorithm_response — negotiate_algorithms_req.rs:73-158 *)
Definition handle_algorithms_rsp (s b : bytes) : st ctx unit :=
  on_response RC_ALGORITHMS (Some 0) b (fun r =>
    reading dec_algs_rsp b r (fun p used =>
      (smod (modn (fun n => set_n_mhash (ar_mhash p) (set_n_opaque (ar_opaque p) (set_n_mspec (ar_mspec p) n)))) ;;;
       _ <-- sfail_if (ar_hash p =? 0) ST_NEGOTIATION_FAIL ;;
       smod (modn (set_n_hash (ar_hash p))) ;;;
       _ <-- sfail_if (ar_asym p =? 0) ST_NEGOTIATION_FAIL ;;
       smod (modn (set_n_asym (ar_asym p))) ;;;
       smod (modn (fun n => fold_left take_alg (firstn (N.to_nat (ar_count p)) (ar_structs p)) n)) ;;;
       append_a s ;;; append_a used)%st)).
(** send_receive_spdm_algorithm — negotiate_algorithms_req.rs:14-27 *)
Definition negotiate_algorithms (E : env) : st ctx unit :=
  (smod (reset_buffer RC_NEGOTIATE_ALGORITHMS None) ;;;
   x <-- sget ;;
   s <-- req_enc (nego_algs_msg x) ;;
   req_send E s ;;;
   b <-- req_recv E false ;;
   handle_algorithms_rsp s b)%st.

(** ** GET_DIGESTS *)
(** [match session_id { None => append_message_b both, Some => {} }] — get_digests_req.rs:77-83 *)
Definition append_b_both (E : env) (sid : option N) (s used : bytes) : st ctx unit :=
  match sid with
  | None => (append_b (e_cr E) s ;;; append_b (e_cr E) used)%st
  | Some _ => sret tt
  end.
(** encode_spdm_digest — get_digests_req.rs:44-54 *)
Definition get_digests_msg (x : ctx) : message := mkMsg (mkHeader (ver x) RC_GET_DIGESTS) PGetDigests.
(** handle_spdm_digest_response — get_digests_req.rs:56-105 *)
Definition handle_digests_rsp (E : env) (sid : option N) (s b : bytes) : st ctx unit :=
  on_response RC_DIGESTS sid b (fun r =>
    reading dec_digests_rsp b r (fun _ used => append_b_both E sid s used)).
(** send_receive_spdm_digest — get_digests_req.rs:10-42 *)
Definition get_digests (E : env) (sid : option N) : st ctx unit :=
  (smod (reset_buffer RC_GET_DIGESTS sid) ;;;
   x <-- sget ;;
   s <-- req_enc (get_digests_msg x) ;;
   req_send_on E sid s ;;;
   b <-- req_recv_on E sid false ;;
   handle_digests_rsp E sid s b)%st.

(** ** GET_CERTIFICATE *)
(** encode_spdm_certificate_partial — get_certificate_req.rs:56-78 *)
Definition get_cert_msg (x : ctx) (slot offset length : N) : message :=
  mkMsg (mkHeader (ver x) RC_GET_CERTIFICATE) (PGetCert (mkGetCert slot offset length)).
(** the acceptance tests on one portion — get_certificate_req.rs:107-135; u16 subtraction below
    zero panics *)
Definition portion_ok (slot total offset length : N) (p : cert_rsp) : bool :=
  negb ((length <? cr_portion p) || (4096 - offset <? cr_portion p)) &&
  negb (4096 - offset - cr_portion p <=? cr_remainder p) &&
  ((total =? 0) || (total =? offset + cr_portion p + cr_remainder p)) &&
  (cr_slot p =? slot).
(** handle_spdm_certificate_partial_response — get_certificate_req.rs:81-180 *)
Definition handle_certificate_rsp (E : env) (sid : option N) (slot total offset length : N) (s b : bytes) : st ctx (N * N) :=
  on_response RC_CERTIFICATE sid b (fun r =>
    reading (fun _ => dec_cert_rsp) b r (fun p used =>
      (_ <-- sassert (offset <=? 4096) ;;
       _ <-- sfail_if (negb (portion_ok slot total offset length p)) ST_INVALID_MSG_FIELD ;;
       x <-- sget ;;
       t <-- sok ST_INVALID_STATE_LOCAL (x_peer_temp x) ;;
       smod (set_x_peer_temp (Some (pad_to (N.to_nat offset) (firstn (N.to_nat offset) t) ++
                                    firstn (N.to_nat (cr_portion p)) (cr_data p)))) ;;;
       append_b_both E sid s used ;;;
       sret (cr_portion p, cr_remainder p))%st)).
(** send_receive_spdm_certificate_partial — get_certificate_req.rs:15-54 *)
Definition get_certificate_partial (E : env) (sid : option N) (slot total offset length : N) : st ctx (N * N) :=
  (x <-- sget ;;
   s <-- req_enc (get_cert_msg x slot offset length) ;;
   req_send_on E sid s ;;;
   b <-- req_recv_on E sid false ;;
   handle_certificate_rsp E sid slot total offset length s b)%st.
(** the loop — get_certificate_req.rs:202-214.  It need not terminate; the result is [None] when it
    is still running after [fuel] rounds, otherwise the total size. *)
Fixpoint certificate_loop (E : env) (sid : option N) (slot : N) (fuel : nat) (total offset length : N) : st ctx (option N) :=
  if length =? 0 then sret (Some total)
  else match fuel with
  | O => sret None
  | S f =>
      (pr <-- get_certificate_partial E sid slot total offset length ;;
       certificate_loop E sid slot f (if total =? 0 then fst pr + snd pr else total)
         (offset + fst pr) (N.min (snd pr) 512))%st
  end.
(** send_receive_spdm_certificate — get_certificate_req.rs:182-226; [None] as above *)
Definition get_certificate (E : env) (fuel : nat) (sid : option N) (slot : N) : st ctx (option unit) :=
  (_ <-- sfail_if (8 <=? slot) ST_INVALID_STATE_LOCAL ;;
   smod (reset_buffer RC_GET_CERTIFICATE sid) ;;;
   smod (set_x_peer_temp (Some [])) ;;;
   t <-- certificate_loop E sid slot fuel 0 0 512 ;;
   match t with
   | None => sret None
   | Some total =>
       if total =? 0 then (smod (set_x_peer_temp None) ;;; serr ST_INVALID_CERT)%st
       else
         (x <-- sget ;;
          chain <-- sok ST_INVALID_STATE_LOCAL (x_peer_temp x) ;;
          match verify_chain (e_cr E) (n_hash (x_nego x)) (x_peer_root x) chain with
          | Panic => spanic
          | Err e => (smod (set_x_peer_temp None) ;;; serr e)%st
          | Ok _ =>
              (smod (fun x => set_x_peer_temp None
                 (set_x_peer_chain (set_slot (N.to_nat slot) (Some chain) (x_peer_chain x)) x)) ;;;
               sret (Some tt))%st
          end)%st
   end)%st.

(** ** signature checks *)
(** [peer_cert_chain[slot].data[4 + hash_size .. data_size]], the version-1.2 signing string, and
    crypto::asym_verify::verify — the common tail of verify_challenge_auth_signature
    (challenge_req.rs:164-210), verify_measurement_signature (get_measurements_req.rs:262-310) and
    verify_key_exchange_rsp_signature (key_exchange_req.rs:433-473) *)
Definition verify_peer_signature (E : env) (slot : N) (op : sig_op) (h sig : bytes) : st ctx unit :=
  (x <-- sget ;;
   chain <-- sok ST_INVALID_PARAMETER (slot_of (x_peer_chain x) slot) ;;
   hl <-- sunwrap (hash_size (n_hash (x_nego x))) ;;
   _ <-- sassert (4 + hl <=? len chain) ;;
   m <-- sof (sign_input (ver x) op h) ;;
   if cr_verify (e_cr E) (n_hash (x_nego x)) (n_asym (x_nego x)) (skipn (N.to_nat (4 + hl)) chain) m sig
   then sret tt else serr ST_VERIF_FAIL)%st.
(** hash_ctx_finalize of an optional context *)
Definition finalize (E : env) (alg : N) (o : option bytes) : st ctx bytes :=
  (t <-- sok ST_CRYPTO_ERROR o ;; sok ST_CRYPTO_ERROR (cr_hash (e_cr E) alg t))%st.

(** ** CHALLENGE *)
(** encode_spdm_challenge — challenge_req.rs:48-71 *)
Definition challenge_msg (x : ctx) (slot t : N) (nonce : bytes) : message :=
  mkMsg (mkHeader (ver x) RC_CHALLENGE) (PChallenge (mkChallenge slot t nonce)).
(** verify_challenge_auth_signature — challenge_req.rs:150-211 *)
Definition verify_challenge_sig (E : env) (slot : N) (sig : bytes) : st ctx unit :=
  (x <-- sget ;;
   h <-- finalize E (n_hash (x_nego x)) (x_m1m2 x) ;;
   verify_peer_signature E slot SigChallenge h sig)%st.
(** handle_spdm_challenge_response — challenge_req.rs:73-147 *)
Definition handle_challenge_auth (E : env) (slot t : N) (s b : bytes) : st ctx unit :=
  (set_summary t ;;;
   on_response RC_CHALLENGE_AUTH (Some 0) b (fun r =>
     reading dec_challenge_auth b r (fun p used =>
       (x <-- sget ;;
        sig <-- sunwrap (asym_size (n_asym (x_nego x))) ;;
        u <-- sof (drop_last sig used) ;;
        append_c (e_cr E) s ;;; append_c (e_cr E) u ;;;
        scatch (verify_challenge_sig E slot (v_bytes (ca_sig p))) (fun res =>
          (smod (fun x => reset_c (reset_b x)) ;;;
           match res with Ok _ => sret tt | _ => serr ST_VERIF_FAIL end)))%st)))%st.
(** send_receive_spdm_challenge — challenge_req.rs:17-46 *)
Definition challenge_req (E : env) (slot t : N) : st ctx unit :=
  (_ <-- sfail_if (8 <=? slot) ST_INVALID_PARAMETER ;;
   smod (reset_buffer RC_CHALLENGE None) ;;;
   n <-- get_random (e_cr E) 32 ;;
   nonce <-- sok ST_CRYPTO_ERROR n ;;
   x <-- sget ;;
   s <-- req_enc (challenge_msg x slot t nonce) ;;
   req_send E s ;;;
   b <-- req_recv E true ;;
   handle_challenge_auth E slot t s b)%st.

(** ** GET_MEASUREMENTS *)
(** encode_spdm_measurement_record — get_measurements_req.rs:72-98 *)
Definition get_meas_msg (x : ctx) (attr op : N) (nonce : bytes) (slot : N) : message :=
  mkMsg (mkHeader (ver x) RC_GET_MEASUREMENTS) (PGetMeas (mkGetMeas attr op nonce slot)).
(** verify_measurement_signature — get_measurements_req.rs:232-311 *)
Definition verify_measurement_sig (E : env) (sid : option N) (slot : N) (sig : bytes) : st ctx unit :=
  (x <-- sget ;;
   l <-- match sid with
         | None => sret (x_l1l2 x)
         | Some id => match get_sess id x with
                      | None => serr ST_INVALID_MSG_FIELD
                      | Some s => sret (s_l1l2 s)
                      end
         end ;;
   h <-- finalize E (n_hash (x_nego x)) l ;;
   verify_peer_signature E slot SigMeasurements h sig)%st.
(** handle_spdm_measurement_record_response — get_measurements_req.rs:101-209; the result is the
    number returned and the record stored in the caller's structure *)
Definition handle_measurements (E : env) (sid : option N) (slot attr op : N) (s b : bytes) : st ctx (N * mrecord) :=
  let need := contains attr MEAS_ATTR_SIG in
  (smod (set_x_need_sig need) ;;;
   on_response RC_MEASUREMENTS sid b (fun r =>
     reading dec_meas_rsp b r (fun p used =>
       (smod (fun x => if 0x12 <=? ver x then set_x_changed (ms_changed p) x else x) ;;;
        x <-- sget ;;
        sig <-- sunwrap (asym_size (n_asym (x_nego x))) ;;
        u <-- sof (drop_last (if need then sig else 0) used) ;;
        append_m (e_cr E) sid s ;;; append_m (e_cr E) sid u ;;;
        swhen need
          (scatch (verify_measurement_sig E sid slot (v_bytes (ms_sig p))) (fun res =>
             (smod (reset_m sid) ;;;
              match res with Ok _ => sret tt | _ => serr ST_VERIF_FAIL end))) ;;;
        sret (if op =? 0 then ms_number p else mr_blocks (ms_record p), ms_record p))%st)))%st.
(** send_receive_spdm_measurement — get_measurements_req.rs:17-70, 211-229 *)
Definition get_measurements (E : env) (sid : option N) (slot attr op : N) : st ctx (N * mrecord) :=
  (_ <-- sfail_if (8 <=? slot) ST_INVALID_PARAMETER ;;
   smod (reset_buffer RC_GET_MEASUREMENTS sid) ;;;
   n <-- get_random (e_cr E) 32 ;;
   nonce <-- sok ST_CRYPTO_ERROR n ;;
   x <-- sget ;;
   s <-- req_enc (get_meas_msg x attr op nonce slot) ;;
   req_send_on E sid s ;;;
   b <-- req_recv_on E sid true ;;
   handle_measurements E sid slot attr op s b)%st.
