(** Model of spdmlib/src/responder/{version,capability,algorithm,digest,certificate,challenge,
    measurement}_rsp.rs.  No proofs here.

    [write_X b] is the content of the writer after the Rust function write_spdm_X_response ran on
    a fresh writer; the early returns of the Rust code are the [orelse] branches. *)
From Verif Require Import Bytes Codec Parse Status Algo MsgConn MsgAuth MsgSession MsgOther Message
  Transport Crypto KeySchedule Session Signing Monad CertOps Context RspBase.
Local Open Scope N_scope.

(** the last statement of the connection-phase handlers: append the response to the transcript
    buffer, and an ERROR message behind the response when that fails, e.g. version_rsp.rs:81-83 *)
Definition then_append (m : st ctx unit) (w : bytes) : st ctx bytes :=
  (_ <-! m orelse write_err ERR_UNSPECIFIED w ;; sret w)%st.

(** ** GET_VERSION *)
(** the VERSION response — version_rsp.rs:58-79: the three configured versions *)
Definition version_msg (cfg : config) : message :=
  mkMsg (mkHeader 0x10 RC_VERSION)
    (PVersion (mkVersionRsp 3 (map (mkVer 0) (firstn 3 (cf_versions cfg ++ [0; 0; 0]))))).
(** write_spdm_version_response — version_rsp.rs:19-84 *)
Definition write_version (b : bytes) : st ctx bytes :=
  match read_header b with
  | None => write_err ERR_INVALID_REQUEST []
  | Some (h, r) =>
      (ensure (h_version h =? 0x10) orelse write_err ERR_VERSION_MISMATCH [] ;;
       smod (reset_buffer RC_GET_VERSION None) ;;;
       p <-- rd (fun _ => dec_get_version) r ;;
       match p with
       | None => write_err ERR_INVALID_REQUEST []
       | Some (_, rest) =>
           (smod reset_context ;;;
            _ <-! append_a (used_of b rest) orelse write_err ERR_UNSPECIFIED [] ;;
            x <-- sget ;;
            encode_or_err (version_msg (x_cfg x)) (fun w => then_append (append_a w) w))
       end)%st
  end.
(** handle_spdm_version — version_rsp.rs:12-17 *)
Definition handle_version (E : env) (b : bytes) : st ctx unit :=
  (w <-- write_version b ;; send_message E w)%st.

(** ** GET_CAPABILITIES *)
(** the assignments of capability_rsp.rs:52-74 *)
Definition take_capabilities (cfg : config) (p : capabilities) (n : nego) : nego :=
  let n := set_n_req_ct (cp_ct p) n in
  let n := set_n_req_cap (cp_flags p) n in
  let n := set_n_rsp_ct (cf_rsp_ct cfg) n in
  let n := set_n_rsp_cap (cf_rsp_cap cfg) n in
  if 0x12 <=? n_version n then
    set_n_rsp_max (cf_max cfg) (set_n_rsp_dts (cf_dts cfg) (set_n_req_max (cp_max p) (set_n_req_dts (cp_dts p) n)))
  else n.
Definition capabilities_msg (v : N) (cfg : config) : message :=
  mkMsg (mkHeader v RC_CAPABILITIES)
    (PCapabilities (mkCaps (cf_rsp_ct cfg) (cf_rsp_cap cfg) (cf_dts cfg) (cf_max cfg))).
(** write_spdm_capability_response — capability_rsp.rs:20-118 *)
Definition write_capability (b : bytes) : st ctx bytes :=
  (x <-- sget ;;
   ensure (x_conn x =? CONN_AFTER_VERSION) orelse write_err ERR_UNEXPECTED_REQUEST [] ;;
   match read_header b with
   | None => write_err ERR_INVALID_REQUEST []
   | Some (h, r) =>
       (ensure (0x10 <=? h_version h) orelse write_err ERR_INVALID_REQUEST [] ;;
        smod (modn (set_n_version (h_version h))) ;;;
        smod (reset_buffer RC_GET_CAPABILITIES None) ;;;
        p <-- rd dec_get_capabilities r ;;
        match p with
        | None => write_err ERR_INVALID_REQUEST []
        | Some (p, rest) =>
            (smod (modn (take_capabilities (x_cfg x) p)) ;;;
             _ <-! append_a (used_of b rest) orelse write_err ERR_UNSPECIFIED [] ;;
             x <-- sget ;;
             encode_or_err (capabilities_msg (ver x) (x_cfg x)) (fun w => then_append (append_a w) w))
        end)
   end)%st.
(** handle_spdm_capability — capability_rsp.rs:13-18 *)
Definition handle_capability (E : env) (b : bytes) : st ctx unit :=
  (w <-- write_capability b ;; send_message E w)%st.

(** ** NEGOTIATE_ALGORITHMS *)
(** the loop over the offered structures — algorithm_rsp.rs:57-71 *)
Definition take_alg (n : nego) (a : alg_struct) : nego :=
  match as_alg a with
  | ADhe v => set_n_dhe v n
  | AAead v => set_n_aead v n
  | AReqAsym v => set_n_req_asym v n
  | AKeySched v => set_n_ks v n
  | AUnknown => n
  end.
(** algorithm_rsp.rs:50-71 *)
Definition take_offer (p : nego_algs) (n : nego) : nego :=
  fold_left take_alg (firstn (N.to_nat (na_count p)) (na_structs p))
    (set_n_asym (na_asym p) (set_n_hash (na_hash p) (set_n_mspec (na_mspec p) n))).
(** algorithm_rsp.rs:87-118 *)
Definition select_algs (cfg : config) (n : nego) : nego :=
  let n := set_n_mspec (prioritize mspec_prio (n_mspec n) (cf_mspec cfg)) n in
  let n := set_n_mhash (cf_mhash cfg) n in
  let n := set_n_hash (prioritize hash_prio (n_hash n) (cf_hash cfg)) n in
  let n := set_n_asym (prioritize asym_prio (n_asym n) (cf_asym cfg)) n in
  let n := set_n_dhe (prioritize dhe_prio (n_dhe n) (cf_dhe cfg)) n in
  let n := set_n_aead (prioritize aead_prio (n_aead n) (cf_aead cfg)) n in
  let n := set_n_req_asym (prioritize req_asym_prio (n_req_asym n) (cf_req_asym cfg)) n in
  set_n_ks (prioritize ks_prio (n_ks n) (cf_ks cfg)) n.
(** algorithm_rsp.rs:133-168 *)
Definition algorithms_msg (n : nego) : message :=
  mkMsg (mkHeader (n_version n) RC_ALGORITHMS)
    (PAlgs (mkAlgsRsp (n_mspec n) (n_opaque n) (n_mhash n) (n_asym n) (n_hash n) 4
              [mkAlgStruct 2 (ADhe (n_dhe n)); mkAlgStruct 3 (AAead (n_aead n));
               mkAlgStruct 4 (AReqAsym (n_req_asym n)); mkAlgStruct 5 (AKeySched (n_ks n))])).
(** write_spdm_algorithm — algorithm_rsp.rs:20-177 *)
Definition write_algorithm (E : env) (b : bytes) : st ctx bytes :=
  (x <-- sget ;;
   ensure (x_conn x =? CONN_AFTER_CAPABILITIES) orelse write_err ERR_UNEXPECTED_REQUEST [] ;;
   with_version b (fun r =>
     (smod (reset_buffer RC_NEGOTIATE_ALGORITHMS None) ;;;
      p <-- rd dec_nego_algs r ;;
      match p with
      | None => write_err ERR_INVALID_REQUEST []
      | Some (p, rest) =>
          (smod (modn (take_offer p)) ;;;
           _ <-! append_a (used_of b rest) orelse write_err ERR_UNSPECIFIED [] ;;
           smod (modn (select_algs (x_cfg x))) ;;;
           _ <-! construct_my_cert_chain (e_cr E) orelse write_err ERR_UNSPECIFIED [] ;;
           smod (modn (set_n_opaque (N.land (cf_opaque (x_cfg x)) (na_opaque p)))) ;;;
           x <-- sget ;;
           encode_or_err (algorithms_msg (x_nego x)) (fun w => then_append (append_a w) w))
      end)%st))%st.
(** handle_spdm_algorithm — algorithm_rsp.rs:13-18 *)
Definition handle_algorithm (E : env) (b : bytes) : st ctx unit :=
  (w <-- write_algorithm E b ;; send_message E w)%st.

(** [append_message_b] outside a session only — digest_rsp.rs:68-82, 131-138 *)
Definition append_b_on (E : env) (sid : option N) (m : bytes) : st ctx unit :=
  match sid with None => append_b (e_cr E) m | Some _ => sret tt end.
(** the connection-state check of the post-negotiation handlers, e.g. digest_rsp.rs:35-40 *)
Definition negotiated (x : ctx) : bool := CONN_NEGOTIATED <=? x_conn x.

(** ** GET_DIGESTS *)
(** slot_mask — digest_rsp.rs:86-91 *)
Fixpoint mask_from (i : N) (l : list (option bytes)) : N :=
  match l with
  | [] => 0
  | Some _ :: l' => N.lor (2 ^ i) (mask_from (i + 1) l')
  | None :: l' => mask_from (i + 1) l'
  end.
(** digest_rsp.rs:94-109 *)
Definition digests_msg (v mask size : N) : message :=
  mkMsg (mkHeader v RC_DIGESTS)
    (PDigests (mkDigests mask (repeat (mkV size (fill 64 0xff)) SPDM_MAX_SLOT_NUMBER))).
(** the patch loop — digest_rsp.rs:116-129: every present slot overwrites the last bytes *)
Fixpoint patch_digests (cr : crypto) (hash : N) (l : list (option bytes)) (w : bytes) : outcome bytes :=
  match l with
  | [] => Ok w
  | None :: l' => patch_digests cr hash l' w
  | Some c :: l' =>
      match cr_hash cr hash c with
      | None => Panic
      | Some h => if len w <? len h then Panic
                  else patch_digests cr hash l' (patch (length w - length h) h w)
      end
  end.
(** write_spdm_digest_response — digest_rsp.rs:29-139 *)
Definition write_digest (E : env) (sid : option N) (b : bytes) : st ctx bytes :=
  (x <-- sget ;;
   ensure (negotiated x) orelse write_err ERR_UNEXPECTED_REQUEST [] ;;
   with_version b (fun r =>
     (smod (reset_buffer RC_GET_DIGESTS sid) ;;;
      p <-- rd (fun _ => dec_empty) r ;;
      match p with
      | None => write_err ERR_INVALID_REQUEST []
      | Some (_, rest) =>
          (_ <-! append_b_on E sid (used_of b rest) orelse write_err ERR_UNSPECIFIED [] ;;
           x <-- sget ;;
           size <-- sunwrap (hash_size (n_hash (x_nego x))) ;;
           encode_or_err (digests_msg (ver x) (mask_from 0 (x_my_chain x)) size) (fun w =>
             (w' <-- sof (patch_digests (e_cr E) (n_hash (x_nego x)) (x_my_chain x) w) ;;
              then_append (append_b_on E sid w') w')%st))
      end)%st))%st.
(** handle_spdm_digest — digest_rsp.rs:17-27 *)
Definition handle_digest (E : env) (sid : option N) (b : bytes) : st ctx unit :=
  (w <-- write_digest E sid b ;; send_on E sid w)%st.

(** ** GET_CERTIFICATE *)
(** the portion returned — certificate_rsp.rs:94-116; the caller checked offset <= size *)
Definition cert_msg (v slot : N) (chain : bytes) (offset length : N) : message :=
  let n := N.min (N.min length (N.of_nat MAX_CERT_PORTION)) (len chain - offset) in
  mkMsg (mkHeader v RC_CERTIFICATE)
    (PCert (mkCertRsp slot n (len chain - (n + offset))
       (pad_to MAX_CERT_PORTION (slice (N.to_nat offset) (N.to_nat n) chain)))).
(** write_spdm_certificate_response — certificate_rsp.rs:25-148 *)
Definition write_certificate (E : env) (sid : option N) (b : bytes) : st ctx bytes :=
  (x <-- sget ;;
   ensure (negotiated x) orelse write_err ERR_UNEXPECTED_REQUEST [] ;;
   with_version b (fun r =>
     (smod (reset_buffer RC_GET_CERTIFICATE sid) ;;;
      p <-- rd (fun _ => dec_get_cert) r ;;
      match p with
      | None => write_err ERR_INVALID_REQUEST []
      | Some (p, rest) =>
          (ensure (gc_slot p =? 0) orelse write_err ERR_INVALID_REQUEST [] ;;
           _ <-! append_b_on E sid (used_of b rest) orelse write_err ERR_UNSPECIFIED [] ;;
           match slot_of (x_my_chain x) (gc_slot p) with
           | None => write_err ERR_INVALID_REQUEST []
           | Some chain =>
               (ensure (gc_offset p <=? len chain) orelse write_err ERR_INVALID_REQUEST [] ;;
                encode_or_err (cert_msg (ver x) (gc_slot p) chain (gc_offset p) (gc_length p))
                  (fun w => then_append (append_b_on E sid w) w))%st
           end)
      end)%st))%st.
(** handle_spdm_certificate — certificate_rsp.rs:13-23 *)
Definition handle_certificate (E : env) (sid : option N) (b : bytes) : st ctx unit :=
  (w <-- write_certificate E sid b ;; send_on E sid w)%st.

(** ** CHALLENGE *)
(** the measurement summary hash — challenge_rsp.rs:59-89, key_exchange_rsp.rs:69-97,
    psk_exchange_rsp.rs:69-97: [None] when the callback fails or returns an empty digest *)
Definition summary (E : env) (t : N) : st ctx (option vbuf) :=
  if (t =? 1) || (t =? 0xFF) then
    (smod (set_x_need_sum true) ;;;
     x <-- sget ;;
     sret (match cr_summary (e_cr E) (ver x) (n_hash (x_nego x)) (n_mspec (x_nego x)) (n_mhash (x_nego x)) t with
           | Some h => if len h =? 0 then None else Some (v_of 64 h)
           | None => None end))%st
  else (smod (set_x_need_sum false) ;;; sret (Some (v_default 64)))%st.
(** generate_*_signature over a transcript — challenge_rsp.rs:186-228,
    measurement_rsp.rs:251-309, key_exchange_rsp.rs:439-479 *)
Definition sign_transcript (E : env) (op : sig_op) (t : bytes) : st ctx bytes :=
  (x <-- sget ;;
   h <-- sok ST_CRYPTO_ERROR (cr_hash (e_cr E) (n_hash (x_nego x)) t) ;;
   m <-- sof (sign_input (ver x) op h) ;;
   sok ST_CRYPTO_ERROR (cr_sign (e_cr E) (n_hash (x_nego x)) (n_asym (x_nego x)) m))%st.
(** [writer.mut_used_slice()[used - n..used].copy_from_slice(s)] *)
Definition patch_last (n : N) (s w : bytes) : outcome bytes :=
  if (len s =? n) && (n <=? len w) then Ok (patch (length w - length s) s w) else Panic.
(** [writer.used_slice()[..used - n]] *)
Definition drop_last (n : N) (w : bytes) : outcome bytes :=
  if n <=? len w then Ok (firstn (N.to_nat (len w - n)) w) else Panic.
(** a slot below 8 with a certificate chain, e.g. challenge_rsp.rs:97-105 *)
Definition slot_ok (x : ctx) (slot : N) : bool :=
  (slot <? 8) && match slot_of (x_my_chain x) slot with Some _ => true | None => false end.
(** challenge_rsp.rs:129-153 *)
Definition challenge_auth_msg (v slot : N) (hash : bytes) (nonce : bytes) (sum : vbuf) (sig : N) : message :=
  mkMsg (mkHeader v RC_CHALLENGE_AUTH)
    (PChallengeAuth (mkChallengeAuth slot 1 0 (v_of 64 hash) nonce sum (v_default MAX_OPAQUE_SIZE)
                       (mkV sig (fill 512 0xbb)))).
(** write_spdm_challenge_response — challenge_rsp.rs:31-184 *)
Definition write_challenge (E : env) (b : bytes) : st ctx bytes :=
  (x <-- sget ;;
   ensure (negotiated x) orelse write_err ERR_UNEXPECTED_REQUEST [] ;;
   with_version b (fun r =>
     (smod (reset_buffer RC_CHALLENGE None) ;;;
      p <-- rd dec_challenge r ;;
      match p with
      | None => write_err ERR_INVALID_REQUEST []
      | Some (p, rest) =>
          (s <-- summary E (ch_hash_type p) ;;
           match s with
           | None => write_err ERR_UNSPECIFIED []
           | Some sum =>
               (ensure (slot_ok x (ch_slot p)) orelse write_err ERR_INVALID_REQUEST [] ;;
                _ <-! append_c (e_cr E) (used_of b rest) orelse write_err ERR_UNSPECIFIED [] ;;
                chain <-- sunwrap (slot_of (x_my_chain x) (ch_slot p)) ;;
                hash <-- sunwrap (cr_hash (e_cr E) (n_hash (x_nego x)) chain) ;;
                nonce <-- get_random (e_cr E) 32 ;;
                match nonce with
                | None => write_err ERR_UNSPECIFIED []
                | Some nonce =>
                    (sig <-- sunwrap (asym_size (n_asym (x_nego x))) ;;
                     encode_or_err (challenge_auth_msg (ver x) (ch_slot p) hash nonce sum sig) (fun w =>
                       (t <-- sof (drop_last sig w) ;;
                        _ <-! append_c (e_cr E) t orelse write_err ERR_UNSPECIFIED w ;;
                        y <-- sget ;;
                        m1m2 <-- sunwrap (x_m1m2 y) ;;
                        s <-! sign_transcript E SigChallenge m1m2
                              orelse (send_spdm_error E ERR_UNSPECIFIED ;;; sret w) ;;
                        w' <-- sof (patch_last sig s w) ;;
                        smod (fun x => reset_c (reset_b x)) ;;; sret w')%st))%st
                end)%st
           end)
      end)%st))%st.
(** handle_spdm_challenge — challenge_rsp.rs:24-29 *)
Definition handle_challenge (E : env) (b : bytes) : st ctx unit :=
  (w <-- write_challenge E b ;; send_message E w)%st.

(** ** GET_MEASUREMENTS *)
(** SpdmMeasurementRecordStructure::default() *)
Definition mrecord_default : mrecord := mkRecord 0 0 (fill 4000 0).
(** the transcript the measurement signature covers — measurement_rsp.rs:256-276 *)
Definition l1l2_of (sid : option N) (x : ctx) : option bytes :=
  match sid with
  | Some id => match get_sess id x with Some s => s_l1l2 s | None => None end
  | None => x_l1l2 x
  end.
(** measurement_rsp.rs:179-202 *)
Definition measurements_msg (v number slot changed : N) (rec : mrecord) (nonce : bytes) (sig : N) : message :=
  mkMsg (mkHeader v RC_MEASUREMENTS)
    (PMeas (mkMeasRsp number changed slot rec nonce (v_default MAX_OPAQUE_SIZE) (mkV sig (fill 512 0x60)))).
(** the record returned — measurement_rsp.rs:133-160; [None]: the index is out of range *)
Definition measure (E : env) (x : ctx) (op count : N) : st ctx (option mrecord) :=
  let m i := cr_measure (e_cr E) (ver x) (n_mspec (x_nego x)) (n_mhash (x_nego x)) i in
  (if op =? 0xFF then (r <-- sunwrap (m 0xFF) ;; sret (Some r))
   else if op =? 0 then sret (Some mrecord_default)
   else if count <? op then sret None
   else (r <-- sunwrap (m op) ;; sret (Some r)))%st.
(** write_spdm_measurement_response — measurement_rsp.rs:37-249 *)
Definition write_measurement (E : env) (sid : option N) (b : bytes) : st ctx bytes :=
  (x <-- sget ;;
   ensure (negotiated x) orelse write_err ERR_UNEXPECTED_REQUEST [] ;;
   with_version b (fun r =>
     (smod (reset_buffer RC_GET_MEASUREMENTS sid) ;;;
      p <-- rd dec_get_meas r ;;
      match p with
      | None => write_err ERR_INVALID_REQUEST []
      | Some (p, rest) =>
          let signed := contains (gm_attr p) MEAS_ATTR_SIG in
          (sig <-- sunwrap (asym_size (n_asym (x_nego x))) ;;
           smod (set_x_need_sig signed) ;;;
           ensure (if signed then slot_ok x (gm_slot p) else gm_slot p =? 0)
             orelse write_err ERR_INVALID_REQUEST [] ;;
           _ <-! append_m (e_cr E) sid (used_of b rest) orelse write_err ERR_UNSPECIFIED [] ;;
           total <-- sunwrap (cr_measure (e_cr E) (ver x) (n_mspec (x_nego x)) (n_mhash (x_nego x)) 0) ;;
           rec <-- measure E x (gm_op p) (mr_blocks total) ;;
           match rec with
           | None => write_err ERR_INVALID_REQUEST []
           | Some rec =>
               (nonce <-- get_random (e_cr E) 32 ;;
                match nonce with
                | None => write_err ERR_UNSPECIFIED []
                | Some nonce =>
                    let number := if (gm_op p =? 0xFF) || (gm_op p =? 0) then mr_blocks total else 1 in
                    let changed := if cf_content_change (x_cfg x) && (0x12 <=? ver x) then x_changed x else 0 in
                    encode_or_err (measurements_msg (ver x) number (gm_slot p) changed rec nonce sig) (fun w =>
                      (if signed then
                         (t <-- sof (drop_last sig w) ;;
                          _ <-! append_m (e_cr E) sid t orelse write_err ERR_UNSPECIFIED w ;;
                          y <-- sget ;;
                          l1l2 <-- sunwrap (l1l2_of sid y) ;;
                          s <-! sign_transcript E SigMeasurements l1l2
                                orelse (send_spdm_error E ERR_UNSPECIFIED ;;; sret w) ;;
                          w' <-- sof (patch_last sig s w) ;;
                          smod (reset_m sid) ;;; sret w')
                       else then_append (append_m (e_cr E) sid w) w)%st)
                end)%st
           end)%st
      end)%st))%st.
(** handle_spdm_measurement — measurement_rsp.rs:27-35 *)
Definition handle_measurement (E : env) (sid : option N) (b : bytes) : st ctx unit :=
  (w <-- write_measurement E sid b ;; send_on E sid w)%st.
