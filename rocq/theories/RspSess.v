(** Model of spdmlib/src/responder/{key_exchange,psk_exchange,finish,psk_finish,heartbeat,
    key_update,end_session,vendor}_rsp.rs.  No proofs here.

    The functions of the first four files return a result; when it is an error the error message
    they wrote is dropped by the caller ([?] in handle_spdm_X) and nothing is sent, so the model
    keeps only the status.  The statuses differ between failures only for logging. *)
From Verif Require Import Bytes Codec Parse Status Algo MsgConn MsgAuth MsgSession MsgOther Message
  Opaque Transport Crypto KeySchedule Session Signing Monad CertOps Context RspBase RspConn.
Local Open Scope N_scope.

(** [if m.is_err() { ...; return Err(e) }] *)
Definition oror {S A} (e : status) (m : st S A) : st S A :=
  scatch m (fun r => match r with Ok a => sret a | Err _ => serr e | Panic => spanic end).

(** the connection-state and version checks of KEY_EXCHANGE and PSK_EXCHANGE —
    key_exchange_rsp.rs:37-57, psk_exchange_rsp.rs:37-57 *)
Definition exchange_start (code : N) (b : bytes) (k : bytes -> st ctx bytes) : st ctx bytes :=
  (x <-- sget ;;
   ensure (negotiated x) orelse serr ST_INVALID_STATE_PEER ;;
   with_version_r b (fun r =>
     (ensure (0x11 <=? ver x) orelse serr ST_INVALID_MSG_FIELD ;;
      smod (reset_buffer code None) ;;; k r)%st))%st.

(** [session.teardown(session_id)], result ignored, then the error *)
Definition abandon {A} (id : N) : st ctx A :=
  (on_sess id (session_teardown id) ;;; serr ST_CRYPTO_ERROR)%st.
(** [if m.is_err() { teardown; return Err(CRYPTO_ERROR) }] *)
Definition or_abandon {A} (id : N) (m : st ctx A) : st ctx A :=
  scatch m (fun r => match r with Ok a => sret a | Err _ => abandon id | Panic => spanic end).

(** the parameters given to a new session — key_exchange_rsp.rs:230-238, psk_exchange_rsp.rs:203-208 *)
Definition session_params (E : env) (n : nego) (s : session) : session :=
  set_transport_param (tr_seq_count (e_tr E)) (tr_max_random (e_tr E))
    (set_crypto_param (n_hash n) (n_dhe n) (n_aead n) (n_ks n) s).
(** [((rsp_session_id as u32) << 16) + req_session_id as u32] *)
Definition session_id (rsp req : N) : N := rsp * 65536 + req.
(** [return_opaque.data[size - 1]] when the opaque reply is not empty — key_exchange_rsp.rs:418-421 *)
Definition take_secver (o : vbuf) (s : session) : session :=
  if v_size o =? 0 then s else set_s_secver (nth (N.to_nat (v_size o) - 1) (v_data o) 0) s.

(** ** KEY_EXCHANGE *)
(** MUT_AUTH_REQ_WITH_GET_DIGESTS under the mut-auth feature — key_exchange_rsp.rs:223-226 *)
Definition rsp_mut_auth (E : env) : N := if e_mut_auth E then 4 else 0.
(** key_exchange_rsp.rs:269-299 *)
Definition key_exchange_rsp_msg (v heartbeat rsp mut : N) (random exchange : bytes) (sum op : vbuf) (sig hash : N) : message :=
  mkMsg (mkHeader v RC_KEY_EXCHANGE_RSP)
    (PKeyExRsp (mkKeyExRsp heartbeat rsp mut 0 random (v_of SPDM_MAX_DHE_KEY_SIZE exchange) sum op
                  (mkV sig (fill 512 0xbb)) (mkV hash (fill 64 0xcc)))).
(** slot allocation — key_exchange_rsp.rs:186-251 *)
Definition open_session (E : env) (p : key_ex) (final : bytes) (chash : bytes) (rsp : N) : st ctx unit :=
  (x <-- sget ;;
   match get_sess 0 x with
   | None => serr ST_INVALID_STATE_LOCAL
   | Some _ =>
       let id := session_id rsp (kx_session p) in
       (on_sess 0 (session_setup id) ;;;
        smod (mod_sess id (fun s =>
          set_s_mut_auth (rsp_mut_auth E)
            (session_params E (x_nego x) (set_s_slot (kx_slot p) (set_s_use_psk false s))))) ;;;
        or_abandon id (on_sess id (set_dhe_secret (e_cr E) (ver x) final)) ;;;
        smod (mod_sess id (fun s =>
          set_s_req_hash None (set_s_rsp_hash (Some chash) (set_s_msg_a (x_msg_a x) s)))))%st
   end)%st.
(** the transcript signature — key_exchange_rsp.rs:438-479 *)
Definition sign_th (E : env) (op : sig_op) (id : N) : st ctx bytes :=
  (h <-- calc_th (e_cr E) id ;;
   x <-- sget ;;
   m <-- sof (sign_input (ver x) op h) ;;
   sok ST_CRYPTO_ERROR (cr_sign (e_cr E) (n_hash (x_nego x)) (n_asym (x_nego x)) m))%st.
(** hmac with the response finished key over the current transcript — key_exchange_rsp.rs:375-392 *)
Definition rsp_hmac (E : env) (id : N) : st ctx bytes :=
  (h <-- oror ST_CRYPTO_ERROR (calc_th (e_cr E) id) ;;
   s <-- the_sess id ;;
   or_abandon id (sof (hmac_rsp_fin (e_cr E) s h)))%st.
(** copy_from_slice of signature and hmac at the end of the message — key_exchange_rsp.rs:407-411 *)
Definition patch_sig_hmac (sig hash : N) (s h w : bytes) : outcome bytes :=
  obind (drop_last hash w) (fun w1 =>
    obind (patch_last sig s w1) (fun w1' =>
      patch_last hash h (w1' ++ skipn (length w1) w))).
(** key_exchange_rsp.rs:306-435: transcript, signature, keys, hmac *)
Definition key_exchange_finishing (E : env) (id : N) (req : bytes) (op : vbuf) (sig hash : N) (w : bytes) : st ctx bytes :=
  (x <-- sget ;;
   let clear := in_clear (xc x) in
   _ <-- oror ST_CRYPTO_ERROR (append_k (e_cr E) id req) ;;
   t <-- sof (drop_last (if clear then sig else sig + hash) w) ;;
   _ <-- oror ST_CRYPTO_ERROR (append_k (e_cr E) id t) ;;
   s <-- oror ST_CRYPTO_ERROR (sign_th E SigKeyExchange id) ;;
   _ <-- oror ST_CRYPTO_ERROR (append_k (e_cr E) id s) ;;
   th1 <-- oror ST_CRYPTO_ERROR (calc_th (e_cr E) id) ;;
   _ <-- on_sess id (generate_handshake_secret (e_cr E) (ver x) th1) ;;
   w' <-- (if clear then sret w
           else (h <-- rsp_hmac E id ;;
                 _ <-- or_abandon id (append_k (e_cr E) id h) ;;
                 sof (patch_sig_hmac sig hash s h w))) ;;
   _ <-- on_sess id (smod (fun s =>
           set_s_state SHandshaking (take_secver op (set_s_heartbeat (cf_heartbeat (x_cfg x)) s)))) ;;
   swhen clear (smod (set_x_last (Some id))) ;;;
   sret w')%st.
(** write_spdm_key_exchange_response — key_exchange_rsp.rs:32-436 *)
Definition write_key_exchange (E : env) (b : bytes) : st ctx bytes :=
  exchange_start RC_KEY_EXCHANGE b (fun r =>
    (p <-- rd dec_key_ex r ;;
     match p with
     | None => serr ST_INVALID_MSG_FIELD
     | Some (p, rest) =>
         (s <-- summary E (kx_hash_type p) ;;
          sum <-- sok ST_INVALID_MSG_FIELD s ;;
          smod (modn (set_n_term_policy (N.land (kx_policy p) 1 =? 1))) ;;;
          x <-- sget ;;
          op <-- sof (rsp_select_version (xc x) (cf_secver (x_cfg x)) (kx_opaque p)) ;;
          ensure (slot_ok x (kx_slot p)) orelse serr ST_INVALID_MSG_FIELD ;;
          smod (set_x_lslot (kx_slot p)) ;;;
          smod (set_x_rng (x_rng x + 1)) ;;;
          exchange <-- sunwrap (cr_dhe_public (e_cr E) (n_dhe (x_nego x)) (x_rng x)) ;;
          final <-- sok ST_CRYPTO_ERROR (cr_dhe_final (e_cr E) (n_dhe (x_nego x)) (x_rng x) (v_bytes (kx_exchange p))) ;;
          rsp <-- oror ST_INVALID_STATE_LOCAL (sof (get_next_half_session_id false x)) ;;
          chash <-- sok ST_INVALID_MSG_FIELD
                     (certchain_hash (e_cr E) (n_hash (x_nego x)) false (slot_of (x_my_chain x) (kx_slot p))) ;;
          open_session E p final chash rsp ;;;
          random <-- get_random (e_cr E) 32 ;;
          random <-- sok ST_CRYPTO_ERROR random ;;
          sig <-- sunwrap (asym_size (n_asym (x_nego x))) ;;
          hash <-- sunwrap (hash_size (n_hash (x_nego x))) ;;
          encode_r (key_exchange_rsp_msg (ver x) (cf_heartbeat (x_cfg x)) rsp (rsp_mut_auth E) random exchange sum op sig hash)
            (key_exchange_finishing E (session_id rsp (kx_session p)) (used_of b rest) op sig hash))
     end)%st).
(** handle_spdm_key_exchange — key_exchange_rsp.rs:25-30 *)
Definition handle_key_exchange (E : env) (b : bytes) : st ctx unit :=
  (w <-- write_key_exchange E b ;; send_message E w)%st.

(** ** FINISH *)
(** verify_finish_req_signature — finish_rsp.rs:345-405.  [data[4 + hash_size .. data_size]] panics
    when the stored chain is shorter; a stored chain passed verify_spdm_certificate_chain. *)
Definition verify_finish_signature (E : env) (id : N) (sig : vbuf) : st ctx unit :=
  (h <-- calc_th (e_cr E) id ;;
   x <-- sget ;;
   chain <-- sok ST_INVALID_PARAMETER (slot_of (x_peer_chain x) (x_pslot x)) ;;
   hl <-- sunwrap (hash_size (n_hash (x_nego x))) ;;
   _ <-- sassert (4 + hl <=? len chain) ;;
   m <-- sof (sign_input (ver x) SigFinish h) ;;
   if cr_verify (e_cr E) (n_hash (x_nego x)) (n_asym (x_nego x)) (skipn (N.to_nat (4 + hl)) chain) m (v_bytes sig)
   then sret tt else serr ST_VERIF_FAIL)%st.
(** the request side: signature and verify_data checked — finish_rsp.rs:72-181 *)
Definition check_finish (E : env) (id : N) (b : bytes) (p : finish) : st ctx unit :=
  (_ <-- oror ST_CRYPTO_ERROR (append_f (e_cr E) false id (firstn 4 b)) ;;
   s <-- the_sess id ;;
   let mut := negb (s_mut_auth s =? 0) in
   _ <-- sfail_if (negb (Bool.eqb mut (contains (fi_attr p) FINISH_SIG))) ST_INVALID_MSG_FIELD ;;
   _ <-- swhen mut
     (_ <-- oror ST_CRYPTO_ERROR (verify_finish_signature E id (fi_sig p)) ;;
      oror ST_CRYPTO_ERROR (append_f (e_cr E) false id (v_bytes (fi_sig p)))) ;;
   _ <-- sfail_if (s_use_psk s) ST_INVALID_MSG_FIELD ;;
   h <-- oror ST_CRYPTO_ERROR (calc_th (e_cr E) id) ;;
   s' <-- the_sess id ;;
   _ <-- sfail_if (negb (verify_req_fin (e_cr E) s' h (v_bytes (fi_verify p)))) ST_CRYPTO_ERROR ;;
   oror ST_CRYPTO_ERROR (append_f (e_cr E) false id (v_bytes (fi_verify p))))%st.
(** finish_rsp.rs:196-213 *)
Definition finish_rsp_msg (v hash : N) : message :=
  mkMsg (mkHeader v RC_FINISH_RSP) (PFinishRsp (mkV hash (fill 64 0xcc))).
(** th2 and the data keys — finish_rsp.rs:277-296, psk_finish_rsp.rs:147-169 *)
Definition data_keys (E : env) (id : N) : st ctx unit :=
  (th2 <-- oror ST_CRYPTO_ERROR (calc_th (e_cr E) id) ;;
   x <-- sget ;;
   on_sess id (generate_data_secret (e_cr E) (ver x) th2))%st.
(** the response — finish_rsp.rs:183-296 *)
Definition finish_reply (E : env) (id : N) : st ctx bytes :=
  (x <-- sget ;;
   hash <-- sunwrap (hash_size (n_hash (x_nego x))) ;;
   encode_r (finish_rsp_msg (ver x) hash) (fun w =>
     (w' <-- (if in_clear (xc x) then
                (t <-- sof (drop_last hash w) ;;
                 _ <-- oror ST_CRYPTO_ERROR (append_f (e_cr E) false id t) ;;
                 h <-- oror ST_CRYPTO_ERROR (calc_th (e_cr E) id) ;;
                 s <-- the_sess id ;;
                 m <-- oror ST_CRYPTO_ERROR (sof (hmac_rsp_fin (e_cr E) s h)) ;;
                 _ <-- oror ST_CRYPTO_ERROR (append_f (e_cr E) false id m) ;;
                 sof (patch_last hash m w))
              else
                (_ <-- oror ST_CRYPTO_ERROR (append_f (e_cr E) false id (firstn 4 w)) ;;
                 sret w)) ;;
      data_keys E id ;;; sret w')%st))%st.
(** write_spdm_finish_response — finish_rsp.rs:44-296 *)
Definition write_finish (E : env) (id : N) (b : bytes) : st ctx bytes :=
  with_version_r b (fun r =>
    (smod (reset_buffer RC_FINISH (Some id)) ;;;
     p <-- rd dec_finish r ;;
     match p with
     | None => serr ST_INVALID_MSG_FIELD
     | Some (p, _) => (check_finish E id b p ;;; finish_reply E id)%st
     end)%st).
(** handle_spdm_finish — finish_rsp.rs:20-41 *)
Definition handle_finish (E : env) (id : N) (b : bytes) : st ctx unit :=
  (x <-- sget ;;
   w <-- write_finish E id b ;;
   if in_clear (xc x) then send_message E w else send_secured_message E id w false)%st.

(** ** PSK_EXCHANGE *)
(** MAX_SPDM_PSK_CONTEXT_SIZE — psk_context of psk_exchange_rsp.rs:163-184: drawn at random only
    when its announced size is zero *)
Definition psk_context (E : env) (without : bool) : st ctx vbuf :=
  if without then
    (r <-- get_random (e_cr E) 64 ;;
     d <-- sok ST_CRYPTO_ERROR r ;;
     sret (mkV 0 d))%st
  else sret (mkV 64 (fill 64 0)).
(** slot allocation — psk_exchange_rsp.rs:186-218 *)
Definition open_psk_session (E : env) (p : psk_ex) (rsp : N) : st ctx unit :=
  (x <-- sget ;;
   match get_sess 0 x with
   | None => serr ST_INVALID_STATE_LOCAL
   | Some _ =>
       let id := session_id rsp (px_session p) in
       (on_sess 0 (session_setup id) ;;;
        smod (mod_sess id (fun s =>
          set_s_req_hash None (set_s_rsp_hash None (set_s_msg_a (x_msg_a x)
            (set_s_psk_hint (Some (v_bytes (px_hint p)))
              (session_params E (x_nego x) (set_s_use_psk true s))))))))%st
   end)%st.
(** psk_exchange_rsp.rs:222-242 *)
Definition psk_exchange_rsp_msg (v heartbeat rsp : N) (sum ctx op : vbuf) (hash : N) : message :=
  mkMsg (mkHeader v RC_PSK_EXCHANGE_RSP)
    (PPskExRsp (mkPskExRsp heartbeat rsp sum ctx op (mkV hash (fill 64 0xcc)))).
(** transcript, keys, hmac — psk_exchange_rsp.rs:249-364 *)
Definition psk_exchange_finishing (E : env) (without : bool) (id : N) (req : bytes) (op : vbuf) (hash : N) (w : bytes) : st ctx bytes :=
  (x <-- sget ;;
   t <-- sof (drop_last hash w) ;;
   _ <-- oror ST_CRYPTO_ERROR (append_k (e_cr E) id req) ;;
   _ <-- oror ST_CRYPTO_ERROR (append_k (e_cr E) id t) ;;
   th1 <-- oror ST_CRYPTO_ERROR (calc_th (e_cr E) id) ;;
   _ <-- on_sess id (generate_handshake_secret (e_cr E) (ver x) th1) ;;
   h <-- rsp_hmac E id ;;
   _ <-- or_abandon id (append_k (e_cr E) id h) ;;
   w' <-- sof (patch_last hash h w) ;;
   _ <-- on_sess id (smod (set_s_state SHandshaking)) ;;
   _ <-- swhen without
     (th2 <-- oror ST_CRYPTO_ERROR (calc_th (e_cr E) id) ;;
      _ <-- scatch (on_sess id (generate_data_secret (e_cr E) (ver x) th2))
              (fun r => match r with Ok _ => sret tt | _ => spanic end) ;;
      on_sess id (smod (set_s_state SEstablished))) ;;
   _ <-- on_sess id (smod (fun s => take_secver op (set_s_heartbeat (cf_heartbeat (x_cfg x)) s))) ;;
   sret w')%st.
(** write_spdm_psk_exchange_response — psk_exchange_rsp.rs:32-365 *)
Definition write_psk_exchange (E : env) (b : bytes) : st ctx bytes :=
  exchange_start RC_PSK_EXCHANGE b (fun r =>
    (p <-- rd dec_psk_ex r ;;
     match p with
     | None => serr ST_INVALID_MSG_FIELD
     | Some (p, rest) =>
         (s <-- summary E (px_hash_type p) ;;
          sum <-- sok ST_CRYPTO_ERROR s ;;
          x <-- sget ;;
          op <-- sof (rsp_select_version (xc x) (cf_secver (x_cfg x)) (px_opaque p)) ;;
          let without := psk_no_ctx (xc x) in
          context <-- psk_context E without ;;
          rsp <-- oror ST_INVALID_STATE_LOCAL (sof (get_next_half_session_id false x)) ;;
          open_psk_session E p rsp ;;;
          hash <-- sunwrap (hash_size (n_hash (x_nego x))) ;;
          encode_r (psk_exchange_rsp_msg (ver x) (cf_heartbeat (x_cfg x)) rsp sum context op hash)
            (psk_exchange_finishing E without (session_id rsp (px_session p)) (used_of b rest) op hash))
     end)%st).
(** handle_spdm_psk_exchange — psk_exchange_rsp.rs:25-30 *)
Definition handle_psk_exchange (E : env) (b : bytes) : st ctx unit :=
  (w <-- write_psk_exchange E b ;; send_message E w)%st.

(** ** PSK_FINISH *)
(** psk_finish_rsp.rs:60-121 *)
Definition check_psk_finish (E : env) (id : N) (b rest : bytes) (v : vbuf) : st ctx unit :=
  (x <-- sget ;;
   hash <-- sunwrap (hash_size (n_hash (x_nego x))) ;;
   t <-- sof (drop_last hash (used_of b rest)) ;;
   s <-- the_sess id ;;
   _ <-- sfail_if (negb (s_use_psk s)) ST_INVALID_MSG_FIELD ;;
   _ <-- oror ST_CRYPTO_ERROR (append_f (e_cr E) false id t) ;;
   h <-- oror ST_CRYPTO_ERROR (calc_th (e_cr E) id) ;;
   s' <-- the_sess id ;;
   _ <-- sfail_if (negb (verify_req_fin (e_cr E) s' h (v_bytes v))) ST_CRYPTO_ERROR ;;
   oror ST_CRYPTO_ERROR (append_f (e_cr E) false id (v_bytes v)))%st.
(** write_spdm_psk_finish_response — psk_finish_rsp.rs:23-170 *)
Definition write_psk_finish (E : env) (id : N) (b : bytes) : st ctx bytes :=
  with_version_r b (fun r =>
    (smod (reset_buffer RC_PSK_FINISH (Some id)) ;;;
     p <-- rd dec_psk_finish r ;;
     match p with
     | None => serr ST_INVALID_MSG_FIELD
     | Some (v, rest) =>
         (check_psk_finish E id b rest v ;;;
          x <-- sget ;;
          encode_r (mkMsg (mkHeader (ver x) RC_PSK_FINISH_RSP) PPskFinishRsp) (fun w =>
            (_ <-- oror ST_CRYPTO_ERROR (append_f (e_cr E) false id w) ;;
             data_keys E id ;;; sret w)%st))%st
     end)%st).
(** handle_spdm_psk_finish — psk_finish_rsp.rs:16-21 *)
Definition handle_psk_finish (E : env) (id : N) (b : bytes) : st ctx unit :=
  (w <-- write_psk_finish E id b ;; send_secured_message E id w false)%st.

(** ** HEARTBEAT, KEY_UPDATE, END_SESSION *)
(** write_spdm_heartbeat_response — heartbeat_rsp.rs:18-63 *)
Definition write_heartbeat (id : N) (b : bytes) : st ctx bytes :=
  with_version b (fun r =>
    (smod (reset_buffer RC_HEARTBEAT (Some id)) ;;;
     p <-- rd (fun _ => dec_empty) r ;;
     match p with
     | None => write_err ERR_INVALID_REQUEST []
     | Some _ =>
         (x <-- sget ;;
          encode_or_err (mkMsg (mkHeader (ver x) RC_HEARTBEAT_ACK) PHeartbeatAck) (fun w => sret w))%st
     end)%st).
(** handle_spdm_heartbeat — heartbeat_rsp.rs:11-16 *)
Definition handle_heartbeat (E : env) (id : N) (b : bytes) : st ctx unit :=
  (w <-- write_heartbeat id b ;; send_secured_message E id w false)%st.

(** SpdmKeyUpdateOperation — key_update.rs:11-20: 1 UpdateSingleKey, 2 UpdateAllKeys, 3 VerifyNewKey.
    The match of key_update_rsp.rs:54-71; [true] when the operation is known.  The results of
    the session methods are ignored there. *)
Definition key_update_op (E : env) (id op : N) : st ctx bool :=
  (x <-- sget ;;
   let create req rsp := scatch (on_sess id (create_data_secret_update (e_cr E) (ver x) req rsp)) (fun _ => sret tt) in
   let activate req rsp := on_sess id (smod (activate_data_secret_update req rsp true)) in
   _ <-- the_sess id ;;
   if op =? 1 then (create true false ;;; sret true)
   else if op =? 2 then (create true true ;;; activate true true ;;; sret true)
   else if op =? 3 then (activate true false ;;; sret true)
   else sret false)%st.
(** write_spdm_key_update_response — key_update_rsp.rs:18-87 *)
Definition write_key_update (E : env) (id : N) (b : bytes) : st ctx bytes :=
  with_version b (fun r =>
    (smod (reset_buffer RC_KEY_UPDATE (Some id)) ;;;
     p <-- rd (fun _ => dec_key_update) r ;;
     match p with
     | None => write_err ERR_INVALID_REQUEST []
     | Some (p, _) =>
         (ok <-- key_update_op E id (ku_op p) ;;
          ensure ok orelse write_err ERR_INVALID_REQUEST [] ;;
          x <-- sget ;;
          encode_or_err (mkMsg (mkHeader (ver x) RC_KEY_UPDATE_ACK) (PKeyUpdateAck p)) (fun w => sret w))%st
     end)%st).
(** handle_spdm_key_update — key_update_rsp.rs:11-16 *)
Definition handle_key_update (E : env) (id : N) (b : bytes) : st ctx unit :=
  (w <-- write_key_update E id b ;; send_secured_message E id w false)%st.

(** write_spdm_end_session_response — end_session_rsp.rs:18-64 *)
Definition write_end_session (id : N) (b : bytes) : st ctx bytes :=
  with_version b (fun r =>
    (p <-- rd (fun _ => dec_end_session) r ;;
     match p with
     | None => write_err ERR_INVALID_REQUEST []
     | Some _ =>
         (smod (reset_buffer RC_END_SESSION (Some id)) ;;;
          x <-- sget ;;
          encode_or_err (mkMsg (mkHeader (ver x) RC_END_SESSION_ACK) PEndSessionAck) (fun w => sret w))%st
     end)%st).
(** handle_spdm_end_session — end_session_rsp.rs:11-16 *)
Definition handle_end_session (E : env) (id : N) (b : bytes) : st ctx unit :=
  (w <-- write_end_session id b ;; send_secured_message E id w false)%st.

(** ** VENDOR_DEFINED *)
(** write_spdm_vendor_defined_response — vendor_rsp.rs:25-85 with respond_to_vendor_defined_request
    (87-96).  The handler gets the payload bytes; a reply longer than its buffer cannot be built,
    modelled as a panic. *)
Definition write_vendor (E : env) (sid : option N) (b : bytes) : st ctx bytes :=
  with_version b (fun r =>
    (smod (reset_buffer RC_VENDOR_REQ sid) ;;;
     p <-- rd (fun _ => dec_vendor) r ;;
     match p with
     | None => write_err ERR_INVALID_REQUEST []
     | Some (p, _) =>
         match e_vendor E (v_bytes (vd_payload p)) with
         | Panic => spanic
         | Err _ => write_err ERR_UNSPECIFIED []
         | Ok reply =>
             (_ <-- sassert (len reply <=? N.of_nat MAX_VENDOR_PAYLOAD) ;;
              x <-- sget ;;
              encode_or_err (mkMsg (mkHeader (ver x) RC_VENDOR_RSP)
                (PVendorRsp (mkVendor (vd_standard p) (vd_id p) (v_of MAX_VENDOR_PAYLOAD reply)))) (fun w => sret w))%st
         end
     end)%st).
(** handle_spdm_vendor_defined_request — vendor_rsp.rs:11-23 *)
Definition handle_vendor (E : env) (sid : option N) (b : bytes) : st ctx unit :=
  (w <-- write_vendor E sid b ;; send_on E sid w)%st.
