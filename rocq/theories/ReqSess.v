(** Model of spdmlib/src/requester/{key_exchange,finish,psk_exchange,psk_finish,heartbeat,
    key_update,end_session,vendor}_req.rs and of the entry points of requester/context.rs, in the
    default build (no "mut-auth" feature, "hashed-transcript-data").  No proofs here. *)
From Verif Require Import Bytes Codec Parse Status Algo MsgConn MsgAuth MsgSession MsgOther Message
  Opaque Transport Crypto KeySchedule Session Signing Monad CertOps Context RspBase RspConn RspSess
  ChainVerify ReqBase ReqConn.
Local Open Scope N_scope.

(** the supported-version list sent to the responder — key_exchange_req.rs:86-111,
    psk_exchange_req.rs:72-98 *)
Definition req_opaque (x : ctx) : outcome vbuf :=
  if ver x <? 0x12 then Ok (v_of MAX_OPAQUE_SIZE REQ_BLOB_DSP0277)
  else if n_opaque (x_nego x) =? OPAQUE_FMT1 then Ok (v_of MAX_OPAQUE_SIZE REQ_BLOB_FMT1)
  else Err ST_UNSUPPORTED_CAP.
(** [session.teardown(session_id)] with the result ignored, then the error; the [unwrap] on a
    missing session panics, so does the assertion inside teardown *)
Definition req_abandon {A} (id : N) (e : status) : st ctx A :=
  (on_sess id (session_teardown id) ;;; serr e)%st.
(** [if m.is_err() { teardown; return the error }] — finish_req.rs:53-93, psk_finish_req.rs:29-57 *)
Definition or_teardown {A} (id : N) (m : st ctx A) : st ctx A :=
  scatch m (fun r => match r with Ok a => sret a | Err e => req_abandon id e | Panic => spanic end).
(** [if let Some(session) = get_session_via_id(id) { teardown }] — finish_req.rs:99-103 *)
Definition or_teardown_if {A} (id : N) (m : st ctx A) : st ctx A :=
  scatch m (fun r => match r with
    | Ok a => sret a
    | Err e => (x <-- sget ;; match get_sess id x with
                              | Some _ => req_abandon id e
                              | None => serr e
                              end)%st
    | Panic => spanic end).

(** ** KEY_EXCHANGE *)
(** encode_spdm_key_exchange — key_exchange_req.rs:67-131; the result also names the key pair by
    the number of the generator call *)
Definition encode_key_exchange (E : env) (req slot t : N) : st ctx (N * bytes) :=
  (r <-- get_random (e_cr E) 32 ;;
   random <-- sok ST_CRYPTO_ERROR r ;;
   x <-- sget ;;
   smod (set_x_rng (x_rng x + 1)) ;;;
   exchange <-- sok ST_CRYPTO_ERROR (cr_dhe_public (e_cr E) (n_dhe (x_nego x)) (x_rng x)) ;;
   op <-- sof (req_opaque x) ;;
   r <-- wenc (mkMsg (mkHeader (ver x) RC_KEY_EXCHANGE)
          (PKeyEx (mkKeyEx t slot req (cf_policy (x_cfg x)) random (v_of SPDM_MAX_DHE_KEY_SIZE exchange) op))) [] ;;
   _ <-- sfail_if (negb (fst r)) ST_BUFFER_FULL ;;
   sret (x_rng x, snd r))%st.
(** a session for the exchange — key_exchange_req.rs:252-275 *)
Definition req_open_session (E : env) (id : N) (p : key_ex_rsp) (final chash : bytes) : st ctx unit :=
  (x <-- sget ;;
   match get_sess 0 x with
   | None => serr ST_SESSION_NUMBER_EXCEED
   | Some _ =>
       (on_sess 0 (session_setup id) ;;;
        smod (mod_sess id (fun s =>
          session_params E (x_nego x) (set_s_mut_auth (kr_mut_auth p) (set_s_use_psk false s)))) ;;;
        on_sess id (set_dhe_secret (e_cr E) (ver x) final) ;;;
        smod (mod_sess id (fun s =>
          set_s_req_hash None (set_s_rsp_hash (Some chash) (set_s_msg_a (x_msg_a x) s)))))%st
   end)%st.
(** verify_key_exchange_rsp_signature — key_exchange_req.rs:419-474 *)
Definition verify_key_exchange_sig (E : env) (slot id : N) (sig : bytes) : st ctx unit :=
  (h <-- calc_th (e_cr E) id ;; verify_peer_signature E slot SigKeyExchange h sig)%st.
(** verify_hmac_with_response_finished_key, teardown on failure, and verify_data appended —
    key_exchange_req.rs:330-373, psk_exchange_req.rs:219-266 *)
Definition check_rsp_hmac (E : env) (id : N) (mac : bytes) : st ctx unit :=
  (h <-- calc_th (e_cr E) id ;;
   s <-- the_sess id ;;
   if negb (verify_rsp_fin (e_cr E) s h mac) then req_abandon id ST_VERIF_FAIL
   else scatch (append_k (e_cr E) id mac) (fun r =>
     match r with Ok _ => sret tt | Err _ => req_abandon id ST_BUFFER_FULL | Panic => spanic end))%st.
(** transcript, signature, keys, hmac — key_exchange_req.rs:277-391 *)
Definition finish_key_exchange (E : env) (slot id : N) (s used : bytes) (p : key_ex_rsp) : st ctx unit :=
  (x <-- sget ;;
   let clear := in_clear (xc x) in
   sig <-- sunwrap (asym_size (n_asym (x_nego x))) ;;
   hash <-- sunwrap (hash_size (n_hash (x_nego x))) ;;
   u <-- sof (drop_last (if clear then sig else sig + hash) used) ;;
   append_k (e_cr E) id s ;;;
   append_k (e_cr E) id u ;;;
   oror ST_VERIF_FAIL (verify_key_exchange_sig E slot id (v_bytes (kr_sig p))) ;;;
   append_k (e_cr E) id (v_bytes (kr_sig p)) ;;;
   th1 <-- calc_th (e_cr E) id ;;
   on_sess id (generate_handshake_secret (e_cr E) (ver x) th1) ;;;
   swhen (negb clear) (check_rsp_hmac E id (v_bytes (kr_verify p))) ;;;
   on_sess id (smod (fun s => set_s_state SHandshaking (set_s_heartbeat (kr_heartbeat p)
     (set_s_secver (req_secure_version (xc x) (kr_opaque p)) s)))) ;;;
   swhen clear (smod (set_x_last (Some id))))%st.
(** handle_spdm_key_exhcange_response — key_exchange_req.rs:133-416 *)
Definition handle_key_exchange_rsp (E : env) (req slot t key : N) (s b : bytes) : st ctx N :=
  (set_summary t ;;;
   on_response RC_KEY_EXCHANGE_RSP None b (fun r =>
     reading dec_key_ex_rsp b r (fun p used =>
       (x <-- sget ;;
        final <-- sok ST_CRYPTO_ERROR (cr_dhe_final (e_cr E) (n_dhe (x_nego x)) key (v_bytes (kr_exchange p))) ;;
        chash <-- sok ST_INVALID_MSG_FIELD
                   (certchain_hash (e_cr E) (n_hash (x_nego x)) false (slot_of (x_peer_chain x) slot)) ;;
        let id := session_id (kr_session p) req in
        req_open_session E id p final chash ;;;
        finish_key_exchange E slot id s used p ;;;
        sret id)%st)))%st.
(** send_receive_spdm_key_exchange — key_exchange_req.rs:29-65 *)
Definition key_exchange_req (E : env) (slot t : N) : st ctx N :=
  (_ <-- sfail_if (8 <=? slot) ST_INVALID_PARAMETER ;;
   x <-- sget ;;
   req <-- sof (get_next_half_session_id true x) ;;
   smod (reset_buffer RC_KEY_EXCHANGE None) ;;;
   ks <-- encode_key_exchange E req slot t ;;
   req_send E (snd ks) ;;;
   b <-- req_recv E false ;;
   handle_key_exchange_rsp E req slot t (fst ks) (snd ks) b)%st.

(** ** FINISH *)
(** generate_finish_req_signature — finish_req.rs:353-412: signs, then verifies its own signature
    with the certificates of the local chain up to the size of the peer's chain, and panics if
    that fails *)
Definition finish_signature (E : env) (id : N) : st ctx bytes :=
  (h <-- calc_th (e_cr E) id ;;
   x <-- sget ;;
   m <-- sof (sign_input (ver x) SigFinish h) ;;
   sig <-- sok ST_CRYPTO_ERROR (cr_sign (e_cr E) (n_hash (x_nego x)) (n_asym (x_nego x)) m) ;;
   mine <-- sok ST_INVALID_PARAMETER (slot_of (x_my_chain x) (x_lslot x)) ;;
   hl <-- sunwrap (hash_size (n_hash (x_nego x))) ;;
   peer <-- sok ST_INVALID_PARAMETER (slot_of (x_peer_chain x) (x_lslot x)) ;;
   _ <-- sassert ((4 + hl <=? len peer) && (len peer <=? 4 + 64 + 4096)) ;;
   _ <-- sassert (cr_verify (e_cr E) (n_hash (x_nego x)) (n_asym (x_nego x))
                   (skipn (N.to_nat (4 + hl)) (firstn (length peer) (pad_to (4 + 64 + 4096) mine))) m sig) ;;
   sret sig)%st.
(** [buf[4 .. 4 + n].copy_from_slice(sig)] *)
Definition patch_at4 (sig w : bytes) : outcome bytes :=
  if len w <? 4 + len sig then Panic else Ok (firstn 4 w ++ sig ++ skipn (4 + length sig) w).
(** encode_spdm_finish — finish_req.rs:106-183.  The signature is patched in the 4096-byte buffer;
    that it stays inside the message is checked here, one that does not panics later. *)
Definition encode_finish (E : env) (id slot : N) : st ctx bytes :=
  (x <-- sget ;;
   s <-- sok ST_INVALID_STATE_LOCAL (get_sess id x) ;;
   let mut := negb (s_mut_auth s =? 0) in
   sig <-- (if mut then sunwrap (asym_size (n_req_asym (x_nego x))) else sret 0) ;;
   hash <-- sunwrap (hash_size (n_hash (x_nego x))) ;;
   w <-- req_enc (mkMsg (mkHeader (ver x) RC_FINISH)
          (PFinish (mkFinish (if mut then FINISH_SIG else 0) slot (mkV sig (fill 512 0)) (mkV hash (fill 64 0xcc))))) ;;
   append_f (e_cr E) true id (firstn 4 w) ;;;
   w <-- (if mut then
            (sg <-- finish_signature E id ;;
             w' <-- sof (patch_at4 sg w) ;;
             append_f (e_cr E) true id sg ;;;
             sret w')%st
          else sret w) ;;
   th <-- calc_th (e_cr E) id ;;
   s <-- the_sess id ;;
   h <-- sof (hmac_req_fin (e_cr E) s th) ;;
   append_f (e_cr E) true id h ;;;
   sof (patch_last hash h w))%st.
(** handle_spdm_finish_response — finish_req.rs:185-313 *)
Definition handle_finish_rsp (E : env) (id : N) (b : bytes) : st ctx unit :=
  (x <-- sget ;;
   _ <-- sok ST_INVALID_STATE_LOCAL (get_sess id x) ;;
   on_response_any RC_FINISH_RSP (Some id) b (fun r =>
     reading dec_finish_rsp b r (fun v used =>
       (hash <-- sunwrap (hash_size (n_hash (x_nego x))) ;;
        (if in_clear (xc x) then
           (u <-- sof (drop_last hash used) ;;
            append_f (e_cr E) true id u ;;;
            h <-- calc_th (e_cr E) id ;;
            s <-- the_sess id ;;
            _ <-- sfail_if (negb (verify_rsp_fin (e_cr E) s h (v_bytes v))) ST_VERIF_FAIL ;;
            append_f (e_cr E) true id (v_bytes v))%st
         else append_f (e_cr E) true id used) ;;;
        th2 <-- calc_th (e_cr E) id ;;
        on_sess id (generate_data_secret (e_cr E) (ver x) th2) ;;;
        on_sess id (smod (set_s_state SEstablished)) ;;;
        smod (set_x_last None))%st)))%st.
(** send_receive_spdm_finish — finish_req.rs:14-104 *)
Definition finish_req (E : env) (req_slot : option N) (id : N) : st ctx unit :=
  (x <-- sget ;;
   let clear := in_clear (xc x) in
   slot <-- match req_slot with
            | None => sret 0
            | Some s => if 8 <=? s then serr ST_INVALID_STATE_LOCAL
                        else match slot_of (x_my_chain x) s with
                             | None => serr ST_INVALID_STATE_LOCAL
                             | Some _ => sret s
                             end
            end ;;
   _ <-- sok ST_INVALID_PARAMETER (get_sess id x) ;;
   smod (reset_buffer RC_FINISH (Some id)) ;;;
   w <-- or_teardown id (encode_finish E id slot) ;;
   or_teardown id (if clear then req_send E w else req_send_secured E id w false) ;;;
   b <-- or_teardown id (if clear then req_recv E false else req_recv_secured E id false) ;;
   or_teardown_if id (handle_finish_rsp E id b))%st.

(** ** PSK_EXCHANGE *)
(** encode_spdm_psk_exchange — psk_exchange_req.rs:60-118 *)
Definition encode_psk_exchange (E : env) (req t : N) (hint : vbuf) : st ctx bytes :=
  (r <-- get_random (e_cr E) 64 ;;
   context <-- sok ST_CRYPTO_ERROR r ;;
   x <-- sget ;;
   op <-- sof (req_opaque x) ;;
   hash <-- sunwrap (hash_size (n_hash (x_nego x))) ;;
   req_enc (mkMsg (mkHeader (ver x) RC_PSK_EXCHANGE)
     (PPskEx (mkPskEx t req hint (mkV hash context) op))))%st.
(** a session for the exchange — psk_exchange_req.rs:179-203 *)
Definition req_open_psk_session (E : env) (id : N) (hint : vbuf) : st ctx unit :=
  (x <-- sget ;;
   match get_sess 0 x with
   | None => serr ST_SESSION_NUMBER_EXCEED
   | Some _ =>
       (on_sess 0 (session_setup id) ;;;
        smod (mod_sess id (fun s =>
          set_s_req_hash None (set_s_rsp_hash None (set_s_msg_a (x_msg_a x)
            (set_s_psk_hint (Some (v_bytes hint))
              (session_params E (x_nego x) (set_s_use_psk true s))))))))%st
   end)%st.
(** transcript, keys, hmac — psk_exchange_req.rs:205-308 *)
Definition finish_psk_exchange (E : env) (id : N) (s used : bytes) (p : psk_ex_rsp) : st ctx unit :=
  (x <-- sget ;;
   hash <-- sunwrap (hash_size (n_hash (x_nego x))) ;;
   u <-- sof (drop_last hash used) ;;
   append_k (e_cr E) id s ;;;
   append_k (e_cr E) id u ;;;
   th1 <-- calc_th (e_cr E) id ;;
   on_sess id (generate_handshake_secret (e_cr E) (ver x) th1) ;;;
   check_rsp_hmac E id (v_bytes (pr_verify p)) ;;;
   on_sess id (smod (set_s_state SHandshaking)) ;;;
   swhen (psk_no_ctx (xc x))
     (th2 <-- calc_th (e_cr E) id ;;
      on_sess id (generate_data_secret (e_cr E) (ver x) th2) ;;;
      on_sess id (smod (set_s_state SEstablished))) ;;;
   on_sess id (smod (fun s => set_s_heartbeat (pr_heartbeat p)
     (set_s_secver (req_secure_version (xc x) (pr_opaque p)) s))))%st.
(** handle_spdm_psk_exchange_response — psk_exchange_req.rs:120-336 *)
Definition handle_psk_exchange_rsp (E : env) (req t : N) (hint : vbuf) (s b : bytes) : st ctx N :=
  (set_summary t ;;;
   on_response RC_PSK_EXCHANGE_RSP None b (fun r =>
     reading dec_psk_ex_rsp b r (fun p used =>
       let id := session_id (pr_session p) req in
       (req_open_psk_session E id hint ;;;
        finish_psk_exchange E id s used p ;;;
        sret id)%st)))%st.
(** send_receive_spdm_psk_exchange — psk_exchange_req.rs:21-58; [hint] is the empty hint when none is given *)
Definition psk_exchange_req (E : env) (t : N) (hint : vbuf) : st ctx N :=
  (smod (reset_buffer RC_PSK_EXCHANGE None) ;;;
   x <-- sget ;;
   req <-- sof (get_next_half_session_id true x) ;;
   s <-- encode_psk_exchange E req t hint ;;
   req_send E s ;;;
   b <-- req_recv E false ;;
   handle_psk_exchange_rsp E req t hint s b)%st.

(** ** PSK_FINISH *)
(** encode_spdm_psk_finish — psk_finish_req.rs:69-110 *)
Definition encode_psk_finish (E : env) (id : N) : st ctx bytes :=
  (x <-- sget ;;
   hash <-- sunwrap (hash_size (n_hash (x_nego x))) ;;
   w <-- req_enc (mkMsg (mkHeader (ver x) RC_PSK_FINISH) (PPskFinish (mkV hash (fill 64 0xcc)))) ;;
   u <-- sof (drop_last hash w) ;;
   append_f (e_cr E) true id u ;;;
   th <-- calc_th (e_cr E) id ;;
   s <-- the_sess id ;;
   h <-- sof (hmac_req_fin (e_cr E) s th) ;;
   append_f (e_cr E) true id h ;;;
   sof (patch_last hash h w))%st.
(** handle_spdm_psk_finish_response — psk_finish_req.rs:112-176 *)
Definition handle_psk_finish_rsp (E : env) (id : N) (b : bytes) : st ctx unit :=
  on_response RC_PSK_FINISH_RSP (Some id) b (fun r =>
    reading (fun _ => dec_empty) b r (fun _ used =>
      (x <-- sget ;;
       append_f (e_cr E) true id used ;;;
       th2 <-- calc_th (e_cr E) id ;;
       on_sess id (generate_data_secret (e_cr E) (ver x) th2) ;;;
       on_sess id (smod (set_s_state SEstablished)))%st)).
(** send_receive_spdm_psk_finish — psk_finish_req.rs:16-67 *)
Definition psk_finish_req (E : env) (id : N) : st ctx unit :=
  (x <-- sget ;;
   _ <-- sok ST_INVALID_PARAMETER (get_sess id x) ;;
   smod (reset_buffer RC_PSK_FINISH (Some id)) ;;;
   w <-- or_teardown id (encode_psk_finish E id) ;;
   or_teardown id (req_send_secured E id w false) ;;;
   b <-- or_teardown id (req_recv_secured E id false) ;;
   or_teardown_if id (handle_psk_finish_rsp E id b))%st.

(** ** HEARTBEAT, KEY_UPDATE, END_SESSION, VENDOR_DEFINED *)
(** handle_spdm_heartbeat_response — heartbeat_req.rs:40-78 *)
Definition heartbeat_answer (id : N) (b : bytes) : st ctx unit :=
  on_response RC_HEARTBEAT_ACK (Some id) b (fun r => reading (fun _ => dec_empty) b r (fun _ _ => sret tt)).
(** send_receive_spdm_heartbeat — heartbeat_req.rs:10-38 *)
Definition heartbeat_req (E : env) (id : N) : st ctx unit :=
  (smod (reset_buffer RC_HEARTBEAT (Some id)) ;;;
   x <-- sget ;;
   s <-- req_enc (mkMsg (mkHeader (ver x) RC_HEARTBEAT) PHeartbeat) ;;
   req_send_secured E id s false ;;;
   b <-- req_recv_secured E id false ;;
   heartbeat_answer id b)%st.
(** handle_spdm_key_update_op_response — key_update_req.rs:72-127 *)
Definition handle_key_update_ack (id : N) (upd_req upd_rsp : bool) (b : bytes) : st ctx unit :=
  on_response RC_KEY_UPDATE_ACK (Some id) b (fun r =>
    (p <-- rd (fun _ => dec_key_update) r ;;
     x <-- sget ;;
     _ <-- sok ST_INVALID_PARAMETER (get_sess id x) ;;
     match p with
     | Some _ => on_sess id (smod (activate_data_secret_update upd_req upd_rsp true))
     | None => (on_sess id (smod (activate_data_secret_update upd_req upd_rsp false)) ;;; serr ST_INVALID_MSG_FIELD)%st
     end)%st).
(** send_receive_spdm_key_update_op — key_update_req.rs:13-50; SpdmUpdateSingleKey 1,
    SpdmUpdateAllKeys 2, SpdmVerifyNewKey 3 *)
Definition key_update_op_req (E : env) (id op tag : N) : st ctx unit :=
  (smod (reset_buffer RC_KEY_UPDATE (Some id)) ;;;
   x <-- sget ;;
   s <-- req_enc (mkMsg (mkHeader (ver x) RC_KEY_UPDATE) (PKeyUpdate (mkKeyUpdate op tag))) ;;
   req_send_secured E id s false ;;;
   y <-- sget ;;
   _ <-- sok ST_INVALID_PARAMETER (get_sess id y) ;;
   let upd_req := (op =? KU_SINGLE) || (op =? KU_ALL) in
   let upd_rsp := op =? KU_ALL in
   on_sess id (create_data_secret_update (e_cr E) (ver x) upd_req upd_rsp) ;;;
   b <-- req_recv_secured E id false ;;
   handle_key_update_ack id upd_req upd_rsp b)%st.
(** send_receive_spdm_key_update — key_update_req.rs:129-147 *)
Definition key_update_req (E : env) (id op : N) : st ctx unit :=
  (_ <-- sfail_if (negb ((op =? KU_ALL) || (op =? KU_SINGLE))) ST_INVALID_MSG_FIELD ;;
   key_update_op_req E id op 1 ;;;
   key_update_op_req E id KU_VERIFY 2)%st.
(** handle_spdm_end_session_response — end_session_req.rs:45-94 *)
Definition end_session_answer (id : N) (b : bytes) : st ctx unit :=
  on_response RC_END_SESSION_ACK (Some id) b (fun r =>
    reading (fun _ => dec_empty) b r (fun _ _ =>
      (y <-- sget ;;
       _ <-- sok ST_INVALID_PARAMETER (get_sess id y) ;;
       on_sess id (session_teardown id))%st)).
(** send_receive_spdm_end_session — end_session_req.rs:13-43 *)
Definition end_session_req (E : env) (id : N) : st ctx unit :=
  (smod (reset_buffer RC_END_SESSION (Some id)) ;;;
   x <-- sget ;;
   s <-- req_enc (mkMsg (mkHeader (ver x) RC_END_SESSION) (PEndSession 0)) ;;
   req_send_secured E id s false ;;;
   b <-- req_recv_secured E id false ;;
   end_session_answer id b)%st.
(** handle_spdm_vendor_defined_respond — vendor_req.rs:65-105 *)
Definition vendor_answer (sid : option N) (b : bytes) : st ctx vbuf :=
  on_response RC_VENDOR_RSP sid b (fun r => reading (fun _ => dec_vendor) b r (fun p _ => sret (vd_payload p))).
(** send_spdm_vendor_defined_request — vendor_req.rs:10-63 *)
Definition vendor_req (E : env) (sid : option N) (standard : N) (vid payload : vbuf) : st ctx vbuf :=
  (smod (reset_buffer RC_VENDOR_REQ sid) ;;;
   smod reset_context ;;;
   x <-- sget ;;
   s <-- req_enc (mkMsg (mkHeader (ver x) RC_VENDOR_REQ) (PVendorReq (mkVendor standard vid payload))) ;;
   req_send_on E sid s ;;;
   b <-- req_recv_on E sid false ;;
   vendor_answer sid b)%st.

(** ** entry points — requester/context.rs:32-65 *)
(** init_connection — context.rs:32-36 *)
Definition init_connection (E : env) : st ctx unit :=
  (get_version E ;;; get_capabilities E ;;; negotiate_algorithms E)%st.
(** start_session — context.rs:38-61 (default build: no requester certificate in FINISH) *)
Definition start_session (E : env) (use_psk : bool) (slot t : N) : st ctx N :=
  if use_psk then
    (id <-- psk_exchange_req E t (v_default MAX_PSK_HINT_SIZE) ;; psk_finish_req E id ;;; sret id)%st
  else
    (id <-- key_exchange_req E slot t ;; finish_req E None id ;;; sret id)%st.
(** end_session — context.rs:63-65 *)
Definition end_session (E : env) (id : N) : st ctx unit := end_session_req E id.
