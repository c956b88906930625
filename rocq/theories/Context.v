(** Model of spdmlib/src/common/mod.rs: the context shared by requester and responder, the session
    table, the transcript bookkeeping of the default ("hashed-transcript-data") build, and the
    secured-message envelope.  No proofs here.  Record blocks are printed by tools/mkrec.py. *)
From Verif Require Import Bytes Codec Parse Status Algo MsgConn MsgAuth MsgSession MsgOther Message
  Transport Crypto KeySchedule Session Monad CertOps.
Local Open Scope N_scope.

(** ** platform: transport encapsulation and device I/O *)

(** SpdmTransportEncap — common/mod.rs:101-127.  The buffer handed to the Rust method has
    [room] bytes; the result is its written prefix. *)
Record transport := mkTransport {
  tr_encap : N -> bytes -> bool -> outcome bytes;
  tr_decap : N -> bytes -> outcome (bytes * bool);
  tr_encap_app : N -> bytes -> bool -> outcome bytes;
  tr_decap_app : N -> bytes -> outcome (bytes * bool);
  tr_seq_count : N;
  tr_max_random : N
}.

(** the written prefix of an output buffer *)
Definition took (r : outcome nat * bytes) : outcome bytes := obind (fst r) (fun n => Ok (firstn n (snd r))).
Definition took2 (r : outcome (nat * bool) * bytes) : outcome (bytes * bool) :=
  obind (fst r) (fun p => Ok (firstn (fst p) (snd r), snd p)).
Definition zbuf (room : N) : bytes := fill (N.to_nat room) 0.
(** MctpTransportEncap — mctp_transport/src/header.rs:52-172 (sequence count 2, random count 32) *)
Definition mctp_transport : transport := {|
  tr_encap := fun room b s => took (mctp_encap b (zbuf room) s);
  tr_decap := fun room b => took2 (mctp_decap b (zbuf room));
  tr_encap_app := fun room b a => took (mctp_encap_app b (zbuf room) a);
  tr_decap_app := fun room b => took2 (mctp_decap_app b (zbuf room));
  tr_seq_count := 2; tr_max_random := 32 |}.
(** PciDoeTransportEncap — pcidoe_transport/src/header.rs:85-172 *)
Definition doe_transport : transport := {|
  tr_encap := fun room b s => took (doe_encap b (zbuf room) s);
  tr_decap := fun room b => took2 (doe_decap b (zbuf room));
  tr_encap_app := fun room b a => took (doe_encap_app b (zbuf room) a);
  tr_decap_app := fun room b => took2 (doe_decap_app b (zbuf room));
  tr_seq_count := 0; tr_max_random := 0 |}.

(** everything outside the library.  [e_send n b] is the result of the n-th device I/O call when
    it is [send b]; [e_recv n sent] the result when it is [receive] after [sent] (most recent
    first) was transmitted.  Being arbitrary functions of the call number they stand for any
    device and any peer.  [e_app] is the registered application-message callback
    (responder/app_message_handler.rs), [e_vendor] the registered vendor handler.
    [e_mut_auth] is the "mut-auth" build feature of the responder (off by default). *)
Record env := mkEnv {
  e_cr : crypto;
  e_tr : transport;
  e_send : N -> bytes -> option status;
  e_recv : N -> list bytes -> option bytes;
  e_app : N -> bytes -> outcome bytes;
  e_vendor : bytes -> outcome bytes;
  e_mut_auth : bool
}.

(** ** configuration *)
(** SpdmConfigInfo — common/mod.rs:1038-1060 *)
Record config := mkConfig {
  cf_versions : list N;
  cf_req_cap : N;
  cf_rsp_cap : N;
  cf_req_ct : N;
  cf_rsp_ct : N;
  cf_mspec : N;
  cf_mhash : N;
  cf_hash : N;
  cf_asym : N;
  cf_dhe : N;
  cf_aead : N;
  cf_req_asym : N;
  cf_ks : N;
  cf_opaque : N;
  cf_policy : N;
  cf_content_change : bool;
  cf_dts : N;
  cf_max : N;
  cf_heartbeat : N;
  cf_secver : list N
}.

(** setters for the negotiated parameters, SpdmNegotiateInfo — common/mod.rs:1061-1082 *)
Definition set_n_version (v : N) (r : nego) : nego := mkNego v (n_req_cap r) (n_rsp_cap r) (n_req_ct r) (n_rsp_ct r) (n_mspec r) (n_mhash r) (n_hash r) (n_asym r) (n_dhe r) (n_aead r) (n_req_asym r) (n_ks r) (n_opaque r) (n_term_policy r) (n_req_dts r) (n_req_max r) (n_rsp_dts r) (n_rsp_max r).
Definition set_n_req_cap (v : N) (r : nego) : nego := mkNego (n_version r) v (n_rsp_cap r) (n_req_ct r) (n_rsp_ct r) (n_mspec r) (n_mhash r) (n_hash r) (n_asym r) (n_dhe r) (n_aead r) (n_req_asym r) (n_ks r) (n_opaque r) (n_term_policy r) (n_req_dts r) (n_req_max r) (n_rsp_dts r) (n_rsp_max r).
Definition set_n_rsp_cap (v : N) (r : nego) : nego := mkNego (n_version r) (n_req_cap r) v (n_req_ct r) (n_rsp_ct r) (n_mspec r) (n_mhash r) (n_hash r) (n_asym r) (n_dhe r) (n_aead r) (n_req_asym r) (n_ks r) (n_opaque r) (n_term_policy r) (n_req_dts r) (n_req_max r) (n_rsp_dts r) (n_rsp_max r).
Definition set_n_req_ct (v : N) (r : nego) : nego := mkNego (n_version r) (n_req_cap r) (n_rsp_cap r) v (n_rsp_ct r) (n_mspec r) (n_mhash r) (n_hash r) (n_asym r) (n_dhe r) (n_aead r) (n_req_asym r) (n_ks r) (n_opaque r) (n_term_policy r) (n_req_dts r) (n_req_max r) (n_rsp_dts r) (n_rsp_max r).
Definition set_n_rsp_ct (v : N) (r : nego) : nego := mkNego (n_version r) (n_req_cap r) (n_rsp_cap r) (n_req_ct r) v (n_mspec r) (n_mhash r) (n_hash r) (n_asym r) (n_dhe r) (n_aead r) (n_req_asym r) (n_ks r) (n_opaque r) (n_term_policy r) (n_req_dts r) (n_req_max r) (n_rsp_dts r) (n_rsp_max r).
Definition set_n_mspec (v : N) (r : nego) : nego := mkNego (n_version r) (n_req_cap r) (n_rsp_cap r) (n_req_ct r) (n_rsp_ct r) v (n_mhash r) (n_hash r) (n_asym r) (n_dhe r) (n_aead r) (n_req_asym r) (n_ks r) (n_opaque r) (n_term_policy r) (n_req_dts r) (n_req_max r) (n_rsp_dts r) (n_rsp_max r).
Definition set_n_mhash (v : N) (r : nego) : nego := mkNego (n_version r) (n_req_cap r) (n_rsp_cap r) (n_req_ct r) (n_rsp_ct r) (n_mspec r) v (n_hash r) (n_asym r) (n_dhe r) (n_aead r) (n_req_asym r) (n_ks r) (n_opaque r) (n_term_policy r) (n_req_dts r) (n_req_max r) (n_rsp_dts r) (n_rsp_max r).
Definition set_n_hash (v : N) (r : nego) : nego := mkNego (n_version r) (n_req_cap r) (n_rsp_cap r) (n_req_ct r) (n_rsp_ct r) (n_mspec r) (n_mhash r) v (n_asym r) (n_dhe r) (n_aead r) (n_req_asym r) (n_ks r) (n_opaque r) (n_term_policy r) (n_req_dts r) (n_req_max r) (n_rsp_dts r) (n_rsp_max r).
Definition set_n_asym (v : N) (r : nego) : nego := mkNego (n_version r) (n_req_cap r) (n_rsp_cap r) (n_req_ct r) (n_rsp_ct r) (n_mspec r) (n_mhash r) (n_hash r) v (n_dhe r) (n_aead r) (n_req_asym r) (n_ks r) (n_opaque r) (n_term_policy r) (n_req_dts r) (n_req_max r) (n_rsp_dts r) (n_rsp_max r).
Definition set_n_dhe (v : N) (r : nego) : nego := mkNego (n_version r) (n_req_cap r) (n_rsp_cap r) (n_req_ct r) (n_rsp_ct r) (n_mspec r) (n_mhash r) (n_hash r) (n_asym r) v (n_aead r) (n_req_asym r) (n_ks r) (n_opaque r) (n_term_policy r) (n_req_dts r) (n_req_max r) (n_rsp_dts r) (n_rsp_max r).
Definition set_n_aead (v : N) (r : nego) : nego := mkNego (n_version r) (n_req_cap r) (n_rsp_cap r) (n_req_ct r) (n_rsp_ct r) (n_mspec r) (n_mhash r) (n_hash r) (n_asym r) (n_dhe r) v (n_req_asym r) (n_ks r) (n_opaque r) (n_term_policy r) (n_req_dts r) (n_req_max r) (n_rsp_dts r) (n_rsp_max r).
Definition set_n_req_asym (v : N) (r : nego) : nego := mkNego (n_version r) (n_req_cap r) (n_rsp_cap r) (n_req_ct r) (n_rsp_ct r) (n_mspec r) (n_mhash r) (n_hash r) (n_asym r) (n_dhe r) (n_aead r) v (n_ks r) (n_opaque r) (n_term_policy r) (n_req_dts r) (n_req_max r) (n_rsp_dts r) (n_rsp_max r).
Definition set_n_ks (v : N) (r : nego) : nego := mkNego (n_version r) (n_req_cap r) (n_rsp_cap r) (n_req_ct r) (n_rsp_ct r) (n_mspec r) (n_mhash r) (n_hash r) (n_asym r) (n_dhe r) (n_aead r) (n_req_asym r) v (n_opaque r) (n_term_policy r) (n_req_dts r) (n_req_max r) (n_rsp_dts r) (n_rsp_max r).
Definition set_n_opaque (v : N) (r : nego) : nego := mkNego (n_version r) (n_req_cap r) (n_rsp_cap r) (n_req_ct r) (n_rsp_ct r) (n_mspec r) (n_mhash r) (n_hash r) (n_asym r) (n_dhe r) (n_aead r) (n_req_asym r) (n_ks r) v (n_term_policy r) (n_req_dts r) (n_req_max r) (n_rsp_dts r) (n_rsp_max r).
Definition set_n_term_policy (v : bool) (r : nego) : nego := mkNego (n_version r) (n_req_cap r) (n_rsp_cap r) (n_req_ct r) (n_rsp_ct r) (n_mspec r) (n_mhash r) (n_hash r) (n_asym r) (n_dhe r) (n_aead r) (n_req_asym r) (n_ks r) (n_opaque r) v (n_req_dts r) (n_req_max r) (n_rsp_dts r) (n_rsp_max r).
Definition set_n_req_dts (v : N) (r : nego) : nego := mkNego (n_version r) (n_req_cap r) (n_rsp_cap r) (n_req_ct r) (n_rsp_ct r) (n_mspec r) (n_mhash r) (n_hash r) (n_asym r) (n_dhe r) (n_aead r) (n_req_asym r) (n_ks r) (n_opaque r) (n_term_policy r) v (n_req_max r) (n_rsp_dts r) (n_rsp_max r).
Definition set_n_req_max (v : N) (r : nego) : nego := mkNego (n_version r) (n_req_cap r) (n_rsp_cap r) (n_req_ct r) (n_rsp_ct r) (n_mspec r) (n_mhash r) (n_hash r) (n_asym r) (n_dhe r) (n_aead r) (n_req_asym r) (n_ks r) (n_opaque r) (n_term_policy r) (n_req_dts r) v (n_rsp_dts r) (n_rsp_max r).
Definition set_n_rsp_dts (v : N) (r : nego) : nego := mkNego (n_version r) (n_req_cap r) (n_rsp_cap r) (n_req_ct r) (n_rsp_ct r) (n_mspec r) (n_mhash r) (n_hash r) (n_asym r) (n_dhe r) (n_aead r) (n_req_asym r) (n_ks r) (n_opaque r) (n_term_policy r) (n_req_dts r) (n_req_max r) v (n_rsp_max r).
Definition set_n_rsp_max (v : N) (r : nego) : nego := mkNego (n_version r) (n_req_cap r) (n_rsp_cap r) (n_req_ct r) (n_rsp_ct r) (n_mspec r) (n_mhash r) (n_hash r) (n_asym r) (n_dhe r) (n_aead r) (n_req_asym r) (n_ks r) (n_opaque r) (n_term_policy r) (n_req_dts r) (n_req_max r) (n_rsp_dts r) v.

(** ** the context *)
(** SpdmContext — common/mod.rs:135-151 with SpdmRuntimeInfo (1420-1436), SpdmProvisionInfo
    (1472-1477), SpdmPeerInfo (1479-1483) and SpdmEncapContext (1485-1491) flattened.

    A certificate chain buffer is its meaningful prefix ([as_ref()]).  A hash context is the
    list of bytes fed to it so far and is finalised under the selected base hash: the algorithm
    selected at creation and at finalisation is the same, because base_hash_sel only changes
    while ALGORITHMS is being negotiated, before any context exists.
    [x_rng] numbers the calls of the random generator and key-pair generator, [x_io] the device
    I/O calls; [x_sent] lists the buffers the device accepted, most recent first. *)
Record ctx := mkCtx {
  x_cfg : config;
  x_nego : nego;
  x_conn : N;
  x_last : option N;
  x_lslot : N;
  x_pslot : N;
  x_need_sum : bool;
  x_need_sig : bool;
  x_msg_a : bytes;
  x_m1m2 : option bytes;
  x_l1l2 : option bytes;
  x_changed : N;
  x_chain_data : list (option bytes);
  x_my_chain : list (option bytes);
  x_peer_root : option bytes;
  x_peer_chain : list (option bytes);
  x_peer_temp : option bytes;
  x_encap_slot : N;
  x_encap_id : N;
  x_encap_size : N;
  x_sess : list session;
  x_rng : N;
  x_io : N;
  x_sent : list bytes
}.
Definition set_x_cfg (v : config) (r : ctx) : ctx := mkCtx v (x_nego r) (x_conn r) (x_last r) (x_lslot r) (x_pslot r) (x_need_sum r) (x_need_sig r) (x_msg_a r) (x_m1m2 r) (x_l1l2 r) (x_changed r) (x_chain_data r) (x_my_chain r) (x_peer_root r) (x_peer_chain r) (x_peer_temp r) (x_encap_slot r) (x_encap_id r) (x_encap_size r) (x_sess r) (x_rng r) (x_io r) (x_sent r).
Definition set_x_nego (v : nego) (r : ctx) : ctx := mkCtx (x_cfg r) v (x_conn r) (x_last r) (x_lslot r) (x_pslot r) (x_need_sum r) (x_need_sig r) (x_msg_a r) (x_m1m2 r) (x_l1l2 r) (x_changed r) (x_chain_data r) (x_my_chain r) (x_peer_root r) (x_peer_chain r) (x_peer_temp r) (x_encap_slot r) (x_encap_id r) (x_encap_size r) (x_sess r) (x_rng r) (x_io r) (x_sent r).
Definition set_x_conn (v : N) (r : ctx) : ctx := mkCtx (x_cfg r) (x_nego r) v (x_last r) (x_lslot r) (x_pslot r) (x_need_sum r) (x_need_sig r) (x_msg_a r) (x_m1m2 r) (x_l1l2 r) (x_changed r) (x_chain_data r) (x_my_chain r) (x_peer_root r) (x_peer_chain r) (x_peer_temp r) (x_encap_slot r) (x_encap_id r) (x_encap_size r) (x_sess r) (x_rng r) (x_io r) (x_sent r).
Definition set_x_last (v : option N) (r : ctx) : ctx := mkCtx (x_cfg r) (x_nego r) (x_conn r) v (x_lslot r) (x_pslot r) (x_need_sum r) (x_need_sig r) (x_msg_a r) (x_m1m2 r) (x_l1l2 r) (x_changed r) (x_chain_data r) (x_my_chain r) (x_peer_root r) (x_peer_chain r) (x_peer_temp r) (x_encap_slot r) (x_encap_id r) (x_encap_size r) (x_sess r) (x_rng r) (x_io r) (x_sent r).
Definition set_x_lslot (v : N) (r : ctx) : ctx := mkCtx (x_cfg r) (x_nego r) (x_conn r) (x_last r) v (x_pslot r) (x_need_sum r) (x_need_sig r) (x_msg_a r) (x_m1m2 r) (x_l1l2 r) (x_changed r) (x_chain_data r) (x_my_chain r) (x_peer_root r) (x_peer_chain r) (x_peer_temp r) (x_encap_slot r) (x_encap_id r) (x_encap_size r) (x_sess r) (x_rng r) (x_io r) (x_sent r).
Definition set_x_pslot (v : N) (r : ctx) : ctx := mkCtx (x_cfg r) (x_nego r) (x_conn r) (x_last r) (x_lslot r) v (x_need_sum r) (x_need_sig r) (x_msg_a r) (x_m1m2 r) (x_l1l2 r) (x_changed r) (x_chain_data r) (x_my_chain r) (x_peer_root r) (x_peer_chain r) (x_peer_temp r) (x_encap_slot r) (x_encap_id r) (x_encap_size r) (x_sess r) (x_rng r) (x_io r) (x_sent r).
Definition set_x_need_sum (v : bool) (r : ctx) : ctx := mkCtx (x_cfg r) (x_nego r) (x_conn r) (x_last r) (x_lslot r) (x_pslot r) v (x_need_sig r) (x_msg_a r) (x_m1m2 r) (x_l1l2 r) (x_changed r) (x_chain_data r) (x_my_chain r) (x_peer_root r) (x_peer_chain r) (x_peer_temp r) (x_encap_slot r) (x_encap_id r) (x_encap_size r) (x_sess r) (x_rng r) (x_io r) (x_sent r).
Definition set_x_need_sig (v : bool) (r : ctx) : ctx := mkCtx (x_cfg r) (x_nego r) (x_conn r) (x_last r) (x_lslot r) (x_pslot r) (x_need_sum r) v (x_msg_a r) (x_m1m2 r) (x_l1l2 r) (x_changed r) (x_chain_data r) (x_my_chain r) (x_peer_root r) (x_peer_chain r) (x_peer_temp r) (x_encap_slot r) (x_encap_id r) (x_encap_size r) (x_sess r) (x_rng r) (x_io r) (x_sent r).
Definition set_x_msg_a (v : bytes) (r : ctx) : ctx := mkCtx (x_cfg r) (x_nego r) (x_conn r) (x_last r) (x_lslot r) (x_pslot r) (x_need_sum r) (x_need_sig r) v (x_m1m2 r) (x_l1l2 r) (x_changed r) (x_chain_data r) (x_my_chain r) (x_peer_root r) (x_peer_chain r) (x_peer_temp r) (x_encap_slot r) (x_encap_id r) (x_encap_size r) (x_sess r) (x_rng r) (x_io r) (x_sent r).
Definition set_x_m1m2 (v : option bytes) (r : ctx) : ctx := mkCtx (x_cfg r) (x_nego r) (x_conn r) (x_last r) (x_lslot r) (x_pslot r) (x_need_sum r) (x_need_sig r) (x_msg_a r) v (x_l1l2 r) (x_changed r) (x_chain_data r) (x_my_chain r) (x_peer_root r) (x_peer_chain r) (x_peer_temp r) (x_encap_slot r) (x_encap_id r) (x_encap_size r) (x_sess r) (x_rng r) (x_io r) (x_sent r).
Definition set_x_l1l2 (v : option bytes) (r : ctx) : ctx := mkCtx (x_cfg r) (x_nego r) (x_conn r) (x_last r) (x_lslot r) (x_pslot r) (x_need_sum r) (x_need_sig r) (x_msg_a r) (x_m1m2 r) v (x_changed r) (x_chain_data r) (x_my_chain r) (x_peer_root r) (x_peer_chain r) (x_peer_temp r) (x_encap_slot r) (x_encap_id r) (x_encap_size r) (x_sess r) (x_rng r) (x_io r) (x_sent r).
Definition set_x_changed (v : N) (r : ctx) : ctx := mkCtx (x_cfg r) (x_nego r) (x_conn r) (x_last r) (x_lslot r) (x_pslot r) (x_need_sum r) (x_need_sig r) (x_msg_a r) (x_m1m2 r) (x_l1l2 r) v (x_chain_data r) (x_my_chain r) (x_peer_root r) (x_peer_chain r) (x_peer_temp r) (x_encap_slot r) (x_encap_id r) (x_encap_size r) (x_sess r) (x_rng r) (x_io r) (x_sent r).
Definition set_x_chain_data (v : list (option bytes)) (r : ctx) : ctx := mkCtx (x_cfg r) (x_nego r) (x_conn r) (x_last r) (x_lslot r) (x_pslot r) (x_need_sum r) (x_need_sig r) (x_msg_a r) (x_m1m2 r) (x_l1l2 r) (x_changed r) v (x_my_chain r) (x_peer_root r) (x_peer_chain r) (x_peer_temp r) (x_encap_slot r) (x_encap_id r) (x_encap_size r) (x_sess r) (x_rng r) (x_io r) (x_sent r).
Definition set_x_my_chain (v : list (option bytes)) (r : ctx) : ctx := mkCtx (x_cfg r) (x_nego r) (x_conn r) (x_last r) (x_lslot r) (x_pslot r) (x_need_sum r) (x_need_sig r) (x_msg_a r) (x_m1m2 r) (x_l1l2 r) (x_changed r) (x_chain_data r) v (x_peer_root r) (x_peer_chain r) (x_peer_temp r) (x_encap_slot r) (x_encap_id r) (x_encap_size r) (x_sess r) (x_rng r) (x_io r) (x_sent r).
Definition set_x_peer_root (v : option bytes) (r : ctx) : ctx := mkCtx (x_cfg r) (x_nego r) (x_conn r) (x_last r) (x_lslot r) (x_pslot r) (x_need_sum r) (x_need_sig r) (x_msg_a r) (x_m1m2 r) (x_l1l2 r) (x_changed r) (x_chain_data r) (x_my_chain r) v (x_peer_chain r) (x_peer_temp r) (x_encap_slot r) (x_encap_id r) (x_encap_size r) (x_sess r) (x_rng r) (x_io r) (x_sent r).
Definition set_x_peer_chain (v : list (option bytes)) (r : ctx) : ctx := mkCtx (x_cfg r) (x_nego r) (x_conn r) (x_last r) (x_lslot r) (x_pslot r) (x_need_sum r) (x_need_sig r) (x_msg_a r) (x_m1m2 r) (x_l1l2 r) (x_changed r) (x_chain_data r) (x_my_chain r) (x_peer_root r) v (x_peer_temp r) (x_encap_slot r) (x_encap_id r) (x_encap_size r) (x_sess r) (x_rng r) (x_io r) (x_sent r).
Definition set_x_peer_temp (v : option bytes) (r : ctx) : ctx := mkCtx (x_cfg r) (x_nego r) (x_conn r) (x_last r) (x_lslot r) (x_pslot r) (x_need_sum r) (x_need_sig r) (x_msg_a r) (x_m1m2 r) (x_l1l2 r) (x_changed r) (x_chain_data r) (x_my_chain r) (x_peer_root r) (x_peer_chain r) v (x_encap_slot r) (x_encap_id r) (x_encap_size r) (x_sess r) (x_rng r) (x_io r) (x_sent r).
Definition set_x_encap_slot (v : N) (r : ctx) : ctx := mkCtx (x_cfg r) (x_nego r) (x_conn r) (x_last r) (x_lslot r) (x_pslot r) (x_need_sum r) (x_need_sig r) (x_msg_a r) (x_m1m2 r) (x_l1l2 r) (x_changed r) (x_chain_data r) (x_my_chain r) (x_peer_root r) (x_peer_chain r) (x_peer_temp r) v (x_encap_id r) (x_encap_size r) (x_sess r) (x_rng r) (x_io r) (x_sent r).
Definition set_x_encap_id (v : N) (r : ctx) : ctx := mkCtx (x_cfg r) (x_nego r) (x_conn r) (x_last r) (x_lslot r) (x_pslot r) (x_need_sum r) (x_need_sig r) (x_msg_a r) (x_m1m2 r) (x_l1l2 r) (x_changed r) (x_chain_data r) (x_my_chain r) (x_peer_root r) (x_peer_chain r) (x_peer_temp r) (x_encap_slot r) v (x_encap_size r) (x_sess r) (x_rng r) (x_io r) (x_sent r).
Definition set_x_encap_size (v : N) (r : ctx) : ctx := mkCtx (x_cfg r) (x_nego r) (x_conn r) (x_last r) (x_lslot r) (x_pslot r) (x_need_sum r) (x_need_sig r) (x_msg_a r) (x_m1m2 r) (x_l1l2 r) (x_changed r) (x_chain_data r) (x_my_chain r) (x_peer_root r) (x_peer_chain r) (x_peer_temp r) (x_encap_slot r) (x_encap_id r) v (x_sess r) (x_rng r) (x_io r) (x_sent r).
Definition set_x_sess (v : list session) (r : ctx) : ctx := mkCtx (x_cfg r) (x_nego r) (x_conn r) (x_last r) (x_lslot r) (x_pslot r) (x_need_sum r) (x_need_sig r) (x_msg_a r) (x_m1m2 r) (x_l1l2 r) (x_changed r) (x_chain_data r) (x_my_chain r) (x_peer_root r) (x_peer_chain r) (x_peer_temp r) (x_encap_slot r) (x_encap_id r) (x_encap_size r) v (x_rng r) (x_io r) (x_sent r).
Definition set_x_rng (v : N) (r : ctx) : ctx := mkCtx (x_cfg r) (x_nego r) (x_conn r) (x_last r) (x_lslot r) (x_pslot r) (x_need_sum r) (x_need_sig r) (x_msg_a r) (x_m1m2 r) (x_l1l2 r) (x_changed r) (x_chain_data r) (x_my_chain r) (x_peer_root r) (x_peer_chain r) (x_peer_temp r) (x_encap_slot r) (x_encap_id r) (x_encap_size r) (x_sess r) v (x_io r) (x_sent r).
Definition set_x_io (v : N) (r : ctx) : ctx := mkCtx (x_cfg r) (x_nego r) (x_conn r) (x_last r) (x_lslot r) (x_pslot r) (x_need_sum r) (x_need_sig r) (x_msg_a r) (x_m1m2 r) (x_l1l2 r) (x_changed r) (x_chain_data r) (x_my_chain r) (x_peer_root r) (x_peer_chain r) (x_peer_temp r) (x_encap_slot r) (x_encap_id r) (x_encap_size r) (x_sess r) (x_rng r) v (x_sent r).
Definition set_x_sent (v : list bytes) (r : ctx) : ctx := mkCtx (x_cfg r) (x_nego r) (x_conn r) (x_last r) (x_lslot r) (x_pslot r) (x_need_sum r) (x_need_sig r) (x_msg_a r) (x_m1m2 r) (x_l1l2 r) (x_changed r) (x_chain_data r) (x_my_chain r) (x_peer_root r) (x_peer_chain r) (x_peer_temp r) (x_encap_slot r) (x_encap_id r) (x_encap_size r) (x_sess r) (x_rng r) (x_io r) v.

(** SpdmConnectionState — common/mod.rs:26-46; AfterCertificate and Authenticated share a code *)
Definition CONN_NOT_STARTED : N := 0.
Definition CONN_AFTER_VERSION : N := 1.
Definition CONN_AFTER_CAPABILITIES : N := 2.
Definition CONN_NEGOTIATED : N := 3.
Definition CONN_AFTER_DIGEST : N := 4.
Definition CONN_AFTER_CERTIFICATE : N := 5.
Definition CONN_AUTHENTICATED : N := 5.
(** MAX_SPDM_SESSION_COUNT — etc/config.json *)
Definition MAX_SESSION_COUNT : nat := 4.
(** MAX_SPDM_MSG_SIZE — etc/config.json *)
Definition MAX_SPDM_MSG_SIZE : N := 4096.
(** INITIAL_SESSION_ID — common/mod.rs:71 *)
Definition INITIAL_SESSION_ID : N := 0xFFFD.
(** MAX_MANAGED_BUFFER_A_SIZE — common/mod.rs:1084 *)
Definition MAX_A : N := 150 + 2 * 3.

(** ContextNew — common/mod.rs:153-171 *)
Definition ctx_new (cfg : config) (chain_data my_chain : list (option bytes)) (root : option bytes) : ctx :=
  mkCtx cfg nego_default CONN_NOT_STARTED None 0 0 false false [] None None 0
        chain_data my_chain root (repeat None SPDM_MAX_SLOT_NUMBER) None 0 0 0
        (repeat session_new MAX_SESSION_COUNT) 0 0 [].

(** reset_runtime_info — common/mod.rs:177-179 *)
Definition reset_runtime_info (x : ctx) : ctx :=
  set_x_conn CONN_NOT_STARTED (set_x_last None (set_x_lslot 0 (set_x_pslot 0 (set_x_need_sum false
  (set_x_need_sig false (set_x_msg_a [] (set_x_m1m2 None (set_x_l1l2 None (set_x_changed 0 x))))))))).
(** reset_negotiate_info — common/mod.rs:181-183 *)
Definition reset_negotiate_info (x : ctx) : ctx := set_x_nego nego_default x.
(** reset_peer_info — common/mod.rs:185-187 *)
Definition reset_peer_info (x : ctx) : ctx :=
  set_x_peer_chain (repeat None SPDM_MAX_SLOT_NUMBER) (set_x_peer_temp None x).
(** reset_context — common/mod.rs:189-197 *)
Definition reset_context (x : ctx) : ctx :=
  let x := reset_peer_info (reset_negotiate_info (reset_runtime_info x)) in
  set_x_sess (map session_set_default (x_sess x)) x.

(** the part of the context the message codecs look at *)
Definition xc (x : ctx) : cctx := mkCctx (x_nego x) (x_need_sum x) (x_need_sig x).
Definition modn (f : nego -> nego) (x : ctx) : ctx := set_x_nego (f (x_nego x)) x.
Definition ver (x : ctx) : N := n_version (x_nego x).

(** ** the session table *)
(** get_session_via_id / get_immutable_session_via_id — common/mod.rs:199-209 *)
Definition find_sess (id : N) (l : list session) : option session := find (fun s => s_id s =? id) l.
Definition get_sess (id : N) (x : ctx) : option session := find_sess id (x_sess x).
(** assignment through the [&mut] reference get_session_via_id returns: the first match *)
Fixpoint upd_sess (id : N) (f : session -> session) (l : list session) : list session :=
  match l with
  | [] => []
  | s :: l' => if s_id s =? id then f s :: l' else s :: upd_sess id f l'
  end.
Definition mod_sess (id : N) (f : session -> session) (x : ctx) : ctx :=
  set_x_sess (upd_sess id f (x_sess x)) x.
(** run a session method through [get_session_via_id(id).unwrap()] *)
Definition on_sess {A} (id : N) (m : st session A) : st ctx A :=
  fun x => match get_sess id x with
           | None => (Panic, x)
           | Some s => let (r, s') := m s in (r, mod_sess id (fun _ => s') x)
           end.
(** [get_immutable_session_via_id(id).unwrap()] *)
Definition the_sess (id : N) : st ctx session :=
  fun x => match get_sess id x with Some s => (Ok s, x) | None => (Panic, x) end.

(** get_next_half_session_id — common/mod.rs:231-243 *)
Definition half (req : bool) (id : N) : N := if req then id mod 65536 else (id / 65536) mod 65536.
Fixpoint next_half (req : bool) (i : N) (l : list session) : option N :=
  match l with
  | [] => None
  | s :: l' => if half req (s_id s) =? 0 then Some (INITIAL_SESSION_ID - i) else next_half req (i + 1) l'
  end.
Definition get_next_half_session_id (req : bool) (x : ctx) : outcome N :=
  match next_half req 0 (firstn MAX_SESSION_COUNT (x_sess x)) with
  | Some h => Ok h
  | None => Err ST_SESSION_NUMBER_EXCEED
  end.
(** get_session_status — common/mod.rs:215-229 *)
Definition get_session_status (x : ctx) : list (N * sstate) := map (fun s => (s_id s, s_state s)) (x_sess x).

(** ** certificate chains *)
(** [self.provision_info.my_cert_chain[slot]], slot below 8 *)
Definition slot_of (l : list (option bytes)) (slot : N) : option bytes := nth (N.to_nat slot) l None.
Fixpoint set_slot (n : nat) (v : option bytes) (l : list (option bytes)) : list (option bytes) :=
  match n, l with
  | O, _ :: l' => v :: l'
  | S n', a :: l' => a :: set_slot n' v l'
  | _, [] => []
  end.
(** SpdmCertChainBuffer built by construct_my_cert_chain — common/mod.rs:262-273.
    u16 additions that overflow, or a chain that does not fit the buffer, panic. *)
Definition build_chain (root_hash chain : bytes) : outcome bytes :=
  let n := 4 + len root_hash + len chain in
  if 65535 <? n then Panic
  else if 4 + 64 + 4096 <? n then Panic
  else Ok ([n mod 256; n / 256; 0; 0] ++ root_hash ++ chain).
(** one slot — common/mod.rs:246-279 *)
Definition construct_slot (cr : crypto) (hash : N) (mine data : option bytes) : outcome (option bytes) :=
  match mine, data with
  | None, Some chain =>
      match get_cert chain 0 with
      | Ok (b, e) =>
          match cr_hash cr hash (slice (N.to_nat b) (N.to_nat (e - b)) chain) with
          | Some h => obind (build_chain h chain) (fun c => Ok (Some c))
          | None => Err ST_CRYPTO_ERROR
          end
      | _ => Panic
      end
  | m, _ => Ok m
  end.
(** construct_my_cert_chain — common/mod.rs:245-281: slots built before a failure stay built *)
Fixpoint construct_slots (cr : crypto) (hash : N) (mine data : list (option bytes)) : outcome unit * list (option bytes) :=
  match mine, data with
  | m :: mine', d :: data' =>
      match construct_slot cr hash m d with
      | Ok m' => let (r, l) := construct_slots cr hash mine' data' in (r, m' :: l)
      | Err e => (Err e, mine)
      | Panic => (Panic, mine)
      end
  | _, _ => (Ok tt, mine)
  end.
Definition construct_my_cert_chain (cr : crypto) : st ctx unit :=
  fun x => let (r, l) := construct_slots cr (n_hash (x_nego x)) (x_my_chain x) (x_chain_data x) in
           (r, set_x_my_chain l x).
(** get_certchain_hash_local / get_certchain_hash_peer — common/mod.rs:870-922 *)
Definition certchain_hash (cr : crypto) (hash : N) (use_psk : bool) (chain : option bytes) : option bytes :=
  if use_psk then None
  else match chain with None => None | Some c => cr_hash cr hash c end.

(** ** transcripts (hashed build) *)
(** hash_ctx_init fails exactly for an algorithm hash_all does not support *)
Definition hash_ok (cr : crypto) (alg : N) : bool :=
  match cr_hash cr alg [] with Some _ => true | None => false end.
(** append_message_a — common/mod.rs:283-289; ManagedBufferA::append_message 1120-1127 *)
Definition append_a (m : bytes) : st ctx unit :=
  fun x => if MAX_A <? len (x_msg_a x) + len m then (Err ST_BUFFER_FULL, x)
           else (Ok tt, set_x_msg_a (x_msg_a x ++ m) x).
(** reset_message_a — common/mod.rs:290-292 *)
Definition reset_a (x : ctx) : ctx := set_x_msg_a [] x.
(** body shared by append_message_b (301-321) and append_message_c (344-364), which differ only
    in the status returned when the hash context cannot be created *)
Definition append_m1m2 (cr : crypto) (e : status) (m : bytes) : st ctx unit :=
  fun x => match x_m1m2 x with
           | Some d => (Ok tt, set_x_m1m2 (Some (d ++ m)) x)
           | None => if hash_ok cr (n_hash (x_nego x))
                     then (Ok tt, set_x_m1m2 (Some (x_msg_a x ++ m)) x)
                     else (Err e, x)
           end.
Definition append_b (cr : crypto) := append_m1m2 cr ST_INVALID_STATE_LOCAL.
Definition append_c (cr : crypto) := append_m1m2 cr ST_CRYPTO_ERROR.
(** reset_message_b (324-334), reset_message_c (367-377) *)
Definition reset_b (x : ctx) : ctx := set_x_m1m2 None x.
Definition reset_c (x : ctx) : ctx := set_x_m1m2 None x.
(** the l1l2 context after one more message — common/mod.rs:399-459 *)
Definition next_l1l2 (x : ctx) (cur : option bytes) (m : bytes) : bytes :=
  match cur with
  | Some d => d ++ m
  | None => (if 0x12 <=? ver x then x_msg_a x else []) ++ m
  end.
(** append_message_m — common/mod.rs:380-461 *)
Definition append_m (cr : crypto) (sid : option N) (m : bytes) : st ctx unit :=
  fun x =>
    match sid with
    | Some id =>
        match get_sess id x with
        | None => (Err ST_INVALID_STATE_LOCAL, x)
        | Some s =>
            match s_l1l2 s, hash_ok cr (n_hash (x_nego x)) with
            | None, false => (Err ST_CRYPTO_ERROR, x)
            | cur, _ => (Ok tt, mod_sess id (set_s_l1l2 (Some (next_l1l2 x cur m))) x)
            end
        end
    | None =>
        match x_l1l2 x, hash_ok cr (n_hash (x_nego x)) with
        | None, false => (Err ST_CRYPTO_ERROR, x)
        | cur, _ => (Ok tt, set_x_l1l2 (Some (next_l1l2 x cur m)) x)
        end
    end.
(** reset_message_m — common/mod.rs:463-496 *)
Definition reset_m (sid : option N) (x : ctx) : ctx :=
  match sid with
  | Some id => mod_sess id (set_s_l1l2 None) x
  | None => set_x_l1l2 None x
  end.
(** append_message_k — common/mod.rs:498-541 *)
Definition append_k (cr : crypto) (id : N) (m : bytes) : st ctx unit :=
  on_sess id (fun s =>
    match s_th s with
    | Some d => (Ok tt, set_s_th (Some (d ++ m)) s)
    | None => if hash_ok cr (s_hash s)
              then (Ok tt, set_s_th (Some (s_msg_a s ++ match s_rsp_hash s with Some h => h | None => [] end ++ m)) s)
              else (Err ST_CRYPTO_ERROR, s)
    end).
(** reset_message_k (hashed) — common/mod.rs:543-555 *)
Definition reset_k (id : N) : st ctx unit := on_sess id (smod (set_s_th None)).
(** the certificate digest append_message_f inserts first — common/mod.rs:583-617 *)
Definition f_digest (cr : crypto) (req : bool) (s : session) (x : ctx) : outcome bytes :=
  if negb (s_use_psk s) && negb (s_mut_auth s =? 0) then
    let chain := if req then slot_of (x_my_chain x) (x_lslot x) else slot_of (x_peer_chain x) (x_pslot x) in
    match chain with
    | None => Err ST_INVALID_STATE_LOCAL
    | Some c => match cr_hash cr (n_hash (x_nego x)) c with Some h => Ok h | None => Err ST_CRYPTO_ERROR end
    end
  else Ok [].
(** append_message_f (hashed) — common/mod.rs:570-635 *)
Definition append_f (cr : crypto) (req : bool) (id : N) (m : bytes) : st ctx unit :=
  (s <-- the_sess id ;;
   match s_th s with
   | None => serr ST_INVALID_STATE_LOCAL
   | Some _ =>
       (swhen (negb (s_f_init s))
          (x <-- sget ;;
           d <-- sof (f_digest cr req s x) ;;
           smod (mod_sess id (fun s => set_s_f_init true
             (set_s_th (match s_th s with Some t => Some (t ++ d) | None => None end) s)))) ;;;
        smod (mod_sess id (fun s => set_s_th (match s_th s with Some t => Some (t ++ m) | None => None end) s)))%st
   end)%st.
(** reset_message_f (hashed) — common/mod.rs:637-649 *)
Definition reset_f (id : N) : st ctx unit := on_sess id (smod (set_s_th None)).
(** calc_req_transcript_hash / calc_rsp_transcript_hash (hashed) — common/mod.rs:830-868 *)
Definition transcript_hash (cr : crypto) (s : session) : outcome bytes :=
  match s_th s with
  | None => Err ST_INVALID_STATE_LOCAL
  | Some t => orc (cr_hash cr (s_hash s) t)
  end.
Definition calc_th (cr : crypto) (id : N) : st ctx bytes :=
  (s <-- the_sess id ;; sof (transcript_hash cr s))%st.

(** reset_buffer_via_request_code — common/mod.rs:924-955 *)
Definition reset_buffer (code : N) (sid : option N) (x : ctx) : ctx :=
  let x := if code =? RC_GET_MEASUREMENTS then x else reset_m sid x in
  if existsb (N.eqb code) [RC_GET_MEASUREMENTS; RC_KEY_EXCHANGE; RC_FINISH; RC_PSK_EXCHANGE; RC_PSK_FINISH;
                           RC_KEY_UPDATE; RC_HEARTBEAT; RC_END_SESSION]
  then if x_conn x <? CONN_AUTHENTICATED then reset_c (reset_b x) else x
  else if code =? RC_GET_DIGESTS then reset_b x
  else x.

(** ** randomness and device I/O *)
(** crypto::rand::get_random into a buffer of [n] bytes *)
Definition get_random (cr : crypto) (n : nat) : st ctx (option bytes) :=
  fun x => (Ok (match cr_random cr (x_rng x) n with
                | Some b => if Nat.eqb (length b) n then Some b else None
                | None => None end), set_x_rng (x_rng x + 1) x).
(** device_io.send — common/mod.rs:76-77 *)
Definition io_send (E : env) (b : bytes) : st ctx unit :=
  fun x => let x' := set_x_io (x_io x + 1) x in
           match e_send E (x_io x) b with
           | Some e => (Err e, x')
           | None => (Ok tt, set_x_sent (b :: x_sent x') x')
           end.
(** device_io.receive — common/mod.rs:78-79; a device reports at most the size of the buffer it was given *)
Definition io_recv (E : env) : st ctx (option bytes) :=
  fun x => (Ok (match e_recv E (x_io x) (x_sent x) with
                | Some b => if BUFFER_SIZE <? len b then None else Some b
                | None => None end), set_x_io (x_io x + 1) x).

(** ** message buffers *)
(** spdm_encode into a Writer over a MAX_SPDM_MSG_SIZE buffer that already holds [w]:
    [Some (true, w')] on success, [Some (false, w')] when a write did not fit (what was written
    before stays), [None] on panic.  Each chunk is one Writer operation (codec/src/codec.rs:42-74). *)
Fixpoint emit (e : enc) (w : bytes) : option (bool * bytes) :=
  match e with
  | [] => Some (true, w)
  | EPanic :: _ => None
  | EC b _ :: e' => if MAX_SPDM_MSG_SIZE <? len w + len b then Some (false, w) else emit e' (w ++ b)
  end.
(** [message.spdm_encode(&mut self.common, writer)] *)
Definition wenc (m : message) (w : bytes) : st ctx (bool * bytes) :=
  fun x => match emit (enc_message (xc x) m) w with Some r => (Ok r, x) | None => (Panic, x) end.
(** [Payload::spdm_read(&mut self.common, &mut reader)] on the rest of the request *)
Definition rd {A} (d : cctx -> dec A) (l : bytes) : st ctx (option (A * bytes)) :=
  fun x => match d (xc x) l with
           | POk a r => (Ok (Some (a, r)), x)
           | PNone => (Ok None, x)
           | PPanic => (Panic, x)
           end.
(** [&bytes[..reader.used()]] when [rest] is what the reader has left *)
Definition used_of (b rest : bytes) : bytes := firstn (length b - length rest) b.

(** ** envelopes *)
(** encode_secured_message — common/mod.rs:962-988 *)
Definition encode_secured_message (E : env) (id : N) (b : bytes) (req app : bool) : st ctx bytes :=
  (a <-- sof (tr_encap_app (e_tr E) BUFFER_SIZE b app) ;;
   x <-- sget ;;
   match get_sess id x with
   | None => serr ST_INVALID_PARAMETER
   | Some _ =>
       (c <-- on_sess id (encode_secured (e_cr E) req a BUFFER_SIZE) ;;
        sof (tr_encap (e_tr E) BUFFER_SIZE c true))%st
   end)%st.
(** decap — common/mod.rs:990-1004 *)
Definition decap (E : env) (room : N) (b : bytes) : st ctx bytes :=
  (p <-- sof (tr_decap (e_tr E) room b) ;;
   if snd p then serr ST_DECAP_FAIL else sret (fst p))%st.
(** decode_secured_message — common/mod.rs:1006-1036 *)
Definition decode_secured_message (E : env) (id : N) (room : N) (b : bytes) : st ctx bytes :=
  (p <-- sof (tr_decap (e_tr E) BUFFER_SIZE b) ;;
   if negb (snd p) then serr ST_DECAP_FAIL
   else
     (x <-- sget ;;
      match get_sess id x with
      | None => serr ST_INVALID_PARAMETER
      | Some _ =>
          (a <-- on_sess id (decode_secured (e_cr E) false (fst p) BUFFER_SIZE) ;;
           q <-- sof (tr_decap_app (e_tr E) room a) ;;
           sret (fst q))%st
      end)%st)%st.
