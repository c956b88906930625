(** Model of spdmlib/src/common/session.rs (feature "hashed-transcript-data", the default).
    No proofs here.  Record blocks are printed by tools/mkrec.py. *)
From Verif Require Import Bytes Codec Parse Status Algo Crypto KeySchedule Monad.
Local Open Scope N_scope.

(** SpdmSessionState — session.rs:23-39; [SUnknown] is the enum's Unknown(x) *)
Inductive sstate := SNotStarted | SHandshaking | SEstablished | SUnknown (x : N).

(** SpdmSessionSecretParam — session.rs:56-61; the sequence number is a u64 *)
Record dir := mkDir {
  d_key : bytes;
  d_salt : bytes;
  d_seq : N
}.
Definition set_d_key (v : bytes) (r : dir) : dir := mkDir v (d_salt r) (d_seq r).
Definition set_d_salt (v : bytes) (r : dir) : dir := mkDir (d_key r) v (d_seq r).
Definition set_d_seq (v : N) (r : dir) : dir := mkDir (d_key r) (d_salt r) v.
Definition dir_default := mkDir [] [] 0.

(** SpdmSessionHandshakeSecret — session.rs:63-71 *)
Record hs_secret := mkHs {
  h_req_secret : bytes;
  h_rsp_secret : bytes;
  h_req_fin : bytes;
  h_rsp_fin : bytes;
  h_req_dir : dir;
  h_rsp_dir : dir
}.
Definition set_h_req_secret (v : bytes) (r : hs_secret) : hs_secret := mkHs v (h_rsp_secret r) (h_req_fin r) (h_rsp_fin r) (h_req_dir r) (h_rsp_dir r).
Definition set_h_rsp_secret (v : bytes) (r : hs_secret) : hs_secret := mkHs (h_req_secret r) v (h_req_fin r) (h_rsp_fin r) (h_req_dir r) (h_rsp_dir r).
Definition set_h_req_fin (v : bytes) (r : hs_secret) : hs_secret := mkHs (h_req_secret r) (h_rsp_secret r) v (h_rsp_fin r) (h_req_dir r) (h_rsp_dir r).
Definition set_h_rsp_fin (v : bytes) (r : hs_secret) : hs_secret := mkHs (h_req_secret r) (h_rsp_secret r) (h_req_fin r) v (h_req_dir r) (h_rsp_dir r).
Definition set_h_req_dir (v : dir) (r : hs_secret) : hs_secret := mkHs (h_req_secret r) (h_rsp_secret r) (h_req_fin r) (h_rsp_fin r) v (h_rsp_dir r).
Definition set_h_rsp_dir (v : dir) (r : hs_secret) : hs_secret := mkHs (h_req_secret r) (h_rsp_secret r) (h_req_fin r) (h_rsp_fin r) (h_req_dir r) v.
Definition hs_default := mkHs [] [] [] [] dir_default dir_default.

(** SpdmSessionAppliationSecret — session.rs:73-80 *)
Record app_secret := mkApp {
  a_req_secret : bytes;
  a_rsp_secret : bytes;
  a_req_dir : dir;
  a_rsp_dir : dir;
  a_export : bytes
}.
Definition set_a_req_secret (v : bytes) (r : app_secret) : app_secret := mkApp v (a_rsp_secret r) (a_req_dir r) (a_rsp_dir r) (a_export r).
Definition set_a_rsp_secret (v : bytes) (r : app_secret) : app_secret := mkApp (a_req_secret r) v (a_req_dir r) (a_rsp_dir r) (a_export r).
Definition set_a_req_dir (v : dir) (r : app_secret) : app_secret := mkApp (a_req_secret r) (a_rsp_secret r) v (a_rsp_dir r) (a_export r).
Definition set_a_rsp_dir (v : dir) (r : app_secret) : app_secret := mkApp (a_req_secret r) (a_rsp_secret r) (a_req_dir r) v (a_export r).
Definition set_a_export (v : bytes) (r : app_secret) : app_secret := mkApp (a_req_secret r) (a_rsp_secret r) (a_req_dir r) (a_rsp_dir r) v.
Definition app_default := mkApp [] [] dir_default dir_default [].

(** SpdmSession — session.rs:98-130, with crypto_param (41-47), dhe_secret_root (49-54),
    transport_param (82-86) and runtime_info (98-109) flattened.  A hash context is the list of
    bytes fed to it so far. *)
Record session := mkSession {
  s_id : N;
  s_use_psk : bool;
  s_mut_auth : N;
  s_state : sstate;
  s_hash : N;
  s_dhe : N;
  s_aead : N;
  s_ks : N;
  s_dhe_secret : bytes;
  s_hs_root : bytes;
  s_master : bytes;
  s_hs : hs_secret;
  s_app : app_secret;
  s_backup : app_secret;
  s_seq_count : N;
  s_max_random : N;
  s_psk_hint : option bytes;
  s_msg_a : bytes;
  s_f_init : bool;
  s_rsp_hash : option bytes;
  s_req_hash : option bytes;
  s_th : option bytes;
  s_l1l2 : option bytes;
  s_slot : N;
  s_heartbeat : N;
  s_secver : N
}.
Definition set_s_id (v : N) (r : session) : session := mkSession v (s_use_psk r) (s_mut_auth r) (s_state r) (s_hash r) (s_dhe r) (s_aead r) (s_ks r) (s_dhe_secret r) (s_hs_root r) (s_master r) (s_hs r) (s_app r) (s_backup r) (s_seq_count r) (s_max_random r) (s_psk_hint r) (s_msg_a r) (s_f_init r) (s_rsp_hash r) (s_req_hash r) (s_th r) (s_l1l2 r) (s_slot r) (s_heartbeat r) (s_secver r).
Definition set_s_use_psk (v : bool) (r : session) : session := mkSession (s_id r) v (s_mut_auth r) (s_state r) (s_hash r) (s_dhe r) (s_aead r) (s_ks r) (s_dhe_secret r) (s_hs_root r) (s_master r) (s_hs r) (s_app r) (s_backup r) (s_seq_count r) (s_max_random r) (s_psk_hint r) (s_msg_a r) (s_f_init r) (s_rsp_hash r) (s_req_hash r) (s_th r) (s_l1l2 r) (s_slot r) (s_heartbeat r) (s_secver r).
Definition set_s_mut_auth (v : N) (r : session) : session := mkSession (s_id r) (s_use_psk r) v (s_state r) (s_hash r) (s_dhe r) (s_aead r) (s_ks r) (s_dhe_secret r) (s_hs_root r) (s_master r) (s_hs r) (s_app r) (s_backup r) (s_seq_count r) (s_max_random r) (s_psk_hint r) (s_msg_a r) (s_f_init r) (s_rsp_hash r) (s_req_hash r) (s_th r) (s_l1l2 r) (s_slot r) (s_heartbeat r) (s_secver r).
Definition set_s_state (v : sstate) (r : session) : session := mkSession (s_id r) (s_use_psk r) (s_mut_auth r) v (s_hash r) (s_dhe r) (s_aead r) (s_ks r) (s_dhe_secret r) (s_hs_root r) (s_master r) (s_hs r) (s_app r) (s_backup r) (s_seq_count r) (s_max_random r) (s_psk_hint r) (s_msg_a r) (s_f_init r) (s_rsp_hash r) (s_req_hash r) (s_th r) (s_l1l2 r) (s_slot r) (s_heartbeat r) (s_secver r).
Definition set_s_hash (v : N) (r : session) : session := mkSession (s_id r) (s_use_psk r) (s_mut_auth r) (s_state r) v (s_dhe r) (s_aead r) (s_ks r) (s_dhe_secret r) (s_hs_root r) (s_master r) (s_hs r) (s_app r) (s_backup r) (s_seq_count r) (s_max_random r) (s_psk_hint r) (s_msg_a r) (s_f_init r) (s_rsp_hash r) (s_req_hash r) (s_th r) (s_l1l2 r) (s_slot r) (s_heartbeat r) (s_secver r).
Definition set_s_dhe (v : N) (r : session) : session := mkSession (s_id r) (s_use_psk r) (s_mut_auth r) (s_state r) (s_hash r) v (s_aead r) (s_ks r) (s_dhe_secret r) (s_hs_root r) (s_master r) (s_hs r) (s_app r) (s_backup r) (s_seq_count r) (s_max_random r) (s_psk_hint r) (s_msg_a r) (s_f_init r) (s_rsp_hash r) (s_req_hash r) (s_th r) (s_l1l2 r) (s_slot r) (s_heartbeat r) (s_secver r).
Definition set_s_aead (v : N) (r : session) : session := mkSession (s_id r) (s_use_psk r) (s_mut_auth r) (s_state r) (s_hash r) (s_dhe r) v (s_ks r) (s_dhe_secret r) (s_hs_root r) (s_master r) (s_hs r) (s_app r) (s_backup r) (s_seq_count r) (s_max_random r) (s_psk_hint r) (s_msg_a r) (s_f_init r) (s_rsp_hash r) (s_req_hash r) (s_th r) (s_l1l2 r) (s_slot r) (s_heartbeat r) (s_secver r).
Definition set_s_ks (v : N) (r : session) : session := mkSession (s_id r) (s_use_psk r) (s_mut_auth r) (s_state r) (s_hash r) (s_dhe r) (s_aead r) v (s_dhe_secret r) (s_hs_root r) (s_master r) (s_hs r) (s_app r) (s_backup r) (s_seq_count r) (s_max_random r) (s_psk_hint r) (s_msg_a r) (s_f_init r) (s_rsp_hash r) (s_req_hash r) (s_th r) (s_l1l2 r) (s_slot r) (s_heartbeat r) (s_secver r).
Definition set_s_dhe_secret (v : bytes) (r : session) : session := mkSession (s_id r) (s_use_psk r) (s_mut_auth r) (s_state r) (s_hash r) (s_dhe r) (s_aead r) (s_ks r) v (s_hs_root r) (s_master r) (s_hs r) (s_app r) (s_backup r) (s_seq_count r) (s_max_random r) (s_psk_hint r) (s_msg_a r) (s_f_init r) (s_rsp_hash r) (s_req_hash r) (s_th r) (s_l1l2 r) (s_slot r) (s_heartbeat r) (s_secver r).
Definition set_s_hs_root (v : bytes) (r : session) : session := mkSession (s_id r) (s_use_psk r) (s_mut_auth r) (s_state r) (s_hash r) (s_dhe r) (s_aead r) (s_ks r) (s_dhe_secret r) v (s_master r) (s_hs r) (s_app r) (s_backup r) (s_seq_count r) (s_max_random r) (s_psk_hint r) (s_msg_a r) (s_f_init r) (s_rsp_hash r) (s_req_hash r) (s_th r) (s_l1l2 r) (s_slot r) (s_heartbeat r) (s_secver r).
Definition set_s_master (v : bytes) (r : session) : session := mkSession (s_id r) (s_use_psk r) (s_mut_auth r) (s_state r) (s_hash r) (s_dhe r) (s_aead r) (s_ks r) (s_dhe_secret r) (s_hs_root r) v (s_hs r) (s_app r) (s_backup r) (s_seq_count r) (s_max_random r) (s_psk_hint r) (s_msg_a r) (s_f_init r) (s_rsp_hash r) (s_req_hash r) (s_th r) (s_l1l2 r) (s_slot r) (s_heartbeat r) (s_secver r).
Definition set_s_hs (v : hs_secret) (r : session) : session := mkSession (s_id r) (s_use_psk r) (s_mut_auth r) (s_state r) (s_hash r) (s_dhe r) (s_aead r) (s_ks r) (s_dhe_secret r) (s_hs_root r) (s_master r) v (s_app r) (s_backup r) (s_seq_count r) (s_max_random r) (s_psk_hint r) (s_msg_a r) (s_f_init r) (s_rsp_hash r) (s_req_hash r) (s_th r) (s_l1l2 r) (s_slot r) (s_heartbeat r) (s_secver r).
Definition set_s_app (v : app_secret) (r : session) : session := mkSession (s_id r) (s_use_psk r) (s_mut_auth r) (s_state r) (s_hash r) (s_dhe r) (s_aead r) (s_ks r) (s_dhe_secret r) (s_hs_root r) (s_master r) (s_hs r) v (s_backup r) (s_seq_count r) (s_max_random r) (s_psk_hint r) (s_msg_a r) (s_f_init r) (s_rsp_hash r) (s_req_hash r) (s_th r) (s_l1l2 r) (s_slot r) (s_heartbeat r) (s_secver r).
Definition set_s_backup (v : app_secret) (r : session) : session := mkSession (s_id r) (s_use_psk r) (s_mut_auth r) (s_state r) (s_hash r) (s_dhe r) (s_aead r) (s_ks r) (s_dhe_secret r) (s_hs_root r) (s_master r) (s_hs r) (s_app r) v (s_seq_count r) (s_max_random r) (s_psk_hint r) (s_msg_a r) (s_f_init r) (s_rsp_hash r) (s_req_hash r) (s_th r) (s_l1l2 r) (s_slot r) (s_heartbeat r) (s_secver r).
Definition set_s_seq_count (v : N) (r : session) : session := mkSession (s_id r) (s_use_psk r) (s_mut_auth r) (s_state r) (s_hash r) (s_dhe r) (s_aead r) (s_ks r) (s_dhe_secret r) (s_hs_root r) (s_master r) (s_hs r) (s_app r) (s_backup r) v (s_max_random r) (s_psk_hint r) (s_msg_a r) (s_f_init r) (s_rsp_hash r) (s_req_hash r) (s_th r) (s_l1l2 r) (s_slot r) (s_heartbeat r) (s_secver r).
Definition set_s_max_random (v : N) (r : session) : session := mkSession (s_id r) (s_use_psk r) (s_mut_auth r) (s_state r) (s_hash r) (s_dhe r) (s_aead r) (s_ks r) (s_dhe_secret r) (s_hs_root r) (s_master r) (s_hs r) (s_app r) (s_backup r) (s_seq_count r) v (s_psk_hint r) (s_msg_a r) (s_f_init r) (s_rsp_hash r) (s_req_hash r) (s_th r) (s_l1l2 r) (s_slot r) (s_heartbeat r) (s_secver r).
Definition set_s_psk_hint (v : option bytes) (r : session) : session := mkSession (s_id r) (s_use_psk r) (s_mut_auth r) (s_state r) (s_hash r) (s_dhe r) (s_aead r) (s_ks r) (s_dhe_secret r) (s_hs_root r) (s_master r) (s_hs r) (s_app r) (s_backup r) (s_seq_count r) (s_max_random r) v (s_msg_a r) (s_f_init r) (s_rsp_hash r) (s_req_hash r) (s_th r) (s_l1l2 r) (s_slot r) (s_heartbeat r) (s_secver r).
Definition set_s_msg_a (v : bytes) (r : session) : session := mkSession (s_id r) (s_use_psk r) (s_mut_auth r) (s_state r) (s_hash r) (s_dhe r) (s_aead r) (s_ks r) (s_dhe_secret r) (s_hs_root r) (s_master r) (s_hs r) (s_app r) (s_backup r) (s_seq_count r) (s_max_random r) (s_psk_hint r) v (s_f_init r) (s_rsp_hash r) (s_req_hash r) (s_th r) (s_l1l2 r) (s_slot r) (s_heartbeat r) (s_secver r).
Definition set_s_f_init (v : bool) (r : session) : session := mkSession (s_id r) (s_use_psk r) (s_mut_auth r) (s_state r) (s_hash r) (s_dhe r) (s_aead r) (s_ks r) (s_dhe_secret r) (s_hs_root r) (s_master r) (s_hs r) (s_app r) (s_backup r) (s_seq_count r) (s_max_random r) (s_psk_hint r) (s_msg_a r) v (s_rsp_hash r) (s_req_hash r) (s_th r) (s_l1l2 r) (s_slot r) (s_heartbeat r) (s_secver r).
Definition set_s_rsp_hash (v : option bytes) (r : session) : session := mkSession (s_id r) (s_use_psk r) (s_mut_auth r) (s_state r) (s_hash r) (s_dhe r) (s_aead r) (s_ks r) (s_dhe_secret r) (s_hs_root r) (s_master r) (s_hs r) (s_app r) (s_backup r) (s_seq_count r) (s_max_random r) (s_psk_hint r) (s_msg_a r) (s_f_init r) v (s_req_hash r) (s_th r) (s_l1l2 r) (s_slot r) (s_heartbeat r) (s_secver r).
Definition set_s_req_hash (v : option bytes) (r : session) : session := mkSession (s_id r) (s_use_psk r) (s_mut_auth r) (s_state r) (s_hash r) (s_dhe r) (s_aead r) (s_ks r) (s_dhe_secret r) (s_hs_root r) (s_master r) (s_hs r) (s_app r) (s_backup r) (s_seq_count r) (s_max_random r) (s_psk_hint r) (s_msg_a r) (s_f_init r) (s_rsp_hash r) v (s_th r) (s_l1l2 r) (s_slot r) (s_heartbeat r) (s_secver r).
Definition set_s_th (v : option bytes) (r : session) : session := mkSession (s_id r) (s_use_psk r) (s_mut_auth r) (s_state r) (s_hash r) (s_dhe r) (s_aead r) (s_ks r) (s_dhe_secret r) (s_hs_root r) (s_master r) (s_hs r) (s_app r) (s_backup r) (s_seq_count r) (s_max_random r) (s_psk_hint r) (s_msg_a r) (s_f_init r) (s_rsp_hash r) (s_req_hash r) v (s_l1l2 r) (s_slot r) (s_heartbeat r) (s_secver r).
Definition set_s_l1l2 (v : option bytes) (r : session) : session := mkSession (s_id r) (s_use_psk r) (s_mut_auth r) (s_state r) (s_hash r) (s_dhe r) (s_aead r) (s_ks r) (s_dhe_secret r) (s_hs_root r) (s_master r) (s_hs r) (s_app r) (s_backup r) (s_seq_count r) (s_max_random r) (s_psk_hint r) (s_msg_a r) (s_f_init r) (s_rsp_hash r) (s_req_hash r) (s_th r) v (s_slot r) (s_heartbeat r) (s_secver r).
Definition set_s_slot (v : N) (r : session) : session := mkSession (s_id r) (s_use_psk r) (s_mut_auth r) (s_state r) (s_hash r) (s_dhe r) (s_aead r) (s_ks r) (s_dhe_secret r) (s_hs_root r) (s_master r) (s_hs r) (s_app r) (s_backup r) (s_seq_count r) (s_max_random r) (s_psk_hint r) (s_msg_a r) (s_f_init r) (s_rsp_hash r) (s_req_hash r) (s_th r) (s_l1l2 r) v (s_heartbeat r) (s_secver r).
Definition set_s_heartbeat (v : N) (r : session) : session := mkSession (s_id r) (s_use_psk r) (s_mut_auth r) (s_state r) (s_hash r) (s_dhe r) (s_aead r) (s_ks r) (s_dhe_secret r) (s_hs_root r) (s_master r) (s_hs r) (s_app r) (s_backup r) (s_seq_count r) (s_max_random r) (s_psk_hint r) (s_msg_a r) (s_f_init r) (s_rsp_hash r) (s_req_hash r) (s_th r) (s_l1l2 r) (s_slot r) v (s_secver r).
Definition set_s_secver (v : N) (r : session) : session := mkSession (s_id r) (s_use_psk r) (s_mut_auth r) (s_state r) (s_hash r) (s_dhe r) (s_aead r) (s_ks r) (s_dhe_secret r) (s_hs_root r) (s_master r) (s_hs r) (s_app r) (s_backup r) (s_seq_count r) (s_max_random r) (s_psk_hint r) (s_msg_a r) (s_f_init r) (s_rsp_hash r) (s_req_hash r) (s_th r) (s_l1l2 r) (s_slot r) (s_heartbeat r) v.

(** SpdmSession::new — session.rs:139-157 *)
Definition session_new : session :=
  mkSession 0 false 0 SNotStarted 0 0 0 0 [] [] [] hs_default app_default app_default
            0 0 None [] false None None None None 0 0 0x11.

(** set_default — session.rs:175-190: everything except slot_id *)
Definition session_set_default (s : session) : session := set_s_slot (s_slot s) session_new.

(** setup — session.rs:196-204 *)
Definition session_setup (id : N) : st session unit :=
  fun s => if s_id s =? 0 then (Ok tt, set_s_id id (session_set_default s)) else (Panic, s).
(** teardown — session.rs:206-213 *)
Definition session_teardown (id : N) : st session unit :=
  fun s => if s_id s =? id then (Ok tt, session_set_default s) else (Panic, s).

(** set_crypto_param — session.rs:274-286 *)
Definition set_crypto_param (hash dhe aead ks : N) (s : session) : session :=
  set_s_ks ks (set_s_aead aead (set_s_dhe dhe (set_s_hash hash s))).
(** set_transport_param — session.rs:288-291 *)
Definition set_transport_param (seq_count max_random : N) (s : session) : session :=
  set_s_max_random max_random (set_s_seq_count seq_count s).

(** set_dhe_secret — session.rs:229-268 *)
Definition set_dhe_secret (cr : crypto) (v : N) (dhe : bytes) : st session unit :=
  (smod (set_s_dhe_secret dhe) ;;;
   s <-- sget ;;
   hs <-- sof (derive_handshake_secret cr (s_hash s) dhe) ;;
   ms <-- sof (derive_master_secret cr v (s_hash s) hs) ;;
   smod (fun s => set_s_master ms (set_s_hs_root hs s)))%st.

Definition mod_hs (f : hs_secret -> hs_secret) (s : session) : session := set_s_hs (f (s_hs s)) s.
Definition mod_app (f : app_secret -> app_secret) (s : session) : session := set_s_app (f (s_app s)) s.
Definition mod_backup (f : app_secret -> app_secret) (s : session) : session := set_s_backup (f (s_backup s)) s.
(** the two assignments [x.encryption_key = res.0; x.salt = res.1]; the sequence number stays *)
Definition rekey (k : bytes * bytes) (d : dir) : dir := mkDir (fst k) (snd k) (d_seq d).

(** generate_handshake_secret — session.rs:315-450 *)
Definition generate_handshake_secret (cr : crypto) (v : N) (th1 : bytes) : st session unit :=
  (s <-- sget ;;
   rq <-- sof (derive_hs_direction cr LBL_REQ_HS (s_use_psk s) v (s_hash s) (s_hs_root s) (s_psk_hint s) th1) ;;
   smod (mod_hs (set_h_req_secret rq)) ;;;
   rs <-- sof (derive_hs_direction cr LBL_RSP_HS (s_use_psk s) v (s_hash s) (s_hs_root s) (s_psk_hint s) th1) ;;
   smod (mod_hs (set_h_rsp_secret rs)) ;;;
   fq <-- sof (derive_finished cr v (s_hash s) rq) ;;
   smod (mod_hs (set_h_req_fin fq)) ;;;
   fs <-- sof (derive_finished cr v (s_hash s) rs) ;;
   smod (mod_hs (set_h_rsp_fin fs)) ;;;
   kq <-- sof (derive_aead_key_iv cr v (s_hash s) (s_aead s) rq) ;;
   smod (mod_hs (fun h => set_h_req_dir (rekey kq (h_req_dir h)) h)) ;;;
   kr <-- sof (derive_aead_key_iv cr v (s_hash s) (s_aead s) rs) ;;
   smod (mod_hs (fun h => set_h_rsp_dir (rekey kr (h_rsp_dir h)) h)))%st.

(** generate_data_secret — session.rs:452-570.  Sequence numbers are not reset. *)
Definition generate_data_secret (cr : crypto) (v : N) (th2 : bytes) : st session unit :=
  (s <-- sget ;;
   rq <-- sof (derive_data_direction cr LBL_REQ_APP (s_use_psk s) v (s_hash s) (s_master s) (s_psk_hint s) th2) ;;
   smod (mod_app (set_a_req_secret rq)) ;;;
   rs <-- sof (derive_data_direction cr LBL_RSP_APP (s_use_psk s) v (s_hash s) (s_master s) (s_psk_hint s) th2) ;;
   smod (mod_app (set_a_rsp_secret rs)) ;;;
   kq <-- sof (derive_aead_key_iv cr v (s_hash s) (s_aead s) rq) ;;
   smod (mod_app (fun a => set_a_req_dir (rekey kq (a_req_dir a)) a)) ;;;
   kr <-- sof (derive_aead_key_iv cr v (s_hash s) (s_aead s) rs) ;;
   smod (mod_app (fun a => set_a_rsp_dir (rekey kr (a_rsp_dir a)) a)) ;;;
   ex <-- sof (derive_export cr (s_use_psk s) v (s_hash s) (s_master s) (s_psk_hint s)) ;;
   smod (mod_app (set_a_export ex)))%st.

(** the request half of create_data_secret_update — session.rs:584-630 *)
Definition update_req (cr : crypto) (v : N) : st session unit :=
  (smod (fun s => mod_backup (set_a_req_secret (a_req_secret (s_app s))) s) ;;;
   smod (fun s => mod_backup (set_a_req_dir (a_req_dir (s_app s))) s) ;;;
   s <-- sget ;;
   us <-- sof (derive_update cr v (s_hash s) (a_req_secret (s_app s))) ;;
   smod (mod_app (set_a_req_secret us)) ;;;
   k <-- sof (derive_aead_key_iv cr v (s_hash s) (s_aead s) us) ;;
   smod (mod_app (fun a => set_a_req_dir (set_d_seq 0 (rekey k (a_req_dir a))) a)))%st.
(** the response half — session.rs:632-679 *)
Definition update_rsp (cr : crypto) (v : N) : st session unit :=
  (smod (fun s => mod_backup (set_a_rsp_secret (a_rsp_secret (s_app s))) s) ;;;
   smod (fun s => mod_backup (set_a_rsp_dir (a_rsp_dir (s_app s))) s) ;;;
   s <-- sget ;;
   us <-- sof (derive_update cr v (s_hash s) (a_rsp_secret (s_app s))) ;;
   smod (mod_app (set_a_rsp_secret us)) ;;;
   k <-- sof (derive_aead_key_iv cr v (s_hash s) (s_aead s) us) ;;
   smod (mod_app (fun a => set_a_rsp_dir (set_d_seq 0 (rekey k (a_rsp_dir a))) a)))%st.
(** create_data_secret_update — session.rs:572-681 *)
Definition create_data_secret_update (cr : crypto) (v : N) (upd_req upd_rsp : bool) : st session unit :=
  (swhen upd_req (update_req cr v) ;;; swhen upd_rsp (update_rsp cr v))%st.

(** activate_data_secret_update — session.rs:683-721 *)
Definition activate_data_secret_update (upd_req upd_rsp use_new : bool) (s : session) : session :=
  if negb use_new then
    let s1 := if upd_req then mod_app (fun a => set_a_req_dir (a_req_dir (s_backup s))
                                      (set_a_req_secret (a_req_secret (s_backup s)) a)) s else s in
    if upd_rsp then mod_app (fun a => set_a_rsp_dir (a_rsp_dir (s_backup s1))
                                      (set_a_rsp_secret (a_rsp_secret (s_backup s1)) a)) s1 else s1
  else
    let s1 := if upd_req then mod_backup (fun a => set_a_req_dir dir_default (set_a_req_secret [] a)) s else s in
    if upd_rsp then mod_backup (fun a => set_a_rsp_dir dir_default (set_a_rsp_secret [] a)) s1 else s1.

(** generate/verify_hmac_with_{request,response}_finished_key — session.rs:723-769 *)
Definition hmac_rsp_fin (cr : crypto) (s : session) (h : bytes) : outcome bytes :=
  orc (cr_hmac cr (s_hash s) (h_rsp_fin (s_hs s)) h).
Definition hmac_req_fin (cr : crypto) (s : session) (h : bytes) : outcome bytes :=
  orc (cr_hmac cr (s_hash s) (h_req_fin (s_hs s)) h).
Definition verify_rsp_fin (cr : crypto) (s : session) (h mac : bytes) : bool :=
  cr_hmac_verify cr (s_hash s) (h_rsp_fin (s_hs s)) h mac.
Definition verify_req_fin (cr : crypto) (s : session) (h mac : bytes) : bool :=
  cr_hmac_verify cr (s_hash s) (h_req_fin (s_hs s)) h mac.

(** ** secured messages *)
Definition U64_MAX : N := 0xFFFFFFFFFFFFFFFF.
(** SENDER_BUFFER_SIZE / RECEIVER_BUFFER_SIZE — etc/config.json *)
Definition BUFFER_SIZE : N := 4160.

(** [salt.data[i] ^= (seq >> 8i) as u8] for i in 0..8 — session.rs:946-955, 1021-1030 *)
Fixpoint xor_bytes (a b : bytes) : bytes :=
  match a, b with
  | x :: a', y :: b' => N.lxor x y :: xor_bytes a' b'
  | _, _ => a
  end.
Definition nonce_of (salt : bytes) (seq : N) : bytes := xor_bytes salt (le_bytes 8 seq).

(** encode_msg — session.rs:893-972.
    [room] is the length of secured_buffer; slicing beyond it or beyond the plaintext buffer
    panics.  u16 length arithmetic is written out: [cipher_text_size as u16 + tag_size as u16]
    panics when it overflows. *)
Definition encode_msg (cr : crypto) (s : session) (d : dir) (app : bytes) (room : N) : outcome bytes :=
  match aead_tag_size (s_aead s) with
  | None => Panic
  | Some tag =>
    let csize := len app + 2 in
    if 65535 <? csize mod 65536 + tag then Panic
    else if d_seq d =? U64_MAX then Err ST_SEQUENCE_NUMBER_OVERFLOW
    else if 8 <? s_seq_count s then Panic
    else
      let aad := le_bytes 4 (s_id s) ++ le_bytes (N.to_nat (s_seq_count s)) (d_seq d) ++
                 le_bytes 2 (csize mod 65536 + tag) in
      if (BUFFER_SIZE <? csize) || (room <? len aad + csize + tag) then Panic
      else
        obind (aead_encrypt cr (s_aead s) (d_key d) (nonce_of (d_salt d) (d_seq d)) aad
                            (le_bytes 2 (len app mod 65536) ++ app) tag)
              (fun ct => Ok (aad ++ fst ct ++ snd ct))
  end.

(** the sequence-number bytes compared one by one — session.rs:993-1003 *)
Fixpoint check_seq (n : nat) (i : N) (seq : N) (l : bytes) : pres unit :=
  match n with
  | O => POk tt l
  | S n' =>
      match l with
      | [] => PNone
      | b :: l' => if 8 <=? i then PPanic
                   else if b =? (seq / 2 ^ (8 * i)) mod 256 then check_seq n' (i + 1) seq l' else PNone
      end
  end.

(** decode_msg — session.rs:974-1060.  [room] is the length of app_buffer. *)
Definition decode_msg (cr : crypto) (s : session) (d : dir) (msg : bytes) (room : N) : outcome bytes :=
  match aead_tag_size (s_aead s) with
  | None => Panic
  | Some tag =>
    if d_seq d =? U64_MAX then Err ST_SEQUENCE_NUMBER_OVERFLOW
    else match d_u32 msg with
    | PPanic => Panic
    | PNone => Err ST_DECODE_AEAD_FAIL
    | POk id l1 =>
      if negb (id =? s_id s) then Err ST_DECODE_AEAD_FAIL
      else match check_seq (N.to_nat (s_seq_count s)) 0 (d_seq d) l1 with
      | PPanic => Panic
      | PNone => Err ST_DECODE_AEAD_FAIL
      | POk _ l2 =>
        match d_u16 l2 with
        | PPanic => Panic
        | PNone => Err ST_DECODE_AEAD_FAIL
        | POk length l3 =>
          let aad_size := 6 + s_seq_count s in
          if len msg <? length + aad_size then Err ST_DECODE_AEAD_FAIL
          else if length <? tag then Err ST_DECODE_AEAD_FAIL
          else
            let csize := length - tag in
            if BUFFER_SIZE <? csize then Panic
            else
              let aad := firstn (N.to_nat aad_size) msg in
              let cipher := firstn (N.to_nat csize) l3 in
              let tg := firstn (N.to_nat tag) (skipn (N.to_nat csize) l3) in
              obind (aead_decrypt cr (s_aead s) (d_key d) (nonce_of (d_salt d) (d_seq d)) aad cipher tg)
                (fun plain =>
                   (* the plaintext buffer is zero-filled beyond the plaintext *)
                   let app_length := le_val (firstn 2 (plain ++ [0; 0])) in
                   if len plain <? app_length + 2 then Err ST_DECODE_AEAD_FAIL
                   else if room <? app_length then Panic
                   else Ok (firstn (N.to_nat app_length) (skipn 2 plain)))
        end
      end
    end
  end.

(** the direction a message travels in: [is_requester] as passed by the caller *)
Definition get_dir (req : bool) (s : session) : dir :=
  match s_state s with
  | SHandshaking => if req then h_req_dir (s_hs s) else h_rsp_dir (s_hs s)
  | _ => if req then a_req_dir (s_app s) else a_rsp_dir (s_app s)
  end.
Definition set_dir (req : bool) (d : dir) (s : session) : session :=
  match s_state s with
  | SHandshaking => mod_hs (if req then set_h_req_dir d else set_h_rsp_dir d) s
  | _ => mod_app (if req then set_a_req_dir d else set_a_rsp_dir d) s
  end.
(** [sequence_number += 1]; the addition panics at u64::MAX *)
Definition bump (req : bool) (s : session) : option session :=
  let d := get_dir req s in
  if d_seq d =? U64_MAX then None else Some (set_dir req (set_d_seq (d_seq d + 1) d) s).

(** encode_spdm_secured_message — session.rs:795-840 *)
Definition encode_secured (cr : crypto) (req : bool) (app : bytes) (room : N) : st session bytes :=
  fun s => match s_state s with
  | SNotStarted => (Err ST_INVALID_STATE_LOCAL, s)
  | SUnknown _ => (Panic, s)
  | _ => match encode_msg cr s (get_dir req s) app room with
         | Panic => (Panic, s)
         | r => match bump req s with None => (Panic, s) | Some s' => (r, s') end
         end
  end.
(** decode_spdm_secured_message — session.rs:842-887 *)
Definition decode_secured (cr : crypto) (req : bool) (msg : bytes) (room : N) : st session bytes :=
  fun s => match s_state s with
  | SNotStarted | SUnknown _ => (Err ST_INVALID_STATE_LOCAL, s)
  | _ => match decode_msg cr s (get_dir req s) msg room with
         | Panic => (Panic, s)
         | r => match bump req s with None => (Panic, s) | Some s' => (r, s') end
         end
  end.
