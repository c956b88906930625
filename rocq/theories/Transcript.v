(** Model of the managed transcript buffers (spdmlib/src/common/mod.rs:1084-1392) and of the transcript
    functions as compiled WITHOUT the feature hashed-transcript-data; with the feature (the default) they
    are in Context.v.  No proofs here. *)
From Verif Require Import Bytes Status Codec Monad Algo Crypto KeySchedule Session Context.
Local Open Scope N_scope.

(** ** managed buffers *)
(** ManagedBufferX(usize, [u8; MAX]) — 1116-1117, and the nine twins that differ in MAX *)
Record mbuf := mkMb { mb_used : nat; mb_array : bytes }.
(** Default — 1137-1141 *)
Definition mb_new (cap : nat) : mbuf := mkMb 0 (repeat 0 cap).
(** as_ref — 1131-1135 *)
Definition mb_ref (b : mbuf) : bytes := firstn (mb_used b) (mb_array b).
(** append_message — 1119-1125; a writer over the free part.  [used] never passes the end of the array
    (C15_buffer_exact), so the slice [used..] exists *)
Definition mb_append (m : bytes) (b : mbuf) : option nat * mbuf :=
  match w_extend (w_init (skipn (mb_used b) (mb_array b))) m with
  | None => (None, b)
  | Some w => (Some (w_used w), mkMb (mb_used b + length m) (firstn (mb_used b) (mb_array b) ++ w_buf w))
  end.
(** reset_message — 1126-1128 *)
Definition mb_reset (b : mbuf) : mbuf := mkMb 0 (mb_array b).
(** the capacities — 1084-1114, with MAX_SPDM_VERSION_COUNT 3, hash 64, slots 8, chain 4096, asym key 512,
    opaque 1024, nonce 32, measurement record 4000, DHE key 96 *)
(** MAX_SPDM_CERT_CHAIN_DATA_SIZE — etc/config.json *)
Definition CAP_CHAIN : nat := N.to_nat 4096.
Definition CAP_A : nat := 150 + 2 * 3.
Definition CAP_B : nat := 24 + 64 * 8 + CAP_CHAIN.
Definition CAP_C : nat := 78 + 64 * 2 + 512 + 1024.
Definition CAP_M : nat := 47 + 32 + N.to_nat 4000 + 512 + 1024.
Definition CAP_K : nat := 84 + 96 * 2 + 64 * 2 + 512 + 1024 * 2.
Definition CAP_F : nat := 8 + 64 * 2 + 512.
Definition CAP_M1M2 : nat := CAP_A + CAP_B + CAP_C.
Definition CAP_L1L2 : nat := CAP_A + CAP_M.
Definition CAP_TH : nat := CAP_A + CAP_CHAIN + CAP_K + CAP_CHAIN + CAP_F.
(** [append_message(..).ok_or(SPDM_STATUS_BUFFER_FULL)?] *)
Definition mb_push (m : bytes) (b : mbuf) : outcome mbuf :=
  match mb_append m b with (Some _, b') => Ok b' | (None, _) => Err ST_BUFFER_FULL end.

(** ** the connection's buffers without hashed-transcript-data — SpdmRuntimeInfo 1405-1419 *)
Record plain_rt := mkPrt { pr_a : mbuf; pr_b : mbuf; pr_c : mbuf; pr_m : mbuf }.
Definition plain_new : plain_rt := mkPrt (mb_new CAP_A) (mb_new CAP_B) (mb_new CAP_C) (mb_new CAP_M).
(** append_message_a/b/c/m(None, ..) — 281-287, 292-299, 336-343, 380-388: a refused message leaves the
    buffer as it was *)
Definition p_append_a (m : bytes) : st plain_rt unit := fun p =>
  match mb_push m (pr_a p) with Ok b => (Ok tt, mkPrt b (pr_b p) (pr_c p) (pr_m p)) | Err e => (Err e, p) | Panic => (Panic, p) end.
Definition p_append_b (m : bytes) : st plain_rt unit := fun p =>
  match mb_push m (pr_b p) with Ok b => (Ok tt, mkPrt (pr_a p) b (pr_c p) (pr_m p)) | Err e => (Err e, p) | Panic => (Panic, p) end.
Definition p_append_c (m : bytes) : st plain_rt unit := fun p =>
  match mb_push m (pr_c p) with Ok b => (Ok tt, mkPrt (pr_a p) (pr_b p) b (pr_m p)) | Err e => (Err e, p) | Panic => (Panic, p) end.
Definition p_append_m (m : bytes) : st plain_rt unit := fun p =>
  match mb_push m (pr_m p) with Ok b => (Ok tt, mkPrt (pr_a p) (pr_b p) (pr_c p) b) | Err e => (Err e, p) | Panic => (Panic, p) end.
(** reset_message_a/b/c/m — 288-290, 324-328, 368-372, 463-467 *)
Definition p_reset_a (p : plain_rt) : plain_rt := mkPrt (mb_reset (pr_a p)) (pr_b p) (pr_c p) (pr_m p).
Definition p_reset_b (p : plain_rt) : plain_rt := mkPrt (pr_a p) (mb_reset (pr_b p)) (pr_c p) (pr_m p).
Definition p_reset_c (p : plain_rt) : plain_rt := mkPrt (pr_a p) (pr_b p) (mb_reset (pr_c p)) (pr_m p).
Definition p_reset_m (p : plain_rt) : plain_rt := mkPrt (pr_a p) (pr_b p) (pr_c p) (mb_reset (pr_m p)).
(** three or fewer appends into a fresh buffer, each with [?] *)
Fixpoint mb_gather (ms : list bytes) (b : mbuf) : outcome mbuf :=
  match ms with [] => Ok b | m :: r => match mb_push m b with Ok b' => mb_gather r b' | Err e => Err e | Panic => Panic end end.
Definition gathered (cap : nat) (ms : list bytes) : outcome bytes :=
  match mb_gather ms (mb_new cap) with Ok b => Ok (mb_ref b) | Err e => Err e | Panic => Panic end.
(** M1/M2 — responder/challenge_rsp.rs:230-241, requester/challenge_req.rs:213-227 (the same code) *)
Definition plain_m1m2 (p : plain_rt) : outcome bytes := gathered CAP_M1M2 [mb_ref (pr_a p); mb_ref (pr_b p); mb_ref (pr_c p)].
(** L1/L2 — responder/measurement_rsp.rs:310-343, requester/get_measurements_req.rs (the same code); [mm] is
    the message_m of the connection or of the session *)
Definition plain_l1l2 (version : N) (a mm : mbuf) : outcome bytes :=
  gathered CAP_L1L2 ((if 0x12 <=? version then [mb_ref a] else []) ++ [mb_ref mm]).

(** ** a session's buffers — session.rs:90-99 *)
Record plain_sess := mkPs { ps_k : mbuf; ps_f : mbuf }.
Definition plain_sess_new : plain_sess := mkPs (mb_new CAP_K) (mb_new CAP_F).
(** append_message_k, append_message_f — 498-505, 554-567 *)
Definition p_append_k (m : bytes) (s : plain_sess) : outcome plain_sess :=
  match mb_push m (ps_k s) with Ok b => Ok (mkPs b (ps_f s)) | Err e => Err e | Panic => Panic end.
Definition p_append_f (m : bytes) (s : plain_sess) : outcome plain_sess :=
  match mb_push m (ps_f s) with Ok b => Ok (mkPs (ps_k s) b) | Err e => Err e | Panic => Panic end.
(** reset_message_k — 540-546, as written: it empties F *)
Definition p_reset_k (s : plain_sess) : plain_sess := mkPs (ps_k s) (mb_reset (ps_f s)).
(** reset_message_f — 636-642 *)
Definition p_reset_f (s : plain_sess) : plain_sess := mkPs (ps_k s) (mb_reset (ps_f s)).
(** the hash of the chain in a slot; an index past the eight slots panics *)
Definition slot_hash (cr : crypto) (alg : N) (missing : status) (chains : list (option bytes)) (slot : N) : outcome bytes :=
  match nth_error chains (N.to_nat slot) with
  | None => Panic
  | Some None => Err missing
  | Some (Some c) => match cr_hash cr alg c with Some h => Ok h | None => Err ST_CRYPTO_ERROR end
  end.
Definition obind {A B} (o : outcome A) (f : A -> outcome B) : outcome B := match o with Ok a => f a | Err e => Err e | Panic => Panic end.
(** the body of calc_req_transcript_data and calc_rsp_transcript_data — 650-722, 724-790: they differ in where
    the two certificate chains come from and in one status *)
Definition th_data (cr : crypto) (alg : N) (use_psk mut_auth : bool) (rsp_chain mut_chain : outcome bytes) (a k : mbuf) (f : option mbuf) : outcome bytes :=
  obind (mb_push (mb_ref a) (mb_new CAP_TH)) (fun b =>
  obind (if use_psk then Ok b else obind rsp_chain (fun h => mb_push h b)) (fun b =>
  obind (mb_push (mb_ref k) b) (fun b =>
  obind (if negb use_psk && mut_auth then obind mut_chain (fun h => mb_push h b) else Ok b) (fun b =>
  obind (match f with Some f => mb_push (mb_ref f) b | None => Ok b end) (fun b => Ok (mb_ref b)))))).
(** what the two ends read besides the buffers: the hash algorithm, the own and the peer's chains, and the
    two slot numbers of the runtime info *)
Record chains := mkChains { ch_alg : N; ch_my : list (option bytes); ch_peer : list (option bytes); ch_lslot : N; ch_pslot : N }.
(** calc_req_transcript_data — 650-722 *)
Definition calc_req_data (cr : crypto) (c : chains) (use_psk : bool) (slot : N) (mut_auth : bool) (a k : mbuf) (f : option mbuf) : outcome bytes :=
  th_data cr (ch_alg c) use_psk mut_auth (slot_hash cr (ch_alg c) ST_INVALID_PARAMETER (ch_peer c) slot) (slot_hash cr (ch_alg c) ST_INVALID_PARAMETER (ch_my c) (ch_lslot c)) a k f.
(** calc_rsp_transcript_data — 724-790 *)
Definition calc_rsp_data (cr : crypto) (c : chains) (use_psk : bool) (slot : N) (mut_auth : bool) (a k : mbuf) (f : option mbuf) : outcome bytes :=
  th_data cr (ch_alg c) use_psk mut_auth (slot_hash cr (ch_alg c) ST_INVALID_STATE_LOCAL (ch_my c) slot) (slot_hash cr (ch_alg c) ST_INVALID_PARAMETER (ch_peer c) (ch_pslot c)) a k f.
(** calc_req_transcript_hash, calc_rsp_transcript_hash — 792-828 *)
Definition calc_req_hash (cr : crypto) (c : chains) (use_psk : bool) (slot : N) (mut_auth : bool) (a : mbuf) (s : plain_sess) : outcome bytes :=
  obind (calc_req_data cr c use_psk slot mut_auth a (ps_k s) (Some (ps_f s))) (fun d => orc (cr_hash cr (ch_alg c) d)).
Definition calc_rsp_hash (cr : crypto) (c : chains) (use_psk : bool) (slot : N) (mut_auth : bool) (a : mbuf) (s : plain_sess) : outcome bytes :=
  obind (calc_rsp_data cr c use_psk slot mut_auth a (ps_k s) (Some (ps_f s))) (fun d => orc (cr_hash cr (ch_alg c) d)).
(** the transcript hash the requester's FINISH is keyed with — requester/finish_req.rs:163-172, at both places
    (and 236-240, 275-279) with req_slot_id, the requester's own slot, where calc_req_transcript_data wants
    the responder's *)
Definition finish_req_hash (cr : crypto) (c : chains) (req_slot : N) (mut_auth : bool) (a : mbuf) (s : plain_sess) : outcome bytes :=
  calc_req_hash cr c false req_slot mut_auth a s.
