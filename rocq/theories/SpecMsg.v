(** Independent specification of the SPDM message formats: for each message, the
    values its fields may take ([ok_*]) and the bytes on the wire ([wire_*]).
    Only the data types of the model and its constants are used here, none of its
    encoders, decoders or checks. *)
From Coq Require Import Sorting.Sorted.
From Verif Require Import Bytes Codec Parse Algo MsgConn MsgAuth MsgSession MsgOther Message.
Local Open Scope N_scope.

Definition u8 (v : N) := v < 2 ^ 8.
Definition u16 (v : N) := v < 2 ^ 16.
Definition u24 (v : N) := v < 2 ^ 24.
Definition u32 (v : N) := v < 2 ^ 32.
(** only bits of [mask] are set *)
Definition within (mask v : N) := N.land v mask = v.
(** exactly one bit is set, and it is a bit of [mask] *)
Definition one_bit (mask v : N) := exists k, v = 2 ^ k /\ within mask v.
(** a bit of a capability word is set *)
Definition has (word flag : N) : Prop := N.land word flag = flag.

Definition version_of (c : cctx) : N := n_version (c_nego c).
Definition peer_has (c : cctx) (f : N) : Prop := has (n_rsp_cap (c_nego c)) f.
Definition req_can (c : cctx) (f : N) : Prop := has (n_req_cap (c_nego c)) f.
(** both sides negotiated the handshake in the clear *)
Definition clear_handshake (c : cctx) : bool :=
  (N.land (n_req_cap (c_nego c)) REQ_HS_CLEAR =? REQ_HS_CLEAR) &&
  (N.land (n_rsp_cap (c_nego c)) RSP_HS_CLEAR =? RSP_HS_CLEAR).

(** a size field and an array of [max] bytes, zero from the size on *)
Definition buf_ok (max : nat) (v : vbuf) : Prop :=
  exists b, length b = N.to_nat (v_size v) /\ (length b <= max)%nat /\
            v_data v = b ++ fill (max - length b) 0.
(** the meaningful bytes of such a buffer *)
Definition content (v : vbuf) : bytes := firstn (N.to_nat (v_size v)) (v_data v).
(** a zeroed buffer, what a decoder leaves in a field that is not on the wire *)
Definition absent (max : nat) (v : vbuf) : Prop := v_size v = 0 /\ v_data v = fill max 0.

Definition digest_ok (c : cctx) (v : vbuf) : Prop :=
  buf_ok 64 v /\ hash_size (n_hash (c_nego c)) = Some (v_size v).
Definition sig_ok (c : cctx) (v : vbuf) : Prop :=
  buf_ok 512 v /\ asym_size (n_asym (c_nego c)) = Some (v_size v).
Definition dhe_ok (c : cctx) (v : vbuf) : Prop :=
  buf_ok 96 v /\ dhe_size (n_dhe (c_nego c)) = Some (v_size v).
Definition opaque_ok (v : vbuf) : Prop := buf_ok 1024 v.
Definition wire_opaque (v : vbuf) : bytes := le_bytes 2 (v_size v) ++ content v.
Definition when (b : bool) (w : bytes) : bytes := if b then w else [].
Definition present (b : bool) (P Q : Prop) : Prop := if b then P else Q.

(** ** connection setup *)
Definition ok_version_rsp (p : version_rsp) : Prop :=
  1 <= vr_count p <= 3 /\
  exists vs, length vs = N.to_nat (vr_count p) /\
             vr_versions p = vs ++ repeat (mkVer 0 V10) (3 - length vs).
Definition wire_version_rsp (p : version_rsp) : bytes :=
  [0; 0; 0; vr_count p] ++
  flat_map (fun v => [vs_update v; vs_version v]) (firstn (N.to_nat (vr_count p)) (vr_versions p)).

(** the consistency rules for requester capability flags (SPDM 1.1/1.2 GET_CAPABILITIES) *)
Definition req_caps_consistent (version f : N) : Prop :=
  ~ has f REQ_PSK_RSVD /\
  ((has f REQ_KEY_EX \/ has f REQ_PSK) -> has f REQ_MAC) /\
  (~ has f REQ_KEY_EX -> ~ has f REQ_PSK ->
     ~ has f REQ_MAC /\ ~ has f REQ_ENCRYPT /\ ~ has f REQ_HS_CLEAR /\ ~ has f REQ_HBEAT /\ ~ has f REQ_KEY_UPD) /\
  (~ has f REQ_KEY_EX -> ~ has f REQ_HS_CLEAR) /\
  ~ (has f REQ_CERT /\ has f REQ_PUB_KEY_ID) /\
  ((has f REQ_CERT \/ has f REQ_PUB_KEY_ID) -> has f REQ_CHAL \/ has f REQ_KEY_EX) /\
  (~ has f REQ_CERT -> ~ has f REQ_PUB_KEY_ID -> ~ has f REQ_CHAL /\ ~ has f REQ_MUT_AUTH) /\
  (version = V11 -> has f REQ_MUT_AUTH -> has f REQ_ENCAP).

(** the consistency rules for responder capability flags (CAPABILITIES) *)
Definition rsp_caps_consistent (version f : N) : Prop :=
  ~ (has f RSP_MEAS_NO_SIG /\ has f RSP_MEAS_SIG) /\
  (has f RSP_MEAS_FRESH -> has f RSP_MEAS_NO_SIG \/ has f RSP_MEAS_SIG) /\
  (version < V11 ->
     (~ has f RSP_MEAS_SIG -> (has f RSP_CERT <-> has f RSP_CHAL)) /\
     (has f RSP_MEAS_SIG -> has f RSP_CERT)) /\
  (V11 <= version ->
     ~ (has f RSP_PSK_WITHOUT_CTX /\ has f RSP_PSK_WITH_CTX) /\
     ((has f RSP_KEY_EX \/ has f RSP_PSK_WITHOUT_CTX \/ has f RSP_PSK_WITH_CTX) -> has f RSP_MAC) /\
     (~ has f RSP_KEY_EX -> ~ has f RSP_PSK_WITHOUT_CTX -> ~ has f RSP_PSK_WITH_CTX ->
        ~ has f RSP_MAC /\ ~ has f RSP_ENCRYPT /\ ~ has f RSP_HS_CLEAR /\ ~ has f RSP_HBEAT /\ ~ has f RSP_KEY_UPD) /\
     (~ has f RSP_KEY_EX -> ~ has f RSP_HS_CLEAR) /\
     ~ (has f RSP_CERT /\ has f RSP_PUB_KEY_ID) /\
     ((has f RSP_CERT \/ has f RSP_PUB_KEY_ID) -> has f RSP_CHAL \/ has f RSP_KEY_EX \/ has f RSP_MEAS_SIG) /\
     (~ has f RSP_CERT -> ~ has f RSP_PUB_KEY_ID ->
        ~ has f RSP_CHAL /\ ~ has f RSP_KEY_EX /\ ~ has f RSP_MEAS_SIG /\ ~ has f RSP_MUT_AUTH)) /\
  (version = V11 -> has f RSP_MUT_AUTH -> has f RSP_ENCAP) /\
  (V12 <= version ->
     (has f RSP_ALIAS_CERT \/ has f RSP_SET_CERT -> has f RSP_CERT) /\
     (has f RSP_CSR -> has f RSP_SET_CERT) /\
     (has f RSP_CERT_INSTALL_RESET -> has f RSP_CSR \/ has f RSP_SET_CERT)).

(** DataTransferSize is at least 42 and at most MaxSPDMmsgSize (SPDM 1.2) *)
Definition sizes_consistent (dts mx : N) : Prop := 42 <= dts /\ dts <= mx /\ u32 mx.

Definition ok_get_capabilities (c : cctx) (p : capabilities) : Prop :=
  (if V11 <=? version_of c then
     u8 (cp_ct p) /\ within REQ_CAP_MASK (cp_flags p) /\ req_caps_consistent (version_of c) (cp_flags p)
   else cp_ct p = 0 /\ cp_flags p = 0) /\
  (if V12 <=? version_of c then sizes_consistent (cp_dts p) (cp_max p)
   else cp_dts p = 0 /\ cp_max p = 0).
Definition wire_get_capabilities (c : cctx) (p : capabilities) : bytes :=
  [0; 0] ++ when (V11 <=? version_of c) ([0; cp_ct p; 0; 0] ++ le_bytes 4 (cp_flags p)) ++
  when (V12 <=? version_of c) (le_bytes 4 (cp_dts p) ++ le_bytes 4 (cp_max p)).

Definition ok_capabilities (c : cctx) (p : capabilities) : Prop :=
  u8 (cp_ct p) /\ within RSP_CAP_MASK (cp_flags p) /\ rsp_caps_consistent (version_of c) (cp_flags p) /\
  (if V12 <=? version_of c then sizes_consistent (cp_dts p) (cp_max p)
   else cp_dts p = 0 /\ cp_max p = 0).
Definition wire_capabilities (c : cctx) (p : capabilities) : bytes :=
  [0; 0; 0; cp_ct p; 0; 0] ++ le_bytes 4 (cp_flags p) ++
  when (V12 <=? version_of c) (le_bytes 4 (cp_dts p) ++ le_bytes 4 (cp_max p)).

(** an algorithm structure: type 2 DHE, 3 AEAD, 4 requester signature, 5 key schedule *)
Definition alg_ok (a : alg_struct) : Prop :=
  match as_alg a with
  | ADhe b => as_type a = 2 /\ within DHE_MASK b
  | AAead b => as_type a = 3 /\ within AEAD_MASK b
  | AReqAsym b => as_type a = 4 /\ within ASYM_MASK b
  | AKeySched b => as_type a = 5 /\ within KS_MASK b
  | AUnknown => False
  end.
Definition alg_bits (a : alg) : N :=
  match a with ADhe b | AAead b | AReqAsym b | AKeySched b => b | AUnknown => 0 end.
Definition wire_alg (a : alg_struct) : bytes := [as_type a; 0x20] ++ le_bytes 2 (alg_bits (as_alg a)).
(** [count] structures with strictly increasing types, in an array of four *)
Definition alg_table_ok (good : alg_struct -> Prop) (c : cctx) (count : N) (tbl : list alg_struct) : Prop :=
  exists l, length l = N.to_nat count /\ tbl = l ++ repeat alg_struct_default (4 - length l) /\
    (version_of c < V11 -> count = 0) /\ count <= 4 /\
    Forall alg_ok l /\ StronglySorted N.lt (map as_type l) /\ Forall good l.
Definition opaque_support_ok (c : cctx) (v : N) : Prop :=
  if V12 <=? version_of c then v = 0 \/ v = OPAQUE_FMT1 else v = 0.

Definition ok_nego_algs (c : cctx) (p : nego_algs) : Prop :=
  within MSPEC_MASK (na_mspec p) /\ opaque_support_ok c (na_opaque p) /\
  within ASYM_MASK (na_asym p) /\ within HASH_MASK (na_hash p) /\
  alg_table_ok (fun _ => True) c (na_count p) (na_structs p).
Definition wire_nego_algs (p : nego_algs) : bytes :=
  [na_count p; 0] ++ le_bytes 2 (32 + 4 * na_count p) ++ [na_mspec p; na_opaque p] ++
  le_bytes 4 (na_asym p) ++ le_bytes 4 (na_hash p) ++ fill 12 0 ++ [0; 0; 0; 0] ++
  flat_map wire_alg (firstn (N.to_nat (na_count p)) (na_structs p)).

(** when the responder must have selected an algorithm of each family *)
Definition keyex_negotiated (c : cctx) := peer_has c RSP_KEY_EX /\ req_can c REQ_KEY_EX.
Definition psk_negotiated (c : cctx) :=
  (peer_has c RSP_PSK_WITHOUT_CTX \/ peer_has c RSP_PSK_WITH_CTX) /\ req_can c REQ_PSK.
Definition must_meas (c : cctx) := peer_has c RSP_MEAS_NO_SIG \/ peer_has c RSP_MEAS_SIG.
Definition must_opaque (c : cctx) :=
  V12 <= version_of c /\ (peer_has c RSP_KEY_EX \/ peer_has c RSP_PSK_WITHOUT_CTX \/ peer_has c RSP_PSK_WITH_CTX).
Definition must_asym (c : cctx) :=
  peer_has c RSP_CERT \/ peer_has c RSP_CHAL \/ peer_has c RSP_MEAS_SIG \/ keyex_negotiated c.
Definition must_hash (c : cctx) := must_asym c \/ psk_negotiated c.
(** a selection: at most one algorithm, and one of the family when mandatory *)
Definition selection (must : Prop) (mask v : N) : Prop :=
  (v = 0 /\ ~ must) \/ one_bit mask v.
Definition alg_selection (c : cctx) (a : alg_struct) : Prop :=
  match as_alg a with
  | ADhe b => selection (keyex_negotiated c) DHE_MASK b
  | AAead b => selection ((peer_has c RSP_ENCRYPT /\ req_can c REQ_ENCRYPT) \/
                          (peer_has c RSP_MAC /\ req_can c REQ_MAC)) AEAD_MASK b
  | AReqAsym b => selection (peer_has c RSP_MUT_AUTH /\ req_can c REQ_MUT_AUTH) ASYM_MASK b
  | AKeySched b => selection (keyex_negotiated c \/ psk_negotiated c) KS_MASK b
  | AUnknown => False
  end.
Definition ok_algs_rsp (c : cctx) (p : algs_rsp) : Prop :=
  selection (must_meas c) MSPEC_MASK (ar_mspec p) /\
  opaque_support_ok c (ar_opaque p) /\ (must_opaque c -> ar_opaque p = OPAQUE_FMT1) /\
  selection (must_meas c) MHASH_MASK (ar_mhash p) /\
  selection (must_asym c) ASYM_MASK (ar_asym p) /\
  selection (must_hash c) HASH_MASK (ar_hash p) /\
  alg_table_ok (alg_selection c) c (ar_count p) (ar_structs p).
Definition wire_algs_rsp (p : algs_rsp) : bytes :=
  [ar_count p; 0] ++ le_bytes 2 (36 + 4 * ar_count p) ++ [ar_mspec p; ar_opaque p] ++
  le_bytes 4 (ar_mhash p) ++ le_bytes 4 (ar_asym p) ++ le_bytes 4 (ar_hash p) ++
  fill 12 0 ++ [0; 0; 0; 0] ++
  flat_map wire_alg (firstn (N.to_nat (ar_count p)) (ar_structs p)).

(** ** authentication *)
Definition bits_set (m : N) : nat := length (filter (N.testbit m) [0;1;2;3;4;5;6;7]).
Definition ok_digests (c : cctx) (p : digests_rsp) : Prop :=
  u8 (dg_mask p) /\
  exists ds, length ds = bits_set (dg_mask p) /\ Forall (digest_ok c) ds /\
             dg_digests p = ds ++ repeat (mkV 0 (fill 64 0)) (8 - length ds).
Definition wire_digests (p : digests_rsp) : bytes :=
  [0; dg_mask p] ++ flat_map content (firstn (bits_set (dg_mask p)) (dg_digests p)).

Definition ok_get_cert (p : get_cert) : Prop := u8 (gc_slot p) /\ u16 (gc_offset p) /\ u16 (gc_length p).
Definition wire_get_cert (p : get_cert) : bytes :=
  [gc_slot p; 0] ++ le_bytes 2 (gc_offset p) ++ le_bytes 2 (gc_length p).

(** the portion length may exceed the 512-byte array; then only 512 bytes travel *)
Definition ok_cert (p : cert_rsp) : Prop :=
  u8 (cr_slot p) /\ u16 (cr_portion p) /\ u16 (cr_remainder p) /\
  exists b, length b = Nat.min (N.to_nat (cr_portion p)) 512 /\ cr_data p = b ++ fill (512 - length b) 0.
Definition wire_cert (p : cert_rsp) : bytes :=
  [cr_slot p; 0] ++ le_bytes 2 (cr_portion p) ++ le_bytes 2 (cr_remainder p) ++
  firstn (Nat.min (N.to_nat (cr_portion p)) 512) (cr_data p).

(** measurement summary hash type: 0 none; 1 TCB or 0xFF all if the responder can measure *)
Definition summary_type_ok (c : cctx) (t : N) : Prop :=
  t = 0 \/ ((t = 1 \/ t = 0xFF) /\ (peer_has c RSP_MEAS_SIG \/ peer_has c RSP_MEAS_NO_SIG)).
Definition ok_challenge (c : cctx) (p : challenge) : Prop :=
  u8 (ch_slot p) /\ summary_type_ok c (ch_hash_type p) /\ length (ch_nonce p) = 32%nat.
Definition wire_challenge (p : challenge) : bytes := [ch_slot p; ch_hash_type p] ++ ch_nonce p.

Definition ok_challenge_auth (c : cctx) (p : challenge_auth) : Prop :=
  ca_slot p < 16 /\ (ca_attr p = 0 \/ ca_attr p = 0x80) /\ u8 (ca_mask p) /\
  digest_ok c (ca_hash p) /\ length (ca_nonce p) = 32%nat /\
  present (c_need_sum c) (digest_ok c (ca_summary p)) (absent 64 (ca_summary p)) /\
  opaque_ok (ca_opaque p) /\ sig_ok c (ca_sig p).
Definition wire_challenge_auth (c : cctx) (p : challenge_auth) : bytes :=
  [ca_slot p + ca_attr p; ca_mask p] ++ content (ca_hash p) ++ ca_nonce p ++
  when (c_need_sum c) (content (ca_summary p)) ++ wire_opaque (ca_opaque p) ++ content (ca_sig p).

(** one DMTF measurement block as bytes: index, specification 1, size, type|raw bit,
    value size, value.  [raw] = raw bit stream, otherwise a digest *)
Record block := mkSBlock { b_index : N; b_type : N; b_raw : bool; b_value : bytes }.
Definition block_ok (c : cctx) (b : block) : Prop :=
  u8 (b_index b) /\ b_type b < 128 /\ len (b_value b) <= 1024 /\
  (b_raw b = false -> b_type b <> 5 /\ b_type b <> 6 /\ b_type b <> 7 /\
     n_mhash (c_nego c) <> 1 /\ mhash_size (n_mhash (c_nego c)) = Some (len (b_value b))).
(** [spec] is the measurement-specification byte; only its bit 0 is looked at *)
Definition wire_block (spec : N) (b : block) : bytes :=
  [b_index b; spec] ++ le_bytes 2 (3 + len (b_value b)) ++
  [b_type b + (if b_raw b then 128 else 0)] ++ le_bytes 2 (len (b_value b)) ++ b_value b.
(** a well-formed measurement record: [n] blocks with increasing indices from 1,
    filling the record exactly *)
Definition record_bytes_ok (c : cctx) (n : N) (data : bytes) : Prop :=
  exists bs : list (N * block),
    length bs = N.to_nat n /\ data = flat_map (fun sb => wire_block (fst sb) (snd sb)) bs /\
    Forall (fun sb => u8 (fst sb) /\ N.testbit (fst sb) 0 = true /\ block_ok c (snd sb)) bs /\
    StronglySorted N.lt (0 :: map (fun sb => b_index (snd sb)) bs).

Definition ok_mrecord (c : cctx) (m : mrecord) : Prop :=
  u8 (mr_blocks m) /\ mr_length m <= 4000 /\
  exists b, length b = N.to_nat (mr_length m) /\ mr_data m = b ++ fill (4000 - length b) 0 /\
            record_bytes_ok c (mr_blocks m) b.
Definition wire_mrecord (m : mrecord) : bytes :=
  [mr_blocks m] ++ le_bytes 3 (mr_length m) ++ firstn (N.to_nat (mr_length m)) (mr_data m).

Definition ok_get_meas (c : cctx) (p : get_meas) : Prop :=
  gm_attr p < 4 /\ u8 (gm_op p) /\ u8 (gm_slot p) /\
  (if N.testbit (gm_attr p) 0 then
     length (gm_nonce p) = 32%nat /\ (version_of c < V11 -> gm_slot p = 0)
   else gm_nonce p = fill 32 0 /\ gm_slot p = 0).
Definition wire_get_meas (c : cctx) (p : get_meas) : bytes :=
  [gm_attr p; gm_op p] ++
  when (N.testbit (gm_attr p) 0) (gm_nonce p ++ when (V11 <=? version_of c) [gm_slot p]).

Definition ok_meas (c : cctx) (p : meas_rsp) : Prop :=
  u8 (ms_number p) /\ ms_number p <> 1 /\
  ms_slot p < 16 /\ In (ms_changed p) [0; 0x10; 0x20; 0x30] /\
  (~ (V12 <= version_of c /\ c_need_sig c = true) -> ms_changed p = 0) /\
  (~ (V11 <= version_of c /\ c_need_sig c = true) -> ms_slot p = 0) /\
  ok_mrecord c (ms_record p) /\ length (ms_nonce p) = 32%nat /\ opaque_ok (ms_opaque p) /\
  present (c_need_sig c) (sig_ok c (ms_sig p)) (absent 512 (ms_sig p)).
Definition wire_meas (c : cctx) (p : meas_rsp) : bytes :=
  [ms_number p; ms_slot p + ms_changed p] ++ wire_mrecord (ms_record p) ++ ms_nonce p ++
  wire_opaque (ms_opaque p) ++ when (c_need_sig c) (content (ms_sig p)).

(** ** sessions *)
Definition ok_key_ex (c : cctx) (p : key_ex) : Prop :=
  summary_type_ok c (kx_hash_type p) /\ u8 (kx_slot p) /\ u16 (kx_session p) /\ u8 (kx_policy p) /\
  (version_of c < V12 -> kx_policy p = 0) /\
  length (kx_random p) = 32%nat /\ dhe_ok c (kx_exchange p) /\ opaque_ok (kx_opaque p).
Definition wire_key_ex (p : key_ex) : bytes :=
  [kx_hash_type p; kx_slot p] ++ le_bytes 2 (kx_session p) ++ [kx_policy p; 0] ++
  kx_random p ++ content (kx_exchange p) ++ wire_opaque (kx_opaque p).

Definition ok_key_ex_rsp (c : cctx) (p : key_ex_rsp) : Prop :=
  u8 (kr_heartbeat p) /\ u16 (kr_session p) /\ In (kr_mut_auth p) [0; 1; 2; 4] /\ u8 (kr_slot p) /\
  length (kr_random p) = 32%nat /\ dhe_ok c (kr_exchange p) /\
  present (c_need_sum c) (digest_ok c (kr_summary p)) (absent 64 (kr_summary p)) /\
  opaque_ok (kr_opaque p) /\ sig_ok c (kr_sig p) /\
  present (clear_handshake c) (absent 64 (kr_verify p)) (digest_ok c (kr_verify p)).
Definition wire_key_ex_rsp (c : cctx) (p : key_ex_rsp) : bytes :=
  [kr_heartbeat p; 0] ++ le_bytes 2 (kr_session p) ++ [kr_mut_auth p; kr_slot p] ++ kr_random p ++
  content (kr_exchange p) ++ when (c_need_sum c) (content (kr_summary p)) ++
  wire_opaque (kr_opaque p) ++ content (kr_sig p) ++
  when (negb (clear_handshake c)) (content (kr_verify p)).

Definition ok_finish (c : cctx) (p : finish) : Prop :=
  (fi_attr p = 0 /\ absent 512 (fi_sig p) \/ fi_attr p = 1 /\ sig_ok c (fi_sig p)) /\
  u8 (fi_slot p) /\ digest_ok c (fi_verify p).
Definition wire_finish (p : finish) : bytes :=
  [fi_attr p; fi_slot p] ++ content (fi_sig p) ++ content (fi_verify p).
Definition ok_finish_rsp (c : cctx) (v : vbuf) : Prop :=
  present (clear_handshake c) (digest_ok c v) (absent 64 v).
Definition wire_finish_rsp (v : vbuf) : bytes := [0; 0] ++ content v.

Definition ok_psk_ex (c : cctx) (p : psk_ex) : Prop :=
  summary_type_ok c (px_hash_type p) /\ u16 (px_session p) /\
  buf_ok 32 (px_hint p) /\ buf_ok 64 (px_context p) /\ opaque_ok (px_opaque p).
Definition wire_psk_ex (p : psk_ex) : bytes :=
  [px_hash_type p; 0] ++ le_bytes 2 (px_session p) ++
  le_bytes 2 (v_size (px_hint p)) ++ le_bytes 2 (v_size (px_context p)) ++ le_bytes 2 (v_size (px_opaque p)) ++
  content (px_hint p) ++ content (px_context p) ++ content (px_opaque p).
Definition ok_psk_ex_rsp (c : cctx) (p : psk_ex_rsp) : Prop :=
  u8 (pr_heartbeat p) /\ u16 (pr_session p) /\
  present (c_need_sum c) (digest_ok c (pr_summary p)) (absent 64 (pr_summary p)) /\
  buf_ok 64 (pr_context p) /\
  (v_size (pr_context p) = 0 <-> peer_has c RSP_PSK_WITHOUT_CTX) /\
  opaque_ok (pr_opaque p) /\ digest_ok c (pr_verify p).
Definition wire_psk_ex_rsp (c : cctx) (p : psk_ex_rsp) : bytes :=
  [pr_heartbeat p; 0] ++ le_bytes 2 (pr_session p) ++ [0; 0] ++
  le_bytes 2 (v_size (pr_context p)) ++ le_bytes 2 (v_size (pr_opaque p)) ++
  when (c_need_sum c) (content (pr_summary p)) ++ content (pr_context p) ++
  content (pr_opaque p) ++ content (pr_verify p).
Definition wire_psk_finish (v : vbuf) : bytes := [0; 0] ++ content v.

Definition ok_key_update (p : key_update) : Prop := In (ku_op p) [1; 2; 3] /\ u8 (ku_tag p).
Definition wire_key_update (p : key_update) : bytes := [ku_op p; ku_tag p].
Definition ok_end_session (a : N) : Prop := a = 0 \/ a = 1.
Definition wire_end_session (a : N) : bytes := [a; 0].

(** ** errors, vendor-defined, encapsulated *)
Definition ok_error (p : error_rsp) : Prop :=
  u8 (er_code p) /\ u8 (er_data p) /\
  match er_ext p with
  | XNotReady q => er_code p = 0x42 /\ u8 (nr_exponent q) /\ u8 (nr_request q) /\ u8 (nr_token q) /\ u8 (nr_rdtm q)
  | XVendor v => er_code p = 0xFF /\ buf_ok 32 v
  | XNone => er_code p <> 0x42 /\ er_code p <> 0xFF
  end.
Definition wire_error (p : error_rsp) : bytes :=
  [er_code p; er_data p] ++
  match er_ext p with
  | XNotReady q => [nr_exponent q; nr_request q; nr_token q; nr_rdtm q]
  | XVendor v => content v
  | XNone => []
  end.
(** as for certificates, a payload length above the array travels truncated *)
Definition ok_vendor (p : vendor_msg) : Prop :=
  u16 (vd_standard p) /\ v_size (vd_id p) <= 255 /\ buf_ok 255 (vd_id p) /\ u16 (v_size (vd_payload p)) /\
  exists b, length b = Nat.min (N.to_nat (v_size (vd_payload p))) 4087 /\
            v_data (vd_payload p) = b ++ fill (4087 - length b) 0.
Definition wire_vendor (p : vendor_msg) : bytes :=
  [0; 0] ++ le_bytes 2 (vd_standard p) ++ [v_size (vd_id p)] ++ content (vd_id p) ++
  le_bytes 2 (v_size (vd_payload p)) ++ content (vd_payload p).
Definition ok_encap_ack (c : cctx) (p : encap_ack) : Prop :=
  u8 (ek_id p) /\ u8 (ek_type p) /\ u8 (ek_ack_id p) /\ (version_of c < V12 -> ek_ack_id p = 0).
Definition wire_encap_ack (c : cctx) (p : encap_ack) : bytes :=
  [ek_id p; ek_type p] ++ when (V12 <=? version_of c) [ek_ack_id p; 0; 0; 0].

(** ** all payloads *)
Definition ok_payload (c : cctx) (p : payload) : Prop :=
  match p with
  | PGeneral a b => a = 0 /\ b = 0
  | PVersion p => ok_version_rsp p
  | PGetCapabilities p => ok_get_capabilities c p
  | PCapabilities p => ok_capabilities c p
  | PNegoAlgs p => ok_nego_algs c p
  | PAlgs p => ok_algs_rsp c p
  | PDigests p => ok_digests c p
  | PGetCert p => ok_get_cert p
  | PCert p => ok_cert p
  | PChallenge p => ok_challenge c p
  | PChallengeAuth p => ok_challenge_auth c p
  | PGetMeas p => ok_get_meas c p
  | PMeas p => ok_meas c p
  | PKeyEx p => ok_key_ex c p
  | PKeyExRsp p => ok_key_ex_rsp c p
  | PFinish p => ok_finish c p
  | PFinishRsp v => ok_finish_rsp c v
  | PPskEx p => ok_psk_ex c p
  | PPskExRsp p => ok_psk_ex_rsp c p
  | PPskFinish v => digest_ok c v
  | PKeyUpdate p | PKeyUpdateAck p => ok_key_update p
  | PEndSession a => ok_end_session a
  | PEncapReq i | PDeliverEncap i => u8 i
  | PEncapAck p => ok_encap_ack c p
  | PError p => ok_error p
  | PVendorReq p | PVendorRsp p => ok_vendor p
  | PGetVersion | PGetDigests | PPskFinishRsp | PHeartbeat | PHeartbeatAck | PEndSessionAck | PGetEncap => True
  end.
Definition wire_payload (c : cctx) (p : payload) : bytes :=
  match p with
  | PVersion p => wire_version_rsp p
  | PGetCapabilities p => wire_get_capabilities c p
  | PCapabilities p => wire_capabilities c p
  | PNegoAlgs p => wire_nego_algs p
  | PAlgs p => wire_algs_rsp p
  | PDigests p => wire_digests p
  | PGetCert p => wire_get_cert p
  | PCert p => wire_cert p
  | PChallenge p => wire_challenge p
  | PChallengeAuth p => wire_challenge_auth c p
  | PGetMeas p => wire_get_meas c p
  | PMeas p => wire_meas c p
  | PKeyEx p => wire_key_ex p
  | PKeyExRsp p => wire_key_ex_rsp c p
  | PFinish p => wire_finish p
  | PFinishRsp v => wire_finish_rsp v
  | PPskEx p => wire_psk_ex p
  | PPskExRsp p => wire_psk_ex_rsp c p
  | PPskFinish v => wire_psk_finish v
  | PKeyUpdate p | PKeyUpdateAck p => wire_key_update p
  | PEndSession a => wire_end_session a
  | PEncapReq i | PDeliverEncap i => [i; 0]
  | PEncapAck p => wire_encap_ack c p
  | PError p => wire_error p
  | PVendorReq p | PVendorRsp p => wire_vendor p
  | PGeneral _ _ | PGetVersion | PGetDigests | PPskFinishRsp | PHeartbeat | PHeartbeatAck
  | PEndSessionAck | PGetEncap => [0; 0]
  end.
(** the request/response code that announces each payload; [None]: not decoded by
    SpdmMessage::read (general, encapsulated and vendor-defined payloads have their
    own decoders) *)
Definition code_of (p : payload) : option N :=
  match p with
  | PGetVersion => Some 0x84 | PVersion _ => Some 0x04
  | PGetCapabilities _ => Some 0xE1 | PCapabilities _ => Some 0x61
  | PNegoAlgs _ => Some 0xE3 | PAlgs _ => Some 0x63
  | PGetDigests => Some 0x81 | PDigests _ => Some 0x01
  | PGetCert _ => Some 0x82 | PCert _ => Some 0x02
  | PChallenge _ => Some 0x83 | PChallengeAuth _ => Some 0x03
  | PGetMeas _ => Some 0xE0 | PMeas _ => Some 0x60
  | PKeyEx _ => Some 0xE4 | PKeyExRsp _ => Some 0x64
  | PFinish _ => Some 0xE5 | PFinishRsp _ => Some 0x65
  | PPskEx _ => Some 0xE6 | PPskExRsp _ => Some 0x66
  | PPskFinish _ => Some 0xE7 | PPskFinishRsp => Some 0x67
  | PHeartbeat => Some 0xE8 | PHeartbeatAck => Some 0x68
  | PKeyUpdate _ => Some 0xE9 | PKeyUpdateAck _ => Some 0x69
  | PEndSession _ => Some 0xEC | PEndSessionAck => Some 0x6C
  | PError _ => Some 0x7F
  | PGeneral _ _ | PGetEncap | PEncapReq _ | PDeliverEncap _ | PEncapAck _ | PVendorReq _ | PVendorRsp _ => None
  end.

(** ** what it means for an encoder to produce exactly [w]: into any Writer with room,
    it appends [w], touches nothing else and reports the size; without room it fails,
    having appended a strict prefix *)
Definition encodes (e : enc) (w : bytes) : Prop :=
  forall wr, (w_offs wr <= length (w_buf wr))%nat ->
    ((length w <= w_left wr)%nat ->
       xemit e wr 0 = XOk (mkWriter (firstn (w_offs wr) (w_buf wr) ++ w ++
                                     skipn (w_offs wr + length w) (w_buf wr))
                                    (w_offs wr + length w)) (len w)) /\
    ((w_left wr < length w)%nat ->
       exists done todo, w = done ++ todo /\ todo <> [] /\
       xemit e wr 0 = XErr (mkWriter (firstn (w_offs wr) (w_buf wr) ++ done ++
                                      skipn (w_offs wr + length done) (w_buf wr))
                                     (w_offs wr + length done))).
(** ... and for a decoder to give [a] back, leaving exactly what follows *)
Definition decodes {A} (d : dec A) (w : bytes) (a : A) : Prop := forall rest, d (w ++ rest) = POk a rest.
Definition round_trips {A} (e : enc) (d : dec A) (w : bytes) (a : A) : Prop := encodes e w /\ decodes d w a.

(** ** algorithm selection (C17): the preference orders, most preferred first *)
Inductive family := FMeasSpec | FAsym | FHash | FDhe | FAead | FReqAsym | FKeySched.
Definition preference (f : family) : list N :=
  match f with
  | FMeasSpec => [1]                      (* DMTF *)
  | FAsym | FReqAsym => [0x80; 0x10;      (* ECDSA P384, P256 *)
      0x40; 0x8; 0x2;                     (* RSAPSS 4096, 3072, 2048 *)
      0x20; 0x4; 0x1]                     (* RSASSA 4096, 3072, 2048 *)
  | FHash => [4; 2; 1]                    (* SHA-512, 384, 256 *)
  | FDhe => [0x10; 0x8]                   (* SECP384R1, 256R1 *)
  | FAead => [2; 1; 4]                    (* AES-256-GCM, AES-128-GCM, CHACHA20-POLY1305 *)
  | FKeySched => [1]                      (* SPDM *)
  end.
Definition family_mask (f : family) : N :=
  match f with FMeasSpec => 1 | FAsym | FReqAsym => 0xFF | FHash => 7 | FDhe => 0x18 | FAead => 7 | FKeySched => 1 end.
(** [v] is the most preferred algorithm that both [a] and [b] contain, 0 when there is none *)
Definition best_common (f : family) (a b v : N) : Prop :=
  (v = 0 /\ forall x, In x (preference f) -> ~ (has a x /\ has b x)) \/
  (exists better worse, preference f = better ++ v :: worse /\ has a v /\ has b v /\
     one_bit (family_mask f) v /\ forall x, In x better -> ~ (has a x /\ has b x)).
(** the algorithms two sets share *)
Definition shared (f : family) (a b : N) : N := N.land (N.land a b) (family_mask f).

(** ** capability words as they travel (C16): any reserved bytes, any flag word *)
Definition get_caps_bytes (c : cctx) (r : N * N * N * N * N) (ct flags dts mx : N) : bytes :=
  let '(r1, r2, r3, r4, r5) := r in
  [r1; r2; r3; ct; r4; r5] ++ le_bytes 4 flags ++
  when (V12 <=? version_of c) (le_bytes 4 dts ++ le_bytes 4 mx).
Definition decoded_caps (c : cctx) (mask ct flags dts mx : N) : capabilities :=
  if V12 <=? version_of c then mkCaps ct (N.land flags mask) dts mx else mkCaps ct (N.land flags mask) 0 0.

(** ** algorithms a codec needs (C51) *)
Definition hash_selected (c : cctx) : Prop := In (n_hash (c_nego c)) [1; 2; 4].
Definition asym_selected (c : cctx) : Prop := In (n_asym (c_nego c)) [0x1; 0x2; 0x4; 0x8; 0x10; 0x20; 0x40; 0x80].
Definition dhe_selected (c : cctx) : Prop := In (n_dhe (c_nego c)) [0x8; 0x10].
Definition mhash_selected (c : cctx) : Prop := In (n_mhash (c_nego c)) [0x1; 0x2; 0x4; 0x8; 0x10; 0x20; 0x40; 0x80].
(** codes whose payload carries a digest / a signature / a DHE share / measurements *)
Definition carries_digest := [0x01; 0x03; 0x64; 0xE5; 0x65; 0x66; 0xE7].
Definition carries_signature := [0x03; 0x60; 0x64; 0xE5].
Definition carries_dhe := [0xE4; 0x64].
Definition carries_measurements := [0x60].
