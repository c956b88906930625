(** C26-C29, C31, C33, C34, C53, C54: secured messages, key update, signed strings, key-schedule
    strings.  Statements only. *)
From Verif Require Import Bytes BytesFacts Status Algo Crypto KeySchedule Session Signing Monad SpecSession
  SessionProofs NonceProofs SignProofs ToyCrypto.
Local Open Scope N_scope.

(** ** an example session *)
Definition ex_dir (b : N) : dir := mkDir (fill 32 b) (fill 12 (b + 1)) 0.
Definition ex_session : session :=
  set_s_hs (mkHs (fill 32 8) (fill 32 9) (fill 32 10) (fill 32 11) (ex_dir 1) (ex_dir 2))
  (set_s_app (mkApp (fill 32 6) (fill 32 7) (ex_dir 3) (ex_dir 4) [])
  (set_s_state SEstablished (set_transport_param 2 32 (set_crypto_param 1 8 2 1 (set_s_id 0xFFFDFFFD session_new))))).

(** C26: what the sender seals and emits *)
Theorem C26_wire_layout : forall cr req app room s w s',
  encode_secured cr req app room s = (Ok w, s') ->
  let d := lane_dir (cur_lane req s) s in
  exists tag c t,
    aead_tag_size (s_aead s) = Some tag /\ len c = 2 + len app /\ len t = tag /\
    cr_seal cr (s_aead s) (d_key d) (wire_nonce (d_salt d) (d_seq d))
       (wire_header (s_id s) (N.to_nat (s_seq_count s)) (d_seq d) (len app) tag) (wire_plain app) = Some (c, t) /\
    w = wire_header (s_id s) (N.to_nat (s_seq_count s)) (d_seq d) (len app) tag ++ c ++ t /\
    s' = with_lane (cur_lane req s) (mkDir (d_key d) (d_salt d) (d_seq d + 1)) s.
Proof.
  intros cr req app room s w s' H. apply encode_secured_ok in H as (_ & H & Hs).
  apply encode_msg_ok in H as (tag & c & t & H). rewrite get_dir_lane in *. exists tag, c, t.
  rewrite with_lane_set_dir in Hs. repeat split; try tauto. rewrite N.add_comm; tauto.
Qed.
Print Assumptions C26_wire_layout.
Theorem C26_secured_roundtrip : forall cr req sender receiver app room room' w sender',
  aead_correct cr -> s_id sender < 2 ^ 32 -> in_step req sender receiver -> len app <= room' ->
  encode_secured cr req app room sender = (Ok w, sender') ->
  exists receiver', decode_secured cr req w room' receiver = (Ok app, receiver') /\ in_step req sender' receiver'.
Proof. exact secured_roundtrip. Qed.
Print Assumptions C26_secured_roundtrip.
(** a whole conversation in one direction arrives unchanged *)
Theorem C26_conversation : forall cr req room room' apps sender receiver ws sender',
  aead_correct cr -> s_id sender < 2 ^ 32 -> in_step req sender receiver ->
  Forall (fun a => len a <= room') apps ->
  encode_run cr req room apps sender = (map Ok ws, sender') ->
  exists receiver', decode_run cr req room' ws receiver = (map Ok apps, receiver') /\ in_step req sender' receiver'.
Proof.
  intros cr req room room'. induction apps as [|a apps IH]; intros s r ws s' Hc Hid Hs Hl H; cbn [encode_run] in H.
  - assert (ws = []) by (destruct ws; [reflexivity|discriminate]). subst ws. cbn. exists r. split; [reflexivity|]. congruence.
  - destruct (encode_secured cr req a room s) as [x s1] eqn:E. inversion Hl as [|? ? Ha Hl']; subst.
    destruct x as [w|e|].
    + destruct (encode_run cr req room apps s1) as [xs s2] eqn:E2.
      destruct ws as [|w' ws]; [discriminate|]. cbn [map] in H.
      assert (w' = w /\ xs = map Ok ws /\ s2 = s') as (-> & -> & ->) by (repeat split; congruence).
      destruct (secured_roundtrip _ _ _ _ _ _ _ _ _ Hc Hid Hs Ha E) as (r1 & R1 & R2).
      assert (Hid' : s_id s1 < 2 ^ 32).
      { apply encode_secured_ok in E as (_ & _ & ->). now destruct (set_dir_frame req (set_d_seq (d_seq (get_dir req s) + 1) (get_dir req s)) s) as (-> & _). }
      destruct (IH s1 r1 ws s' Hc Hid' R2 Hl' E2) as (r2 & R3 & R4).
      exists r2. cbn [decode_run map]. rewrite R1, R3. auto.
    + destruct (encode_run cr req room apps s1); destruct ws; discriminate.
    + destruct ws as [|w' [|]]; discriminate.
Qed.
Print Assumptions C26_conversation.
Lemma toy_aead_correct : aead_correct toy.
Proof.
  intros alg key nonce aad plain c t H. cbn [cr_seal toy cr_open] in *.
  assert (c = plain /\ t = toy_tag key nonce aad plain) as [-> ->] by (split; congruence).
  rewrite bytes_eqb_refl. auto.
Qed.
Example C26_case : aead_correct toy /\ s_id ex_session < 2 ^ 32 /\ in_step true ex_session ex_session /\
  fst (encode_run toy true 4160 [[1;2;3]; [4]] ex_session) = map Ok
    [[253; 255; 253; 255; 0; 0; 21; 0; 3; 0; 1; 2; 3; 208; 51; 210; 251; 255; 114; 113; 216; 65; 168; 225; 205; 157; 118; 110; 144];
     [253; 255; 253; 255; 1; 0; 19; 0; 1; 0; 4; 144; 6; 72; 241; 105; 23; 164; 4; 86; 103; 19; 80; 202; 160; 235; 44]].
Proof.
  split; [exact toy_aead_correct|]. split; [reflexivity|]. split; [repeat split|]. vm_compute. reflexivity.
Qed.

(** C27: an accepted message authenticates under the receiver's own id, counter and length *)
Theorem C27_accepted_is_authentic : forall cr req m room s p s',
  bytes_ok m -> decode_secured cr req m room s = (Ok p, s') ->
  let d := lane_dir (cur_lane req s) s in
  exists c t plain rest,
    m = le_bytes 4 (s_id s) ++ le_bytes (N.to_nat (s_seq_count s)) (d_seq d) ++ le_bytes 2 (len c + len t) ++ c ++ t ++ rest /\
    aead_tag_size (s_aead s) = Some (len t) /\
    cr_open cr (s_aead s) (d_key d) (wire_nonce (d_salt d) (d_seq d))
       (le_bytes 4 (s_id s) ++ le_bytes (N.to_nat (s_seq_count s)) (d_seq d) ++ le_bytes 2 (len c + len t)) c t = Some plain /\
    (len plain = len c -> le_val (firstn 2 (plain ++ [0;0])) = len p /\ len p + 2 <= len plain /\ p = firstn (length p) (skipn 2 plain)).
Proof.
  intros cr req m room s p s' Hok H. apply decode_secured_cases in H as [(_ & X & _)|[(_ & X & _)|(_ & X & _)]]; try discriminate.
  symmetry in X. rewrite get_dir_lane in X. apply decode_msg_ok in X as (c & t & plain & rest & X); [|exact Hok].
  exists c, t, plain, rest. tauto.
Qed.
Print Assumptions C27_accepted_is_authentic.
(** for every list of inputs an attacker feeds to the receiver: if the key opens only what the
    sender sealed for [apps], the j-th attempt can return nothing but the j-th message sent *)
Theorem C27_in_order_only : forall cr req room id k tag apps inputs s results s',
  Forall bytes_ok inputs -> live s ->
  let d := lane_dir (cur_lane req s) s in
  opens_only cr (s_aead s) (d_key d) (seal_log id k (d_salt d) tag (d_seq d) apps) ->
  d_seq d + len apps < 2 ^ 64 ->
  decode_run cr req room inputs s = (results, s') ->
  forall j p, nth_error results j = Some (Ok p) -> nth_error apps j = Some p.
Proof.
  intros cr req room id k tag apps ins s rs s' Hok Hl d Hu Hn Hr j p Hj.
  apply (decode_run_only cr req room id k tag apps ins s 0 rs s' (d_seq d) Hok Hl); auto.
  - cbn zeta. fold d. split; [exact Hu|]. unfold len in Hn. split; cbn; Lia.lia.
  - unfold len in Hn. Lia.lia.
Qed.
Print Assumptions C27_in_order_only.
(** a crypto whose AEAD opens exactly a table of sealed messages *)
Definition ex_apps : list bytes := [[1;2;3]; [4]; [5;6]].
Definition ex_log : list (bytes * bytes * bytes) := seal_log 0xFFFDFFFD 2 (fill 12 4) 16 0 ex_apps.
Definition tab : crypto :=
  mkCrypto (cr_hash toy) (cr_extract toy) (cr_expand toy) (cr_hmac toy) (cr_hmac_verify toy) (cr_seal toy)
    (fun alg key nonce aad c t =>
       if existsb (fun e => bytes_eqb (fst (fst e)) nonce && bytes_eqb (snd (fst e)) aad && bytes_eqb (snd e) c) ex_log
       then Some c else None)
    (cr_verify toy) (cr_sign toy) (cr_verify_chain toy) (cr_dhe_public toy) (cr_dhe_final toy) (cr_random toy)
    (cr_psk_hs toy) (cr_psk_ms toy) (cr_measure toy) (cr_summary toy).
Lemma tab_opens_only : opens_only tab 2 (fill 32 3) ex_log.
Proof.
  intros nonce aad c t p H. cbn [cr_open tab] in H. destruct (existsb _ _) eqn:E; [|discriminate].
  assert (c = p) by congruence. subst p. split; [reflexivity|]. apply existsb_exists in E as ([[n a] q] & Hin & E).
  cbn [fst snd] in E. apply andb_prop in E as [E E3]. apply andb_prop in E as [E1 E2].
  apply bytes_eqb_eq in E1, E2, E3. subst. exact Hin.
Qed.
(** the genuine first message, a replay of it, then the genuine third: accepted, refused, accepted *)
Example C27_case :
  let w k := nth k (match fst (encode_run tab true 4160 ex_apps ex_session) with l => map (fun o => match o with Ok b => b | _ => [] end) l end) [] in
  live ex_session /\ map (fun o => match o with Ok b => Some b | _ => None end)
    (fst (decode_run tab true 4160 [w 0%nat; w 0%nat; w 2%nat] ex_session)) = [Some [1;2;3]; None; Some [5;6]].
Proof. split; [right; reflexivity|]. vm_compute. reflexivity. Qed.

(** C28 *)
Theorem C28_nonce_never_reused : forall cr history s,
  lanes_distinct s ->
  (forall l, In l lanes -> d_seq (lane_dir l s) < 2 ^ 64) ->
  d_seq (a_req_dir (s_backup s)) < 2 ^ 64 -> d_seq (a_rsp_dir (s_backup s)) < 2 ^ 64 ->
  fresh_history cr history [] s -> disciplined cr history false false s ->
  NoDup (sealed_run cr history s).
Proof. exact nonce_unique. Qed.
Print Assumptions C28_nonce_never_reused.
(** at the end of the counter encoding refuses instead of reusing a nonce *)
Theorem C28_counter_exhaustion : forall cr req app room s,
  d_seq (lane_dir (cur_lane req s) s) = 2 ^ 64 - 1 -> forall w, fst (encode_secured cr req app room s) <> Ok w.
Proof.
  intros cr req app room s Hs w H. destruct (encode_secured cr req app room s) as [r s'] eqn:E. cbn in H. subst r.
  apply encode_secured_ok in E as (_ & E & _). apply encode_msg_ok in E as (tag & c & t & _ & _ & _ & Hn & _).
  rewrite get_dir_lane in Hn. apply Hn. rewrite Hs. reflexivity.
Qed.
Print Assumptions C28_counter_exhaustion.
Definition ex_history : list sop :=
  [OpEncode true [1] 4160; OpEncode true [2] 4160; OpDecode false [1;2;3] 4160; OpUpdate 0x12 true false;
   OpDecode false [9] 4160; OpRollback true false; OpEncode true [3] 4160; OpUpdate 0x12 true true; OpCommit true true;
   OpEncode true [4] 4160].
Example C28_case :
  lanes_distinct ex_session /\ fresh_history toy ex_history [] ex_session /\
  disciplined toy ex_history false false ex_session /\ length (sealed_run toy ex_history ex_session) = 4%nat.
Proof.
  split; [intros [] [] _ _ Hn; try congruence; vm_compute; congruence|].
  split; [|split; [vm_compute; intuition|vm_compute; reflexivity]].
  cbn [fresh_history ex_history].
  Local Ltac upd :=
    split; [intros [] _; first [left; vm_compute; reflexivity | right; vm_compute; intuition discriminate] |];
    split; [intros [] [] _ _ Hn; try congruence; vm_compute; congruence|];
    intros _; split; (let X := fresh in intro X; try discriminate X); vm_compute; intuition discriminate.
  do 10 (split; [first [exact I | upd]|]). exact I.
Qed.

(** C29 *)
Theorem C29_failed_decode_frame : forall cr req m room s e s',
  decode_secured cr req m room s = (Err e, s') ->
  s' = s \/
  s' = (let d := lane_dir (cur_lane req s) s in with_lane (cur_lane req s) (mkDir (d_key d) (d_salt d) (d_seq d + 1)) s).
Proof. intros cr req m room s e s'. apply decode_frame. Qed.
Print Assumptions C29_failed_decode_frame.
(** the counter does move when the session is live *)
Theorem C29_failed_decode_counts : forall cr req m room s e s',
  live s -> decode_secured cr req m room s = (Err e, s') ->
  s' = (let d := lane_dir (cur_lane req s) s in with_lane (cur_lane req s) (mkDir (d_key d) (d_salt d) (d_seq d + 1)) s).
Proof. intros cr req m room s e s' Hl H. eapply decode_live_step; eauto. discriminate. Qed.
Print Assumptions C29_failed_decode_counts.
Example C29_case : live ex_session /\
  fst (decode_secured toy false [1;2;3] 4160 ex_session) = Err ST_DECODE_AEAD_FAIL /\
  d_seq (lane_dir AppRsp (snd (decode_secured toy false [1;2;3] 4160 ex_session))) = 1.
Proof. split; [right; reflexivity|]. split; reflexivity. Qed.

(** C31 *)
Theorem C31_rollback_restores : forall cr v upd_req upd_rsp s s1,
  create_data_secret_update cr v upd_req upd_rsp s = (Ok tt, s1) ->
  (* any activity afterwards that leaves the backup alone, e.g. receiving *)
  forall s2, s_backup s2 = s_backup s1 ->
  let s3 := activate_data_secret_update upd_req upd_rsp false s2 in
  (upd_req = true -> a_req_secret (s_app s3) = a_req_secret (s_app s) /\ lane_dir AppReq s3 = lane_dir AppReq s) /\
  (upd_rsp = true -> a_rsp_secret (s_app s3) = a_rsp_secret (s_app s) /\ lane_dir AppRsp s3 = lane_dir AppRsp s) /\
  (upd_req = false -> a_req_secret (s_app s3) = a_req_secret (s_app s2) /\ lane_dir AppReq s3 = lane_dir AppReq s2) /\
  (upd_rsp = false -> a_rsp_secret (s_app s3) = a_rsp_secret (s_app s2) /\ lane_dir AppRsp s3 = lane_dir AppRsp s2) /\
  set_s_app (s_app s2) s3 = s2.
Proof. exact rollback_restores. Qed.
Print Assumptions C31_rollback_restores.
Theorem C31_commit_discards : forall upd_req upd_rsp s,
  let s1 := activate_data_secret_update upd_req upd_rsp true s in
  s_app s1 = s_app s /\
  forall s2, s_backup s2 = s_backup s1 ->
  let s3 := activate_data_secret_update upd_req upd_rsp false s2 in
  (upd_req = true -> lane_dir AppReq s3 = mkDir [] [] 0 /\ a_req_secret (s_app s3) = []) /\
  (upd_rsp = true -> lane_dir AppRsp s3 = mkDir [] [] 0 /\ a_rsp_secret (s_app s3) = []).
Proof. exact commit_discards. Qed.
Print Assumptions C31_commit_discards.
Example C31_case : exists s1, create_data_secret_update toy 0x12 true false ex_session = (Ok tt, s1) /\
  lane_dir AppReq s1 <> lane_dir AppReq ex_session.
Proof. eexists. split; [vm_compute; reflexivity|]. vm_compute. discriminate. Qed.

(** C33: from SPDM 1.2 on, prefix, padded context, hash; before 1.2 this build does not sign *)
Theorem C33_signed_string : forall version op hash, 0x12 <= version -> len hash <= 64 ->
  sign_input version op hash = Ok (spec_prefix ++ spec_context op ++ hash) /\
  length spec_prefix = 64%nat /\ length (spec_context op) = 36%nat.
Proof.
  intros v op h Hv Hh. split; [exact (sign_input_ok v op h Hv Hh)|]. split; [reflexivity|].
  rewrite <- sig_context_spec. apply sig_context_len.
Qed.
Print Assumptions C33_signed_string.
Theorem C33_domain_separation : forall version version' op op' hash hash' m,
  sign_input version op hash = Ok m -> sign_input version' op' hash' = Ok m -> op = op' /\ hash = hash'.
Proof. exact sign_input_inj. Qed.
Print Assumptions C33_domain_separation.
Theorem C33_no_legacy_signing : forall version op hash, version < 0x12 ->
  sign_input version op hash = Err ST_INVALID_STATE_LOCAL.
Proof. exact sign_input_old. Qed.
Print Assumptions C33_no_legacy_signing.
Example C33_case : exists m, sign_input 0x12 SigFinish (fill 32 7) = Ok m /\ len m = 132.
Proof. eexists. split; reflexivity. Qed.

(** C34 *)
Theorem C34_info_strings_separated : forall n n' v v' label label' ctx ctx' s,
  n < 65536 -> n' < 65536 -> v < 256 -> v' < 256 -> In label spec_labels -> In label' spec_labels ->
  binconcat n v label ctx = Some s -> binconcat n' v' label' ctx' = Some s ->
  n = n' /\ v = v' /\ label = label' /\
  match ctx with Some c => c | None => [] end = match ctx' with Some c => c | None => [] end.
Proof. exact binconcat_inj. Qed.
Print Assumptions C34_info_strings_separated.
Theorem C34_failure_condition : forall n v label ctx,
  binconcat n v label ctx = None <-> 76 < len label + len (match ctx with Some c => c | None => [] end).
Proof. exact binconcat_fails. Qed.
Print Assumptions C34_failure_condition.
Theorem C34_library_strings_fit : forall n v label ctx,
  In label spec_labels -> len (match ctx with Some c => c | None => [] end) <= 64 -> binconcat n v label ctx <> None.
Proof. exact binconcat_fits. Qed.
Print Assumptions C34_library_strings_fit.
Theorem C34_labels_used : [LBL_DERIVED; LBL_REQ_HS; LBL_RSP_HS; LBL_REQ_APP; LBL_RSP_APP; LBL_KEY; LBL_IV; LBL_FINISHED; LBL_EXP; LBL_UPD] = spec_labels.
Proof. reflexivity. Qed.
Print Assumptions C34_labels_used.
Example C34_case : binconcat 32 0x12 LBL_KEY None = Some [32;0;0x73;0x70;0x64;0x6d;0x31;0x2e;0x32;0x20;0x6b;0x65;0x79].
Proof. reflexivity. Qed.

(** C53: false of the code: after AES-128-GCM was negotiated nothing can be sent *)
Theorem C53_aes128_session_unusable_refuted : forall cr v th s s' u,
  expand_exact cr -> s_aead s = 1 -> s_state s <> SHandshaking ->
  generate_data_secret cr v th s = (Ok u, s') ->
  forall req app room w, fst (encode_secured cr req app room s') <> Ok w.
Proof. exact aes128_useless. Qed.
Print Assumptions C53_aes128_session_unusable_refuted.
Lemma toy_expand_exact : expand_exact toy.
Proof.
  intros h prk info n out H. cbn [cr_expand toy] in H.
  assert (out = le_bytes (N.to_nat n) (poly (prk ++ info))) by congruence. subst out.
  unfold len. rewrite le_bytes_length. apply Nnat.N2Nat.id.
Qed.
Example C53_case : expand_exact toy /\
  (let s := set_s_master (fill 32 1) (set_s_aead 1 ex_session) in
   s_aead s = 1 /\ s_state s <> SHandshaking /\ fst (generate_data_secret toy 0x12 (fill 32 2) s) = Ok tt /\
   aead_key_size (s_aead s) = Some 16).
Proof. split; [exact toy_expand_exact|]. vm_compute. repeat split; discriminate. Qed.

(** C54 *)
Theorem C54_decode_never_panics : forall cr req m room s,
  aead_tag_size (s_aead s) <> None -> s_seq_count s <= 8 -> len m <= 4160 -> 4160 <= room ->
  (forall alg key nonce aad c t p, cr_open cr alg key nonce aad c t = Some p -> len p = len c) ->
  d_seq (lane_dir (cur_lane req s) s) < 2 ^ 64 - 1 ->
  fst (decode_secured cr req m room s) <> Panic.
Proof.
  intros cr req m room s H1 H2 H3 H4 H5 H6. apply decode_secured_no_panic; auto. unfold U64_MAX. Lia.lia.
Qed.
Print Assumptions C54_decode_never_panics.
(** at the last counter value the overflow error is computed, then the increment panics *)
Theorem C54_panics_at_counter_limit : forall cr req m room s,
  live s -> aead_tag_size (s_aead s) <> None -> d_seq (lane_dir (cur_lane req s) s) = 2 ^ 64 - 1 ->
  fst (decode_secured cr req m room s) = Panic.
Proof. exact decode_secured_overflow. Qed.
Print Assumptions C54_panics_at_counter_limit.
Example C54_case : aead_tag_size (s_aead ex_session) = Some 16 /\ s_seq_count ex_session = 2 /\
  fst (decode_secured toy true (fill 40 0xFD) 4160 ex_session) = Err ST_DECODE_AEAD_FAIL.
Proof. repeat split. Qed.
