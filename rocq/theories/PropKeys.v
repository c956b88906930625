(** C59: the secrets of a session are those of the DSP0277 key schedule.  Statements only; the
    schedule is in SpecKeys.v. *)
From Coq Require Import String.
From Verif Require Import Bytes Status Algo Crypto KeySchedule Session Monad SpecSession SpecKeys SessionProofs KeyProofs
  ToyCrypto PropSession.
Import ListNotations.
Local Open Scope list_scope.
Local Open Scope N_scope.

(** the root secrets *)
Theorem C59_root_secrets : forall cr v dhe s u s', set_dhe_secret cr v dhe s = (Ok u, s') ->
  roots cr v (s_hash s) dhe (s_hs_root s') (s_master s') /\
  s' = set_s_master (s_master s') (set_s_hs_root (s_hs_root s') (set_s_dhe_secret dhe s)).
Proof. exact dhe_ok. Qed.
Print Assumptions C59_root_secrets.

(** the handshake keys; nothing else of the session changes, the record counters included *)
Theorem C59_handshake_keys : forall cr v th1 s u s', generate_handshake_secret cr v th1 s = (Ok u, s') ->
  handshake_keys cr v s th1 (s_hs s') /\ s' = set_s_hs (s_hs s') s /\
  d_seq (h_req_dir (s_hs s')) = d_seq (h_req_dir (s_hs s)) /\ d_seq (h_rsp_dir (s_hs s')) = d_seq (h_rsp_dir (s_hs s)).
Proof. exact handshake_ok. Qed.
Print Assumptions C59_handshake_keys.

(** the application keys; nothing else of the session changes, the record counters included *)
Theorem C59_data_keys : forall cr v th2 s u s', generate_data_secret cr v th2 s = (Ok u, s') ->
  data_keys cr v s th2 (s_app s') /\ s' = set_s_app (s_app s') s /\
  d_seq (a_req_dir (s_app s')) = d_seq (a_req_dir (s_app s)) /\ d_seq (a_rsp_dir (s_app s')) = d_seq (a_rsp_dir (s_app s)).
Proof. exact data_ok. Qed.
Print Assumptions C59_data_keys.

(** a key update replaces exactly the directions it names *)
Theorem C59_updated_keys : forall cr v req rsp s u s', create_data_secret_update cr v req rsp s = (Ok u, s') ->
  (if req then updated cr v (s_hash s) (s_aead s) (a_req_secret (s_app s)) (a_req_secret (s_app s')) (a_req_dir (s_app s'))
   else a_req_secret (s_app s') = a_req_secret (s_app s) /\ a_req_dir (s_app s') = a_req_dir (s_app s)) /\
  (if rsp then updated cr v (s_hash s) (s_aead s) (a_rsp_secret (s_app s)) (a_rsp_secret (s_app s')) (a_rsp_dir (s_app s'))
   else a_rsp_secret (s_app s') = a_rsp_secret (s_app s) /\ a_rsp_dir (s_app s') = a_rsp_dir (s_app s)).
Proof.
  intros * H. unfold create_data_secret_update in H. apply sbind_ok in H as (? & s1 & A & B).
  assert (Ha : (if req then updated cr v (s_hash s) (s_aead s) (a_req_secret (s_app s)) (a_req_secret (s_app s1)) (a_req_dir (s_app s1))
      else a_req_secret (s_app s1) = a_req_secret (s_app s) /\ a_req_dir (s_app s1) = a_req_dir (s_app s)) /\
      a_rsp_secret (s_app s1) = a_rsp_secret (s_app s) /\ a_rsp_dir (s_app s1) = a_rsp_dir (s_app s) /\ s_hash s1 = s_hash s /\ s_aead s1 = s_aead s).
  { destruct req; unfold swhen in A; [exact (update_req_keys _ _ _ _ _ A)|]. unfold sret in A. assert (s1 = s) as -> by congruence. repeat split; reflexivity. }
  destruct Ha as (Ha & E1 & E2 & E3 & E4). destruct rsp; unfold swhen in B.
  - apply update_rsp_keys in B as (B & F1 & F2 & F3 & F4). rewrite E1, E3, E4 in B. rewrite F1, F2. exact (conj Ha B).
  - unfold sret in B. assert (s' = s1) as -> by congruence. exact (conj Ha (conj E1 E2)).
Qed.
Print Assumptions C59_updated_keys.

(** the schedule is a function: two ends with the same parameters, secrets and transcript hash have the
    same keys *)
Definition same_secrets (a b : session) : Prop :=
  s_hash a = s_hash b /\ s_aead a = s_aead b /\ s_use_psk a = s_use_psk b /\ s_psk_hint a = s_psk_hint b /\
  s_hs_root a = s_hs_root b /\ s_master a = s_master b.
Definition same_lane (d e : dir) : Prop := d_key d = d_key e /\ d_salt d = d_salt e.
Lemma derived_fun cr v h r l c o o' : derived cr v h r l c o -> derived cr v h r l c o' -> o = o'.
Proof. intros (n & A & B) (m & C & D). assert (n = m) by congruence. subst m. congruence. Qed.
Lemma from_fun cr p v a b root l c o o' : s_hash a = s_hash b -> s_use_psk a = s_use_psk b -> s_psk_hint a = s_psk_hint b ->
  from_secret cr p v a root l c o -> from_secret cr p v b root l c o' -> o = o'.
Proof.
  intros E1 E2 E3. unfold from_secret. rewrite E1, E2, E3. destruct (s_use_psk b); [|apply derived_fun].
  intros (n & h & A & B & C) (m & g & D & F & G). assert (n = m) by congruence. assert (h = g) by congruence. subst. congruence.
Qed.
Lemma lane_fun cr v h a s d e : key_and_iv cr v h a s d -> key_and_iv cr v h a s e -> same_lane d e.
Proof. intros (n & i & A & B & C & D) (m & j & A' & B' & C' & D'). assert (n = m) by congruence. assert (i = j) by congruence. subst. split; congruence. Qed.
Theorem C59_both_ends_agree : forall cr v a b th1 u w a' b', same_secrets a b ->
  generate_handshake_secret cr v th1 a = (Ok u, a') -> generate_handshake_secret cr v th1 b = (Ok w, b') ->
  same_lane (h_req_dir (s_hs a')) (h_req_dir (s_hs b')) /\ same_lane (h_rsp_dir (s_hs a')) (h_rsp_dir (s_hs b')) /\
  h_req_fin (s_hs a') = h_req_fin (s_hs b') /\ h_rsp_fin (s_hs a') = h_rsp_fin (s_hs b').
Proof.
  intros * (E1 & E2 & E3 & E4 & E5 & E6) A B. apply handshake_ok in A as ((A1 & A2 & A3 & A4 & A5 & A6) & _). apply handshake_ok in B as ((B1 & B2 & B3 & B4 & B5 & B6) & _).
  rewrite E1, ?E2, E5 in *. pose proof (from_fun _ _ _ _ _ _ _ _ _ _ E1 E3 E4 A1 B1) as F1. pose proof (from_fun _ _ _ _ _ _ _ _ _ _ E1 E3 E4 A2 B2) as F2. rewrite <- F1, <- F2 in *.
  split; [exact (lane_fun _ _ _ _ _ _ _ A5 B5)|]. split; [exact (lane_fun _ _ _ _ _ _ _ A6 B6)|]. split; [exact (derived_fun _ _ _ _ _ _ _ _ A3 B3)|exact (derived_fun _ _ _ _ _ _ _ _ A4 B4)].
Qed.
Print Assumptions C59_both_ends_agree.
Theorem C59_both_ends_agree_on_data : forall cr v a b th2 u w a' b', same_secrets a b ->
  generate_data_secret cr v th2 a = (Ok u, a') -> generate_data_secret cr v th2 b = (Ok w, b') ->
  same_lane (a_req_dir (s_app a')) (a_req_dir (s_app b')) /\ same_lane (a_rsp_dir (s_app a')) (a_rsp_dir (s_app b')) /\
  a_export (s_app a') = a_export (s_app b').
Proof.
  intros * (E1 & E2 & E3 & E4 & E5 & E6) A B. apply data_ok in A as ((A1 & A2 & A3 & A4 & A5) & _). apply data_ok in B as ((B1 & B2 & B3 & B4 & B5) & _).
  rewrite E1, ?E2, E6 in *. pose proof (from_fun _ _ _ _ _ _ _ _ _ _ E1 E3 E4 A1 B1) as F1. pose proof (from_fun _ _ _ _ _ _ _ _ _ _ E1 E3 E4 A2 B2) as F2. rewrite <- F1, <- F2 in *.
  split; [exact (lane_fun _ _ _ _ _ _ _ A4 B4)|]. split; [exact (lane_fun _ _ _ _ _ _ _ A5 B5)|]. exact (from_fun _ _ _ _ _ _ _ _ _ _ E1 E3 E4 A3 B3).
Qed.
Print Assumptions C59_both_ends_agree_on_data.

Definition ex_rooted : session := snd (set_dhe_secret toy 0x12 (fill 48 9) ex_session).
Example C59_case :
  (match set_dhe_secret toy 0x12 (fill 48 9) ex_session with (Ok _, _) => true | _ => false end) &&
  (match generate_handshake_secret toy 0x12 (fill 32 1) ex_rooted with (Ok _, s) => negb (bytes_eqb (d_key (h_req_dir (s_hs s))) (d_key (h_rsp_dir (s_hs s)))) | _ => false end) &&
  (match generate_data_secret toy 0x12 (fill 32 1) ex_rooted with (Ok _, s) => negb (bytes_eqb (d_key (a_req_dir (s_app s))) (d_key (a_rsp_dir (s_app s)))) | _ => false end) &&
  (match create_data_secret_update toy 0x12 true false ex_session with (Ok _, s) => negb (bytes_eqb (a_req_secret (s_app s)) (a_req_secret (s_app ex_session))) | _ => false end) = true.
Proof. vm_compute. reflexivity. Qed.
