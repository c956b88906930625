(** More of C76 (what happens to M1/M2 otherwise), and properties of the signed replies that the code
    does not have (C78-C80). *)
From Verif Require Import Bytes BytesFacts Status Codec Parse ParseProofs Algo Monad MsgConn MsgAuth MsgSession MsgOther Message Opaque SpecMsg.
From Verif Require Import Transport Crypto KeySchedule Session Signing CertOps ChainVerify Context SpecSession
  RspBase RspConn RspSess RspEncap Responder StRel RspFrame RspCalm RspOpcode RspSend SpecResponder SpecFinish RspEst RspPhase RspPass RspSlots RspSize RspTable RspIso RspDeliver RspRefuse RspTrans
  ToyCrypto PropPhase ExRun PropTable PropReset PropSess PropDigest SpecReply PropReply.
Local Open Scope N_scope.

(** C76: after the CHALLENGE_AUTH, M1/M2 begins anew (at A) *)
Theorem C76_challenge_ends_transcript : forall E f b x r x',
  digest_sizes (e_cr E) -> summaries_sized (e_cr E) -> can_sign E x -> 0x12 <= ver x ->
  plain_message E f = Some b -> request_code b = Some 0x83 -> process_frame E f x = (r, x') ->
  one_reply E x x' (fun m => is_error x m \/ x_m1m2 x' = None).
Proof.
  intros E f b x r x' HD HS HC Lv Pf Rc H. rewrite (frame_plain E f b x Pf) in H. apply is_ok_inv in H as [r0 H].
  destruct (code_header b _ Rc) as (h & t & Rh & Hh). unfold dispatch_message in H. rewrite Rh, Hh in H. change (handle_challenge E b x = (r0, x')) in H.
  unfold handle_challenge in H. unfold sbind at 1 in H. destruct (write_challenge E b x) as [o y] eqn:W.
  destruct (write_challenge_good E b x o y HD HS HC Lv Rc W) as (S1 & V1 & G). destruct o as [w|e|]; [|left; congruence|left; congruence].
  pose proof (m1_send E w _ _ _ H) as Mk. unfold same_m1m2 in Mk.
  unfold one_reply. rewrite <- S1. apply (send_message_one E w y r0 x'); [|left; rewrite V1; exists 0xD, 0; reflexivity|exact H].
  destruct G as [G|(G & _)]; [left; exact G|right; congruence].
Qed.
Print Assumptions C76_challenge_ends_transcript.

(** C76: nothing else touches A, or adds to B: every frame that is not one of the six plain requests
    above keeps A, and keeps B or drops it *)
Theorem C76_other_requests_keep_transcript : forall E f x r x',
  (forall b c, plain_message E f = Some b -> request_code b = Some c -> ~ In c [0x84; 0xE1; 0xE3; 0x81; 0x82; 0x83]) ->
  process_frame E f x = (r, x') ->
  x_msg_a x' = x_msg_a x /\ (x_m1m2 x' = x_m1m2 x \/ x_m1m2 x' = None).
Proof.
  intros E f x r x' Hb H. apply (tk_frame E f x r x'); [|exact H]. intros b D c Hc. apply (Hb b c); [unfold plain_message; rewrite D; reflexivity|].
  destruct b as [|v [|d b]]; try discriminate Hc. unfold request_code. exact Hc.
Qed.
Print Assumptions C76_other_requests_keep_transcript.
Example C76_other_case : (forall b c, plain_message ex_env f_measure = Some b -> request_code b = Some c -> ~ In c [0x84; 0xE1; 0xE3; 0x81; 0x82; 0x83]) /\
  x_m1m2 (step f_digests rp_state) <> None /\ x_m1m2 (step f_measure (step f_digests rp_state)) = None /\ x_msg_a rp_state <> [] /\ x_msg_a (step f_measure (step f_digests rp_state)) = x_msg_a rp_state.
Proof.
  split; [|split; [|split; [|split]]].
  - intros b c Hb Hc. assert (P : plain_message ex_env f_measure = Some (tl f_measure)) by (vm_compute; reflexivity). assert (b = tl f_measure) as -> by congruence.
    assert (c = 0xE0) as -> by (cbv in Hc; congruence). cbn. intuition discriminate.
  - vm_compute. discriminate.
  - vm_compute. reflexivity.
  - vm_compute. discriminate.
  - vm_compute. reflexivity.
Qed.

(** C78 (does not hold): a request answered with ERROR adds nothing to M1/M2 *)
Definition errors_not_recorded : Prop := forall E f b x x' t c d,
  plain_message E f = Some b -> process_frame E f x = (Ok (Some true), x') ->
  x_sent x' = t :: x_sent x -> carries E t (error_message (ver x) c d) false ->
  x_m1m2 x' = x_m1m2 x \/ x_m1m2 x' = None.
(** GET_CERTIFICATE for slot 0, 16 bytes from offset 0x1000, beyond the end of the chain *)
Definition f_beyond : bytes := [5; 0x12; 0x82; 0; 0; 0; 0x10; 16; 0].
Definition x_beyond : ctx := Eval vm_compute in step f_beyond rp_state.
Theorem C78_errors_not_recorded_refuted : ~ errors_not_recorded.
Proof.
  intro H. assert (P : process_frame ex_env f_beyond rp_state = (Ok (Some true), x_beyond)) by (vm_compute; reflexivity).
  specialize (H ex_env f_beyond (tl f_beyond) rp_state x_beyond (hd [] (x_sent x_beyond)) 0x01 0).
  assert (M0 : x_m1m2 rp_state = None) by reflexivity. assert (M1 : x_m1m2 x_beyond <> None) by (vm_compute; discriminate).
  rewrite M0 in H. apply M1. enough (x_m1m2 x_beyond = None \/ x_m1m2 x_beyond = None) by tauto.
  apply H; [vm_compute; reflexivity|exact P|vm_compute; reflexivity|]. apply ca_plain. vm_compute. reflexivity.
Qed.
Print Assumptions C78_errors_not_recorded_refuted.

(** C79 (does not hold): asked for the number of measurement blocks (operation 0), the responder
    answers with that number *)
Definition block_count_told : Prop := forall E f b x x' t m total,
  plain_message E f = Some b -> request_code b = Some 0xE0 -> nth_error b 3 = Some 0 ->
  cr_measure (e_cr E) (ver x) (n_mspec (x_nego x)) (n_mhash (x_nego x)) 0 = Some total ->
  process_frame E f x = (Ok (Some true), x') -> x_sent x' = t :: x_sent x -> carries E t m false -> nth_error m 1 = Some 0x60 ->
  nth_error m 2 = Some (mr_blocks total).
Definition f_count : bytes := [5; 0x12; 0xE0; 0; 0].
Definition x_count : ctx := Eval vm_compute in step f_count rp_state.
Theorem C79_block_count_told_refuted : ~ block_count_told.
Proof.
  intro H. assert (P : process_frame ex_env f_count rp_state = (Ok (Some true), x_count)) by (vm_compute; reflexivity).
  destruct (cr_measure (e_cr ex_env) (ver rp_state) (n_mspec (x_nego rp_state)) (n_mhash (x_nego rp_state)) 0) as [total|] eqn:T; [|vm_compute in T; discriminate T].
  assert (Bt : mr_blocks total = 1) by (vm_compute in T; injection T as <-; reflexivity).
  specialize (H ex_env f_count (tl f_count) rp_state x_count (hd [] (x_sent x_count)) (tl (hd [] (x_sent x_count))) total). rewrite Bt in H.
  assert (K : nth_error (tl (hd [] (x_sent x_count))) 2 = Some 1) by (apply H; [vm_compute; reflexivity|reflexivity|reflexivity|exact T|exact P|vm_compute; reflexivity|apply ca_plain; vm_compute; reflexivity|vm_compute; reflexivity]).
  vm_compute in K. discriminate K.
Qed.
Print Assumptions C79_block_count_told_refuted.

(** C80 (does not hold): a CHALLENGE draws at most one reply *)
Definition challenge_one_reply : Prop := forall E f b x r x',
  plain_message E f = Some b -> request_code b = Some 0x83 -> process_frame E f x = (r, x') ->
  (length (x_sent x') <= S (length (x_sent x)))%nat.
(** C80 (does not hold): every CHALLENGE_AUTH that leaves the device ends with a signature the device made *)
Definition challenge_auth_signed : Prop := forall E f b x r x' t m,
  plain_message E f = Some b -> request_code b = Some 0x83 -> process_frame E f x = (r, x') ->
  In t (x_sent x') -> ~ In t (x_sent x) -> carries E t m false -> nth_error m 1 = Some 0x03 ->
  exists d sig pre, cr_sign (e_cr E) (n_hash (x_nego x)) (n_asym (x_nego x)) d = Some sig /\ m = pre ++ sig.
(** a connection at SPDM 1.1 *)
Definition x11 : ctx := Eval vm_compute in
  step ([5; 0x11;0xE3;4;0;  48;0;1;0] ++ le_bytes 4 0x80 ++ le_bytes 4 2 ++ fill 12 0 ++ [0;0;0;0] ++ [2;0x20;8;0; 3;0x20;2;0; 4;0x20;0x80;0; 5;0x20;1;0])
   (step ([5; 0x11;0xE1;0;0; 0;0;0;0] ++ le_bytes 4 0x66C6) ex1).
Definition f_challenge11 : bytes := 5 :: [0x11; 0x83; 0; 0] ++ fill 32 3.
Definition x11c : ctx := Eval vm_compute in step f_challenge11 x11.
Theorem C80_challenge_one_reply_refuted : ~ challenge_one_reply.
Proof.
  intro H. assert (P : process_frame ex_env f_challenge11 x11 = (Ok (Some true), x11c)) by (vm_compute; reflexivity).
  assert (K : (length (x_sent x11c) <= S (length (x_sent x11)))%nat) by (apply (H ex_env f_challenge11 (tl f_challenge11) x11 (Ok (Some true)) x11c); [vm_compute; reflexivity|reflexivity|exact P]).
  vm_compute in K. lia.
Qed.
Print Assumptions C80_challenge_one_reply_refuted.
(** a device whose signing fails (a busy or broken key store), at SPDM 1.2 *)
Definition no_sign : crypto := {|
  cr_hash := cr_hash toy; cr_extract := cr_extract toy; cr_expand := cr_expand toy; cr_hmac := cr_hmac toy; cr_hmac_verify := cr_hmac_verify toy;
  cr_seal := cr_seal toy; cr_open := cr_open toy; cr_verify := cr_verify toy; cr_sign := fun _ _ _ => None; cr_verify_chain := cr_verify_chain toy;
  cr_dhe_public := cr_dhe_public toy; cr_dhe_final := cr_dhe_final toy;
  cr_random := cr_random toy; cr_psk_hs := cr_psk_hs toy; cr_psk_ms := cr_psk_ms toy; cr_measure := cr_measure toy; cr_summary := cr_summary toy |}.
Definition no_sign_env : env := mkEnv no_sign mctp_transport (fun _ _ => None) (fun _ _ => None) (fun _ b => Ok b) (fun b => Ok b) false.
Definition x_unsigned : ctx := Eval vm_compute in snd (process_frame no_sign_env f_challenge rp_state).
Theorem C80_challenge_auth_signed_refuted : ~ challenge_auth_signed.
Proof.
  intro H. assert (P : process_frame no_sign_env f_challenge rp_state = (Ok (Some true), x_unsigned)) by (vm_compute; reflexivity).
  assert (S : x_sent x_unsigned = hd [] (x_sent x_unsigned) :: [5; 0x12; 0x7F; 5; 0] :: x_sent rp_state) by (vm_compute; reflexivity).
  destruct (H no_sign_env f_challenge (tl f_challenge) rp_state (Ok (Some true)) x_unsigned (hd [] (x_sent x_unsigned)) (tl (hd [] (x_sent x_unsigned)))) as (d & sig & pre & K & _).
  - vm_compute; reflexivity.
  - reflexivity.
  - exact P.
  - rewrite S. left. reflexivity.
  - assert (K : existsb (bytes_eqb (hd [] (x_sent x_unsigned))) (x_sent rp_state) = false) by (vm_compute; reflexivity). intro I. assert (existsb (bytes_eqb (hd [] (x_sent x_unsigned))) (x_sent rp_state) = true); [|congruence].
    apply existsb_exists. exists (hd [] (x_sent x_unsigned)). split; [exact I|]. apply bytes_eqb_refl.
  - apply ca_plain. vm_compute. reflexivity.
  - reflexivity.
  - discriminate K.
Qed.
Print Assumptions C80_challenge_auth_signed_refuted.
