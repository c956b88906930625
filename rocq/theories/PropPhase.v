(** C20 (connection phases) and C55 (silent rejections). *)
From Verif Require Import Bytes BytesFacts Status Codec Parse ParseProofs Algo Monad.
From Verif Require Import MsgConn MsgAuth MsgSession MsgOther Message Transport Crypto KeySchedule Session CertOps ChainVerify Context
  RspBase RspConn RspSess RspEncap Responder StRel RspFrame RspCalm RspOpcode RspSend SpecResponder RspPhase RspPass RspSlots ToyCrypto.
From Coq Require Import Lia.
Local Open Scope N_scope.

Lemma header_code b : match read_header b with
  | Some (h, _) => request_code b = Some (h_code h)
  | None => True end.
Proof.
  unfold read_header. destruct b as [|v [|c b]]; [exact I|exact I|]. cbn. f_equal.
Qed.
Lemma code_cases b h t : read_header b = Some (h, t) -> request_code b = Some (h_code h).
Proof. intro H. pose proof (header_code b) as K. rewrite H in K. exact K. Qed.
Lemma code_header b c : request_code b = Some c -> exists h t, read_header b = Some (h, t) /\ h_code h = c.
Proof.
  intro H. destruct (read_header b) as [[h t]|] eqn:R.
  - exists h, t. split; [reflexivity|]. pose proof (code_cases _ _ _ R). congruence.
  - exfalso. destruct b as [|v [|d b]]; cbn in H, R; discriminate.
Qed.
Lemma conn_rel {A} (m : st ctx A) x r x' c p : rel conn_eq m -> m x = (r, x') -> p = x_conn x -> phase_step c p (x_conn x').
Proof. intros K H ->. rewrite (K _ _ _ H). constructor. Qed.

Lemma dispatch_phase E b x r x' : hash_lengths (e_cr E) -> slots8 x -> dispatch_message E b x = (r, x') ->
  match request_code b with Some c => phase_step c (x_conn x) (x_conn x') | None => x_conn x' = x_conn x end.
Proof.
  intros HL S8 H. unfold dispatch_message in H. destruct (read_header b) as [[h t]|] eqn:Rh.
  2:{ replace x' with x by (unfold serr in H; congruence). destruct (request_code b); constructor. }
  rewrite (code_cases _ _ _ Rh). cbv zeta in H.
  destruct (N.eqb_spec (h_code h) RC_GET_VERSION) as [->|_].
  { apply phase_version in H. unfold conn_to in H. destruct H as [->|[->| ->]]; constructor. }
  destruct (N.eqb_spec (h_code h) RC_GET_CAPABILITIES) as [->|_].
  { destruct (N.eq_dec (x_conn x) 1) as [C|C].
    - destruct (phase_capability _ _ _ _ _ H C) as [->| ->]; rewrite C; constructor.
    - rewrite (capability_unexpected E b x C) in H. apply send_error_same in H as (n & l & ->). constructor. }
  destruct (N.eqb_spec (h_code h) RC_NEGOTIATE_ALGORITHMS) as [->|_].
  { destruct (N.eq_dec (x_conn x) 2) as [C|C].
    - destruct (phase_algorithm _ _ _ _ _ H C) as [->| ->]; rewrite C; constructor.
    - rewrite (algorithm_unexpected E b x C) in H. apply send_error_same in H as (n & l & ->). constructor. }
  destruct (N.eqb_spec (h_code h) RC_GET_DIGESTS) as [->|_].
  { destruct (N.lt_ge_cases (x_conn x) 3) as [C|C].
    - rewrite (digest_unexpected E b x C) in H. apply send_error_same in H as (n & l & ->). constructor.
    - destruct (phase_digest _ _ _ _ _ HL S8 H) as [->| ->]; [constructor|]. now constructor. }
  destruct (N.eqb_spec (h_code h) RC_GET_CERTIFICATE) as [->|_].
  { destruct (N.lt_ge_cases (x_conn x) 3) as [C|C].
    - rewrite (certificate_unexpected E b x C) in H. apply send_error_same in H as (n & l & ->). constructor.
    - apply phase_certificate in H. destruct H as [->| ->]; [constructor|]. now constructor. }
  destruct (N.eqb_spec (h_code h) RC_CHALLENGE) as [->|_].
  { destruct (N.lt_ge_cases (x_conn x) 3) as [C|C].
    - rewrite (challenge_unexpected E b x C) in H. apply send_error_same in H as (n & l & ->). constructor.
    - apply phase_challenge in H. destruct H as [->| ->]; [constructor|]. now constructor. }
  destruct (_ =? RC_GET_MEASUREMENTS). { eapply conn_rel; [apply conn_measurement|exact H|reflexivity]. }
  destruct (_ =? RC_KEY_EXCHANGE). { eapply conn_rel; [apply conn_key_exchange|exact H|reflexivity]. }
  destruct (_ =? RC_PSK_EXCHANGE). { eapply conn_rel; [apply conn_psk_exchange|exact H|reflexivity]. }
  destruct (_ =? RC_VENDOR_REQ). { eapply conn_rel; [apply conn_vendor|exact H|reflexivity]. }
  destruct (_ =? RC_FINISH). { eapply conn_rel; [apply conn_plain_finish|exact H|reflexivity]. }
  destruct (is_one_of _ _). { eapply conn_rel; [apply conn_handle_error|exact H|reflexivity]. }
  destruct (_ =? RC_RESPOND_IF_READY); [eapply conn_rel; [apply conn_handle_error|exact H|reflexivity]|].
  eapply conn_rel; [apply rel_err, conn_pre|exact H|reflexivity].
Qed.

Lemma frame_phase E f x r x' : digest_sizes (e_cr E) -> eight_slots x -> process_frame E f x = (r, x') ->
  x_conn x' = x_conn x \/
  exists b c, plain_message E f = Some b /\ request_code b = Some c /\ phase_step c (x_conn x) (x_conn x').
Proof.
  intros HL S8 H. unfold process_frame, plain_message in *. destruct (tr_decap _ _ f) as [[b [|]]| |].
  - left. exact (conn_process_secured E b _ _ _ H).
  - apply is_ok_inv in H as [r0 H]. pose proof (dispatch_phase E b x r0 x' HL S8 H) as K.
    destruct (request_code b) as [c|] eqn:C; [|now left]. right. exists b, c. auto.
  - left. unfold sret in H. congruence.
  - left. unfold spanic in H. congruence.
Qed.

(** ** C20: phases advance in order, whatever the peer sends, at every point of every history *)
Theorem C20_phases_advance_in_order :
  forall E x y r z, digest_sizes (e_cr E) -> eight_slots x ->
  served E (process_message E) x y -> process_message E y = (r, z) ->
  x_conn z = x_conn y \/
  exists f b c, e_recv E (x_io y) (x_sent y) = Some f /\ plain_message E f = Some b /\ request_code b = Some c /\
                phase_step c (x_conn y) (x_conn z).
Proof.
  intros E x y r z HL S8 Hs Hp.
  assert (Sy : slots8 y).
  { clear Hp. induction Hs as [|x y0 y r0 Hs IH Hp]; [exact S8|]. specialize (IH S8). unfold process_message in Hp.
    unfold sbind in Hp. destruct (io_recv E y0) as [o y1] eqn:Rv.
    assert (exists f, o = Ok f) as [f ->] by (unfold io_recv in Rv; eexists; match type of Rv with (?a, _) = _ => replace o with a by congruence end; reflexivity).
    pose proof (recv_slots _ _ _ _ IH Rv) as S1. destruct f as [f|]; [exact (frame_slots E f y1 _ _ HL S1 Hp)|].
    unfold sret in Hp. replace y with y1 by congruence. exact S1. }
  unfold process_message, sbind, io_recv in Hp.
  destruct (e_recv E (x_io y) (x_sent y)) as [f|] eqn:Er.
  2:{ left. unfold sret in Hp. match type of Hp with (_, ?w) = _ => replace z with w by congruence end. reflexivity. }
  destruct (BUFFER_SIZE <? len f).
  1:{ left. unfold sret in Hp. match type of Hp with (_, ?w) = _ => replace z with w by congruence end. reflexivity. }
  assert (S1 : eight_slots (set_x_io (x_io y + 1) y)) by exact Sy.
  destruct (frame_phase E f _ r z HL S1 Hp) as [K|(b & c & K1 & K2 & K3)]; [now left|].
  right. exists f, b, c. auto.
Qed.
Print Assumptions C20_phases_advance_in_order.

(** a request out of its phase is answered by ERROR(UnexpectedRequest) and changes nothing else;
    this holds in any state at all *)
Lemma is_ok_send_error E v c d x : just_replies E x (error_message v c d) (is_ok (send_message E (error_bytes v c d)) x).
Proof.
  intros t Ht Hs Hf. unfold is_ok, scatch. rewrite (send_error_ok E v c d x t Ht Hs Hf). reflexivity.
Qed.
Lemma dispatch_unexpected E b c x : request_code b = Some c -> In c [0xE1; 0xE3; 0x81; 0x82; 0x83; 0xE0] ->
  in_phase c (x_conn x) = false -> dispatch_message E b x = send_message E (error_bytes (ver x) ERR_UNEXPECTED_REQUEST 0) x.
Proof.
  intros Hc Hin Hp. destruct (code_header b c Hc) as (h & t & Rh & Hh). unfold dispatch_message. rewrite Rh, Hh. cbv zeta.
  cbn in Hin. destruct Hin as [<-|[<-|[<-|[<-|[<-|[<-|[]]]]]]]; unfold in_phase in Hp; cbn [N.eqb Pos.eqb existsb orb] in Hp;
    unfold RC_GET_VERSION, RC_GET_CAPABILITIES, RC_NEGOTIATE_ALGORITHMS, RC_GET_DIGESTS, RC_GET_CERTIFICATE, RC_CHALLENGE, RC_GET_MEASUREMENTS; cbn [N.eqb Pos.eqb].
  - apply capability_unexpected. now apply N.eqb_neq.
  - apply algorithm_unexpected. now apply N.eqb_neq.
  - apply digest_unexpected. now apply N.leb_gt.
  - apply certificate_unexpected. now apply N.leb_gt.
  - apply challenge_unexpected. now apply N.leb_gt.
  - apply measurement_unexpected. now apply N.leb_gt.
Qed.
Theorem C20_out_of_phase_rejected :
  forall E f b c x, plain_message E f = Some b -> request_code b = Some c ->
  In c [0xE1; 0xE3; 0x81; 0x82; 0x83; 0xE0] -> in_phase c (x_conn x) = false ->
  just_replies E x (error_message (ver x) 4 (* UnexpectedRequest *) 0) (process_frame E f x) /\
  (forall r x', process_frame E f x = (r, x') -> same_but_io x x').
Proof.
  intros E f b c x Hf Hc Hin Hp.
  assert (D : process_frame E f x = is_ok (send_message E (error_bytes (ver x) ERR_UNEXPECTED_REQUEST 0)) x).
  { unfold process_frame, plain_message in *. destruct (tr_decap _ _ f) as [[b0 [|]]| |]; try discriminate.
    replace b0 with b by congruence. unfold is_ok, scatch. now rewrite (dispatch_unexpected E b c x Hc Hin Hp). }
  rewrite D. split; [apply is_ok_send_error|]. intros r x' H. apply is_ok_inv in H as [r0 H]. exact (send_error_same _ _ _ _ _ _ _ H).
Qed.
Print Assumptions C20_out_of_phase_rejected.
(** KEY_EXCHANGE and PSK_EXCHANGE out of phase change nothing either, but get no answer *)
Theorem C20_exchange_out_of_phase_ignored :
  forall E f b c x, plain_message E f = Some b -> request_code b = Some c -> In c [0xE4; 0xE6] ->
  in_phase c (x_conn x) = false -> process_frame E f x = (Ok (Some false), x).
Proof.
  intros E f b c x Hf Hc Hin Hp. destruct (code_header b c Hc) as (h & t & Rh & Hh).
  unfold process_frame, plain_message in *. destruct (tr_decap _ _ f) as [[b0 [|]]| |]; try discriminate.
  replace b0 with b by congruence. unfold is_ok, scatch, dispatch_message. rewrite Rh, Hh. cbv zeta.
  cbn in Hin. destruct Hin as [<-|[<-|[]]]; unfold in_phase in Hp; cbn [N.eqb Pos.eqb existsb orb] in Hp; apply N.leb_gt in Hp;
    unfold RC_GET_VERSION, RC_GET_CAPABILITIES, RC_NEGOTIATE_ALGORITHMS, RC_GET_DIGESTS, RC_GET_CERTIFICATE, RC_CHALLENGE, RC_GET_MEASUREMENTS, RC_KEY_EXCHANGE, RC_PSK_EXCHANGE; cbn [N.eqb Pos.eqb].
  - rewrite (key_exchange_unexpected E b x Hp). reflexivity.
  - rewrite (psk_exchange_unexpected E b x Hp). reflexivity.
Qed.
Print Assumptions C20_exchange_out_of_phase_ignored.

(** a device without peer problems, over a MCTP-like transport, with toy cryptography *)
Definition ex_config : config :=
  mkConfig [0x10; 0x11; 0x12] 0x1BAF7 0x2BAF7 0 0 1 2 2 0x80 8 2 0x80 1 2 0 false 4096 4096 0 [0x10; 0x11].
Definition ex_env : env := mkEnv toy mctp_transport (fun _ _ => None) (fun _ _ => None) (fun _ b => Ok b) (fun b => Ok b) false.
Definition ex_ctx0 : ctx := ctx_new ex_config (repeat None 8) (Some (fill 100 7) :: repeat None 7) None.
Lemma toy_digest_sizes : digest_sizes toy.
Proof.
  intros alg d h H. cbn in H. destruct (hash_size alg) as [n|]; [|discriminate].
  injection H as <-. unfold len. rewrite le_bytes_length, N2Nat.id. reflexivity.
Qed.
Example C20_case_phase : eight_slots ex_ctx0 /\ digest_sizes toy /\
  exists x1, process_frame ex_env [5; 0x10; 0x84; 0; 0] ex_ctx0 = (Ok (Some true), x1) /\ x_conn x1 = 1 /\
             phase_step 0x84 (x_conn ex_ctx0) (x_conn x1).
Proof.
  split; [reflexivity|]. split; [apply toy_digest_sizes|].
  eexists. split; [vm_compute; reflexivity|]. split; [reflexivity|constructor].
Qed.
(** GET_CAPABILITIES before GET_VERSION: all premises hold and the ERROR goes out *)
Example C20_case_rejected :
  let f := [5; 0x11; 0xE1; 0; 0] in
  plain_message ex_env f = Some [0x11; 0xE1; 0; 0] /\ in_phase 0xE1 (x_conn ex_ctx0) = false /\
  exists t, tr_encap (e_tr ex_env) BUFFER_SIZE (error_message 0 4 0) false = Ok t /\ fits ex_ctx0 (error_message 0 4 0) /\
            process_frame ex_env f ex_ctx0 = (Ok (Some true), after_sending t ex_ctx0).
Proof.
  split; [vm_compute; reflexivity|]. split; [reflexivity|]. eexists. split; [vm_compute; reflexivity|].
  split; [now left|]. vm_compute. reflexivity.
Qed.
Example C20_case_exchange : plain_message ex_env [5; 0x11; 0xE4; 0; 0] = Some [0x11; 0xE4; 0; 0] /\
  in_phase 0xE4 (x_conn ex_ctx0) = false.
Proof. split; [vm_compute; reflexivity|reflexivity]. Qed.

(** ** C55: not every rejected request is answered.
    The claim: whenever a plain request is received, its handling fails and the device works, some
    ERROR message has been sent. *)
Definition rejections_are_answered : Prop :=
  forall E f b x x', plain_message E f = Some b ->
  (forall n t, e_send E n t = None) ->
  process_frame E f x = (Ok (Some false), x') -> x_sent x' <> x_sent x.
Theorem C55_rejections_are_answered_refuted : ~ rejections_are_answered.
Proof.
  intro H. apply (H ex_env [5; 0x11; 0xE4; 0; 0] [0x11; 0xE4; 0; 0] ex_ctx0 ex_ctx0); [vm_compute; reflexivity|reflexivity| |reflexivity].
  apply (C20_exchange_out_of_phase_ignored ex_env _ [0x11; 0xE4; 0; 0] 0xE4); [vm_compute; reflexivity|reflexivity|now left|reflexivity].
Qed.
Print Assumptions C55_rejections_are_answered_refuted.
