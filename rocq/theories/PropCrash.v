(** C99, C100: messages that crash the program that receives them. *)
From Verif Require Import Bytes BytesFacts Status Codec Parse ParseProofs CodecProofs Algo Monad MsgConn MsgAuth MsgSession MsgOther Message Opaque SpecMsg MsgRound2.
From Verif Require Import Transport Crypto KeySchedule Session Signing CertOps ChainVerify Context
  RspBase RspConn RspSess RspEncap Responder StRel RspFrame RspCalm SpecSession SpecResponder ToyCrypto PropPhase ExRun PropReset PropDigest PropTable ReqTrans
  ReqBase ReqConn ReqSess SpecReq Pair ExPair ReqFrame SpecAuth ExReach PropRetr.
From Coq Require Import Lia.
Local Open Scope N_scope.

(** The message [b], received outside sessions in whatever frame, panics the responder. *)
Definition crashes_responder (E : env) (b : bytes) (x : ctx) : Prop := forall f, plain_message E f = Some b -> fst (process_frame E f x) = Panic.
Lemma dispatch_crash E b x : fst (dispatch_message E b x) = Panic -> crashes_responder E b x.
Proof.
  intros H f P. unfold plain_message in P. unfold process_frame. destruct (tr_decap _ _ f) as [[m [|]]| |]; [discriminate P| |discriminate P|discriminate P].
  assert (m = b) as -> by congruence. unfold is_ok, scatch. destruct (dispatch_message E b x) as [r y]. cbn [fst] in H. rewrite H. reflexivity.
Qed.

(** The start of a KEY_EXCHANGE: summary type, slot, half session id, policy, reserved, a random number; then anything. *)
Definition short_key_exchange (v t slot half0 half1 policy reserved : N) (random rest : bytes) : bytes :=
  [v; 0xE4; t; slot; half0; half1; policy; reserved] ++ random ++ rest.
Lemma dec_key_ex_crash c t slot half0 half1 policy reserved random rest : mhash_type_ok c t = true -> dhe_size (n_dhe (c_nego c)) = None -> length random = 32%nat ->
  dec_key_ex c (t :: slot :: half0 :: half1 :: policy :: reserved :: random ++ rest) = PPanic.
Proof.
  intros Ht Hd Hr. unfold dec_key_ex. cbn [app]. unfold dbind, dguard, d_u8, d_u16, dlift. cbn [p_u8]. rewrite Ht. cbn.
  unfold dec_nonce. rewrite d_arr_app by exact Hr. unfold dec_exchange, dbind, c_dhe_size. rewrite Hd. reflexivity.
Qed.
(** C99 (refuted).  On a connection without a DHE group every KEY_EXCHANGE of sufficient length panics the responder: *)
Theorem C99_key_exchange_without_dhe_crashes_refuted : forall E x t slot half0 half1 policy reserved random rest,
  CONN_NEGOTIATED <= x_conn x -> 0x11 <= ver x -> n_dhe (x_nego x) = 0 -> summary_type_ok (xc x) t -> length random = 32%nat ->
  crashes_responder E (short_key_exchange (ver x) t slot half0 half1 policy reserved random rest) x.
Proof.
  intros E x t slot half0 half1 policy reserved random rest Hn Hv Hd Ht Hr. apply dispatch_crash. unfold short_key_exchange. cbn [app].
  unfold dispatch_message. set (r := t :: slot :: half0 :: half1 :: policy :: reserved :: random ++ rest).
  change (read_header (ver x :: 0xE4 :: r)) with (Some (mkHeader (ver x) 0xE4, r)). cbv beta iota. cbn [h_code].
  change (fst (handle_key_exchange E (ver x :: 0xE4 :: r) x) = Panic). unfold handle_key_exchange. unfold sbind at 1.
  assert (W : fst (write_key_exchange E (ver x :: 0xE4 :: r) x) = Panic).
  { unfold write_key_exchange, exchange_start. rewrite bind_get. unfold negotiated. rewrite (proj2 (N.leb_le _ _) Hn).
    unfold with_version_r. rewrite bind_get. change (read_header (ver x :: 0xE4 :: r)) with (Some (mkHeader (ver x) 0xE4, r)). cbv beta iota. cbn [h_version].
    rewrite N.eqb_refl. cbn [negb]. rewrite (proj2 (N.leb_le _ _) Hv). rewrite bind_mod.
    unfold sbind, rd. set (y := reset_buffer _ _ x). assert (Ny : x_nego y = x_nego x) by (destruct (calm_facts _ _ _ (calm_reset_buffer RC_KEY_EXCHANGE None x)) as (A & _); exact A).
    unfold r. rewrite dec_key_ex_crash; [reflexivity| |unfold xc; cbn [c_nego]; rewrite Ny, Hd; reflexivity|exact Hr].
    apply mhash_type_ok_spec. unfold summary_type_ok, peer_has, xc in *. cbn [c_nego] in *. rewrite Ny. exact Ht. }
  destruct (write_key_exchange E (ver x :: 0xE4 :: r) x) as [[w|e|] y]; cbn [fst] in W; try discriminate W. reflexivity.
Qed.

(** ... and four short messages of an unauthenticated peer reach that: GET_VERSION, GET_CAPABILITIES,
    NEGOTIATE_ALGORITHMS without a DHE structure, KEY_EXCHANGE. *)
Definition cr_f3 : bytes := [5; 0x12;0xE3;3;0;  44;0;1;2] ++ le_bytes 4 0x80 ++ le_bytes 4 2 ++ fill 12 0 ++ [0;0;0;0] ++ [3;0x20;2;0; 4;0x20;0x80;0; 5;0x20;1;0].
Definition cr_frames : list bytes := [[5; 0x10; 0x84; 0; 0]; f2; cr_f3].
Definition cr_q : bytes := short_key_exchange 0x12 0 0 1 2 0 0 (fill 32 9) [].
Definition cr_x : ctx := Eval vm_compute in ex_after cr_frames 3.
Theorem C99_no_message_crashes_the_responder_refuted :
  ~ (forall E cfg chain_data my_chain root x b, digest_sizes (e_cr E) -> delivers_bytes E -> length my_chain = 8%nat ->
       served E (process_message E) (ctx_new cfg chain_data my_chain root) x ->
       (exists f, plain_message E f = Some b) -> ~ crashes_responder E b x).
Proof.
  intro H. apply (H (ex_replay cr_frames) ex_config2 (repeat None 8) (Some (fill 100 7) :: repeat None 7) None cr_x cr_q).
  - exact toy_digest_sizes.
  - apply replay_delivers; vm_compute; reflexivity.
  - reflexivity.
  - apply (replay_rounds cr_frames 3); vm_compute; reflexivity.
  - exists (5 :: cr_q). vm_compute. reflexivity.
  - change cr_q with (short_key_exchange (ver cr_x) 0 0 1 2 0 0 (fill 32 9) []). apply C99_key_exchange_without_dhe_crashes_refuted.
    + vm_compute. discriminate.
    + vm_compute. discriminate.
    + reflexivity.
    + left. reflexivity.
    + reflexivity.
Qed.

Lemma enc_keeps m z o w : req_enc m z = (o, w) -> w = z.
Proof.
  unfold req_enc. rewrite bind_get. unfold sbind at 1, wenc. destruct (emit _ _) as [[ok b]|]; [|intro H; congruence]. cbn [fst snd].
  unfold sbind at 1, sfail_if. destruct (negb ok); [unfold serr; intro H; congruence|]. cbn [sret]. unfold sbind, sassert. destruct (_ <=? _); unfold sret, spanic; intro H; congruence.
Qed.
(** C100 (refuted).  Once the responder has announced a [CTExponent] of 64 or more, every CHALLENGE that is sent
    panics the requester (the timeout is 2 shifted by it; with overflow checks). *)
Theorem C100_challenge_crashes_refuted : forall E x slot t r x',
  64 <= n_rsp_ct (x_nego x) -> challenge_req E slot t x = (r, x') -> x_sent x' = x_sent x \/ r = Panic.
Proof.
  intros E x slot t r x' Hc H. unfold challenge_req in H.
  unfold sbind at 1, sfail_if in H. destruct (8 <=? slot); [left; cbn in H; congruence|]. cbn [sret] in H.
  rewrite bind_mod in H. pose proof (calm_facts _ _ _ (calm_reset_buffer RC_CHALLENGE None x)) as F.
  assert (Nn : x_nego (reset_buffer RC_CHALLENGE None x) = x_nego x) by apply F.
  assert (Ns : x_sent (reset_buffer RC_CHALLENGE None x) = x_sent x) by reflexivity.
  set (y := reset_buffer RC_CHALLENGE None x) in *. clearbody y. clear F.
  unfold sbind at 1 in H. destruct (get_random (e_cr E) 32 y) as [o z] eqn:G.
  assert (Z : x_nego z = x_nego y /\ x_sent z = x_sent y) by (unfold get_random in G; assert (z = set_x_rng (x_rng y + 1) y) as -> by congruence; split; reflexivity).
  destruct Z as [Z1 Z2]. destruct o as [n|e|]; [|left; congruence|right; congruence].
  unfold sbind at 1, sok in H. destruct n as [nonce|]; [|left; cbn in H; congruence]. cbn [sret] in H. rewrite bind_get in H.
  unfold sbind at 1 in H. destruct (req_enc (challenge_msg z slot t nonce) z) as [o w] eqn:G2.
  assert (w = z) as -> by (exact (enc_keeps _ _ _ _ G2)).
  destruct o as [m|e|]; [|left; congruence|right; congruence].
  unfold sbind at 1 in H. destruct (req_send E m z) as [o w] eqn:G3.
  assert (W : x_nego w = x_nego z /\ (o = Ok tt \/ x_sent w = x_sent z /\ o <> Ok tt)).
  { unfold req_send in G3. rewrite bind_get in G3. unfold sbind at 1, sfail_if in G3. destruct (req_too_large z m); [unfold serr in G3; split; [|right; split]; congruence|]. cbn [sret] in G3.
    unfold sbind, sof in G3. destruct (tr_encap _ _ _ _); [|split; [|right; split]; congruence|split; [|right; split]; congruence].
    unfold io_send in G3. destruct (e_send E (x_io z) a); [split; [|right; split]; try congruence; assert (w = set_x_io (x_io z + 1) z) as -> by congruence; reflexivity|].
    split; [|left; congruence]. match type of G3 with (_, ?q) = _ => assert (w = q) as -> by congruence end. reflexivity. }
  destruct W as (W1 & [->|[W2 W3]]).
  - right. unfold sbind at 1, req_recv in H. unfold sbind at 1, req_timeout in H. rewrite bind_get in H.
    assert (L : (n_rsp_ct (x_nego w) <? 64) = false) by (apply N.ltb_ge; congruence). rewrite L in H. cbn in H. congruence.
  - left. destruct o as [[]|e|]; congruence.
Qed.
(** ... and a responder that announces it connects: *)
Definition ct_env : env := mkEnv (e_cr ex_env) (e_tr ex_env) (fun _ _ => None)
  (fun i sent => match e_recv pr_env i sent with
                 | Some (t :: v :: 0x61 :: a :: b :: r :: ct :: rest) => Some (t :: v :: 0x61 :: a :: b :: r :: 64 :: rest)
                 | o => o end) (e_app ex_env) (e_vendor ex_env) false.
Definition ct1 : ctx := Eval vm_compute in snd (init_connection ct_env pr_req).
Definition ct2 : ctx := Eval vm_compute in snd (get_digests ct_env None ct1).
Definition ct3 : ctx := Eval vm_compute in snd (get_certificate ct_env 10 None 0 ct2).
Example ct_run1 : init_connection ct_env pr_req = (Ok tt, ct1). Proof. vm_compute. reflexivity. Qed.
Example ct_run2 : get_digests ct_env None ct1 = (Ok tt, ct2). Proof. vm_compute. reflexivity. Qed.
Example ct_run3 : get_certificate ct_env 10 None 0 ct2 = (Ok (Some tt), ct3). Proof. vm_compute. reflexivity. Qed.
Lemma reached_ct3 : reached ct_env ct3.
Proof.
  assert (R1 : reached ct_env ct1) by (refine (reached_init _ _ _ _ _ ct_run1); unfold pr_req; apply r_start).
  assert (R2 : reached ct_env ct2) by exact (reached_run _ (ODigests None) _ _ _ R1 ct_run2).
  apply (r_cert _ _ _ _ _ _ _ R2 ct_run3). discriminate.
Qed.
Theorem C100_no_answer_crashes_the_requester_refuted : ~ (forall E x slot t, reached E x -> fst (challenge_req E slot t x) <> Panic).
Proof. intro H. apply (H ct_env ct3 0 1 reached_ct3). vm_compute. reflexivity. Qed.
