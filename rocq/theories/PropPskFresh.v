(** C97, C98: the responder's contribution to a PSK session. *)
From Verif Require Import Bytes BytesFacts Status Codec Parse ParseProofs Algo Monad MsgConn MsgAuth MsgSession MsgOther Message Opaque.
From Verif Require Import Transport Crypto KeySchedule Session Signing CertOps ChainVerify Context
  RspBase RspConn RspSess RspEncap Responder StRel RspFrame RspCalm RspOpcode SpecSession SpecResponder ToyCrypto PropPhase ExRun PropReset PropDigest ReqTrans ReqTwin PropTable.
From Coq Require Import Lia.
Local Open Scope N_scope.

(** the same device with another source of random bytes *)
Definition rand_crypto (g : N -> nat -> option bytes) (c : crypto) : crypto :=
  mkCrypto (cr_hash c) (cr_extract c) (cr_expand c) (cr_hmac c) (cr_hmac_verify c) (cr_seal c) (cr_open c) (cr_verify c)
    (cr_sign c) (cr_verify_chain c) (cr_dhe_public c) (cr_dhe_final c) g (cr_psk_hs c) (cr_psk_ms c) (cr_measure c) (cr_summary c).
Definition with_random (g : N -> nat -> option bytes) (E : env) : env :=
  mkEnv (rand_crypto g (e_cr E)) (e_tr E) (e_send E) (e_recv E) (e_app E) (e_vendor E) (e_mut_auth E).

Lemma sbind_same {S A B} (m m' : st S A) (k k' : A -> st S B) x : m x = m' x -> (forall a y, m x = (Ok a, y) -> k a y = k' a y) -> sbind m k x = sbind m' k' x.
Proof. intros Hm Hk. unfold sbind. rewrite <- Hm. destruct (m x) as [[a| |] y]; [exact (Hk a y eq_refl)|reflexivity|reflexivity]. Qed.
Lemma finishing_random g E w id req op hash m : psk_exchange_finishing (with_random g E) w id req op hash m = psk_exchange_finishing E w id req op hash m.
Proof. reflexivity. Qed.
Lemma nego_summary E t x r y : summary E t x = (r, y) -> x_nego y = x_nego x.
Proof. unfold summary. destruct (_ || _); unfold sbind, smod, sget, sret; intro H; match type of H with (_, ?q) = _ => assert (y = q) as -> by congruence end; reflexivity. Qed.
Lemma nego_reset c sid x : x_nego (reset_buffer c sid x) = x_nego x.
Proof. destruct (calm_facts _ _ _ (calm_reset_buffer c sid x)) as (A & _). exact A. Qed.
Lemma write_psk_random g E b x : psk_no_ctx (xc x) = false -> write_psk_exchange (with_random g E) b x = write_psk_exchange E b x.
Proof.
  intro N0. unfold write_psk_exchange, exchange_start. rewrite !bind_get. destruct (negotiated x); [|reflexivity].
  unfold with_version_r. rewrite !bind_get. destruct (read_header b) as [[h r]|]; [|reflexivity]. destruct (negb _); [reflexivity|]. destruct (_ <=? _); [|reflexivity].
  rewrite !bind_mod. pose proof (nego_reset RC_PSK_EXCHANGE None x) as N1. set (x1 := reset_buffer RC_PSK_EXCHANGE None x) in *. clearbody x1.
  apply sbind_same; [reflexivity|]. intros [[p rest]|] y Hy; [|reflexivity].
  assert (y = x1) as -> by (unfold rd in Hy; destruct (dec_psk_ex _ _); congruence). clear Hy.
  apply sbind_same; [reflexivity|]. intros s y Hs. change (summary E (px_hash_type p) x1 = (Ok s, y)) in Hs. pose proof (nego_summary _ _ _ _ _ Hs) as N2.
  apply sbind_same; [reflexivity|]. intros sum z Hz. assert (z = y) as -> by (unfold sok, sret, serr in Hz; destruct s; congruence).
  rewrite !bind_get. apply sbind_same; [reflexivity|]. intros op z Hop. assert (z = y) as -> by (unfold sof in Hop; congruence). cbv zeta.
  assert (W : psk_no_ctx (xc y) = false) by (unfold psk_no_ctx, rsp_has, xc in *; cbn [c_nego] in *; rewrite N2, N1; exact N0). rewrite W.
  reflexivity.
Qed.
(** C98 (refuted): nothing the responder puts into a PSK session is fresh.  With a PSK context negotiated, what
    a responder does with PSK_EXCHANGE is independent of its source of random bytes: *)
Theorem C98_psk_answer_is_not_fresh_refuted : forall E g f b x,
  plain_message E f = Some b -> request_code b = Some 0xE6 -> N.land (n_rsp_cap (x_nego x)) 0x400 <> 0x400 ->
  process_frame (with_random g E) f x = process_frame E f x.
Proof.
  intros E g f b x Pf Rc Nc. assert (Pf' : plain_message (with_random g E) f = Some b) by exact Pf. rewrite (frame_plain _ f b x Pf), (frame_plain _ f b x Pf').
  destruct (code_header b _ Rc) as (h & t & Rh & Hh). unfold is_ok, dispatch_message. rewrite Rh, Hh.
  assert (W : psk_no_ctx (xc x) = false) by (unfold psk_no_ctx, rsp_has, contains; apply N.eqb_neq; exact Nc).
  assert (K : handle_psk_exchange (with_random g E) b x = handle_psk_exchange E b x).
  { unfold handle_psk_exchange. apply sbind_same; [apply write_psk_random; exact W|reflexivity]. }
  match goal with |- scatch _ ?k x = _ => change (scatch (handle_psk_exchange (with_random g E) b) k x = scatch (handle_psk_exchange E b) k x) end. unfold scatch. rewrite K. reflexivity.
Qed.

(** ... so that a recorded session can be replayed by anyone: whatever random bytes the responder draws, the
    frames of the earlier session (GET_VERSION to PSK_FINISH) establish it again, with the same keys, and the
    recorded application data is accepted and answered again.  The responder itself supports a PSK context. *)
Definition pf_frames : list bytes := [[5; 0x10; 0x84; 0; 0]; f2; f3; f4; f5].
Definition pf_data : bytes := Eval vm_compute in secured ex5 [1; 2; 3; 4] true.
Definition run_on (E : env) (x : ctx) (l : list bytes) : ctx := fold_left (fun y f => snd (process_frame E f y)) l x.
Definition pf_x : ctx := Eval vm_compute in run_on ex_env ex_ctx2 (pf_frames ++ [pf_data]).
Lemma pf_again : forall g, run_on (with_random g ex_env) pf_x pf_frames = run_on ex_env pf_x pf_frames.
Proof. intro g. vm_compute. reflexivity. Qed.
Theorem C98_recorded_session_replays_refuted : exists E cfg chain_data my_chain root frames data id,
  let x := run_on E (ctx_new cfg chain_data my_chain root) (frames ++ [data]) in
  (N.land (n_rsp_cap (x_nego x)) 0x800 = 0x800 /\ N.land (n_rsp_cap (x_nego x)) 0x400 <> 0x400) /\
  (exists s, get_sess id x = Some s /\ s_state s = SEstablished /\ d_seq (a_req_dir (s_app s)) = 1) /\
  forall g, let y := run_on (with_random g E) x frames in
    (exists s, get_sess id y = Some s /\ s_state s = SEstablished /\ d_seq (a_req_dir (s_app s)) = 0) /\
    fst (process_frame (with_random g E) data y) = Ok (Some true) /\
    exists reply, x_sent (snd (process_frame (with_random g E) data y)) = reply :: x_sent y.
Proof.
  exists ex_env, ex_config2, (repeat None 8), (Some (fill 100 7) :: repeat None 7), None, pf_frames, pf_data, ex_id. cbv zeta.
  assert (X : run_on ex_env (ctx_new ex_config2 (repeat None 8) (Some (fill 100 7) :: repeat None 7) None) (pf_frames ++ [pf_data]) = pf_x) by (vm_compute; reflexivity). rewrite X.
  split; [split; [vm_compute; reflexivity|vm_compute; discriminate]|]. split; [eexists; split; [vm_compute; reflexivity|split; reflexivity]|].
  intro g. rewrite pf_again. split; [eexists; split; [vm_compute; reflexivity|split; reflexivity]|]. split; [vm_compute; reflexivity|]. eexists. vm_compute. reflexivity.
Qed.
Example C98_case : plain_message ex_env f4 = Some (tl f4) /\ request_code (tl f4) = Some 0xE6 /\ N.land (n_rsp_cap (x_nego ex3)) 0x400 <> 0x400 /\ fst (process_frame ex_env f4 ex3) = Ok (Some true).
Proof. split; [|split; [|split]]; vm_compute; first [reflexivity|discriminate]. Qed.
