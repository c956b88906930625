(** C40-C42: what the requester's success says about its peer. *)
From Verif Require Import Bytes BytesFacts Status Codec Parse ParseProofs Algo Monad.
From Verif Require Import MsgConn MsgAuth MsgSession MsgOther Message Opaque Transport Crypto KeySchedule Session Signing CertOps ChainVerify Context
  RspBase RspConn RspSess RspEncap Responder StRel RspFrame RspCalm RspOpcode RspPass RspEst ReqBase ReqConn ReqSess SpecReq ReqFrame ReqAnswer SpecSession SignProofs SpecAuth ReqTrans ReqSplit ReqHist ReqAuth ReqTable ReqOpen ReqMeas.
From Verif Require Import ToyCrypto Pair ExPair ExReach.
From Coq Require Import Lia.
Local Open Scope N_scope.

(** C40.  Whatever the requester did before: if its challenge succeeds then the device was sent the
    CHALLENGE [s], it answered with [body ++ sig] (and possibly bytes nobody reads), and [sig]
    verifies, under the leaf key of the chain stored for the slot, over the signing string for
    A || B || s || body. *)
Theorem C40_challenge_is_verified :
  forall E x slot t u x', reached E x -> challenge_req E slot t x = (Ok u, x') ->
  exists A B nonce b body sig rest chain n,
    history E A B x /\ length nonce = 32%nat /\
    let s := ver x :: 0x83 :: slot :: t :: nonce in
    exchanged E None x x' s b /\ b = body ++ sig ++ rest /\
    accepted (OChallenge slot t) (asked (OChallenge slot t) x) b (body ++ sig) /\
    asym_size (n_asym (x_nego x)) = Some n /\ len sig = n /\
    slot_of (x_peer_chain x) slot = Some chain /\
    authentic (e_cr E) (x_nego x) chain SigChallenge (match B with Some m => m | None => A end ++ s ++ body) sig.
Proof.
  intros E x slot t u x' R H. destruct (reached_follows _ _ R) as [Hi C].
  unfold challenge_req in H. bi H. apply fail_inv in P as [_ ->]. bi H. apply mod_inv in P as ->. bi H. bi H. apply ok_inv in P0 as [Nn ->].
  bg H. bi H. pose proof (q_enc _ _ _ _ P0) as ->. bi H. bi H.
  pose proof (quiet_handle_challenge _ _ _ _ _ _ _ _ H) as Q. destruct (send_frames E None _ _ _ _ P1) as [S1 S2]. destruct (recv_frames E None _ _ _ _ P2) as [R1 R2].
  apply tk_random in P as T. apply xk_random in P as X.
  assert (Ex : exchanged E None x x' v3 v5). { refine (exchanged_by E None true x _ _ _ _ _ _ _ x' _ P1 (q_refl _) P2 Q); eapply q_trans; [apply quiet_reset_buffer|]; exact (quiet_random _ _ _ _ _ P). }
  assert (Xk : xk x y1). { eapply xk_trans; [apply xk_reset_buffer|]. eapply xk_trans; [exact X|]. eapply xk_trans; eassumption. }
  assert (Xy : xk x y). { eapply xk_trans; [apply xk_reset_buffer|]. exact X. }
  assert (Tk : tk x y1). { eapply tk_trans; [exact (tk_conn_reset RC_CHALLENGE x None eq_refl)|]. eapply tk_trans; [exact T|]. eapply tk_trans; eassumption. }
  apply challenge_wire in P0. assert (Vy : ver y = ver x). { destruct Xy as [Xy _]. unfold ver. apply (f_equal c_nego) in Xy. unfold xc in Xy. cbn [c_nego] in Xy. congruence. }
  rewrite Vy in P0. subst v3.
  apply handle_challenge_ok in H as (body & sig & rest & chain & n & H1 & H2 & H3 & H4 & H5 & H6). destruct Xk as [Xc Xp]. destruct Tk as (T1 & T2 & T3).
  assert (Nz : x_nego y1 = x_nego x). { apply (f_equal c_nego) in Xc. exact Xc. }
  rewrite (asked_xk _ _ _ Xc) in H2. rewrite Nz in H3, H6. rewrite Xp in H5. unfold base in H6. rewrite T1, T2 in H6.
  exists (x_msg_a x), (x_m1m2 x), v2, v5, body, sig, rest, chain, n. split; [exact Hi|]. split.
  { unfold get_random in P. subst v1. destruct (cr_random _ _ _) as [w|]; [|discriminate]. destruct (Nat.eqb_spec (length w) 32); [|discriminate]. congruence. }
  auto 10.
Qed.
Print Assumptions C40_challenge_is_verified.
(** The transcript is exactly what was exchanged: after a successful GET_DIGESTS (outside a session)
    B is that exchange, each successful GET_CERTIFICATE adds its own. *)
Theorem C40_transcript_follows_the_exchanges :
  forall E x, reached E x -> history E (x_msg_a x) (x_m1m2 x) x.
Proof. intros E x R. apply (reached_follows _ _ R). Qed.
Print Assumptions C40_transcript_follows_the_exchanges.
(** Case: the pair of ExPair.v — connection, digests, certificate, then the challenge. *)
Example C40_case : reached pr_env pr3 /\ exists u, challenge_req pr_env 0 1 pr3 = (Ok u, pr4).
Proof. split; [exact reached_pr3|]. exists tt. exact run4. Qed.

(** C41.  Whatever the requester did before: if a measurement with signature succeeds, on the bare
    connection or in a session, then the GET_MEASUREMENTS [s] was sent on that channel, it was
    answered with [body ++ sig] (and possibly bytes nobody reads), and [sig] verifies, under the leaf
    key of the chain stored for the slot, over the signing string for L || s || body, where L is
    everything measured on the channel since its transcript last started (and A first, from 1.2 on). *)
Theorem C41_measurement_is_verified :
  forall E x sid slot attr op r x', reached E x -> sid <> Some 0 -> N.testbit attr 0 = true ->
  get_measurements E sid slot attr op x = (Ok r, x') ->
  exists L nonce b body sig rest chain n,
    measured E sid L x /\ length nonce = 32%nat /\
    let s := ver x :: 0xE0 :: attr :: op :: nonce ++ (if 0x11 <=? ver x then [slot] else []) in
    exchanged E sid x x' s b /\ b = body ++ sig ++ rest /\
    accepted (OMeasurements sid slot attr op) (asked (OMeasurements sid slot attr op) x) b (body ++ sig) /\
    asym_size (n_asym (x_nego x)) = Some n /\ len sig = n /\
    slot_of (x_peer_chain x) slot = Some chain /\
    authentic (e_cr E) (x_nego x) chain SigMeasurements (match L with Some d => d | None => l1l2_start x end ++ s ++ body) sig.
Proof.
  intros E x sid slot attr op r x' R Nz B H. pose proof (reached_traced _ _ R sid Nz) as M.
  apply meas_run in H as (nonce & b & body & sig & rest & Ln & Ex & Eb & Ac & K). rewrite B in Ex, K. destruct K as [(n & chain & K1 & K2 & K3 & K4) _].
  exists (l12 sid x), nonce, b, body, sig, rest, chain, n. split; [exact M|]. split; [exact Ln|]. cbv zeta. split; [exact Ex|]. split; [exact Eb|]. split; [exact Ac|].
  split; [exact K1|]. split; [exact K2|]. split; [exact K3|exact K4].
Qed.
Print Assumptions C41_measurement_is_verified.
(** Unsigned measurements are not lost: after a successful one the transcript is what it was, then
    the request and the response, and it is this that the next signature has to cover. *)
Theorem C41_unsigned_measurement_is_recorded :
  forall E x sid slot attr op r x', reached E x -> sid <> Some 0 -> N.testbit attr 0 = false ->
  get_measurements E sid slot attr op x = (Ok r, x') ->
  exists L b body rest, measured E sid L x /\
    let s := [ver x; 0xE0; attr; op] in
    exchanged E sid x x' s b /\ b = body ++ rest /\
    measured E sid (Some (match L with Some d => d | None => l1l2_start x end ++ s ++ body)) x' /\
    (match sid with None => x_l1l2 x' | Some id => match get_sess id x' with Some t => s_l1l2 t | None => None end end)
      = Some (match L with Some d => d | None => l1l2_start x end ++ s ++ body).
Proof.
  intros E x sid slot attr op r x' R Nz B H. pose proof (reached_traced _ _ R sid Nz) as M.
  assert (R' : run E (OMeasurements sid slot attr op) x = (Ok tt, x')) by (cbn [run]; exact (drop_run _ _ _ _ H)).
  apply meas_run in H as (nonce & b & body & sig & rest & Ln & Ex & Eb & Ac & K). rewrite B in Ex, K. destruct K as [-> K]. rewrite app_nil_r in Ac. cbn [app] in Eb.
  exists (l12 sid x), b, body, rest. split; [exact M|]. cbv zeta. split; [exact Ex|]. split; [exact Eb|]. split; [|exact K].
  exact (ms_add _ _ _ _ _ _ _ _ _ _ _ M R' B Ex Ac).
Qed.
Print Assumptions C41_unsigned_measurement_is_recorded.
(** Case: the pair of ExPair.v — an unsigned measurement, then a signed one. *)
Definition m1 : ctx := Eval vm_compute in snd (get_measurements pr_env None 0 0 1 pr4).
Definition m2 : ctx := Eval vm_compute in snd (get_measurements pr_env None 0 1 0xFF m1).
Example C41_case : reached pr_env m1 /\ (exists u, get_measurements pr_env None 0 0 1 pr4 = (Ok u, m1)) /\
  (exists u, get_measurements pr_env None 0 1 0xFF m1 = (Ok u, m2)) /\ x_l1l2 m1 <> None.
Proof.
  assert (K : exists u, get_measurements pr_env None 0 0 1 pr4 = (Ok u, m1)) by (eexists; vm_compute; reflexivity).
  split; [destruct K as [u K]; exact (reached_run _ (OMeasurements None 0 0 1) _ _ _ reached_pr4 (drop_run _ _ _ _ K))|].
  split; [exact K|]. split; [eexists; vm_compute; reflexivity|]. clear K.
  assert (K : match x_l1l2 m1 with Some _ => true | None => false end = true) by (vm_compute; reflexivity). destruct (x_l1l2 m1); discriminate.
Qed.
