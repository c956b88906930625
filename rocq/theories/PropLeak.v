(** C43 and what is false about failed handshakes. *)
From Verif Require Import Bytes BytesFacts Status Codec Parse ParseProofs Algo Monad.
From Verif Require Import MsgConn MsgAuth MsgSession MsgOther Message Opaque Transport Crypto KeySchedule Session Signing CertOps ChainVerify Context
  RspBase RspConn RspSess RspEncap Responder StRel RspFrame RspCalm RspOpcode RspPass RspSlots RspTable RspIso RspEst ReqBase ReqConn ReqSess SpecReq ReqFrame ReqAnswer ReqTrans SpecAuth ReqSplit ReqHist ReqTable ReqOpen ReqAuth.
From Verif Require Import SpecSession SpecKeys SpecHand ReqHand ReqHand2 ReqHand3 PropReqTable PropHand ToyCrypto PropPhase ExRun Pair ExPair ExReach.
From Coq Require Import Lia.
Local Open Scope N_scope.

(** ** C43: a failed FINISH or PSK_FINISH frees the session's slot *)
Definition frees {A} (id : N) (m : st ctx A) : Prop := forall x e x', rtok x -> m x = (Err e, x') -> get_sess id x' = None.
Definition dkk {A} (id : N) (m : st ctx A) : Prop := rel (dk None (Some id)) m.
Lemma frees_bind {A B} id (m : st ctx A) (k : A -> st ctx B) : frees id m -> dkk id m -> (forall a, frees id (k a)) -> frees id (sbind m k).
Proof.
  intros M D K x e x' T H. unfold sbind in H. destruct (m x) as [[a|f|] y] eqn:F; [exact (K _ _ _ _ (rtok_dk _ _ _ _ (D _ _ _ F) T) H)| |discriminate].
  replace x' with y by congruence. exact (M _ _ _ T F).
Qed.
Lemma frees_abandon {A} id e : id <> 0 -> frees id (@req_abandon A id e).
Proof.
  intros Z x f x' T H. unfold req_abandon, sbind in H. destruct (on_sess id (session_teardown id) x) as [o y] eqn:F.
  assert (G : get_sess id x <> None) by (intro G; unfold on_sess in F; rewrite G in F; replace o with (@Panic unit) in H by congruence; discriminate).
  destruct (teardown_slot id x o y T Z G F) as [_ K]. destruct o as [u|f'|]; [unfold serr in H|..]; replace x' with y by congruence; exact K.
Qed.
Lemma frees_or_teardown {A} id (m : st ctx A) : id <> 0 -> dkk id m -> frees id (or_teardown id m).
Proof.
  intros Z D x e x' T H. unfold or_teardown, scatch in H. destruct (m x) as [[a|f|] y] eqn:F; try discriminate.
  exact (frees_abandon id f Z _ _ _ (rtok_dk _ _ _ _ (D _ _ _ F) T) H).
Qed.
Lemma frees_or_teardown_if {A} id (m : st ctx A) : id <> 0 -> dkk id m -> frees id (or_teardown_if id m).
Proof.
  intros Z D x e x' T H. unfold or_teardown_if, scatch in H. destruct (m x) as [[a|f|] y] eqn:F; try discriminate. rewrite bind_get in H.
  destruct (get_sess id y) eqn:G; [exact (frees_abandon id f Z _ _ _ (rtok_dk _ _ _ _ (D _ _ _ F) T) H)|]. unfold serr in H. congruence.
Qed.
Lemma frees_no {A} id (m : st ctx A) : never m -> frees id m.
Proof. intros N x e x' _ H. exfalso. exact (N _ _ _ H). Qed.
Ltac fd id := unfold dkk; dd (@None (option N)) (Some id).
Lemma never_ok_some {A} e (a : A) : never (sok e (Some a)).
Proof. intros x f x' H. discriminate. Qed.
Theorem C43_failed_finish_frees : forall E x id o e x', reached E x -> id <> 0 -> get_sess id x <> None ->
  o = OFinish None id \/ o = OPskFinish id -> run E o x = (Err e, x') ->
  get_sess id x' = None /\
  forall i, i <> 0 -> get_sess i x = None -> get_sess i x' = None.
Proof.
  intros E x id o e x' R Z G O H. pose proof (reached_rtok _ _ R) as T. split.
  - destruct O as [-> | ->]; cbn [run] in H.
    + unfold finish_req in H. rewrite bind_get in H. cbv zeta in H. unfold sbind at 1 in H. unfold sret at 1 in H. unfold sbind at 1 in H. destruct (get_sess id x); [|congruence]. unfold sok, sret at 1 in H.
      revert H. match goal with |- ?m x = _ -> _ => assert (F : frees id m); [|intro H; exact (F _ _ _ T H)] end. clear x' T G s.
      apply frees_bind; [apply frees_no, never_mod|fd id|intros _].
      apply frees_bind; [apply frees_or_teardown; [exact Z|]|apply dk_or_teardown|intro w]; [unfold encode_finish, finish_signature; fd id|unfold encode_finish, finish_signature; fd id|].
      apply frees_bind; [apply frees_or_teardown; [exact Z|]|apply dk_or_teardown|intros _]; [destruct (in_clear _); fd id|destruct (in_clear _); fd id|].
      apply frees_bind; [apply frees_or_teardown; [exact Z|]|apply dk_or_teardown|intros b]; [destruct (in_clear _); fd id|destruct (in_clear _); fd id|].
      apply frees_or_teardown_if; [exact Z|apply dk_handle_finish].
    + unfold psk_finish_req in H. rewrite bind_get in H. unfold sbind at 1 in H. destruct (get_sess id x); [|congruence]. unfold sok, sret at 1 in H.
      revert H. match goal with |- ?m x = _ -> _ => assert (F : frees id m); [|intro H; exact (F _ _ _ T H)] end. clear x' T G s.
      apply frees_bind; [apply frees_no, never_mod|fd id|intros _].
      apply frees_bind; [apply frees_or_teardown; [exact Z|]|apply dk_or_teardown|intro w]; [unfold encode_psk_finish; fd id|unfold encode_psk_finish; fd id|].
      apply frees_bind; [apply frees_or_teardown; [exact Z|fd id]|apply dk_or_teardown; fd id|intros _].
      apply frees_bind; [apply frees_or_teardown; [exact Z|fd id]|apply dk_or_teardown; fd id|intros b].
      apply frees_or_teardown_if; [exact Z|apply dk_handle_psk_finish].
  - intros i Zi Gi. pose proof (run_dk E o) as D. destruct (get_sess i x') as [s|] eqn:Gs; [|reflexivity]. exfalso. apply get_in in Gs as [I Q].
    assert (D' : dk (meas_of o) (Some id) x x') by (destruct O as [-> | ->]; exact (D eq_refl _ _ _ H)). destruct D' as [D' _]. destruct (Forall2_in_r _ _ _ _ D' I) as (t & It & Kt).
    assert (Et : s_id t = i) by (destruct Kt as [[K _]|(K & _)]; congruence). apply (in_get x t T) in It; congruence.
Qed.
Print Assumptions C43_failed_finish_frees.
(** Case: FINISH on the session of [pr6] when the peer does not answer. *)
Definition deaf (E : env) : env := mkEnv (e_cr E) (e_tr E) (e_send E) (fun n sent => if 8 <=? N.of_nat (length sent) then None else e_recv E n sent) (e_app E) (e_vendor E) false.
Definition df1 : ctx := Eval vm_compute in snd (init_connection (deaf pr_env) pr_req).
Definition df2 : ctx := Eval vm_compute in snd (get_digests (deaf pr_env) None df1).
Definition df3 : ctx := Eval vm_compute in snd (get_certificate (deaf pr_env) 10 None 0 df2).
Definition df4 : ctx := Eval vm_compute in snd (key_exchange_req (deaf pr_env) 0 1 df3).
Lemma reached_df4 : reached (deaf pr_env) df4.
Proof.
  assert (K1 : init_connection (deaf pr_env) pr_req = (Ok tt, df1)) by (vm_compute; reflexivity). assert (K2 : get_digests (deaf pr_env) None df1 = (Ok tt, df2)) by (vm_compute; reflexivity).
  assert (K3 : get_certificate (deaf pr_env) 10 None 0 df2 = (Ok (Some tt), df3)) by (vm_compute; reflexivity). assert (K4 : key_exchange_req (deaf pr_env) 0 1 df3 = (Ok pr_id, df4)) by (vm_compute; reflexivity).
  apply (reached_run _ (OKeyExchange 0 1) df3 tt); [|exact (drop_run _ _ _ _ K4)]. refine (r_cert _ df2 _ _ _ _ _ _ K3 _); [|discriminate].
  apply (reached_run _ (ODigests None) df1 tt); [|exact K2]. refine (reached_init _ pr_req _ _ _ K1). unfold pr_req. apply r_start.
Qed.
Definition errb {A} (o : outcome A) : bool := match o with Err _ => true | _ => false end.
Lemma errb_err {A} (r : outcome A * ctx) : errb (fst r) = true -> exists e, r = (Err e, snd r).
Proof. destruct r as [[a|e|] x]; cbn; try discriminate. eauto. Qed.
Example C43_case : reached (deaf pr_env) df4 /\ pr_id <> 0 /\ get_sess pr_id df4 <> None /\
  exists e, run (deaf pr_env) (OFinish None pr_id) df4 = (Err e, snd (run (deaf pr_env) (OFinish None pr_id) df4)).
Proof. split; [exact reached_df4|]. split; [discriminate|]. split; [vm_compute; discriminate|]. apply errb_err. vm_compute. reflexivity. Qed.

(** ** what is false of the code *)
(** the number of free slots *)
Definition free_slots (x : ctx) : nat := length (filter (fun s => s_id s =? 0) (x_sess x)).
(** two honest ends, both with HANDSHAKE_IN_THE_CLEAR *)
Definition ic_config : config := mkConfig [0x10; 0x11; 0x12] 0xE6C6 0xEAF6 0 0 1 2 2 0x80 8 2 0x80 1 2 0 false 4096 4096 0 [0x10; 0x11].
Definition ic_rsp : ctx := ctx_new ic_config (Some (ex_root ++ ex_leaf) :: repeat None 7) (repeat None 8) None.
Definition ic_req : ctx := ctx_new ic_config (repeat None 8) (repeat None 8) (Some ex_root).
Definition ic_env : env := facing ex_env ex_env ic_rsp.
Definition ic1 : ctx := Eval vm_compute in snd (init_connection ic_env ic_req).
Definition ic2 : ctx := Eval vm_compute in snd (get_digests ic_env None ic1).
Definition ic3 : ctx := Eval vm_compute in snd (get_certificate ic_env 10 None 0 ic2).
Definition ic4 : ctx := Eval vm_compute in snd (key_exchange_req ic_env 0 0 ic3).
Lemma reached_three E x1 x2 x3 : init_connection E ic_req = (Ok tt, x1) -> get_digests E None x1 = (Ok tt, x2) -> get_certificate E 10 None 0 x2 = (Ok (Some tt), x3) -> reached E x3.
Proof.
  intros K1 K2 K3. refine (r_cert _ x2 _ _ _ _ _ _ K3 _); [|discriminate].
  apply (reached_run _ (ODigests None) x1 tt); [|exact K2]. refine (reached_init _ ic_req _ _ _ K1). unfold ic_req. apply r_start.
Qed.
Lemma reached_ic3 : reached ic_env ic3.
Proof. apply (reached_three ic_env ic1 ic2 ic3); vm_compute; reflexivity. Qed.
(** FALSE: a failed KEY_EXCHANGE leaves the number of free slots as it was *)
Theorem C60_failed_key_exchange_leaks_refuted : ~ (forall E x slot t e x', reached E x -> run E (OKeyExchange slot t) x = (Err e, x') -> free_slots x' = free_slots x).
Proof.
  intro C. assert (K : exists e, run ic_env (OKeyExchange 0 0) ic3 = (Err e, snd (run ic_env (OKeyExchange 0 0) ic3))) by (apply errb_err; vm_compute; reflexivity).
  destruct K as [e K]. pose proof (C _ _ _ _ _ _ reached_ic3 K) as F. clear K C. set (a := free_slots _) in F at 1. assert (Q : a = 3%nat) by (vm_compute; reflexivity). rewrite Q in F. assert (Q' : free_slots ic3 = 4%nat) by (vm_compute; reflexivity). rewrite Q' in F. discriminate F.
Qed.
Print Assumptions C60_failed_key_exchange_leaks_refuted.
(** FALSE: with both ends honest and both able to do the handshake in the clear, KEY_EXCHANGE succeeds:
    the responder leaves the signature out of the message it sends (key_exchange_rsp.rs:374-416) *)
Theorem C61_in_clear_handshake_completes_refuted : ~ (forall cfg chain,
  let E := facing ex_env ex_env (ctx_new cfg (Some chain :: repeat None 7) (repeat None 8) None) in
  forall x, reached E x -> in_clear (xc x) = true -> slot_of (x_peer_chain x) 0 <> None -> free_slots x = 4%nat -> exists id x', key_exchange_req E 0 0 x = (Ok id, x')).
Proof.
  intro C. specialize (C ic_config (ex_root ++ ex_leaf)). cbv zeta in C. 
  assert (K : exists e, key_exchange_req ic_env 0 0 ic3 = (Err e, snd (key_exchange_req ic_env 0 0 ic3))) by (apply errb_err; vm_compute; reflexivity). destruct K as [e K].
  destruct (C ic3 reached_ic3) as (id & x' & Q); [vm_compute; reflexivity|vm_compute; discriminate|vm_compute; reflexivity|].
  pose proof (eq_trans (eq_sym K) Q) as F. discriminate F.
Qed.
Print Assumptions C61_in_clear_handshake_completes_refuted.
(** FALSE: FINISH only establishes a session whose KEY_EXCHANGE was verified.  The slot left behind by
    the failed KEY_EXCHANGE above is in state NotStarted with no finished keys at all, and FINISH in the
    clear does not look at the state: whoever can compute an HMAC under the empty key can answer it. *)
Definition ic_fin : bytes := Eval vm_compute in tl (hd [] (x_sent (snd (finish_req ic_env None pr_id ic4)))).
Definition forge (x : ctx) (fin : bytes) : bytes :=
  match get_sess pr_id x with
  | Some s =>
      match s_th s with
      | Some t =>
          match cr_hash toy (s_hash s) (t ++ fin ++ [0x12; 0x65; 0; 0]) with
          | Some h => match cr_hmac toy (s_hash s) (h_rsp_fin (s_hs s)) h with Some m => [5; 0x12; 0x65; 0; 0] ++ m | None => [1] end
          | None => [2] end
      | None => [3] end
  | None => [4] end.
Definition ic_forged : bytes := Eval vm_compute in forge ic4 ic_fin.
Definition ic_bad : env := mkEnv (e_cr ic_env) (e_tr ic_env) (e_send ic_env) (fun n sent => if 8 <=? N.of_nat (length sent) then Some ic_forged else e_recv ic_env n sent) (e_app ic_env) (e_vendor ic_env) false.
Definition ib4 : ctx := Eval vm_compute in snd (run ic_bad (OKeyExchange 0 0) ic3).
(** the forger keeps quiet until then *)
Lemma reached_ib3 : reached ic_bad ic3.
Proof. apply (reached_three ic_bad ic1 ic2 ic3); vm_compute; reflexivity. Qed.
Lemma reached_ib4 : reached ic_bad ib4.
Proof.
  assert (K : exists e, run ic_bad (OKeyExchange 0 0) ic3 = (Err e, ib4)) by (eexists; vm_compute; reflexivity). destruct K as [e K].
  refine (r_op _ _ _ _ _ reached_ib3 K _). discriminate.
Qed.
Theorem C62_finish_needs_verified_exchange_refuted : ~ (forall E x rs id s u x', reached E x -> get_sess id x = Some s -> s_state s = SNotStarted ->
  run E (OFinish rs id) x <> (Ok u, x')).
Proof.
  intro C. assert (K : exists u, run ic_bad (OFinish None pr_id) ib4 = (Ok u, snd (run ic_bad (OFinish None pr_id) ib4))) by (apply okb_ok; vm_compute; reflexivity).
  destruct K as [u K]. assert (G : option_map s_state (get_sess pr_id ib4) = Some SNotStarted) by (vm_compute; reflexivity). destruct (get_sess pr_id ib4) as [s|] eqn:Gs; [|discriminate].
  cbn [option_map] in G. refine (C _ _ _ _ _ _ _ reached_ib4 Gs _ K). congruence.
Qed.
Print Assumptions C62_finish_needs_verified_exchange_refuted.
(** FALSE of the responder too: a frame that leaves every session as unusable as before takes no slot.
    Here signing fails. *)
Definition mute : crypto :=
  mkCrypto (cr_hash toy) (cr_extract toy) (cr_expand toy) (cr_hmac toy) (cr_hmac_verify toy) (cr_seal toy) (cr_open toy) (cr_verify toy)
    (fun _ _ _ => None) (cr_verify_chain toy) (cr_dhe_public toy) (cr_dhe_final toy) (cr_random toy) (cr_psk_hs toy) (cr_psk_ms toy) (cr_measure toy) (cr_summary toy).
Definition mu_env : env := mkEnv mute (e_tr ex_env) (e_send ex_env) (e_recv ex_env) (e_app ex_env) (e_vendor ex_env) false.
Definition mu_frames : list bytes := Eval vm_compute in rev (x_sent df3).
Definition mu_kx : bytes := Eval vm_compute in hd [] (x_sent df4).
Definition usable_ids (x : ctx) : list N := map s_id (filter (fun s => match s_state s with SNotStarted => false | _ => true end) (x_sess x)).
Theorem C60_responder_key_exchange_leaks_refuted : ~ (forall E cfg cd mc root frames f,
  let x := peer_after E (ctx_new cfg cd mc root) frames in
  let x' := snd (process_frame E f x) in
  usable_ids x' = usable_ids x -> (free_slots x <= free_slots x')%nat).
Proof.
  intro C. specialize (C mu_env ex_config2 (Some (ex_root ++ ex_leaf) :: repeat None 7) (repeat None 8) None mu_frames mu_kx). cbv zeta in C.
  match type of C with ?a = ?b -> (?c <= ?d)%nat => assert (A : a = []) by (vm_compute; reflexivity); assert (B : b = []) by (vm_compute; reflexivity);
    assert (K : c = 4%nat) by (vm_compute; reflexivity); assert (L : d = 3%nat) by (vm_compute; reflexivity) end.
  rewrite A, B, K, L in C. specialize (C eq_refl). lia.
Qed.
Print Assumptions C60_responder_key_exchange_leaks_refuted.
