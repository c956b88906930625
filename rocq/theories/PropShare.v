(** C74: a PSK session opened between the library's two ends is shared by both. *)
From Verif Require Import Bytes BytesFacts Status Codec Parse ParseProofs Algo Monad MsgConn MsgAuth MsgSession MsgOther Message Opaque SpecMsg MsgProofs MsgRound MsgRound2.
From Verif Require Import Transport Crypto KeySchedule Session Signing CertOps ChainVerify Context SessionProofs
  RspBase RspConn RspSess RspEncap Responder StRel RspFrame RspCalm RspOpcode RspPass RspSlots RspCfg RspEst RspTable ReqBase ReqConn ReqSess SpecReq ReqFrame ReqAnswer SpecSession SpecAuth ReqOpen SpecPair RspPair Pair Twin ReqTwin RspTwin WireTwin SpecResponder PropTable SpecRetr PairTwin SecTwin FinTwin PropStep SpecShare.
From Coq Require Import Lia.
Local Open Scope N_scope.

Lemma same_public c d : same_algorithms c d -> public c = public d.
Proof. unfold same_algorithms, public. intros (-> & -> & -> & -> & -> & -> & -> & -> & ->). reflexivity. Qed.
Lemma same_forget x y : same_parameters x y -> same_nego (x_nego x) (x_nego y).
Proof. unfold same_parameters, same_nego, forget. cbv zeta. intros (-> & -> & -> & -> & -> & -> & -> & -> & -> & -> & ->). reflexivity. Qed.
(** the responder after frames of bytes *)
Lemma peer_ok Er cfg cd mc root l : digest_sizes (e_cr Er) -> (forall room f b s, bytes_ok f -> tr_decap (e_tr Er) room f = Ok (b, s) -> bytes_ok b) -> length mc = 8%nat -> Forall bytes_ok l ->
  let y := peer_after Er (ctx_new cfg cd mc root) l in slots8 y /\ tok y /\ x_cfg y = cfg.
Proof.
  intros HL HD Hm F y. unfold y, peer_after. clear y.
  assert (G : forall z, slots8 z /\ tok z /\ x_cfg z = cfg -> slots8 (fold_left (fun x f => snd (process_frame Er f x)) l z) /\ tok (fold_left (fun x f => snd (process_frame Er f x)) l z) /\ x_cfg (fold_left (fun x f => snd (process_frame Er f x)) l z) = cfg).
  { induction F as [|f l Hf F IH]; intros z H; cbn [fold_left]; [exact H|]. apply IH. destruct H as (S8 & T & C). destruct (process_frame Er f z) as [r z'] eqn:P. cbn [snd].
    split; [exact (frame_slots _ _ _ _ _ HL S8 P)|]. split; [|rewrite <- C; exact (frame_cfg _ _ _ _ _ HL S8 P)].
    apply (frame_tok Er f z r z' HL); [|exact S8|exact T|exact P]. intros b Hb. unfold plain_message in Hb. destruct (tr_decap _ _ f) as [[c [|]]| |] eqn:D; try discriminate. assert (c = b) as -> by congruence. exact (HD _ _ _ _ Hf D). }
  apply G. split; [exact Hm|]. split; [apply tok_fresh; reflexivity|reflexivity].
Qed.

Theorem C74_psk_session_is_shared : forall E Er cfg chain_data my_chain root t hint x id x1,
  let xr := ctx_new cfg chain_data my_chain root in
  let peer z := peer_after Er xr (rev (x_sent z)) in
  same_algorithms (e_cr E) (e_cr Er) -> e_tr E = e_tr Er ->
  SpecRetr.carries (e_tr Er) -> lossless (e_tr Er) -> (forall room f b s, bytes_ok f -> tr_decap (e_tr Er) room f = Ok (b, s) -> bytes_ok b) ->
  draws_bytes (e_cr E) -> well_sized (e_cr Er) -> aead_correct (e_cr Er) -> seals_bytes (e_cr Er) ->
  length my_chain = 8%nat -> wire_config cfg ->
  reached (facing E Er xr) x -> Forall bytes_ok (x_sent x) -> agreed x (peer x) -> ver x < 256 ->
  summary_type_ok (xc x) t -> hint_ok hint ->
  psk_exchange_req (facing E Er xr) t hint x = (Ok id, x1) ->
  if psk_no_ctx (xc x) then share id x1 (peer x1)
  else forall u x2, psk_finish_req (facing E Er xr) id x1 = (Ok u, x2) -> share id x2 (peer x2).
Proof.
  intros E Er cfg cd mc root t hint x id x1 xr peer Sa Tr Ca Lo HD Dr Si Ac Sb Hm [Hb Fv] R Bs [Sp Ma] Hv Ht (H1 & H2 & H3) H.
  assert (HL : digest_sizes (e_cr Er)). { intros alg d h Hh. destruct Si as (_ & Si & _). exact (proj1 (Si _ _ _ Hh)). }
  destruct (peer_ok Er cfg cd mc root (rev (x_sent x)) HL HD Hm (Forall_rev Bs)) as (S8 & Tk & Cf).
  rewrite <- Cf in Hb, Fv.
  destruct (psk_exchange_twins E Er xr t hint x id x1 (same_public _ _ Sa) Tr Ca Dr Si (reached_rtok _ _ R) Tk (same_forget _ _ Sp) Ma Hv) as (Hid & Sn & Nx & a & b & Ga & Gb & Co & St & Up); auto.
  destruct (psk_no_ctx (xc x)) eqn:Pn.
  - assert (Vn : n_version (x_nego x1) = n_version (x_nego (peer x1))) by exact (proj1 (nego_eqs _ _ Sn)).
    split; [exact Vn|]. exists a, b. split; [exact Ga|]. split; [exact Gb|]. split; [exact St|]. apply paired_hcore. exact (hcore_core _ _ Co).
  - intros u x2 F. apply (psk_finish_twins E Er xr id x1 u x2 a b (same_public _ _ Sa) Tr Lo Ac Sb Si Hid); auto. unfold ver. rewrite Nx. exact Hv.
Qed.
Print Assumptions C74_psk_session_is_shared.

(** the example's peers: a session opened right after the connection, finished with PSK_FINISH *)
From Verif Require Import ToyCrypto PropSession PropPhase ExRun ExPair ExReach PropRetr PropFetch PropServe.
Lemma le_len n v : len (le_bytes n v) = N.of_nat n. Proof. unfold len. now rewrite le_bytes_length. Qed.
Lemma toy_draws : draws_bytes toy.
Proof. intros i n b H. cbn [cr_random toy] in H. assert (b = fill n (i mod 256)) as -> by congruence. apply Forall_forall. intros c Hc. apply repeat_spec in Hc. subst c. unfold byte_ok. pose proof (N.mod_upper_bound i 256). lia. Qed.
Lemma toy_sized : well_sized toy.
Proof.
  split; [exact toy_draws|]. split; [|split].
  - intros alg d h H. cbn [cr_hash toy] in H. destruct (hash_size alg) as [n|]; [|discriminate]. assert (h = le_bytes (N.to_nat n) (poly d)) as -> by congruence. split; [rewrite le_len, N2Nat.id; reflexivity|apply le_bytes_ok].
  - intros alg k d h H. cbn [cr_hmac toy] in H. destruct (hash_size alg) as [n|]; [|discriminate]. assert (h = le_bytes (N.to_nat n) (poly (k ++ d))) as -> by congruence. split; [rewrite le_len, N2Nat.id; reflexivity|apply le_bytes_ok].
  - intros v alg sp mh t h H. cbn [cr_summary toy] in H. destruct (hash_size alg) as [n|]; [|discriminate]. assert (h = fill (N.to_nat n) 3) as -> by congruence. split; [unfold len, fill; rewrite repeat_length, N2Nat.id; reflexivity|].
    apply Forall_forall. intros c Hc. apply repeat_spec in Hc. subst c. unfold byte_ok. lia.
Qed.
Definition sh_hint : vbuf := v_of 32 [1; 2; 3; 4].
Definition sh1 : ctx := Eval vm_compute in snd (init_connection fc_env pr_req).
Definition sh2 : ctx := Eval vm_compute in snd (psk_exchange_req fc_env 1 sh_hint sh1).
Definition sh3 : ctx := Eval vm_compute in snd (psk_finish_req fc_env pr_id sh2).
Definition sp1 : ctx := Eval vm_compute in peer_after ex_env pr_rsp (rev (x_sent sh1)).
Example C74_case : same_algorithms (e_cr ex_env) (e_cr ex_env) /\ SpecRetr.carries (e_tr ex_env) /\ lossless (e_tr ex_env) /\ (forall room f b s, bytes_ok f -> tr_decap (e_tr ex_env) room f = Ok (b, s) -> bytes_ok b) /\ draws_bytes (e_cr ex_env) /\ well_sized (e_cr ex_env) /\ aead_correct (e_cr ex_env) /\ seals_bytes (e_cr ex_env) /\
  wire_config ex_config2 /\ reached (facing ex_env ex_env pr_rsp) sh1 /\ Forall bytes_ok (x_sent sh1) /\ agreed sh1 (peer_after ex_env pr_rsp (rev (x_sent sh1))) /\ ver sh1 = 0x12 /\ summary_type_ok (xc sh1) 1 /\ hint_ok sh_hint /\
  psk_exchange_req (facing ex_env ex_env pr_rsp) 1 sh_hint sh1 = (Ok pr_id, sh2) /\ psk_no_ctx (xc sh1) = false /\ psk_finish_req (facing ex_env ex_env pr_rsp) pr_id sh2 = (Ok tt, sh3).
Proof.
  split; [repeat split|]. split; [exact carries_mctp|]. split; [exact lossless_mctp|]. split; [exact mctp_delivers|]. split; [exact toy_draws|]. split; [exact toy_sized|]. split; [exact toy_aead_correct|]. split; [exact toy_seals|].
  split; [split; [reflexivity|repeat constructor; reflexivity]|].
  split. { refine (reached_init _ pr_req tt _ _ _); [unfold pr_req; apply r_start|]. vm_compute. reflexivity. }
  split. { assert (B : forallb (forallb (fun b => b <? 256)) (x_sent sh1) = true) by (vm_compute; reflexivity). rewrite forallb_forall in B. apply Forall_forall. intros f Hf. specialize (B f Hf). rewrite forallb_forall in B. apply Forall_forall. intros b Hb. apply N.ltb_lt. exact (B b Hb). }
  split. { assert (P : peer_after ex_env pr_rsp (rev (x_sent sh1)) = sp1) by (vm_compute; reflexivity). rewrite P. split; [|vm_compute; reflexivity]. unfold same_parameters. cbv zeta. vm_compute. repeat split. }
  split; [reflexivity|]. split. { right. split; [left; reflexivity|]. left. vm_compute. reflexivity. }
  split. { split; [reflexivity|]. split; [vm_compute; discriminate|repeat constructor]. }
  split; [vm_compute; reflexivity|]. split; vm_compute; reflexivity.
Qed.
