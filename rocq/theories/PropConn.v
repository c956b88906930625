(** C75: a connection set up between the library's two ends leaves both with the same parameters. *)
From Verif Require Import Bytes BytesFacts Status Codec Parse ParseProofs Algo Monad MsgConn MsgAuth MsgSession MsgOther Message Opaque SpecMsg MsgProofs MsgRound MsgRound2.
From Verif Require Import Transport Crypto KeySchedule Session Signing CertOps ChainVerify Context SessionProofs
  RspBase RspConn RspSess RspEncap Responder StRel RspFrame RspCalm RspOpcode RspPass RspSlots RspCfg RspEst RspTable ReqBase ReqConn ReqSess SpecReq ReqFrame ReqAnswer SpecSession SpecAuth ReqOpen SpecPair RspPair Pair Twin ReqTwin RspTwin WireTwin SpecResponder PropTable SpecRetr PairTwin SecTwin FinTwin PropStep SpecShare ConnTwin PropAlgs PropShare.
From Verif Require Import ToyCrypto PropSession PropPhase ExRun ExPair ExReach PropRetr PropFetch PropServe.
From Coq Require Import Lia.
Local Open Scope N_scope.

Lemma peer_cfg Er cfg cd mc root l : digest_sizes (e_cr Er) -> length mc = 8%nat -> x_cfg (peer_after Er (ctx_new cfg cd mc root) l) = cfg.
Proof.
  intros HL Hm. unfold peer_after.
  assert (G : forall z, slots8 z /\ x_cfg z = cfg -> slots8 (fold_left (fun x f => snd (process_frame Er f x)) l z) /\ x_cfg (fold_left (fun x f => snd (process_frame Er f x)) l z) = cfg).
  { induction l as [|f l IH]; intros z H; cbn [fold_left]; [exact H|]. apply IH. destruct H as (S8 & C). destruct (process_frame Er f z) as [r z'] eqn:P. cbn [snd].
    split; [exact (frame_slots _ _ _ _ _ HL S8 P)|rewrite <- C; exact (frame_cfg _ _ _ _ _ HL S8 P)]. }
  apply G. split; [exact Hm|reflexivity].
Qed.
Lemma mask_val m v : N.land v m = v -> m < 2 ^ 32 -> N.land (le_val (le_bytes 4 v)) m = v.
Proof.
  intros H Hm. rewrite u32_val; [exact H|]. rewrite <- H. destruct (N.eq_dec (N.land v m) 0) as [->|Z]; [reflexivity|]. apply N.log2_lt_pow2; [lia|].
  pose proof (N.log2_land v m). destruct (N.eq_dec m 0) as [->|Zb]; [rewrite N.land_0_r in Z; contradiction|]. assert (N.log2 m < 32) by (apply N.log2_lt_pow2; [lia|exact Hm]). lia.
Qed.

(** C75: whatever the responder served before, when init_connection succeeds at SPDM 1.1 or later both
    ends hold the same version, algorithms, capabilities of either side and negotiation transcript. *)
Theorem C75_connection_agrees : forall E Er cfg chain_data my_chain root x u x1,
  let xr := ctx_new cfg chain_data my_chain root in
  let peer z := peer_after Er xr (rev (x_sent z)) in
  e_tr E = e_tr Er -> SpecRetr.carries (e_tr Er) -> digest_sizes (e_cr Er) -> length my_chain = 8%nat ->
  wire_requester (x_cfg x) -> wire_responder cfg ->
  init_connection (facing E Er xr) x = (Ok u, x1) -> 0x11 <= ver x1 ->
  agreed x1 (peer x1) /\ n_rsp_cap (x_nego x1) = cf_rsp_cap cfg /\
  n_req_cap (x_nego x1) = cf_req_cap (x_cfg x) /\ n_req_cap (x_nego (peer x1)) = cf_req_cap (x_cfg x).
Proof.
  intros E Er cfg cd mc root x u x1 xr peer Tr Ca HL Hm (Q1 & Q2 & Q3 & Q4) (R1 & R2 & R3 & R4 & R5) H Lv.
  assert (Pc : forall l, x_cfg (peer_after Er xr l) = cfg) by (intro l; exact (peer_cfg Er cfg cd mc root l HL Hm)).
  unfold init_connection in H. apply sbind_inv in H as (u1 & y1 & H1 & H). apply sbind_inv in H as (u2 & y2 & H2 & H3).
  destruct (get_version_twins E Er xr x u1 y1 Tr Ca) as (V1 & A1 & N1 & C1 & _); [rewrite Pc; assumption|rewrite Pc; assumption|exact H1|].
  destruct (get_capabilities_twins E Er xr y1 u2 y2 Tr Ca V1 A1) as (V2 & V3 & S1 & S2 & S3 & S4 & A2 & C2 & _); [unfold ver; rewrite N1; reflexivity|rewrite C1; exact Q1|rewrite Pc; exact R3|exact H2|].
  assert (Vk : ver y2 < 256) by (rewrite V2; destruct (known_cases _ V1) as [-> | [-> | ->]]; reflexivity).
  rewrite Pc in S1, S2. rewrite C1 in S3, S4. rewrite (mask_val _ _ Q4 eq_refl) in S4. rewrite (mask_val _ _ R4 eq_refl) in S2.
  assert (Le : 17 <= ver y1).
  { destruct (PropOffer.C18_requester_takes_the_answer _ _ _ _ H3) as (b & body & p & rest & _ & _ & _ & _ & Vx & _). rewrite Vx, V2 in Lv. exact Lv. }
  destruct (negotiate_twins E Er xr y2 u x1 Tr Ca) as (Rf & Mh & Op & G1 & G2 & G3 & G4 & G5 & G6 & A3 & C3 & _); [rewrite V2, V3; reflexivity|rewrite V2; exact Le|exact Vk|exact A2|rewrite C2, C1; exact Q2|rewrite C2, C1; exact Q3|rewrite Pc; exact R5|exact H3|].
  split.
  { split; [|exact A3]. unfold same_parameters. cbv zeta. fold (peer x1) in *. split; [rewrite G1, G2; reflexivity|]. split; [rewrite G3, G4, S2, S1; reflexivity|].
    split; [exact (Rf FMeasSpec)|]. split; [exact Mh|]. split; [exact (Rf FHash)|]. split; [exact (Rf FAsym)|]. split; [exact (Rf FDhe)|]. split; [exact (Rf FAead)|]. split; [exact (Rf FReqAsym)|]. split; [exact (Rf FKeySched)|exact Op]. }
  split; [rewrite G3; exact S2|]. split; [rewrite G5; exact S3|]. unfold peer. rewrite G6. exact (S4 Le).
Qed.
Print Assumptions C75_connection_agrees.
(** ... so a PSK session opened right after it is shared by both ends, without any assumption on how
    the ends got there. *)
Theorem C75_connect_then_share : forall E Er cfg chain_data my_chain root cfg' chain_data' my_chain' root' t hint u x1 id x2 v x3,
  let xr := ctx_new cfg chain_data my_chain root in
  let peer z := peer_after Er xr (rev (x_sent z)) in
  let x := ctx_new cfg' chain_data' my_chain' root' in
  same_algorithms (e_cr E) (e_cr Er) -> e_tr E = e_tr Er ->
  SpecRetr.carries (e_tr Er) -> lossless (e_tr Er) -> (forall room f b s, bytes_ok f -> tr_decap (e_tr Er) room f = Ok (b, s) -> bytes_ok b) ->
  draws_bytes (e_cr E) -> well_sized (e_cr Er) -> aead_correct (e_cr Er) -> seals_bytes (e_cr Er) ->
  length my_chain = 8%nat -> wire_config cfg -> wire_requester cfg' -> wire_responder cfg ->
  init_connection (facing E Er xr) x = (Ok u, x1) -> 0x11 <= ver x1 < 256 -> Forall bytes_ok (x_sent x1) ->
  summary_type_ok (xc x1) t -> hint_ok hint ->
  psk_exchange_req (facing E Er xr) t hint x1 = (Ok id, x2) -> psk_no_ctx (xc x1) = false ->
  psk_finish_req (facing E Er xr) id x2 = (Ok v, x3) -> share id x3 (peer x3).
Proof.
  intros E Er cfg cd mc root cfg' cd' mc' root' t hint u x1 id x2 v x3 xr peer x Sa Tr Ca Lo HD Dr Si Ac Sb Hm Wc Wq Wr H Lv Bs Ht Hh P Pn F.
  assert (HL : digest_sizes (e_cr Er)). { intros alg d h Hd. destruct Si as (_ & Si & _). exact (proj1 (Si _ _ _ Hd)). }
  destruct (C75_connection_agrees E Er cfg cd mc root x u x1 Tr Ca HL Hm Wq Wr H (proj1 Lv)) as (Ag & _).
  pose proof (C74_psk_session_is_shared E Er cfg cd mc root t hint x1 id x2 Sa Tr Ca Lo HD Dr Si Ac Sb Hm Wc (reached_init (facing E Er xr) x u x1 (r_start _ _ _ _ _) H) Bs Ag (proj2 Lv) Ht Hh P) as K.
  fold xr in K. rewrite Pn in K. exact (K v x3 F).
Qed.
Print Assumptions C75_connect_then_share.
Example C75_case : e_tr ex_env = e_tr ex_env /\ SpecRetr.carries (e_tr ex_env) /\ digest_sizes (e_cr ex_env) /\ wire_requester (x_cfg pr_req) /\ wire_responder ex_config2 /\
  init_connection (facing ex_env ex_env pr_rsp) pr_req = (Ok tt, sh1) /\ ver sh1 = 0x12 /\ n_hash (x_nego sh1) <> 0 /\ x_msg_a sh1 <> [].
Proof.
  split; [reflexivity|]. split; [exact carries_mctp|]. split. { intros alg d h Hd. destruct toy_sized as (_ & Si & _). exact (proj1 (Si _ _ _ Hd)). }
  split. { split; [reflexivity|]. split; [reflexivity|]. split; reflexivity. }
  split. { split; [reflexivity|]. split; [repeat constructor|]. split; [reflexivity|]. split; reflexivity. }
  split; [vm_compute; reflexivity|]. split; [reflexivity|]. split; discriminate.
Qed.
