(** C81: a key-exchange session opened between the library's two ends is shared by both. *)
From Verif Require Import Bytes BytesFacts Status Codec Parse ParseProofs Algo Monad MsgConn MsgAuth MsgSession MsgOther Message Opaque SpecMsg MsgProofs MsgRound MsgRound2.
From Verif Require Import Transport Crypto KeySchedule Session Signing CertOps ChainVerify Context SessionProofs
  RspBase RspConn RspSess RspEncap Responder StRel RspFrame RspCalm RspOpcode RspPass RspSlots RspCfg RspEst RspTable ReqBase ReqConn ReqSess SpecReq ReqFrame ReqAnswer SpecSession SpecAuth ReqOpen SpecPair RspPair Pair Twin ReqTwin RspTwin WireTwin SpecResponder PropTable SpecRetr PairTwin SecTwin FinTwin PropStep SpecShare PropShare KxPair KxFin.
From Coq Require Import Lia.
Local Open Scope N_scope.

Theorem C81_key_exchange_session_is_shared : forall E Er cfg chain_data my_chain root slot t rslot x id x1,
  let xr := ctx_new cfg chain_data my_chain root in
  let peer z := peer_after Er xr (rev (x_sent z)) in
  same_algorithms (e_cr E) (e_cr Er) -> e_tr E = e_tr Er ->
  SpecRetr.carries (e_tr Er) -> lossless (e_tr Er) -> (forall room f b s, bytes_ok f -> tr_decap (e_tr Er) room f = Ok (b, s) -> bytes_ok b) ->
  draws_bytes (e_cr E) -> well_sized (e_cr Er) -> aead_correct (e_cr Er) -> seals_bytes (e_cr Er) ->
  shares_ok (e_cr E) -> shares_ok (e_cr Er) -> agreement (e_cr E) (e_cr Er) -> signs_bytes (e_cr Er) -> e_mut_auth Er = false ->
  length my_chain = 8%nat -> wire_config cfg ->
  reached (facing E Er xr) x -> Forall bytes_ok (x_sent x) -> agreed x (peer x) -> ver x < 256 -> cf_policy (x_cfg x) < 256 ->
  clear_handshake (xc x) = false -> clear_handshake (xc (peer x)) = false ->
  slot_of (x_peer_chain x) slot = slot_of (x_my_chain (peer x)) slot -> summary_type_ok (xc x) t ->
  key_exchange_req (facing E Er xr) slot t x = (Ok id, x1) ->
  forall u x2, finish_req (facing E Er xr) rslot id x1 = (Ok u, x2) -> share id x2 (peer x2).
Proof.
  intros E Er cfg cd mc root slot t rslot x id x1 xr peer Sa Tr Ca Lo HD Dr Si Ac Sb Shq Shr Agr Sgb Mua Hm [Hb Fv] R Bs [Sp Ma] Hv Hpol Clx Cly Sl Ht H u x2 F.
  assert (HL : digest_sizes (e_cr Er)). { intros alg d h Hh. destruct Si as (_ & Si & _). exact (proj1 (Si _ _ _ Hh)). }
  destruct (peer_ok Er cfg cd mc root (rev (x_sent x)) HL HD Hm (Forall_rev Bs)) as (S8 & Tk & Cf).
  rewrite <- Cf in Hb, Fv. change (in_clear (xc x) = false) in Clx. change (in_clear (xc (peer x)) = false) in Cly.
  destruct (kx_exchange_twins E Er xr slot t x id x1 (same_public _ _ Sa) Tr Ca Dr Si Shq Shr Agr Sgb Mua (reached_rtok _ _ R) Tk (same_forget _ _ Sp) Ma Hv Hpol Hb Fv Clx Cly Sl Ht H) as (Hid & Sn & Nx & Nc & a & b & Ga & Gb & Co & St & Up & Mu).
  destruct (nego_eqs _ _ (same_forget _ _ Sp)) as (_ & _ & _ & _ & _ & _ & Rc & _). destruct (nego_eqs _ _ Sn) as (_ & _ & _ & _ & _ & _ & Rc1 & _).
  apply (finish_twins E Er xr rslot id x1 u x2 a b (same_public _ _ Sa) Tr Lo Ac Sb Si Hid); auto.
  - unfold ver. rewrite Nx. exact Hv.
  - unfold in_clear, req_has, rsp_has, xc in Clx |- *. cbn [c_nego] in Clx |- *. rewrite Nx. exact Clx.
  - unfold in_clear, req_has, rsp_has, xc in Cly |- *. cbn [c_nego] in Cly |- *. rewrite Nc, <- Rc1, Nx, Rc. exact Cly.
Qed.
Print Assumptions C81_key_exchange_session_is_shared.

(** the example's peers: certificates are fetched, a session opened with KEY_EXCHANGE and FINISH *)
From Verif Require Import ToyCrypto PropSession PropPhase ExRun ExPair ExReach PropRetr PropFetch PropServe.
Lemma toy_shares : shares_ok toy.
Proof. intros alg n p H. cbn [cr_dhe_public toy] in H. destruct (dhe_size alg) as [k|] eqn:D; [|discriminate]. assert (p = fill (N.to_nat k) 5) as -> by congruence. split; [unfold len, fill; rewrite repeat_length, N2Nat.id; reflexivity|].
  apply Forall_forall. intros c Hc. apply repeat_spec in Hc. subst c. unfold byte_ok. lia. Qed.
Lemma toy_agreement : agreement toy toy.
Proof. intros alg n m p q Hp Hq. cbn [cr_dhe_public cr_dhe_final toy] in *. destruct (dhe_size alg); congruence. Qed.
Lemma toy_signs : signs_bytes toy.
Proof. intros h a m s H. cbn [cr_sign toy] in H. assert (s = le_bytes 96 (poly m)) as -> by congruence. apply le_bytes_ok. Qed.
Definition sk1 : ctx := Eval vm_compute in snd (init_connection fc_env pr_req).
Definition sk2 : ctx := Eval vm_compute in snd (get_digests fc_env None sk1).
Definition sk3 : ctx := Eval vm_compute in snd (get_certificate fc_env 10 None 0 sk2).
Definition sk4 : ctx := Eval vm_compute in snd (key_exchange_req fc_env 0 1 sk3).
Definition sk5 : ctx := Eval vm_compute in snd (finish_req fc_env None pr_id sk4).
Definition sq3 : ctx := Eval vm_compute in peer_after ex_env pr_rsp (rev (x_sent sk3)).
Example C81_case : same_algorithms (e_cr ex_env) (e_cr ex_env) /\ SpecRetr.carries (e_tr ex_env) /\ lossless (e_tr ex_env) /\ (forall room f b s, bytes_ok f -> tr_decap (e_tr ex_env) room f = Ok (b, s) -> bytes_ok b) /\ draws_bytes (e_cr ex_env) /\ well_sized (e_cr ex_env) /\ aead_correct (e_cr ex_env) /\ seals_bytes (e_cr ex_env) /\
  (shares_ok (e_cr ex_env) /\ agreement (e_cr ex_env) (e_cr ex_env) /\ signs_bytes (e_cr ex_env) /\ e_mut_auth ex_env = false /\ wire_config ex_config2) /\
  reached (facing ex_env ex_env pr_rsp) sk3 /\ Forall bytes_ok (x_sent sk3) /\ agreed sk3 (peer_after ex_env pr_rsp (rev (x_sent sk3))) /\ (ver sk3 = 0x12 /\ cf_policy (x_cfg sk3) = 0 /\ clear_handshake (xc sk3) = false) /\
  (clear_handshake (xc (peer_after ex_env pr_rsp (rev (x_sent sk3)))) = false /\ slot_of (x_peer_chain sk3) 0 = slot_of (x_my_chain (peer_after ex_env pr_rsp (rev (x_sent sk3)))) 0 /\ slot_of (x_peer_chain sk3) 0 <> None) /\ summary_type_ok (xc sk3) 1 /\
  key_exchange_req (facing ex_env ex_env pr_rsp) 0 1 sk3 = (Ok pr_id, sk4) /\ finish_req (facing ex_env ex_env pr_rsp) None pr_id sk4 = (Ok tt, sk5).
Proof.
  split; [repeat split|]. split; [exact carries_mctp|]. split; [exact lossless_mctp|]. split; [exact mctp_delivers|]. split; [exact toy_draws|]. split; [exact toy_sized|]. split; [exact toy_aead_correct|]. split; [exact toy_seals|].
  split. { split; [exact toy_shares|]. split; [exact toy_agreement|]. split; [exact toy_signs|]. split; [reflexivity|]. split; [reflexivity|repeat constructor; reflexivity]. }
  assert (P : peer_after ex_env pr_rsp (rev (x_sent sk3)) = sq3) by (vm_compute; reflexivity). rewrite P.
  split. { assert (R1 : reached fc_env sk1). { refine (reached_init _ pr_req tt _ _ _); [unfold pr_req; apply r_start|]. vm_compute. reflexivity. }
    assert (R2 : reached fc_env sk2). { assert (Q : sk2 = snd (get_digests fc_env None sk1)) by (vm_compute; reflexivity). rewrite Q. apply reached_digests; [exact R1|vm_compute; reflexivity]. }
    assert (Q : sk3 = snd (get_certificate fc_env 10 None 0 sk2)) by (vm_compute; reflexivity). rewrite Q. apply reached_cert'; [exact R2|vm_compute; reflexivity]. }
  split. { assert (B : forallb (forallb (fun b => b <? 256)) (x_sent sk3) = true) by (vm_compute; reflexivity). rewrite forallb_forall in B. apply Forall_forall. intros f Hf. specialize (B f Hf). rewrite forallb_forall in B. apply Forall_forall. intros b Hb. apply N.ltb_lt. exact (B b Hb). }
  split. { split; [|vm_compute; reflexivity]. unfold same_parameters. cbv zeta. vm_compute. repeat split. }
  split; [split; [reflexivity|split; reflexivity]|]. split; [split; [reflexivity|split; [vm_compute; reflexivity|vm_compute; discriminate]]|].
  split. { right. split; [left; reflexivity|]. left. vm_compute. reflexivity. }
  split; vm_compute; reflexivity.
Qed.
