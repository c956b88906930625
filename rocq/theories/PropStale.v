(** C87 (does not hold): the certificate chain served belongs to the algorithm negotiated. *)
From Verif Require Import Bytes BytesFacts Status Codec CodecProofs Parse ParseProofs Algo Monad MsgConn MsgAuth MsgSession MsgOther Message SpecMsg MsgProofs MsgRound MsgCaps.
From Verif Require Import Transport Crypto KeySchedule Session Signing CertOps ChainVerify Context
  RspBase RspConn RspSess RspEncap Responder ReqBase ReqConn ReqSess SpecReq SpecRetr Pair PropAlgs PropFetch SpecDer SpecConnect PropConnect.
From Verif Require Import ToyCrypto PropPhase ExRun ExPair.
From Coq Require Import Lia.
Local Open Scope N_scope.

(** a responder with one provisioned chain, after any frames: if a connection is negotiated, the chain
    it serves from slot 0 is headed by the root hash under the algorithm negotiated *)
Definition chain_follows_hash : Prop := forall E cfg root more frames,
  let y := peer_after E (ctx_new cfg (Some (root ++ more) :: repeat None 7) (repeat None 8) None) frames in
  blob root -> x_conn y = CONN_NEGOTIATED -> forall c rh, slot_of (x_my_chain y) 0 = Some c -> cr_hash (e_cr E) (n_hash (x_nego y)) root = Some rh ->
  exists h, length h = 4%nat /\ c = h ++ rh ++ root ++ more.
(** one requester negotiates SHA-512, another SHA-384 *)
Definition st_rs : config := cn_rs.
Definition st_rsp : ctx := ctx_new st_rs (Some (ex_root ++ ex_leaf) :: repeat None 7) (repeat None 8) None.
Definition st_q1 : config := mkConfig [0x10; 0x11; 0x12] 0x66C6 0x6AF6 0 0 1 2 4 0x90 0x18 6 0x80 1 2 0 false 512 4096 0 [0x10; 0x11].
Definition st_req (c : config) : ctx := ctx_new c (repeat None 8) (repeat None 8) (Some ex_root).
Definition st_frames1 : list bytes := Eval vm_compute in rev (x_sent (snd (init_connection (facing ex_env ex_env st_rsp) (st_req st_q1)))).
Definition st_mid : ctx := Eval vm_compute in peer_after ex_env st_rsp st_frames1.
Definition st_frames2 : list bytes := Eval vm_compute in rev (x_sent (snd (init_connection (facing ex_env ex_env st_mid) (st_req cn_rq)))).
Definition st_end : ctx := Eval vm_compute in peer_after ex_env st_mid st_frames2.
Lemma st_run : peer_after ex_env st_rsp (st_frames1 ++ st_frames2) = st_end. Proof. vm_compute. reflexivity. Qed.
Lemma root_blob : blob ex_root. Proof. exists 1, 44, (skipn 4 ex_root). split; vm_compute; reflexivity. Qed.
Theorem C87_chain_follows_hash_refuted : ~ chain_follows_hash.
Proof.
  intro H. specialize (H ex_env st_rs ex_root ex_leaf (st_frames1 ++ st_frames2)). cbv zeta in H. change (ctx_new st_rs (Some (ex_root ++ ex_leaf) :: repeat None 7) (repeat None 8) None) with st_rsp in H. rewrite st_run in H.
  assert (C : exists c rh, slot_of (x_my_chain st_end) 0 = Some c /\ cr_hash (e_cr ex_env) (n_hash (x_nego st_end)) ex_root = Some rh /\ len rh = 48 /\ len c = 4 + 64 + len (ex_root ++ ex_leaf)).
  { eexists. eexists. split; [vm_compute; reflexivity|]. split; [vm_compute; reflexivity|]. split; vm_compute; reflexivity. }
  destruct C as (c & rh & C1 & C2 & C3 & C4). destruct (H root_blob eq_refl c rh C1 C2) as (h & L & E). rewrite E, !len_app in C4. unfold len in *. lia.
Qed.
Print Assumptions C87_chain_follows_hash_refuted.
(** so of two requesters that connect one after the other, the second cannot fetch the chain: with the
    premises of C86, the peer's only chain rooted at the requester's trust anchor, and a back end that
    accepts it (ten requests are enough for any chain).  The requester announced it can take [big] bytes,
    and the peer was in a state with [before] *)
Definition connected_fetches (big : N) (before : ctx -> Prop) : Prop := forall E Er xr x v root more, e_tr E = e_tr Er -> SpecRetr.carries (e_tr Er) -> (forall i f, e_send Er i f = None) ->
  let y := peer_after Er xr (rev (x_sent x)) in
  settings_ok (x_cfg x) -> settings_ok (x_cfg y) -> compatible v (x_cfg x) (x_cfg y) -> well_provisioned (e_cr Er) y -> can_send x 48 -> big <= cf_dts (x_cfg x) -> before y ->
  x_chain_data y = Some (root ++ more) :: repeat None 7 -> blob root -> x_peer_root x = Some root -> (forall c, cr_verify_chain (e_cr E) c = true) ->
  exists x1, init_connection (facing E Er xr) x = (Ok tt, x1) /\ fst (get_certificate (facing E Er xr) 10 None 0 x1) = Ok (Some tt).
Definition st_q2 : config := mkConfig [0x10; 0x11; 0x12] 0x66C6 0x6AF6 0 0 1 2 3 0x90 0x18 6 0x80 1 2 0 false 4096 4096 0 [0x10; 0x11].
Lemma st_compatible : compatible 0x12 st_q2 cn_rs. Proof. destruct C86_case as (_ & _ & _ & _ & _ & P & _). exact P. Qed.
Definition st_x1 : ctx := Eval vm_compute in snd (init_connection (facing ex_env ex_env st_mid) (st_req st_q2)).
Theorem C87_connected_fetches_refuted : ~ connected_fetches 4096 (fun _ => True).
Proof.
  intro H. destruct (C86_case) as (P1 & P2 & P3 & _ & P5 & _ & P7 & P8 & _).
  specialize (H ex_env ex_env st_mid (st_req st_q2) 0x12 ex_root ex_leaf P1 P2 P3). cbv zeta in H.
  change (peer_after ex_env st_mid (rev (x_sent (st_req st_q2)))) with st_mid in H. change (x_cfg (st_req st_q2)) with st_q2 in H. change (x_cfg st_mid) with cn_rs in H.
  assert (W : well_provisioned (e_cr ex_env) st_mid) by exact P7. assert (S : settings_ok st_q2) by settings.
  destruct (H S P5 st_compatible W P8 ltac:(vm_compute; discriminate) I eq_refl root_blob eq_refl (fun _ => eq_refl)) as (x1 & I & G). clear H.
  assert (I' : init_connection (facing ex_env ex_env st_mid) (st_req st_q2) = (Ok tt, st_x1)) by (vm_compute; reflexivity).
  assert (x1 = st_x1) as -> by congruence. vm_compute in G. discriminate G.
Qed.
Print Assumptions C87_connected_fetches_refuted.
(** against the same responder, before the first connection, it can *)
Example C87_case : n_hash (x_nego st_end) = 2 /\ fst (get_certificate (facing ex_env ex_env st_mid) 10 None 0 st_x1) = Err ST_INVALID_CERT /\
  fst (get_certificate (facing ex_env ex_env st_rsp) 10 None 0 (snd (init_connection (facing ex_env ex_env st_rsp) (st_req st_q2)))) = Ok (Some tt).
Proof. split; [|split]; vm_compute; reflexivity. Qed.
(** C88 (does not hold): the requester keeps its requests to answers it said it can take.  It asks for
    512 bytes of certificate chain at a time, whatever DataTransferSize it announced; so even from a
    responder that has built no chain before, one that announced less cannot fetch it *)
Definition sm_x1 : ctx := Eval vm_compute in snd (init_connection (facing ex_env ex_env st_rsp) (st_req cn_rq)).
Theorem C88_small_requester_fetches_refuted : ~ connected_fetches 42 (fun y => x_my_chain y = repeat None 8) /\ fst (get_certificate (facing ex_env ex_env st_rsp) 10 None 0 sm_x1) = Err ST_ERROR_PEER.
Proof.
  split; [|vm_compute; reflexivity]. intro H. destruct (C86_case) as (P1 & P2 & P3 & P4 & P5 & P6 & P7 & P8 & _).
  specialize (H ex_env ex_env st_rsp (st_req cn_rq) 0x12 ex_root ex_leaf P1 P2 P3). cbv zeta in H.
  destruct (H P4 P5 P6 P7 P8 ltac:(vm_compute; discriminate) eq_refl eq_refl root_blob eq_refl (fun _ => eq_refl)) as (x1 & I & G). clear H.
  assert (I' : init_connection (facing ex_env ex_env st_rsp) (st_req cn_rq) = (Ok tt, sm_x1)) by (vm_compute; reflexivity).
  assert (x1 = sm_x1) as -> by congruence. vm_compute in G. discriminate G.
Qed.
Print Assumptions C88_small_requester_fetches_refuted.
