(** C82's case, and what a requester built for mutual authentication cannot do (C83, C84). *)
From Verif Require Import Bytes BytesFacts Status Codec Parse Algo Monad MsgConn MsgAuth MsgSession MsgOther Message Transport Crypto KeySchedule Session CertOps ChainVerify Context
  RspBase RspConn RspSess RspEncap Responder ToyCrypto PropPhase ExRun ReqBase ReqConn ReqSess ReqEncap SpecResponder SpecReq SpecDer Pair ExPair PropKx PropDigest SpecMut PropMut ExMut.
Local Open Scope N_scope.

Definition mu_my_chain : bytes := Eval vm_compute in match slot_of (x_my_chain mu4) 0 with Some c => c | None => [] end.
Example C82_case : digest_sizes (e_cr mu_face) /\ provisioned (e_cr mu_face) mu3 0 mu_my_chain /\
  (exists s, get_sess pr_id mu3 = Some s /\ s_mut_auth s = 4) /\ mutual_authenticate mu_face pr_id 10 mu3 = (Ok (Some tt), mu4) /\
  (length (x_sent mu4) = 3 + length (x_sent mu3))%nat.
Proof.
  split; [exact toy_digest_sizes|]. split.
  { split; [left; vm_compute; reflexivity|]. exists ex_root, ex_leaf. eexists. split; [vm_compute; reflexivity|]. split.
    - exists 1, 44, (skipn 4 ex_root). split; vm_compute; reflexivity.
    - split; [vm_compute; reflexivity|]. split; [vm_compute; reflexivity|vm_compute; discriminate]. }
  split. { destruct (get_sess pr_id mu3) as [s|] eqn:G; [|vm_compute in G; discriminate]. exists s. split; [reflexivity|].
    assert (match get_sess pr_id mu3 with Some s => s_mut_auth s = 4 | None => False end) as Q by (vm_compute; reflexivity). rewrite G in Q. exact Q. }
  split; vm_compute; reflexivity.
Qed.

(** C83 (refuted): a requester built for mutual authentication cannot open a session with a responder
    that does not ask for it, although the key exchange itself succeeds *)
Theorem C83_no_session_without_mutual_authentication_refuted :
  forall E slot t fuel k chain x y id s, (k < 8)%nat ->
  key_exchange_req_mut E slot t x = (Ok id, y) -> get_sess id y = Some s -> s_mut_auth s = 0 -> provisioned (e_cr E) y k chain ->
  start_session_mut E false slot t fuel x = (Err ST_INVALID_MSG_FIELD, presenting k chain y).
Proof.
  intros E slot t fuel k chain x y id s Hk K G M P. unfold start_session_mut. unfold sbind at 1. rewrite K. unfold sbind at 1. unfold mutual_authenticate.
  unfold sbind at 1. rewrite (construct_presents E k chain Hk y P). rewrite ReqTrans.bind_get. unfold sbind, sok. rewrite presenting_sess, G. unfold sret at 1. rewrite M. reflexivity.
Qed.
Print Assumptions C83_no_session_without_mutual_authentication_refuted.
(** the same run, the build without the feature opens the session *)
Theorem C83_the_other_build_opens_the_session_refuted : exists E x id,
  fst (start_session E false 0 1 x) = Ok id /\ (forall fuel, fst (start_session_mut E false 0 1 fuel x) = Err ST_INVALID_MSG_FIELD).
Proof.
  exists fc_env, sk3, pr_id. split; [vm_compute; reflexivity|]. intro fuel.
  vm_compute. reflexivity.
Qed.
Print Assumptions C83_the_other_build_opens_the_session_refuted.


(** C84 (refuted): FINISH of a mutually authenticated session panics in the requester when its chain is longer
    or shorter than the responder's.  The crypto library here accepts a signature only with one of the two
    chains in play, uncut, as a library that parses the certificates does. *)
Definition mv_long : bytes := ex_root ++ ex_root ++ ex_leaf.
Definition mv_strict (c : crypto) : crypto :=
  mkCrypto (cr_hash c) (cr_extract c) (cr_expand c) (cr_hmac c) (cr_hmac_verify c) (cr_seal c) (cr_open c)
    (fun h a cert m s => cr_verify c h a cert m s && (bytes_eqb cert mu_chain || bytes_eqb cert mv_long))
    (cr_sign c) (cr_verify_chain c) (cr_dhe_public c) (cr_dhe_final c) (cr_random c) (cr_psk_hs c) (cr_psk_ms c) (cr_measure c) (cr_summary c).
Definition mv_env : env := mkEnv (mv_strict (e_cr ex_env)) (e_tr ex_env) (e_send ex_env) (e_recv ex_env) (e_app ex_env) (e_vendor ex_env) true.
(** both ends over that library, each with its chain *)
Definition mv_run (req_chain rsp_chain : bytes) : ctx * env :=
  let rsp := ctx_new mu_config (Some rsp_chain :: repeat None 7) (repeat None 8) (Some ex_root) in
  let req := ctx_new mu_config (Some req_chain :: repeat None 7) (repeat None 8) (Some ex_root) in
  let E := facing mv_env mv_env rsp in (snd (get_certificate E 10 None 0 (snd (init_connection E req))), E).
Definition mv_session (req_chain rsp_chain : bytes) : outcome (option N) :=
  let (x, E) := mv_run req_chain rsp_chain in fst (start_session_mut E false 0 1 10 x).
(** each of the chains does as the requester's and as the responder's, but not both at once *)
Theorem C84_chains_of_different_length_refuted :
  mv_session mu_chain mu_chain = Ok (Some pr_id) /\ mv_session mv_long mv_long = Ok (Some pr_id) /\
  mv_session mv_long mu_chain = Panic /\ mv_session mu_chain mv_long = Panic.
Proof. split; [|split; [|split]]; vm_compute; reflexivity. Qed.
Print Assumptions C84_chains_of_different_length_refuted.
