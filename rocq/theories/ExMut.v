(** Concrete runs of both ends with mutual authentication at SPDM 1.2 (cases for C82-C84). *)
From Verif Require Import Bytes BytesFacts Status Codec Parse Algo Monad MsgConn MsgAuth MsgSession MsgOther Message Transport Crypto KeySchedule Session CertOps ChainVerify Context
  RspBase RspConn RspSess RspEncap Responder ToyCrypto PropPhase ExRun ReqBase ReqConn ReqSess ReqEncap SpecReq Pair ExPair.
Local Open Scope N_scope.
Definition mu_config : config := mkConfig [0x10; 0x11; 0x12] 0x77C6 0x7BF6 0 0 1 2 2 0x80 8 2 0x80 1 2 0 false 4096 4096 0 [0x10; 0x11].
(** the responder built with "mut-auth" *)
Definition mu_env : env := mkEnv (e_cr ex_env) (e_tr ex_env) (e_send ex_env) (e_recv ex_env) (e_app ex_env) (e_vendor ex_env) true.
Definition mu_chain : bytes := ex_root ++ ex_leaf.
Definition mu_rsp : ctx := ctx_new mu_config (Some mu_chain :: repeat None 7) (repeat None 8) (Some ex_root).
Definition mu_req : ctx := ctx_new mu_config (Some mu_chain :: repeat None 7) (repeat None 8) (Some ex_root).
Definition mu_face : env := facing mu_env mu_env mu_rsp.
Definition mu1 : ctx := Eval vm_compute in snd (init_connection mu_face mu_req).
Definition mu2 : ctx := Eval vm_compute in snd (get_certificate mu_face 10 None 0 mu1).
Definition mu3 : ctx := Eval vm_compute in snd (key_exchange_req_mut mu_face 0 1 mu2).
Definition mu4 : ctx := Eval vm_compute in snd (mutual_authenticate mu_face pr_id 10 mu3).
Definition mu5 : ctx := Eval vm_compute in snd (finish_req mu_face (Some (x_lslot mu4)) pr_id mu4).
Example mu_runs : fst (key_exchange_req_mut mu_face 0 1 mu2) = Ok pr_id /\ fst (mutual_authenticate mu_face pr_id 10 mu3) = Ok (Some tt) /\
  fst (finish_req mu_face (Some (x_lslot mu4)) pr_id mu4) = Ok tt.
Proof. split; [|split]; vm_compute; reflexivity. Qed.
