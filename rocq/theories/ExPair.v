(** A concrete requester and responder, used to show that the premises of theorems are met by
    reachable states. *)
From Verif Require Import Bytes BytesFacts Status Codec Parse Algo Monad MsgConn MsgAuth MsgSession MsgOther Message Transport Crypto KeySchedule Session CertOps ChainVerify Context
  RspBase RspConn RspSess RspEncap Responder ToyCrypto PropPhase ExRun ReqBase ReqConn ReqSess SpecReq Pair.
Local Open Scope N_scope.
Definition ex_root : bytes := [0x30; 0x82; 1; 0x2C] ++ fill 300 7.
Definition ex_leaf : bytes := [0x30; 0x82; 2; 0x58] ++ fill 600 9.
Definition pr_rsp : ctx := ctx_new ex_config2 (Some (ex_root ++ ex_leaf) :: repeat None 7) (repeat None 8) None.
Definition pr_req : ctx := ctx_new ex_config2 (repeat None 8) (repeat None 8) (Some ex_root).
(** the responder as the requester's peer *)
Definition fc_env : env := facing ex_env ex_env pr_rsp.
Definition pr_id : N := 0xFFFDFFFD.
(** one run against it: connection, DIGESTS, CERTIFICATE, CHALLENGE, MEASUREMENTS, KEY_EXCHANGE, FINISH,
    KEY_UPDATE, END_SESSION; the frames it sends, newest first *)
Definition fc_run (E : env) : ctx :=
  snd (end_session_req E pr_id (snd (key_update_req E pr_id 1 (snd (finish_req E None pr_id (snd (key_exchange_req E 0 1
   (snd (get_measurements E None 0 1 0xFF (snd (challenge_req E 0 1 (snd (get_certificate E 10 None 0
   (snd (get_digests E None (snd (init_connection E pr_req))))))))))))))))).
Definition fc_frames : list bytes := Eval vm_compute in x_sent (fc_run fc_env).
(** what the responder answers to a sequence of frames, oldest first *)
Fixpoint replies (Er : env) (x : ctx) (frames : list bytes) : list (option bytes) :=
  match frames with
  | [] => []
  | f :: fs =>
      let z := snd (process_frame Er f x) in
      (if Nat.ltb (length (x_sent x)) (length (x_sent z)) then hd_error (x_sent z) else None) :: replies Er z fs
  end.
(** the run written down, oldest frame first *)
Definition script : list (bytes * option bytes) := Eval vm_compute in combine (rev fc_frames) (replies ex_env pr_rsp (rev fc_frames)).
Example script_is_recorded : replies ex_env pr_rsp (map fst script) = map snd script.
Proof. vm_compute. reflexivity. Qed.
(** The device of the examples: it answers the frames of the recorded run with the recorded answers and
    any other frame by asking the responder (the recording only saves the checker from running the
    responder again for every frame). *)
Definition pr_env : env :=
  mkEnv (e_cr ex_env) (e_tr ex_env) (fun _ _ => None)
    (fun _ sent => match nth_error script (length sent - 1) with
                   | Some (f, r) => if bytes_eqb f (hd [] sent) then r else peer_reply ex_env pr_rsp sent
                   | None => peer_reply ex_env pr_rsp sent
                   end) (e_app ex_env) (e_vendor ex_env) false.
Definition pr1 : ctx := Eval vm_compute in snd (init_connection pr_env pr_req).
Definition pr2 : ctx := Eval vm_compute in snd (get_digests pr_env None pr1).
Definition pr3 : ctx := Eval vm_compute in snd (get_certificate pr_env 10 None 0 pr2).
Definition pr4 : ctx := Eval vm_compute in snd (challenge_req pr_env 0 1 pr3).
Definition pr5 : ctx := Eval vm_compute in snd (get_measurements pr_env None 0 1 0xFF pr4).
Definition pr6 : ctx := Eval vm_compute in snd (key_exchange_req pr_env 0 1 pr5).
Definition pr7 : ctx := Eval vm_compute in snd (finish_req pr_env None pr_id pr6).
Definition pr8 : ctx := Eval vm_compute in snd (key_update_req pr_env pr_id 1 pr7).
Definition pr9 : ctx := Eval vm_compute in snd (end_session_req pr_env pr_id pr8).
Definition okb {A} (o : outcome A) : bool := match o with Ok _ => true | _ => false end.
Lemma okb_ok {A} (r : outcome A * ctx) : okb (fst r) = true -> exists a, r = (Ok a, snd r).
Proof. destruct r as [[a| |] x]; cbn; try discriminate. eauto. Qed.
Example run1 : init_connection pr_env pr_req = (Ok tt, pr1). Proof. vm_compute. reflexivity. Qed.
Example run2 : get_digests pr_env None pr1 = (Ok tt, pr2). Proof. vm_compute. reflexivity. Qed.
Example run3 : get_certificate pr_env 10 None 0 pr2 = (Ok (Some tt), pr3). Proof. vm_compute. reflexivity. Qed.
Example run4 : challenge_req pr_env 0 1 pr3 = (Ok tt, pr4). Proof. vm_compute. reflexivity. Qed.
Example run5 : exists n, get_measurements pr_env None 0 1 0xFF pr4 = (Ok n, pr5). Proof. eexists. vm_compute. reflexivity. Qed.
Example run6 : key_exchange_req pr_env 0 1 pr5 = (Ok pr_id, pr6). Proof. vm_compute. reflexivity. Qed.
Example run7 : finish_req pr_env None pr_id pr6 = (Ok tt, pr7). Proof. vm_compute. reflexivity. Qed.
Example run8 : key_update_req pr_env pr_id 1 pr7 = (Ok tt, pr8). Proof. vm_compute. reflexivity. Qed.
Example run9 : end_session_req pr_env pr_id pr8 = (Ok tt, pr9). Proof. vm_compute. reflexivity. Qed.
