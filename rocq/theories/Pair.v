(** A requester facing a responder: the requester's device hands each frame to the responder's
    dispatcher and delivers the responder's reply.  No proofs here. *)
From Verif Require Import Bytes Status Codec Parse Algo Monad MsgConn MsgAuth MsgSession MsgOther Message Transport Crypto KeySchedule Session CertOps ChainVerify Context
  RspBase RspConn RspSess RspEncap Responder ReqBase ReqConn ReqSess.
Local Open Scope N_scope.

(** the responder after [frames], oldest first *)
Definition peer_after (Er : env) (xr : ctx) (frames : list bytes) : ctx :=
  fold_left (fun x f => snd (process_frame Er f x)) frames xr.
(** what it sent in answer to the latest frame ([sent]: newest first): its last frame, if it sent one *)
Definition peer_reply (Er : env) (xr : ctx) (sent : list bytes) : option bytes :=
  match sent with
  | [] => None
  | f :: earlier =>
      let y := peer_after Er xr (rev earlier) in
      let z := snd (process_frame Er f y) in
      if Nat.ltb (length (x_sent y)) (length (x_sent z)) then hd_error (x_sent z) else None
  end.
(** the requester's surroundings: crypto and transport of [E], the responder [xr] as its peer *)
Definition facing (E Er : env) (xr : ctx) : env :=
  mkEnv (e_cr E) (e_tr E) (fun _ _ => None) (fun _ sent => peer_reply Er xr sent) (e_app E) (e_vendor E) false.
