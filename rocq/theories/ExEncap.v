(** A run of a responder with mutual authentication: negotiation, GET_CERTIFICATE, PSK_EXCHANGE, then the
    requester delivers DIGESTS and its 960-byte chain in two portions.  Used only for cases. *)
From Verif Require Import Bytes BytesFacts Status Codec Parse Algo Monad MsgConn MsgAuth MsgSession MsgOther Message Transport Crypto KeySchedule Session CertOps ChainVerify Context RspBase RspConn RspSess RspEncap Responder ToyCrypto PropPhase ExRun.
From Verif Require Import SpecRetr SpecEncap PropServe.
Local Open Scope N_scope.
Definition en_config : config :=  mkConfig [0x10; 0x11; 0x12] 0x76C6 0x7AF6 0 0 1 2 2 0x80 8 2 0x80 1 2 0 false 4096 4096 0 [0x10; 0x11].
Definition en_ctx : ctx := ctx_new en_config (repeat None 8) (Some (fill 100 7) :: repeat None 7) None.
Definition en_env (l : list bytes) : env :=
  mkEnv toy mctp_transport (fun _ _ => None)
        (fun n _ => if N.even n then nth_error l (N.to_nat (n / 2)) else None) (fun _ _ => Ok [0; 0]) (fun b => Ok b) true.
Definition estep (f : bytes) (x : ctx) : ctx := snd (process_frame (en_env []) f x).
Definition e1 : bytes := [5; 0x10; 0x84; 0; 0].
Definition e2 : bytes := [5; 0x12;0xE1;0;0; 0;0;0;0] ++ le_bytes 4 0x76C6 ++ [0;16;0;0;0;16;0;0].
Definition e4 : bytes := [5; 0x12;0x82;0;0; 0;0;0;2].
Definition en4 : ctx := Eval vm_compute in estep f4 (estep e4 (estep f3 (estep e2 (estep e1 en_ctx)))).
Definition part1 : bytes := slice_of ex_chain 0 512.
Definition part2 : bytes := slice_of ex_chain 512 512.
Definition e_dig : bytes := secured en4 (deliver_encap 0x12 0 0 ([0x12; 1; 0; 1] ++ fill 48 3)) false.
Definition en5 : ctx := Eval vm_compute in estep e_dig en4.
Definition e_p1 : bytes := secured en5 (deliver_encap 0x12 0 0 (certificate_bytes 0x12 0 part1 448)) false.
Definition en6 : ctx := Eval vm_compute in estep e_p1 en5.
Definition e_p2 : bytes := secured en6 (deliver_encap 0x12 0 0 (certificate_bytes 0x12 0 part2 0)) false.
Definition en_frames : list bytes := Eval vm_compute in [e1; e2; f3; e4; f4; e_dig; e_p1; e_p2].
Definition en_after (l : list bytes) (n : nat) : ctx := Nat.iter n (fun y => snd (process_message (en_env l) y)) en_ctx.
