(** A concrete run of the responder: negotiation, PSK_EXCHANGE, PSK_FINISH, END_SESSION.  Used only to
    show that the premises of theorems are met by reachable states. *)
From Verif Require Import Bytes BytesFacts Status Codec Parse Algo Monad MsgConn MsgAuth MsgSession MsgOther Message Transport Crypto KeySchedule Session CertOps ChainVerify Context RspBase RspConn RspSess RspEncap Responder ToyCrypto PropPhase.
Local Open Scope N_scope.
Definition ex_config2 : config :=  mkConfig [0x10; 0x11; 0x12] 0x66C6 0x6AF6 0 0 1 2 2 0x80 8 2 0x80 1 2 0 false 4096 4096 0 [0x10; 0x11].
Definition ex_ctx2 : ctx := ctx_new ex_config2 (repeat None 8) (Some (fill 100 7) :: repeat None 7) None.
Definition step (f : bytes) (x : ctx) : ctx := snd (process_frame ex_env f x).
Definition ex1 := step [5; 0x10; 0x84; 0; 0] ex_ctx2.
Definition f2 := [5; 0x12;0xE1;0;0; 0;0;0;0] ++ le_bytes 4 0x66C6 ++ [0;16;0;0;0;16;0;0].
Definition ex2 := step f2 ex1.
Definition f3 := [5; 0x12;0xE3;4;0;  48;0;1;2] ++ le_bytes 4 0x80 ++ le_bytes 4 2 ++ fill 12 0 ++ [0;0;0;0] ++ [2;0x20;8;0; 3;0x20;2;0; 4;0x20;0x80;0; 5;0x20;1;0].
Definition ex3 := step f3 ex2.
Definition f4 := [5; 0x12;0xE6;0;0; 0xAA;0xBB; 4;0;  0;0; 0;0] ++ [1;2;3;4].
Definition ex4 := step f4 ex3.
Definition ex_id : N := 0xFFFDBBAA.
Definition ex_sess4 : session := hd session_new (x_sess ex4).
Definition ex_th : bytes := match s_th ex_sess4 with Some t => t | None => [] end.
Definition ex_fin_head : bytes := [0x12; 0xE7; 0; 0].
Definition ex_fin_mac : bytes :=
  match cr_hash toy 2 (ex_th ++ ex_fin_head) with
  | Some h => match cr_hmac toy 2 (h_req_fin (s_hs ex_sess4)) h with Some m => m | None => [] end
  | None => [] end.
(** what the requester, holding the same keys, puts on the wire *)
Definition secured (x : ctx) (m : bytes) (app : bool) : bytes :=
  match fst (encode_secured_message ex_env ex_id m true app x) with Ok t => t | _ => [] end.
Definition f5 : bytes := secured ex4 (ex_fin_head ++ ex_fin_mac) false.
Definition ex5 := step f5 ex4.
Definition f6 : bytes := secured ex5 [0x12; 0xEC; 0; 0] false.
Definition ex6 := step f6 ex5.

(** the same run, driven by a device that delivers the frames one after the other *)
Definition ex_frames : list bytes := [[5; 0x10; 0x84; 0; 0]; f2; f3; f4; f5; f6].
Definition ex_replay (l : list bytes) : env :=
  mkEnv toy mctp_transport (fun _ _ => None)
        (fun n _ => if N.even n then nth_error l (N.to_nat (n / 2)) else None) (fun _ _ => Ok [0; 0]) (fun b => Ok b) false.
(** four PSK exchanges fill the table *)
Definition f4_of (id : N) : bytes := [5; 0x12;0xE6;0;0] ++ le_bytes 2 id ++ [4;0;  0;0; 0;0] ++ [1;2;3;4].
Definition ex_full : list bytes := [[5; 0x10; 0x84; 0; 0]; f2; f3; f4_of 1; f4_of 2; f4_of 1; f4_of 0].
