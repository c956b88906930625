(** Model of the signed byte strings: spdmlib/src/protocol/version.rs:26-75 and the
    [generate_*_signature] / [verify_*_signature] functions that build them.  No proofs here. *)
From Verif Require Import Bytes Status.
Local Open Scope N_scope.

(** the four operations that sign something *)
Inductive sig_op := SigChallenge | SigMeasurements | SigKeyExchange | SigFinish.

(** SPDM_VERSION_1_2_SIGNING_PREFIX_CONTEXT — version.rs:26-31 *)
Definition SIGNING_PREFIX : bytes :=
  [0x64; 0x6d; 0x74; 0x66; 0x2d; 0x73; 0x70; 0x64; 0x6d; 0x2d; 0x76; 0x31; 0x2e; 0x32; 0x2e; 0x2a;
   0x64; 0x6d; 0x74; 0x66; 0x2d; 0x73; 0x70; 0x64; 0x6d; 0x2d; 0x76; 0x31; 0x2e; 0x32; 0x2e; 0x2a;
   0x64; 0x6d; 0x74; 0x66; 0x2d; 0x73; 0x70; 0x64; 0x6d; 0x2d; 0x76; 0x31; 0x2e; 0x32; 0x2e; 0x2a;
   0x64; 0x6d; 0x74; 0x66; 0x2d; 0x73; 0x70; 0x64; 0x6d; 0x2d; 0x76; 0x31; 0x2e; 0x32; 0x2e; 0x2a].
(** SPDM_CHALLENGE_AUTH_SIGN_CONTEXT — version.rs:33-36 *)
Definition CTX_CHALLENGE : bytes :=
  [0x72; 0x65; 0x73; 0x70; 0x6f; 0x6e; 0x64; 0x65; 0x72; 0x2d; 0x63; 0x68; 0x61; 0x6c; 0x6c; 0x65;
   0x6e; 0x67; 0x65; 0x5f; 0x61; 0x75; 0x74; 0x68; 0x20; 0x73; 0x69; 0x67; 0x6e; 0x69; 0x6e; 0x67].
(** SPDM_MEASUREMENTS_SIGN_CONTEXT — version.rs:43-46 *)
Definition CTX_MEASUREMENTS : bytes :=
  [0x72; 0x65; 0x73; 0x70; 0x6f; 0x6e; 0x64; 0x65; 0x72; 0x2d; 0x6d; 0x65; 0x61; 0x73; 0x75; 0x72;
   0x65; 0x6d; 0x65; 0x6e; 0x74; 0x73; 0x20; 0x73; 0x69; 0x67; 0x6e; 0x69; 0x6e; 0x67].
(** SPDM_KEY_EXCHANGE_RESPONSE_SIGN_CONTEXT — version.rs:48-52 *)
Definition CTX_KEY_EXCHANGE : bytes :=
  [0x72; 0x65; 0x73; 0x70; 0x6f; 0x6e; 0x64; 0x65; 0x72; 0x2d; 0x6b; 0x65; 0x79; 0x5f; 0x65; 0x78;
   0x63; 0x68; 0x61; 0x6e; 0x67; 0x65; 0x5f; 0x72; 0x73; 0x70; 0x20; 0x73; 0x69; 0x67; 0x6e; 0x69;
   0x6e; 0x67].
(** SPDM_FINISH_SIGN_CONTEXT — version.rs:64-67 *)
Definition CTX_FINISH : bytes :=
  [0x72; 0x65; 0x71; 0x75; 0x65; 0x73; 0x74; 0x65; 0x72; 0x2d; 0x66; 0x69; 0x6e; 0x69; 0x73; 0x68;
   0x20; 0x73; 0x69; 0x67; 0x6e; 0x69; 0x6e; 0x67].
(** SPDM_VERSION_1_2_SIGNING_CONTEXT_ZEROPAD_{4,6,2,12} — version.rs:70-76, and the context that
    follows each at its call sites: challenge_rsp.rs:206-213, challenge_req.rs:187-194,
    measurement_rsp.rs:287-294, get_measurements_req.rs:288-295, key_exchange_rsp.rs:457-464,
    key_exchange_req.rs:451-458, finish_req.rs:370-377, finish_rsp.rs:323-330 *)
Definition sig_context (op : sig_op) : bytes :=
  match op with
  | SigChallenge => fill 4 0 ++ CTX_CHALLENGE
  | SigMeasurements => fill 6 0 ++ CTX_MEASUREMENTS
  | SigKeyExchange => fill 2 0 ++ CTX_KEY_EXCHANGE
  | SigFinish => fill 12 0 ++ CTX_FINISH
  end.
(** MAX_MANAGED_BUFFER_12SIGN_SIZE — common/mod.rs:1109-1113 *)
Definition MAX_12SIGN : N := 64 + 36 + 64.

(** the signed string in the hashed-transcript build, e.g. challenge_rsp.rs:187-228;
    SPDM 1.0/1.1 signing is refused there *)
Definition sign_input (v : N) (op : sig_op) (hash : bytes) : outcome bytes :=
  if v <? 0x12 then Err ST_INVALID_STATE_LOCAL
  else
    let m := SIGNING_PREFIX ++ sig_context op ++ hash in
    if MAX_12SIGN <? len m then Err ST_BUFFER_FULL else Ok m.
(** the plain-transcript build, e.g. challenge_rsp.rs:230-277: before 1.2 the transcript itself
    is signed *)
Definition sign_input_plain (v : N) (op : sig_op) (transcript hash : bytes) : bytes :=
  if v <? 0x12 then transcript else SIGNING_PREFIX ++ sig_context op ++ hash.
