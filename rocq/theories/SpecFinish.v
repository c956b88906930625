(** What it means that a FINISH or PSK_FINISH was verified by the responder. *)
From Verif Require Import Bytes Status Codec Parse Algo Monad MsgConn MsgAuth MsgSession MsgOther Message
  Transport Crypto KeySchedule Session Signing Context SpecResponder.
Local Open Scope N_scope.

(** what the handshake transcript gains in front of the first FINISH: the digest of the
    requester's certificate chain, when the requester authenticates itself *)
Definition finish_digest (cr : crypto) (x : ctx) (s : session) (d : bytes) : Prop :=
  if s_f_init s then d = []
  else if negb (s_use_psk s) && negb (s_mut_auth s =? 0) then
    exists chain, slot_of (x_peer_chain x) (x_pslot x) = Some chain /\ cr_hash cr (n_hash (x_nego x)) chain = Some d
  else d = [].
(** the requester's signature over the transcript [t] *)
Definition finish_signed (cr : crypto) (x : ctx) (s : session) (t sg : bytes) : Prop :=
  exists h m chain hl,
    cr_hash cr (s_hash s) t = Some h /\ sign_input (ver x) SigFinish h = Ok m /\
    slot_of (x_peer_chain x) (x_pslot x) = Some chain /\ hash_size (n_hash (x_nego x)) = Some hl /\
    cr_verify cr (n_hash (x_nego x)) (n_asym (x_nego x)) (skipn (N.to_nat (4 + hl)) chain) m sg = true.
(** FINISH [b]: its verify data is the HMAC, under the session's request finished key, of the hash
    of the session's transcript up to and including the request's header fields (and signature) *)
Definition finish_verified (cr : crypto) (x : ctx) (s : session) (b : bytes) : Prop :=
  exists p rest t d h,
    dec_finish (xc x) (skipn 2 b) = POk p rest /\ s_use_psk s = false /\ s_th s = Some t /\ finish_digest cr x s d /\
    (s_mut_auth s <> 0 -> finish_signed cr x s (t ++ d ++ firstn 4 b) (v_bytes (fi_sig p))) /\
    cr_hash cr (s_hash s) (t ++ d ++ firstn 4 b ++ (if s_mut_auth s =? 0 then [] else v_bytes (fi_sig p))) = Some h /\
    cr_hmac_verify cr (s_hash s) (h_req_fin (s_hs s)) h (v_bytes (fi_verify p)) = true.
(** PSK_FINISH [b]: the same over the request without its verify data *)
Definition psk_finish_verified (cr : crypto) (x : ctx) (s : session) (b : bytes) : Prop :=
  exists v rest t h n,
    dec_psk_finish (xc x) (skipn 2 b) = POk v rest /\ s_use_psk s = true /\ s_th s = Some t /\
    hash_size (n_hash (x_nego x)) = Some n /\
    cr_hash cr (s_hash s) (t ++ firstn (length b - length rest - N.to_nat n) b) = Some h /\
    cr_hmac_verify cr (s_hash s) (h_req_fin (s_hs s)) h (v_bytes v) = true.

(** frame [f] is a secured frame of session [id] that decrypts to message [m] *)
Definition delivered (E : env) (f : bytes) (x : ctx) (id : N) (m : bytes) (app : bool) : Prop :=
  exists b s a s1, secured_message E f = Some b /\ names_session b id /\ get_sess id x = Some s /\
    decode_secured (e_cr E) true b BUFFER_SIZE s = (Ok a, s1) /\ tr_decap_app (e_tr E) MAX_SPDM_MSG_SIZE a = Ok (m, app).
(** frame [f], arriving in [x], completes the handshake of session [id] *)
Inductive completes (E : env) (f : bytes) (x : ctx) (id : N) : Prop :=
| co_clear b s : plain_message E f = Some b -> request_code b = Some 0xE5 -> in_clear (xc x) = true -> x_last x = Some id ->
    get_sess id x = Some s -> s_state s = SHandshaking -> finish_verified (e_cr E) x s b -> completes E f x id
| co_finish m s : delivered E f x id m false -> request_code m = Some 0xE5 ->
    get_sess id x = Some s -> s_state s = SHandshaking -> finish_verified (e_cr E) x s m -> completes E f x id
| co_psk m s : delivered E f x id m false -> request_code m = Some 0xE7 ->
    get_sess id x = Some s -> s_state s = SHandshaking -> psk_finish_verified (e_cr E) x s m -> completes E f x id.
(** a PSK_EXCHANGE on a connection without PSK contexts, where no PSK_FINISH follows *)
Definition opens_psk_without_context (E : env) (f : bytes) (x : ctx) : Prop :=
  exists b, plain_message E f = Some b /\ request_code b = Some 0xE6 /\ psk_no_ctx (xc x) = true.
(** replies of the application never look like FINISH_RSP, PSK_FINISH_RSP *)
Definition app_replies_differ (E : env) : Prop :=
  forall id b r, e_app E id b = Ok r -> nth_error r 1 <> Some 0x65 /\ nth_error r 1 <> Some 0x67.
