(** Vocabulary for two ends of one session (C30). *)
From Coq Require Import String.
From Verif Require Import Bytes Status Algo Transport Crypto Session SpecSession SpecKeys Context Monad.
Import ListNotations.
Local Open Scope string_scope.
Local Open Scope list_scope.
Local Open Scope N_scope.

(** the two ends of a session hold the same application keys, IVs and counters in both directions, and
    the same secrets to update them from *)
Definition paired (a b : session) : Prop :=
  (s_id a = s_id b /\ s_state a = s_state b /\ s_hash a = s_hash b /\ s_aead a = s_aead b /\ s_seq_count a = s_seq_count b) /\
  (a_req_secret (s_app a) = a_req_secret (s_app b) /\ a_rsp_secret (s_app a) = a_rsp_secret (s_app b)) /\
  (a_req_dir (s_app a) = a_req_dir (s_app b) /\ a_rsp_dir (s_app a) = a_rsp_dir (s_app b)).
(** requester [x] and responder [y] share the established session [id] *)
Definition share (id : N) (x y : ctx) : Prop :=
  ver x = ver y /\ exists a b, get_sess id x = Some a /\ get_sess id y = Some b /\ s_state a = SEstablished /\ paired a b.

(** ** a transport that loses nothing (it may pad a secured message; the envelope has its own length) *)
Definition lossless (tr : transport) : Prop :=
  (forall m p, bytes_ok m -> len m <= 4000 -> tr_encap_app tr BUFFER_SIZE m false = Ok p ->
     bytes_ok p /\ len p <= len m + 1 /\ tr_decap_app tr 4096 p = Ok (m, false)) /\
  (forall c t, bytes_ok c -> len c <= 4096 -> tr_encap tr BUFFER_SIZE c true = Ok t -> exists pad, tr_decap tr BUFFER_SIZE t = Ok (c ++ pad, true)).
(** sealing yields bytes *)
Definition seals_bytes (cr : crypto) : Prop := forall alg key nonce aad plain c t,
  bytes_ok plain -> cr_seal cr alg key nonce aad plain = Some (c, t) -> bytes_ok c /\ bytes_ok t.
(** a direction after a key update: the secret is the next one derived from [old], key and IV follow
    from it, and [n] messages have been protected under it *)
Definition rolled (cr : crypto) (v hash aead : N) (old new : bytes) (d : dir) (n : N) : Prop :=
  derived cr v hash old "traffic upd" [] new /\ key_and_iv cr v hash aead new d /\ d_seq d = n.
(** a direction whose key stays, [n] messages later *)
Definition kept (d d' : dir) (n : N) : Prop := d_key d' = d_key d /\ d_salt d' = d_salt d /\ d_seq d' = d_seq d + n.
