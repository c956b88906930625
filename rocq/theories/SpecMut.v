(** Vocabulary for the requester's side of mutual authentication (C82-C84): encapsulated requests, the
    answer each of them gets, and the messages of a whole exchange. *)
From Verif Require Import Bytes Status Codec Algo Transport Crypto Session Message Context SpecResponder SpecReq SpecRetr SpecEncap SpecDer PropDigest.
Local Open Scope N_scope.

(** ** how the embedded request [inner] is answered (DSP0274 10.17-10.20) by a requester whose only
    certificate chain [chain] is in slot [k] *)
(** the two requests it knows: GET_DIGESTS, GET_CERTIFICATE *)
Definition known_request (c : N) : Prop := c = 0x81 \/ c = 0x82.
Inductive answer_to (E : env) (x : ctx) (k : nat) (chain : bytes) : bytes -> bytes -> Prop :=
(* anything else: UnexpectedRequest *)
| an_unknown v c rest : ~ known_request c ->
    answer_to E x k chain ([v; c] ++ rest) (error_message (ver x) 0x04 0)
(* certificates were not negotiated: UnsupportedRequest *)
| an_unsupported v c rest : known_request c -> contains (n_req_cap (x_nego x)) 0x2 = false ->
    answer_to E x k chain ([v; c] ++ rest) (error_message (ver x) 0x07 0)
(* another version: VersionMismatch *)
| an_version v c rest : known_request c -> contains (n_req_cap (x_nego x)) 0x2 = true -> v <> ver x ->
    answer_to E x k chain ([v; c] ++ rest) (error_message (ver x) 0x41 0)
(* GET_DIGESTS: the digest of the chain, under its slot *)
| an_digests rest d : contains (n_req_cap (x_nego x)) 0x2 = true ->
    cr_hash (e_cr E) (n_hash (x_nego x)) chain = Some d ->
    answer_to E x k chain ([ver x; 0x81] ++ rest) (digests_message (ver x) (2 ^ N.of_nat k) [d])
(* GET_CERTIFICATE for slot 0: the portion asked for, at most 512 bytes, and how much is left *)
| an_certificate reserved off want rest : contains (n_req_cap (x_nego x)) 0x2 = true ->
    k = 0%nat -> length off = 2%nat -> length want = 2%nat -> le_val off <= len chain ->
    answer_to E x k chain ([ver x; 0x82; 0; reserved] ++ off ++ want ++ rest)
      (certificate_bytes (ver x) 0 (slice_of chain (le_val off) (le_val want))
         (len chain - le_val off - len (slice_of chain (le_val off) (le_val want))))
(* GET_CERTIFICATE for another slot, from an empty slot 0, or from beyond the end: InvalidRequest *)
| an_refused slot reserved off want rest : contains (n_req_cap (x_nego x)) 0x2 = true ->
    length off = 2%nat -> length want = 2%nat -> (slot <> 0 \/ k <> 0%nat \/ len chain < le_val off) ->
    answer_to E x k chain ([ver x; 0x82; slot; reserved] ++ off ++ want ++ rest) (error_message (ver x) 0x01 0).

(** ** the messages that carry an embedded request; the receive buffer is 4096 bytes of zeros before
    a message is put into it, and what follows the message counts as part of it *)
Definition in_buffer (b : bytes) : bytes := firstn 4096 b ++ repeat 0 (4096 - length b).
(** ENCAPSULATED_REQUEST (10.17) with request id [n] *)
Definition encap_request (v n : N) (inner m : bytes) : Prop := exists p, m = [v; 0x6A; n; p] ++ inner.
(** ENCAPSULATED_RESPONSE_ACK (10.19) with the next request; types 0 and 2 have none *)
Definition encap_next (v n : N) (inner m : bytes) : Prop := exists type acked, type <> 0 /\ type <> 2 /\
  m = [v; 0x6B; n; type] ++ acked ++ inner /\ length acked = if 0x12 <=? v then 4%nat else 0%nat.

(** ** a whole exchange, as the frames handed to and taken from the device.  Nothing but these frames, the
    sessions (not their ids and states) and the number of the slot to use changes. *)
Definition unchanged (x z : ctx) : Prop :=
  z = set_x_sent (x_sent z) (set_x_io (x_io z) (set_x_sess (x_sess z) (set_x_lslot (x_lslot z) x))) /\
  map (fun s => (s_id s, s_state s)) (x_sess z) = map (fun s => (s_id s, s_state s)) (x_sess x).
(** [m] goes out, as one frame of session [id] *)
Definition puts (E : env) (id : N) (m : bytes) (x z : ctx) : Prop := unchanged x z /\
  exists t, sent_as E (Some id) m t /\ x_sent z = t :: x_sent x.
(** from [x] to [z] a frame of session [id] with an embedded request came in, and the answer went out *)
Definition round (E : env) (id : N) (k : nat) (chain : bytes) (x z : ctx) : Prop :=
  exists f b n inner answer, e_recv E (x_io x) (x_sent x) = Some f /\ secured_response E id f b /\
    (encap_request (ver x) n inner (in_buffer b) \/ encap_next (ver x) n inner (in_buffer b)) /\
    answer_to E x k chain inner answer /\ puts E id (deliver_encap (ver x) n 0 answer) x z.
Inductive conversation (E : env) (id : N) (k : nat) (chain : bytes) (x0 : ctx) : ctx -> Prop :=
(* nothing went out *)
| cv_none z : unchanged x0 z -> x_sent z = x_sent x0 -> conversation E id k chain x0 z
(* GET_ENCAPSULATED_REQUEST went out *)
| cv_get z : puts E id [ver x0; 0xEA; 0; 0] x0 z -> conversation E id k chain x0 z
(* the digests went out, unasked (the responder requested that in KEY_EXCHANGE_RSP) *)
| cv_digests z d : answer_to E x0 k chain [ver x0; 0x81; 0; 0] d -> puts E id (deliver_encap (ver x0) 0 0 d) x0 z ->
    conversation E id k chain x0 z
| cv_round y z : conversation E id k chain x0 y -> round E id k chain y z -> conversation E id k chain x0 z
(* whatever else came in, was not answered *)
| cv_quiet y z : conversation E id k chain x0 y -> unchanged y z -> x_sent z = x_sent y -> conversation E id k chain x0 z.
(** the message that ends it: ENCAPSULATED_RESPONSE_ACK without a request, possibly naming the slot to use *)
Definition closing (E : env) (id : N) (x z : ctx) : Prop := unchanged x z /\ x_sent z = x_sent x /\
  exists f b, e_recv E (x_io x) (x_sent x) = Some f /\ secured_response E id f b /\
    (len b = 8 /\ (exists n rest, in_buffer b = [ver x; 0x6B; n; 0] ++ rest) /\ x_lslot z = x_lslot x \/
     len b = 9 /\ (exists n acked rest, in_buffer b = [ver x; 0x6B; n; 2] ++ acked ++ [x_lslot z] ++ rest /\
                    length acked = if 0x12 <=? ver x then 4%nat else 0%nat) /\ x_lslot z < 8).
(** the requester was provisioned with the certificates [root ++ more] in slot [k] only; [chain] is what it
    presents (DSP0274 10.7.1): length, reserved bytes, digest of the root certificate, certificates *)
Definition provisioned (cr : crypto) (x : ctx) (k : nat) (chain : bytes) : Prop :=
  (x_my_chain x = repeat None 8 \/ x_my_chain x = only_slot k chain) /\
  exists root more h, x_chain_data x = only_slot k (root ++ more) /\ blob root /\ cr_hash cr (n_hash (x_nego x)) root = Some h /\
    chain = le_bytes 2 (4 + len (h ++ root ++ more)) ++ [0; 0] ++ h ++ root ++ more /\ len chain <= 4096.
(** [x], its chain in place *)
Definition presenting (k : nat) (chain : bytes) (x : ctx) : ctx := set_x_my_chain (only_slot k chain) x.
