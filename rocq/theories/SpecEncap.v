(** Vocabulary for the responder's encapsulated retrieval of the requester's certificate chain (C49):
    delivered responses, a retrieval as a history of them, its completion, an honest requester. *)
From Verif Require Import Bytes Status Codec Algo SpecMsg Transport Crypto Session Monad Message Context Responder SpecResponder SpecFinish SpecRetr.
Local Open Scope N_scope.

(** DELIVER_ENCAPSULATED_RESPONSE (DSP0274 10.18) *)
Definition deliver_encap (v n k : N) (inner : bytes) : bytes := [v; 0xEB; n; k] ++ inner.
(** one round of the responder, from [x] to [z], in which a session in its handshake delivers the
    encapsulated response [inner] *)
Definition brings (E : env) (x z : ctx) (inner : bytes) : Prop :=
  exists f r id n k s, e_recv E (x_io x) (x_sent x) = Some f /\ len f <= BUFFER_SIZE /\
    delivered E f x id (deliver_encap (ver x) n k inner) false /\ get_sess id x = Some s /\ s_state s = SHandshaking /\
    process_message E x = (Ok r, z).
(** the responder, started in [x0], came to [x] *)
Definition came (E : env) (x0 x : ctx) : Prop := served E (process_message E) x0 x.

(** ** a retrieval under way: it began with DIGESTS, [parts] (oldest first) have been delivered since,
    the last of them announced [left] more bytes.  Every portion has at most 512 bytes, announces
    more to come and a whole of less than 4096 bytes, and agrees with what the ones before it announced.
    Whatever else arrives leaves what was gathered alone. *)
Inductive gathering (E : env) (x0 : ctx) : list bytes -> N -> ctx -> Prop :=
| g_begin x z rest : came E x0 x -> x_peer_temp x = None -> brings E x z ([ver x; 0x01] ++ rest) ->
    x_peer_temp z = Some [] -> gathering E x0 [] 0 z
| g_part parts left x z part left' inner : gathering E x0 parts left x -> brings E x z inner ->
    is_certificate (ver x) (x_encap_slot x) part left' inner -> len part <= 512 -> left' <> 0 ->
    len (concat parts) + len part + left' < 4096 -> (concat parts <> [] -> len part + left' = left) ->
    x_peer_temp z = Some (concat parts ++ part) -> gathering E x0 (parts ++ [part]) left' z
| g_other parts left x z r : gathering E x0 parts left x -> process_message E x = (Ok r, z) ->
    x_peer_temp z = x_peer_temp x -> gathering E x0 parts left z.

(** ** [chain] got into certificate slot [slot]: a last portion came that announced nothing more, and
    the portions make up an acceptable chain *)
Definition retrieved (E : env) (x0 : ctx) (slot : N) (chain : bytes) (z : ctx) : Prop :=
  exists parts left part inner y, gathering E x0 parts left y /\ brings E y z inner /\ slot = x_encap_slot y /\
    is_certificate (ver y) slot part 0 inner /\ len part <= 512 /\ (concat parts <> [] -> len part = left) /\
    chain = concat parts ++ part /\ len chain < 4096 /\
    acceptable_chain (e_cr E) (n_hash (x_nego y)) (x_peer_root y) chain.

(** ** a requester that delivers [chain]: DIGESTS, then the slices of at most 512 bytes one after the other;
    [honest E chain x o z]: from [x] to [z] it has delivered the first [o] bytes *)
Inductive honest (E : env) (chain : bytes) (x0 : ctx) : N -> ctx -> Prop :=
| ho_begin z mask digests h pad : brings E x0 z ([ver x0; 0x01; 0; mask] ++ concat digests ++ pad) ->
    mask < 256 -> hash_size (n_hash (x_nego x0)) = Some h -> length digests = bits_set mask -> Forall (fun d => len d = h) digests ->
    honest E chain x0 0 z
| ho_next o y z pad : honest E chain x0 o y -> o < len chain ->
    brings E y z (certificate_bytes (ver x0) (x_encap_slot x0) (slice_of chain o 512) (len chain - o - len (slice_of chain o 512)) ++ pad) ->
    honest E chain x0 (o + len (slice_of chain o 512)) z.

(** ** ENCAPSULATED_RESPONSE_ACK (DSP0274 10.19): with the next request (type 1) or a slot number (type 2) *)
Definition encap_ack_bytes (v req type n : N) (payload : bytes) : bytes :=
  [v; 0x6B; req; type] ++ (if 0x12 <=? v then [n; 0; 0; 0] else []) ++ payload.
(** encapsulated requests are negotiated and the connection is ready for them *)
Definition encap_ready (x : ctx) : Prop :=
  0x11 <= ver x /\ contains (n_req_cap (x_nego x)) 0x1000 = true /\ contains (n_rsp_cap (x_nego x)) 0x1000 = true /\ x_conn x = 5.
(** a round in which an accepted response is delivered, with everything negotiated *)
Definition answered_round (E : env) (x z : ctx) (n : N) (inner : bytes) : Prop :=
  exists f id k s, e_recv E (x_io x) (x_sent x) = Some f /\ len f <= BUFFER_SIZE /\
    delivered E f x id (deliver_encap (ver x) n k inner) false /\ get_sess id x = Some s /\ s_state s = SHandshaking /\
    process_message E x = (Ok (Some true), z).
