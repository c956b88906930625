(** Vocabulary for certificate retrieval (C35-C37): the two messages, a retrieval as a sequence of
    exchanges, and an acceptable chain. *)
From Verif Require Import Bytes Status Codec Algo Transport Crypto Session Message Context SpecReq SpecAuth SpecDer.
Local Open Scope N_scope.

(** ** DSP0274 10.8: GET_CERTIFICATE and CERTIFICATE *)
Definition get_certificate_bytes (v slot offset want : N) : bytes :=
  [v; 0x82; slot; 0] ++ le_bytes 2 offset ++ le_bytes 2 want.
(** [b] is a CERTIFICATE message with the portion [part], announcing [left] more bytes *)
Definition is_certificate (v slot : N) (part : bytes) (left : N) (b : bytes) : Prop :=
  exists reserved plen rlen rest, b = [v; 0x02; slot; reserved] ++ plen ++ rlen ++ part ++ rest /\
    length plen = 2%nat /\ le_val plen = len part /\ length rlen = 2%nat /\ le_val rlen = left.
(** one exchange: [want] bytes from [offset] are asked for and [part] comes *)
Definition part_fetched (E : env) (sid : option N) (slot offset want : N) (x x' : ctx) (part : bytes) (left : N) : Prop :=
  exists b, exchanged E sid x x' (get_certificate_bytes (ver x) slot offset want) b /\
    is_certificate (ver x) slot part left b /\ len part <= want.

(** ** a retrieval: the first request asks for 512 bytes from 0, each further one for what was
    announced, at most 512 bytes, from where the last portion ended; the announcements have to agree
    and the whole has to be shorter than 4096 bytes.  [parts], oldest first, are the portions so far. *)
Inductive fetching (E : env) (sid : option N) (slot : N) (x0 : ctx) : list bytes -> N -> ctx -> Prop :=
| f_first part left x' : part_fetched E sid slot 0 512 x0 x' part left -> len part + left < 4096 ->
    fetching E sid slot x0 [part] left x'
| f_next parts left part left' x x' : fetching E sid slot x0 parts left x -> left <> 0 ->
    part_fetched E sid slot (len (concat parts)) (N.min left 512) x x' part left' -> len part + left' = left ->
    fetching E sid slot x0 (parts ++ [part]) left' x'.

(** ** the chain format of DSP0274 10.7.1: length, 2 reserved bytes, root hash, certificates (a
    SEQUENCE with a two-byte length each); acceptable if the length is right, the certificates verify,
    the hash is that of the first of them, and that is the root certificate if one is provisioned *)
Definition acceptable_chain (cr : crypto) (hash : N) (root : option bytes) (chain : bytes) : Prop :=
  exists h lfield reserved rh first more,
    chain = lfield ++ reserved ++ rh ++ first ++ more /\
    length lfield = 2%nat /\ le_val lfield = len chain /\ length reserved = 2%nat /\
    hash_size hash = Some h /\ len rh = h /\ blob first /\
    len (first ++ more) <= 4096 /\ cr_verify_chain cr (first ++ more) = true /\ cr_hash cr hash first = Some rh /\
    (forall r, root = Some r -> first = r).

(** ** a peer that serves [chain] in [slot]: whatever portions the requester asks for from now on
    ([sent] are the frames so far), the answer to the last request is the slice asked for, at most
    512 bytes of it (a transport may add padding) *)
Definition slice_of (chain : bytes) (offset want : N) : bytes :=
  firstn (N.to_nat (N.min want 512)) (skipn (N.to_nat offset) chain).
Definition certificate_bytes (v slot : N) (part : bytes) (left : N) : bytes :=
  [v; 0x02; slot; 0] ++ le_bytes 2 (len part) ++ le_bytes 2 left ++ part.
Definition asks (tr : transport) (v slot : N) (chain t : bytes) : Prop :=
  exists offset want, offset < len chain /\ 0 < want <= 512 /\ tr_encap tr BUFFER_SIZE (get_certificate_bytes v slot offset want) false = Ok t.
Definition serves (E : env) (v slot : N) (chain : bytes) (sent : list bytes) : Prop :=
  forall asked i offset want t, Forall (asks (e_tr E) v slot chain) asked -> offset < len chain -> 0 < want <= 512 ->
    tr_encap (e_tr E) BUFFER_SIZE (get_certificate_bytes v slot offset want) false = Ok t ->
    exists f pad, e_recv E i (t :: asked ++ sent) = Some f /\ len f <= BUFFER_SIZE /\
      tr_decap (e_tr E) MAX_SPDM_MSG_SIZE f =
        Ok (certificate_bytes v slot (slice_of chain offset want) (len chain - offset - len (slice_of chain offset want)) ++ pad, false).

(** ** a transport that carries messages of up to 4000 bytes (it may pad them to a multiple of 4) *)
Definition carries (tr : transport) : Prop := forall m, bytes_ok m -> len m <= 4000 ->
  exists t pad pad', tr_encap tr BUFFER_SIZE m false = Ok t /\ len t <= BUFFER_SIZE /\ (len m mod 4 = 0 -> pad = [] /\ pad' = []) /\
    tr_decap tr MAX_SPDM_MSG_SIZE t = Ok (m ++ pad, false) /\ tr_decap tr BUFFER_SIZE t = Ok (m ++ pad', false).
