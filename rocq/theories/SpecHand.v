(** Vocabulary for the requester's handshakes (C42): KEY_EXCHANGE and PSK_EXCHANGE as sent, and what
    their success has to mean. *)
From Verif Require Import Bytes Status Codec Parse Algo Monad MsgConn MsgAuth MsgSession MsgOther Message
  Transport Crypto KeySchedule Session Signing CertOps Context RspSess ReqBase ReqConn ReqSess SpecReq SpecSession SpecAuth SpecKeys.
Local Open Scope N_scope.

Definition key_exchange_message (v t slot half policy : N) (nonce share opaque : bytes) : bytes :=
  [v; 0xE4; t; slot] ++ le_bytes 2 half ++ [(if 0x12 <=? v then policy else 0); 0] ++ nonce ++ share ++
  le_bytes 2 (len opaque) ++ opaque.
(** TH up to the signature: A, the hash of the peer's certificate chain, KEY_EXCHANGE, KEY_EXCHANGE_RSP *)
Definition th1_of (cr : crypto) (x : ctx) (slot : N) (rest th : bytes) : Prop :=
  exists chain d, slot_of (x_peer_chain x) slot = Some chain /\ cr_hash cr (n_hash (x_nego x)) chain = Some d /\
    th = x_msg_a x ++ d ++ rest.
(** The new session [id] of [x'] comes from a KEY_EXCHANGE / KEY_EXCHANGE_RSP exchange with
    - a fresh DHE share of this end and the share in the response as the source of its root secrets,
    - a signature that verifies, under the leaf key of the chain stored for the slot, over the
      transcript up to it,
    - unless the handshake is in the clear, an HMAC that verifies under the responder's finished key
      of the keys scheduled from the transcript with the signature. *)
Definition key_exchange_verified (E : env) (x x' : ctx) (slot t id : N) : Prop :=
  exists half key public nonce opaque b body sig mac rest p ss t0 th1 n final,
    let s := key_exchange_message (ver x) t slot half (cf_policy (x_cfg x)) nonce (firstn 96 public) opaque in
    let c := asked (OKeyExchange slot t) x in
    length nonce = 32%nat /\ cr_dhe_public (e_cr E) (n_dhe (x_nego x)) key = Some public /\
    exchanged E None x x' s b /\ b = ver x :: 0x64 :: body ++ sig ++ mac ++ rest /\
    dec_key_ex_rsp c (body ++ sig ++ mac ++ rest) = POk p rest /\ id = session_id (kr_session p) half /\
    (* the signature *)
    asym_size (n_asym (x_nego x)) = Some n /\ len sig = n /\
    th1_of (e_cr E) x slot (s ++ [ver x; 0x64] ++ body) t0 /\
    (exists chain, slot_of (x_peer_chain x) slot = Some chain /\
       authentic (e_cr E) (x_nego x) chain SigKeyExchange t0 sig) /\
    (* the session and its keys *)
    get_sess id x = None /\ get_sess id x' = Some ss /\ s_state ss = SHandshaking /\ s_use_psk ss = false /\
    s_hash ss = n_hash (x_nego x) /\ s_aead ss = n_aead (x_nego x) /\
    cr_dhe_final (e_cr E) (n_dhe (x_nego x)) key (v_bytes (kr_exchange p)) = Some final /\
    roots (e_cr E) (ver x) (n_hash (x_nego x)) final (s_hs_root ss) (s_master ss) /\
    cr_hash (e_cr E) (n_hash (x_nego x)) (t0 ++ sig) = Some th1 /\
    handshake_keys (e_cr E) (ver x) ss th1 (s_hs ss) /\ s_th ss = Some (t0 ++ sig ++ mac) /\
    (* the HMAC *)
    if in_clear c then mac = [] /\ x_last x' = Some id
    else Some (len mac) = hash_size (n_hash (x_nego x)) /\
         cr_hmac_verify (e_cr E) (n_hash (x_nego x)) (h_rsp_fin (s_hs ss)) th1 mac = true.

(** ** PSK_EXCHANGE *)
Definition psk_exchange_message (v t half : N) (hint : vbuf) (context opaque : bytes) : bytes :=
  [v; 0xE6; t; 0] ++ le_bytes 2 half ++ le_bytes 2 (v_size hint) ++ le_bytes 2 (len context) ++ le_bytes 2 (len opaque) ++
  v_bytes hint ++ context ++ opaque.
(** The new session [id] of [x'] comes from a PSK_EXCHANGE / PSK_EXCHANGE_RSP exchange whose HMAC
    verifies, under the responder's finished key scheduled from the pre-shared key and the transcript
    up to it.  Only a responder without PSK context establishes the session at once. *)
Definition psk_exchange_verified (E : env) (x x' : ctx) (t : N) (hint : vbuf) (id : N) : Prop :=
  exists half context opaque b body mac rest p ss th1,
    let s := psk_exchange_message (ver x) t half hint context opaque in
    let c := asked (OPskExchange t hint) x in
    let t0 := x_msg_a x ++ s ++ [ver x; 0x66] ++ body in
    Some (len context) = hash_size (n_hash (x_nego x)) /\
    exchanged E None x x' s b /\ b = ver x :: 0x66 :: body ++ mac ++ rest /\
    dec_psk_ex_rsp c (body ++ mac ++ rest) = POk p rest /\ id = session_id (pr_session p) half /\
    get_sess id x = None /\ get_sess id x' = Some ss /\ s_use_psk ss = true /\ s_psk_hint ss = Some (v_bytes hint) /\
    s_hash ss = n_hash (x_nego x) /\ s_aead ss = n_aead (x_nego x) /\
    (* the keys and the HMAC *)
    cr_hash (e_cr E) (n_hash (x_nego x)) t0 = Some th1 /\
    handshake_keys (e_cr E) (ver x) ss th1 (s_hs ss) /\ s_th ss = Some (t0 ++ mac) /\
    Some (len mac) = hash_size (n_hash (x_nego x)) /\
    cr_hmac_verify (e_cr E) (n_hash (x_nego x)) (h_rsp_fin (s_hs ss)) th1 mac = true /\
    (s_state ss = SHandshaking \/
     psk_no_ctx c = true /\ s_state ss = SEstablished /\
       exists th2, cr_hash (e_cr E) (n_hash (x_nego x)) (t0 ++ mac) = Some th2 /\ data_keys (e_cr E) (ver x) ss th2 (s_app ss)).

(** ** FINISH, PSK_FINISH *)
(** [w] carries the HMAC, under the requester's finished key, of the transcript [t] and its own header *)
Definition finish_message (cr : crypto) (s : session) (t header w : bytes) : Prop :=
  exists h m, cr_hash cr (s_hash s) (t ++ header) = Some h /\ cr_hmac cr (s_hash s) (h_req_fin (s_hs s)) h = Some m /\
    Some (len m) = hash_size (s_hash s) /\ w = header ++ m.
(** Session [id] is established in [x'] by a FINISH / FINISH_RSP exchange: [w] was sent; the response
    carries, when the handshake is in the clear, an HMAC that verifies under the responder's finished
    key; the data keys come from the transcript with both.  [own] is what FINISH adds to the transcript;
    if the session has no mutual authentication, it is the message itself. *)
Definition finish_accepted (E : env) (x x' : ctx) (slot : N) (id : N) : Prop :=
  exists s t w own bv body mac rest ss th2,
    let sid := if in_clear (xc x) then None else Some id in
    let b := bv :: 0x65 :: body ++ mac ++ rest in
    get_sess id x = Some s /\ s_th s = Some t /\ exchanged E sid x x' w b /\ length body = 2%nat /\
    (s_mut_auth s = 0 -> own = w /\ (s_hash s = n_hash (x_nego x) -> finish_message (e_cr E) s t [ver x; 0xE5; 0; slot] w)) /\
    (if in_clear (xc x)
     then Some (len mac) = hash_size (n_hash (x_nego x)) /\
          exists h, cr_hash (e_cr E) (s_hash s) (t ++ own ++ [bv; 0x65] ++ body) = Some h /\
            cr_hmac_verify (e_cr E) (s_hash s) (h_rsp_fin (s_hs s)) h mac = true
     else mac = []) /\
    get_sess id x' = Some ss /\ s_state ss = SEstablished /\
    s_use_psk ss = s_use_psk s /\ s_psk_hint ss = s_psk_hint s /\ s_hash ss = s_hash s /\ s_aead ss = s_aead s /\ s_master ss = s_master s /\
    cr_hash (e_cr E) (s_hash s) (t ++ own ++ [bv; 0x65] ++ body ++ mac) = Some th2 /\
    data_keys (e_cr E) (ver x) ss th2 (s_app ss).
(** the same for PSK_FINISH / PSK_FINISH_RSP, which has no HMAC in the response *)
Definition psk_finish_accepted (E : env) (x x' : ctx) (id : N) : Prop :=
  exists s t w own body rest ss th2,
    let b := ver x :: 0x67 :: body ++ rest in
    get_sess id x = Some s /\ s_th s = Some t /\ exchanged E (Some id) x x' w b /\ length body = 2%nat /\
    (s_use_psk s = true \/ s_mut_auth s = 0 -> own = w /\ (s_hash s = n_hash (x_nego x) -> finish_message (e_cr E) s t [ver x; 0xE7; 0; 0] w)) /\
    get_sess id x' = Some ss /\ s_state ss = SEstablished /\
    s_use_psk ss = s_use_psk s /\ s_psk_hint ss = s_psk_hint s /\ s_hash ss = s_hash s /\ s_aead ss = s_aead s /\ s_master ss = s_master s /\
    cr_hash (e_cr E) (s_hash s) (t ++ own ++ [ver x; 0x67] ++ body) = Some th2 /\
    data_keys (e_cr E) (ver x) ss th2 (s_app ss).

(** ** histories of one session *)
(** id is in use: Handshaking or Established *)
Definition usable (id : N) (x : ctx) : Prop := exists s, get_sess id x = Some s /\ s_state s <> SNotStarted.
(** [x'] follows from [x] by operations during all of which the session stays in use *)
Inductive carried (E : env) (id : N) : ctx -> ctx -> Prop :=
| ca_here x : usable id x -> carried E id x x
| ca_op x y o r z : carried E id x y -> run E o y = (r, z) -> r <> Panic -> usable id z -> carried E id x z
| ca_cert x y fuel sid slot r z : carried E id x y -> get_certificate E fuel sid slot y = (r, z) -> r <> Panic -> usable id z -> carried E id x z.
(** a history in which FINISH and PSK_FINISH are only asked for sessions whose key exchange succeeded
    (the id of any other session is never returned to the caller) *)
Definition proper (o : operation) (x : ctx) : Prop :=
  match o with OFinish _ id | OPskFinish id => usable id x \/ get_sess id x = None | _ => True end.
Inductive driven (E : env) : ctx -> Prop :=
| d_start cfg cd mc root : driven E (ctx_new cfg cd mc root)
| d_op x o r x' : driven E x -> proper o x -> run E o x = (r, x') -> r <> Panic -> driven E x'
| d_cert x fuel sid slot r x' : driven E x -> get_certificate E fuel sid slot x = (r, x') -> r <> Panic -> driven E x'.
(** the two exchanges of a handshake *)
Definition exchange_verified (E : env) (x x' : ctx) (id : N) : Prop :=
  (exists slot t, key_exchange_verified E x x' slot t id) \/ (exists t hint, psk_exchange_verified E x x' t hint id).
Definition finish_verified (E : env) (x x' : ctx) (id : N) : Prop :=
  (exists slot, finish_accepted E x x' slot id) \/ psk_finish_accepted E x x' id.
