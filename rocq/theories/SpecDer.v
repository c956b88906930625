(** What well-formed DER is, as far as the certificate checks look. *)
From Verif Require Import Bytes.
Local Open Scope N_scope.

(** a big-endian number *)
Definition be_val (l : bytes) : N := fold_left (fun a b => a * 256 + b) l 0.
(** the length octets of a body of [n] bytes: one octet below 128, or a count of 1 to 8 octets and
    the big-endian number (not necessarily minimal) *)
Inductive der_length (n : N) : bytes -> Prop :=
| dl_short : n < 128 -> der_length n [n]
| dl_long k ds : 1 <= k <= 8 -> len ds = k -> be_val ds = n -> der_length n ((0x80 + k) :: ds).
(** tag, length, body *)
Definition tlv (tag : N) (body t : bytes) : Prop := exists l, der_length (len body) l /\ t = tag :: l ++ body.
Definition some_tlv (t : bytes) : Prop := exists tag body, tlv tag body t.
Definition sequence (body t : bytes) : Prop := tlv 0x30 body t.
Definition some_sequence (t : bytes) : Prop := exists body, sequence body t.
(** an object identifier, which has to be [want] if that says something *)
Definition oid_field (want : option bytes) (t : bytes) : Prop :=
  exists o, len o < 128 /\ t = 6 :: len o :: o /\ match want with Some w => o = w | None => True end.
(** an AlgorithmIdentifier *)
Definition algorithm (want : option bytes) (t : bytes) : Prop :=
  exists o rest, oid_field want o /\ sequence (o ++ rest) t.
(** the [version [0] EXPLICIT INTEGER] field of an X.509v3 certificate *)
Definition v3 : bytes := [0xA0; 3; 2; 1; 2].
(** A certificate: version, serial number, algorithm, issuer, validity, subject, public key and
    anything; algorithm; signature. *)
Definition certificate (want : option bytes) (c : bytes) : Prop :=
  exists serial a issuer validity subject key more tbs alg sig,
    some_tlv serial /\ algorithm want a /\ some_sequence issuer /\ some_sequence validity /\ some_sequence subject /\ some_sequence key /\
    sequence (v3 ++ serial ++ a ++ issuer ++ validity ++ subject ++ key ++ more) tbs /\
    algorithm want alg /\ some_tlv sig /\ sequence (tbs ++ alg ++ sig) c.
(** a chain: any certificates, the last with the wanted algorithm *)
Inductive certificates (want : option bytes) : list bytes -> Prop :=
| cs_last c : certificate want c -> certificates want [c]
| cs_more c l : certificate None c -> certificates want l -> certificates want (c :: l).

(** what the accepted ones certainly look like: three items that fill the SEQUENCE, the first starting
    with the version, the second with an object identifier; [after] is what follows in the chain *)
Definition starts (p l : bytes) : Prop := exists rest, l = p ++ rest.
Definition certificate_shape (want : option bytes) (after c : bytes) : Prop :=
  exists tbody tbs abody alg sig o,
    sequence tbody tbs /\ sequence abody alg /\ some_tlv sig /\ sequence (tbs ++ alg ++ sig) c /\
    starts v3 (tbody ++ alg ++ sig ++ after) /\ oid_field want o /\ starts o (abody ++ sig ++ after).
Inductive chain_shape (want : option bytes) : list bytes -> Prop :=
| sh_none : chain_shape want []
| sh_last c : certificate_shape want [] c -> chain_shape want [c]
| sh_more c l : certificate_shape None (concat l) c -> l <> [] -> chain_shape want l -> chain_shape want (c :: l).

(** certificates as get_cert_from_cert_chain sees them: SEQUENCE with exactly two length octets *)
Definition blob (c : bytes) : Prop := exists hi lo body, c = 0x30 :: 0x82 :: hi :: lo :: body /\ len body = hi * 256 + lo.
