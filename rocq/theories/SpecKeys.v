(** The key schedule of DSP0277 / DSP0274 1.1 (section 12), as relations over the HKDF functions. *)
From Coq Require Import String.
From Verif Require Import Bytes Status Algo Crypto Session SpecSession.
Import ListNotations.
Local Open Scope string_scope.
Local Open Scope list_scope.
Local Open Scope N_scope.

(** BinConcat: a 16-bit length, "spdmM.m " with the digits of the version, the label, the context *)
Definition bin_str (n v : N) (label : string) (context : bytes) : bytes :=
  le_bytes 2 n ++ ascii_bytes "spdm" ++ [48 + v / 16; 46; 48 + v mod 16; 32] ++ ascii_bytes label ++ context.
(** a secret of hash size expanded from another *)
Definition derived (cr : crypto) (v hash : N) (secret : bytes) (label : string) (context out : bytes) : Prop :=
  exists n, hash_size hash = Some n /\ cr_expand cr hash secret (bin_str n v label context) n = Some out.
(** from the root secret, or from the pre-shared key that the hint names *)
Definition from_secret (cr : crypto) (psk : N -> N -> bytes -> bytes -> option bytes) (v : N) (s : session) (root : bytes)
    (label : string) (context out : bytes) : Prop :=
  if s_use_psk s then exists n hint, hash_size (s_hash s) = Some n /\ s_psk_hint s = Some hint /\
                        psk v (s_hash s) hint (bin_str n v label context) = Some out
  else derived cr v (s_hash s) root label context out.
(** key and IV of one direction.  The library always asks for 32 bytes of key *)
Definition key_and_iv (cr : crypto) (v hash aead : N) (secret : bytes) (d : dir) : Prop :=
  exists ks is, aead_key_size aead = Some ks /\ aead_iv_size aead = Some is /\
    cr_expand cr hash secret (bin_str ks v "key" []) 32 = Some (d_key d) /\
    cr_expand cr hash secret (bin_str is v "iv" []) 12 = Some (d_salt d).
Definition zeros (n : N) : bytes := repeat 0 (N.to_nat n).
(** the two root secrets from the DHE secret *)
Definition roots (cr : crypto) (v hash : N) (dhe handshake master : bytes) : Prop :=
  exists n salt1, hash_size hash = Some n /\ cr_extract cr hash (zeros n) dhe = Some handshake /\
    derived cr v hash handshake "derived" [] salt1 /\ cr_extract cr hash salt1 (zeros n) = Some master.
(** the keys of the handshake phase *)
Definition handshake_keys (cr : crypto) (v : N) (s : session) (th1 : bytes) (K : hs_secret) : Prop :=
  from_secret cr (cr_psk_hs cr) v s (s_hs_root s) "req hs data" th1 (h_req_secret K) /\
  from_secret cr (cr_psk_hs cr) v s (s_hs_root s) "rsp hs data" th1 (h_rsp_secret K) /\
  derived cr v (s_hash s) (h_req_secret K) "finished" [] (h_req_fin K) /\
  derived cr v (s_hash s) (h_rsp_secret K) "finished" [] (h_rsp_fin K) /\
  key_and_iv cr v (s_hash s) (s_aead s) (h_req_secret K) (h_req_dir K) /\
  key_and_iv cr v (s_hash s) (s_aead s) (h_rsp_secret K) (h_rsp_dir K).
(** the keys of the application phase *)
Definition data_keys (cr : crypto) (v : N) (s : session) (th2 : bytes) (K : app_secret) : Prop :=
  from_secret cr (cr_psk_ms cr) v s (s_master s) "req app data" th2 (a_req_secret K) /\
  from_secret cr (cr_psk_ms cr) v s (s_master s) "rsp app data" th2 (a_rsp_secret K) /\
  from_secret cr (cr_psk_ms cr) v s (s_master s) "exp master" [] (a_export K) /\
  key_and_iv cr v (s_hash s) (s_aead s) (a_req_secret K) (a_req_dir K) /\
  key_and_iv cr v (s_hash s) (s_aead s) (a_rsp_secret K) (a_rsp_dir K).
(** one step of a key update of one direction: the next secret, its key and IV, the counter from 0 *)
Definition updated (cr : crypto) (v hash aead : N) (old new : bytes) (d : dir) : Prop :=
  derived cr v hash old "traffic upd" [] new /\ key_and_iv cr v hash aead new d /\ d_seq d = 0.
