(** Vocabulary for C86: two integrations whose settings fit together. *)
From Verif Require Import Bytes Codec Algo Crypto SpecMsg Context PropAlgs SpecDer.
Local Open Scope N_scope.

(** the settings are values their types and wire fields allow *)
Definition settings_ok (c : config) : Prop :=
  within REQ_CAP_MASK (cf_req_cap c) /\ within RSP_CAP_MASK (cf_rsp_cap c) /\ cf_req_ct c < 256 /\ cf_rsp_ct c < 256 /\
  within MSPEC_MASK (cf_mspec c) /\ within ASYM_MASK (cf_asym c) /\ within HASH_MASK (cf_hash c) /\ within DHE_MASK (cf_dhe c) /\ within AEAD_MASK (cf_aead c) /\
  within ASYM_MASK (cf_req_asym c) /\ within KS_MASK (cf_ks c) /\ (cf_opaque c = 0 \/ cf_opaque c = OPAQUE_FMT1) /\ (cf_mhash c = 0 \/ one_bit MHASH_MASK (cf_mhash c)) /\
  length (cf_versions c) = 3%nat /\ Forall (fun v => v < 256) (cf_versions c) /\ 52 <= cf_dts c /\ cf_dts c <= cf_max c /\ cf_max c < 2 ^ 32.
(** both support an algorithm of the family *)
Definition common (rq rs : config) (f : family) : Prop := exists a, In a (preference f) /\ has (configured rq f) a /\ has (configured rs f) a.
(** [rq] can connect to [rs] with version [v] = 1.1 or 1.2, the highest both speak: each announces
    capabilities the standard allows, and for whatever the two can do together they share an algorithm *)
Definition compatible (v : N) (rq rs : config) : Prop :=
  let q f := has (cf_req_cap rq) f in let s f := has (cf_rsp_cap rs) f in
  let key_ex := s RSP_KEY_EX /\ q REQ_KEY_EX in
  let psk := (s RSP_PSK_WITHOUT_CTX \/ s RSP_PSK_WITH_CTX) /\ q REQ_PSK in
  (v = 0x11 \/ v = 0x12) /\ In v (cf_versions rq) /\ In v (cf_versions rs) /\ (forall w, In w (cf_versions rq) -> In w (cf_versions rs) -> w <= v) /\
  req_caps_consistent v (cf_req_cap rq) /\ rsp_caps_consistent v (cf_rsp_cap rs) /\
  common rq rs FHash /\ common rq rs FAsym /\
  (s RSP_MEAS_NO_SIG \/ s RSP_MEAS_SIG -> common rq rs FMeasSpec /\ cf_mhash rs <> 0) /\
  (key_ex -> common rq rs FDhe) /\
  ((s RSP_ENCRYPT /\ q REQ_ENCRYPT) \/ (s RSP_MAC /\ q REQ_MAC) -> common rq rs FAead) /\
  (s RSP_MUT_AUTH /\ q REQ_MUT_AUTH -> common rq rs FReqAsym) /\
  (key_ex \/ psk -> common rq rs FKeySched) /\
  (v = 0x12 -> s RSP_KEY_EX \/ s RSP_PSK_WITHOUT_CTX \/ s RSP_PSK_WITH_CTX -> cf_opaque rq = OPAQUE_FMT1 /\ cf_opaque rs = OPAQUE_FMT1).
(** certificates are provisioned as a root certificate followed by more; its hash can be computed
    whichever algorithm is negotiated, and the result fits the library's buffers *)
Definition well_provisioned (cr : crypto) (x : ctx) : Prop :=
  Forall (fun o => match o with
                   | None => True
                   | Some d => len d <= 4096 /\ exists root more, d = root ++ more /\ blob root /\
                       (forall h, In h (preference FHash) -> exists rh, cr_hash cr h root = Some rh /\ len rh <= 64)
                   end) (x_chain_data x).
