(** Locality (C12), panic-freedom (C51) and size facts (C13) for every message decoder
    and encoder; the message-level round trip. *)
From Coq Require Import Sorting.Sorted.
From Verif Require Import Bytes BytesFacts Codec CodecProofs Parse ParseProofs Algo MsgConn MsgAuth MsgSession MsgOther Message SpecMsg MsgProofs MsgRound MsgRound2.
Local Open Scope N_scope.

(** ** locality *)
Lemma dlocal_rep {A} n (d : dec A) : dlocal d -> dlocal (d_rep n d).
Proof.
  intro H. induction n as [|n IH]; cbn [d_rep]; [apply dlocal_ret|].
  apply dlocal_bind; auto. intro. apply dlocal_bind; auto. intro. apply dlocal_ret.
Qed.
Lemma dlocal_table {A} max (x : A) n d : dlocal d -> dlocal (d_table max x n d).
Proof. intro H. apply dlocal_bind; [apply dlocal_rep; auto|]. intro. apply dlocal_ret. Qed.
Lemma dlocal_dec_opt {A} b (d : dec A) x : dlocal d -> dlocal (dec_opt b d x).
Proof. intro. destruct b; [auto|apply dlocal_ret]. Qed.
Lemma dlocal_if {A} (b : bool) (d1 d2 : dec A) : dlocal d1 -> dlocal d2 -> dlocal (if b then d1 else d2).
Proof. destruct b; auto. Qed.
Lemma dlocal_u16 : dlocal d_u16. Proof. exact (dlocal_le 2). Qed.
Lemma dlocal_u24 : dlocal d_u24. Proof. exact (dlocal_le 3). Qed.
Lemma dlocal_u32 : dlocal d_u32. Proof. exact (dlocal_le 4). Qed.

Ltac dl :=
  repeat first
    [ apply dlocal_ret | apply dlocal_none | apply dlocal_u8 | apply dlocal_u16 | apply dlocal_u24
    | apply dlocal_u32 | apply dlocal_arr | apply dlocal_fixed | apply dlocal_size | apply dlocal_opt
    | assumption
    | apply dlocal_table | apply dlocal_dec_opt | apply dlocal_guard | apply dlocal_if
    | match goal with |- dlocal (dbind _ _) => apply dlocal_bind; [|intro] end ].

Lemma dl_flags8 m : dlocal (d_flags8 m). Proof. unfold d_flags8. dl. Qed.
Lemma dl_flags16 m : dlocal (d_flags16 m). Proof. unfold d_flags16. dl. Qed.
Lemma dl_flags32 m : dlocal (d_flags32 m). Proof. unfold d_flags32. dl. Qed.
Lemma dl_flags8s m : dlocal (d_flags8_strict m). Proof. unfold d_flags8_strict. dl. Qed.
Lemma dl_digest c : dlocal (dec_digest c). Proof. unfold dec_digest. dl. Qed.
Lemma dl_sig c : dlocal (dec_signature c). Proof. unfold dec_signature. dl. Qed.
Lemma dl_exch c : dlocal (dec_exchange c). Proof. unfold dec_exchange. dl. Qed.
Lemma dl_nonce : dlocal dec_nonce. Proof. unfold dec_nonce. dl. Qed.
Lemma dl_opaque : dlocal dec_opaque. Proof. unfold dec_opaque. dl. Qed.
Lemma dl_empty : dlocal dec_empty. Proof. unfold dec_empty. dl. Qed.
Ltac dl2 := repeat first [ progress dl | apply dl_flags8 | apply dl_flags16 | apply dl_flags32 | apply dl_flags8s
  | apply dl_digest | apply dl_sig | apply dl_exch | apply dl_nonce | apply dl_opaque | apply dl_empty ].
Lemma dl_alg_struct : dlocal dec_alg_struct.
Proof.
  unfold dec_alg_struct. dl. destruct a as [|q]; [apply dlocal_none|].
  do 3 (try destruct q as [q|q|]); dl2.
Qed.
Lemma dl_alg_loop chk n : forall cur seen, dlocal (d_alg_loop chk n cur seen).
Proof. induction n as [|n IH]; intros; cbn [d_alg_loop]; [apply dlocal_ret|]. apply dlocal_bind; [apply dl_alg_struct|intro]. dl2. apply IH. Qed.
Lemma dl_alg_table chk n : dlocal (d_alg_table chk n).
Proof. unfold d_alg_table. dl. apply dl_alg_loop. Qed.
Lemma dl_alg_count c : dlocal (dec_alg_count c). Proof. unfold dec_alg_count. dl. Qed.
Lemma dl_other c : dlocal (dec_other_params c). Proof. unfold dec_other_params. dl2. Qed.

Lemma dl_get_version : dlocal dec_get_version. Proof. unfold dec_get_version. dl. Qed.
Lemma dl_version_rsp : dlocal dec_version_rsp.
Proof. unfold dec_version_rsp. dl. unfold dec_version_struct. dl. Qed.
Lemma dl_get_capabilities c : dlocal (dec_get_capabilities c). Proof. unfold dec_get_capabilities. dl2. Qed.
Lemma dl_capabilities c : dlocal (dec_capabilities c). Proof. unfold dec_capabilities. dl2. Qed.
Lemma dl_nego c : dlocal (dec_nego_algs c).
Proof. unfold dec_nego_algs. dl2; first [apply dl_alg_count | apply dl_other | apply dl_alg_table]. Qed.
Lemma dl_algs c : dlocal (dec_algs_rsp c).
Proof. unfold dec_algs_rsp. dl2; first [apply dl_alg_count | apply dl_other | apply dl_alg_table]. Qed.
Lemma dl_digests c : dlocal (dec_digests_rsp c). Proof. unfold dec_digests_rsp. dl2. Qed.
Lemma dl_get_cert : dlocal dec_get_cert. Proof. unfold dec_get_cert. dl2. Qed.
Lemma dl_cert : dlocal dec_cert_rsp. Proof. unfold dec_cert_rsp. dl2. Qed.
Lemma dl_challenge c : dlocal (dec_challenge c). Proof. unfold dec_challenge. dl2. Qed.
Lemma dl_challenge_auth c : dlocal (dec_challenge_auth c). Proof. unfold dec_challenge_auth. dl2. Qed.
Lemma dl_get_meas c : dlocal (dec_get_meas c). Proof. unfold dec_get_meas. dl2. Qed.
Lemma dl_mrecord c : dlocal (dec_mrecord c). Proof. unfold dec_mrecord. dl2. Qed.
Lemma dl_meas c : dlocal (dec_meas_rsp c). Proof. unfold dec_meas_rsp. dl2. apply dl_mrecord. Qed.
Lemma dl_key_ex c : dlocal (dec_key_ex c). Proof. unfold dec_key_ex. dl2. Qed.
Lemma dl_key_ex_rsp c : dlocal (dec_key_ex_rsp c). Proof. unfold dec_key_ex_rsp. dl2. Qed.
Lemma dl_finish c : dlocal (dec_finish c). Proof. unfold dec_finish. dl2. Qed.
Lemma dl_finish_rsp c : dlocal (dec_finish_rsp c). Proof. unfold dec_finish_rsp. dl2. Qed.
Lemma dl_psk_ex c : dlocal (dec_psk_ex c). Proof. unfold dec_psk_ex. dl2. Qed.
Lemma dl_psk_ex_rsp c : dlocal (dec_psk_ex_rsp c). Proof. unfold dec_psk_ex_rsp. dl2. Qed.
Lemma dl_psk_finish c : dlocal (dec_psk_finish c). Proof. unfold dec_psk_finish. dl2. Qed.
Lemma dl_key_update : dlocal dec_key_update. Proof. unfold dec_key_update. dl2. Qed.
Lemma dl_end_session : dlocal dec_end_session. Proof. unfold dec_end_session. dl2. Qed.
Lemma dl_vendor : dlocal dec_vendor. Proof. unfold dec_vendor. dl2. Qed.
Lemma dl_encap_id : dlocal dec_encap_id. Proof. unfold dec_encap_id. dl2. Qed.
Lemma dl_encap_ack c : dlocal (dec_encap_ack c). Proof. unfold dec_encap_ack. dl2. Qed.
Lemma dl_map {A B} (f : A -> B) d : dlocal d -> dlocal (dmap f d). Proof. intro. unfold dmap. dl. Qed.

(** an ERROR is local unless it carries vendor extended data, which takes all that follows *)
Definition no_vendor_ext (p : error_rsp) : Prop := match er_ext p with XVendor _ => False | _ => True end.
Lemma dl_error l p r : dec_error l = POk p r ->
  exists u, l = u ++ r /\ (no_vendor_ext p -> forall e, dec_error (u ++ e) = POk p e).
Proof.
  intro H. pose proof H as H0. unfold dec_error in H.
  apply dbind_ok in H as (c & l1 & E1 & H). apply d_u8_inv in E1. subst l.
  apply dbind_ok in H as (d & l2 & E2 & H). apply d_u8_inv in E2. subst l1.
  apply dbind_ok in H as (x & l3 & E3 & H). apply dret_ok in H as [-> ->].
  destruct (c =? ERR_NOT_READY) eqn:C1.
  - assert (HL : dlocal (q <- dec_not_ready;; dret (XNotReady q))%dec) by (unfold dec_not_ready; dl).
    destruct (HL _ _ _ E3) as (u & -> & Hu). exists (c :: d :: u). split; auto. intros _ e.
    unfold dec_error, dbind at 1. cbn [app]. rewrite d_u8_cons. unfold dbind at 1. rewrite d_u8_cons.
    rewrite C1. unfold dbind at 1. rewrite Hu. reflexivity.
  - destruct (c =? ERR_VENDOR) eqn:C2.
    + apply dbind_ok in E3 as (v & l4 & E3 & E4). apply dret_ok in E4 as [-> ->].
      unfold dec_vendor_ext in E3. assert (skipn 32 l2 = l4) as <- by congruence.
      exists (c :: d :: firstn 32 l2). split; [cbn [app]; rewrite firstn_skipn; reflexivity|].
      cbn [no_vendor_ext er_ext]. tauto.
    + apply dret_ok in E3 as [-> ->]. exists [c; d]. split; auto. intros _ e.
      unfold dec_error, dbind at 1. cbn [app]. rewrite d_u8_cons. unfold dbind at 1. rewrite d_u8_cons.
      rewrite C1, C2. reflexivity.
Qed.

Definition bounded_msg (m : message) : Prop :=
  match m_payload m with PError p => no_vendor_ext p | _ => True end.

Ltac payload_cases H :=
  unfold dec_payload in H;
  repeat match type of H with context [if ?b then _ else _] => destruct b eqn:?; cbn iota in H end.

Lemma dl_payload c code l p r : dec_payload c code l = POk p r ->
  exists u, l = u ++ r /\
    (match p with PError q => no_vendor_ext q | _ => True end -> forall e, dec_payload c code (u ++ e) = POk p e).
Proof.
  intro H.
  assert (HE : dlocal (dec_payload c code) \/ code = RC_ERROR).
  { unfold dec_payload. repeat match goal with
      |- context [if code =? ?k then _ else _] => destruct (N.eqb_spec code k) end;
    try (right; assumption); left; try apply dlocal_none; apply dl_map;
    first [ apply dl_version_rsp | apply dl_get_version | apply dl_get_capabilities | apply dl_capabilities
      | apply dl_nego | apply dl_algs | apply dl_digests | apply dl_empty | apply dl_get_cert | apply dl_cert
      | apply dl_challenge | apply dl_challenge_auth | apply dl_get_meas | apply dl_meas | apply dl_key_ex
      | apply dl_key_ex_rsp | apply dl_finish | apply dl_finish_rsp | apply dl_psk_ex | apply dl_psk_ex_rsp
      | apply dl_psk_finish | apply dl_key_update | apply dl_end_session ]. }
  destruct HE as [HE| ->].
  - destruct (HE _ _ _ H) as (u & -> & Hu). exists u. auto.
  - change (dec_payload c RC_ERROR) with (dmap PError dec_error) in *.
    unfold dmap in H. apply dbind_ok in H as (q & l1 & E & H). apply dret_ok in H as [-> ->].
    destruct (dl_error _ _ _ E) as (u & -> & Hu). exists u. split; auto. intros Hq e.
    unfold dmap, dbind. rewrite Hu; auto.
Qed.

Lemma dl_message c l m r : dec_message c l = POk m r ->
  exists u, l = u ++ r /\ (bounded_msg m -> forall e, dec_message c (u ++ e) = POk m e).
Proof.
  intro H. unfold dec_message in H.
  apply dbind_ok in H as (h & l1 & E1 & H). apply dbind_ok in H as (p & l2 & E2 & H).
  apply dret_ok in H as [-> ->].
  assert (HL : dlocal dec_header) by (unfold dec_header; dl).
  destruct (HL _ _ _ E1) as (u & -> & Hu). destruct (dl_payload _ _ _ _ _ E2) as (v & -> & Hv).
  exists (u ++ v). rewrite app_assoc. split; auto. unfold bounded_msg. cbn [m_payload]. intros Hb e.
  unfold dec_message, dbind at 1. rewrite <- app_assoc, Hu. unfold dbind. rewrite Hv; auto.
Qed.

(** ** panic freedom *)
Lemma dsafe_rep {A} n (d : dec A) : dsafe d -> dsafe (d_rep n d).
Proof.
  intro H. induction n as [|n IH]; cbn [d_rep]; [apply dsafe_ret|].
  apply dsafe_bind; auto. intro. apply dsafe_bind; auto. intro. apply dsafe_ret.
Qed.
Lemma dsafe_table {A} max (x : A) n d : dsafe d -> dsafe (d_table max x n d).
Proof. intro H. apply dsafe_bind; [apply dsafe_rep; auto|]. intro. apply dsafe_ret. Qed.
Lemma dsafe_dec_opt {A} b (d : dec A) x : (b = true -> dsafe d) -> dsafe (dec_opt b d x).
Proof. intro. destruct b; [auto|apply dsafe_ret]. Qed.
Lemma dsafe_if {A} (b : bool) (d1 d2 : dec A) : (b = true -> dsafe d1) -> (b = false -> dsafe d2) -> dsafe (if b then d1 else d2).
Proof. destruct b; auto. Qed.
Ltac ds :=
  repeat first
    [ apply dsafe_ret | apply dsafe_none | apply dsafe_u8 | apply dsafe_lift
    | apply dsafe_arr | apply dsafe_fixed | apply dsafe_size; assumption | apply dsafe_opt
    | assumption
    | apply dsafe_table | apply dsafe_dec_opt; intro | apply dsafe_guard | apply dsafe_if; intro
    | match goal with |- dsafe (dbind _ _) => apply dsafe_bind; [|intro] end ].
Lemma ds_flags8 m : dsafe (d_flags8 m). Proof. unfold d_flags8. ds. Qed.
Lemma ds_flags16 m : dsafe (d_flags16 m). Proof. unfold d_flags16. ds. Qed.
Lemma ds_flags32 m : dsafe (d_flags32 m). Proof. unfold d_flags32. ds. Qed.
Lemma ds_flags8s m : dsafe (d_flags8_strict m). Proof. unfold d_flags8_strict. ds. Qed.
Lemma ds_digest c : hash_size (n_hash (c_nego c)) <> None -> dsafe (dec_digest c).
Proof. intro. unfold dec_digest, c_hash_size. ds. Qed.
Lemma ds_sig c : asym_size (n_asym (c_nego c)) <> None -> dsafe (dec_signature c).
Proof. intro. unfold dec_signature, c_asym_size. ds. Qed.
Lemma ds_exch c : dhe_size (n_dhe (c_nego c)) <> None -> dsafe (dec_exchange c).
Proof. intro. unfold dec_exchange, c_dhe_size. ds. Qed.
Lemma ds_opaque : dsafe dec_opaque. Proof. unfold dec_opaque, d_u16. ds. Qed.
Lemma ds_empty : dsafe dec_empty. Proof. unfold dec_empty. ds. Qed.
Ltac ds2 := repeat first [ progress ds | apply ds_flags8 | apply ds_flags16 | apply ds_flags32 | apply ds_flags8s
  | apply ds_digest; assumption | apply ds_sig; assumption | apply ds_exch; assumption | apply ds_opaque | apply ds_empty ].
Lemma ds_alg_struct : dsafe dec_alg_struct.
Proof.
  unfold dec_alg_struct. ds. destruct a as [|q]; [apply dsafe_none|].
  do 3 (try destruct q as [q|q|]); ds2.
Qed.
Lemma ds_alg_loop chk n : forall cur seen, dsafe (d_alg_loop chk n cur seen).
Proof. induction n as [|n IH]; intros; cbn [d_alg_loop]; [apply dsafe_ret|]. apply dsafe_bind; [apply ds_alg_struct|intro]. ds2. apply IH. Qed.
Lemma ds_alg_table chk n : dsafe (d_alg_table chk n).
Proof. unfold d_alg_table. ds. apply ds_alg_loop. Qed.
Lemma alg_count_le c l n r : dec_alg_count c l = POk n r -> n <= 4.
Proof.
  unfold dec_alg_count. destruct (ver_ge c V11); intro H.
  - apply dbind_ok in H as (a & m & _ & H). apply dguard_ok in H as [G H]. apply dret_ok in H as [-> _].
    apply N.leb_le; auto.
  - apply dbind_ok in H as (a & m & _ & H). apply dret_ok in H as [-> _]. lia.
Qed.
Lemma dsafe_bind_inv {A B} (d : dec A) (k : A -> dec B) :
  dsafe d -> (forall l a r, d l = POk a r -> dsafe (k a)) -> dsafe (dbind d k).
Proof.
  intros Hd Hk l E. unfold dbind in E. destruct (d l) eqn:Ed; try discriminate.
  - eapply Hk; eauto. - eapply Hd; eauto.
Qed.
Lemma ds_alg_count c : dsafe (dec_alg_count c). Proof. unfold dec_alg_count. ds. Qed.
Lemma ds_other c : dsafe (dec_other_params c). Proof. unfold dec_other_params. ds2. Qed.
Lemma alg_len_some c b n : n <= 4 -> alg_len c b n <> None.
Proof.
  intro H. unfold alg_len. destruct (ver_ge c V11); [|discriminate].
  replace (4 * n <? 256) with true; [discriminate|]. symmetry. apply N.ltb_lt. lia.
Qed.
Lemma ds_nego c : dsafe (dec_nego_algs c).
Proof.
  unfold dec_nego_algs. apply dsafe_bind_inv; [apply ds_alg_count|]. intros l a r H.
  apply alg_count_le in H. ds2; first [apply ds_other | apply ds_alg_table | apply dsafe_size, alg_len_some; auto].
Qed.
Lemma ds_algs c : dsafe (dec_algs_rsp c).
Proof.
  unfold dec_algs_rsp. apply dsafe_bind_inv; [apply ds_alg_count|]. intros l a r H.
  apply alg_count_le in H. ds2; first [apply ds_other | apply ds_alg_table | apply dsafe_size, alg_len_some; auto].
Qed.
Lemma ds_dmtf c : mhash_size (n_mhash (c_nego c)) <> None -> dsafe (dec_dmtf c).
Proof. intro. unfold dec_dmtf. ds2. Qed.
Lemma ds_mblock c : mhash_size (n_mhash (c_nego c)) <> None -> dsafe (dec_mblock c).
Proof. intro. unfold dec_mblock. ds2. apply ds_dmtf; auto. Qed.
Lemma ds_blocks c n : mhash_size (n_mhash (c_nego c)) <> None -> forall cur, dsafe (d_blocks c n cur).
Proof. intro H. induction n as [|n IH]; intro; cbn [d_blocks]; ds2; [apply ds_mblock; auto|apply IH]. Qed.
Lemma ds_record c m : mhash_size (n_mhash (c_nego c)) <> None -> verify_record c m <> None.
Proof.
  intro H. unfold verify_record. pose proof (ds_blocks c (N.to_nat (mr_blocks m)) H 0 (firstn (N.to_nat (mr_length m)) (mr_data m))).
  destruct (d_blocks _ _ _ _) as [a [|x r]| |]; congruence.
Qed.
Lemma ds_mrecord c : mhash_size (n_mhash (c_nego c)) <> None -> dsafe (dec_mrecord c).
Proof. intro H. unfold dec_mrecord. ds2. apply dsafe_size, ds_record; auto. Qed.
Lemma ds_error : dsafe dec_error.
Proof.
  unfold dec_error. ds2; unfold dec_not_ready; ds2. intros l E. discriminate.
Qed.

(** which algorithm must have been selected for each code to decode without a panic *)
Definition needs (c : cctx) (code : N) : Prop :=
  (In code [RC_DIGESTS; RC_CHALLENGE_AUTH; RC_KEY_EXCHANGE_RSP; RC_FINISH; RC_FINISH_RSP; RC_PSK_EXCHANGE_RSP; RC_PSK_FINISH] ->
     hash_size (n_hash (c_nego c)) <> None) /\
  (In code [RC_CHALLENGE_AUTH; RC_MEASUREMENTS; RC_KEY_EXCHANGE_RSP; RC_FINISH] -> asym_size (n_asym (c_nego c)) <> None) /\
  (In code [RC_KEY_EXCHANGE; RC_KEY_EXCHANGE_RSP] -> dhe_size (n_dhe (c_nego c)) <> None) /\
  (In code [RC_MEASUREMENTS] -> mhash_size (n_mhash (c_nego c)) <> None).

Lemma ds_map {A B} (f : A -> B) d : dsafe d -> dsafe (dmap f d). Proof. intro. unfold dmap. ds. Qed.
Lemma ds_payload c code : needs c code -> dsafe (dec_payload c code).
Proof.
  intros (Hh & Ha & Hd & Hm). unfold dec_payload.
  repeat match goal with
      |- context [if code =? ?k then _ else _] => destruct (N.eqb_spec code k); [subst code|] end;
    try apply dsafe_none; apply ds_map;
  try (specialize (Hh ltac:(cbn; tauto)));
  try (specialize (Ha ltac:(cbn; tauto)));
  try (specialize (Hd ltac:(cbn; tauto)));
  try (specialize (Hm ltac:(cbn; tauto)));
  first
  [ apply ds_nego | apply ds_algs | apply ds_error
  | unfold dec_version_rsp, dec_version_struct; solve [ds2]
  | unfold dec_get_version; solve [ds2]
  | unfold dec_get_capabilities, d_u16, d_u32; solve [ds2]
  | unfold dec_capabilities, d_u16, d_u32; solve [ds2]
  | unfold dec_digests_rsp; solve [ds2]
  | apply ds_empty
  | unfold dec_get_cert, d_u16; solve [ds2]
  | unfold dec_cert_rsp, d_u16; solve [ds2]
  | unfold dec_challenge, dec_nonce; solve [ds2]
  | unfold dec_challenge_auth, dec_nonce; solve [ds2]
  | unfold dec_get_meas, dec_nonce; solve [ds2]
  | unfold dec_meas_rsp, dec_nonce; solve [ds2; apply ds_mrecord; auto]
  | unfold dec_key_ex, dec_nonce, d_u16; solve [ds2]
  | unfold dec_key_ex_rsp, dec_nonce, d_u16; solve [ds2]
  | unfold dec_finish; solve [ds2]
  | unfold dec_finish_rsp; solve [ds2]
  | unfold dec_psk_ex, d_u16; solve [ds2]
  | unfold dec_psk_ex_rsp, d_u16; solve [ds2]
  | unfold dec_psk_finish; solve [ds2]
  | unfold dec_key_update; solve [ds2]
  | unfold dec_end_session; solve [ds2] ].
Qed.
Lemma ds_message c : (forall code, needs c code) -> dsafe (dec_message c).
Proof.
  intro H. unfold dec_message. apply dsafe_bind; [unfold dec_header; ds|]. intro h.
  apply dsafe_bind; [apply ds_payload; auto|]. intro. ds.
Qed.
Lemma ds_message_code c l v code : nth_error l 0 = Some v -> nth_error l 1 = Some code -> needs c code ->
  dec_message c l <> PPanic.
Proof.
  intros H0 H1 H. destruct l as [|a [|b l]]; try discriminate. cbn in H0, H1.
  assert (a = v /\ b = code) as [-> ->] by (split; congruence).
  unfold dec_message, dec_header, dbind at 1. unfold dbind at 1. rewrite d_u8_cons.
  unfold dbind at 1. rewrite d_u8_cons. unfold dret at 1. cbn [h_code].
  apply (dsafe_bind (dec_payload c code)); [apply ds_payload; auto|]. intro. ds.
Qed.

(** ** every well-formed payload has its wire form *)
Lemma xw_payload c p : ok_payload c p -> xwire (enc_payload c p) = Some (wire_payload c p).
Proof.
  destruct p; cbn [ok_payload enc_payload wire_payload]; intro H; try reflexivity;
  first [ apply xw_version_rsp | apply xw_get_capabilities | apply xw_capabilities | apply xw_nego_algs; assumption
    | apply xw_algs_rsp; assumption | apply xw_digests; assumption | apply xw_get_cert | apply xw_cert; assumption
    | apply xw_challenge | apply xw_challenge_auth; assumption | apply xw_get_meas | apply xw_meas; assumption
    | apply xw_key_ex; assumption | apply xw_key_ex_rsp; assumption | apply xw_finish; assumption
    | apply xw_finish_rsp; assumption | apply xw_psk_ex | apply xw_psk_ex_rsp; assumption
    | apply xw_psk_finish; assumption | apply xw_encap_ack | apply xw_error | apply xw_vendor ].
Qed.

(** the decoder the library applies to each payload *)
Definition rt_dec (c : cctx) (p : payload) : dec payload :=
  match code_of p with
  | Some k => dec_payload c k
  | None => match p with
            | PGetEncap => dmap (fun _ => PGetEncap) dec_empty
            | PEncapReq _ => dmap PEncapReq dec_encap_id
            | PDeliverEncap _ => dmap PDeliverEncap dec_encap_id
            | PEncapAck _ => dmap PEncapAck (dec_encap_ack c)
            | PVendorReq _ => dmap PVendorReq dec_vendor
            | PVendorRsp _ => dmap PVendorRsp dec_vendor
            | _ => dmap (fun _ => PGeneral 0 0) dec_empty
            end
  end.
Definition closed (p : payload) : Prop := match p with PError q => ~ open_ended q | _ => True end.

Lemma rt_payload c p : ok_payload c p -> closed p -> rt (enc_payload c p) (rt_dec c p) p.
Proof.
  intros H HC.
  destruct p; cbn [ok_payload enc_payload closed] in *; unfold rt_dec; cbn [code_of];
  match goal with
  | |- rt _ (dec_payload c ?k) _ => let d := eval cbv beta iota zeta delta [dec_payload N.eqb Pos.eqb RC_DIGESTS RC_CERTIFICATE
       RC_CHALLENGE_AUTH RC_VERSION RC_MEASUREMENTS RC_CAPABILITIES RC_ALGORITHMS RC_KEY_EXCHANGE_RSP RC_FINISH_RSP
       RC_PSK_EXCHANGE_RSP RC_PSK_FINISH_RSP RC_HEARTBEAT_ACK RC_KEY_UPDATE_ACK RC_END_SESSION_ACK RC_ERROR
       RC_GET_DIGESTS RC_GET_CERTIFICATE RC_CHALLENGE RC_GET_VERSION RC_GET_MEASUREMENTS RC_GET_CAPABILITIES
       RC_NEGOTIATE_ALGORITHMS RC_KEY_EXCHANGE RC_FINISH RC_PSK_EXCHANGE RC_PSK_FINISH RC_HEARTBEAT RC_KEY_UPDATE
       RC_END_SESSION] in (dec_payload c k) in change (dec_payload c k) with d
  | _ => idtac
  end;
  try match type of H with _ = _ /\ _ = _ => destruct H as [-> ->] end;
  first [ apply (rt_map _ _ (fun _ => PGetVersion) tt), rt_get_version
        | apply (rt_map _ _ (fun _ => PGetDigests) tt), rt_empty
        | apply (rt_map _ _ (fun _ => PPskFinishRsp) tt), rt_empty
        | apply (rt_map _ _ (fun _ => PHeartbeat) tt), rt_empty
        | apply (rt_map _ _ (fun _ => PHeartbeatAck) tt), rt_empty
        | apply (rt_map _ _ (fun _ => PEndSessionAck) tt), rt_empty
        | apply (rt_map _ _ (fun _ => PGetEncap) tt), rt_empty
        | apply (rt_map _ _ (fun _ => PGeneral 0 0) tt), rt_empty
        | apply rt_map; first
          [ apply rt_version_rsp; assumption | apply rt_get_capabilities; assumption | apply rt_capabilities; assumption
          | apply rt_nego_algs; assumption | apply rt_algs_rsp; assumption | apply rt_digests; assumption
          | apply rt_get_cert; assumption | apply rt_cert; assumption | apply rt_challenge; assumption
          | apply rt_challenge_auth; assumption | apply rt_get_meas; assumption | apply rt_meas; assumption
          | apply rt_key_ex; assumption | apply rt_key_ex_rsp; assumption | apply rt_finish; assumption
          | apply rt_finish_rsp; assumption | apply rt_psk_ex; assumption | apply rt_psk_ex_rsp; assumption
          | apply rt_psk_finish; assumption | apply rt_key_update; assumption | apply rt_end_session; assumption
          | apply rt_encap_id | apply rt_encap_ack; assumption | apply rt_error; assumption | apply rt_vendor; assumption ] ].
Qed.

Lemma xcount_payload c p : ok_payload c p -> xcount (enc_payload c p) = len (wire_payload c p).
Proof.
  intro H. assert (D : closed p \/ exists q, p = PError q).
  { destruct p; cbn [closed]; auto. right. eauto. }
  destruct D as [D|[q ->]].
  - destruct (rt_payload c p H D) as (w & W & C & _). rewrite (xw_payload c p H) in W. congruence.
  - apply xcount_error. exact H.
Qed.
Lemma payload_encodes c p : ok_payload c p -> encodes (enc_payload c p) (wire_payload c p).
Proof. intro H. apply encodes_of; [apply xw_payload|apply xcount_payload]; auto. Qed.

Lemma message_encodes c v code p : ok_payload c p ->
  encodes (enc_message c (mkMsg (mkHeader v code) p)) ([v; code] ++ wire_payload c p).
Proof.
  intro H. apply encodes_of; unfold enc_message, enc_header; cbn [m_header m_payload h_version h_code].
  - rewrite xwire_app, (xw_payload c p H). reflexivity.
  - rewrite xcount_app, (xcount_payload c p H), len_app. reflexivity.
Qed.
Lemma message_round_trips c v code p : ok_payload c p -> closed p -> code_of p = Some code ->
  round_trips (enc_message c (mkMsg (mkHeader v code) p)) (dec_message c)
              ([v; code] ++ wire_payload c p) (mkMsg (mkHeader v code) p).
Proof.
  intros H HC HD. split; [apply message_encodes; auto|]. intro rest.
  destruct (rt_payload c p H HC) as (w & W & _ & D). rewrite (xw_payload c p H) in W.
  assert (w = wire_payload c p) as -> by congruence. unfold rt_dec in D. rewrite HD in D.
  unfold dec_message, dec_header. rewrite <- app_assoc. cbn [app].
  unfold dbind at 1. unfold dbind at 1. rewrite d_u8_cons. unfold dbind at 1. rewrite d_u8_cons.
  unfold dret at 1. cbn [h_code]. unfold dbind. rewrite D. reflexivity.
Qed.
Lemma payload_round_trips c p : ok_payload c p -> closed p ->
  round_trips (enc_payload c p) (rt_dec c p) (wire_payload c p) p.
Proof.
  intros H HC. split; [apply payload_encodes; auto|].
  destruct (rt_payload c p H HC) as (w & W & _ & D). rewrite (xw_payload c p H) in W.
  assert (w = wire_payload c p) as -> by congruence. exact D.
Qed.
Lemma error_end c q : ok_error q -> dec_payload c RC_ERROR (wire_error q) = POk (PError q) [].
Proof.
  intro H. change (dec_payload c RC_ERROR) with (dmap PError dec_error). unfold dmap, dbind.
  rewrite dec_error_end; auto.
Qed.
