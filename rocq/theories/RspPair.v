(** Delivery of secured messages between the two ends of a session. *)
From Verif Require Import Bytes BytesFacts Status Codec Parse ParseProofs Algo Monad.
From Verif Require Import MsgConn MsgAuth MsgSession MsgOther Message Opaque Transport TransportProofs Crypto KeySchedule Session Signing CertOps ChainVerify Context SessionProofs
  RspBase RspConn RspSess RspEncap Responder StRel RspFrame RspCalm RspOpcode RspPass RspEst ReqBase ReqConn ReqSess SpecReq ReqFrame ReqAnswer SpecSession SpecAuth ReqTrans ReqSplit ReqHist ReqAuth.
From Verif Require RspDeliver.
From Verif Require Import PropAlgs PropRetr PropFetch PropServe Pair SpecPair ReqHand SpecKeys KeyProofs PropKeys.
From Coq Require Import Lia.
Local Open Scope N_scope.

(** ** the transports *)
Lemma lossless_mctp : lossless mctp_transport.
Proof.
  split.
  - intros m p B L H. cbn [mctp_transport tr_encap_app tr_decap_app] in *.
    assert (L1 : (1 + length m <= length (zbuf BUFFER_SIZE))%nat) by (rewrite zbuf_length; change (N.to_nat BUFFER_SIZE) with 4160%nat; unfold len in L; lia).
    assert (L2 : (length m <= length (zbuf 4096))%nat) by (rewrite zbuf_length; change (N.to_nat 4096) with 4096%nat; unfold len in L; lia).
    destruct (mctp_app_roundtrip m (zbuf BUFFER_SIZE) (zbuf 4096) false L1 L2) as (tb & H1 & H2 & H4 & H3).
    rewrite H1 in H. unfold took in H. cbn [fst snd obind] in H. assert (p = firstn (1 + length m) tb) as -> by congruence.
    rewrite H3. unfold took2. cbn [fst snd obind]. rewrite firstn_app_exact by reflexivity.
    split; [|split; [unfold len; rewrite firstn_length; lia|reflexivity]].
    unfold mctp_encap_app in H1. rewrite mctp_put_spec in H1. destruct (zbuf BUFFER_SIZE) as [|o tl] eqn:Z; [discriminate|]. destruct (_ <? _)%nat; [discriminate|].
    match type of H1 with (_, ?t) = _ => replace tb with t by congruence end. cbn [Nat.add firstn]. rewrite firstn_app_exact by reflexivity.
    constructor; [reflexivity|exact B].
  - intros c t B Lt H. cbn [mctp_transport tr_encap tr_decap] in *. exists []. rewrite app_nil_r. unfold mctp_encap in H. rewrite mctp_put_spec in H.
    assert (Lz : length (zbuf BUFFER_SIZE) = 4160%nat) by (rewrite zbuf_length; reflexivity). destruct (zbuf BUFFER_SIZE) as [|o tl] eqn:Z; [discriminate|]. cbn [length] in Lz.
    destruct (Nat.ltb_spec (length tl) (length c)) as [|Lc]; [discriminate|]. unfold took in H. cbn [fst snd obind Nat.add firstn] in H.
    rewrite firstn_app_exact in H by reflexivity. change (enum_get mctp_types MCTP_SECURED) with 6 in H. assert (t = 6 :: c) as -> by congruence. rewrite <- Z.
    rewrite mctp_decap_spec. cbn [N.eqb Pos.eqb orb]. rewrite Z. cbn [length]. rewrite (proj2 (Nat.ltb_ge _ _)) by lia.
    unfold took2. cbn [fst snd obind]. rewrite firstn_app_exact by reflexivity. reflexivity.
Qed.
Lemma lossless_doe : lossless doe_transport.
Proof.
  split.
  - intros m p B L H. cbn [doe_transport tr_encap_app tr_decap_app] in *. unfold doe_encap_app in H.
    assert (L1 : length (zbuf BUFFER_SIZE) = 4160%nat) by (rewrite zbuf_length; reflexivity). assert (L2 : length (zbuf 4096) = 4096%nat) by (rewrite zbuf_length; reflexivity).
    rewrite L1, (proj2 (Nat.ltb_ge _ _)) in H by (unfold len in L; lia). unfold took in H. cbn [fst snd obind] in H. rewrite patch_0_app, firstn_app_exact in H by reflexivity.
    assert (p = m) as -> by congruence. split; [exact B|]. split; [lia|]. unfold doe_decap_app. rewrite L2, (proj2 (Nat.ltb_ge _ _)) by (unfold len in L; lia).
    unfold took2. cbn [fst snd obind]. rewrite patch_0_app, firstn_app_exact by reflexivity. reflexivity.
  - intros c t B Lt H. cbn [doe_transport tr_encap tr_decap] in *.
    assert (L1 : length (zbuf BUFFER_SIZE) = 4160%nat) by (rewrite zbuf_length; reflexivity).
    assert (Lc : (8 + doe_align (length c) <= 4160)%nat).
    { unfold doe_align. assert (D := Nat.div_mod (length c + 3) 4 ltac:(lia)). unfold len in Lt. lia. }
    destruct (doe_roundtrip c (zbuf BUFFER_SIZE) (zbuf BUFFER_SIZE) true B (zbuf_ok _)) as (tb & pad & H1 & H2 & _ & H4 & H3); [fold (doe_align (length c)); change (2 ^ 20) with 1048576; lia|fold (doe_align (length c)); lia|fold (doe_align (length c)); lia|].
      fold (doe_align (length c)) in *. rewrite H1 in H. unfold took in H. cbn [fst snd obind] in H. match type of H with Ok ?u = _ => replace t with u by congruence end.
      exists pad. rewrite H3. unfold took2. cbn [fst snd obind]. rewrite (app_assoc c pad). rewrite firstn_app_exact by (rewrite app_length; lia). reflexivity.
Qed.

(** ** one secured message, possibly followed by padding *)
Lemma decode_encode_pad cr s d app room w pad room' : aead_correct cr -> s_id s < 2 ^ 32 -> encode_msg cr s d app room = Ok w -> len app <= room' ->
  decode_msg cr s d (w ++ pad) room' = Ok app.
Proof.
  intros Hc Hid He Hr. apply encode_msg_ok in He as (tag & c & t & Ht & Hi & Hk & Hs & Hq & Ha & Hseal & Hlc & Hlt & Hroom & Hw).
  unfold BUFFER_SIZE in Ha. destruct (aead_sizes _ _ Ht) as (Htag & _).
  unfold decode_msg. rewrite Ht. destruct (d_seq d =? U64_MAX) eqn:E; [apply N.eqb_eq in E; contradiction|].
  rewrite Hw. unfold wire_header. rewrite <- !app_assoc. rewrite d_u32_le by exact Hid. rewrite N.eqb_refl. cbn [negb].
  rewrite check_seq_honest0 by (rewrite N2Nat.id; exact Hq). rewrite d_u16_le' by lia.
  replace (len _ <? 2 + len app + tag + (6 + s_seq_count s)) with false.
  2:{ symmetry. apply N.ltb_ge. rewrite !len_app. unfold len in *. rewrite !le_bytes_length. lia. }
  destruct (2 + len app + tag <? tag) eqn:E2; [apply N.ltb_lt in E2; lia|]. replace (2 + len app + tag - tag) with (len c) by lia.
  destruct (BUFFER_SIZE <? len c) eqn:E3; [apply N.ltb_lt in E3; unfold BUFFER_SIZE in E3; lia|].
  assert (Hf : firstn (N.to_nat (6 + s_seq_count s))
     (le_bytes 4 (s_id s) ++ le_bytes (N.to_nat (s_seq_count s)) (d_seq d) ++ le_bytes 2 (2 + len app + tag) ++ c ++ t ++ pad)
     = wire_header (s_id s) (N.to_nat (s_seq_count s)) (d_seq d) (len app) tag).
  { unfold wire_header. rewrite (app_assoc (le_bytes (N.to_nat (s_seq_count s)) _)), (app_assoc (le_bytes 4 _)). apply firstn_app_exact.
    rewrite !app_length, !le_bytes_length. lia. }
  rewrite Hf. rewrite firstn_app_exact by (unfold len; lia). rewrite skipn_app_exact by (unfold len; lia).
  replace (firstn (N.to_nat tag) (t ++ pad)) with t by (symmetry; apply firstn_app_exact; unfold len in Hlt; lia).
  unfold aead_decrypt. rewrite Hk, Hi, Ht, N.eqb_refl. cbn [negb]. rewrite nonce_wire.
  replace (len (wire_nonce (d_salt d) (d_seq d)) =? len (d_salt d)) with true by (symmetry; apply N.eqb_eq; unfold len; now rewrite wire_nonce_length).
  rewrite Hlt, N.eqb_refl. cbn [negb]. destruct (Hc _ _ _ _ _ _ _ Hseal) as [Hlp Ho]. rewrite Ho.
  replace (len c <=? len (wire_plain app)) with true by (symmetry; apply N.leb_le; lia).
  cbn [obind]. replace (firstn (length c) (wire_plain app)) with (wire_plain app) by (symmetry; apply firstn_all2; unfold len in Hlp; lia).
  destruct (unwrap_plain app) as [Hu1 Hu2]; [lia|]. rewrite Hu1, Hu2.
  destruct (len (wire_plain app) <? len app + 2) eqn:E4; [apply N.ltb_lt in E4; rewrite wire_plain_len in E4; lia|].
  destruct (room' <? len app) eqn:E5; [apply N.ltb_lt in E5; lia|]. reflexivity.
Qed.
(** the session after one message in direction [req] *)
Definition next (req : bool) (s : session) : session := set_dir req (set_d_seq (d_seq (get_dir req s) + 1) (get_dir req s)) s.
Lemma paired_dir req a b : s_state a = SEstablished -> paired a b -> get_dir req a = get_dir req b.
Proof. intros S ((_ & S2 & _) & _ & D1 & D2). unfold get_dir. rewrite <- S2, S. destruct req; assumption. Qed.
Lemma paired_next req a b : s_state a = SEstablished -> paired a b -> paired (next req a) (next req b).
Proof.
  intros S P. pose proof (paired_dir req a b S P) as D. destruct P as ((I & S2 & H) & Se & D1 & D2). unfold next. rewrite D. set (d := set_d_seq _ _). unfold set_dir. rewrite <- S2, S.
  destruct a, b. cbn in *. destruct req; repeat split; cbn; tauto.
Qed.
Lemma next_state req s : s_state (next req s) = s_state s /\ s_id (next req s) = s_id s. Proof. unfold next. destruct (set_dir_frame req (set_d_seq (d_seq (get_dir req s) + 1) (get_dir req s)) s) as (A & _ & _ & B & _). auto. Qed.
Lemma secured_pad cr req app room room' w pad a a' b : aead_correct cr -> s_id a < 2 ^ 32 -> s_state a = SEstablished -> paired a b -> len app <= room' ->
  encode_secured cr req app room a = (Ok w, a') -> a' = next req a /\ decode_secured cr req (w ++ pad) room' b = (Ok app, next req b).
Proof.
  intros Hc Hid S P Hr H. apply encode_secured_ok in H as (_ & He & ->). split; [reflexivity|]. pose proof (paired_dir req a b S P) as D.
  assert (Hs : d_seq (get_dir req b) <> U64_MAX) by (apply encode_msg_ok in He as (? & ? & ? & _ & _ & _ & Hs & _); rewrite <- D; exact Hs).
  apply (decode_encode_pad _ _ _ _ _ _ pad room' Hc Hid) in He; [|exact Hr]. destruct P as ((I & S2 & _ & A & C) & _). rewrite (decode_msg_cong cr a b) in He by assumption. rewrite D in He.
  unfold decode_secured. rewrite <- S2, S, He. unfold bump. rewrite (proj2 (N.eqb_neq _ _)) by exact Hs. reflexivity.
Qed.
(** key updates of paired sessions *)
Definition fresh_req (us : bytes) (k : bytes * bytes) (s : session) : session :=
  mod_app (fun a => set_a_req_dir (set_d_seq 0 (rekey k (a_req_dir a))) a) (mod_app (set_a_req_secret us)
    (mod_backup (set_a_req_dir (a_req_dir (s_app s))) (mod_backup (set_a_req_secret (a_req_secret (s_app s))) s))).
Definition fresh_rsp (us : bytes) (k : bytes * bytes) (s : session) : session :=
  mod_app (fun a => set_a_rsp_dir (set_d_seq 0 (rekey k (a_rsp_dir a))) a) (mod_app (set_a_rsp_secret us)
    (mod_backup (set_a_rsp_dir (a_rsp_dir (s_app s))) (mod_backup (set_a_rsp_secret (a_rsp_secret (s_app s))) s))).
Lemma update_req_fresh cr v s s' u : update_req cr v s = (Ok u, s') -> exists us k, derive_update cr v (s_hash s) (a_req_secret (s_app s)) = Ok us /\
  derive_aead_key_iv cr v (s_hash s) (s_aead s) us = Ok k /\ s' = fresh_req us k s.
Proof.
  intro H. unfold update_req in H. rewrite !bind_mod, bind_get in H. unfold sbind at 1, sof in H. cbn [s_hash s_app mod_backup set_s_backup] in H.
  destruct (derive_update _ _ _ _) as [us| |]; [|discriminate|discriminate]. rewrite bind_mod in H. unfold sbind at 1 in H. cbn [s_aead s_hash s_app mod_backup set_s_backup] in H.
  destruct (derive_aead_key_iv _ _ _ _ _) as [k| |] eqn:K; [|discriminate|discriminate]. exists us, k. split; [reflexivity|]. split; [exact K|].
  unfold smod in H. match type of H with (_, ?t) = _ => replace s' with t by congruence end. reflexivity.
Qed.
Lemma update_req_runs cr v s us k : derive_update cr v (s_hash s) (a_req_secret (s_app s)) = Ok us -> derive_aead_key_iv cr v (s_hash s) (s_aead s) us = Ok k ->
  update_req cr v s = (Ok tt, fresh_req us k s).
Proof.
  intros H K. unfold update_req. rewrite !bind_mod, bind_get. unfold sbind at 1, sof. cbn [s_hash s_app mod_backup set_s_backup]. rewrite H, bind_mod. unfold sbind at 1. cbn [s_aead s_hash s_app mod_backup set_s_backup]. rewrite K. reflexivity.
Qed.
Lemma update_rsp_fresh cr v s s' u : update_rsp cr v s = (Ok u, s') -> exists us k, derive_update cr v (s_hash s) (a_rsp_secret (s_app s)) = Ok us /\
  derive_aead_key_iv cr v (s_hash s) (s_aead s) us = Ok k /\ s' = fresh_rsp us k s.
Proof.
  intro H. unfold update_rsp in H. rewrite !bind_mod, bind_get in H. unfold sbind at 1, sof in H. cbn [s_hash s_app mod_backup set_s_backup] in H.
  destruct (derive_update _ _ _ _) as [us| |]; [|discriminate|discriminate]. rewrite bind_mod in H. unfold sbind at 1 in H. cbn [s_aead s_hash s_app mod_backup set_s_backup] in H.
  destruct (derive_aead_key_iv _ _ _ _ _) as [k| |] eqn:K; [|discriminate|discriminate]. exists us, k. split; [reflexivity|]. split; [exact K|].
  unfold smod in H. match type of H with (_, ?t) = _ => replace s' with t by congruence end. reflexivity.
Qed.
Lemma update_rsp_runs cr v s us k : derive_update cr v (s_hash s) (a_rsp_secret (s_app s)) = Ok us -> derive_aead_key_iv cr v (s_hash s) (s_aead s) us = Ok k ->
  update_rsp cr v s = (Ok tt, fresh_rsp us k s).
Proof.
  intros H K. unfold update_rsp. rewrite !bind_mod, bind_get. unfold sbind at 1, sof. cbn [s_hash s_app mod_backup set_s_backup]. rewrite H, bind_mod. unfold sbind at 1. cbn [s_aead s_hash s_app mod_backup set_s_backup]. rewrite K. reflexivity.
Qed.
Lemma paired_fresh_req us k a b : paired a b -> paired (fresh_req us k a) (fresh_req us k b).
Proof. intros ((I & S & H & A & C) & (E1 & E2) & D1 & D2). unfold paired, fresh_req. cbn. rewrite D1. auto 10. Qed.
Lemma paired_fresh_rsp us k a b : paired a b -> paired (fresh_rsp us k a) (fresh_rsp us k b).
Proof. intros ((I & S & H & A & C) & (E1 & E2) & D1 & D2). unfold paired, fresh_rsp. cbn. rewrite D2. auto 10. Qed.
Lemma paired_update cr v q p a b u a' : paired a b -> create_data_secret_update cr v q p a = (Ok u, a') ->
  exists b', create_data_secret_update cr v q p b = (Ok tt, b') /\ paired a' b' /\ s_state a' = s_state a /\ s_id a' = s_id a.
Proof.
  intros P H. unfold create_data_secret_update in *.
  assert (H1 : exists a1, swhen q (update_req cr v) a = (Ok tt, a1) /\ swhen p (update_rsp cr v) a1 = (Ok u, a')).
  { unfold sbind in H. destruct (swhen q (update_req cr v) a) as [[[]| |] a1]; [eauto|discriminate|discriminate]. } destruct H1 as (a1 & H1 & H2). clear H.
  assert (K1 : exists b1, swhen q (update_req cr v) b = (Ok tt, b1) /\ paired a1 b1 /\ s_state a1 = s_state a /\ s_id a1 = s_id a).
  { destruct q; cbn [swhen] in *.
    - apply update_req_fresh in H1 as (us & k & Du & Dk & ->). destruct P as ((I & S & Ha & A & C) & (E1 & E2) & D). rewrite Ha, E1 in Du. rewrite Ha, A in Dk.
      rewrite (update_req_runs cr v b us k Du Dk). eexists. split; [reflexivity|]. split; [apply paired_fresh_req; repeat split; tauto|]. split; reflexivity.
    - unfold sret in *. assert (a1 = a) as -> by congruence. exists b. auto. }
  destruct K1 as (b1 & K1 & P1 & S1 & I1). unfold sbind. rewrite K1.
  destruct p; cbn [swhen] in *.
  - apply update_rsp_fresh in H2 as (us & k & Du & Dk & ->). destruct P1 as ((I & S & Ha & A & C) & (E1 & E2) & D). rewrite Ha, E2 in Du. rewrite Ha, A in Dk.
    rewrite (update_rsp_runs cr v b1 us k Du Dk). eexists. split; [reflexivity|]. split; [apply paired_fresh_rsp; repeat split; tauto|]. split; [exact S1|exact I1].
  - unfold sret in *. assert (a' = a1) as -> by congruence. exists b1. auto.
Qed.
Lemma paired_activate q p q' p' a b : paired a b -> paired (activate_data_secret_update q p true a) (activate_data_secret_update q' p' true b).
Proof.
  intro P. assert (G : forall q p s, s_app (activate_data_secret_update q p true s) = s_app s /\ s_id (activate_data_secret_update q p true s) = s_id s /\ s_state (activate_data_secret_update q p true s) = s_state s /\
    s_hash (activate_data_secret_update q p true s) = s_hash s /\ s_aead (activate_data_secret_update q p true s) = s_aead s /\ s_seq_count (activate_data_secret_update q p true s) = s_seq_count s) by (intros [|] [|] s; repeat split; reflexivity).
  destruct (G q p a) as (A1 & A2 & A3 & A4 & A5 & A6), (G q' p' b) as (B1 & B2 & B3 & B4 & B5 & B6). unfold paired in *. rewrite A1, A2, A3, A4, A5, A6, B1, B2, B3, B4, B5, B6. exact P.
Qed.
Lemma activate_frame q p s : s_state (activate_data_secret_update q p true s) = s_state s /\ s_id (activate_data_secret_update q p true s) = s_id s /\ s_app (activate_data_secret_update q p true s) = s_app s.
Proof. destruct q, p; repeat split; reflexivity. Qed.

(** ** frames *)
Lemma sealed_bytes cr req p room s c s' : seals_bytes cr -> bytes_ok p -> encode_secured cr req p room s = (Ok c, s') -> bytes_ok c /\ len c <= len p + 32 /\ exists rest, c = le_bytes 4 (s_id s) ++ rest.
Proof.
  intros Sb B H. apply encode_secured_ok in H as (_ & H & _). apply encode_msg_ok in H as (tag & k & t & Ht & _ & _ & _ & Hq & _ & Hs & Lk & Lt & _ & ->).
  destruct (aead_sizes _ _ Ht) as (-> & _).
  assert (Bp : bytes_ok (wire_plain p)) by (unfold wire_plain; apply bytes_ok_app; split; [apply le_bytes_ok|exact B]). destruct (Sb _ _ _ _ _ _ _ Bp Hs) as [B1 B2].
  split; [|split].
  - apply bytes_ok_app. split; [unfold wire_header; apply bytes_ok_app; split; [apply le_bytes_ok|]; apply bytes_ok_app; split; apply le_bytes_ok|]. apply bytes_ok_app. auto.
  - rewrite !len_app, wire_header_len. lia.
  - unfold wire_header. rewrite <- !app_assoc. eauto.
Qed.
Lemma envelope_inv E id m req x t x1 a : get_sess id x = Some a -> encode_secured_message E id m req false x = (Ok t, x1) ->
  exists p c a', tr_encap_app (e_tr E) BUFFER_SIZE m false = Ok p /\ encode_secured (e_cr E) req p BUFFER_SIZE a = (Ok c, a') /\ tr_encap (e_tr E) BUFFER_SIZE c true = Ok t /\
    x1 = mod_sess id (fun _ => a') x.
Proof.
  intros G H. unfold encode_secured_message in H. unfold sbind at 1, sof in H. destruct (tr_encap_app _ _ _ _) as [p| |]; [|discriminate|discriminate]. rewrite bind_get, G in H.
  unfold sbind at 1, on_sess in H. rewrite G in H. destruct (encode_secured (e_cr E) req p BUFFER_SIZE a) as [[c| |] a'] eqn:En; [|discriminate|discriminate].
  destruct (tr_encap (e_tr E) BUFFER_SIZE c true) as [t'| |] eqn:T; cbv beta iota in H; [|discriminate|discriminate]. exists p, c, a'. assert (t' = t) as -> by congruence.
  repeat (split; [first [reflexivity|exact T|exact En]|]). congruence.
Qed.
Lemma own_id id x a : get_sess id x = Some a -> s_id a = id.
Proof. exact (RspDeliver.get_sess_id id x a). Qed.
(** a request that the requester managed to seal is dispatched by the responder *)
Lemma delivered E Er id m x t x1 y a b : e_cr E = e_cr Er -> e_tr E = e_tr Er -> lossless (e_tr Er) -> aead_correct (e_cr Er) -> seals_bytes (e_cr Er) ->
  id < 2 ^ 32 -> bytes_ok m -> len m <= 4000 -> get_sess id x = Some a -> get_sess id y = Some b -> s_state a = SEstablished -> paired a b ->
  encode_secured_message E id m true false x = (Ok t, x1) ->
  x1 = mod_sess id (fun _ => next true a) x /\ process_frame Er t y = is_ok (dispatch_secured Er id m) (mod_sess id (fun _ => next true b) y).
Proof.
  intros Ec Et (La & Lt) Hc Sb Hid Bm Lm Ga Gb S P H. destruct (envelope_inv _ _ _ _ _ _ _ _ Ga H) as (p & c & a' & H1 & H2 & H3 & ->). rewrite Ec, Et in *.
  destruct (La _ _ Bm Lm H1) as (Bp & Lp & Dp). pose proof (own_id _ _ _ Ga) as Ia. pose proof (own_id _ _ _ Gb) as Ib.
  destruct (sealed_bytes _ _ _ _ _ _ _ Sb Bp H2) as (Bc & Lc & rest & Ecb). destruct (Lt c t Bc ltac:(lia) H3) as (pad & Dt).
  destruct (secured_pad (e_cr Er) true p BUFFER_SIZE BUFFER_SIZE c pad a a' b Hc ltac:(lia) S P ltac:(change BUFFER_SIZE with 4160; lia) H2) as (-> & D). split; [reflexivity|].
  assert (Rd : read_session_id (c ++ pad) = Some id).
  { rewrite Ecb, <- app_assoc. unfold read_session_id. rewrite (proj2 (N.ltb_ge _ _)) by (rewrite len_app; unfold len at 1; rewrite le_bytes_length; lia).
    rewrite firstn_app_exact by apply le_bytes_length. rewrite le_val_bytes by (rewrite Ia; exact Hid). rewrite Ia. reflexivity. }
  unfold process_frame. rewrite Dt. unfold process_secured. rewrite Rd, bind_get, Gb. unfold scatch at 1, on_sess. rewrite Gb, D.
  change MAX_SPDM_MSG_SIZE with 4096. rewrite Dp. reflexivity.
Qed.
(** a reply that the responder managed to seal is opened by the requester *)
Lemma answered E Er id m x t y y1 a b : e_cr E = e_cr Er -> e_tr E = e_tr Er -> lossless (e_tr Er) -> aead_correct (e_cr Er) -> seals_bytes (e_cr Er) ->
  id < 2 ^ 32 -> bytes_ok m -> len m <= 4000 -> get_sess id x = Some a -> get_sess id y = Some b -> s_state a = SEstablished -> paired a b ->
  encode_secured_message Er id m false false y = (Ok t, y1) ->
  y1 = mod_sess id (fun _ => next false b) y /\ decode_secured_message E id MAX_SPDM_MSG_SIZE t x = (Ok m, mod_sess id (fun _ => next false a) x).
Proof.
  intros Ec Et (La & Lt) Hc Sb Hid Bm Lm Ga Gb S P H. destruct (envelope_inv _ _ _ _ _ _ _ _ Gb H) as (p & c & b' & H1 & H2 & H3 & ->).
  destruct (La _ _ Bm Lm H1) as (Bp & Lp & Dp). pose proof (own_id _ _ _ Ga) as Ia. pose proof (own_id _ _ _ Gb) as Ib.
  destruct (sealed_bytes _ _ _ _ _ _ _ Sb Bp H2) as (Bc & Lc & _). destruct (Lt c t Bc ltac:(lia) H3) as (pad & Dt).
  assert (P' : paired b a) by (destruct P as ((? & ? & ? & ? & ?) & (? & ?) & ? & ?); repeat split; congruence). assert (S' : s_state b = SEstablished) by (destruct P as ((_ & S2 & _) & _); congruence).
  destruct (secured_pad (e_cr Er) false p BUFFER_SIZE BUFFER_SIZE c pad b b' a Hc ltac:(lia) S' P' ltac:(change BUFFER_SIZE with 4160; lia) H2) as (-> & D). split; [reflexivity|].
  unfold decode_secured_message. rewrite Et, Ec. unfold sbind at 1, sof. rewrite Dt. cbn [snd fst negb]. rewrite bind_get, Ga. unfold sbind at 1, on_sess. rewrite Ga, D.
  unfold sbind. change MAX_SPDM_MSG_SIZE with 4096. rewrite Dp. reflexivity.
Qed.
