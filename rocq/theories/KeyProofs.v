(** The model's key derivations are those of SpecKeys.v. *)
From Coq Require Import String Lia.
From Verif Require Import Bytes BytesFacts Status Codec Parse Algo Crypto KeySchedule Monad Session SpecSession SessionProofs SpecKeys.
Import ListNotations.
Local Open Scope list_scope.
Local Open Scope N_scope.

Lemma obind_ok {A B} (o : outcome A) (f : A -> outcome B) b : obind o f = Ok b -> exists a, o = Ok a /\ f a = Ok b.
Proof. destruct o as [a| |]; cbn; try discriminate. eauto. Qed.
Lemma orc_ok {A} (o : option A) a : orc o = Ok a -> o = Some a.
Proof. destruct o; cbn; congruence. Qed.
Lemma osz_ok {A} (o : option A) a : osz o = Ok a -> o = Some a.
Proof. destruct o; cbn; congruence. Qed.
Lemma sized_ok m b a : sized m b = Some a -> a = b.
Proof. unfold sized. destruct (_ || _); congruence. Qed.
Ltac ob H := apply obind_ok in H as (? & ? & H).
Lemma binconcat_spec n v label lbl ctx w : label = ascii_bytes lbl -> binconcat n v label ctx = Some w -> w = bin_str n v lbl (match ctx with Some c => c | None => [] end).
Proof.
  intros -> H. unfold binconcat in H. destruct (_ <? _); [discriminate|]. assert (E : w = le_bytes 2 n ++ version_text v ++ ascii_bytes lbl ++ match ctx with Some c => c | None => [] end) by congruence.
  rewrite E. unfold bin_str, version_text, c_0, c_dot, c_space. f_equal.
  replace (N.shiftr v 4 + 48) with (48 + v / 16) by (rewrite N.shiftr_div_pow2; change (2 ^ 4) with 16; lia).
  replace (N.land v 0xF + 48) with (48 + v mod 16) by (change 0xF with (N.ones 4); rewrite N.land_ones; change (2 ^ 4) with 16; lia).
  reflexivity.
Qed.
Lemma expand_ok cr hash secret info n out : expand cr hash secret info n = Ok out -> cr_expand cr hash secret info n = Some out.
Proof. intro H. unfold expand in H. ob H. apply orc_ok in H0. apply sized_ok in H0 as ->. apply orc_ok, H. Qed.
Lemma from_root_ok cr psk v s root hint label lbl c out : label = ascii_bytes lbl -> hint = s_psk_hint s ->
  obind (osz (hash_size (s_hash s))) (fun n => obind (orc (binconcat n v label c)) (fun info => from_root cr psk (s_use_psk s) v (s_hash s) root hint info n)) = Ok out ->
  from_secret cr psk v s root lbl (match c with Some c => c | None => [] end) out.
Proof.
  intros L -> H. ob H. apply osz_ok in H0. ob H. apply orc_ok in H1. apply (binconcat_spec _ _ _ _ _ _ L) in H1 as ->.
  unfold from_root in H. ob H. apply orc_ok, sized_ok in H. subst out. unfold from_secret. destruct (s_use_psk s).
  - destruct (s_psk_hint s) as [h|]; [|discriminate]. apply orc_ok in H1. eauto.
  - apply expand_ok in H1. unfold derived. eauto.
Qed.
Lemma finished_ok cr v hash secret out : derive_finished cr v hash secret = Ok out -> derived cr v hash secret "finished" [] out.
Proof.
  intro H. unfold derive_finished in H. ob H. apply osz_ok in H0. ob H. apply orc_ok, (binconcat_spec _ _ _ "finished" _ _ eq_refl) in H1. subst. ob H. apply orc_ok, sized_ok in H as ->. apply expand_ok in H1. unfold derived. eauto.
Qed.
Lemma update_ok cr v hash secret out : derive_update cr v hash secret = Ok out -> derived cr v hash secret "traffic upd" [] out.
Proof.
  intro H. unfold derive_update in H. ob H. apply osz_ok in H0. ob H. apply orc_ok, (binconcat_spec _ _ _ "traffic upd" _ _ eq_refl) in H1. subst. ob H. apply orc_ok, sized_ok in H as ->. apply expand_ok in H1. unfold derived. eauto.
Qed.
Lemma key_iv_ok cr v hash aead secret k q : derive_aead_key_iv cr v hash aead secret = Ok k -> key_and_iv cr v hash aead secret (mkDir (fst k) (snd k) q).
Proof.
  intro H. unfold derive_aead_key_iv in H. ob H. apply osz_ok in H0. ob H. apply orc_ok, (binconcat_spec _ _ _ "key" _ _ eq_refl) in H1. subst. ob H. apply expand_ok in H1. ob H. apply orc_ok, sized_ok in H2. subst.
  ob H. apply osz_ok in H2. ob H. apply orc_ok, (binconcat_spec _ _ _ "iv" _ _ eq_refl) in H3. subst. ob H. apply expand_ok in H3. ob H. apply orc_ok, sized_ok in H4. subst. match type of H with Ok ?p = Ok _ => replace k with p by congruence end.
  cbn [fst snd]. unfold key_and_iv. cbn [d_key d_salt]. eauto 8.
Qed.
(** ** the session's methods *)
Ltac sb H := apply sbind_ok in H as (? & ? & ? & H).
Ltac sv P := first [apply smod_ok in P as -> | apply sget_ok in P as [-> ->] | apply sof_ok in P as [P ->]].
Lemma dhe_ok cr v dhe s u s' : set_dhe_secret cr v dhe s = (Ok u, s') ->
  roots cr v (s_hash s) dhe (s_hs_root s') (s_master s') /\ s' = set_s_master (s_master s') (set_s_hs_root (s_hs_root s') (set_s_dhe_secret dhe s)).
Proof.
  intro H. unfold set_dhe_secret in H. sb H. sv H0. sb H. sv H0. sb H. sv H0. sb H. sv H1. apply smod_ok in H as ->. split; [|reflexivity]. cbn [s_hs_root s_master set_s_master set_s_hs_root s_hash set_s_dhe_secret] in *.
  unfold derive_handshake_secret in H0. ob H0. apply osz_ok in H. ob H0. apply orc_ok in H2. apply orc_ok, sized_ok in H0. subst.
  unfold derive_master_secret in H1. ob H1. apply osz_ok in H0. ob H1. apply orc_ok, (binconcat_spec _ _ _ "derived" _ _ eq_refl) in H3. subst. ob H1. apply expand_ok in H3. ob H1. apply orc_ok in H4. apply orc_ok, sized_ok in H1. subst.
  assert (x0 = x2) by congruence. subst x0. unfold roots, derived, zeros. exists x2, x4. split; [exact H|]. split; [exact H2|]. split; [eauto|exact H4].
Qed.
Lemma handshake_ok cr v th1 s u s' : generate_handshake_secret cr v th1 s = (Ok u, s') ->
  handshake_keys cr v s th1 (s_hs s') /\ s' = set_s_hs (s_hs s') s /\
  d_seq (h_req_dir (s_hs s')) = d_seq (h_req_dir (s_hs s)) /\ d_seq (h_rsp_dir (s_hs s')) = d_seq (h_rsp_dir (s_hs s)).
Proof.
  intro H. unfold generate_handshake_secret in H. sb H. sv H0.
  sb H. sv H0. sb H. sv H1. sb H. sv H1. sb H. sv H2. sb H. sv H2. sb H. sv H3. sb H. sv H3. sb H. sv H4. sb H. sv H4. sb H. sv H5. sb H. sv H5. apply smod_ok in H as ->.
  split; [|split; [destruct s; reflexivity|split; reflexivity]].
  unfold handshake_keys. cbn [s_hs set_s_hs mod_hs h_req_secret h_rsp_secret h_req_fin h_rsp_fin h_req_dir h_rsp_dir set_h_req_secret set_h_rsp_secret set_h_req_fin set_h_rsp_fin set_h_req_dir set_h_rsp_dir].
  split; [exact (from_root_ok _ _ _ _ _ _ _ "req hs data" (Some th1) _ eq_refl eq_refl H0)|].
  split; [exact (from_root_ok _ _ _ _ _ _ _ "rsp hs data" (Some th1) _ eq_refl eq_refl H1)|].
  split; [apply finished_ok; assumption|]. split; [apply finished_ok; assumption|]. split; unfold rekey; apply key_iv_ok; assumption.
Qed.
Lemma data_ok cr v th2 s u s' : generate_data_secret cr v th2 s = (Ok u, s') ->
  data_keys cr v s th2 (s_app s') /\ s' = set_s_app (s_app s') s /\
  d_seq (a_req_dir (s_app s')) = d_seq (a_req_dir (s_app s)) /\ d_seq (a_rsp_dir (s_app s')) = d_seq (a_rsp_dir (s_app s)).
Proof.
  intro H. unfold generate_data_secret in H. sb H. sv H0.
  sb H. sv H0. sb H. sv H1. sb H. sv H1. sb H. sv H2. sb H. sv H2. sb H. sv H3. sb H. sv H3. sb H. sv H4. sb H. sv H4. apply smod_ok in H as ->.
  split; [|split; [destruct s; reflexivity|split; reflexivity]].
  unfold data_keys. cbn [s_app set_s_app mod_app a_req_secret a_rsp_secret a_req_dir a_rsp_dir a_export set_a_req_secret set_a_rsp_secret set_a_req_dir set_a_rsp_dir set_a_export].
  split; [exact (from_root_ok _ _ _ _ _ _ _ "req app data" (Some th2) _ eq_refl eq_refl H0)|].
  split; [exact (from_root_ok _ _ _ _ _ _ _ "rsp app data" (Some th2) _ eq_refl eq_refl H1)|].
  split; [exact (from_root_ok _ _ _ _ _ _ _ "exp master" None _ eq_refl eq_refl H4)|].
  split; unfold rekey; apply key_iv_ok; assumption.
Qed.
Lemma update_req_keys cr v s u s' : update_req cr v s = (Ok u, s') ->
  updated cr v (s_hash s) (s_aead s) (a_req_secret (s_app s)) (a_req_secret (s_app s')) (a_req_dir (s_app s')) /\
  a_rsp_secret (s_app s') = a_rsp_secret (s_app s) /\ a_rsp_dir (s_app s') = a_rsp_dir (s_app s) /\ s_hash s' = s_hash s /\ s_aead s' = s_aead s.
Proof.
  intro H. unfold update_req in H. sb H. sv H0. sb H. sv H0. sb H. sv H0. sb H. sv H0. sb H. sv H1. sb H. sv H1. apply smod_ok in H as ->.
  split; [|repeat split; reflexivity]. unfold updated.
  split; [exact (update_ok _ _ _ _ _ H0)|]. split; [|reflexivity]. exact (key_iv_ok _ _ _ _ _ _ _ H1).
Qed.
Lemma update_rsp_keys cr v s u s' : update_rsp cr v s = (Ok u, s') ->
  updated cr v (s_hash s) (s_aead s) (a_rsp_secret (s_app s)) (a_rsp_secret (s_app s')) (a_rsp_dir (s_app s')) /\
  a_req_secret (s_app s') = a_req_secret (s_app s) /\ a_req_dir (s_app s') = a_req_dir (s_app s) /\ s_hash s' = s_hash s /\ s_aead s' = s_aead s.
Proof.
  intro H. unfold update_rsp in H. sb H. sv H0. sb H. sv H0. sb H. sv H0. sb H. sv H0. sb H. sv H1. sb H. sv H1. apply smod_ok in H as ->.
  split; [|repeat split; reflexivity]. unfold updated.
  split; [exact (update_ok _ _ _ _ _ H0)|]. split; [|reflexivity]. exact (key_iv_ok _ _ _ _ _ _ _ H1).
Qed.
