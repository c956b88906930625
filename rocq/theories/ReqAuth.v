(** What a successful authentication means. *)
From Verif Require Import Bytes BytesFacts Status Codec Parse ParseProofs Algo Monad.
From Verif Require Import MsgConn MsgAuth MsgSession MsgOther Message Opaque Transport Crypto KeySchedule Session Signing CertOps ChainVerify Context
  RspBase RspConn RspSess RspEncap Responder StRel RspFrame RspCalm RspOpcode RspPass RspEst ReqBase ReqConn ReqSess SpecReq ReqFrame ReqAnswer SpecSession SignProofs SpecAuth ReqTrans ReqSplit ReqHist.
From Verif Require Import MsgLocal.
From Coq Require Import Lia.
Local Open Scope N_scope.

Lemma req_enc_exact m w x s x' : xwire (enc_message (xc x) m) = Some w -> xcount (enc_message (xc x) m) = len w -> req_enc m x = (Ok s, x') -> s = w.
Proof.
  intros W C H. unfold req_enc in H. bg H. bi H. unfold wenc in P. destruct (emit _ []) as [[ok w1]|] eqn:Em; [|discriminate].
  assert (v = (ok, w1)) as -> by congruence. bi H. apply fail_inv in P0 as [N0 ->]. cbn [fst snd] in *. apply Bool.negb_false_iff in N0 as ->.
  apply emit_true in Em as (t & T & ->). cbn [app] in H. assert (t = w) as -> by congruence. cbv zeta in H. bi H. apply assert_inv in P0 as [L ->]. apply N.leb_le in L.
  apply ret_inv in H as [H _]. rewrite C in *. assert (s = firstn (N.to_nat (len w)) (pad_to (N.to_nat MAX_SPDM_MSG_SIZE) w)) as -> by congruence.
  unfold len in *. rewrite Nat2N.id. apply pad_to_firstn. lia.
Qed.
(** parsing a message that ends in a signature *)
Lemma d_fixed_split max k r bb rest : (N.to_nat k <= max)%nat -> d_fixed max k r = POk bb rest ->
  exists q, r = q ++ rest /\ len q = k /\ firstn (N.to_nat k) bb = q.
Proof.
  intros L H. unfold d_fixed in H. replace (Nat.min (N.to_nat k) max) with (N.to_nat k) in H by lia.
  unfold d_arr, dlift in H. rewrite CodecProofs.p_arr_ptake in H. destruct (ptake (N.to_nat k) r) as [[q m]|] eqn:Ep; [|discriminate].
  apply CodecProofs.ptake_Some in Ep as [-> Lq]. assert (bb = pad_to max q) as -> by congruence. assert (m = rest) as -> by congruence.
  exists q. split; [reflexivity|]. split; [unfold len; lia|]. rewrite <- Lq. apply pad_to_firstn. lia.
Qed.
Lemma dsize_ok {A} (o : option A) r a m : dsize o r = POk a m -> o = Some a /\ m = r.
Proof. destruct o; cbn [dsize]; [|discriminate]. intro H. apply dret_ok in H as [-> ->]. auto. Qed.
Lemma dec_signature_split c r sg rest : dec_signature c r = POk sg rest ->
  exists n, asym_size (n_asym (c_nego c)) = Some n /\ len (v_bytes sg) = n /\ r = v_bytes sg ++ rest.
Proof.
  intro H. unfold dec_signature in H. apply dbind_ok in H as (n & m & D & H). apply dsize_ok in D as [K ->]. unfold c_asym_size in K.
  apply dbind_ok in H as (bb & m & Df & H). apply dret_ok in H as [-> ->].
  exists n. split; [exact K|]. pose proof (asym_size_le _ _ K) as L. apply d_fixed_split in Df as (q & -> & Lq & Q); [|unfold SPDM_MAX_ASYM_KEY_SIZE; lia].
  unfold v_bytes. cbn [v_size v_data]. rewrite Q. auto.
Qed.
Lemma local_split {A} (d : dec A) r a m : dlocal d -> d r = POk a m -> exists u, r = u ++ m.
Proof. intros L H. destruct (L _ _ _ H) as (u & -> & _). eauto. Qed.
Ltac lsplit H L :=
  let a := fresh "a" in let m := fresh "m" in let D := fresh "D" in let u := fresh "u" in let Q := fresh "Q" in
  apply dbind_ok in H as (a & m & D & H); apply (local_split _ _ _ _ L) in D as (u & Q).
Lemma dec_challenge_auth_split c r p rest : dec_challenge_auth c r = POk p rest ->
  exists pre n, asym_size (n_asym (c_nego c)) = Some n /\ len (v_bytes (ca_sig p)) = n /\ r = pre ++ v_bytes (ca_sig p) ++ rest.
Proof.
  intro H. unfold dec_challenge_auth in H. lsplit H dlocal_u8. apply dbind_ok in H as (a0 & m0 & D & H). apply (local_split _ _ _ _ (dlocal_opt _)) in D as (u0 & Q0).
  lsplit H dlocal_u8. lsplit H (dl_digest c). lsplit H dl_nonce.
  apply dbind_ok in H as (a4 & m4 & D4 & H). apply (local_split _ _ _ _ (dlocal_dec_opt _ _ _ (dl_digest c))) in D4 as (u4 & Q4).
  lsplit H dl_opaque. apply dbind_ok in H as (sg & m6 & D6 & H). apply dret_ok in H as [-> ->]. apply dec_signature_split in D6 as (n & N1 & N2 & N3).
  cbn [ca_sig]. rewrite Q, Q0, Q1, Q2, Q3, Q4, Q5, N3. exists (u ++ u0 ++ u1 ++ u2 ++ u3 ++ u4 ++ u5), n. split; [exact N1|]. split; [exact N2|]. rewrite <- !app_assoc. reflexivity.
Qed.
Lemma drop_last_app n (w sg : bytes) : len sg = n -> drop_last n (w ++ sg) = Ok w.
Proof.
  intros <-. unfold drop_last. rewrite len_app. destruct (N.leb_spec (len sg) (len w + len sg)); [|lia]. f_equal.
  replace (N.to_nat (len w + len sg - len sg)) with (length w) by (unfold len; lia). rewrite firstn_app, firstn_all, Nat.sub_diag, firstn_O, app_nil_r. reflexivity.
Qed.
(** a signature the requester accepted *)
Lemma verify_peer_ok E slot op h sg x u x' t : verify_peer_signature E slot op h sg x = (Ok u, x') -> cr_hash (e_cr E) (n_hash (x_nego x)) t = Some h ->
  exists chain, slot_of (x_peer_chain x) slot = Some chain /\ authentic (e_cr E) (x_nego x) chain op t sg.
Proof.
  intros H Hh. unfold verify_peer_signature in H. bg H. bi H. apply ok_inv in P as [Ch ->]. bi H. apply unwrap_inv in P as [Hl ->]. bi H. apply assert_inv in P as [L ->].
  bi H. apply of_inv in P as [Sg ->]. destruct (cr_verify _ _ _ _ _ _) eqn:V; [|discriminate]. exists v. split; [exact Ch|]. exists v0, h. split; [exact Hl|].
  split; [apply N.leb_le, L|]. split; [exact Hh|]. unfold sign_input in Sg. destruct (_ <? 0x12); [discriminate|]. cbv zeta in Sg. destruct (_ <? _); [discriminate|].
  rewrite prefix_spec, sig_context_spec in Sg. replace (spec_prefix ++ spec_context op ++ h) with v2 by congruence. exact V.
Qed.
Lemma finalize_ok E a o x h x' : finalize E a o x = (Ok h, x') -> exists t, o = Some t /\ cr_hash (e_cr E) a t = Some h /\ x' = x.
Proof. unfold finalize. intro H. bi H. apply ok_inv in P as [-> ->]. apply ok_inv in H as [H ->]. eauto. Qed.
Lemma handle_challenge_ok E slot t s b z u x' : handle_challenge_auth E slot t s b z = (Ok u, x') ->
  exists body sig rest chain n, b = body ++ sig ++ rest /\ accepted (OChallenge slot t) (asked (OChallenge slot t) z) b (body ++ sig) /\
    asym_size (n_asym (x_nego z)) = Some n /\ len sig = n /\ slot_of (x_peer_chain z) slot = Some chain /\
    authentic (e_cr E) (x_nego z) chain SigChallenge (base z ++ s ++ body) sig.
Proof.
  intro H. unfold handle_challenge_auth in H. bi H. apply mod_inv in P as ->. apply on_response_ok in H as (r & Eb & H). apply reading_ok in H as (p & rest & D & H).
  pose proof D as D0. apply dec_challenge_auth_split in D0 as (pre & n & N1 & N2 & N3).
  set (v0 := ver _) in Eb. assert (Eu : used_of b rest = (v0 :: 0x03 :: pre) ++ v_bytes (ca_sig p)). { apply used_split. rewrite Eb, N3, <- app_assoc. reflexivity. }
  rewrite Eu in H. clear Eu. bg H. bi H. apply unwrap_inv in P as [N1' ->]. cbn [xc c_nego x_nego set_x_need_sum] in N1, N1'. assert (v1 = n) as -> by congruence.
  bi H. apply of_inv in P as [Dl ->]. rewrite drop_last_app in Dl by exact N2. match type of Dl with Ok ?l = Ok ?w => assert (w = l) as -> by congruence end.
  bi H. apply append_m1m2_ok in P as ->. bi H. apply append_m1m2_ok in P as ->. rewrite base_set in H.
  unfold scatch in H. match type of H with context [verify_challenge_sig ?a ?b ?c ?d] => set (q := d) in H; destruct (verify_challenge_sig a b c q) as [res y] eqn:V end.
  destruct res as [a| |]; try (unfold sbind, smod, serr in H; discriminate). clear H.
  unfold verify_challenge_sig in V. bg V. bi V. apply finalize_ok in P as (t0 & T0 & Hh & ->).
  assert (t0 = base z ++ s ++ (v0 :: 0x03 :: pre)) as ->. { unfold q in T0. cbn [x_m1m2 set_x_m1m2] in T0. rewrite <- app_assoc in T0. unfold base in T0 |- *. cbn [x_m1m2 x_msg_a set_x_need_sum] in T0. congruence. }
  apply (verify_peer_ok _ _ _ _ _ _ _ _ _ V) in Hh as (chain & Ch & Au).
  exists (v0 :: 0x03 :: pre), (v_bytes (ca_sig p)), rest, chain, n. split; [rewrite Eb, N3; reflexivity|]. split; [|exact (conj N1 (conj N2 (conj Ch Au)))].
  exists rest. split; [rewrite Eb, N3; rewrite <- app_assoc; reflexivity|]. exists p. rewrite Eb. exact D.
Qed.
Lemma challenge_wire y x slot t nonce s : req_enc (challenge_msg y slot t nonce) x = (Ok s, x) -> s = ver y :: 0x83 :: slot :: t :: nonce.
Proof.
  intro H. apply (req_enc_exact _ (ver y :: 0x83 :: slot :: t :: nonce)) in H; [exact H| |];
    unfold challenge_msg, enc_message, enc_header, enc_payload, enc_challenge, enc_nonce; cbn [m_header m_payload h_version h_code ch_slot ch_hash_type ch_nonce].
  - rewrite !xwire_app, xwire_arr_cnt. reflexivity.
  - rewrite !xcount_app, xcount_arr_cnt. unfold len. cbn [length xcount x_u8 x_of map e_u8]. unfold len. cbn [length]. lia.
Qed.
