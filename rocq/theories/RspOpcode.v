(** The response code of every message the responder's handlers build: it is ERROR or the code
    that answers the request. *)
From Verif Require Import Bytes BytesFacts Status Codec Parse ParseProofs Algo Monad.
From Verif Require Import MsgConn MsgAuth MsgSession MsgOther Message Transport Crypto KeySchedule Session CertOps ChainVerify Context
  RspBase RspConn RspSess RspEncap Responder StRel RspFrame RspCalm.
From Coq Require Import Lia.
Local Open Scope N_scope.

(** ** what [emit] writes *)
Lemma emit_prefix e : forall w b w', emit e w = Some (b, w') -> exists t, w' = w ++ t.
Proof.
  induction e as [|[c n|] e IH]; intros w b w' H; cbn [emit] in H.
  - exists []. rewrite app_nil_r. congruence.
  - destruct (_ <? _); [exists []; rewrite app_nil_r; congruence|].
    apply IH in H as [t ->]. exists (c ++ t). now rewrite app_assoc.
  - discriminate.
Qed.
Lemma emit_true e : forall w w', emit e w = Some (true, w') -> exists t, xwire e = Some t /\ w' = w ++ t.
Proof.
  induction e as [|[c n|] e IH]; intros w w' H; cbn [emit] in H.
  - exists []. split; [reflexivity|]. rewrite app_nil_r. congruence.
  - destruct (_ <? _); [discriminate|]. apply IH in H as (t & T & ->). exists (c ++ t). cbn. rewrite T.
    split; [reflexivity|now rewrite app_assoc].
  - discriminate.
Qed.
Lemma opcode_app w t c : opcode w = Some c -> opcode (w ++ t) = Some c.
Proof. destruct w as [|a [|b w]]; cbn; congruence. Qed.
Lemma opcode_emit e w b w' c : emit e w = Some (b, w') -> opcode w = Some c -> opcode w' = Some c.
Proof. intros H O. apply emit_prefix in H as [t ->]. now apply opcode_app. Qed.
Lemma emit_header_start c m w b w' :
  len w + 2 <= MAX_SPDM_MSG_SIZE -> emit (enc_message c m) w = Some (b, w') ->
  exists t, w' = w ++ [h_version (m_header m); h_code (m_header m)] ++ t.
Proof.
  intros L H. unfold enc_message in H. cbn [enc_header x_u8 x_of e_u8 map app emit len length] in H.
  destruct (N.ltb_spec MAX_SPDM_MSG_SIZE (len w + len [h_version (m_header m)])) as [G|_].
  { change (len [h_version (m_header m)]) with 1 in G. lia. }
  destruct (N.ltb_spec MAX_SPDM_MSG_SIZE (len (w ++ [h_version (m_header m)]) + len [h_code (m_header m)])) as [G|_].
  { rewrite len_app in G. change (len [h_version (m_header m)]) with 1 in G. change (len [h_code (m_header m)]) with 1 in G. lia. }
  apply emit_prefix in H as [t ->]. exists t. now rewrite <- !app_assoc.
Qed.
Lemma emit_opcode c m b w' : emit (enc_message c m) [] = Some (b, w') -> opcode w' = Some (h_code (m_header m)).
Proof.
  intro H. apply emit_header_start in H as [t ->]; [reflexivity|]. unfold MAX_SPDM_MSG_SIZE. cbn. lia.
Qed.
Lemma emit_len c m w' : emit (enc_message c m) [] = Some (true, w') ->
  exists t, xwire (enc_payload c (m_payload m)) = Some t /\ len w' = 2 + len t.
Proof.
  intro H. apply emit_true in H as (t & T & ->). unfold enc_message in T. rewrite xwire_app in T.
  destruct (xwire (enc_payload c (m_payload m))) as [u|]; [|destruct (xwire (enc_header _)); discriminate].
  exists u. split; [reflexivity|]. cbn [enc_header x_u8 x_of e_u8 map app xwire] in T.
  injection T as <-. cbn [app]. unfold len. cbn [length]. lia.
Qed.
Lemma opcode_firstn w w' (n : nat) : (2 <= n)%nat -> firstn n w' = firstn n w -> opcode w' = opcode w.
Proof.
  intros Hn H. unfold opcode.
  transitivity (nth_error (firstn n w') 1); [|rewrite H]; [symmetry|];
    destruct n as [|[|n]]; try lia; destruct w as [|? [|? ?]], w' as [|? [|? ?]]; reflexivity.
Qed.
Lemma opcode_patch n (s w : bytes) : (n + length s <= length w)%nat -> (2 <= n)%nat -> opcode (patch n s w) = opcode w.
Proof.
  intros Hl Hn. apply (opcode_firstn _ _ n Hn). unfold patch. rewrite firstn_app, firstn_length, firstn_firstn.
  replace (n - Nat.min n (length w))%nat with 0%nat by lia. rewrite Nat.min_id. cbn. now rewrite app_nil_r.
Qed.
Lemma patch_last_opcode n s w w' : patch_last n s w = Ok w' -> 2 + n <= len w -> opcode w' = opcode w /\ len w' = len w.
Proof.
  unfold patch_last. intros H L. destruct (N.eqb_spec (len s) n) as [En|]; [|discriminate].
  destruct (N.leb_spec n (len w)); [|discriminate]. cbn [andb] in H. injection H as <-.
  unfold len in *. split; [apply opcode_patch; lia|]. f_equal. apply patch_length. lia.
Qed.

(** ** values of programs *)
Definition val {A} (I : ctx -> Prop) (m : st ctx A) (R : A -> Prop) : Prop :=
  forall x a x', I x -> m x = (Ok a, x') -> R a.
Definition steady (I : ctx -> Prop) (x x' : ctx) : Prop := I x -> I x'.
Lemma steady_pre I : preorder (steady I).
Proof. split; unfold steady; auto. Qed.
Definition anyc (x : ctx) : Prop := True.
Lemma steady_any {A} (m : st ctx A) : rel (steady anyc) m.
Proof. intros x r x' _ _. exact I. Qed.

Section valrules.
  Context (I : ctx -> Prop).
  Lemma val_ret {A} (a : A) (R : A -> Prop) : R a -> val I (sret a) R.
  Proof. intros H x b x' _ E. unfold sret in E. congruence. Qed.
  Lemma val_err {A} e (R : A -> Prop) : val I (serr e) R.
  Proof. intros x b x' _ E. discriminate. Qed.
  Lemma val_panic {A} (R : A -> Prop) : val I spanic R.
  Proof. intros x b x' _ E. discriminate. Qed.
  Lemma val_of {A} (o : outcome A) (R : A -> Prop) : (forall a, o = Ok a -> R a) -> val I (sof o) R.
  Proof. intros H x b x' _ E. apply H. unfold sof in E. congruence. Qed.
  Lemma val_bind_r {A B} (m : st ctx A) (k : A -> st ctx B) P R :
    rel (steady I) m -> val I m P -> (forall a, P a -> val I (k a) R) -> val I (sbind m k) R.
  Proof.
    intros Hm Hp Hk x b x' Hi H. unfold sbind in H. destruct (m x) as [[a| |] x1] eqn:E; try discriminate.
    apply (Hk a (Hp _ _ _ Hi E) x1 b x'); [exact (Hm _ _ _ E Hi)|exact H].
  Qed.
  Lemma val_bind {A B} (m : st ctx A) (k : A -> st ctx B) R :
    rel (steady I) m -> (forall a, val I (k a) R) -> val I (sbind m k) R.
  Proof. intros Hm Hk. apply (val_bind_r m k (fun _ => True)); [exact Hm|easy|auto]. Qed.
  Lemma val_get {B} (k : ctx -> st ctx B) (R : B -> Prop) :
    (forall x a x', I x -> k x x = (Ok a, x') -> R a) -> val I (sbind sget k) R.
  Proof. intros Hk x a x' Hi H. exact (Hk x a x' Hi H). Qed.
  Lemma val_catch {A B} (m : st ctx A) (k : outcome A -> st ctx B) R :
    rel (steady I) m -> (forall a, val I (k a) R) -> val I (scatch m k) R.
  Proof.
    intros Hm Hk x b x' Hi H. unfold scatch in H. destruct (m x) as [r x1] eqn:E.
    pose proof (Hm _ _ _ E Hi) as Hi1. destruct r; try discriminate; exact (Hk _ x1 b x' Hi1 H).
  Qed.
  Lemma val_try {A B} (m : st ctx A) (e : st ctx B) (k : A -> st ctx B) R :
    rel (steady I) m -> val I e R -> (forall a, val I (k a) R) -> val I (tryelse m e k) R.
  Proof. intros Hm He Hk. apply val_catch; [exact Hm|]. intros [a| |]; [apply Hk|exact He|apply val_panic]. Qed.
  Lemma val_mono {A} (m : st ctx A) (P R : A -> Prop) : (forall a, P a -> R a) -> val I m P -> val I m R.
  Proof. intros H Hm x a x' Hi E. apply H. exact (Hm _ _ _ Hi E). Qed.
End valrules.

(** ** replies *)
(** the reply is an ERROR or has response code [c] *)
Definition rop (c : N) (w : bytes) : Prop := opcode w = Some RC_ERROR \/ opcode w = Some c.
Lemma val_err_nil I c d n : val I (write_err_data c d []) (rop n).
Proof. intros x a x' _ E. rewrite write_err_nil in E. left. replace a with (error_bytes (ver x) c d) by congruence. reflexivity. Qed.
Lemma val_err_app I c d w n : opcode w = Some n -> val I (write_err_data c d w) (rop n).
Proof.
  intros O x a x' _ E. unfold write_err_data, sbind, sget, wenc, sret in E.
  destruct (emit _ w) as [[b w']|] eqn:F; [|discriminate]. right.
  replace a with w' by (cbn in E; congruence). exact (opcode_emit _ _ _ _ _ F O).
Qed.
Lemma val_encode_or_err (I : ctx -> Prop) m k n : h_code (m_header m) = n ->
  (forall x w t, I x -> opcode w = Some n -> xwire (enc_payload (xc x) (m_payload m)) = Some t -> len w = 2 + len t ->
     forall a x', k w x = (Ok a, x') -> rop n a) -> val I (encode_or_err m k) (rop n).
Proof.
  intros Hc Hk x a x' Hi H. unfold encode_or_err, sbind, wenc in H.
  destruct (emit _ []) as [[b w]|] eqn:F; [|discriminate]. cbn [fst snd] in H.
  pose proof (emit_opcode _ _ _ _ F) as O. rewrite Hc in O. destruct b.
  - destruct (emit_len _ _ _ F) as (t & T & L). exact (Hk x w t Hi O T L _ _ H).
  - exact (val_err_app I _ _ _ _ O x a x' Hi H).
Qed.
Lemma val_encode_r (I : ctx -> Prop) m k n (R : bytes -> Prop) : h_code (m_header m) = n ->
  (forall x w t, I x -> opcode w = Some n -> xwire (enc_payload (xc x) (m_payload m)) = Some t -> len w = 2 + len t ->
     forall a x', k w x = (Ok a, x') -> R a) -> val I (encode_r m k) R.
Proof.
  intros Hc Hk x a x' Hi H. unfold encode_r, sbind, wenc in H.
  destruct (emit _ []) as [[b w]|] eqn:F; [|discriminate]. cbn [fst snd] in H.
  pose proof (emit_opcode _ _ _ _ F) as O. rewrite Hc in O. destruct b; [|discriminate].
  destruct (emit_len _ _ _ F) as (t & T & L). exact (Hk x w t Hi O T L _ _ H).
Qed.
Lemma val_with_version I b k n : (forall r, val I (k r) (rop n)) -> val I (with_version b k) (rop n).
Proof.
  intros Hk x a x' Hi H. unfold with_version, sbind, sget in H. destruct (read_header b) as [[h r]|];
    [destruct (negb _)|]; [|exact (Hk _ _ _ _ Hi H)|]; exact (val_err_nil I _ _ n x a x' Hi H).
Qed.
Lemma val_with_version_r I b k (R : bytes -> Prop) : (forall r, val I (k r) R) -> val I (with_version_r b k) R.
Proof.
  intros Hk x a x' Hi H. unfold with_version_r, sbind, sget in H. destruct (read_header b) as [[h r]|];
    [destruct (negb _)|]; [discriminate|exact (Hk _ _ _ _ Hi H)|discriminate].
Qed.
Lemma val_then_append I m w n : rel (steady I) m -> rop n w -> val I (then_append m w) (rop n).
Proof.
  intros Hm O. unfold then_append. apply val_try; [exact Hm| |intro; now apply val_ret].
  destruct O as [O|O]; [|now apply val_err_app].
  intros x a x' Hi H. destruct (val_err_app I _ _ _ _ O x a x' Hi H); left; assumption.
Qed.

Ltac st_any := try apply steady_any.
Ltac vl1 :=
  lazymatch goal with
  | |- val _ (match ?e with _ => _ end) _ => destruct e eqn:?
  | |- val _ (let _ := _ in _) _ => cbv zeta
  | |- val _ (sbind _ _) _ => apply val_bind; [st_any|intro]
  | |- val _ (scatch _ _) _ => apply val_catch; [st_any|intro]
  | |- val _ (tryelse _ _ _) _ => apply val_try; [st_any| |intro]
  | |- val _ (sret _) _ => apply val_ret
  | |- val _ (serr _) _ => apply val_err
  | |- val _ spanic _ => apply val_panic
  | |- val _ (write_err_data _ _ []) _ => apply val_err_nil
  | |- val _ (write_err _ []) _ => apply val_err_nil
  | |- val _ (with_version _ _) _ => apply val_with_version; intro
  | |- val _ (with_version_r _ _) _ => apply val_with_version_r; intro
  end.
Ltac vl := repeat vl1.

Lemma op_version b : val anyc (write_version b) (rop RC_VERSION).
Proof.
  unfold write_version. vl. apply val_encode_or_err; [reflexivity|]. intros xx w t _ O _ _ aa xx'.
  apply (val_then_append anyc); [apply steady_any|now right|exact I].
Qed.
Lemma op_capability b : val anyc (write_capability b) (rop RC_CAPABILITIES).
Proof.
  unfold write_capability. vl. apply val_encode_or_err; [reflexivity|]. intros xx w t _ O _ _ aa xx'.
  apply (val_then_append anyc); [apply steady_any|now right|exact I].
Qed.
Lemma op_algorithm E b : val anyc (write_algorithm E b) (rop RC_ALGORITHMS).
Proof.
  unfold write_algorithm. vl. apply val_encode_or_err; [reflexivity|]. intros xx w t _ O _ _ aa xx'.
  apply (val_then_append anyc); [apply steady_any|now right|exact I].
Qed.
Lemma op_certificate E sid b : val anyc (write_certificate E sid b) (rop RC_CERTIFICATE).
Proof.
  unfold write_certificate. vl. apply val_encode_or_err; [reflexivity|]. intros xx w t _ O _ _ aa xx'.
  apply (val_then_append anyc); [apply steady_any|now right|exact I].
Qed.

(** ** lengths, so that patching the end of a reply keeps its first two bytes *)
Lemma xwire_split a b t : xwire (a ++ b) = Some t -> exists u v, xwire a = Some u /\ xwire b = Some v /\ t = u ++ v.
Proof.
  rewrite xwire_app. destruct (xwire a) as [u|]; [|discriminate]. destruct (xwire b) as [v|]; [|discriminate].
  intro H. exists u, v. repeat split. congruence.
Qed.
Lemma len_fill n b : len (fill n b) = N.of_nat n.
Proof. unfold len. now rewrite fill_length. Qed.
Lemma v_bytes_fill n size b : size <= N.of_nat n -> len (v_bytes (mkV size (fill n b))) = size.
Proof. intro H. unfold v_bytes, len. cbn. rewrite firstn_length, fill_length. lia. Qed.
Lemma asym_size_le a n : asym_size a = Some n -> n <= 512.
Proof.
  unfold asym_size. intro H.
  repeat (match type of H with match ?p with _ => _ end = _ => destruct p end; try discriminate);
    injection H as <-; lia.
Qed.
Lemma hash_size_le a n : hash_size a = Some n -> n <= 64.
Proof.
  unfold hash_size. intro H.
  repeat (match type of H with match ?p with _ => _ end = _ => destruct p end; try discriminate);
    injection H as <-; lia.
Qed.

Lemma sig_len c v t : xwire (enc_signature c v) = Some t -> t = v_bytes v /\ v_size v <= 512.
Proof.
  unfold enc_signature, c_asym_size. destruct (asym_size _) as [n|] eqn:En; [|discriminate]. intro H.
  apply xwire_split in H as (u & w & U & W & ->). rewrite xwire_arr_cnt in W.
  destruct (N.eqb_spec (v_size v) n) as [->|]; cbn in U; [|discriminate].
  injection U as <-. injection W as <-. split; [reflexivity|exact (asym_size_le _ _ En)].
Qed.
Lemma dig_len c v t : xwire (enc_digest c v) = Some t -> t = v_bytes v /\ v_size v <= 64.
Proof.
  unfold enc_digest, c_hash_size. destruct (hash_size _) as [n|] eqn:En; [|discriminate]. intro H.
  apply xwire_split in H as (u & w & U & W & ->). rewrite xwire_arr_cnt in W.
  destruct (N.eqb_spec (v_size v) n) as [->|]; cbn in U; [|discriminate].
  injection U as <-. injection W as <-. split; [reflexivity|exact (hash_size_le _ _ En)].
Qed.
Ltac xsplit H :=
  repeat lazymatch type of H with
  | xwire (?a ++ ?b) = Some _ =>
      let u := fresh "u" in let w := fresh "w" in let U := fresh "U" in let W := fresh "W" in
      apply xwire_split in H as (u & w & U & W & ->); rename W into H
  end.
(** ** the replies that are patched *)
Lemma sbind_inv {S A B} (m : st S A) (k : A -> st S B) x b x' :
  sbind m k x = (Ok b, x') -> exists a x1, m x = (Ok a, x1) /\ k a x1 = (Ok b, x').
Proof. unfold sbind. destruct (m x) as [[a| |] x1]; try discriminate. eauto. Qed.
Lemma try_inv {S A B} (m : st S A) (e : st S B) k x b x' :
  tryelse m e k x = (Ok b, x') ->
  (exists a x1, m x = (Ok a, x1) /\ k a x1 = (Ok b, x')) \/ (exists c x1, m x = (Err c, x1) /\ e x1 = (Ok b, x')).
Proof. unfold tryelse, scatch. destruct (m x) as [[a|c|] x1]; try discriminate; eauto. Qed.
Lemma unwrap_inv {S A} (o : option A) (x : S) a x' : sunwrap o x = (Ok a, x') -> o = Some a /\ x' = x.
Proof. destruct o; cbn; unfold sret, spanic; intro H; try discriminate; split; congruence. Qed.
Lemma err_app_rop c w n x a x' : opcode w = Some n -> write_err c w x = (Ok a, x') -> rop n a.
Proof. intros O H. exact (val_err_app anyc _ _ _ _ O x a x' I H). Qed.

Lemma op_challenge E b : val anyc (write_challenge E b) (rop RC_CHALLENGE_AUTH).
Proof.
  unfold write_challenge. vl. apply val_encode_or_err; [reflexivity|].
  intros xx w t _ O T L aa xx' H. cbn [m_payload challenge_auth_msg enc_payload] in T. unfold enc_challenge_auth in T. cbn [ca_sig] in T.
  xsplit T. apply sig_len in T as [-> S]. cbn [v_size] in S.
  assert (L' : 2 + a7 <= len w).
  { rewrite L, !len_app, (v_bytes_fill 512 a7 0xbb) by exact S. lia. }
  apply sbind_inv in H as (t' & x1 & _ & H).
  apply try_inv in H as [(uu & x2 & _ & H)|(uu & x2 & _ & H)]; [|exact (err_app_rop _ _ _ _ _ _ O H)].
  apply sbind_inv in H as (y & x3 & _ & H). apply sbind_inv in H as (m & x4 & _ & H).
  apply try_inv in H as [(s & x5 & _ & H)|(e & x5 & _ & H)].
  - apply sbind_inv in H as (w' & x6 & P & H). apply sbind_inv in H as (? & x7 & _ & H).
    unfold sof in P. unfold sret in H. replace aa with w' by congruence. right.
    destruct (patch_last_opcode a7 s w w') as [-> _]; [congruence|exact L'|exact O].
  - apply sbind_inv in H as (? & x7 & _ & H). unfold sret in H. right. congruence.
Qed.
Ltac bi H :=
  let a := fresh "v" in let x1 := fresh "y" in let P := fresh "P" in
  apply sbind_inv in H as (a & x1 & P & H).
(** the reply in case of a signature *)
Lemma op_signed n E sid w l sg op x aa x' c :
  opcode w = Some n -> 2 + sg <= len w ->
  (t <-- sof (drop_last sg w) ;;
   _ <-! append_m (e_cr E) sid t orelse write_err ERR_UNSPECIFIED w ;;
   y <-- sget ;;
   l1l2 <-- sunwrap (l y) ;;
   s <-! sign_transcript E op l1l2 orelse (send_spdm_error E c ;;; sret w) ;;
   w' <-- sof (patch_last sg s w) ;;
   smod (reset_m sid) ;;; sret w')%st x = (Ok aa, x') -> rop n aa.
Proof.
  intros O L H. bi H.
  apply try_inv in H as [(u & x2 & _ & H)|(u & x2 & _ & H)]; [|exact (err_app_rop _ _ _ _ _ _ O H)].
  do 2 bi H.
  apply try_inv in H as [(s & x5 & _ & H)|(e & x5 & _ & H)].
  - bi H. bi H. unfold sof in P2. unfold sret in H. replace aa with v2 by congruence. right.
    destruct (patch_last_opcode sg s w v2) as [-> _]; [congruence|exact L|exact O].
  - bi H. unfold sret in H. right. congruence.
Qed.
Lemma steady_sig_get {A} (m : st ctx A) v : rel (fun x x' => x_need_sig x' = x_need_sig x) m ->
  rel (steady (fun x => x_need_sig x = v)) m.
Proof. intros H x r x' E Hx. rewrite (H _ _ _ E). exact Hx. Qed.
Definition sigk (x x' : ctx) : Prop := x_need_sig x' = x_need_sig x.
Lemma sigk_pre : preorder sigk. Proof. split; unfold sigk; congruence. Qed.
Lemma sigk_append_m cr sid m : rel sigk (append_m cr sid m).
Proof.
  intros x r x' H. unfold append_m in H.
  destruct sid as [id|]; [destruct (get_sess id x) as [s|]; [destruct (s_l1l2 s); [|destruct (hash_ok _ _)]|]
                         |destruct (x_l1l2 x); [|destruct (hash_ok _ _)]];
    match type of H with (_, ?y) = _ => replace x' with y by congruence end; reflexivity.
Qed.
Lemma sigk_random cr n : rel sigk (get_random cr n).
Proof.
  intros x r x' H. unfold get_random in H.
  match type of H with (_, ?y) = _ => replace x' with y by congruence end; reflexivity.
Qed.
Lemma op_measurement E sid b : val anyc (write_measurement E sid b) (rop RC_MEASUREMENTS).
Proof.
  unfold write_measurement. vl1. vl1; [|apply val_err_nil].
  vl1. vl1. vl1. vl1; [|apply val_err_nil]. vl1. vl1.
  intros x r0 x' _ H. apply sbind_inv in H as (uu & y0 & P & H).
  assert (Hy : x_need_sig y0 = contains (gm_attr g) MEAS_ATTR_SIG) by (unfold smod in P; injection P as _ <-; reflexivity).
  clear P. revert Hy H. generalize (contains (gm_attr g) MEAS_ATTR_SIG). intros sg Hy.
  match goal with |- ?m y0 = _ -> _ => set (prog := m) end.
  assert (V : val (fun z => x_need_sig z = sg) prog (rop RC_MEASUREMENTS)).
  { unfold prog. generalize (if sg then slot_ok a (gm_slot g) else gm_slot g =? 0). intros [|]; [|apply val_err_nil].
    assert (M : forall A (m : st ctx A), rel sigk m -> rel (steady (fun z => x_need_sig z = sg)) m)
      by (intros A m; exact (steady_sig_get m _)).
    vl1; [apply M, sigk_append_m|apply val_err_nil|].
    vl1; [apply M; rl sigk_pre|]. vl1; [apply M; unfold measure; rl sigk_pre|].
    vl1; [|apply val_err_nil]. vl1; [apply M, sigk_random|]. vl1; [|apply val_err_nil].
    cbv zeta. apply val_encode_or_err; [reflexivity|].
    intros xx w t Hsig O T L aa xx' H.
    cbn [m_payload measurements_msg enc_payload] in T. unfold enc_meas_rsp in T. cbn [ms_sig] in T. xsplit T.
    change (c_need_sig (xc xx)) with (x_need_sig xx) in T. rewrite Hsig in T.
    destruct sg.
    - unfold enc_opt in T. apply sig_len in T as [-> S]. cbn [v_size] in S.
      refine (op_signed _ E sid w (l1l2_of sid) a2 _ xx aa xx' _ O _ H).
      rewrite L, !len_app, (v_bytes_fill 512 a2 0x60) by exact S. lia.
    - refine (val_then_append anyc _ w _ _ _ xx aa xx' I H); [apply steady_any|now right]. }
  exact (V y0 r0 x' Hy).
Qed.

(** ** DIGESTS: the patch writes whole digests over the digest area *)
(** the law used: a digest has the length the algorithm prescribes *)
Definition hash_lengths (cr : crypto) : Prop :=
  forall alg d h, cr_hash cr alg d = Some h -> hash_size alg = Some (len h).
Lemma patch_digests_opcode cr hash size (HL : hash_lengths cr) : hash_size hash = Some size ->
  forall l w w', patch_digests cr hash l w = Ok w' -> 2 + size <= len w -> opcode w' = opcode w.
Proof.
  intros Hs. induction l as [|[c|] l IH]; intros w w' H L; cbn [patch_digests] in H.
  - congruence.
  - destruct (cr_hash cr hash c) as [h|] eqn:Hh; [|discriminate]. destruct (_ <? _) eqn:W; [discriminate|].
    apply HL in Hh. rewrite Hs in Hh. injection Hh as ->.
    apply N.ltb_ge in W. apply IH in H.
    + rewrite H. apply opcode_patch; unfold len in *; lia.
    + unfold len in *. rewrite patch_length; lia.
  - now apply IH in H.
Qed.
Lemma patch_digests_none cr hash l w : (forall c, ~ In (Some c) l) -> patch_digests cr hash l w = Ok w.
Proof.
  induction l as [|[c|] l IH]; intro H; cbn [patch_digests]; [reflexivity| |].
  - destruct (H c). now left.
  - apply IH. intros c Hc. apply (H c). now right.
Qed.
Lemma mask_bit l c : In (Some c) l -> forall i, exists j, i <= j < i + N.of_nat (length l) /\ N.testbit (mask_from i l) j = true.
Proof.
  induction l as [|[d|] l IH]; intros H i; cbn [mask_from length]; [destruct H| |].
  - exists i. split; [lia|]. rewrite N.lor_spec, N.pow2_bits_true. reflexivity.
  - destruct H as [H|H]; [discriminate|]. destruct (IH H (i + 1)) as (j & J & T). exists j. split; [lia|exact T].
Qed.
Lemma popcount8_pos m j : j < 8 -> N.testbit m j = true -> 1 <= popcount8 m.
Proof.
  intros J T. unfold popcount8. cbn [fold_left].
  assert (K : j = 0 \/ j = 1 \/ j = 2 \/ j = 3 \/ j = 4 \/ j = 5 \/ j = 6 \/ j = 7) by lia.
  repeat (destruct K as [-> | K]); try subst j; rewrite T;
    repeat match goal with |- context [if N.testbit m ?i then _ else _] => destruct (N.testbit m i) end; lia.
Qed.
Lemma has_some (l : list (option bytes)) : (exists c, In (Some c) l) \/ (forall c, ~ In (Some c) l).
Proof.
  induction l as [|[c|] l IH]; [right; intros c []|left; exists c; now left|].
  destruct IH as [[c H]|H]; [left; exists c; now right|right]. intros c [D|D]; [discriminate|exact (H c D)].
Qed.
Lemma digests_len c mask size w : 1 <= popcount8 mask ->
  xwire (enc_payload c (PDigests (mkDigests mask (repeat (mkV size (fill 64 0xff)) SPDM_MAX_SLOT_NUMBER)))) = Some w ->
  2 + size <= len w.
Proof.
  intros Hp T. cbn [enc_payload] in T. unfold enc_digests_rsp in T. cbn [dg_mask dg_digests] in T. xsplit T.
  cbn in U, U0. injection U as <-. injection U0 as <-.
  replace (N.to_nat (popcount8 mask)) with (S (N.to_nat (popcount8 mask) - 1)) in T by lia.
  change SPDM_MAX_SLOT_NUMBER with 8%nat in T. cbn [repeat firstn map concat] in T. xsplit T.
  apply dig_len in U as [-> S]. cbn [v_size] in S. rewrite !len_app, (v_bytes_fill 64) by exact S.
  change (len [0]) with 1. change (len [mask]) with 1. lia.
Qed.
Definition slots8 (x : ctx) : Prop := length (x_my_chain x) = 8%nat.
Lemma calm_slots8 {A} (m : st ctx A) sid : rel (calm sid) m -> rel (steady slots8) m.
Proof. intros H x r x' E. apply H in E as [E _]. unfold steady, slots8, outline in *. congruence. Qed.
Lemma op_digest E sid b : hash_lengths (e_cr E) -> val slots8 (write_digest E sid b) (rop RC_DIGESTS).
Proof.
  intro HL. unfold write_digest.
  assert (M : forall A (m : st ctx A), rel (calm sid) m -> rel (steady slots8) m)
    by (intros A m; apply calm_slots8).
  vl1; [apply M; rl (calm_pre sid)|]. vl1; [|apply val_err_nil]. vl1.
  vl1; [apply M; cm2 sid|]. vl1; [apply M; cm2 sid|]. vl1; [|apply val_err_nil]. vl1.
  vl1; [apply M; cm2 sid|apply val_err_nil|].
  apply val_get. intros x w x' Hi H. apply sbind_inv in H as (size & x1 & P & H). apply unwrap_inv in P as [Hs ->].
  revert H. refine (val_encode_or_err (fun z => z = x) _ _ RC_DIGESTS _ _ x w x' eq_refl); [reflexivity|].
  intros xx w1 t -> O T L w2 x2 H. cbn [m_payload digests_msg] in T.
  apply sbind_inv in H as (w3 & x3 & P & H). unfold sof in P. assert (x3 = x) as -> by congruence.
  refine (val_then_append anyc _ w3 _ _ _ x w2 x2 I H); [apply steady_any|right].
  rewrite <- O. assert (P' : patch_digests (e_cr E) (n_hash (x_nego x)) (x_my_chain x) w1 = Ok w3) by congruence.
  destruct (has_some (x_my_chain x)) as [[c Hc]|Hc].
  - refine (patch_digests_opcode _ _ _ HL Hs _ _ _ P' _).
    destruct (mask_bit _ _ Hc 0) as (j & J & B). unfold slots8 in Hi. rewrite Hi in J.
    pose proof (digests_len _ _ _ _ (popcount8_pos _ j ltac:(lia) B) T). lia.
  - rewrite patch_digests_none in P' by exact Hc. congruence.
Qed.

(** ** session handlers *)
Lemma op_heartbeat id b : val anyc (write_heartbeat id b) (rop RC_HEARTBEAT_ACK).
Proof.
  unfold write_heartbeat. vl. apply val_encode_or_err; [reflexivity|]. intros xx w t _ O _ _ aa xx' H.
  right. unfold sret in H. congruence.
Qed.
Lemma op_key_update E id b : val anyc (write_key_update E id b) (rop RC_KEY_UPDATE_ACK).
Proof.
  unfold write_key_update. vl. apply val_encode_or_err; [reflexivity|]. intros xx w t _ O _ _ aa xx' H.
  right. unfold sret in H. congruence.
Qed.
Lemma op_end_session id b : val anyc (write_end_session id b) (rop RC_END_SESSION_ACK).
Proof.
  unfold write_end_session. vl. apply val_encode_or_err; [reflexivity|]. intros xx w t _ O _ _ aa xx' H.
  right. unfold sret in H. congruence.
Qed.
Lemma op_vendor E sid b : val anyc (write_vendor E sid b) (rop RC_VENDOR_RSP).
Proof.
  unfold write_vendor. vl. apply val_encode_or_err; [reflexivity|]. intros xx w t _ O _ _ aa xx' H.
  right. unfold sret in H. congruence.
Qed.
Lemma op_error_response c b n : val anyc (write_error_response c b) (rop n).
Proof. unfold write_error_response. vl. Qed.
Lemma op_error_only c b : val anyc (write_error_response c b) (fun w => opcode w = Some RC_ERROR).
Proof.
  intros x w x' Hi H. destruct (op_error_response c b RC_ERROR x w x' Hi H); assumption.
Qed.
Lemma op_psk_finish E id b : val anyc (write_psk_finish E id b) (fun w => opcode w = Some RC_PSK_FINISH_RSP).
Proof.
  unfold write_psk_finish. vl. apply (val_encode_r _ _ _ RC_PSK_FINISH_RSP); [reflexivity|]. intros xx w t _ O _ _ aa xx' H.
  bi H. bi H. unfold sret in H. congruence.
Qed.
Lemma op_finish E id b : val anyc (write_finish E id b) (fun w => opcode w = Some RC_FINISH_RSP).
Proof.
  unfold write_finish, finish_reply. vl1. vl1. vl1. vl1; [|apply val_err]. vl1. vl1.
  apply val_get. intros x w x' _ H. bi H. apply unwrap_inv in P as [Hs ->].
  revert H. refine (val_encode_r (fun z => z = x) _ _ RC_FINISH_RSP (fun w => opcode w = Some RC_FINISH_RSP) _ _ x w x' eq_refl); [reflexivity|].
  intros xx w1 t -> O T L w2 x2 H. cbn [m_payload finish_rsp_msg enc_payload] in T. unfold enc_finish_rsp in T. xsplit T.
  apply sbind_inv in H as (w' & y & P & H). bi H. unfold sret in H. replace w2 with w' by congruence. clear H P0.
  destruct (in_clear (xc x)).
  - unfold enc_opt in T. apply dig_len in T as [-> S]. cbn [v_size] in S.
    do 6 bi P. unfold sof in P. rewrite <- O.
    match type of P with (patch_last _ ?h _, _) = _ => apply (patch_last_opcode v h) end; [congruence|].
    rewrite L, !len_app, (v_bytes_fill 64) by exact S. lia.
  - bi P. unfold sret in P. congruence.
Qed.

(** KEY_EXCHANGE_RSP and PSK_EXCHANGE_RSP *)
Lemma patch_sig_hmac_opcode sig hash s h w w' : patch_sig_hmac sig hash s h w = Ok w' ->
  2 + sig + hash <= len w -> opcode w' = opcode w.
Proof.
  unfold patch_sig_hmac, drop_last. intros H L. destruct (hash <=? len w) eqn:E1; [|discriminate]. cbn [obind] in H.
  destruct (patch_last sig s _) as [w1| |] eqn:P1; try discriminate. cbn [obind] in H.
  apply N.leb_le in E1.
  assert (L1 : len (firstn (N.to_nat (len w - hash)) w) = len w - hash)
    by (unfold len; rewrite firstn_length; unfold len in *; lia).
  apply patch_last_opcode in P1 as [O1 L2]; [|rewrite L1; lia].
  apply patch_last_opcode in H as [O2 _].
  - rewrite O2. transitivity (opcode w1).
    + destruct (opcode w1) as [c|] eqn:C; [now apply opcode_app|].
      exfalso. unfold opcode in C. apply nth_error_None in C. rewrite L1 in L2. unfold len in L2, L. lia.
    + rewrite O1. symmetry. apply (opcode_firstn _ _ (N.to_nat (len w - hash))); [lia|].
      now rewrite firstn_firstn, Nat.min_id.
  - rewrite len_app, L2, L1. unfold len in *. rewrite skipn_length, firstn_length. lia.
Qed.
Lemma op_key_exchange E b : val anyc (write_key_exchange E b) (fun w => opcode w = Some RC_KEY_EXCHANGE_RSP).
Proof.
  unfold write_key_exchange, exchange_start. vl.
  apply (val_encode_r _ _ _ RC_KEY_EXCHANGE_RSP); [reflexivity|].
  intros xx w t _ O T L aa xx' H. cbn [m_payload key_exchange_rsp_msg enc_payload] in T.
  unfold enc_key_ex_rsp in T. cbn [kr_sig kr_verify] in T. xsplit T.
  match goal with U : xwire (enc_signature _ _) = Some _ |- _ => apply sig_len in U as [-> S] end. cbn [v_size] in S.
  unfold key_exchange_finishing in H. apply sbind_inv in H as (z & z1 & Z & H).
  assert (z = xx) as -> by (unfold sget in Z; congruence). clear Z.
  do 7 bi H. apply sbind_inv in H as (w' & yy & P' & H). do 2 bi H. unfold sret in H.
  replace aa with w' by congruence. destruct (in_clear (xc xx)).
  - unfold sret in P'. congruence.
  - unfold enc_opt in T. cbn [negb] in T. apply dig_len in T as [-> S']. cbn [v_size] in S'.
    do 2 bi P'. unfold sof in P'. rewrite <- O.
    match type of P' with (patch_sig_hmac ?a ?b ?s ?h ?w, _) = _ => apply (patch_sig_hmac_opcode a b s h) end; [congruence|].
    rewrite L, !len_app, (v_bytes_fill 64), (v_bytes_fill 512) by assumption. lia.
Qed.
Lemma op_psk_exchange E b : val anyc (write_psk_exchange E b) (fun w => opcode w = Some RC_PSK_EXCHANGE_RSP).
Proof.
  unfold write_psk_exchange, exchange_start. vl.
  apply (val_encode_r _ _ _ RC_PSK_EXCHANGE_RSP); [reflexivity|].
  intros xx w t _ O T L aa xx' H. cbn [m_payload psk_exchange_rsp_msg enc_payload] in T.
  unfold enc_psk_ex_rsp in T. cbn [pr_verify] in T. xsplit T.
  apply dig_len in T as [-> S']. cbn [v_size] in S'.
  unfold psk_exchange_finishing in H. do 8 bi H. apply sbind_inv in H as (w' & yy & P' & H). do 3 bi H. unfold sret in H.
  replace aa with w' by congruence. unfold sof in P'. rewrite <- O.
  match type of P' with (patch_last ?a ?h ?w, _) = _ => apply (patch_last_opcode a h) end; [congruence|].
  rewrite L, !len_app, (v_bytes_fill 64) by assumption. lia.
Qed.
