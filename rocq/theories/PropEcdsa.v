(** C89: raw ECDSA signatures are handed to webpki as exactly the DER of the same two numbers, and
    [asym_verify] accepts what the verification of those numbers accepts. *)
From Verif Require Import Bytes BytesFacts Codec Parse Algo Status X509 CertOps EcdsaDer Context RspConn SpecDer SpecEcdsa X509Proofs PropCert.
Local Open Scope N_scope.

Lemma be_cons a l : be_val (a :: l) = a * 256 ^ len l + be_val l.
Proof.
  unfold be_val. cbn [fold_left]. assert (H : forall l x, fold_left (fun a b => a * 256 + b) l x = x * 256 ^ len l + fold_left (fun a b => a * 256 + b) l 0).
  { clear. induction l as [|b l IH]; intro x; cbn [fold_left]; [unfold len; cbn; lia|]. rewrite IH, (IH (0 * 256 + b)). rewrite len_cons, N.pow_add_r. change (256 ^ 1) with 256. lia. }
  rewrite H. reflexivity.
Qed.
Lemma be_bound l : bytes_ok l -> be_val l < 256 ^ len l.
Proof.
  induction l as [|a l IH]; intro B; [cbn; lia|]. apply Forall_cons_iff in B as (A & B). specialize (IH B). rewrite be_cons, len_cons, N.pow_add_r. change (256 ^ 1) with 256. assert (A2 : a < 256) by exact A. set (p := 256 ^ len l) in *. clearbody p. nia.
Qed.
Lemma lead_le l : lead_zeros l <= len l.
Proof. induction l as [|a l IH]; [cbn; lia|]. cbn [lead_zeros]. rewrite len_cons. destruct (negb (a =? 0)); lia. Qed.
Lemma lead_zero l : bytes_ok l -> (len l - lead_zeros l = 0 <-> be_val l = 0).
Proof.
  induction l as [|a l IH]; intro B; [cbn; tauto|]. apply Forall_cons_iff in B as (A & B). specialize (IH B). rewrite be_cons, len_cons. cbn [lead_zeros]. assert (L := lead_le l).
  destruct (N.eqb_spec a 0) as [->|NZ]; cbn [negb].
  - rewrite N.mul_0_l, N.add_0_l. rewrite <- IH. split; lia.
  - split; [lia|]. assert (0 < 256 ^ len l) by (apply N.neq_0_lt_0, N.pow_nonzero; lia). intro. nia.
Qed.
Lemma lead_skip l : bytes_ok l -> be_val l <> 0 -> exists a r, skipn (N.to_nat (lead_zeros l)) l = a :: r /\ a <> 0 /\ be_val (a :: r) = be_val l /\ bytes_ok (a :: r) /\ len (a :: r) = len l - lead_zeros l.
Proof.
  induction l as [|a l IH]; intros B V; [cbn in V; lia|]. apply Forall_cons_iff in B as (A & B). cbn [lead_zeros]. destruct (N.eqb_spec a 0) as [->|NZ]; cbn [negb].
  - rewrite be_cons in V. destruct (IH B) as (b & r & E & NZ & BV & OK & L); [lia|]. exists b, r. rewrite N.add_1_l, N2Nat.inj_succ. cbn [skipn]. rewrite E. assert (K := lead_le l). split; [reflexivity|]. split; [exact NZ|]. split; [rewrite (be_cons 0), N.mul_0_l, N.add_0_l; exact BV|]. split; [exact OK|]. rewrite L, len_cons. lia.
  - exists a, l. change (N.to_nat 0) with 0%nat. cbn [skipn]. split; [reflexivity|]. split; [exact NZ|]. split; [reflexivity|]. split; [constructor; auto|]. lia.
Qed.
(** one number *)
Lemma padded_der a r n : a <> 0 -> bytes_ok (a :: r) -> be_val (a :: r) = n -> len (a :: r) < 127 ->
  der_positive n (2 :: (if a <? 0x80 then len (a :: r) else len (a :: r) + 1) :: padded (a :: r)).
Proof.
  intros NZ B V L. assert (P : 0 < n). { rewrite <- V, be_cons. assert (0 < 256 ^ len r) by (apply N.neq_0_lt_0, N.pow_nonzero; lia). nia. }
  pose proof B as B2. apply Forall_cons_iff in B2 as (A & BR). unfold padded. cbn [nth]. destruct (a <? 0x80) eqn:E.
  - apply N.ltb_lt in E. exists a, r. repeat split; auto; [lia|]. intro; congruence.
  - apply N.ltb_ge in E. exists 0, (a :: r). rewrite (len_cons 0 (a :: r)). split; [now rewrite (N.add_comm 1)|]. split; [lia|]. split; [rewrite (be_cons 0), N.mul_0_l, N.add_0_l; exact V|].
    split; [exact P|]. split; [lia|]. split; [exact B|]. intros _. exists a, r. auto.
Qed.

(** The conversion: for signatures of either curve's length (more generally up to 2 * 48 bytes) with
    both numbers positive, the result is the DER of those numbers and fits the buffer; with a zero it
    is empty.  It never panics. *)
Theorem C89_conversion_is_der : forall n r s t, spdm_signature n r s t -> n <= 48 ->
  (0 < r -> 0 < s -> exists d, ecc_signature_bin_to_der t DER_BUFFER = Ok d /\ ecdsa_sig_value r s d /\ len d <= DER_BUFFER) /\
  (r = 0 \/ s = 0 -> ecc_signature_bin_to_der t DER_BUFFER = Ok []).
Proof.
  intros n r s t (br & bs & -> & B & LR & LS & VR & VS) N. apply bytes_ok_app in B as (BR & BS).
  assert (H : len (br ++ bs) / 2 = n). { rewrite len_app, LR, LS. replace (n + n) with (n * 2) by lia. apply N.div_mul. lia. }
  assert (KR := lead_le br). assert (KS := lead_le bs).
  assert (NR : N.to_nat n = length br) by (unfold len in LR; lia). assert (NS : N.to_nat n = length bs) by (unfold len in LS; lia).
  assert (F : firstn (N.to_nat n) (br ++ bs) = br) by (rewrite NR, firstn_app, Nat.sub_diag, firstn_all; cbn [firstn]; apply app_nil_r).
  assert (S2 : slice (N.to_nat n) (N.to_nat n) (br ++ bs) = bs).
  { unfold slice. rewrite NR at 2. rewrite skipn_app, Nat.sub_diag, skipn_all. cbn [skipn app]. rewrite NS. apply firstn_all. }
  assert (S1 : slice (N.to_nat (lead_zeros br)) (N.to_nat (n - lead_zeros br)) (br ++ bs) = skipn (N.to_nat (lead_zeros br)) br).
  { unfold slice. rewrite skipn_app. replace (N.to_nat (lead_zeros br) - length br)%nat with 0%nat by lia. cbn [skipn]. rewrite firstn_app.
    assert (Q : length (skipn (N.to_nat (lead_zeros br)) br) = N.to_nat (n - lead_zeros br)) by (rewrite skipn_length; lia).
    rewrite <- Q, firstn_all, Nat.sub_diag. cbn [firstn]. apply app_nil_r. }
  assert (S3 : skipn (N.to_nat (n + lead_zeros bs)) (br ++ bs) = skipn (N.to_nat (lead_zeros bs)) bs).
  { rewrite skipn_app, skipn_all2 by lia. cbn [app]. f_equal. lia. }
  unfold ecc_signature_bin_to_der. rewrite H, F, S2, S1, S3. cbv zeta. clear F S2 S1 S3 H.
  assert (ZR := lead_zero br BR). assert (ZS := lead_zero bs BS). rewrite LR in ZR. rewrite LS in ZS. rewrite VR in ZR. rewrite VS in ZS. split.
  - intros PR PS. destruct (lead_skip br BR) as (a & x & EA & NA & VA & OA & LA); [lia|]. destruct (lead_skip bs BS) as (b & y & EB & NB & VB & OB & LB); [lia|].
    rewrite LR in LA. rewrite LS in LB. rewrite EA, EB. assert (EZ : (n - lead_zeros br =? 0) = false) by (apply N.eqb_neq; lia). assert (EZ2 : (n - lead_zeros bs =? 0) = false) by (apply N.eqb_neq; lia).
    rewrite EZ, EZ2. cbn [orb nth]. rewrite <- LA, <- LB.
    assert (DA := padded_der a x r NA OA (eq_trans VA VR)). assert (DB := padded_der b y s NB OB (eq_trans VB VS)).
    set (da := if a <? 128 then len (a :: x) else len (a :: x) + 1) in *. set (db := if b <? 128 then len (b :: y) else len (b :: y) + 1) in *.
    assert (HA : len (padded (a :: x)) = da) by (unfold da, padded; cbn [nth]; destruct (a <? 0x80); rewrite ?len_cons; lia).
    assert (HB : len (padded (b :: y)) = db) by (unfold db, padded; cbn [nth]; destruct (b <? 0x80); rewrite ?len_cons; lia).
    assert (UA : da <= 49) by (unfold da; destruct (a <? 128); lia). assert (UB : db <= 49) by (unfold db; destruct (b <? 128); lia).
    change DER_BUFFER with 104. rewrite (proj2 (N.ltb_ge 104 (da + db + 6))) by lia. rewrite (proj2 (N.ltb_ge 255 da)), (proj2 (N.ltb_ge 255 db)), (proj2 (N.ltb_ge 255 (da + db + 6))) by lia. cbn [orb].
    rewrite N.eqb_refl. cbn [negb]. eexists. split; [reflexivity|].
    assert (T : len ((2 :: da :: padded (a :: x)) ++ 2 :: db :: padded (b :: y)) = da + db + 4) by (rewrite len_app, !len_cons, HA, HB; lia).
    split; [|change ([48; da + db + 6 - 2; 2; da] ++ padded (a :: x) ++ [2; db] ++ padded (b :: y)) with (48 :: (da + db + 6 - 2) :: (2 :: da :: padded (a :: x)) ++ 2 :: db :: padded (b :: y)); rewrite !(len_cons 48), (len_cons (da + db + 6 - 2)), T; lia].
    exists (2 :: da :: padded (a :: x)), (2 :: db :: padded (b :: y)). split; [apply DA; lia|]. split; [apply DB; lia|]. rewrite T. split; [lia|].
    replace (da + db + 6 - 2) with (da + db + 4) by lia. reflexivity.
  - intros Z. destruct Z as [Z|Z]; [rewrite (proj2 (N.eqb_eq (n - lead_zeros br) 0)) by tauto; reflexivity|].
    rewrite (proj2 (N.eqb_eq (n - lead_zeros bs) 0)) by tauto. rewrite Bool.orb_true_r. reflexivity.
Qed.
Print Assumptions C89_conversion_is_der.

(** the encoding says which numbers it is *)
Lemma der_prefix n t u n' t' u' : der_positive n t -> der_positive n' t' -> t ++ u = t' ++ u' -> n = n' /\ t = t' /\ u = u'.
Proof.
  intros (a & x & -> & _ & <- & _) (b & y & -> & _ & <- & _) H. cbn [app] in H.
  assert (L : len (a :: x) = len (b :: y)) by congruence. assert (T : (a :: x) ++ u = (b :: y) ++ u') by (cbn [app]; congruence).
  destruct (app_len_split _ _ _ _ T L) as (-> & ->). auto.
Qed.
Theorem C89_der_says_the_numbers : forall r s r' s' t, ecdsa_sig_value r s t -> ecdsa_sig_value r' s' t -> r = r' /\ s = s'.
Proof.
  intros r s r' s' t (a & b & DA & DB & _ & ->) (a' & b' & DA' & DB' & _ & H). assert (E : a ++ b = a' ++ b') by congruence.
  destruct (der_prefix _ _ _ _ _ _ DA DA' E) as (-> & _ & E2). rewrite <- (app_nil_r b), <- (app_nil_r b') in E2.
  destruct (der_prefix _ _ _ _ _ _ DB DB' E2) as (-> & _). auto.
Qed.
Print Assumptions C89_der_says_the_numbers.

(** ** the whole check *)
(** webpki verifies DER signatures with the given verification of numbers *)
Definition webpki_verifies (W : webpki) (ec : curve -> digest -> bytes -> bytes -> N -> N -> bool) : Prop :=
  forall c h cert data d, wp_verify W (WEcdsa c h) cert data d = true <-> exists r s, ecdsa_sig_value r s d /\ ec c h cert data r s = true.
(** the pairs of one-bit algorithm codes of DSP0274, with the length of a number *)
Inductive ecdsa_pair : N -> N -> digest -> curve -> N -> Prop :=
| ep_256_256 : ecdsa_pair 1 0x10 SHA256 P256 32
| ep_256_384 : ecdsa_pair 1 0x80 SHA256 P384 48
| ep_384_256 : ecdsa_pair 2 0x10 SHA384 P256 32
| ep_384_384 : ecdsa_pair 2 0x80 SHA384 P384 48.
Inductive hash_code : N -> digest -> Prop := hc1 : hash_code 1 SHA256 | hc2 : hash_code 2 SHA384 | hc4 : hash_code 4 SHA512.
(** algorithm code, PSS?, length of a signature *)
Inductive rsa_code : N -> bool -> N -> Prop :=
| rc1 : rsa_code 0x1 false 256 | rc2 : rsa_code 0x2 true 256 | rc3 : rsa_code 0x4 false 384
| rc4 : rsa_code 0x8 true 384 | rc5 : rsa_code 0x20 false 512 | rc6 : rsa_code 0x40 true 512.

Lemma leaf_of before leaf : Forall blob before -> blob leaf ->
  get_cert (concat before ++ leaf) (-1) = Ok (len (concat before), len (concat before) + len leaf) /\
  slice (N.to_nat (len (concat before))) (N.to_nat (len (concat before) + len leaf - len (concat before))) (concat before ++ leaf) = leaf.
Proof.
  intros F B. destruct (C46_lookup_finds before leaf [] F B) as (_ & H). rewrite app_nil_r in H. split; [now apply H|].
  unfold slice. replace (len (concat before) + len leaf - len (concat before)) with (len leaf) by lia.
  unfold len. rewrite !Nat2N.id. rewrite skipn_app, skipn_all, Nat.sub_diag. cbn [skipn app]. apply firstn_all.
Qed.
Lemma check_of asym before leaf : certificates (oid_of asym) (before ++ [leaf]) -> len (concat before ++ leaf) < USIZE ->
  exists k, check_chain (concat before ++ leaf) asym = Ok k.
Proof.
  intros C L. exists (len (before ++ [leaf])). assert (E : concat before ++ leaf = concat (before ++ [leaf])) by (rewrite concat_app; cbn [concat]; now rewrite app_nil_r).
  rewrite E in *. now apply C46_wellformed_chains_accepted.
Qed.

(** ECDSA, for a chain of well-formed certificates whose lengths take two octets: the verdict is that
    on the numbers (r, s) written in the signature, with the last certificate, the data, the curve and
    the hash of the negotiated algorithms; and both numbers have to be positive. *)
Theorem C89_ecdsa_signatures_verified : forall W ec hash asym h c n before leaf data sig r s,
  webpki_verifies W ec -> ecdsa_pair hash asym h c n -> spdm_signature n r s sig ->
  certificates (oid_of asym) (before ++ [leaf]) -> Forall blob (before ++ [leaf]) -> len (concat before ++ leaf) < USIZE -> wp_parse W leaf = true ->
  asym_verify W hash asym (concat before ++ leaf) data sig =
    if (0 <? r) && (0 <? s) && ec c h leaf data r s then Ok tt else Err ST_VERIF_FAIL.
Proof.
  intros W ec hash asym h c n before leaf data sig r s HW P S C F L PL.
  apply Forall_app in F as (F & F1). apply Forall_inv in F1. destruct (leaf_of before leaf F F1) as (G & SL). destruct (check_of asym before leaf C L) as (k & K).
  assert (N48 : n <= 48) by (destruct P; lia). assert (LS : len sig = 2 * n) by (destruct S as (x & y & -> & _ & LX & LY & _); rewrite len_app; lia).
  assert (A : asym_size asym = Some (2 * n)) by (destruct P; reflexivity). assert (Q : webpki_alg_of hash asym = Some (WEcdsa c h)) by (destruct P; reflexivity).
  assert (D : asym = 0x10 \/ asym = 0x80) by (destruct P; auto).
  destruct (C89_conversion_is_der n r s sig S N48) as (C1 & C2).
  unfold asym_verify. rewrite A, LS, N.eqb_refl, Q, K. cbn [negb obind]. rewrite G. cbn [obind fst snd]. rewrite SL, PL. cbn [negb].
  assert (X : (der <-o ecc_signature_bin_to_der sig DER_BUFFER ;; if wp_verify W (WEcdsa c h) leaf data der then Ok tt else vfail) =
              (if (0 <? r) && (0 <? s) && ec c h leaf data r s then Ok tt else Err ST_VERIF_FAIL)).
  { destruct (N.ltb_spec 0 r) as [Hr|Hr]; [destruct (N.ltb_spec 0 s) as [Hs|Hs]|].
    - destruct (C1 Hr Hs) as (d & -> & V & _). cbn [obind andb]. destruct (ec c h leaf data r s) eqn:E.
      + rewrite (proj2 (HW c h leaf data d)); [reflexivity|eauto].
      + destruct (wp_verify W (WEcdsa c h) leaf data d) eqn:E2; [|reflexivity]. apply HW in E2 as (r' & s' & V' & E2).
        destruct (C89_der_says_the_numbers _ _ _ _ _ V V') as (-> & ->). congruence.
    - rewrite C2 by lia. cbn [obind andb]. destruct (wp_verify W (WEcdsa c h) leaf data []) eqn:E2; [|reflexivity]. apply HW in E2 as (r' & s' & (? & ? & _ & _ & _ & V') & _). discriminate.
    - rewrite C2 by lia. cbn [obind andb]. destruct (wp_verify W (WEcdsa c h) leaf data []) eqn:E2; [|reflexivity]. apply HW in E2 as (r' & s' & (? & ? & _ & _ & _ & V') & _). discriminate. }
  destruct D as [-> | ->]; exact X.
Qed.
Print Assumptions C89_ecdsa_signatures_verified.

(** RSA: the bytes go to webpki as they are *)
Theorem C89_rsa_signatures_verified : forall W hash asym h pss n before leaf data sig,
  hash_code hash h -> rsa_code asym pss n -> len sig = n ->
  certificates (oid_of asym) (before ++ [leaf]) -> Forall blob (before ++ [leaf]) -> len (concat before ++ leaf) < USIZE -> wp_parse W leaf = true ->
  asym_verify W hash asym (concat before ++ leaf) data sig =
    if wp_verify W (if pss then WPss h else WPkcs1 h) leaf data sig then Ok tt else Err ST_VERIF_FAIL.
Proof.
  intros W hash asym h pss n before leaf data sig H R LS C F L PL.
  apply Forall_app in F as (F & F1). apply Forall_inv in F1. destruct (leaf_of before leaf F F1) as (G & SL). destruct (check_of asym before leaf C L) as (k & K).
  assert (A : asym_size asym = Some n) by (destruct R; reflexivity). assert (Q : webpki_alg_of hash asym = Some (if pss then WPss h else WPkcs1 h)) by (destruct H, R; reflexivity).
  unfold asym_verify. rewrite A, LS, N.eqb_refl, Q, K. cbn [negb obind]. rewrite G. cbn [obind fst snd]. rewrite SL, PL. cbn [negb].
  destruct R; reflexivity.
Qed.
Print Assumptions C89_rsa_signatures_verified.

(** and whatever the chain and the signature are, acceptance means: the right length, a last
    certificate that parses, and webpki's verdict on the numbers *)
Theorem C89_acceptance : forall W ec hash asym h c n chain data sig,
  webpki_verifies W ec -> ecdsa_pair hash asym h c n -> bytes_ok chain -> bytes_ok sig ->
  asym_verify W hash asym chain data sig = Ok tt ->
  exists before leaf r s, chain = concat before ++ leaf /\ Forall blob (before ++ [leaf]) /\ wp_parse W leaf = true /\
    spdm_signature n r s sig /\ 0 < r /\ 0 < s /\ ec c h leaf data r s = true.
Proof.
  intros W ec hash asym h c n chain data sig HW P BC BS H.
  assert (N48 : n <= 48) by (destruct P; lia). assert (A : asym_size asym = Some (2 * n)) by (destruct P; reflexivity). assert (Q : webpki_alg_of hash asym = Some (WEcdsa c h)) by (destruct P; reflexivity).
  assert (D : asym = 0x10 \/ asym = 0x80) by (destruct P; auto).
  unfold asym_verify in H. rewrite A, Q in H. destruct (N.eqb_spec (len sig) (2 * n)) as [LS|]; cbn [negb] in H; [|discriminate].
  apply obind_inv in H as (k & _ & H). apply obind_inv in H as ((a & b) & G & H). cbn [fst snd] in H.
  assert (I := C46_lookup_is_in_bounds chain (-1) BC). rewrite G in I. destruct I as (before & leaf & after & -> & F & B & -> & -> & I).
  assert (AF : after = []) by (destruct I as [I|I]; [exfalso; lia|tauto]). rewrite AF, app_nil_r in *.
  destruct (leaf_of before leaf F B) as (_ & SL). rewrite SL in H. destruct (wp_parse W leaf) eqn:PL; cbn [negb] in H; [|discriminate].
  set (br := firstn (N.to_nat n) sig). set (bs := skipn (N.to_nat n) sig).
  assert (E : sig = br ++ bs) by (symmetry; apply firstn_skipn). assert (LR : len br = n) by (unfold br, len in *; rewrite firstn_length; lia). assert (L2 : len bs = n) by (unfold bs, len in *; rewrite skipn_length; lia).
  assert (S : spdm_signature n (be_val br) (be_val bs) sig) by (exists br, bs; rewrite <- E; auto 6).
  destruct (C89_conversion_is_der n _ _ sig S N48) as (C1 & C2).
  assert (X : (der <-o ecc_signature_bin_to_der sig DER_BUFFER ;; if wp_verify W (WEcdsa c h) leaf data der then Ok tt else vfail) = Ok tt) by (destruct D as [-> | ->]; exact H). clear H.
  exists before, leaf, (be_val br), (be_val bs). split; [reflexivity|]. split; [apply Forall_app; auto|]. split; [exact PL|]. split; [exact S|].
  apply obind_inv in X as (d & X & V). destruct (wp_verify W (WEcdsa c h) leaf data d) eqn:E2; [|discriminate]. apply HW in E2 as (r' & s' & V' & E2).
  destruct (N.eq_0_gt_0_cases (be_val br)) as [Z|PR].
  { rewrite C2 in X by auto. assert (d = []) by congruence. rewrite H in V'. destruct V' as (? & ? & _ & _ & _ & V'). discriminate. }
  destruct (N.eq_0_gt_0_cases (be_val bs)) as [Z|PS].
  { rewrite C2 in X by auto. assert (d = []) by congruence. rewrite H in V'. destruct V' as (? & ? & _ & _ & _ & V'). discriminate. }
  destruct (C1 PR PS) as (d' & X' & V2 & _). assert (d' = d) by congruence. rewrite H in V2. destruct (C89_der_says_the_numbers _ _ _ _ _ V2 V') as (Q1 & Q2). rewrite Q1, Q2. rewrite Q1 in PR. rewrite Q2 in PS. split; [exact PR|]. split; [exact PS|exact E2].
Qed.
Print Assumptions C89_acceptance.

(** a verification of numbers that accepts r = s = 1 only, and a webpki that does it *)
Definition toy_ec (c : curve) (h : digest) (cert data : bytes) (r s : N) : bool := (r =? 1) && (s =? 1).
Definition toy_webpki : webpki := mkWebpki (fun c => 4 <=? len c) (fun a cert data d => bytes_eqb d [0x30; 6; 2; 1; 1; 2; 1; 1]).
Lemma der_one t : der_positive 1 t -> t = [2; 1; 1].
Proof.
  intros (a & l & -> & _ & V & _ & A & B & M). rewrite be_cons in V. destruct l as [|b l].
  - replace (be_val []) with 0 in V by reflexivity. replace (256 ^ len (@nil N)) with 1 in V by reflexivity. assert (a = 1) by lia. rewrite H. reflexivity.
  - exfalso. rewrite len_cons, N.pow_add_r in V. change (256 ^ 1) with 256 in V. assert (Z : 0 < 256 ^ len l) by (apply N.neq_0_lt_0, N.pow_nonzero; lia).
    destruct (N.eq_0_gt_0_cases a) as [E|E]; [|set (p := 256 ^ len l) in *; clearbody p; nia].
    destruct (M E) as (b' & more & E2 & H). assert (b' = b) by congruence. rewrite H0 in H. rewrite be_cons in V. set (p := 256 ^ len l) in *. clearbody p. nia.
Qed.
Lemma toy_verifies : webpki_verifies toy_webpki toy_ec.
Proof.
  intros c h cert data d. cbn [wp_verify toy_webpki]. unfold toy_ec. split.
  - intro H. apply bytes_eqb_eq in H. rewrite H. exists 1, 1. split; [|reflexivity].
    assert (P : der_positive 1 [2; 1; 1]) by (exists 1, []; repeat split; auto; try reflexivity; [constructor|discriminate]).
    exists [2; 1; 1], [2; 1; 1]. split; [exact P|]. split; [exact P|]. split; reflexivity.
  - intros (r & s & (a & b & DA & DB & _ & ->) & E). apply andb_prop in E as (E1 & E2). apply N.eqb_eq in E1, E2. rewrite E1 in DA. rewrite E2 in DB.
    rewrite (der_one a DA), (der_one b DB). reflexivity.
Qed.
Definition one_one : bytes := repeat 0 31 ++ [1] ++ repeat 0 31 ++ [1].
Lemma one_one_is : spdm_signature 32 1 1 one_one.
Proof. exists (repeat 0 31 ++ [1]), (repeat 0 31 ++ [1]). split; [reflexivity|]. split; [|repeat split]. apply Forall_forall. intros x H. cbn in H. unfold byte_ok. repeat (destruct H as [H|H]; [lia|]). contradiction. Qed.
Example C89_case :
  asym_verify toy_webpki 1 0x10 (ex_cert ++ ex_cert) [5] one_one = Ok tt /\
  ecc_signature_bin_to_der (repeat 0 31 ++ [0x80] ++ repeat 0 30 ++ [1; 0]) DER_BUFFER = Ok [0x30; 8; 2; 2; 0; 0x80; 2; 2; 1; 0] /\
  (exists d, ecc_signature_bin_to_der (repeat 255 96) DER_BUFFER = Ok d /\ len d = DER_BUFFER).
Proof.
  split; [|split; [vm_compute; reflexivity|eexists; split; vm_compute; reflexivity]].
  assert (H := C89_ecdsa_signatures_verified toy_webpki toy_ec 1 0x10 SHA256 P256 32 [ex_cert] ex_cert [5] one_one 1 1 toy_verifies ep_256_256 one_one_is).
  destruct C46_case as (C & _ & B & _). assert (E : concat [ex_cert] = ex_cert) by (cbn [concat]; apply app_nil_r). rewrite E in H. apply H; [exact C|repeat constructor; exact B|reflexivity|reflexivity].
Qed.

(** ** C90: SHA-512 with ECDSA, the pair the negotiation prefers, cannot be verified at all *)
Lemma land_bit m b : N.land m b = b -> b <> 0 -> (N.land m b =? 0) = false.
Proof. intros H Z. rewrite H. now apply N.eqb_neq. Qed.
Theorem C90_preferred_pair_panics_refuted : forall cfg n,
  contains (n_hash n) 4 = true -> contains (cf_hash cfg) 4 = true ->     (* both ends offer SHA-512 *)
  contains (n_asym n) 0x80 = true -> contains (cf_asym cfg) 0x80 = true -> (* and ECDSA P-384 *)
  n_hash (select_algs cfg n) = 4 /\ n_asym (select_algs cfg n) = 0x80 /\
  forall W chain data sig, len sig = 96 -> asym_verify W (n_hash (select_algs cfg n)) (n_asym (select_algs cfg n)) chain data sig = Panic.
Proof.
  intros cfg n H1 H2 A1 A2. unfold contains in *. apply N.eqb_eq in H1, H2, A1, A2.
  assert (EH : n_hash (select_algs cfg n) = 4).
  { change (n_hash (select_algs cfg n)) with (prio_loop [4; 2; 1] (N.land (n_hash n) (cf_hash cfg))). cbn [prio_loop]. rewrite (land_bit (N.land (n_hash n) (cf_hash cfg)) 4); [reflexivity| |discriminate]. now rewrite <- N.land_assoc, H2, H1. }
  assert (EA : n_asym (select_algs cfg n) = 0x80).
  { change (n_asym (select_algs cfg n)) with (prio_loop asym_prio (N.land (n_asym n) (cf_asym cfg))). unfold asym_prio. cbn [prio_loop]. rewrite (land_bit (N.land (n_asym n) (cf_asym cfg)) 0x80); [reflexivity| |discriminate]. now rewrite <- N.land_assoc, A2, A1. }
  split; [exact EH|]. split; [exact EA|]. intros W chain data sig L. rewrite EH, EA. unfold asym_verify. cbn [asym_size]. rewrite L. reflexivity.
Qed.
Print Assumptions C90_preferred_pair_panics_refuted.
