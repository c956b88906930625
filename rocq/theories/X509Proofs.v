(** Lemmas about X509.v and CertOps.v *)
From Verif Require Import Bytes BytesFacts Status CertOps X509 SpecDer.
From Coq Require Import Lia.
Local Open Scope N_scope.

Lemma len_cons {A} (a : A) l : len (a :: l) = 1 + len l. Proof. unfold len. cbn [length]. lia. Qed.
Lemma len_app {A} (a b : list A) : len (a ++ b) = len a + len b. Proof. unfold len. rewrite app_length. lia. Qed.
Lemma be_val_snoc l b : be_val (l ++ [b]) = be_val l * 256 + b. Proof. unfold be_val. now rewrite fold_left_app. Qed.
Lemma le_rev l : le_val (rev l) = be_val l.
Proof.
  induction l as [|b l IH] using rev_ind; [reflexivity|]. rewrite rev_app_distr, be_val_snoc. cbn [rev app le_val]. rewrite IH. lia.
Qed.
Lemma from_app a b : from (len a) (a ++ b) = Ok b.
Proof.
  unfold from. rewrite len_app, (proj2 (N.ltb_ge _ _)) by lia. unfold len. rewrite Nat2N.id, skipn_app, skipn_all, Nat.sub_diag. reflexivity.
Qed.
Lemma from_inv n d r : from n d = Ok r -> exists p, d = p ++ r /\ len p = n.
Proof.
  unfold from. destruct (N.ltb_spec (len d) n) as [|L]; [discriminate|]. intro H. exists (firstn (N.to_nat n) d).
  assert (r = skipn (N.to_nat n) d) as -> by congruence. split; [symmetry; apply firstn_skipn|]. unfold len in *. rewrite firstn_length. lia.
Qed.
Lemma uadd_ok a b : a + b < USIZE -> uadd a b = Ok (a + b). Proof. unfold uadd. intro H. rewrite (proj2 (N.leb_gt _ _)) by exact H. reflexivity. Qed.
Lemma uadd_inv a b c : uadd a b = Ok c -> c = a + b. Proof. unfold uadd. destruct (_ <=? _); congruence. Qed.
Lemma obind_inv {A B} (m : outcome A) (k : A -> outcome B) b : obind m k = Ok b -> exists a, m = Ok a /\ k a = Ok b.
Proof. destruct m; try discriminate. intro H. eauto. Qed.
Lemma high_bit b : b < 256 -> (N.land b 0x80 =? 0) = (b <? 128).
Proof.
  intro H. assert (K : forallb (fun n => Bool.eqb (N.land n 0x80 =? 0) (n <? 128)) (map N.of_nat (seq 0 256)) = true) by (vm_compute; reflexivity).
  rewrite forallb_forall in K. apply Bool.eqb_prop, K. apply in_map_iff. exists (N.to_nat b). split; [lia|]. apply in_seq. lia.
Qed.
Lemma slice1 n (b : N) (ds rest : bytes) : length ds = n -> slice 1 n (b :: ds ++ rest) = ds.
Proof. intros <-. unfold slice. cbn [skipn]. rewrite firstn_app, firstn_all, Nat.sub_diag. cbn [firstn]. apply app_nil_r. Qed.
Lemma length_app n enc rest : der_length n enc -> check_length (enc ++ rest) = Ok (n, len enc).
Proof.
  intro H. destruct H as [H|k ds Hk Hl Hv].
  - cbn [app check_length]. rewrite high_bit by lia. rewrite (proj2 (N.ltb_lt _ _) H). reflexivity.
  - cbn [app check_length]. rewrite high_bit by lia. rewrite (proj2 (N.ltb_ge _ _)) by lia. cbv zeta. replace (0x80 + k - 0x80) with k by lia.
    rewrite len_cons, len_app. rewrite (proj2 (N.ltb_ge _ _)) by lia. rewrite (proj2 (N.eqb_neq _ _)) by lia. cbn [orb].
    rewrite (proj2 (N.ltb_ge _ _)) by lia. rewrite slice1 by (unfold len in Hl; lia). rewrite le_rev, Hv, len_cons, Hl. f_equal. f_equal. lia.
Qed.
Lemma length_inv d n k : bytes_ok d -> check_length d = Ok (n, k) -> exists enc rest, d = enc ++ rest /\ der_length n enc /\ k = len enc.
Proof.
  intros B H. destruct d as [|b d]; [discriminate|]. cbn [check_length] in H. assert (Hb : b < 256) by (apply Forall_inv in B; exact B).
  rewrite high_bit in H by exact Hb. destruct (N.ltb_spec b 128) as [L|L].
  - exists [b], d. split; [reflexivity|]. assert (n = b /\ k = 1) as [-> ->] by (split; congruence). split; [now constructor|reflexivity].
  - cbv zeta in H. destruct (N.ltb_spec (len (b :: d)) (b - 0x80 + 1)) as [|L1]; [discriminate|]. cbn [orb] in H.
    destruct (N.eqb_spec (b - 0x80) 0) as [|L2]; [discriminate|]. destruct (N.ltb_spec 8 (b - 0x80)) as [|L3]; [discriminate|].
    set (m := b - 0x80) in *. assert (Hbm : b = 0x80 + m) by lia. rewrite len_cons in L1.
    exists (b :: firstn (N.to_nat m) d), (skipn (N.to_nat m) d). split; [cbn; now rewrite firstn_skipn|].
    assert (Lf : len (firstn (N.to_nat m) d) = m) by (unfold len in *; rewrite firstn_length; lia).
    unfold slice in H. cbn [skipn] in H. rewrite le_rev in H. split; [|rewrite len_cons, Lf; replace k with (m + 1) by congruence; lia].
    rewrite Hbm. apply dl_long; [lia|exact Lf|congruence].
Qed.
Lemma bytes_okr a b : bytes_ok (a ++ b) -> bytes_ok b. Proof. rewrite bytes_ok_app. tauto. Qed.

(** ** walking over well-formed data *)
Lemma body_app t enc body rest : der_length (len body) enc -> len (t :: enc ++ body ++ rest) < USIZE ->
  skip_body (t :: enc ++ body ++ rest) = Ok (len (t :: enc ++ body)).
Proof.
  intros H L. unfold skip_body. change (t :: enc ++ body ++ rest) with ([t] ++ enc ++ body ++ rest). replace (from 1 ([t] ++ enc ++ body ++ rest)) with (@Ok bytes (enc ++ body ++ rest)) by (symmetry; exact (from_app [t] _)).
  cbn [obind]. rewrite (length_app _ _ _ H). cbn [obind fst snd]. cbn [app]. rewrite !len_cons, !len_app in *.
  rewrite uadd_ok by lia. cbn [obind]. rewrite uadd_ok by lia. cbn [obind]. rewrite (proj2 (N.ltb_ge _ _)) by lia. f_equal. lia.
Qed.
Lemma tag_app t rest : some_tlv t -> len (t ++ rest) < USIZE -> skip_tag (t ++ rest) = Ok (len t).
Proof.
  intros (tag & body & l & H & ->) L. cbn [app] in *. rewrite <- app_assoc in *. unfold skip_tag. now apply body_app.
Qed.
Lemma seq_app t rest : some_sequence t -> len (t ++ rest) < USIZE -> skip_seq (t ++ rest) = Ok (len t).
Proof.
  intros (body & l & H & ->) L. cbn [app] in *. rewrite <- app_assoc in *. unfold skip_seq. change (0x30 =? 0x30) with true. cbv iota. now apply body_app.
Qed.
Lemma oid_same_refl o : oid_same o o = true. Proof. induction o; cbn; [reflexivity|]. now rewrite N.eqb_refl. Qed.
Lemma oid_same_eq a : forall b, oid_same a b = true -> a = b.
Proof. induction a as [|x a IH]; intros [|y b] H; try discriminate; [reflexivity|]. cbn in H. apply andb_prop in H as [H1 H2]. apply N.eqb_eq in H1. f_equal; auto. Qed.
Lemma oid_app want o rest : oid_field want o -> check_oid (o ++ rest) want = Ok (len o).
Proof.
  intros (b & Hb & -> & Hw). cbn [app check_oid]. change (6 =? 6) with true. cbn [negb].
  rewrite !len_cons, len_app. rewrite (proj2 (N.ltb_ge _ _)) by lia. rewrite (proj2 (N.leb_gt _ _)) by lia. cbn [orb].
  assert (S : slice 2 (N.to_nat (len b)) (6 :: len b :: b ++ rest) = b).
  { unfold slice, len. rewrite Nat2N.id. cbn [skipn]. rewrite firstn_app, firstn_all, Nat.sub_diag. cbn [firstn]. apply app_nil_r. }
  rewrite S. destruct want as [w|]; [subst b; rewrite oid_same_refl|]; f_equal; lia.
Qed.
Lemma version_app rest : check_version (v3 ++ rest) = Ok 5. Proof. reflexivity. Qed.
(** one step of a walk: [p] is behind, [c] is next *)
Lemma walk {B} p c rest (f : bytes -> outcome N) (k : N -> outcome B) : f (c ++ rest) = Ok (len c) -> len (p ++ c ++ rest) < USIZE ->
  (r <-o from (len p) (p ++ c ++ rest) ;; n <-o f r ;; w <-o uadd (len p) n ;; k w) = k (len (p ++ c)).
Proof.
  intros H L. rewrite from_app. cbn [obind]. rewrite H. cbn [obind]. rewrite !len_app in *. rewrite uadd_ok by lia. reflexivity.
Qed.
Lemma alg_app want t rest (asym : N) (leaf : bool) : want = (if leaf then oid_of asym else None) -> algorithm want t -> len (t ++ rest) < USIZE ->
  check_sig_alg (t ++ rest) asym leaf = Ok (len t).
Proof.
  intros -> (o & more & Ho & l & Hl & ->) L. cbn [app] in *. unfold check_sig_alg, check_seq. change (0x30 =? 0x30) with true. cbn [obind].
  rewrite <- !app_assoc in *. change (0x30 :: l ++ o ++ more ++ rest) with ([0x30] ++ l ++ o ++ more ++ rest) in *.
  replace (from 1 ([0x30] ++ l ++ o ++ more ++ rest)) with (@Ok bytes (l ++ o ++ more ++ rest)) by (symmetry; exact (from_app [0x30] _)). cbn [obind].
  rewrite (length_app _ _ _ Hl). cbn [obind fst snd]. assert (L0 := L). rewrite !len_app in L0. change (len [0x30]) with 1 in L0. rewrite uadd_ok by lia. cbn [obind].
  replace (from (1 + len l) ([0x30] ++ l ++ o ++ more ++ rest)) with (@Ok bytes (o ++ more ++ rest)).
  2:{ symmetry. replace (1 + len l) with (len ([0x30] ++ l)) by (rewrite len_app; reflexivity). rewrite app_assoc. apply from_app. }
  cbn [obind]. rewrite (oid_app _ _ _ Ho). cbn [obind]. rewrite uadd_ok by (rewrite len_app; lia). f_equal. rewrite !len_cons, !len_app. lia.
Qed.
Lemma tbs_app want (body t rest : bytes) (asym : N) (leaf : bool) serial a issuer validity subject key more : want = (if leaf then oid_of asym else None) ->
  some_tlv serial -> algorithm want a -> some_sequence issuer -> some_sequence validity -> some_sequence subject -> some_sequence key ->
  body = v3 ++ serial ++ a ++ issuer ++ validity ++ subject ++ key ++ more -> sequence body t -> len (t ++ rest) < USIZE ->
  check_tbs (t ++ rest) asym leaf = Ok (len t).
Proof.
  intros -> Hs Ha Hi Hv Hu Hk -> (l & Hl & ->) L. set (bd := v3 ++ _) in *. assert (Eb : bd = v3 ++ serial ++ a ++ issuer ++ validity ++ subject ++ key ++ more) by reflexivity. clearbody bd.
  cbn [app] in *. unfold check_tbs, check_seq. change (0x30 =? 0x30) with true. cbn [obind].
  rewrite <- !app_assoc in *. change (0x30 :: l ++ bd ++ rest) with ([0x30] ++ l ++ bd ++ rest) in *.
  replace (from 1 ([0x30] ++ l ++ bd ++ rest)) with (@Ok bytes (l ++ bd ++ rest)) by (symmetry; exact (from_app [0x30] _)). cbn [obind].
  rewrite (length_app _ _ _ Hl). cbn [obind fst snd]. assert (L0 := L). rewrite !len_app in L. change (len [0x30]) with 1 in L. rewrite uadd_ok by lia. cbn [obind]. rewrite uadd_ok by lia. cbn [obind].
  rewrite (proj2 (N.ltb_ge _ _)) by (rewrite !len_app; change (len [0x30]) with 1; lia).
  destruct Ha as (o & am & Ho & al & Hal & ->).
  set (d := [0x30] ++ l ++ bd ++ rest) in *.
  assert (P0 : d = (0x30 :: l) ++ v3 ++ (serial ++ ((0x30 :: al) ++ (o ++ am)) ++ issuer ++ validity ++ subject ++ key ++ more ++ rest)) by (unfold d; rewrite Eb; cbn [app]; rewrite <- !app_assoc; cbn [app]; rewrite <- ?app_assoc; reflexivity).
  replace (uadd (1 + len l) (len bd)) with (@Ok N (len (0x30 :: l ++ bd))) by (rewrite len_cons, len_app, uadd_ok by lia; f_equal; lia).
  replace (1 + len l) with (len (0x30 :: l)) by apply len_cons. rewrite P0 in L0 |- *. clearbody d. clear P0 Eb Hl.
  set (tail := more ++ rest) in *.
  etransitivity; [apply (walk (0x30 :: l) v3 _ check_version); [apply version_app|exact L0]|]. rewrite (app_assoc (0x30 :: l) v3) in L0 |- *. set (p1 := (0x30 :: l) ++ v3) in *. clearbody p1.
  etransitivity; [apply walk; [apply tag_app; [exact Hs|rewrite !len_app in *; lia]|exact L0]|].
  rewrite (app_assoc p1 serial) in L0 |- *. set (p2 := p1 ++ serial) in *. clearbody p2.
  rewrite from_app. cbn [obind]. change (check_seq (((0x30 :: al) ++ o ++ am) ++ issuer ++ validity ++ subject ++ key ++ tail)) with (@Ok unit tt). cbn [obind].
  rewrite <- (app_assoc (0x30 :: al)) in L0 |- *. change (0x30 :: al) with ([0x30] ++ al) in L0 |- *. rewrite <- (app_assoc [0x30] al) in L0 |- *.
  rewrite uadd_ok by (rewrite !len_app in L0; change (len [0x30]) with 1 in L0; lia). cbn [obind].
  replace (len p2 + 1) with (len (p2 ++ [0x30])) by (rewrite len_app; reflexivity). rewrite (app_assoc p2 [0x30]) in L0 |- *. set (p3 := p2 ++ [0x30]) in *. clearbody p3.
  rewrite from_app. cbn [obind]. rewrite (length_app _ al _ Hal). cbn [obind fst snd]. rewrite uadd_ok by (rewrite !len_app in L0; lia). cbn [obind].
  replace (len p3 + len al) with (len (p3 ++ al)) by apply len_app. rewrite (app_assoc p3 al) in L0 |- *. set (p4 := p3 ++ al) in *. clearbody p4.
  rewrite from_app. cbn [obind]. rewrite <- (app_assoc o am) in L0 |- *. rewrite (oid_app _ _ _ Ho). cbn [obind]. rewrite (app_assoc o am) in L0 |- *.
  rewrite uadd_ok by (rewrite !len_app in L0; rewrite len_app; lia). cbn [obind].
  replace (len p4 + len (o ++ am)) with (len (p4 ++ (o ++ am))) by apply len_app. rewrite (app_assoc p4 (o ++ am)) in L0 |- *. set (p5 := p4 ++ (o ++ am)) in *. clearbody p5.
  etransitivity; [apply walk; [apply seq_app; [exact Hi|rewrite !len_app in *; lia]|exact L0]|].
  rewrite (app_assoc p5 issuer) in L0 |- *. set (p6 := p5 ++ issuer) in *. clearbody p6.
  etransitivity; [apply walk; [apply seq_app; [exact Hv|rewrite !len_app in *; lia]|exact L0]|].
  rewrite (app_assoc p6 validity) in L0 |- *. set (p7 := p6 ++ validity) in *. clearbody p7.
  etransitivity; [apply walk; [apply seq_app; [exact Hu|rewrite !len_app in *; lia]|exact L0]|].
  rewrite (app_assoc p7 subject) in L0 |- *. set (p8 := p7 ++ subject) in *. clearbody p8.
  rewrite from_app. cbn [obind]. rewrite (seq_app key) by (try exact Hk; rewrite !len_app in *; lia). cbn [obind]. f_equal. rewrite !len_cons, len_app. lia.
Qed.
Lemma cert_app c rest asym : certificate (if len rest =? 0 then oid_of asym else None) c -> len (c ++ rest) < USIZE -> check_cert (c ++ rest) asym = Ok (len c).
Proof.
  intros (serial & a & issuer & validity & subject & key & more & tbs & alg & sig & Hs & Ha & Hi & Hv & Hu & Hk & Ht & Hl & Hg & l & Hle & ->) L.
  set (leaf := len rest =? 0) in *.
  cbn [app] in *. unfold check_cert, check_seq. change (0x30 =? 0x30) with true. cbn [obind].
  rewrite <- !app_assoc in *. change (0x30 :: l ++ tbs ++ alg ++ sig ++ rest) with ([0x30] ++ l ++ tbs ++ alg ++ sig ++ rest) in *.
  replace (from 1 ([0x30] ++ l ++ tbs ++ alg ++ sig ++ rest)) with (@Ok bytes (l ++ tbs ++ alg ++ sig ++ rest)) by (symmetry; exact (from_app [0x30] _)). cbn [obind].
  rewrite (length_app _ _ _ Hle). cbn [obind fst snd]. assert (L0 := L). rewrite !len_app in L0. change (len [0x30]) with 1 in L0. rewrite !len_app. change (len [0x30]) with 1.
  rewrite uadd_ok by lia. cbn [obind]. rewrite uadd_ok by lia. cbn [obind]. cbv zeta.
  replace (1 + (len l + (len tbs + (len alg + (len sig + len rest)))) =? 1 + len l + (len tbs + (len alg + len sig))) with leaf.
  2:{ unfold leaf. destruct (N.eqb_spec (len rest) 0) as [->|N0]; symmetry; [apply N.eqb_eq|apply N.eqb_neq]; lia. }
  clearbody leaf. set (e := 1 + len l + (len tbs + (len alg + len sig))). assert (He : e = 1 + len l + (len tbs + (len alg + len sig))) by reflexivity. clearbody e.
  rewrite (app_assoc [0x30] l) in L |- *. replace (1 + len l) with (len ([0x30] ++ l)) by (rewrite len_app; reflexivity).
  assert (Hp : len ([0x30] ++ l) = 1 + len l) by (rewrite len_app; reflexivity).
  set (p1 := [0x30] ++ l) in *. clearbody p1.
  etransitivity; [apply (walk p1 tbs _ (fun r => check_tbs r asym leaf)); [eapply (tbs_app _ _ _ _ _ _ _ _ _ _ _ _ _ eq_refl Hs Ha Hi Hv Hu Hk eq_refl Ht); rewrite !len_app in *; lia|exact L]|].
  rewrite (app_assoc p1 tbs) in L |- *. assert (Hp2 := len_app p1 tbs). set (p2 := p1 ++ tbs) in *. clearbody p2.
  etransitivity; [apply (walk p2 alg _ (fun r => check_sig_alg r asym leaf)); [eapply (alg_app _ _ _ _ _ eq_refl Hl); rewrite !len_app in *; lia|exact L]|].
  rewrite (app_assoc p2 alg) in L |- *. assert (Hp3 := len_app p2 alg). set (p3 := p2 ++ alg) in *. clearbody p3.
  etransitivity; [apply walk; [apply tag_app; [exact Hg|rewrite !len_app in *; lia]|exact L]|].
  rewrite (proj2 (N.eqb_eq _ _)) by (rewrite len_app; lia). f_equal. rewrite len_cons, !len_app in *. lia.
Qed.
Lemma some_tlv_len t : some_tlv t -> 1 <= len t.
Proof. intros (tag & body & l & H & ->). rewrite len_cons. lia. Qed.
Lemma cert_len want c : certificate want c -> 1 <= len c.
Proof. intros (? & ? & ? & ? & ? & ? & ? & ? & ? & ? & _ & _ & _ & _ & _ & _ & _ & _ & _ & l & _ & ->). rewrite len_cons. lia. Qed.
Lemma certs_len want certs : certificates want certs -> 1 <= len (concat certs).
Proof. intro H. destruct H as [c H|c l H _]; cbn [concat]; rewrite len_app; assert (K := cert_len _ _ H); lia. Qed.
Lemma loop_app asym certs : certificates (oid_of asym) certs -> forall fuel pre n, len (pre ++ concat certs) < USIZE -> (length certs <= fuel)%nat ->
  chain_loop fuel (pre ++ concat certs) asym (len pre) n = Ok (n + len certs).
Proof.
  induction 1 as [c H|c l H Hl IH]; intros fuel pre n L Hf.
  - cbn [concat] in *. assert (K := cert_len _ _ H). rewrite app_nil_r in *. destruct fuel as [|fuel]; [cbn in Hf; lia|]. cbn [chain_loop].
    rewrite len_app. rewrite (proj2 (N.ltb_lt _ _)) by lia.
    assert (W : check_cert (c ++ []) asym = Ok (len c)) by (apply cert_app; [exact H|rewrite app_nil_r; rewrite len_app in L; lia]).
    assert (W2 := walk pre c [] (fun r => check_cert r asym) (fun w' => chain_loop fuel (pre ++ c) asym w' (n + 1)) W). rewrite !app_nil_r in W2.
    etransitivity; [apply W2; exact L|]. destruct fuel; cbn [chain_loop]; rewrite N.ltb_irrefl, N.eqb_refl; reflexivity.
  - cbn [concat] in *. assert (K := cert_len _ _ H). assert (K2 := certs_len _ _ Hl). destruct fuel as [|fuel]; [cbn in Hf; lia|]. cbn [chain_loop].
    rewrite !len_app. rewrite (proj2 (N.ltb_lt _ _)) by lia.
    assert (W : check_cert (c ++ concat l) asym = Ok (len c)).
    { apply cert_app; [rewrite (proj2 (N.eqb_neq _ _)) by lia; exact H|rewrite !len_app in *; lia]. }
    etransitivity; [apply (walk pre c _ (fun r => check_cert r asym)); [exact W|exact L]|]. cbv beta. rewrite app_assoc in L |- *.
    rewrite IH; [|exact L|cbn in Hf; lia]. f_equal. rewrite len_cons. lia.
Qed.
Lemma certs_count want certs : certificates want certs -> (length certs <= length (concat certs))%nat.
Proof.
  induction 1 as [c H|c l H _ IH]; cbn [concat length]; rewrite app_length; assert (K := cert_len _ _ H); unfold len in K; lia.
Qed.

(** ** what an accepted chain looks like *)
Lemma split_len {A} (l : list A) n : n <= len l -> exists a b, l = a ++ b /\ len a = n.
Proof. intro H. exists (firstn (N.to_nat n) l), (skipn (N.to_nat n) l). split; [symmetry; apply firstn_skipn|]. unfold len in *. rewrite firstn_length. lia. Qed.
Lemma head_inv d r n k t : bytes_ok d -> from 1 d = Ok r -> check_length r = Ok (n, k) -> 1 + k + n <= len d -> hd_error d = Some t ->
  exists enc body rest, d = t :: enc ++ body ++ rest /\ der_length n enc /\ len body = n /\ len enc = k.
Proof.
  intros B F C L T. destruct (from_inv _ _ _ F) as (p & -> & Hp). destruct p as [|t' [|]]; rewrite ?len_cons in Hp; [discriminate| |unfold len in Hp; lia].
  cbn in T. assert (t' = t) as -> by congruence. destruct (length_inv _ _ _ (bytes_okr [t] r B) C) as (enc & rest & -> & He & ->).
  rewrite !len_app in L. change (len [t]) with 1 in L. destruct (split_len rest n) as (body & rest' & -> & Hb); [lia|]. exists enc, body, rest'. repeat split; auto.
Qed.
Lemma seq_head d u : check_seq d = Ok u -> hd_error d = Some 0x30.
Proof. destruct d as [|t d]; [discriminate|]. cbn. destruct (N.eqb_spec t 0x30); [now subst|discriminate]. Qed.
Lemma app_len_split {A} (a b c d : list A) : a ++ b = c ++ d -> len a = len c -> a = c /\ b = d.
Proof.
  intros H L. assert (E : length a = length c) by (unfold len in L; lia). clear L. revert c H E. induction a as [|x a IH]; intros [|y c] H E; try discriminate; [auto|].
  cbn in H. injection H as -> H. destruct (IH c H) as [-> ->]; [now injection E|auto].
Qed.
Lemma version_inv d n : check_version d = Ok n -> starts v3 d.
Proof.
  destruct d as [|a [|b [|c [|e [|v d]]]]]; try discriminate. cbn [check_version].
  destruct (_ && _) eqn:E; [|discriminate]. intros _. repeat (apply andb_prop in E as [E ?]).
  repeat match goal with H : (_ =? _) = true |- _ => apply N.eqb_eq in H end. subst. exists d. reflexivity.
Qed.
Lemma oid_inv d want n : check_oid d want = Ok n -> exists o, oid_field want o /\ starts o d.
Proof.
  destruct d as [|t [|k d]]; try discriminate. cbn [check_oid]. destruct (N.eqb_spec t 6) as [->|]; [|discriminate]. cbn [negb].
  destruct (N.ltb_spec (len (6 :: k :: d)) (k + 2)) as [|L]; [discriminate|]. cbn [orb]. destruct (N.leb_spec 0x80 k) as [|Lk]; [discriminate|].
  rewrite !len_cons in L. destruct (split_len d k) as (o & r & -> & Ho); [lia|].
  assert (E : slice 2 (N.to_nat k) (6 :: k :: o ++ r) = o).
  { unfold slice. cbn [skipn]. rewrite <- Ho. unfold len. rewrite Nat2N.id, firstn_app, firstn_all, Nat.sub_diag. cbn [firstn]. apply app_nil_r. }
  rewrite E. intro H. exists (6 :: k :: o). split; [|exists r; reflexivity]. exists o. rewrite Ho. repeat split; [lia|].
  destruct want as [w|]; [|exact I]. destruct (oid_same o w) eqn:S; [|discriminate]. now apply oid_same_eq.
Qed.
Ltac oinv H := let a := fresh "v" in let H1 := fresh "K" in apply obind_inv in H as (a & H1 & H).
Lemma tbs_inv d asym leaf n : bytes_ok d -> check_tbs d asym leaf = Ok n ->
  exists tbody tbs rest, d = tbs ++ rest /\ sequence tbody tbs /\ len tbs = n /\ starts v3 (tbody ++ rest).
Proof.
  intros B H. unfold check_tbs in H. oinv H. apply seq_head in K. apply obind_inv in H as (r & F & H). apply obind_inv in H as ([m k] & C & H).
  cbn [fst snd] in H. apply obind_inv in H as (w1 & U1 & H). apply uadd_inv in U1. apply obind_inv in H as (w2 & U2 & H). apply uadd_inv in U2.
  destruct (N.ltb_spec (len d) w2) as [|L]; [discriminate|].
  destruct (head_inv d r m k 0x30) as (enc & body & rest & Ed & He & Hb & Hk); auto; [lia|].
  apply obind_inv in H as (r2 & F2 & H). apply obind_inv in H as (n2 & V & H). apply version_inv in V.
  assert (n = w1 + m). { do 24 (try (apply obind_inv in H as (? & _ & H))). apply uadd_inv in H. exact H. }
  exists body, (0x30 :: enc ++ body), rest. split; [rewrite Ed; cbn [app]; now rewrite <- app_assoc|]. split; [exists enc; subst; auto|].
  split; [rewrite len_cons, len_app; lia|]. destruct (from_inv _ _ _ F2) as (p & E2 & Hp). rewrite Ed in E2.
  assert (S : (0x30 :: enc) ++ (body ++ rest) = p ++ r2) by (rewrite <- E2; reflexivity). apply app_len_split in S as [_ ->]; [exact V|]. rewrite len_cons. lia.
Qed.
Lemma alg_inv d asym (leaf : bool) n : bytes_ok d -> check_sig_alg d asym leaf = Ok n -> n <= len d ->
  exists abody alg rest o, d = alg ++ rest /\ sequence abody alg /\ len alg = n /\ oid_field (if leaf then oid_of asym else None) o /\ starts o (abody ++ rest).
Proof.
  intros B H L. unfold check_sig_alg in H. oinv H. apply seq_head in K. apply obind_inv in H as (r & F & H). apply obind_inv in H as ([m k] & C & H).
  cbn [fst snd] in H. apply obind_inv in H as (w1 & U1 & H). apply uadd_inv in U1. apply obind_inv in H as (r2 & F2 & H). apply obind_inv in H as (n2 & V & H).
  apply oid_inv in V as (o & Ho & V). apply uadd_inv in H.
  destruct (head_inv d r m k 0x30) as (enc & body & rest & Ed & He & Hb & Hk); auto; [lia|].
  exists body, (0x30 :: enc ++ body), rest, o. split; [rewrite Ed; cbn [app]; now rewrite <- app_assoc|]. split; [exists enc; subst; auto|].
  split; [rewrite len_cons, len_app; lia|]. split; [exact Ho|]. destruct (from_inv _ _ _ F2) as (p & E2 & Hp). rewrite Ed in E2.
  assert (S : (0x30 :: enc) ++ (body ++ rest) = p ++ r2) by (rewrite <- E2; reflexivity). apply app_len_split in S as [_ ->]; [exact V|]. rewrite len_cons. lia.
Qed.
Lemma tag_inv d n : bytes_ok d -> skip_tag d = Ok n -> exists t rest, d = t ++ rest /\ some_tlv t /\ len t = n.
Proof.
  intros B H. unfold skip_tag in H. destruct d as [|t d]; [discriminate|]. unfold skip_body in H. apply obind_inv in H as (r & F & H). apply obind_inv in H as ([m k] & C & H).
  cbn [fst snd] in H. apply obind_inv in H as (w1 & U1 & H). apply uadd_inv in U1. apply obind_inv in H as (w2 & U2 & H). apply uadd_inv in U2.
  destruct (N.ltb_spec (len (t :: d)) w2) as [|L]; [discriminate|]. assert (n = w2) as -> by congruence.
  destruct (head_inv (t :: d) r m k t) as (enc & body & rest & Ed & He & Hb & Hk); auto; [lia|].
  exists (t :: enc ++ body), rest. split; [rewrite Ed; cbn [app]; now rewrite <- app_assoc|]. split; [exists t, body, enc; subst; auto|]. rewrite len_cons, len_app. lia.
Qed.
Lemma cert_inv d asym n : bytes_ok d -> check_cert d asym = Ok n ->
  exists c rest, d = c ++ rest /\ len c = n /\ 1 <= n /\ certificate_shape (if len rest =? 0 then oid_of asym else None) rest c.
Proof.
  intros B H. unfold check_cert in H. oinv H. apply seq_head in K. apply obind_inv in H as (r & F & H). apply obind_inv in H as ([m k] & C & H).
  cbn [fst snd] in H. apply obind_inv in H as (w1 & U1 & H). apply uadd_inv in U1. apply obind_inv in H as (e & U2 & H). apply uadd_inv in U2. cbv zeta in H.
  apply obind_inv in H as (r2 & F2 & H). apply obind_inv in H as (nt & T & H). apply obind_inv in H as (w2 & U3 & H). apply uadd_inv in U3.
  apply obind_inv in H as (r3 & F3 & H). apply obind_inv in H as (na & A & H). apply obind_inv in H as (w3 & U4 & H). apply uadd_inv in U4.
  apply obind_inv in H as (r4 & F4 & H). apply obind_inv in H as (ns & G & H). apply obind_inv in H as (w4 & U5 & H). apply uadd_inv in U5.
  destruct (N.eqb_spec w4 e) as [E|]; [|discriminate]. assert (n = w4) as -> by congruence. clear H.
  destruct (from_inv _ _ _ F2) as (p2 & D2 & L2). destruct (from_inv _ _ _ F3) as (p3 & D3 & L3). destruct (from_inv _ _ _ F4) as (p4 & D4 & L4).
  assert (B2 : bytes_ok r2) by (rewrite D2 in B; now apply bytes_okr in B). assert (B3 : bytes_ok r3) by (rewrite D3 in B; now apply bytes_okr in B).
  assert (B4 : bytes_ok r4) by (rewrite D4 in B; now apply bytes_okr in B).
  destruct (tag_inv _ _ B4 G) as (sig & rest & E4 & Hs & Ls).
  destruct (tbs_inv _ _ _ _ B2 T) as (tbody & tbs & x2 & E2 & Ht & Lt & Hv).
  assert (X2 : x2 = r3). { assert (S : (p2 ++ tbs) ++ x2 = p3 ++ r3) by (rewrite <- app_assoc, <- E2, <- D2; exact D3). apply app_len_split in S as [_ S]; [exact S|rewrite len_app; lia]. }
  subst x2.
  assert (La : na <= len r3). { assert (len d = w2 + len r3) by (rewrite D3 at 1; rewrite len_app; lia). assert (len d = w3 + len r4) by (rewrite D4 at 1; rewrite len_app; lia). lia. }
  destruct (alg_inv _ _ _ _ B3 A La) as (abody & alg & x3 & o & E3 & Ha & Lg & Ho & Hst).
  assert (X3 : x3 = r4). { assert (S : (p3 ++ alg) ++ x3 = p4 ++ r4) by (rewrite <- app_assoc, <- E3, <- D3; exact D4). apply app_len_split in S as [_ S]; [exact S|rewrite len_app; lia]. }
  subst x3.
  assert (Ld : len d = w1 + len r2) by (rewrite D2 at 1; rewrite len_app; lia).
  assert (Lr2 : len r2 = nt + (na + (ns + len rest))) by (rewrite E2, E3, E4, !len_app; lia).
  destruct (head_inv d r m k 0x30) as (enc & body & rest' & Ed & He & Hb & Hk); auto; [lia|].
  assert (S : (0x30 :: enc) ++ (body ++ rest') = p2 ++ r2) by (rewrite <- D2, Ed; reflexivity).
  apply app_len_split in S as [Ep S]; [|rewrite len_cons; lia]. rewrite E2, E3, E4 in S.
  assert (S' : body ++ rest' = (tbs ++ alg ++ sig) ++ rest) by (rewrite S, <- !app_assoc; reflexivity). apply app_len_split in S' as [-> ->]; [|rewrite !len_app; lia].
  exists (0x30 :: enc ++ tbs ++ alg ++ sig), rest. split; [rewrite Ed; cbn [app]; rewrite <- !app_assoc; reflexivity|].
  split; [rewrite len_cons, !len_app in *; lia|]. split; [lia|].
  exists tbody, tbs, abody, alg, sig, o. split; [exact Ht|]. split; [exact Ha|]. split; [exact Hs|]. split; [exists enc; split; [rewrite Hb; exact He|reflexivity]|].
  rewrite E3, E4 in Hv. rewrite E4 in Hst. split; [exact Hv|]. split; [|exact Hst].
  replace (len rest =? 0) with (len d =? e); [exact Ho|]. destruct (N.eqb_spec (len rest) 0) as [Z|Z]; [apply N.eqb_eq|apply N.eqb_neq]; lia.
Qed.
Lemma loop_inv asym fuel : forall chain w count n, bytes_ok chain -> w <= len chain -> chain_loop fuel chain asym w count = Ok n ->
  exists pre certs, chain = pre ++ concat certs /\ len pre = w /\ chain_shape (oid_of asym) certs /\ n = count + len certs.
Proof.
  induction fuel as [|fuel IH]; intros chain w count n B L H; cbn [chain_loop] in H.
  - destruct (N.ltb_spec w (len chain)) as [|L2]; [discriminate|]. destruct (N.eqb_spec w (len chain)) as [E|]; [|discriminate].
    exists chain, []. cbn [concat]. rewrite app_nil_r. repeat split; auto; [constructor|]. replace n with count by congruence. unfold len. cbn [length]. lia.
  - destruct (N.ltb_spec w (len chain)) as [L1|L2].
    + apply obind_inv in H as (r & F & H). apply obind_inv in H as (m & C & H). apply obind_inv in H as (w' & U & H). apply uadd_inv in U.
      destruct (from_inv _ _ _ F) as (pre & Ec & Lp). assert (Br : bytes_ok r) by (rewrite Ec in B; now apply bytes_okr in B).
      destruct (cert_inv _ _ _ Br C) as (c & rest & Er & Lc & L0 & Sh).
      destruct (IH chain w' (count + 1) n B) as (pre' & certs & Ec' & Lp' & Hs & Hn); [rewrite Ec, Er, !len_app; lia|exact H|].
      assert (S : (pre ++ c) ++ rest = pre' ++ concat certs) by (rewrite <- app_assoc, <- Er, <- Ec; exact Ec'). apply app_len_split in S as [<- ->]; [|rewrite len_app; lia].
      exists pre, (c :: certs). split; [rewrite Ec', <- app_assoc; reflexivity|]. split; [exact Lp|]. split; [|rewrite len_cons; lia].
      destruct certs as [|c2 cs]; [constructor; exact Sh|]. constructor; [|discriminate|exact Hs].
      destruct (N.eqb_spec (len (concat (c2 :: cs))) 0) as [Z|Z]; [|exact Sh]. exfalso.
      assert (1 <= len c2); [|cbn [concat] in Z; rewrite len_app in Z; lia].
      inversion Hs as [|? X|? ? X]; destruct X as (? & ? & ? & ? & ? & ? & _ & _ & _ & (? & _ & E3) & _); rewrite E3, len_cons; lia.
    + destruct (N.eqb_spec w (len chain)) as [E|]; [|discriminate].
      exists chain, []. cbn [concat]. rewrite app_nil_r. repeat split; auto; [constructor|]. replace n with count by congruence. unfold len. cbn [length]. lia.
Qed.
(** the fuel is not exhausted: more fuel changes nothing *)
Lemma loop_fuel asym fuel : forall fuel' chain w count, bytes_ok chain -> (length chain <= fuel + N.to_nat w)%nat -> (fuel <= fuel')%nat ->
  chain_loop fuel' chain asym w count = chain_loop fuel chain asym w count.
Proof.
  induction fuel as [|fuel IH]; intros fuel' chain w count B L Lf.
  - destruct fuel'; cbn [chain_loop]; rewrite (proj2 (N.ltb_ge _ _)) by (unfold len; lia); reflexivity.
  - destruct fuel' as [|fuel']; [lia|]. cbn [chain_loop]. destruct (N.ltb_spec w (len chain)) as [L1|L2]; [|reflexivity].
    destruct (from w chain) as [r| |] eqn:F; try reflexivity. cbn [obind]. destruct (check_cert r asym) as [m| |] eqn:C; try reflexivity. cbn [obind].
    destruct (uadd w m) as [w'| |] eqn:U; try reflexivity. cbn [obind]. apply uadd_inv in U. destruct (from_inv _ _ _ F) as (pre & Ec & Lp).
    destruct (cert_inv _ _ _ (bytes_okr pre r ltac:(now rewrite <- Ec)) C) as (_ & _ & _ & _ & L0 & _). apply IH; [exact B|lia|lia].
Qed.

(** ** finding a certificate in a chain *)
Lemma blob_len c : blob c -> 4 <= len c. Proof. intros (hi & lo & body & -> & H). rewrite !len_cons. lia. Qed.
Lemma get_step c rest pre fuel index n : blob c ->
  cert_loop (S fuel) (pre ++ c ++ rest) index (len pre) n =
    if (n =? index)%Z then Ok (len pre, len pre + len c)
    else if (len rest =? 0) && (index =? -1)%Z then Ok (len pre, len pre + len c)
    else cert_loop fuel (pre ++ c ++ rest) index (len pre + len c) (n + 1).
Proof.
  intros (hi & lo & body & -> & H). cbn [cert_loop]. rewrite (proj2 (N.ltb_ge _ _)) by (rewrite !len_app; lia).
  rewrite (proj2 (N.ltb_ge _ _)) by (rewrite !len_app, !len_cons; lia).
  unfold len at 1. rewrite Nat2N.id, skipn_app, skipn_all, Nat.sub_diag. cbn [skipn app].
  change (0x30 =? 0x30) with true. change (0x82 =? 0x82) with true. cbn [negb orb]. cbv zeta.
  assert (Lc : len (48 :: 130 :: hi :: lo :: body) = hi * 256 + lo + 4) by (rewrite !len_cons; lia).
  change (48 :: 130 :: hi :: lo :: body ++ rest) with ((48 :: 130 :: hi :: lo :: body) ++ rest). set (c := 48 :: 130 :: hi :: lo :: body) in *. clearbody c.
  rewrite <- Lc. rewrite (proj2 (N.ltb_ge _ _)) by (rewrite !len_app; lia).
  replace (len pre + len c =? len (pre ++ c ++ rest)) with (len rest =? 0); [reflexivity|].
  rewrite !len_app. destruct (N.eqb_spec (len rest) 0); symmetry; [apply N.eqb_eq|apply N.eqb_neq]; lia.
Qed.
(** the [i]-th certificate of a chain of certificates *)
Lemma get_loop_nth : forall l1 c l2 fuel pre n index, Forall blob l1 -> blob c -> (index = n + Z.of_nat (length l1))%Z -> (0 <= n)%Z -> (length l1 < fuel)%nat ->
  cert_loop fuel (pre ++ concat l1 ++ c ++ l2) index (len pre) n = Ok (len (pre ++ concat l1), len (pre ++ concat l1) + len c).
Proof.
  induction l1 as [|x l1 IH]; intros c l2 fuel pre n index F C I P Lf.
  - cbn [concat]. destruct fuel as [|fuel]; [cbn in Lf; lia|]. cbn [app]. rewrite get_step by exact C. replace (n =? index)%Z with true by (symmetry; apply Z.eqb_eq; cbn in I; lia). now rewrite app_nil_r.
  - apply Forall_cons_iff in F as [Fx F]. cbn [concat]. destruct fuel as [|fuel]; [cbn in Lf; lia|]. rewrite <- !app_assoc, get_step by exact Fx. cbn [length] in I, Lf.
    replace (n =? index)%Z with false by (symmetry; apply Z.eqb_neq; lia). replace (index =? -1)%Z with false by (symmetry; apply Z.eqb_neq; lia). rewrite Bool.andb_false_r.
    rewrite <- len_app. replace (pre ++ x ++ concat l1 ++ c ++ l2) with ((pre ++ x) ++ concat l1 ++ c ++ l2) by (now rewrite <- app_assoc).
    rewrite IH by (auto; lia). now rewrite <- !app_assoc.
Qed.
(** the last one *)
Lemma get_loop_last : forall l1 c fuel pre n, Forall blob l1 -> blob c -> (0 <= n)%Z -> (length l1 < fuel)%nat ->
  cert_loop fuel (pre ++ concat l1 ++ c) (-1) (len pre) n = Ok (len (pre ++ concat l1), len (pre ++ concat l1) + len c).
Proof.
  induction l1 as [|x l1 IH]; intros c fuel pre n F C P Lf.
  - cbn [concat]. destruct fuel as [|fuel]; [cbn in Lf; lia|]. cbn [app]. assert (S := get_step c [] pre fuel (-1) n C). rewrite app_nil_r in S. rewrite S.
    replace (n =? -1)%Z with false by (symmetry; apply Z.eqb_neq; lia). now rewrite app_nil_r.
  - apply Forall_cons_iff in F as [Fx F]. cbn [concat]. destruct fuel as [|fuel]; [cbn in Lf; lia|]. rewrite <- !app_assoc, get_step by exact Fx. cbn [length] in Lf.
    replace (n =? -1)%Z with false by (symmetry; apply Z.eqb_neq; lia). assert (K := blob_len _ C).
    rewrite (proj2 (N.eqb_neq _ _)) by (rewrite len_app; lia). cbn [andb]. rewrite <- len_app. replace (pre ++ x ++ concat l1 ++ c) with ((pre ++ x) ++ concat l1 ++ c) by (now rewrite <- app_assoc).
    rewrite IH by (auto; lia). now rewrite <- !app_assoc.
Qed.
(** one iteration, whatever the data *)
Lemma get_cases fuel chain index w n r : bytes_ok chain -> w <= len chain -> cert_loop (S fuel) chain index w n = r ->
  r = Err ST_INVALID_CERT \/
  exists pre c rest, chain = pre ++ c ++ rest /\ len pre = w /\ blob c.
Proof.
  intros B L <-. cbn [cert_loop]. rewrite (proj2 (N.ltb_ge _ _)) by lia. destruct (N.ltb_spec (len chain - w) 4) as [|L4]; [auto|].
  destruct (split_len chain w L) as (pre & d & -> & Lp). subst w. unfold len at 1. rewrite Nat2N.id, skipn_app, skipn_all, Nat.sub_diag. cbn [skipn app].
  destruct d as [|t [|l0 [|hi [|lo d]]]]; auto. destruct (N.eqb_spec t 0x30) as [->|]; cbn [negb orb]; [|auto]. destruct (N.eqb_spec l0 0x82) as [->|]; cbn [negb orb]; [|auto]. cbv zeta.
  destruct (N.ltb_spec (len (pre ++ 48 :: 130 :: hi :: lo :: d) - len pre) (hi * 256 + lo + 4)) as [|L5]; [auto|]. right.
  rewrite len_app, !len_cons in L5. destruct (split_len d (hi * 256 + lo)) as (body & rest & -> & Lb); [lia|].
  exists pre, (48 :: 130 :: hi :: lo :: body), rest. split; [reflexivity|]. split; [reflexivity|]. exists hi, lo, body. auto.
Qed.
Lemma get_inv index fuel : forall chain w n, bytes_ok chain -> w <= len chain -> (len chain < N.of_nat fuel + w) -> (0 <= n)%Z ->
  match cert_loop fuel chain index w n with
  | Panic => False
  | Err e => e = ST_INVALID_CERT
  | Ok (a, b) => exists pre mid c post, chain = pre ++ concat mid ++ c ++ post /\ len pre = w /\ Forall blob mid /\ blob c /\
      a = len (pre ++ concat mid) /\ b = a + len c /\
      ((index = n + Z.of_nat (length mid))%Z \/ (index = -1)%Z /\ post = [])
  end.
Proof.
  induction fuel as [|fuel IH]; intros chain w n B L Lf P; [lia|].
  destruct (get_cases fuel chain index w n _ B L eq_refl) as [->|(pre & c & rest & -> & <- & C)]; [reflexivity|]. rewrite get_step by exact C.
  destruct (Z.eqb_spec n index) as [E|N0]; [exists pre, [], c, rest; cbn [concat app length]; rewrite app_nil_r; repeat split; auto; left; lia|].
  destruct (N.eqb_spec (len rest) 0) as [E0|N1]; cbn [andb]; [destruct (Z.eqb_spec index (-1)) as [E1|N2]|].
  - exists pre, [], c, rest. cbn [concat app length]. rewrite app_nil_r. repeat split; auto. right. split; [exact E1|]. destruct rest; [reflexivity|rewrite len_cons in E0; lia].
  - assert (K := blob_len _ C). specialize (IH (pre ++ c ++ rest) (len pre + len c) (n + 1)%Z B). rewrite !len_app in *. specialize (IH ltac:(lia) ltac:(lia) ltac:(lia)).
    destruct (cert_loop fuel _ _ _ _) as [[a b]|e|]; [|exact IH|exact IH]. destruct IH as (p & mid & c2 & post & Ec & Lp & Fm & C2 & -> & -> & X).
    assert (S : (pre ++ c) ++ rest = p ++ concat mid ++ c2 ++ post) by (rewrite <- app_assoc; exact Ec). apply app_len_split in S as [<- ->]; [|rewrite len_app; lia].
    exists pre, (c :: mid), c2, post. cbn [concat length]. rewrite <- !app_assoc. repeat split; auto. destruct X as [X|X]; [left; lia|now right].
  - assert (K := blob_len _ C). specialize (IH (pre ++ c ++ rest) (len pre + len c) (n + 1)%Z B). rewrite !len_app in *. specialize (IH ltac:(lia) ltac:(lia) ltac:(lia)).
    destruct (cert_loop fuel _ _ _ _) as [[a b]|e|]; [|exact IH|exact IH]. destruct IH as (p & mid & c2 & post & Ec & Lp & Fm & C2 & -> & -> & X).
    assert (S : (pre ++ c) ++ rest = p ++ concat mid ++ c2 ++ post) by (rewrite <- app_assoc; exact Ec). apply app_len_split in S as [<- ->]; [|rewrite len_app; lia].
    exists pre, (c :: mid), c2, post. cbn [concat length]. rewrite <- !app_assoc. repeat split; auto. destruct X as [X|X]; [left; lia|now right].
Qed.
