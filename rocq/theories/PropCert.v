(** C46, C58. *)
From Verif Require Import Bytes BytesFacts Status CertOps X509 SpecDer X509Proofs.
From Coq Require Import Lia.
Local Open Scope N_scope.

(** looking a certificate up never panics and always ends; what it returns is inside the chain, is a
    whole certificate, and is the one asked for: the [i]-th, or with -1 the one that ends the chain *)
Theorem C46_lookup_is_in_bounds : forall chain index, bytes_ok chain ->
  match get_cert chain index with
  | Panic => False
  | Err e => e = ST_INVALID_CERT
  | Ok (a, b) => exists before c after,
      chain = concat before ++ c ++ after /\ Forall blob before /\ blob c /\
      a = len (concat before) /\ b = a + len c /\
      (index = Z.of_nat (length before) \/ index = (-1)%Z /\ after = [])
  end.
Proof.
  intros chain index B. assert (H := get_inv index (S (length chain)) chain 0 0 B). unfold get_cert.
  specialize (H ltac:(lia) ltac:(unfold len; lia) ltac:(lia)). destruct (cert_loop _ _ _ _ _) as [[a b]|e|]; [|exact H|exact H].
  destruct H as (pre & mid & c & post & E & Lp & Fm & C & -> & -> & X). destruct pre as [|x pre]; [|rewrite len_cons in Lp; lia].
  cbn [app] in *. exists mid, c, post. repeat split; auto.
Qed.
Print Assumptions C46_lookup_is_in_bounds.

(** and in a chain of certificates it finds every one of them, and the last *)
Theorem C46_lookup_finds : forall before c after, Forall blob before -> blob c ->
  let at_ := len (concat before) in
  get_cert (concat before ++ c ++ after) (Z.of_nat (length before)) = Ok (at_, at_ + len c) /\
  (after = [] -> get_cert (concat before ++ c ++ after) (-1) = Ok (at_, at_ + len c)).
Proof.
  intros before c after F C. cbv zeta.
  assert (L : (length before <= length (concat before))%nat).
  { clear C. induction F as [|x l X _ IH]; cbn [concat length]; [lia|]. rewrite app_length. assert (K := blob_len _ X). unfold len in K. lia. }
  split; unfold get_cert.
  - rewrite (get_loop_nth before c after _ [] 0%Z (Z.of_nat (length before)) F C); [reflexivity|lia|lia|]. rewrite !app_length. lia.
  - intros ->. rewrite app_nil_r. rewrite (get_loop_last before c _ [] 0%Z F C); [reflexivity|lia|]. rewrite !app_length. lia.
Qed.
Print Assumptions C46_lookup_finds.

(** the format check accepts every chain of well-formed X.509v3 certificates whose last one uses the
    negotiated algorithm, and counts them *)
Theorem C46_wellformed_chains_accepted : forall asym certs, certificates (oid_of asym) certs ->
  len (concat certs) < USIZE -> check_chain (concat certs) asym = Ok (len certs).
Proof.
  intros asym certs H L. unfold check_chain. assert (K := loop_app asym certs H (length (concat certs)) [] 0 L (certs_count _ _ H)). exact K.
Qed.
Print Assumptions C46_wellformed_chains_accepted.

(** what it accepts is a sequence of certificates that fills the chain, the last one with the
    negotiated algorithm *)
Theorem C46_accepted_chains_tile : forall chain asym n, bytes_ok chain -> check_chain chain asym = Ok n ->
  exists certs, chain = concat certs /\ n = len certs /\ chain_shape (oid_of asym) certs.
Proof.
  intros chain asym n B H. destruct (loop_inv asym _ chain 0 0 n B ltac:(lia) H) as (pre & certs & E & Lp & S & Hn).
  destruct pre as [|x pre]; [|rewrite len_cons in Lp; lia]. exists certs. cbn [app] in E. repeat split; auto.
Qed.
Print Assumptions C46_accepted_chains_tile.

(** the walk over the chain ends: no more iterations than bytes are needed *)
Theorem C46_format_check_terminates : forall chain asym more, bytes_ok chain ->
  chain_loop (length chain + more) chain asym 0 0 = check_chain chain asym.
Proof. intros chain asym more B. unfold check_chain. apply loop_fuel; [exact B|lia|lia]. Qed.
Print Assumptions C46_format_check_terminates.

(** ** a concrete chain of two certificates *)
Definition ex_alg : bytes := [0x30; 0x0A; 6; 8; 0x2a; 0x86; 0x48; 0xce; 0x3d; 0x04; 0x03; 0x02].
Definition ex_tbs : bytes := [0x30; 28] ++ v3 ++ [2; 1; 7] ++ ex_alg ++ [0x30; 0] ++ [0x30; 0] ++ [0x30; 0] ++ [0x30; 0].
Definition ex_cert : bytes := [0x30; 0x82; 0; 46] ++ ex_tbs ++ ex_alg ++ [3; 2; 0; 9].
Lemma short_ok tag body : len body < 128 -> tlv tag body (tag :: len body :: body).
Proof. intro H. exists [len body]. split; [now constructor|reflexivity]. Qed.
Lemma ex_alg_ok want : want = None \/ want = Some OID_ECDSA256 -> algorithm want ex_alg.
Proof.
  intro H. exists (6 :: 8 :: OID_ECDSA256), []. split.
  - exists OID_ECDSA256. split; [reflexivity|]. split; [reflexivity|]. destruct H as [->| ->]; [exact I|reflexivity].
  - exact (short_ok 0x30 (6 :: 8 :: OID_ECDSA256) ltac:(reflexivity)).
Qed.
Lemma ex_cert_ok want : want = None \/ want = Some OID_ECDSA256 -> certificate want ex_cert.
Proof.
  intro H. assert (Hn : some_sequence [0x30; 0]) by (exists []; exact (short_ok 0x30 [] ltac:(reflexivity))).
  exists [2; 1; 7], ex_alg, [0x30; 0], [0x30; 0], [0x30; 0], [0x30; 0], [], ex_tbs, ex_alg, [3; 2; 0; 9].
  split; [exists 2, [7]; exact (short_ok 2 [7] ltac:(reflexivity))|]. split; [now apply ex_alg_ok|]. do 4 (split; [exact Hn|]).
  split; [exact (short_ok 0x30 (v3 ++ [2; 1; 7] ++ ex_alg ++ [0x30; 0] ++ [0x30; 0] ++ [0x30; 0] ++ [0x30; 0]) ltac:(reflexivity))|].
  split; [now apply ex_alg_ok|]. split; [exists 3, [0; 9]; exact (short_ok 3 [0; 9] ltac:(reflexivity))|].
  exists [0x82; 0; 46]. split; [|reflexivity]. apply (dl_long 46 2 [0; 46]); [lia|reflexivity|reflexivity].
Qed.
Example C46_case :
  certificates (oid_of 0x10) [ex_cert; ex_cert] /\ check_chain (ex_cert ++ ex_cert) 0x10 = Ok 2 /\
  blob ex_cert /\ get_cert (ex_cert ++ ex_cert) (-1) = Ok (50, 100) /\ get_cert (ex_cert ++ ex_cert) 1 = Ok (50, 100) /\
  check_chain (ex_cert ++ ex_cert) 0x80 = Err ST_VERIF_FAIL.
Proof.
  split; [repeat constructor; apply ex_cert_ok; auto|]. split; [vm_compute; reflexivity|].
  split; [exists 0, 46, (ex_tbs ++ ex_alg ++ [3; 2; 0; 9]); split; reflexivity|]. repeat split; vm_compute; reflexivity.
Qed.

(** ** the format check can panic: a certificate whose length is said to take nine octets, and one
    whose algorithm field claims to extend beyond the end of the data *)
Theorem C58_format_check_panics_refuted :
  exists chain1 chain2, bytes_ok chain1 /\ bytes_ok chain2 /\ len chain2 < 128 /\
    forall asym, check_chain chain1 asym = Panic /\ (oid_of asym = Some OID_ECDSA256 -> check_chain chain2 asym = Panic).
Proof.
  exists ([0x30; 0x89] ++ [0; 0; 0; 0; 0; 0; 0; 0; 0]), ([0x30; 0x82; 0; 46] ++ ex_tbs ++ [0x30; 0x7F] ++ skipn 2 ex_alg ++ [3; 2; 0; 9]).
  split; [repeat constructor|]. split; [repeat constructor|]. split; [reflexivity|]. intro asym. split; [reflexivity|].
  intro H. assert (A : asym = 0x10).
  { revert H. unfold oid_of. repeat match goal with |- context [match ?x with _ => _ end] => destruct x end; try discriminate; intros; reflexivity. }
  rewrite A. vm_compute. reflexivity.
Qed.
Print Assumptions C58_format_check_panics_refuted.
