(** C50 (DIGESTS), one provisioned slot; C57 refuted: several provisioned slots. *)
From Verif Require Import Bytes BytesFacts Status Codec Parse ParseProofs Algo Monad.
From Verif Require Import MsgConn MsgAuth MsgSession MsgOther Message Opaque Transport Crypto KeySchedule Session Signing CertOps ChainVerify Context
  RspBase RspConn RspSess RspEncap Responder StRel RspFrame RspCalm RspOpcode RspSend SpecResponder SpecFinish RspPhase RspPass RspSlots RspSize RspTable RspIso RspEst RspDeliver RspRefuse
  ToyCrypto PropPhase ExRun PropTable PropReset PropSess.
From Verif Require Import TransportProofs.
From Coq Require Import List Lia.
Local Open Scope N_scope.

(** only certificate slot [k] is filled, with [chain] *)
Definition only_slot (k : nat) (chain : bytes) : list (option bytes) := repeat None k ++ Some chain :: repeat None (7 - k).
(** the DIGESTS message for slot mask [mask] with the given digests *)
Definition digests_message (v mask : N) (ds : list bytes) : bytes := [v; 0x01; 0; mask] ++ concat ds.

Lemma slot_cases k : (k < 8)%nat -> k = 0%nat \/ k = 1%nat \/ k = 2%nat \/ k = 3%nat \/ k = 4%nat \/ k = 5%nat \/ k = 6%nat \/ k = 7%nat.
Proof. lia. Qed.
Lemma hash_cases a n : hash_size a = Some n -> (a = 1 /\ n = 32) \/ (a = 2 /\ n = 48) \/ (a = 4 /\ n = 64).
Proof.
  unfold hash_size. destruct a as [|[[?|?|]|[?|[?|?|]|]|]]; intro H; try discriminate; injection H as <-; auto.
Qed.
Lemma only_mask k chain : (k < 8)%nat -> mask_from 0 (only_slot k chain) = 2 ^ N.of_nat k.
Proof. intro H. apply slot_cases in H. destruct H as [-> |[-> |[-> |[-> |[-> |[-> |[-> | ->]]]]]]]; reflexivity. Qed.
Lemma emit_digests c v k n : (k < 8)%nat -> c_hash_size c = Some n ->
  emit (enc_message c (digests_msg v (2 ^ N.of_nat k) n)) [] = Some (true, [v; 1; 0; 2 ^ N.of_nat k] ++ fill (N.to_nat n) 0xff).
Proof.
  intros Hk Hn. unfold digests_msg, enc_message. cbn [m_payload m_header]. unfold enc_payload, enc_digests_rsp. cbn [dg_mask dg_digests].
  pose proof Hn as Hc. unfold c_hash_size in Hn. apply hash_cases in Hn. apply slot_cases in Hk.
  destruct Hk as [-> |[-> |[-> |[-> |[-> |[-> |[-> | ->]]]]]]]; destruct Hn as [[E ->]|[[E ->]|[E ->]]]; unfold enc_digest; rewrite Hc; reflexivity.
Qed.
Lemma patch_only cr a k chain w : (k < 8)%nat -> patch_digests cr a (only_slot k chain) w =
  match cr_hash cr a chain with None => Panic | Some h => if len w <? len h then Panic else Ok (patch (length w - length h) h w) end.
Proof.
  intro H. assert (L : forall n u, patch_digests cr a (repeat None n) u = Ok u) by (induction n; intro u; [reflexivity|apply IHn]).
  unfold only_slot. clear H. induction k as [|k IH].
  - cbn [repeat app patch_digests]. destruct (cr_hash cr a chain) as [h|]; [|reflexivity]. destruct (_ <? _); [reflexivity|apply L].
  - assert (R : forall n, patch_digests cr a (repeat None k ++ Some chain :: repeat None n) w = patch_digests cr a (repeat None k ++ [Some chain]) w).
    { clear -L. intro n. induction k; [|exact IHk]. cbn [repeat app patch_digests]. destruct (cr_hash cr a chain); [|reflexivity]. destruct (_ <? _); [reflexivity|]. now rewrite L. }
    change (repeat None (S k) ++ Some chain :: repeat None (7 - S k)) with (None :: (repeat None k ++ Some chain :: repeat None (7 - S k))). cbn [patch_digests].
    rewrite R, <- (R (7 - k)%nat). exact IH.
Qed.
Lemma patch_tail v m n h : length h = n -> patch (length ([v; 1; 0; m] ++ fill n 0xff) - length h) h ([v; 1; 0; m] ++ fill n 0xff) = [v; 1; 0; m] ++ h.
Proof.
  intro L. unfold fill. rewrite app_length, repeat_length. cbn [length]. unfold patch. replace (4 + n - length h)%nat with 4%nat by lia.
  rewrite firstn_app, firstn_all2 by (cbn; lia). replace (4 - length _)%nat with 0%nat by reflexivity. cbn [firstn]. rewrite app_nil_r.
  rewrite skipn_all2 by (rewrite app_length, repeat_length; cbn [length]; lia). now rewrite app_nil_r.
Qed.
(** what GET_DIGESTS is answered with *)
Definition good_answer (E : env) (x : ctx) (k : nat) (chain m : bytes) : Prop :=
  (exists c d, m = error_message (ver x) c d) \/
  (exists h, cr_hash (e_cr E) (n_hash (x_nego x)) chain = Some h /\ m = digests_message (ver x) (2 ^ N.of_nat k) [h]).
Lemma c_hash_nego x : c_hash_size (xc x) = hash_size (n_hash (x_nego x)). Proof. reflexivity. Qed.
Lemma calm_facts sid x y : calm sid x y -> x_nego y = x_nego x /\ x_my_chain y = x_my_chain x /\ ver y = ver x.
Proof. intros K. pose proof (calm_ver _ _ _ K). destruct K as [K _]. unfold outline in K. repeat split; congruence. Qed.
Lemma good_err E x k chain y c d : ver y = ver x -> forall w z, write_err_data c d [] y = (Ok w, z) -> good_answer E x k chain w.
Proof. intros V w z H. rewrite write_err_nil in H. left. exists c, d. replace w with (error_bytes (ver y) c d) by congruence. rewrite V. reflexivity. Qed.
Lemma append_b_again cr m m' x y r z : append_b cr m x = (Ok tt, y) -> append_b cr m' y = (r, z) -> r = Ok tt.
Proof.
  unfold append_b, append_m1m2. intros A B. assert (exists d, x_m1m2 y = Some d) as [d D].
  { destruct (x_m1m2 x); [|destruct (hash_ok _ _); [|discriminate]]; eexists; match type of A with (_, ?q) = _ => replace y with q by congruence end; reflexivity. }
  rewrite D in B. congruence.
Qed.
Lemma write_digest_good E sid b x k chain w y : digest_sizes (e_cr E) -> (k < 8)%nat -> x_my_chain x = only_slot k chain ->
  write_digest E sid b x = (Ok w, y) -> good_answer E x k chain w.
Proof.
  intros HD Hk Hm H. unfold write_digest in H. unfold sbind at 1, sget at 1 in H. destruct (negotiated x).
  2:{ exact (good_err E x k chain x _ _ eq_refl _ _ H). }
  unfold with_version in H. unfold sbind at 1, sget at 1 in H. destruct (read_header b) as [[h t]|]; [|exact (good_err E x k chain x _ _ eq_refl _ _ H)].
  destruct (negb _); [exact (good_err E x k chain x _ _ eq_refl _ _ H)|]. unfold sbind at 1, smod at 1 in H.
  destruct (calm_facts _ _ _ (calm_reset_buffer RC_GET_DIGESTS sid x)) as (N1 & M1 & V1). set (y1 := reset_buffer RC_GET_DIGESTS sid x) in *. clearbody y1.
  bi H. assert (y0 = y1) as -> by (unfold rd in P; destruct (dec_empty t); congruence). destruct v as [[[] rest]|]; [|exact (good_err E x k chain y1 _ _ V1 _ _ H)].
  clear P. unfold tryelse at 1, scatch at 1 in H. destruct (append_b_on E sid (used_of b rest) y1) as [[[]| |] y2] eqn:A1;
    assert (F2 : x_nego y2 = x_nego x /\ x_my_chain y2 = x_my_chain x /\ ver y2 = ver x)
      by (assert (C : calm None y1 y2) by (destruct sid; [unfold append_b_on, sret in A1; replace y2 with y1 by congruence; apply calm_pre|revert A1; unfold append_b_on, append_b; apply calm_append_m1m2]);
          destruct (calm_facts _ _ _ C) as (? & ? & ?); repeat split; congruence); destruct F2 as (N2 & M2 & V2).
  2:{ exact (good_err E x k chain y2 _ _ V2 _ _ H). }
  2:{ discriminate H. }
  unfold sbind at 1, sget at 1 in H. unfold sbind at 1, sunwrap at 1 in H. destruct (hash_size (n_hash (x_nego y2))) as [n|] eqn:Hn; [|discriminate H].
  unfold sret at 1 in H. cbv beta iota in H. rewrite M2, Hm, only_mask in H by exact Hk. unfold encode_or_err in H. unfold sbind at 1, wenc at 1 in H.
  rewrite (emit_digests _ _ k n Hk) in H by (rewrite c_hash_nego; exact Hn). cbv beta iota in H. cbn [fst snd] in H.
  rewrite (patch_only _ _ k chain _ Hk) in H. rewrite N2 in *. destruct (cr_hash (e_cr E) (n_hash (x_nego x)) chain) as [d|] eqn:Hd; [|discriminate H].
  pose proof (HD _ _ _ Hd) as Ln. assert (Ld : length d = N.to_nat n) by (unfold len in Ln; rewrite Hn in Ln; injection Ln as ->; lia).
  destruct (_ <? _); [discriminate H|]. rewrite (patch_tail _ _ _ d Ld) in H. unfold sbind at 1, sof at 1 in H. cbv beta iota in H.
  unfold then_append, tryelse, scatch in H. destruct (append_b_on E sid _ y2) as [r3 y3] eqn:A2.
  assert (r3 = Ok tt) as -> by (destruct sid; [unfold append_b_on, sret in A2; congruence|exact (append_b_again _ _ _ _ _ _ _ A1 A2)]).
  unfold sret in H. right. exists d. split; [exact Hd|]. rewrite V2 in H. unfold digests_message. cbn [concat]. rewrite app_nil_r. congruence.
Qed.
Lemma quiet_after op : rel quiet (after_send op).
Proof. unfold after_send. rl quiet_pre; try (apply rel_mod; intro; split; reflexivity); try apply quiet_on_sess. all: apply rel_mod; intro; destruct (_ <? _); split; reflexivity. Qed.
Lemma quiet_after_secured id op : rel quiet (after_secured_send id op).
Proof. unfold after_secured_send. rl quiet_pre; apply quiet_on_sess. Qed.
Lemma io_send_cases E t x r x' : io_send E t x = (r, x') -> x_sent x' = x_sent x /\ r <> Ok tt \/ x_sent x' = t :: x_sent x /\ r = Ok tt.
Proof.
  unfold io_send. destruct (e_send E (x_io x) t); intro H; match type of H with (_, ?y) = _ => assert (x' = y) as -> by congruence end; [left|right]; split; try reflexivity; congruence.
Qed.
Definition one_reply (E : env) (x x' : ctx) (P : bytes -> Prop) : Prop :=
  x_sent x' = x_sent x \/ exists t m, x_sent x' = t :: x_sent x /\ carries E t m false /\ P m.
Lemma send_raw_one E w x r x' (P : bytes -> Prop) : P w -> send_raw E w x = (r, x') -> one_reply E x x' P.
Proof.
  intros Hp H. unfold send_raw in H. unfold sbind at 1, sof at 1 in H. destruct (tr_encap _ _ w false) as [t| |] eqn:T; [|left; congruence|left; congruence].
  unfold sbind at 1 in H. destruct (io_send E t x) as [o y] eqn:I. destruct (io_send_cases _ _ _ _ _ I) as [[A B]|[A ->]].
  - left. destruct o as [[]| |]; [congruence|replace x' with y by congruence; exact A|replace x' with y by congruence; exact A].
  - right. exists t, w. split; [|split; [now constructor|exact Hp]]. rewrite <- A. cbv beta iota in H.
    assert (Q : rel quiet (op <-- sunwrap (opcode w) ;; after_send op)%st) by (rl quiet_pre; apply quiet_after). exact (proj1 (Q _ _ _ H)).
Qed.
Lemma send_message_one E w x r x' (P : bytes -> Prop) : P w -> P (error_message (ver x) 0xD 0) -> send_message E w x = (r, x') -> one_reply E x x' P.
Proof.
  intros H1 H2 H. unfold send_message in H. unfold sbind at 1, sget at 1 in H. destruct (too_large x w); [|exact (send_raw_one E w x r x' P H1 H)].
  unfold sbind at 1, write_err in H. rewrite write_err_nil in H. cbv beta iota in H. destruct (too_large _ _); [unfold spanic in H; left; congruence|].
  exact (send_raw_one E _ x r x' P H2 H).
Qed.
Lemma send_secured_raw_one E id w x r x' (P : bytes -> Prop) : P w -> send_secured_raw E id w false x = (r, x') -> one_reply E x x' P.
Proof.
  intros Hp H. unfold send_secured_raw in H. unfold sbind at 1 in H. destruct (encode_secured_message E id w false false x) as [o y] eqn:Ec.
  pose proof (quiet_encode _ _ _ _ _ _ _ _ Ec) as [Q1 _]. destruct o as [t| |]; [|left; congruence|left; congruence].
  unfold sbind at 1 in H. destruct (io_send E t y) as [o z] eqn:I. destruct (io_send_cases _ _ _ _ _ I) as [[A B]|[A ->]].
  - left. destruct o as [[]| |]; [congruence|replace x' with z by congruence; congruence|replace x' with z by congruence; congruence].
  - right. exists t, w. split; [|split; [econstructor; exact Ec|exact Hp]]. rewrite <- Q1, <- A. cbv beta iota in H.
    assert (Q : rel quiet (op <-- sunwrap (opcode w) ;; after_secured_send id op)%st) by (rl quiet_pre; apply quiet_after_secured). exact (proj1 (Q _ _ _ H)).
Qed.
Lemma send_secured_one E id w x r x' (P : bytes -> Prop) : P w -> P (error_message (ver x) 0xD 0) -> send_secured_message E id w false x = (r, x') -> one_reply E x x' P.
Proof.
  intros H1 H2 H. unfold send_secured_message in H. unfold sbind at 1, sget at 1 in H. cbn [negb andb] in H. destruct (too_large x w); [|exact (send_secured_raw_one E id w x r x' P H1 H)].
  unfold sbind at 1, write_err in H. rewrite write_err_nil in H. cbv beta iota in H. destruct (too_large _ _); [unfold spanic in H; left; congruence|].
  exact (send_secured_raw_one E id _ x r x' P H2 H).
Qed.
Lemma quiet_write_digest E sid b : rel quiet (write_digest E sid b).
Proof. unfold write_digest, with_version, encode_or_err, then_append, append_b_on, append_b. rl quiet_pre; try apply quiet_append_m1m2; try (apply rel_mod; intro; apply quiet_reset_buffer). Qed.
Lemma handle_digest_good E sid b x k chain r x' : digest_sizes (e_cr E) -> (k < 8)%nat -> x_my_chain x = only_slot k chain ->
  handle_digest E sid b x = (r, x') -> one_reply E x x' (good_answer E x k chain).
Proof.
  intros HD Hk Hm H. unfold handle_digest in H. unfold sbind at 1 in H. destruct (write_digest E sid b x) as [o y] eqn:W.
  pose proof (quiet_write_digest _ _ _ _ _ _ W) as [Q1 _]. destruct o as [w| |]; [|left; congruence|left; congruence].
  pose proof (write_digest_good E sid b x k chain w y HD Hk Hm W) as Gd.
  assert (V : ver y = ver x) by (exact (calm_ver sid _ _ (calm_write_digest E sid b _ _ _ W))).
  unfold one_reply. rewrite <- Q1. assert (Pe : good_answer E x k chain (error_message (ver y) 0xD 0)) by (rewrite V; left; eauto).
  destruct sid; [exact (send_secured_one E _ w y r x' _ Gd Pe H)|exact (send_message_one E w y r x' _ Gd Pe H)].
Qed.
Lemma dispatch_digest E b : request_code b = Some 0x81 -> dispatch_message E b = handle_digest E None b.
Proof. intro H. destruct (code_header b _ H) as (h & t & Rh & Hh). unfold dispatch_message. rewrite Rh, Hh. reflexivity. Qed.

Theorem C50_digests_single_slot :
  forall E f b k chain x r x', digest_sizes (e_cr E) -> (k < 8)%nat -> x_my_chain x = only_slot k chain ->
  request_code b = Some 0x81 ->
  plain_message E f = Some b \/ (exists id s, delivered E f x id b false /\ get_sess id x = Some s /\ s_state s = SEstablished) ->
  process_frame E f x = (r, x') -> one_reply E x x' (good_answer E x k chain).
Proof.
  intros E f b k chain x r x' HD Hk Hm Rc [Pf|(id & s & D & G & St)] H.
  - rewrite (frame_plain E f b x Pf), (dispatch_digest E b Rc) in H. apply is_ok_inv in H as [r0 H]. exact (handle_digest_good E None b x k chain r0 x' HD Hk Hm H).
  - destruct (frame_delivered E f x id b false s D G) as (s1 & K1 & K2 & K3 & K4). rewrite K4 in H. clear K4 D.
    assert (S1 : s_state s1 = SEstablished) by (unfold skey in K1; congruence).
    destruct (calm_facts _ _ _ K3) as (N1 & M1 & V1). assert (Qy : x_sent (mod_sess id (fun _ => s1) x) = x_sent x) by reflexivity.
    set (y := mod_sess id (fun _ => s1) x) in *. clearbody y. apply is_ok_inv in H as [r0 H].
    unfold dispatch_secured in H. unfold sbind at 1, sget at 1 in H. rewrite K2, S1 in H.
    destruct (code_header b _ Rc) as (h & t & Rh & Hh). unfold dispatch_established in H. rewrite Rh, Hh in H. change (handle_digest E (Some id) b y = (r0, x')) in H.
    assert (HG : one_reply E y x' (good_answer E y k chain)) by (apply (handle_digest_good E (Some id) b y k chain r0 x'); [exact HD|exact Hk|congruence|exact H]).
    unfold one_reply, good_answer in *. rewrite Qy, N1, V1 in HG. exact HG.
Qed.
Print Assumptions C50_digests_single_slot.

(** ** several slots *)
(** the chains of the filled slots, in order *)
Definition filled (l : list (option bytes)) : list bytes := flat_map (fun o => match o with Some c => [c] | None => [] end) l.
Definition mask_of (l : list (option bytes)) : N := mask_from 0 l.
Definition good_digests (E : env) (x : ctx) (m : bytes) : Prop :=
  (exists c d, m = error_message (ver x) c d) \/
  (exists ds, map (cr_hash (e_cr E) (n_hash (x_nego x))) (filled (x_my_chain x)) = map Some ds /\ m = digests_message (ver x) (mask_of (x_my_chain x)) ds).
Definition digests_correct : Prop :=
  forall E f b x r x', digest_sizes (e_cr E) -> eight_slots x -> request_code b = Some 0x81 -> plain_message E f = Some b ->
  process_frame E f x = (r, x') -> one_reply E x x' (good_digests E x).
Lemma mctp_encap_shape room b s t : tr_encap mctp_transport room b s = Ok t -> t = (if s then 6 else 5) :: b.
Proof.
  cbn [tr_encap mctp_transport]. unfold mctp_encap, took. rewrite mctp_put_spec. destruct (zbuf room) as [|o tl]; [discriminate|].
  destruct (_ <? _)%nat; [discriminate|]. cbn [fst snd obind]. intro H.
  assert (t = firstn (1 + length b) (enum_get mctp_types (if s then MCTP_SECURED else MCTP_SPDM) :: b ++ skipn (length b) tl)) as -> by congruence.
  cbn [firstn Nat.add]. rewrite firstn_app, Nat.sub_diag, firstn_all. cbn [firstn]. rewrite app_nil_r. destruct s; reflexivity.
Qed.
Lemma mctp_carries E c b m : e_tr E = mctp_transport -> carries E (5 :: b) m c -> m = b.
Proof.
  intros T H. inversion H as [m0 H1|id m0 app y y' H1]; subst.
  - rewrite T in H1. apply mctp_encap_shape in H1. congruence.
  - exfalso. unfold encode_secured_message in H1. apply sbind_inv in H1 as (a & z & _ & H1). apply sbind_inv in H1 as (u & z1 & _ & H1).
    destruct (get_sess id u); [|discriminate H1]. apply sbind_inv in H1 as (e & z2 & _ & H1). unfold sof in H1. rewrite T in H1.
    destruct (tr_encap mctp_transport BUFFER_SIZE e true) as [t| |] eqn:R; try discriminate. apply mctp_encap_shape in R. cbv iota in R. congruence.
Qed.
Definition ex_multi : ctx := step f3 (step f2 (step [5; 0x10; 0x84; 0; 0] (ctx_new ex_config2 (repeat None 8) (Some (fill 100 7) :: Some (fill 90 9) :: repeat None 6) None))).
Definition f_digests : bytes := [5; 0x12; 0x81; 0; 0].
Definition multi_reply : bytes := tl (hd [] (x_sent (step f_digests ex_multi))).
Lemma multi_sent : x_sent (step f_digests ex_multi) = (5 :: multi_reply) :: x_sent ex_multi.
Proof. vm_compute. reflexivity. Qed.
(** the digests the reply should carry *)
Definition multi_hashes : list (option bytes) := map (cr_hash (e_cr ex_env) (n_hash (x_nego ex_multi))) (filled (x_my_chain ex_multi)).
Definition someb (o : option bytes) : bytes := match o with Some b => b | None => [] end.
Lemma somes_eq l ds : l = map Some ds -> ds = map someb l.
Proof. intros ->. rewrite map_map. cbn. symmetry. apply map_id. Qed.
Theorem C57_digests_of_several_slots_refuted : ~ digests_correct.
Proof.
  intro H. assert (P : process_frame ex_env f_digests ex_multi = (fst (process_frame ex_env f_digests ex_multi), step f_digests ex_multi)) by apply surjective_pairing.
  specialize (H ex_env f_digests (tl f_digests) ex_multi (fst (process_frame ex_env f_digests ex_multi)) (step f_digests ex_multi) toy_digest_sizes).
  assert (P1 : eight_slots ex_multi) by (vm_compute; reflexivity). assert (P2 : plain_message ex_env f_digests = Some (tl f_digests)) by (vm_compute; reflexivity).
  specialize (H P1 eq_refl P2 P). unfold one_reply in H. rewrite multi_sent in H. destruct H as [H|(t & m & H1 & H2 & H3)].
  - apply (f_equal (@length bytes)) in H. cbn in H. lia.
  - assert (t = 5 :: multi_reply) as -> by congruence. apply mctp_carries in H2; [|reflexivity]. subst m. destruct H3 as [(c & d & H3)|(ds & H3 & H4)].
    + apply (f_equal (@length N)) in H3. revert H3. assert (L : length multi_reply = 100%nat) by (vm_compute; reflexivity). rewrite L. discriminate.
    + fold multi_hashes in H3. apply somes_eq in H3. subst ds. apply (f_equal (fun l => bytes_eqb l multi_reply)) in H4.
      assert (R : bytes_eqb multi_reply multi_reply = true) by (apply bytes_eqb_eq; reflexivity). rewrite R in H4.
      assert (K : bytes_eqb (digests_message (ver ex_multi) (mask_of (x_my_chain ex_multi)) (map someb multi_hashes)) multi_reply = false) by (vm_compute; reflexivity).
      rewrite K in H4. exact (Bool.diff_true_false H4).
Qed.
Print Assumptions C57_digests_of_several_slots_refuted.
(** a connection with only slot 0 filled is answered by the one digest *)
Example C50_case : x_my_chain ex3 = only_slot 0 (fill 100 7) /\ plain_message ex_env f_digests = Some [0x12; 0x81; 0; 0] /\
  option_map (fun h => bytes_eqb (hd [] (x_sent (step f_digests ex3))) (5 :: digests_message 0x12 1 [h])) (cr_hash toy (n_hash (x_nego ex3)) (fill 100 7)) = Some true.
Proof. vm_compute. auto. Qed.
