(** C76, C77: what the responder's CHALLENGE_AUTH and MEASUREMENTS carry and sign. *)
From Verif Require Import Bytes BytesFacts Status Codec Parse ParseProofs Algo Monad MsgConn MsgAuth MsgSession MsgOther Message Opaque SpecMsg MsgProofs MsgRound MsgRound2.
From Verif Require Import Transport Crypto KeySchedule Session Signing CertOps ChainVerify Context SpecSession SignProofs
  RspBase RspConn RspSess RspEncap Responder StRel RspFrame RspCalm RspOpcode RspSend SpecResponder SpecFinish RspPhase RspPass RspSlots RspSize RspTable RspIso RspEst RspDeliver RspRefuse
  ToyCrypto PropPhase ExRun PropTable PropReset PropSess PropDigest SpecReply.
From Verif Require Import ReqTrans ReqMeas ReqTwin PropRetr PropAlgs PairTwin PropShare.
From Coq Require Import List Lia.
Local Open Scope N_scope.

Lemma drop_last_app (m z : bytes) n : len z = n -> drop_last n (m ++ z) = Ok m.
Proof.
  intro L. unfold drop_last. rewrite len_app. replace (n <=? len m + len z) with true by (symmetry; apply N.leb_le; lia).
  replace (N.to_nat (len m + len z - n)) with (length m + 0)%nat by (unfold len in *; lia). rewrite firstn_app_2. cbn [firstn]. rewrite app_nil_r. reflexivity.
Qed.
Lemma patch_last_app (m z s w : bytes) n : len z = n -> patch_last n s (m ++ z) = Ok w -> w = m ++ s.
Proof.
  intros L H. unfold patch_last in H. destruct (N.eqb_spec (len s) n) as [Ls|]; [|discriminate H]. cbn [andb] in H. destruct (_ <=? _); [|discriminate H].
  assert (length s = length z) as Lz by (unfold len in *; lia). assert (w = patch (length (m ++ z) - length s) s (m ++ z)) as -> by congruence.
  unfold patch. rewrite app_length, Lz. replace (length m + length z - length z)%nat with (length m) by lia. rewrite firstn_app, firstn_all, Nat.sub_diag. cbn [firstn]. rewrite app_nil_r.
  rewrite skipn_all2 by (rewrite app_length; lia). rewrite app_nil_r. reflexivity.
Qed.
Lemma used_split (a r : bytes) : used_of (a ++ r) r = a.
Proof. unfold used_of. rewrite app_length. replace (length a + length r - length r)%nat with (length a) by lia. rewrite firstn_app, firstn_all, Nat.sub_diag. cbn [firstn]. apply app_nil_r. Qed.
Lemma header_split b h r c : read_header b = Some (h, r) -> h_code h = c -> b = h_version h :: c :: r.
Proof.
  unfold read_header, dec_header. destruct b as [|v [|d b]]; intros H1 H2; try discriminate H1.
  assert (h = mkHeader v d /\ b = r) as [-> ->] by (split; cbn in H1; congruence). cbn in *. congruence.
Qed.
Lemma v_of_bytes (s : bytes) : len s <= 64 -> v_bytes (v_of 64 s) = s.
Proof. intro L. unfold v_bytes, v_of, pad_to. cbn [v_size v_data]. unfold len in *. rewrite Nat2N.id. rewrite firstn_all2 with (n := 64%nat) by lia. rewrite firstn_app, firstn_all, Nat.sub_diag. cbn [firstn]. apply app_nil_r. Qed.
Lemma filler n c : n <= 512 -> v_bytes (mkV n (fill 512 c)) = fill (N.to_nat n) c.
Proof.
  intro L. unfold v_bytes. cbn [v_size v_data]. unfold fill. assert (Hn : (N.to_nat n <= 512)%nat) by lia. revert Hn. generalize (N.to_nat n) as k. generalize 512%nat. clear.
  induction n as [|n IH]; intros [|k] Hn; try reflexivity; [lia|]. cbn [repeat firstn]. rewrite IH by lia. reflexivity.
Qed.
Lemma asym_le a n : asym_size a = Some n -> n <= 512.
Proof. unfold asym_size. destruct a as [|p]; [discriminate|]. repeat (destruct p as [p|p|]; try discriminate); intro H; injection H as <-; lia. Qed.
Lemma hash_le a n : hash_size a = Some n -> n <= 64.
Proof. intro H. apply hash_cases in H. destruct H as [[_ ->]|[[_ ->]|[_ ->]]]; lia. Qed.
Lemma fill_len n c : len (fill (N.to_nat n) c) = n. Proof. unfold len, fill. rewrite repeat_length. lia. Qed.
Lemma xw_dig c s n : c_hash_size c = Some n -> len s = n -> n <= 64 -> xwire (enc_digest c (v_of 64 s)) = Some s.
Proof.
  intros Hn Ls Ln. unfold enc_digest. rewrite Hn. replace (v_size (v_of 64 s)) with n by (unfold v_of; cbn [v_size]; congruence). rewrite N.eqb_refl. cbn [x_assert app].
  rewrite xwire_arr_cnt. rewrite v_of_bytes by lia. reflexivity.
Qed.
Lemma xw_sigfill c n f : c_asym_size c = Some n -> xwire (enc_signature c (mkV n (fill 512 f))) = Some (fill (N.to_nat n) f).
Proof.
  intro Hn. unfold enc_signature. rewrite Hn. cbn [v_size]. rewrite N.eqb_refl. cbn [x_assert app]. rewrite xwire_arr_cnt, filler; [reflexivity|]. exact (asym_le _ _ Hn).
Qed.
Lemma sign_run E x y op t r z : digest_sizes (e_cr E) -> can_sign E x -> x_nego y = x_nego x -> 0x12 <= ver x -> sign_transcript E op t y = (r, z) ->
  z = y /\ exists sig, r = Ok sig /\ signs E x op t sig.
Proof.
  intros HD (C1 & C2) N1 Lv H. unfold sign_transcript in H. rewrite bind_get in H. rewrite N1 in H. unfold ver in H. rewrite N1 in H. fold (ver x) in H.
  destruct (cr_hash (e_cr E) (n_hash (x_nego x)) t) as [h|] eqn:Hh; [|destruct (C1 _ Hh)]. unfold sbind at 1, sok at 1, sret at 1 in H.
  assert (Lh : len h <= 64) by (exact (hash_le _ _ (HD _ _ _ Hh))). rewrite (sign_input_ok _ op h Lv Lh) in H. unfold sbind at 1, sof at 1 in H.
  destruct (cr_sign (e_cr E) (n_hash (x_nego x)) (n_asym (x_nego x)) (spec_prefix ++ spec_context op ++ h)) as [sig|] eqn:Hs; [|destruct (C2 _ Hs)].
  unfold sok, sret in H. split; [congruence|]. exists sig. split; [congruence|]. exists h. auto.
Qed.
Lemma slot_provisioned x k : slot_ok x k = true -> k < 8 /\ exists chain, slot_of (x_my_chain x) k = Some chain /\ provisioned x k chain.
Proof.
  unfold slot_ok. intro H. apply andb_prop in H as (H1 & H2). split; [apply N.ltb_lt; exact H1|]. destruct (slot_of (x_my_chain x) k) as [chain|] eqn:S; [|discriminate H2].
  exists chain. split; [reflexivity|]. unfold provisioned. unfold slot_of in S. clear H1 H2. revert S. generalize (N.to_nat k) as n. generalize (x_my_chain x) as l.
  induction l as [|a l IH]; intros [|n] S; cbn in S; try discriminate S; [cbn; congruence|exact (IH n S)].
Qed.
Lemma m1m2_append cr m y r z : append_c cr m y = (r, z) -> (r = Err ST_CRYPTO_ERROR /\ z = y /\ x_m1m2 y = None) \/ (r = Ok tt /\ z = set_x_m1m2 (Some (m1m2_so_far y ++ m)) y).
Proof. unfold append_c, append_m1m2, m1m2_so_far. destruct (x_m1m2 y); [right; split; congruence|]. destruct (hash_ok _ _); [right; split; congruence|left]. repeat split; congruence. Qed.
Lemma err_answer x y c w z : ver y = ver x -> write_err c [] y = (w, z) -> match w with Ok w => is_error x w | _ => True end /\ z = y.
Proof. intros V H. unfold write_err in H. rewrite write_err_nil in H. split; [|congruence]. assert (Ok (RspCalm.error_bytes (ver y) c 0) = w) as <- by congruence. exists c, 0. rewrite <- V. reflexivity. Qed.
Definition chal_body (v slot : N) (hash nonce sum : bytes) : bytes := [v; 0x03; slot; 1] ++ hash ++ nonce ++ sum ++ [0; 0].
Lemma emit_challenge_auth c v slot hash nonce sum sig n : n_version (c_nego c) = v -> c_hash_size c = Some n -> len hash = n -> length nonce = 32%nat ->
  (if c_need_sum c then exists s, sum = v_of 64 s /\ len s = n else True) -> c_asym_size c = Some sig -> slot < 8 ->
  emit (enc_message c (challenge_auth_msg v slot hash nonce sum sig)) [] = Some (true, chal_body v slot hash nonce (if c_need_sum c then v_bytes sum else []) ++ fill (N.to_nat sig) 0xbb).
Proof.
  intros Hv Hn Lh Lo Hs Ha Ls. assert (Ln := hash_le _ _ Hn). assert (La := asym_le _ _ Ha).
  assert (exists su : bytes, (if c_need_sum c then v_bytes sum else []) = su /\ len su <= 64 /\ xwire (enc_opt (c_need_sum c) (enc_digest c sum)) = Some su) as (su & -> & Z & X1).
  { destruct (c_need_sum c); [|exists []; split; [reflexivity|split; [cbn; lia|reflexivity]]]. destruct Hs as (s & -> & L). exists s. rewrite v_of_bytes by lia. split; [reflexivity|]. split; [lia|]. cbn [enc_opt]. exact (xw_dig c s n Hn L Ln). }
  assert (X : xwire (enc_message c (challenge_auth_msg v slot hash nonce sum sig)) = Some (chal_body v slot hash nonce su ++ fill (N.to_nat sig) 0xbb)).
  { unfold challenge_auth_msg, enc_message. cbn [m_header m_payload]. unfold enc_header, enc_payload, enc_challenge_auth. cbn [h_version h_code ca_slot ca_mask ca_attr ca_hash ca_nonce ca_summary ca_opaque ca_sig].
    unfold x_add_u8. rewrite N.add_0_r. replace (slot <? 256) with true by (symmetry; apply N.ltb_lt; lia).
    rewrite !xwire_app, !xw8, (xw_dig c hash n Hn Lh Ln), X1, (xw_sigfill c sig _ Ha), xw_opaque, xw_nonce. unfold chal_body. rewrite <- !app_assoc. reflexivity. }
  rewrite (emit_fits _ [] _ X); [reflexivity|]. cbn [app]. unfold chal_body. rewrite !len_app, fill_len. unfold len in *. rewrite Lo.
  cbn [length]. change MAX_SPDM_MSG_SIZE with 4096. lia.
Qed.
Lemma dec_challenge_split c r p rest : dec_challenge c r = POk p rest -> r = [ch_slot p; ch_hash_type p] ++ ch_nonce p ++ rest /\ length (ch_nonce p) = 32%nat.
Proof.
  intro H. unfold dec_challenge in H. apply dbind_ok in H as (a & l1 & E1 & H). apply d_u8_inv in E1 as ->. apply dbind_ok in H as (t & l2 & E2 & H). apply d_u8_inv in E2 as ->.
  apply dguard_ok in H as [_ H]. apply dbind_ok in H as (n & l3 & E3 & H). apply dret_ok in H as [-> ->]. cbn [ch_slot ch_hash_type ch_nonce].
  apply d_arr_inv in E3 as [-> L]. split; [reflexivity|exact L].
Qed.

Lemma summary_run E t y r z : summary E t y = (r, z) ->
  let b := (t =? 1) || (t =? 0xFF) in
  z = set_x_need_sum b y /\
  r = Ok (if b then match cr_summary (e_cr E) (ver y) (n_hash (x_nego y)) (n_mspec (x_nego y)) (n_mhash (x_nego y)) t with Some h => if len h =? 0 then None else Some (v_of 64 h) | None => None end
          else Some (v_default 64)).
Proof.
  intros H b. unfold summary in H. fold b in H. destruct b.
  - rewrite bind_mod, bind_get in H. unfold sret in H. split; [congruence|]. inversion H. reflexivity.
  - rewrite bind_mod in H. unfold sret in H. split; congruence.
Qed.
(** M1/M2 after a CHALLENGE_AUTH is empty again *)
Ltac fin A := split; [reflexivity|split; [reflexivity|match type of A with context [is_error _ _] => match goal with o : outcome bytes |- _ => destruct o; [left; exact A|exact I|exact I] end end]].
Ltac stop H := unfold sbind, sunwrap, spanic, sof in H; match type of H with (?p, ?q) = (?w, ?y) => assert (w = p) as -> by congruence; assert (y = q) as -> by congruence end; split; [|split; [|exact I]].
Lemma write_challenge_good E b x w y : digest_sizes (e_cr E) -> summaries_sized (e_cr E) -> can_sign E x -> 0x12 <= ver x -> request_code b = Some 0x83 ->
  write_challenge E b x = (w, y) -> x_sent y = x_sent x /\ ver y = ver x /\
    match w with Ok w => is_error x w \/ (x_m1m2 y = None /\ exists q rest, b = q ++ rest /\ challenge_auth_for E x q w) | _ => True end.
Proof.
  intros HD HS HC Lv Rc H. unfold write_challenge in H. rewrite bind_get in H. destruct (negotiated x).
  2:{ apply (err_answer x x _ _ _ eq_refl) in H as (A & ->). fin A. }
  unfold with_version in H. rewrite bind_get in H. destruct (code_header b _ Rc) as (h & t & Rh & Hh). rewrite Rh in H. pose proof (header_split _ _ _ _ Rh Hh) as Eb.
  destruct (N.eqb_spec (h_version h) (ver x)) as [Hv|]; cbn [negb] in H. 2:{ apply (err_answer x x _ _ _ eq_refl) in H as (A & ->). fin A. }
  rewrite Hv in Eb. rewrite bind_mod in H.
  assert (R : reset_buffer RC_CHALLENGE None x = set_x_l1l2 None x) by reflexivity. rewrite R in H. clear R. set (x1 := set_x_l1l2 None x) in *.
  rewrite bind_rd in H. destruct (dec_challenge (xc x1) t) as [p rest| |] eqn:D; [|apply (err_answer x x1 _ _ _ eq_refl) in H as (A & ->); fin A|stop H; reflexivity].
  apply dec_challenge_split in D as (Et & Ln). unfold sbind at 1 in H. destruct (summary E (ch_hash_type p) x1) as [rs y2] eqn:Sm. apply summary_run in Sm as (Y2 & Rs). cbv zeta in Y2, Rs.
  set (sb := (ch_hash_type p =? 1) || (ch_hash_type p =? 255)) in *. rewrite Rs in H. clear rs Rs.
  match type of H with match ?s with _ => _ end _ = _ => set (os := s) in * end. change (n_hash (x_nego x1)) with (n_hash (x_nego x)) in os.
  destruct os as [sum|] eqn:Os; subst os. 2:{ apply (err_answer x y2) in H as (A & ->); [subst y2; fin A|subst y2; reflexivity]. }
  destruct (slot_ok x (ch_slot p)) eqn:Sk. 2:{ apply (err_answer x y2) in H as (A & ->); [subst y2; fin A|subst y2; reflexivity]. }
  destruct (slot_provisioned _ _ Sk) as (Ls & chain & Sc & Pv).
  unfold tryelse at 1, scatch at 1 in H. destruct (append_c (e_cr E) (used_of b rest) y2) as [r3 y3] eqn:A1.
  destruct (m1m2_append _ _ _ _ _ A1) as [(-> & -> & _)|(-> & Y3)]. { apply (err_answer x y2) in H as (A & ->); [subst y2; fin A|subst y2; reflexivity]. }
  rewrite Sc in H. unfold sbind at 1, sunwrap at 1, sret at 1 in H. destruct (cr_hash (e_cr E) (n_hash (x_nego x)) chain) as [hash|] eqn:Hc; [|stop H; subst y3 y2; reflexivity].
  unfold sbind at 1, sunwrap at 1, sret at 1 in H. unfold sbind at 1, get_random at 1 in H. set (y4 := set_x_rng (x_rng y3 + 1) y3) in H.
  assert (Rg : x_rng y3 = x_rng x) by (subst y3 y2; reflexivity). rewrite Rg in H.
  destruct (cr_random (e_cr E) (x_rng x) 32) as [fresh|] eqn:Rn. 2:{ apply (err_answer x y4) in H as (A & ->); [subst y4 y3 y2; fin A|subst y4 y3 y2; reflexivity]. }
  destruct (Nat.eqb_spec (length fresh) 32) as [Lf|]. 2:{ apply (err_answer x y4) in H as (A & ->); [subst y4 y3 y2; fin A|subst y4 y3 y2; reflexivity]. }
  destruct (asym_size (n_asym (x_nego x))) as [sg|] eqn:As; [|stop H; subst y4 y3 y2; reflexivity]. unfold sbind at 1, sunwrap at 1, sret at 1 in H.
  unfold encode_or_err in H. unfold sbind at 1, wenc at 1 in H.
  assert (Nh : hash_size (n_hash (x_nego x)) = Some (len hash)) by (exact (HD _ _ _ Hc)).
  assert (Cn : c_need_sum (xc y4) = sb) by (subst y4 y3 y2; reflexivity).
  assert (Sz : summary_of E x (ch_hash_type p) (if sb then v_bytes sum else []) /\ (if sb then exists s, sum = v_of 64 s /\ len s = len hash else True)).
  { unfold summary_of. fold sb. destruct sb; [|auto]. change (ver x1) with (ver x) in Os. change (x_nego x1) with (x_nego x) in Os.
    destruct (cr_summary _ _ _ _ _ _) as [s|] eqn:Cs; [|discriminate Os]. destruct (_ =? 0); [discriminate Os|]. assert (sum = v_of 64 s) as -> by congruence.
    pose proof (HS _ _ _ _ _ _ Cs) as L. assert (len s = len hash) as L' by congruence. split; [|eauto]. rewrite v_of_bytes; [reflexivity|]. rewrite L'. exact (hash_le _ _ Nh). }
  destruct Sz as (So & Sz). rewrite <- Cn in Sz.
  assert (Vy : n_version (c_nego (xc y4)) = ver x) by (subst y4 y3 y2; reflexivity).
  assert (Hy : c_hash_size (xc y4) = Some (len hash)) by (subst y4 y3 y2; exact Nh). assert (Ay : c_asym_size (xc y4) = Some sg) by (subst y4 y3 y2; exact As).
  rewrite (emit_challenge_auth (xc y4) (ver x) (ch_slot p) hash fresh sum sg (len hash) Vy Hy eq_refl Lf Sz Ay Ls) in H. rewrite Cn in H. cbv beta iota in H. cbn [fst snd] in H.
  set (body := chal_body (ver x) (ch_slot p) hash fresh (if sb then v_bytes sum else [])) in *. rewrite (drop_last_app body _ sg (fill_len _ _)) in H.
  unfold sbind at 1, sof at 1 in H. unfold tryelse at 1, scatch at 1 in H. destruct (append_c (e_cr E) body y4) as [r5 y5] eqn:A2.
  destruct (m1m2_append _ _ _ _ _ A2) as [(_ & _ & K)|(-> & Y5)]. { exfalso. subst y4 y3. discriminate K. }
  rewrite bind_get in H. assert (M5 : x_m1m2 y5 = Some (m1m2_so_far x ++ used_of b rest ++ body)) by (rewrite app_assoc; subst y5 y4 y3 y2; reflexivity).
  rewrite M5 in H. unfold sbind at 1, sunwrap at 1, sret at 1 in H. unfold tryelse at 1, scatch at 1 in H.
  destruct (sign_transcript E SigChallenge _ y5) as [r6 y6] eqn:Sg. assert (N5 : x_nego y5 = x_nego x) by (subst y5 y4 y3 y2; reflexivity).
  destruct (sign_run E x y5 _ _ _ _ HD HC N5 Lv Sg) as (-> & sig & -> & Si). unfold sbind at 1, sof at 1 in H.
  destruct (patch_last sg sig (body ++ fill (N.to_nat sg) 187)) as [w'| |] eqn:Pl; [|stop H; subst y5 y4 y3 y2; reflexivity|stop H; subst y5 y4 y3 y2; reflexivity].
  apply (patch_last_app _ _ _ _ _ (fill_len _ _)) in Pl. rewrite bind_mod in H. unfold sret in H.
  assert (w = Ok w') as -> by congruence. assert (y = reset_c (reset_b y5)) as -> by congruence.
  split; [subst y5 y4 y3 y2; reflexivity|]. split; [subst y5 y4 y3 y2; reflexivity|]. right. split; [reflexivity|].
  assert (Bq : b = ([ver x; 131; ch_slot p; ch_hash_type p] ++ ch_nonce p) ++ rest). { rewrite Eb, Et, <- !app_assoc. reflexivity. }
  rewrite Bq in Si at 1. rewrite used_split in Si.
  exists ([ver x; 131; ch_slot p; ch_hash_type p] ++ ch_nonce p), rest. split; [exact Bq|].
  exists (ch_slot p), (ch_hash_type p), (ch_nonce p), chain, hash, fresh, (if sb then v_bytes sum else []), sig. cbv zeta.
  split; [reflexivity|]. split; [exact Ln|]. split; [exact Ls|]. split; [exact Pv|]. split; [exact Hc|]. split; [exact Rn|]. split; [exact Lf|]. split; [exact So|]. split; [exact Si|exact Pl].
Qed.

(** C76: a CHALLENGE is answered with an ERROR, or with a CHALLENGE_AUTH that carries the hash of the
    chain in the slot asked for, a fresh nonce and the summary asked for, signed over everything
    recorded, the request as read and the reply itself.  Then M1/M2 starts anew. *)
Theorem C76_challenge_answer : forall E f b x r x',
  digest_sizes (e_cr E) -> summaries_sized (e_cr E) -> can_sign E x -> 0x12 <= ver x ->
  plain_message E f = Some b -> request_code b = Some 0x83 -> process_frame E f x = (r, x') ->
  one_reply E x x' (fun m => is_error x m \/ exists q rest, b = q ++ rest /\ challenge_auth_for E x q m).
Proof.
  intros E f b x r x' HD HS HC Lv Pf Rc H. rewrite (frame_plain E f b x Pf) in H. apply is_ok_inv in H as [r0 H].
  destruct (code_header b _ Rc) as (h & t & Rh & Hh). unfold dispatch_message in H. rewrite Rh, Hh in H. change (handle_challenge E b x = (r0, x')) in H.
  unfold handle_challenge in H. unfold sbind at 1 in H. destruct (write_challenge E b x) as [o y] eqn:W.
  destruct (write_challenge_good E b x o y HD HS HC Lv Rc W) as (S1 & V1 & G). destruct o as [w|e|]; [|left; congruence|left; congruence].
  unfold one_reply. rewrite <- S1. apply (send_message_one E w y r0 x'); [|left; rewrite V1; exists 0xD, 0; reflexivity|exact H]. destruct G as [G|(_ & G)]; auto.
Qed.
Print Assumptions C76_challenge_answer.

(** ** GET_MEASUREMENTS *)
Lemma dec_get_meas_split c r p rest : 0x12 <= n_version (c_nego c) -> dec_get_meas c r = POk p rest ->
  if N.testbit (gm_attr p) 0 then r = [gm_attr p; gm_op p] ++ gm_nonce p ++ [gm_slot p] ++ rest /\ length (gm_nonce p) = 32%nat
  else r = [gm_attr p; gm_op p] ++ rest /\ gm_slot p = 0.
Proof.
  intros V H. unfold dec_get_meas in H. apply dbind_ok in H as (a & l1 & E1 & H). apply dbind_ok in H as (op & l2 & E2 & H). apply d_u8_inv in E2 as ->.
  apply dbind_ok in H as (n & l3 & E3 & H). apply dbind_ok in H as (sl & l4 & E4 & H). apply dret_ok in H as [-> ->]. cbn [gm_attr gm_op gm_nonce gm_slot].
  assert (Ea : r = a :: op :: l2).
  { unfold d_flags8_strict in E1. apply dbind_ok in E1 as (v & l5 & E5 & E1). apply d_u8_inv in E5 as ->. destruct (from_bits MEAS_ATTR_ALL v) as [k|] eqn:F; [|discriminate E1].
    unfold from_bits in F. destruct (_ =? _); [|discriminate F]. apply dret_ok in E1 as [-> ->]. congruence. }
  unfold MEAS_ATTR_SIG in *. rewrite contains_1 in E3, E4. destruct (N.testbit a 0).
  - cbn [dec_opt] in E3. apply d_arr_inv in E3 as [-> L]. replace (ver_ge c V11) with true in E4.
    2:{ symmetry. unfold ver_ge. apply N.leb_le. unfold V11. lia. } cbn [andb dec_opt] in E4. apply d_u8_inv in E4 as ->. split; [exact Ea|exact L].
  - cbn [andb dec_opt] in E3, E4. apply dret_ok in E3 as [_ ->]. apply dret_ok in E4 as [-> ->]. split; [exact Ea|reflexivity].
Qed.
Definition meas_body (v n p2 : N) (r : mrecord) (nonce : bytes) : bytes := [v; 0x60; if n =? 1 then 0 else n; p2] ++ wire_mrecord r ++ nonce ++ [0; 0].
Definition sig_pad (b : bool) (n : N) : bytes := if b then fill (N.to_nat n) 0x60 else [].
Lemma emit_measurements c v n slot changed rec nonce sig : n_version (c_nego c) = v -> 0x12 <= v -> length nonce = 32%nat -> mr_length rec <= 3500 -> c_asym_size c = Some sig ->
  emit (enc_message c (measurements_msg v n slot changed rec nonce sig)) [] =
  Some (true, meas_body v n (if c_need_sig c then N.lor slot changed else 0) rec nonce ++ sig_pad (c_need_sig c) sig).
Proof.
  intros Hv Lv Lo Lr Ha. assert (La := asym_le _ _ Ha).
  assert (exists sf : bytes, sig_pad (c_need_sig c) sig = sf /\ len sf <= 512 /\ xwire (enc_opt (c_need_sig c) (enc_signature c (mkV sig (fill 512 0x60)))) = Some sf) as (sf & -> & Ls & X1).
  { destruct (c_need_sig c); [|exists []; split; [reflexivity|split; [cbn; lia|reflexivity]]]. exists (fill (N.to_nat sig) 0x60). split; [reflexivity|]. split; [rewrite fill_len; exact La|]. cbn [enc_opt]. exact (xw_sigfill c sig _ Ha). }
  assert (P2 : meas_param2 c (mkMeasRsp n changed slot rec nonce (v_default MAX_OPAQUE_SIZE) (mkV sig (fill 512 96))) = if c_need_sig c then N.lor slot changed else 0).
  { unfold meas_param2. assert (G : ver_ge c V12 = true) by (unfold ver_ge; apply N.leb_le; unfold V12; lia). rewrite G. cbn [andb ms_slot ms_changed]. destruct (c_need_sig c); [reflexivity|]. rewrite Bool.andb_false_r. reflexivity. }
  assert (X : xwire (enc_message c (measurements_msg v n slot changed rec nonce sig)) = Some (meas_body v n (if c_need_sig c then N.lor slot changed else 0) rec nonce ++ sf)).
  { unfold measurements_msg, enc_message. cbn [m_header m_payload]. unfold enc_header, enc_payload, enc_meas_rsp. rewrite P2. cbn [h_version h_code ms_number ms_record ms_nonce ms_opaque ms_sig].
    rewrite !xwire_app, !xw8, xw_mrecord, X1, xw_opaque, xw_nonce. unfold meas_body. rewrite <- !app_assoc. reflexivity. }
  rewrite (emit_fits _ [] _ X); [reflexivity|]. unfold meas_body, wire_mrecord. rewrite !len_app. unfold len at 1 2 3 4 5 6 7. rewrite Lo, le_bytes_length, firstn_length.
  cbn [length]. change MAX_SPDM_MSG_SIZE with 4096. lia.
Qed.

(** what a measurement exchange leaves alone *)
Definition base (z : ctx) := (x_nego z, x_sent z, x_rng z, x_cfg z, x_my_chain z, x_changed z, x_msg_a z, x_need_sig z).
Lemma so_far_of sid x : l1l2_so_far sid x = match l1l2_of sid x with Some d => d | None => x_msg_a x end.
Proof. destruct sid; reflexivity. Qed.
Lemma append_m_run cr sid m y r z : 0x12 <= ver y -> append_m cr sid m y = (r, z) ->
  (exists e, r = Err e /\ z = y /\ l1l2_of sid y = None) \/ (r = Ok tt /\ base z = base y /\ l1l2_of sid z = Some (l1l2_so_far sid y ++ m)).
Proof.
  intros Lv H. assert (Nx : forall o, next_l1l2 y o m = (match o with Some d => d | None => x_msg_a y end) ++ m).
  { intros [d|]; unfold next_l1l2; [reflexivity|]. apply N.leb_le in Lv. rewrite Lv. reflexivity. }
  rewrite so_far_of. unfold append_m in H. destruct sid as [id|]; unfold l1l2_of.
  - destruct (get_sess id y) as [s|] eqn:G; [|left; exists ST_INVALID_STATE_LOCAL; split; [congruence|]; split; [congruence|reflexivity]].
    assert (Gz : forall d, get_sess id (mod_sess id (set_s_l1l2 d) y) = Some (set_s_l1l2 d s)) by (intro d; apply ReqMeas.get_mod; [exact G|reflexivity]).
    destruct (s_l1l2 s) as [d|] eqn:Sl; [|destruct (hash_ok _ _); [|left; exists ST_CRYPTO_ERROR; split; [congruence|split; [congruence|first [reflexivity|exact Sl]]]]]; right; rewrite Nx in H;
      (split; [congruence|]); match type of H with (_, ?q) = _ => assert (z = q) as -> by congruence end; (split; [reflexivity|]); rewrite Gz; reflexivity.
  - destruct (x_l1l2 y) as [d|] eqn:Sl; [|destruct (hash_ok _ _); [|left; exists ST_CRYPTO_ERROR; split; [congruence|split; [congruence|first [reflexivity|exact Sl]]]]]; right; rewrite Nx in H;
      (split; [congruence|]); match type of H with (_, ?q) = _ => assert (z = q) as -> by congruence end; split; reflexivity.
Qed.

Lemma base_facts x z : base z = base x -> x_nego z = x_nego x /\ x_sent z = x_sent x /\ x_rng z = x_rng x /\ x_cfg z = x_cfg x /\ x_my_chain z = x_my_chain x /\ x_changed z = x_changed x /\ x_msg_a z = x_msg_a x /\ x_need_sig z = x_need_sig x /\ ver z = ver x.
Proof. unfold base, ver. intro H. inversion H. repeat split; congruence. Qed.
Lemma reset_meas sid x : base (reset_buffer RC_GET_MEASUREMENTS sid x) = base x /\ l1l2_of sid (reset_buffer RC_GET_MEASUREMENTS sid x) = l1l2_of sid x.
Proof.
  assert (R : reset_buffer RC_GET_MEASUREMENTS sid x = if x_conn x <? CONN_AUTHENTICATED then reset_c (reset_b x) else x) by reflexivity. rewrite R. destruct (_ <? _); [|split; reflexivity].
  split; [reflexivity|]. destruct sid; reflexivity.
Qed.
Lemma measure_run E x op n y r z : measure E x op n y = (r, z) ->
  let read i := cr_measure (e_cr E) (ver x) (n_mspec (x_nego x)) (n_mhash (x_nego x)) i in
  z = y /\ (r = Panic \/ (r = Ok None) \/ exists rec, r = Ok (Some rec) /\
    if op =? 0 then mr_blocks rec = 0 /\ mr_length rec = 0 else if op =? 255 then read 255 = Some rec else op <= n /\ read op = Some rec).
Proof.
  intros H read. unfold measure in H. fold (read 255) in H. fold (read op) in H. destruct (N.eqb_spec op 255) as [->|].
  - unfold sbind, sunwrap in H. destruct (read 255) as [rec|] eqn:R; unfold spanic, sret in H; (split; [congruence|]); [right; right; exists rec; split; [congruence|]; exact (eq_refl (Some rec))|left; congruence].
  - destruct (N.eqb_spec op 0) as [->|]. { unfold sret in H. split; [congruence|]. right; right. exists mrecord_default. split; [congruence|]. split; reflexivity. }
    destruct (N.ltb_spec n op) as [|L]. { unfold sret in H. split; [congruence|]. right; left. congruence. }
    unfold sbind, sunwrap in H. destruct (read op) as [rec|] eqn:R; unfold spanic, sret in H; (split; [congruence|]); [right; right; exists rec; split; [congruence|]; split; [exact L|reflexivity]|left; congruence].
Qed.
Lemma write_measurement_good E sid b x w y : digest_sizes (e_cr E) -> records_fit (e_cr E) -> can_sign E x -> 0x12 <= ver x -> request_code b = Some 0xE0 ->
  write_measurement E sid b x = (w, y) -> x_sent y = x_sent x /\ ver y = ver x /\
    match w with Ok w => is_error x w \/ exists q rest, b = q ++ rest /\ measurements_for E sid x q w | _ => True end.
Proof.
  intros HD HF HC Lv Rc H. unfold write_measurement in H. rewrite bind_get in H. destruct (negotiated x).
  2:{ apply (err_answer x x _ _ _ eq_refl) in H as (A & ->). fin A. }
  unfold with_version in H. rewrite bind_get in H. destruct (code_header b _ Rc) as (h & t & Rh & Hh). rewrite Rh in H. pose proof (header_split _ _ _ _ Rh Hh) as Eb.
  destruct (N.eqb_spec (h_version h) (ver x)) as [Hv|]; cbn [negb] in H. 2:{ apply (err_answer x x _ _ _ eq_refl) in H as (A & ->). fin A. }
  rewrite Hv in Eb. rewrite bind_mod in H. destruct (reset_meas sid x) as (B1 & L1). set (x1 := reset_buffer RC_GET_MEASUREMENTS sid x) in *. clearbody x1.
  destruct (base_facts _ _ B1) as (N1 & S1 & R1 & C1 & M1 & G1 & A1 & D1 & V1).
  rewrite bind_rd in H. destruct (dec_get_meas (xc x1) t) as [p rest| |] eqn:D.
  2:{ apply (err_answer x x1 _ _ _ V1) in H as (A & ->). split; [exact S1|split; [exact V1|destruct w; [left; exact A|exact I|exact I]]]. }
  2:{ stop H; assumption. }
  apply dec_get_meas_split in D. 2:{ change (0x12 <= ver x1). rewrite V1. exact Lv. }
  set (signed := contains (gm_attr p) MEAS_ATTR_SIG) in *. assert (Es : signed = N.testbit (gm_attr p) 0) by (unfold signed, MEAS_ATTR_SIG; apply contains_1). rewrite <- Es in D.
  destruct (asym_size (n_asym (x_nego x))) as [sg|] eqn:As. 2:{ stop H; assumption. }
  unfold sbind at 1, sunwrap at 1, sret at 1 in H. rewrite bind_mod in H.
  set (x2 := set_x_need_sig signed x1) in *. assert (L2 : l1l2_of sid x2 = l1l2_of sid x) by (rewrite <- L1; destruct sid; reflexivity).
  assert (F2 : x_nego x2 = x_nego x /\ x_sent x2 = x_sent x /\ x_rng x2 = x_rng x /\ x_msg_a x2 = x_msg_a x /\ x_need_sig x2 = signed /\ ver x2 = ver x) by (subst x2; repeat split; assumption).
  clearbody x2. destruct F2 as (N2 & S2 & R2 & A2 & D2 & V2).
  destruct (if signed then slot_ok x (gm_slot p) else gm_slot p =? 0) eqn:Sk.
  2:{ apply (err_answer x x2 _ _ _ V2) in H as (A & ->). split; [exact S2|split; [exact V2|destruct w; [left; exact A|exact I|exact I]]]. }
  unfold tryelse at 1, scatch at 1 in H. destruct (append_m (e_cr E) sid (used_of b rest) x2) as [r3 x3] eqn:P3.
  destruct (append_m_run _ _ _ _ _ _ ltac:(rewrite V2; exact Lv) P3) as [(e & -> & -> & _)|(-> & B3 & L3)].
  { apply (err_answer x x2 _ _ _ V2) in H as (A & ->). split; [exact S2|split; [exact V2|destruct w; [left; exact A|exact I|exact I]]]. }
  destruct (base_facts _ _ B3) as (N3 & S3 & R3 & _ & _ & _ & A3 & D3 & V3). rewrite N2 in N3. rewrite S2 in S3. rewrite R2 in R3. rewrite D2 in D3. rewrite V2 in V3. rewrite A2 in A3.
  destruct (cr_measure (e_cr E) (ver x) (n_mspec (x_nego x)) (n_mhash (x_nego x)) 0) as [total|] eqn:Tt. 2:{ stop H; assumption. }
  unfold sbind at 1, sunwrap at 1, sret at 1 in H. unfold sbind at 1 in H. destruct (measure E x (gm_op p) (mr_blocks total) x3) as [rm x4] eqn:Me.
  apply measure_run in Me. cbv zeta in Me. destruct Me as (-> & [-> |[-> |(rec & -> & Rec)]]).
  { stop H; assumption. }
  { cbv beta iota in H. apply (err_answer x x3 _ _ _ V3) in H as (A & ->). split; [exact S3|split; [exact V3|destruct w; [left; exact A|exact I|exact I]]]. }
  cbv beta iota in H. unfold sbind at 1, get_random at 1 in H. rewrite R3 in H. set (x4 := set_x_rng (x_rng x + 1) x3) in *.
  assert (S4 : x_sent x4 = x_sent x) by exact S3. assert (V4 : ver x4 = ver x) by exact V3. assert (N4 : x_nego x4 = x_nego x) by exact N3. assert (D4 : x_need_sig x4 = signed) by exact D3.
  assert (A4 : x_msg_a x4 = x_msg_a x) by exact A3. assert (L4 : l1l2_of sid x4 = Some (l1l2_so_far sid x2 ++ used_of b rest)) by (rewrite <- L3; destruct sid; reflexivity). clearbody x4.
  destruct (cr_random (e_cr E) (x_rng x) 32) as [fresh|] eqn:Rn. 2:{ apply (err_answer x x4 _ _ _ V4) in H as (A & ->). split; [exact S4|split; [exact V4|destruct w; [left; exact A|exact I|exact I]]]. }
  destruct (Nat.eqb_spec (length fresh) 32) as [Lf|]. 2:{ apply (err_answer x x4 _ _ _ V4) in H as (A & ->). split; [exact S4|split; [exact V4|destruct w; [left; exact A|exact I|exact I]]]. }
  set (n := if (gm_op p =? 255) || (gm_op p =? 0) then mr_blocks total else 1) in *. set (ch := if cf_content_change (x_cfg x) && (18 <=? ver x) then x_changed x else 0) in *.
  assert (Lr : mr_length rec <= 3500). { destruct (gm_op p =? 0); [lia|]. destruct (gm_op p =? 255); [exact (proj1 (HF _ _ _ _ _ Rec))|exact (proj1 (HF _ _ _ _ _ (proj2 Rec)))]. }
  unfold encode_or_err in H. unfold sbind at 1, wenc at 1 in H.
  assert (Ay : c_asym_size (xc x4) = Some sg) by (unfold c_asym_size; change (c_nego (xc x4)) with (x_nego x4); rewrite N4; exact As).
  rewrite (emit_measurements (xc x4) (ver x) n (gm_slot p) ch rec fresh sg ltac:(change (ver x4 = ver x); exact V4) Lv Lf Lr Ay) in H. cbv beta iota in H. cbn [fst snd] in H.
  change (c_need_sig (xc x4)) with (x_need_sig x4) in H. rewrite D4 in H.
  assert (Mr : measured_record E x (gm_op p) n rec).
  { exists total. split; [exact Tt|]. unfold n. clear -Rec. revert Rec. destruct (gm_op p =? 0); destruct (gm_op p =? 255); intro Rec; cbn [orb]; split; try reflexivity; exact Rec. }
  assert (Sf : l1l2_so_far sid x2 = l1l2_so_far sid x) by (rewrite !so_far_of, L2, A2; reflexivity). rewrite Sf in L4.
  destruct signed; cbn [sig_pad] in H.
  - destruct D as (Et & Ln). set (body := meas_body (ver x) n (N.lor (gm_slot p) ch) rec fresh) in *. rewrite (drop_last_app body _ sg (fill_len _ _)) in H.
    unfold sbind at 1, sof at 1 in H. unfold tryelse at 1, scatch at 1 in H. destruct (append_m (e_cr E) sid body x4) as [r5 x5] eqn:P5.
    destruct (append_m_run _ _ _ _ _ _ ltac:(rewrite V4; exact Lv) P5) as [(e & _ & _ & K)|(-> & B5 & L5)]; [rewrite L4 in K; discriminate K|].
    destruct (base_facts _ _ B5) as (N5 & S5 & _ & _ & _ & _ & _ & _ & V5). rewrite N4 in N5. rewrite S4 in S5. rewrite V4 in V5. rewrite so_far_of, L4 in L5.
    rewrite bind_get in H. rewrite L5 in H. unfold sbind at 1, sunwrap at 1, sret at 1 in H. unfold tryelse at 1, scatch at 1 in H.
    destruct (sign_transcript E SigMeasurements _ x5) as [r6 x6] eqn:Sg. destruct (sign_run E x x5 _ _ _ _ HD HC N5 Lv Sg) as (-> & sig & -> & Si). unfold sbind at 1, sof at 1 in H.
    destruct (patch_last sg sig (body ++ fill (N.to_nat sg) 96)) as [w'| |] eqn:Pl; [|stop H; assumption|stop H; assumption].
    apply (patch_last_app _ _ _ _ _ (fill_len _ _)) in Pl. rewrite bind_mod in H. unfold sret in H. assert (w = Ok w') as -> by congruence. assert (y = reset_m sid x5) as -> by congruence.
    split; [rewrite <- S5; destruct sid; reflexivity|]. split; [rewrite <- V5; destruct sid; reflexivity|]. right.
    assert (Bq : b = ([ver x; 224; gm_attr p; gm_op p] ++ gm_nonce p ++ [gm_slot p]) ++ rest). { rewrite Eb, Et, <- !app_assoc. reflexivity. }
    rewrite Bq in Si at 1. rewrite used_split, <- app_assoc in Si. destruct (slot_provisioned _ _ Sk) as (Ls & chain & _ & Pv).
    exists ([ver x; 224; gm_attr p; gm_op p] ++ gm_nonce p ++ [gm_slot p]), rest. split; [exact Bq|].
    exists (gm_attr p), (gm_op p), n, (gm_slot p), ch, rec, fresh. cbv zeta. split; [exact Mr|]. split; [exact Rn|]. split; [exact Lf|]. rewrite <- Es.
    exists (gm_nonce p), chain, sig. split; [reflexivity|]. split; [exact Ln|]. split; [exact Ls|]. split; [exact Pv|].
    split; [unfold ch; apply N.leb_le in Lv; rewrite Lv, Bool.andb_true_r; reflexivity|]. split; [exact Si|exact Pl].
  - destruct D as (Et & Sl). unfold then_append, tryelse, scatch in H. rewrite app_nil_r in H. set (body := meas_body (ver x) n 0 rec fresh) in *.
    destruct (append_m (e_cr E) sid body x4) as [r5 x5] eqn:P5.
    destruct (append_m_run _ _ _ _ _ _ ltac:(rewrite V4; exact Lv) P5) as [(e & _ & _ & K)|(-> & B5 & L5)]; [rewrite L4 in K; discriminate K|].
    destruct (base_facts _ _ B5) as (N5 & S5 & _ & _ & _ & _ & _ & _ & V5). rewrite S4 in S5. rewrite V4 in V5. unfold sret in H.
    assert (w = Ok body) as -> by congruence. assert (y = x5) as -> by congruence. split; [exact S5|]. split; [exact V5|]. right.
    exists [ver x; 224; gm_attr p; gm_op p], rest. split; [rewrite Eb, Et; reflexivity|].
    exists (gm_attr p), (gm_op p), n, 0, 0, rec, fresh. cbv zeta. split; [exact Mr|]. split; [exact Rn|]. split; [exact Lf|]. rewrite <- Es.
    split; [reflexivity|]. split; [reflexivity|]. split; reflexivity.
Qed.

Lemma handle_measurement_good E sid b x r x' : digest_sizes (e_cr E) -> records_fit (e_cr E) -> can_sign E x -> 0x12 <= ver x -> request_code b = Some 0xE0 ->
  handle_measurement E sid b x = (r, x') -> one_reply E x x' (fun m => is_error x m \/ exists q rest, b = q ++ rest /\ measurements_for E sid x q m).
Proof.
  intros HD HF HC Lv Rc H. unfold handle_measurement in H. unfold sbind at 1 in H. destruct (write_measurement E sid b x) as [o y] eqn:W.
  destruct (write_measurement_good E sid b x o y HD HF HC Lv Rc W) as (S1 & V1 & G). destruct o as [w|e|]; [|left; congruence|left; congruence].
  unfold one_reply. rewrite <- S1. assert (Pe : is_error x (error_message (ver y) 0xD 0)) by (rewrite V1; exists 0xD, 0; reflexivity).
  destruct sid; [apply (send_secured_one E n w y r x'); [exact G|left; exact Pe|exact H]|apply (send_message_one E w y r x'); [exact G|left; exact Pe|exact H]].
Qed.
Lemma frame_delivered_l1l2 E f x id m app s : delivered E f x id m app -> get_sess id x = Some s ->
  exists s1, s_state s1 = s_state s /\ s_l1l2 s1 = s_l1l2 s /\ get_sess id (mod_sess id (fun _ => s1) x) = Some s1 /\
    process_frame E f x = is_ok (if app then dispatch_app E id m else dispatch_secured E id m) (mod_sess id (fun _ => s1) x).
Proof.
  intros (b & s0 & a & s1 & H1 & H2 & H3 & H4 & H5) G. assert (s0 = s) as -> by congruence. exists s1.
  pose proof (skeep_decode _ _ _ _ _ _ _ H4) as K. pose proof (get_sess_id _ _ _ G) as I.
  assert (I1 : s_id s1 = id) by (unfold skey in K; congruence). split; [unfold skey in K; congruence|].
  split; [pose proof (seq_decode _ _ _ _ _ _ _ H4) as W; exact (f_equal s_l1l2 W)|].
  split; [apply (get_sess_upd id s (fun _ => s1)); [exact G|exact I1]|].
  assert (OS : on_sess id (decode_secured (e_cr E) true b BUFFER_SIZE) x = (Ok a, mod_sess id (fun _ => s1) x)) by (unfold on_sess; rewrite G, H4; reflexivity).
  unfold process_frame, secured_message in *. destruct (tr_decap _ _ f) as [[c [|]]| |]; try discriminate. assert (c = b) as -> by congruence.
  unfold process_secured. rewrite (names_read _ _ H2). unfold sbind, sget. rewrite G. unfold scatch. rewrite OS. rewrite H5. destruct app; reflexivity.
Qed.
(** C77: GET_MEASUREMENTS, on the bare connection or in an established session, is answered with an
    ERROR or with the measurements asked for, signed when asked for over the channel's L1/L2, the
    request as read and the reply itself. *)
Theorem C77_measurements_answer : forall E f b x r x' sid,
  digest_sizes (e_cr E) -> records_fit (e_cr E) -> can_sign E x -> 0x12 <= ver x -> request_code b = Some 0xE0 ->
  match sid with
  | None => plain_message E f = Some b
  | Some id => delivered E f x id b false /\ exists s, get_sess id x = Some s /\ s_state s = SEstablished
  end ->
  process_frame E f x = (r, x') ->
  one_reply E x x' (fun m => is_error x m \/ exists q rest, b = q ++ rest /\ measurements_for E sid x q m).
Proof.
  intros E f b x r x' [id|] HD HF HC Lv Rc Hd H.
  - destruct Hd as (D & s & G & St). destruct (frame_delivered_l1l2 E f x id b false s D G) as (s1 & K1 & K3 & K2 & K4). rewrite K4 in H.
    assert (S1 : s_state s1 = SEstablished) by congruence. apply is_ok_inv in H as [r0 H]. set (y := mod_sess id (fun _ => s1) x) in *.
    unfold dispatch_secured in H. unfold sbind at 1, sget at 1 in H. rewrite K2, S1 in H.
    destruct (code_header b _ Rc) as (h & t & Rh & Hh). unfold dispatch_established in H. rewrite Rh, Hh in H. change (handle_measurement E (Some id) b y = (r0, x')) in H.
    assert (Lq : l1l2_so_far (Some id) y = l1l2_so_far (Some id) x) by (unfold l1l2_so_far; rewrite K2, G, K3; reflexivity).
    pose proof (handle_measurement_good E (Some id) b y r0 x' HD HF HC Lv Rc H) as K. unfold one_reply in *. change (x_sent y) with (x_sent x) in K.
    destruct K as [K|(t0 & m & K & Kc & Km)]; [left; exact K|right]. exists t0, m. split; [exact K|]. split; [exact Kc|]. unfold measurements_for in *. rewrite Lq in Km. exact Km.
  - rewrite (frame_plain E f b x Hd) in H. apply is_ok_inv in H as [r0 H]. destruct (code_header b _ Rc) as (h & t & Rh & Hh). unfold dispatch_message in H. rewrite Rh, Hh in H.
    exact (handle_measurement_good E None b x r0 x' HD HF HC Lv Rc H).
Qed.
Print Assumptions C77_measurements_answer.

(** the hypotheses are met: a responder with two chains, asked for the second *)
Definition f_challenge : bytes := 5 :: [0x12; 0x83; 1; 0] ++ fill 32 3.
Definition f_measure : bytes := 5 :: [0x12; 0xE0; 1; 255] ++ fill 32 4 ++ [0].
Definition rp_state : ctx := Eval vm_compute in ex_multi.

(** ** what M1/M2 so far consists of *)
Definition same_m1m2 (x y : ctx) : Prop := x_m1m2 y = x_m1m2 x.
Lemma m1_pre : preorder same_m1m2. Proof. split; unfold same_m1m2; congruence. Qed.
Lemma m1_on_sess {A} id (m : st session A) : rel same_m1m2 (on_sess id m).
Proof. intros x r x' H. unfold on_sess in H. destruct (get_sess id x) as [s|]; [destruct (m s)|]; match type of H with (_, ?z) = _ => replace x' with z by congruence end; reflexivity. Qed.
Lemma m1_io E b : rel same_m1m2 (io_send E b).
Proof. intros x r x' H. unfold io_send in H. destruct (e_send E _ _); match type of H with (_, ?z) = _ => replace x' with z by congruence end; reflexivity. Qed.
Lemma m1_after op : rel same_m1m2 (after_send op).
Proof.
  unfold after_send. rl m1_pre; try apply m1_on_sess. all: try (apply rel_mod; intro; reflexivity).
  all: intros x r x' H; unfold smod in H; match type of H with (_, ?z) = _ => replace x' with z by congruence end; match goal with |- same_m1m2 _ (if ?c then _ else _) => destruct c end; reflexivity.
Qed.
Lemma m1_send E b : rel same_m1m2 (send_message E b). Proof. unfold send_message, send_raw. rl m1_pre; first [apply m1_after|apply m1_io]. Qed.
Lemma b_append E m y r z : append_b_on E None m y = (r, z) -> (exists e, r = Err e /\ z = y /\ x_m1m2 y = None) \/ (r = Ok tt /\ z = set_x_m1m2 (Some (m1m2_so_far y ++ m)) y).
Proof.
  unfold append_b_on, append_b, append_m1m2, m1m2_so_far. destruct (x_m1m2 y); [right; split; congruence|]. destruct (hash_ok _ _); [right; split; congruence|left].
  exists ST_INVALID_STATE_LOCAL. repeat split; congruence.
Qed.
(** the reply to a request of B is an ERROR, or M1/M2 grew by the request as read and the reply *)
Definition recorded_in (x : ctx) (start b : bytes) (y : ctx) (w : bytes) : Prop := is_error x w \/ exists q rest, b = q ++ rest /\ x_m1m2 y = Some (start ++ q ++ w).
Definition rec_ok (x : ctx) (start b : bytes) (y : ctx) (w : outcome bytes) : Prop :=
  x_sent y = x_sent x /\ ver y = ver x /\ match w with Ok w => recorded_in x start b y w | _ => True end.
Lemma rec_err x start b y c w z : x_sent y = x_sent x -> ver y = ver x -> write_err c [] y = (w, z) -> rec_ok x start b z w.
Proof. intros S V H. apply (err_answer x y _ _ _ V) in H as (A & ->). split; [exact S|split; [exact V|destruct w; [left; exact A|exact I|exact I]]]. Qed.
Lemma rec_stop x start b y q (w : outcome bytes) : (Panic, q) = (w, y) -> x_sent q = x_sent x -> ver q = ver x -> rec_ok x start b y w.
Proof. intros H S V. assert (w = Panic) as -> by congruence. assert (y = q) as -> by congruence. split; [exact S|split; [exact V|exact I]]. Qed.
Lemma flat_le {A} (f : A -> bytes) k l : Forall (fun a => (length (f a) <= k)%nat) l -> (length (flat_map f l) <= k * length l)%nat.
Proof. induction 1 as [|a l Ha Hl IH]; cbn [flat_map length]; [lia|]. rewrite app_length. lia. Qed.
Lemma emit_digests_any c v mask n : c_hash_size c = Some n -> exists w, emit (enc_message c (digests_msg v mask n)) [] = Some (true, w).
Proof.
  intro Hn. assert (Ln := hash_le _ _ Hn). set (k := N.to_nat (popcount8 mask)).
  assert (X : xwire (concat (map (enc_digest c) (firstn k (repeat (mkV n (fill 64 0xff)) 8)))) = Some (flat_map v_bytes (firstn k (repeat (mkV n (fill 64 0xff)) 8)))).
  { apply (xw_concat (enc_digest c) v_bytes). apply Forall_forall. intros a Ha. assert (a = mkV n (fill 64 0xff)) as ->.
    { apply (repeat_spec 8). rewrite <- (firstn_skipn k). apply in_or_app. left. exact Ha. }
    unfold enc_digest. rewrite Hn. cbn [v_size]. rewrite N.eqb_refl. cbn [x_assert app]. apply xwire_arr_cnt. }
  eexists. eapply (emit_fits _ []).
  - unfold digests_msg, enc_message. cbn [m_header m_payload]. unfold enc_header, enc_payload, enc_digests_rsp. cbn [h_version h_code dg_mask dg_digests]. fold k. change SPDM_MAX_SLOT_NUMBER with 8%nat.
    rewrite !xwire_app, !xw8, X. reflexivity.
  - cbn [app]. match goal with |- _ + len (_ :: _ :: _ :: _ :: ?l) <= _ => assert (L : (length l <= 64 * 8)%nat) end.
    { etransitivity; [apply (flat_le v_bytes 64)|]. 2:{ rewrite firstn_length, repeat_length. lia. }
      apply Forall_forall. intros a Ha. assert (a = mkV n (fill 64 0xff)) as ->. { apply (repeat_spec 8). rewrite <- (firstn_skipn k). apply in_or_app. left. exact Ha. }
      unfold v_bytes. rewrite firstn_length. cbn [v_data]. unfold fill. rewrite repeat_length. lia. }
    unfold len in *. cbn [length]. change MAX_SPDM_MSG_SIZE with 4096. lia.
Qed.
Lemma write_digest_rec E b x w y : request_code b = Some 0x81 -> write_digest E None b x = (w, y) -> rec_ok x (x_msg_a x) b y w.
Proof.
  intros Rc H. unfold write_digest in H. rewrite bind_get in H. destruct (negotiated x); [|apply (rec_err x _ b x _ _ _ eq_refl eq_refl H)].
  unfold with_version in H. rewrite bind_get in H. destruct (code_header b _ Rc) as (h & t & Rh & Hh). rewrite Rh in H. pose proof (header_split _ _ _ _ Rh Hh) as Eb.
  destruct (negb _); [apply (rec_err x _ b x _ _ _ eq_refl eq_refl H)|]. rewrite bind_mod in H.
  assert (R : reset_buffer RC_GET_DIGESTS None x = reset_b (set_x_l1l2 None x)) by reflexivity. rewrite R in H. clear R. set (x1 := reset_b (set_x_l1l2 None x)) in *.
  rewrite bind_rd in H. destruct (dec_empty t) as [p rest| |] eqn:D; [|apply (rec_err x _ b x1 _ _ _ eq_refl eq_refl H)|apply (rec_stop x _ b y x1 _ H eq_refl eq_refl)].
  assert (Bq : exists q, b = q ++ rest). { unfold dec_empty in D. apply dbind_ok in D as (a1 & l1 & E1 & D). apply d_u8_inv in E1 as ->. apply dbind_ok in D as (a2 & l2 & E2 & D). apply d_u8_inv in E2 as ->. apply dret_ok in D as [_ ->]. exists [h_version h; 129; a1; a2]. exact Eb. }
  destruct Bq as (q & Bq). unfold tryelse at 1, scatch at 1 in H. destruct (append_b_on E None (used_of b rest) x1) as [r2 x2] eqn:P2.
  destruct (b_append _ _ _ _ _ P2) as [(e & -> & -> & _)|(-> & X2)]; [apply (rec_err x _ b x1 _ _ _ eq_refl eq_refl H)|].
  assert (F2 : x_sent x2 = x_sent x /\ ver x2 = ver x) by (subst x2; split; reflexivity). destruct F2 as (S2 & V2).
  rewrite bind_get in H. destruct (hash_size (n_hash (x_nego x2))) as [n|] eqn:Hn; [|apply (rec_stop x _ b y x2 _ H S2 V2)]. unfold sbind at 1, sunwrap at 1, sret at 1 in H.
  unfold encode_or_err in H. unfold sbind at 1, wenc at 1 in H. destruct (emit_digests_any (xc x2) (ver x2) (mask_from 0 (x_my_chain x2)) n Hn) as (w0 & Em). rewrite Em in H. cbv beta iota in H. cbn [fst snd] in H.
  unfold sbind at 1, sof at 1 in H. destruct (patch_digests _ _ _ w0) as [w1|e|]. 3:{ apply (rec_stop x _ b y x2 _ H S2 V2). }
  2:{ assert (w = Err e) as -> by congruence. assert (y = x2) as -> by congruence. split; [exact S2|split; [exact V2|exact I]]. }
  unfold then_append, tryelse, scatch in H. destruct (append_b_on E None w1 x2) as [r3 x3] eqn:P3.
  destruct (b_append _ _ _ _ _ P3) as [(e & _ & _ & K)|(-> & X3)]; [subst x2; discriminate K|]. unfold sret in H. assert (w = Ok w1) as -> by congruence. assert (y = x3) as -> by congruence.
  split; [subst x3; exact S2|]. split; [subst x3; exact V2|]. right. exists q, rest. split; [exact Bq|]. rewrite Bq, used_split in X2. rewrite app_assoc. subst x3 x2. reflexivity.
Qed.
Lemma cert_emit c v slot chain o l : o <= len chain -> exists w, emit (enc_message c (cert_msg v slot chain o l)) [] = Some (true, w).
Proof.
  intro L. unfold cert_msg. eexists. eapply (emit_fits _ []).
  - unfold enc_message, enc_header, enc_payload, enc_cert_rsp. cbn [m_header m_payload h_version h_code cr_slot cr_portion cr_remainder cr_data]. rewrite !xwire_app, !xw8, !xw16, xw_arr. reflexivity.
  - cbn [app]. unfold len. cbn [length]. rewrite !app_length, !le_bytes_length, firstn_length. cbn [length]. change MAX_SPDM_MSG_SIZE with 4096. change (N.of_nat MAX_CERT_PORTION) with 512. lia.
Qed.
Lemma dec_get_cert_split r p rest : dec_get_cert r = POk p rest -> exists q, r = q ++ rest.
Proof.
  intro H. unfold dec_get_cert in H. apply dbind_ok in H as (a & l1 & E1 & H). apply d_u8_inv in E1 as ->. apply dbind_ok in H as (a2 & l2 & E2 & H). apply d_u8_inv in E2 as ->.
  apply dbind_ok in H as (n & l3 & E3 & H). apply d_u16_split in E3 as (f & -> & _). apply dbind_ok in H as (m & l4 & E4 & H). apply d_u16_split in E4 as (g & -> & _). apply dret_ok in H as [_ ->].
  exists ([a; a2] ++ f ++ g). rewrite <- !app_assoc. reflexivity.
Qed.
Lemma write_cert_rec E b x w y : request_code b = Some 0x82 -> write_certificate E None b x = (w, y) -> rec_ok x (m1m2_so_far x) b y w.
Proof.
  intros Rc H. unfold write_certificate in H. rewrite bind_get in H. destruct (negotiated x); [|apply (rec_err x _ b x _ _ _ eq_refl eq_refl H)].
  unfold with_version in H. rewrite bind_get in H. destruct (code_header b _ Rc) as (h & t & Rh & Hh). rewrite Rh in H. pose proof (header_split _ _ _ _ Rh Hh) as Eb.
  destruct (negb _); [apply (rec_err x _ b x _ _ _ eq_refl eq_refl H)|]. rewrite bind_mod in H.
  assert (R : reset_buffer RC_GET_CERTIFICATE None x = set_x_l1l2 None x) by reflexivity. rewrite R in H. clear R. set (x1 := set_x_l1l2 None x) in *.
  rewrite bind_rd in H. destruct (dec_get_cert t) as [p rest| |] eqn:D; [|apply (rec_err x _ b x1 _ _ _ eq_refl eq_refl H)|apply (rec_stop x _ b y x1 _ H eq_refl eq_refl)].
  apply dec_get_cert_split in D as (q & ->). assert (Bq : b = (h_version h :: 130 :: q) ++ rest) by exact Eb.
  destruct (gc_slot p =? 0); [|apply (rec_err x _ b x1 _ _ _ eq_refl eq_refl H)].
  unfold tryelse at 1, scatch at 1 in H. destruct (append_b_on E None (used_of b rest) x1) as [r2 x2] eqn:P2.
  destruct (b_append _ _ _ _ _ P2) as [(e & -> & -> & _)|(-> & X2)]; [apply (rec_err x _ b x1 _ _ _ eq_refl eq_refl H)|].
  assert (F2 : x_sent x2 = x_sent x /\ ver x2 = ver x) by (subst x2; split; reflexivity). destruct F2 as (S2 & V2).
  destruct (slot_of (x_my_chain x) (gc_slot p)) as [chain|]; [|apply (rec_err x _ b x2 _ _ _ S2 V2 H)]. destruct (N.leb_spec (gc_offset p) (len chain)) as [Lo|]; [|apply (rec_err x _ b x2 _ _ _ S2 V2 H)].
  unfold encode_or_err in H. unfold sbind at 1, wenc at 1 in H. destruct (cert_emit (xc x2) (ver x) (gc_slot p) chain (gc_offset p) (gc_length p) Lo) as (w0 & Em). rewrite Em in H. cbv beta iota in H. cbn [fst snd] in H.
  unfold then_append, tryelse, scatch in H. destruct (append_b_on E None w0 x2) as [r3 x3] eqn:P3.
  destruct (b_append _ _ _ _ _ P3) as [(e & _ & _ & K)|(-> & X3)]; [subst x2; discriminate K|]. unfold sret in H. assert (w = Ok w0) as -> by congruence. assert (y = x3) as -> by congruence.
  split; [subst x3; exact S2|]. split; [subst x3; exact V2|]. right. exists (h_version h :: 130 :: q), rest. split; [exact Bq|]. rewrite Bq, used_split in X2. rewrite app_assoc. subst x3 x2. reflexivity.
Qed.
(** ... where M1/M2 so far is A, then the DIGESTS exchange, which starts B anew, then each CERTIFICATE
    exchange: the requests as read, and the replies as sent *)
Theorem C76_transcript_recorded : forall E f b x r x' c,
  plain_message E f = Some b -> request_code b = Some c -> c = 0x81 \/ c = 0x82 -> process_frame E f x = (r, x') ->
  one_reply E x x' (fun m => is_error x m \/ exists q rest, b = q ++ rest /\
    x_m1m2 x' = Some ((if c =? 0x81 then x_msg_a x else m1m2_so_far x) ++ q ++ m)).
Proof.
  intros E f b x r x' c Pf Rc Hc H. rewrite (frame_plain E f b x Pf) in H. apply is_ok_inv in H as [r0 H]. destruct (code_header b _ Rc) as (h & t & Rh & Hh). unfold dispatch_message in H. rewrite Rh, Hh in H.
  assert (exists wr, (w <-- wr ;; send_message E w)%st x = (r0, x') /\ forall w y, wr x = (w, y) -> rec_ok x (if c =? 0x81 then x_msg_a x else m1m2_so_far x) b y w) as (wr & M & G).
  { destruct Hc as [-> | ->]; [exists (write_digest E None b)|exists (write_certificate E None b)]; (split; [exact H|]); intros w y W; [exact (write_digest_rec E b x w y Rc W)|exact (write_cert_rec E b x w y Rc W)]. }
  clear H. unfold sbind in M. destruct (wr x) as [o y] eqn:W. destruct (G _ _ eq_refl) as (S1 & V1 & K). destruct o as [w|e|]; [|left; congruence|left; congruence].
  pose proof (m1_send E w _ _ _ M) as Mk. unfold same_m1m2 in Mk. unfold one_reply. rewrite <- S1.
  apply (send_message_one E w y r0 x'); [|left; rewrite V1; exists 0xD, 0; reflexivity|exact M].
  destruct K as [K|(q & rest & Bq & K)]; [left; exact K|right]. exists q, rest. split; [exact Bq|]. rewrite Mk. exact K.
Qed.
Print Assumptions C76_transcript_recorded.
(** a case: the second slot is asked for *)
Lemma rp_crypto : digest_sizes (e_cr ex_env) /\ summaries_sized (e_cr ex_env) /\ records_fit (e_cr ex_env).
Proof.
  destruct PropShare.toy_sized as (_ & H1 & _ & H2). split; [|split].
  - intros alg d h H. exact (proj1 (H1 _ _ _ H)).
  - intros v alg sp mh t h H. exact (proj1 (H2 _ _ _ _ _ _ H)).
  - intros v sp mh i r H. assert (r = mkRecord 1 9 [1; 1; 5; 0; 0x81; 2; 0; 0xAB; 0xCD]) as -> by (cbn in H; congruence). split; cbn; lia.
Qed.
Definition rp_sent f := tl (hd [] (x_sent (step f rp_state))).
Example C76_case : can_sign ex_env rp_state /\ ver rp_state = 0x12 /\ plain_message ex_env f_challenge = Some (tl f_challenge) /\ request_code (tl f_challenge) = Some 0x83 /\
  x_sent (step f_challenge rp_state) = (5 :: rp_sent f_challenge) :: x_sent rp_state /\ nth_error (rp_sent f_challenge) 1 = Some 0x03 /\
  plain_message ex_env f_measure = Some (tl f_measure) /\ request_code (tl f_measure) = Some 0xE0 /\ x_sent (step f_measure rp_state) = (5 :: rp_sent f_measure) :: x_sent rp_state /\ nth_error (rp_sent f_measure) 1 = Some 0x60.
Proof.
  split. { split; [|discriminate]. intros d H. discriminate H. }
  split; [reflexivity|]. split; [vm_compute; reflexivity|]. split; [reflexivity|]. split; [vm_compute; reflexivity|]. split; [vm_compute; reflexivity|].
  split; [vm_compute; reflexivity|]. split; [reflexivity|]. split; vm_compute; reflexivity.
Qed.
