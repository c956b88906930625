(** C82: a requester built for mutual authentication answers what it is asked, and nothing else. *)
From Verif Require Import Bytes BytesFacts Status Codec Parse ParseProofs Algo Monad.
From Verif Require Import MsgConn MsgAuth MsgSession MsgOther Message Opaque Transport TransportProofs Crypto KeySchedule Session Signing CertOps ChainVerify Context
  RspBase RspConn RspSess RspEncap Responder StRel RspFrame RspCalm RspOpcode SpecResponder ReqBase ReqConn ReqSess ReqEncap SpecReq ReqFrame ReqTrans SpecRetr SpecEncap.
From Verif Require Import PropPhase SpecDer PropCert PropDigest PropAlgs PropRetr PropServe SpecMut.
From Coq Require Import Lia.
Local Open Scope N_scope.

Lemma wenc_fits m w t x : xwire (enc_message (xc x) m) = Some t -> len w + len t <= 4096 -> wenc m w x = (Ok (true, w ++ t), x).
Proof. intros X L. unfold wenc. rewrite (emit_fits _ w t X) by exact L. reflexivity. Qed.
Lemma xerror x c : xwire (enc_message (xc x) (error_msg (ver x) c 0)) = Some (error_message (ver x) c 0).
Proof. reflexivity. Qed.
Lemma encap_error_spec c w x : len w = 4 -> encap_error c w x = (Ok (w ++ error_message (ver x) c 0), x).
Proof.
  intro L. unfold encap_error, write_err, write_err_data. rewrite bind_get. unfold sbind. rewrite (wenc_fits _ w _ x (xerror x c)); [reflexivity|].
  rewrite L. unfold error_message, len. cbn [length]. lia.
Qed.
Lemma xdigests c v k n : (k < 8)%nat -> c_hash_size c = Some n ->
  xwire (enc_message c (digests_msg v (2 ^ N.of_nat k) n)) = Some ([v; 1; 0; 2 ^ N.of_nat k] ++ fill (N.to_nat n) 0xff).
Proof.
  intros Hk Hn. unfold digests_msg, enc_message. cbn [m_payload m_header]. unfold enc_payload, enc_digests_rsp. cbn [dg_mask dg_digests].
  pose proof Hn as Hc. unfold c_hash_size in Hn. apply hash_cases in Hn. apply slot_cases in Hk.
  destruct Hk as [-> |[-> |[-> |[-> |[-> |[-> |[-> | ->]]]]]]]; destruct Hn as [[E ->]|[[E ->]|[E ->]]]; unfold enc_digest; rewrite Hc; reflexivity.
Qed.

(** ** one embedded request *)
Section Serve.
Variable E : env.
Variables (k : nat) (chain : bytes) (x : ctx).
Hypothesis (HD : digest_sizes (e_cr E)) (Hk : (k < 8)%nat) (Hm : x_my_chain x = only_slot k chain).
(** [m] leaves the state alone and, if it succeeds, appends the answer to [w] *)
Definition appends (w inner : bytes) (m : st ctx bytes) : Prop := forall r z, m x = (r, z) ->
  z = x /\ forall w', r = Ok w' -> exists a, w' = w ++ a /\ answer_to E x k chain inner a.
Lemma appends_error c w inner : len w = 4 -> answer_to E x k chain inner (error_message (ver x) c 0) -> appends w inner (encap_error c w).
Proof. intros L A r z H. rewrite (encap_error_spec c w x L) in H. split; [congruence|]. intros w' ->. exists (error_message (ver x) c 0). split; [congruence|exact A]. Qed.
Lemma appends_checked v c rest w (g : bytes -> st ctx bytes) : len w = 4 -> known_request c ->
  (contains (n_req_cap (x_nego x)) 0x2 = true -> v = ver x -> appends w ([v; c] ++ rest) (g rest)) ->
  appends w ([v; c] ++ rest) (encap_checked ([v; c] ++ rest) w g).
Proof.
  intros L K G. unfold encap_checked. intros r z H. rewrite bind_get in H. change REQ_CERT with 0x2 in H.
  destruct (contains (n_req_cap (x_nego x)) 0x2) eqn:C; cbn [negb] in H.
  - change (read_header ([v; c] ++ rest)) with (Some (mkHeader v c, rest)) in H. cbv iota beta in H. cbn [h_version] in H.
    destruct (N.eqb_spec v (ver x)) as [V|V]; cbn [negb] in H; [exact (G eq_refl V r z H)|].
    refine (appends_error _ w _ L _ r z H). now apply an_version.
  - refine (appends_error _ w _ L _ r z H). now apply an_unsupported.
Qed.
Lemma serve_digests_spec v rest w : len w = 4 -> (2 <= length rest)%nat -> appends w ([v; 0x81] ++ rest) (serve_digests E ([v; 0x81] ++ rest) w).
Proof.
  intros L R. unfold serve_digests. apply appends_checked; [exact L|now left|]. intros C ->. destruct rest as [|p1 [|p2 rest]]; [cbn in R; lia|cbn in R; lia|].
  intros r z H. unfold sbind at 1, rd at 1 in H. change (dec_empty (p1 :: p2 :: rest)) with (POk tt rest) in H. cbv beta iota in H. rewrite bind_get in H.
  unfold sbind at 1, sunwrap at 1 in H. destruct (hash_size (n_hash (x_nego x))) as [n|] eqn:Hn; [|unfold spanic in H; split; [congruence|intros; congruence]].
  unfold sret at 1 in H. cbv beta iota in H. rewrite Hm, only_mask in H by exact Hk.
  assert (B : len ([ver x; 1; 0; 2 ^ N.of_nat k] ++ fill (N.to_nat n) 0xff) <= 68).
  { rewrite len_app. unfold len, fill. rewrite repeat_length. apply hash_cases in Hn. cbn [length]. destruct Hn as [[_ ->]|[[_ ->]|[_ ->]]]; lia. }
  unfold sbind at 1 in H. rewrite (wenc_fits _ w _ x (xdigests (xc x) (ver x) k n Hk Hn)) in H by lia. cbv beta iota in H. cbn [fst snd negb] in H.
  rewrite (patch_only _ _ k chain _ Hk) in H. unfold sof in H. destruct (cr_hash (e_cr E) (n_hash (x_nego x)) chain) as [d|] eqn:Hd.
  2:{ split; [congruence|intros; congruence]. }
  pose proof (HD _ _ _ Hd) as Ln. assert (Ld : length d = N.to_nat n) by (unfold len in Ln; rewrite Hn in Ln; injection Ln as ->; lia).
  destruct (_ <? _); [split; [congruence|intros; congruence]|]. split; [congruence|]. intros w' ->.
  exists (digests_message (ver x) (2 ^ N.of_nat k) [d]). split; [|now apply an_digests].
  assert (W : w' = patch (length (w ++ [ver x; 1; 0; 2 ^ N.of_nat k] ++ fill (N.to_nat n) 255) - length d) d (w ++ [ver x; 1; 0; 2 ^ N.of_nat k] ++ fill (N.to_nat n) 255)) by congruence.
  rewrite W. clear W H. unfold digests_message. cbn [concat]. rewrite app_nil_r. unfold patch. rewrite !app_length. unfold fill. rewrite repeat_length. cbn [length].
  replace (length w + (4 + N.to_nat n) - length d)%nat with (length w + 4)%nat by lia.
  rewrite firstn_app_2. rewrite (skipn_all2 (n := length w + 4 + length d)) by (rewrite !app_length, repeat_length; cbn [length]; lia).
  rewrite app_nil_r, <- app_assoc. reflexivity.
Qed.
Lemma slot_zero : slot_of (x_my_chain x) 0 = match k with O => Some chain | _ => None end.
Proof. rewrite Hm. unfold slot_of. destruct k; reflexivity. Qed.
Lemma serve_certificate_spec v rest w : len w = 4 -> (6 <= length rest)%nat -> appends w ([v; 0x82] ++ rest) (serve_certificate E ([v; 0x82] ++ rest) w).
Proof.
  intros L R. unfold serve_certificate. apply appends_checked; [exact L|now right|]. intros C ->.
  destruct rest as [|sl [|rs [|o1 [|o2 [|w1 [|w2 rest]]]]]]; cbn [length] in R; try lia. clear R.
  intros r z H. unfold sbind at 1, rd at 1 in H.
  change (dec_get_cert (sl :: rs :: o1 :: o2 :: w1 :: w2 :: rest)) with (POk (mkGetCert sl (le_val [o1; o2]) (le_val [w1; w2])) rest) in H.
  cbv beta iota in H. cbn [gc_slot gc_offset gc_length] in H.
  assert (Rf : (sl <> 0 \/ k <> 0%nat \/ len chain < le_val [o1; o2]) -> appends w ([ver x; 0x82] ++ sl :: rs :: o1 :: o2 :: w1 :: w2 :: rest) (encap_error ERR_INVALID_REQUEST w)).
  { intro D. apply appends_error; [exact L|]. exact (an_refused E x k chain sl rs [o1; o2] [w1; w2] rest C eq_refl eq_refl D). }
  destruct (N.eqb_spec sl 0) as [-> |S]; cbn [negb] in H; [|exact (Rf (or_introl S) r z H)].
  rewrite bind_get in H. destruct (Nat.eq_dec k 0) as [K|K].
  2:{ assert (Sz : slot_of (x_my_chain x) 0 = None) by (rewrite slot_zero; destruct k; congruence). rewrite Sz in H. exact (Rf (or_intror (or_introl K)) r z H). }
  assert (Sz : slot_of (x_my_chain x) 0 = Some chain) by (rewrite slot_zero, K; reflexivity). rewrite Sz in H. clear Sz.
  destruct (N.ltb_spec (len chain) (le_val [o1; o2])) as [Lo|Lo]; [exact (Rf (or_intror (or_intror Lo)) r z H)|].
  set (a := certificate_bytes (ver x) 0 (slice_of chain (le_val [o1; o2]) (le_val [w1; w2])) (len chain - le_val [o1; o2] - len (slice_of chain (le_val [o1; o2]) (le_val [w1; w2])))).
  assert (B : len a <= 520).
  { assert (S5 : len (slice_of chain (le_val [o1; o2]) (le_val [w1; w2])) <= 512) by (unfold slice_of, len; rewrite firstn_length; lia).
    unfold a, certificate_bytes. clear a H Rf. set (y := slice_of _ _ _) in *. clearbody y. rewrite !len_app.
    assert (L2 : forall u, len (le_bytes 2 u) = 2) by (intro; unfold len; now rewrite le_bytes_length). rewrite !L2. change (len [ver x; 2; 0; 0]) with 4. lia. }
  unfold sbind in H. rewrite (wenc_fits _ w a x (xcert x (ver x) chain _ _ Lo)) in H by lia. unfold sret in H. cbn [snd] in H.
  split; [congruence|]. intros w' ->. exists a. split; [congruence|]. exact (an_certificate E x k chain rs [o1; o2] [w1; w2] rest C K eq_refl eq_refl Lo).
Qed.
End Serve.

(** ** frames *)
Lemma unchanged_of x z : keeps x z -> keys x z -> unchanged x z.
Proof. intros K S. unfold keeps in K. assert (L : x_lslot z = x_lslot x) by (rewrite K; destruct x; reflexivity). split; [rewrite L, K at 1; destruct x; reflexivity|exact S]. Qed.
Lemma unchanged_refl x : unchanged x x. Proof. split; [destruct x|]; reflexivity. Qed.
Lemma unchanged_trans x y z : unchanged x y -> unchanged y z -> unchanged x z.
Proof. intros [A B] [C D]. split; [rewrite A in C; rewrite C at 1; destruct x; reflexivity|congruence]. Qed.
Lemma unchanged_facts x z : unchanged x z -> x_nego z = x_nego x /\ x_my_chain z = x_my_chain x /\ ver z = ver x.
Proof. intros [A _]. rewrite A. destruct x. repeat split. Qed.
Lemma unchanged_lslot n x : unchanged x (set_x_lslot n x).
Proof. split; [destruct x|]; reflexivity. Qed.
Lemma send_secured_says E id m x r z : req_send_secured E id m false x = (r, z) ->
  unchanged x z /\ (x_sent z = x_sent x /\ r <> Ok tt \/ exists t, sent_as E (Some id) m t /\ x_sent z = t :: x_sent x).
Proof.
  intro H. split.
  - apply unchanged_of; [exact (keeps_send_on E (Some id) m x r z H)|exact (keys_send_on E (Some id) m x r z H)].
  - destruct r as [[]|e|].
    + destruct (send_on_ok E (Some id) m x tt z H) as (t & _ & S & _ & A). eauto.
    + left. split; [|discriminate]. unfold req_send_secured in H. rewrite bind_get in H. destruct (negb false && req_too_large x m); unfold sfail_if in H; [unfold sbind, serr in H; congruence|].
      unfold sbind at 1, sret at 1 in H. unfold sbind at 1 in H. destruct (encode_secured_message E id m true false x) as [o y] eqn:Ec.
      pose proof (quiet_encode_secured _ _ _ _ _ _ _ _ Ec) as [Q _]. destruct o; [|congruence|congruence].
      destruct (io_send_cases _ _ _ _ _ H) as [[A _]|[_ A]]; congruence.
    + left. split; [|discriminate]. unfold req_send_secured in H. rewrite bind_get in H. destruct (negb false && req_too_large x m); unfold sfail_if in H; [unfold sbind, serr in H; congruence|].
      unfold sbind at 1, sret at 1 in H. unfold sbind at 1 in H. destruct (encode_secured_message E id m true false x) as [o y] eqn:Ec.
      pose proof (quiet_encode_secured _ _ _ _ _ _ _ _ Ec) as [Q _]. destruct o; [|congruence|congruence].
      destruct (io_send_cases _ _ _ _ _ H) as [[A _]|[_ A]]; congruence.
Qed.
Definition answers (E : env) (id : N) (k : nat) (chain : bytes) (rid : N) (inner : bytes) (x : ctx) (r : outcome unit) (z : ctx) : Prop := unchanged x z /\
  (x_sent z = x_sent x /\ r <> Ok tt \/ exists a t, answer_to E x k chain inner a /\ sent_as E (Some id) (deliver_encap (ver x) rid 0 a) t /\ x_sent z = t :: x_sent x).
Section Rounds.
Variable E : env.
Variables (id : N) (k : nat) (chain : bytes).
Hypothesis (HD : digest_sizes (e_cr E)) (Hk : (k < 8)%nat).
Lemma process_answers rid v c rest x r z : x_my_chain x = only_slot k chain -> (2 <= length rest)%nat -> (c = 0x82 -> (6 <= length rest)%nat) ->
  process_encap_request E id rid ([v; c] ++ rest) x = (r, z) -> answers E id k chain rid ([v; c] ++ rest) x r z.
Proof.
  intros Hm L2 L6 H. unfold process_encap_request in H. rewrite bind_get in H. unfold sbind at 1 in H.
  assert (X : xwire (enc_message (xc x) (mkMsg (mkHeader (ver x) RC_DELIVER_ENCAP) (PDeliverEncap rid))) = Some [ver x; 0xEB; rid; 0]) by reflexivity.
  rewrite (wenc_fits _ [] _ x X) in H by (unfold len; cbn [length]; lia). cbv beta iota in H. cbn [fst snd negb] in H.
  unfold sbind at 1, sfail_if, sret at 1 in H. change ([] ++ [ver x; 0xEB; rid; 0]) with [ver x; 0xEB; rid; 0] in H. change (read_header ([v; c] ++ rest)) with (Some (mkHeader v c, rest)) in H. cbv iota beta in H. cbn [h_code] in H.
  change RC_GET_DIGESTS with 0x81 in H. change RC_GET_CERTIFICATE with 0x82 in H.
  change (read_header ([v; c] ++ rest)) with (Some (mkHeader v c, rest)) in H.
  set (m := if c =? 0x81 then serve_digests E ([v; c] ++ rest) [ver x; 0xEB; rid; 0] else if c =? 0x82 then serve_certificate E ([v; c] ++ rest) [ver x; 0xEB; rid; 0] else encap_error ERR_UNEXPECTED_REQUEST [ver x; 0xEB; rid; 0]) in H.
  assert (A : appends E k chain x [ver x; 0xEB; rid; 0] ([v; c] ++ rest) m).
  { unfold m. destruct (N.eqb_spec c 0x81) as [-> |C1]; [apply serve_digests_spec; auto|].
    destruct (N.eqb_spec c 0x82) as [-> |C2]; [apply serve_certificate_spec; auto|].
    apply appends_error; [reflexivity|]. apply an_unknown. unfold known_request. tauto. }
  unfold sbind in H. destruct (m x) as [o y] eqn:M. destruct (A o y M) as [-> W].
  destruct o as [w| |]; [|replace z with x by congruence; split; [apply unchanged_refl|left; split; [reflexivity|congruence]]|replace z with x by congruence; split; [apply unchanged_refl|left; split; [reflexivity|congruence]]].
  destruct (W w eq_refl) as (a & -> & An). destruct (send_secured_says _ _ _ _ _ _ H) as [U [S|(t & S1 & S2)]]; (split; [exact U|]); [left; exact S|right]. exists a, t. auto.
Qed.
Lemma recv_secured_quiet x r z : req_recv_secured E id false x = (r, z) -> unchanged x z /\ x_sent z = x_sent x.
Proof.
  intro H. split; [apply unchanged_of; [exact (keeps_recv_on E (Some id) false x r z H)|exact (keys_recv_on E (Some id) false x r z H)]|].
  unfold req_recv_secured in H. unfold sbind at 1 in H. destruct (req_timeout false x) as [o y] eqn:T.
  assert (y = x) as -> by (unfold req_timeout in T; rewrite bind_get in T; unfold sassert in T; destruct (negb false || _); unfold sret, spanic in T; congruence).
  destruct o; [|congruence|congruence]. unfold sbind at 1 in H. destruct (io_recv E x) as [o y] eqn:I.
  assert (S : x_sent y = x_sent x) by (unfold io_recv in I; match type of I with (_, ?u) = _ => replace y with u by congruence end; reflexivity).
  destruct o as [[t|]| |]; [|unfold sbind, sok, serr in H; congruence|congruence|congruence]. unfold sbind at 1, sok, sret at 1 in H.
  assert (Q : rel quiet (decode_secured_message E id MAX_SPDM_MSG_SIZE t)) by (unfold decode_secured_message; rl quiet_pre; apply quiet_on_sess).
  destruct (Q _ _ _ H) as [Q1 _]. congruence.
Qed.
(** what a receiving function does, with result [r]: no frame went out and nothing was accepted, or it was a round *)
Definition took (x z : ctx) : Prop := unchanged x z /\ x_sent z = x_sent x \/ round E id k chain x z.
Lemma took_from f b n inner x y r z : e_recv E (x_io x) (x_sent x) = Some f -> secured_response E id f b ->
  unchanged x y -> x_sent y = x_sent x ->
  encap_request (ver x) n inner (in_buffer b) \/ encap_next (ver x) n inner (in_buffer b) ->
  answers E id k chain n inner y r z -> took x z /\ (r = Ok tt -> round E id k chain x z).
Proof.
  intros R S U Sy M [Uz [[Q Qr]|(a & t & An & Sa & Sz)]].
  - split; [left; split; [exact (unchanged_trans _ _ _ U Uz)|congruence]|tauto].
  - enough (round E id k chain x z) by (split; [now right|auto]). destruct (unchanged_facts _ _ U) as (N1 & M1 & V1). exists f, b, n, inner, a. split; [exact R|]. split; [exact S|]. split; [exact M|]. split.
    + destruct An; try rewrite V1 in *; try rewrite N1 in *; econstructor; eauto; congruence.
    + split; [exact (unchanged_trans _ _ _ U Uz)|]. exists t. rewrite V1 in Sa. split; [exact Sa|congruence].
Qed.
Lemma buffer_shape b : exists v c a0 a1 a2 a3 a4 a5 a6 a7 a8 a9 rest, (6 <= length rest)%nat /\
  in_buffer b = v :: c :: a0 :: a1 :: a2 :: a3 :: a4 :: a5 :: a6 :: a7 :: a8 :: a9 :: rest.
Proof.
  assert (L : (18 <= length (in_buffer b))%nat) by (unfold in_buffer; rewrite app_length, firstn_length, repeat_length; lia).
  revert L. generalize (in_buffer b). intros l L. do 12 (destruct l as [|? l]; [cbn [length] in L; lia|]). cbn [length] in L.
  repeat eexists. lia.
Qed.
Lemma recv_request_took x r z : x_my_chain x = only_slot k chain -> recv_encap_request E id x = (r, z) -> took x z /\ (r = Ok tt -> round E id k chain x z).
Proof.
  intros Hm H. unfold recv_encap_request in H. unfold sbind at 1 in H. destruct (req_recv_secured E id false x) as [o y] eqn:R.
  destruct (recv_secured_quiet _ _ _ R) as [U Sy]. destruct (unchanged_facts _ _ U) as (N1 & M1 & V1).
  destruct o as [b| |]; [|split; [left; replace z with y by congruence; auto|congruence]|split; [left; replace z with y by congruence; auto|congruence]].
  destruct (recv_on_ok E (Some id) false x b y R) as (f & Rf & Rs & _). cbn [response_in] in Rs.
  unfold encap_expect in H. rewrite bind_get in H. change (recv_buffer b) with (in_buffer b) in H.
  destruct (buffer_shape b) as (v & c & a0 & a1 & a2 & a3 & a4 & a5 & a6 & a7 & a8 & a9 & rest & Lr & Eb). rewrite Eb in H.
  change (read_header (v :: c :: ?l)) with (Some (mkHeader v c, l)) in H. cbv iota beta in H. cbn [h_version h_code] in H.
  destruct (N.eqb_spec v (ver y)) as [-> |]; [|unfold serr in H; cbn [andb negb] in H; split; [left; replace z with y by congruence; auto|congruence]].
  destruct (N.eqb_spec c RC_ENCAP_REQUEST) as [-> |]; [|unfold serr in H; cbn [andb negb] in H; split; [left; replace z with y by congruence; auto|congruence]].
  cbn [andb negb] in H. unfold sbind at 1, rd at 1 in H.
  change (dec_encap_id (a0 :: a1 :: ?l)) with (POk a0 l) in H. cbv beta iota in H.
  assert (A : answers E id k chain a0 ([a2; a3] ++ a4 :: a5 :: a6 :: a7 :: a8 :: a9 :: rest) y r z).
  { apply (process_answers a0 a2 a3 (a4 :: a5 :: a6 :: a7 :: a8 :: a9 :: rest) y r z); [congruence|cbn [length]; lia|cbn [length]; lia|exact H]. }
  refine (took_from f b a0 _ x y r z Rf Rs U Sy (or_introl _) A). exists a1. rewrite Eb, V1. reflexivity.
Qed.
Lemma recv_ack_took x r z : x_my_chain x = only_slot k chain -> recv_encap_ack E id x = (r, z) ->
  took x z /\ (r = Ok true -> round E id k chain x z) /\ (r = Ok false -> closing E id x z).
Proof.
  intros Hm H. unfold recv_encap_ack in H. unfold sbind at 1 in H. destruct (req_recv_secured E id false x) as [o y] eqn:R.
  destruct (recv_secured_quiet _ _ _ R) as [U Sy]. destruct (unchanged_facts _ _ U) as (N1 & M1 & V1).
  assert (F : z = y -> (forall b, r <> Ok b) -> took x z /\ (r = Ok true -> round E id k chain x z) /\ (r = Ok false -> closing E id x z)).
  { intros -> Hr. split; [left; auto|]. split; intro Q; destruct (Hr _ Q). }
  destruct o as [b| |]; [|apply F; congruence|apply F; congruence].
  destruct (recv_on_ok E (Some id) false x b y R) as (f & Rf & Rs & _). cbn [response_in] in Rs.
  unfold encap_expect in H. rewrite bind_get in H. change (recv_buffer b) with (in_buffer b) in H.
  destruct (buffer_shape b) as (v & c & a0 & a1 & a2 & a3 & a4 & a5 & a6 & a7 & a8 & a9 & rest & Lr & Eb). rewrite Eb in H.
  change (read_header (v :: c :: ?l)) with (Some (mkHeader v c, l)) in H. cbv iota beta in H. cbn [h_version h_code] in H.
  destruct (N.eqb_spec v (ver y)) as [-> |]; [|unfold serr in H; cbn [andb negb] in H; apply F; congruence].
  destruct (N.eqb_spec c RC_ENCAP_RESPONSE_ACK) as [-> |]; [|unfold serr in H; cbn [andb negb] in H; apply F; congruence].
  cbn [andb negb] in H.
  (* what follows the fixed part *)
  assert (D : exists ai acked tl, rd dec_encap_ack (a0 :: a1 :: a2 :: a3 :: a4 :: a5 :: a6 :: a7 :: a8 :: a9 :: rest) y = (Ok (Some (mkEncapAck a0 a1 ai, tl)), y) /\
    (8 <= length tl)%nat /\ a2 :: a3 :: a4 :: a5 :: a6 :: a7 :: a8 :: a9 :: rest = acked ++ tl /\ length acked = if 0x12 <=? ver x then 4%nat else 0%nat).
  { unfold rd, dec_encap_ack. rewrite <- V1. change (ver_ge (xc y) V12) with (0x12 <=? ver y). destruct (0x12 <=? ver y).
    - exists a2, [a2; a3; a4; a5], (a6 :: a7 :: a8 :: a9 :: rest). split; [reflexivity|]. split; [cbn [length]; lia|]. split; reflexivity.
    - exists 0, [], (a2 :: a3 :: a4 :: a5 :: a6 :: a7 :: a8 :: a9 :: rest). split; [reflexivity|]. split; [cbn [length]; lia|]. split; reflexivity. }
  destruct D as (ai & acked & tl & D & Lt & Et & La). unfold sbind at 1 in H. rewrite D in H. cbv beta iota in H. cbn [ek_type ek_id] in H. clear D.
  assert (Eb' : in_buffer b = [ver x; 0x6B; a0; a1] ++ acked ++ tl) by (rewrite Eb, Et, V1; reflexivity).
  destruct (N.eqb_spec a1 0) as [-> |T0].
  - destruct (N.eqb_spec (len b) 8) as [Lb|Lb]; [|unfold serr in H; apply F; congruence]. unfold sret in H. replace z with y in * by congruence.
    split; [now left|]. split; [congruence|]. intros _. split; [exact U|]. split; [exact Sy|]. exists f, b. split; [exact Rf|]. split; [exact Rs|]. left.
    split; [exact Lb|]. split; [exists a0, (acked ++ tl); exact Eb'|].
    pose proof (keeps_recv_on E (Some id) false x _ y R) as K. unfold keeps in K. rewrite K. destruct x; reflexivity.
  - destruct (N.eqb_spec a1 2) as [-> |T2].
    + destruct (N.eqb_spec (len b) 9) as [Lb|Lb]; [|unfold serr in H; apply F; congruence]. destruct tl as [|slot tl]; [cbn [length] in Lt; lia|].
      unfold sbind at 1, rd at 1 in H. change (d_u8 (slot :: tl)) with (POk slot tl) in H. cbv beta iota in H.
      destruct (N.leb_spec 8 slot) as [Ls|Ls]; [unfold serr in H; apply F; congruence|]. unfold sbind, smod, sret in H. replace z with (set_x_lslot slot y) in * by congruence.
      assert (Uz : unchanged x (set_x_lslot slot y)) by (exact (unchanged_trans _ _ _ U (unchanged_lslot slot y))).
      split; [left; split; [exact Uz|destruct y; exact Sy]|]. split; [congruence|]. intros _. split; [exact Uz|]. split; [destruct y; exact Sy|]. exists f, b. split; [exact Rf|]. split; [exact Rs|]. right.
      assert (Sl : x_lslot (set_x_lslot slot y) = slot) by (destruct y; reflexivity). rewrite Sl.
      split; [exact Lb|]. split; [exists a0, acked, tl; split; [exact Eb'|exact La]|exact Ls].
    + destruct tl as [|v' [|c' tl]]; cbn [length] in Lt; try lia.
      unfold sbind in H. destruct (process_encap_request E id a0 (v' :: c' :: tl) y) as [o w] eqn:P.
      assert (A : answers E id k chain a0 ([v'; c'] ++ tl) y o w).
      { apply (process_answers a0 v' c' tl y o w); [congruence|lia|lia|exact P]. }
      destruct (took_from f b a0 _ x y o w Rf Rs U Sy (or_intror (ex_intro _ a1 (ex_intro _ acked (conj T0 (conj T2 (conj Eb' La)))))) A) as [B1 B2].
      destruct o as [[]| |]; unfold sret in H; (replace z with w by congruence); (split; [exact B1|]); (split; [intro; try apply B2; congruence|intro; congruence]).
Qed.

(** ** the whole exchange *)
Lemma construct_presents x : provisioned (e_cr E) x k chain -> construct_my_cert_chain (e_cr E) x = (Ok tt, presenting k chain x).
Proof.
  intros (M & root & more & h & D & B & Hh & Ec & L). unfold construct_my_cert_chain, presenting. rewrite D.
  assert (S1 : construct_slot (e_cr E) (n_hash (x_nego x)) None (Some (root ++ more)) = Ok (Some chain)).
  { unfold construct_slot. pose proof (proj1 (C46_lookup_finds [] root more (Forall_nil _) B)) as G. cbv zeta in G. cbn [concat length app] in G. change (Z.of_nat 0) with 0%Z in G. rewrite G.
    change (len []) with 0. rewrite N.add_0_l, N.sub_0_r. unfold slice. cbn [N.to_nat skipn]. unfold len at 1. rewrite Nat2N.id.
    assert (F : firstn (length root) (root ++ more) = root) by (rewrite firstn_app, firstn_all, Nat.sub_diag; cbn [firstn]; apply app_nil_r). rewrite F, Hh.
    unfold build_chain. rewrite Ec in L. rewrite !len_app in L. unfold len in L at 1. rewrite le_bytes_length in L. change (len [0; 0]) with 2 in L.
    rewrite (proj2 (N.ltb_ge _ _)) by (rewrite len_app; lia). rewrite (proj2 (N.ltb_ge _ _)) by (rewrite len_app; lia). cbn [obind]. do 2 f_equal. rewrite Ec. rewrite !len_app.
    replace (4 + len h + (len root + len more)) with (4 + (len h + (len root + len more))) by lia. set (n := 4 + (len h + (len root + len more))) in *.
    assert (Ln : n < 65536) by lia. cbn [le_bytes app]. rewrite (N.mod_small (n / 256) 256) by (apply N.div_lt_upper_bound; lia). reflexivity. }
  assert (S0 : forall c, construct_slot (e_cr E) (n_hash (x_nego x)) (Some c) (Some (root ++ more)) = Ok (Some c)) by reflexivity.
  assert (SN : construct_slot (e_cr E) (n_hash (x_nego x)) None None = Ok None) by reflexivity.
  assert (C : construct_slots (e_cr E) (n_hash (x_nego x)) (x_my_chain x) (only_slot k (root ++ more)) = (Ok tt, only_slot k chain)).
  { pose proof (slot_cases k Hk) as K. set (dt := root ++ more : bytes) in *. clearbody dt. destruct M as [-> | ->];
    destruct K as [-> |[-> |[-> |[-> |[-> |[-> |[-> | ->]]]]]]]; unfold only_slot; cbn [Nat.sub repeat app construct_slots]; unfold bytes in *; repeat (first [rewrite SN|rewrite S1|rewrite S0]; cbv iota beta); reflexivity. }
  rewrite C. reflexivity.
Qed.
Lemma conv_unchanged x z : conversation E id k chain x z -> unchanged x z.
Proof.
  induction 1 as [z U _|z [U _]|z d _ [U _]|y z _ IH (f & b & n & i & a & _ & _ & _ & _ & U & _)|y z _ IH U _]; try exact U; exact (unchanged_trans _ _ _ IH U).
Qed.
Lemma conv_took x y z : conversation E id k chain x y -> took y z -> conversation E id k chain x z.
Proof. intros C [[U S]|R]; [exact (cv_quiet _ _ _ _ _ y z C U S)|exact (cv_round _ _ _ _ _ y z C R)]. Qed.
(** a conversation that got at least one answer out, and then the closing message *)
Definition finished (x z : ctx) : Prop := exists y, conversation E id k chain x y /\ closing E id y z /\ x_sent y <> x_sent x.
Lemma loop_conv fuel : forall x y r z, x_my_chain x = only_slot k chain -> conversation E id k chain x y ->
  (exists n, length (x_sent y) = (length (x_sent x) + S n)%nat) ->
  encap_loop E id fuel y = (r, z) -> conversation E id k chain x z /\ (r = Ok (Some tt) -> finished x z).
Proof.
  induction fuel as [|fuel IH]; intros x y r z Hm C [n Ln] H; cbn [encap_loop] in H.
  - unfold sret in H. replace z with y by congruence. split; [exact C|intro; congruence].
  - destruct (unchanged_facts _ _ (conv_unchanged _ _ C)) as (_ & M1 & _).
    unfold sbind in H. destruct (recv_encap_ack E id y) as [o w] eqn:R. destruct (recv_ack_took y o w ltac:(congruence) R) as (T & T1 & T2).
    pose proof (conv_took _ _ _ C T) as Cw. destruct o as [[|]| |].
    + destruct (T1 eq_refl) as (f & b & rid & i & a & _ & _ & _ & _ & _ & t & _ & St).
      assert (Lw : length (x_sent w) = (length (x_sent x) + S (S n))%nat) by (rewrite St; cbn [length]; lia).
      apply (IH x w r z Hm Cw); [now exists (S n)|exact H].
    + unfold sret in H. replace z with w by congruence. split; [exact Cw|]. intros _. exists y. split; [exact C|]. split; [exact (T2 eq_refl)|intro Q; rewrite Q in Ln; lia].
    + replace z with w by congruence. split; [exact Cw|congruence].
    + replace z with w by congruence. split; [exact Cw|congruence].
Qed.
Lemma req_enc_fits m t x : xwire (enc_message (xc x) m) = Some t -> xcount (enc_message (xc x) m) = len t -> len t <= 4096 -> req_enc m x = (Ok t, x).
Proof.
  intros X Xc L. unfold req_enc. rewrite bind_get. unfold sbind at 1. rewrite (wenc_fits m [] t x X) by (rewrite len_nil; lia). cbv beta iota. cbn [fst snd negb app].
  unfold sbind at 1, sfail_if, sret at 1. cbv zeta. rewrite Xc, (proj2 (N.leb_le _ _)) by exact L. unfold sbind, sassert, sret. do 2 f_equal. f_equal.
  unfold pad_to, len in *. rewrite Nat2N.id. rewrite (firstn_all2 (n := N.to_nat MAX_SPDM_MSG_SIZE)) by (change (N.to_nat MAX_SPDM_MSG_SIZE) with (N.to_nat 4096); lia).
  rewrite firstn_app, firstn_all, Nat.sub_diag. cbn [firstn]. apply app_nil_r.
Qed.
Lemma exchange_conv mut fuel x r z : x_my_chain x = only_slot k chain -> encap_exchange E id mut fuel x = (r, z) ->
  conversation E id k chain x z /\ (r = Ok (Some tt) -> finished x z).
Proof.
  intros Hm H. unfold encap_exchange in H. rewrite bind_get in H.
  assert (No : z = x -> (r <> Ok (Some tt)) -> conversation E id k chain x z /\ (r = Ok (Some tt) -> finished x z)).
  { intros -> Hr. split; [apply cv_none; [apply unchanged_refl|reflexivity]|tauto]. }
  destruct (ver x <? 0x11); unfold sfail_if in H; [unfold sbind, serr in H; apply No; congruence|]. unfold sbind at 1, sret at 1 in H.
  destruct (negb _ || negb _); [unfold sbind, serr in H; apply No; congruence|]. unfold sbind at 1, sret at 1 in H.
  unfold sbind at 1 in H. match type of H with (let (_, _) := ?m in _) = _ => destruct m as [o w] eqn:F end.
  enough (G : conversation E id k chain x w /\ (o = Ok tt -> exists n, length (x_sent w) = (length (x_sent x) + S n)%nat)).
  { destruct G as [C G]. destruct o as [[]| |].
    - exact (loop_conv fuel x w r z Hm C (G eq_refl) H).
    - replace z with w by congruence. split; [exact C|congruence].
    - replace z with w by congruence. split; [exact C|congruence]. }
  clear H No. destruct (N.eqb_spec mut 4) as [-> |M].
  - unfold sbind at 1 in F. rewrite (req_enc_fits (mkMsg (mkHeader (ver x) RC_GET_DIGESTS) PGetDigests) [ver x; 0x81; 0; 0] x eq_refl eq_refl) in F by (unfold len; cbn [length]; lia). cbv beta iota in F.
    change (pad_to 4 [ver x; 0x81; 0; 0]) with ([ver x; 0x81] ++ [0; 0]) in F.
    destruct (process_answers 0 (ver x) 0x81 [0; 0] x o w Hm ltac:(cbn [length]; lia) ltac:(discriminate) F) as [U [[S So]|(a & t & A & Sa & St)]].
    + split; [exact (cv_none _ _ _ _ _ w U S)|tauto].
    + split; [apply (cv_digests _ _ _ _ _ w a A); split; [exact U|eauto]|]. intros _. exists 0%nat. rewrite St. cbn [length]. lia.
  - unfold sbind in F. destruct (send_get_encap E id x) as [o1 w1] eqn:S1.
    assert (C1 : conversation E id k chain x w1 /\ (o1 = Ok tt -> length (x_sent w1) = S (length (x_sent x)))).
    { unfold send_get_encap in S1. rewrite bind_get in S1. unfold sbind at 1 in S1.
      rewrite (req_enc_fits (mkMsg (mkHeader (ver x) RC_GET_ENCAP) PGetEncap) [ver x; 0xEA; 0; 0] x eq_refl eq_refl) in S1 by (unfold len; cbn [length]; lia). cbv beta iota in S1.
      destruct (send_secured_says _ _ _ _ _ _ S1) as [U [[S So]|(t & Sa & St)]].
      - split; [exact (cv_none _ _ _ _ _ w1 U S)|tauto].
      - split; [apply cv_get; split; [exact U|eauto]|]. intros _. now rewrite St. }
    destruct C1 as [C1 L1]. destruct o1 as [[]| |]; [|replace w with w1 by congruence; split; [exact C1|congruence]|replace w with w1 by congruence; split; [exact C1|congruence]].
    destruct (unchanged_facts _ _ (conv_unchanged _ _ C1)) as (_ & M1 & _).
    destruct (recv_request_took w1 o w ltac:(congruence) F) as [T T1]. split; [exact (conv_took _ _ _ C1 T)|]. intros ->.
    destruct (T1 eq_refl) as (f & b & rid & i & a & _ & _ & _ & _ & _ & t & _ & St). exists 1%nat. rewrite St. cbn [length]. rewrite (L1 eq_refl). lia.
Qed.
End Rounds.

Lemma presenting_sess id k chain x : get_sess id (presenting k chain x) = get_sess id x.
Proof. destruct x; reflexivity. Qed.
Lemma presenting_chain k chain x : x_my_chain (presenting k chain x) = only_slot k chain.
Proof. destruct x; reflexivity. Qed.
(** C82: whatever [mutual_authenticate] sends, from its beginning to whatever end it comes to, is the request for
    encapsulated requests (or the unsolicited digests) and one correct answer to each of them *)
Theorem C82_each_encapsulated_request_is_answered_as_asked :
  forall E id fuel k chain x r z, digest_sizes (e_cr E) -> (k < 8)%nat -> provisioned (e_cr E) x k chain ->
  mutual_authenticate E id fuel x = (r, z) -> conversation E id k chain (presenting k chain x) z.
Proof.
  intros E id fuel k chain x r z HD Hk A H. unfold mutual_authenticate in H. unfold sbind at 1 in H. rewrite (construct_presents E k chain Hk x A) in H.
  pose proof (presenting_chain k chain x) as Hm. set (w := presenting k chain x) in *. clearbody w. clear A.
  rewrite bind_get in H. assert (No : z = w -> conversation E id k chain w z) by (intros ->; apply cv_none; [apply unchanged_refl|reflexivity]).
  unfold sbind, sok in H. destruct (get_sess id w) as [s|]; [|unfold serr in H; apply No; congruence]. unfold sret at 1 in H.
  destruct (s_mut_auth s =? 1); [unfold sret in H; apply No; congruence|].
  destruct (_ || _); [exact (proj1 (exchange_conv E id k chain HD Hk _ fuel w r z Hm H))|unfold serr in H; apply No; congruence].
Qed.
Print Assumptions C82_each_encapsulated_request_is_answered_as_asked.
(** ... and it succeeds (when certificates have to be retrieved) only after an answer and the closing message *)
Theorem C82_success_follows_the_closing_message :
  forall E id fuel k chain x z s, digest_sizes (e_cr E) -> (k < 8)%nat -> provisioned (e_cr E) x k chain ->
  get_sess id x = Some s -> s_mut_auth s <> 1 ->
  mutual_authenticate E id fuel x = (Ok (Some tt), z) ->
  exists y, conversation E id k chain (presenting k chain x) y /\ closing E id y z /\ x_sent y <> x_sent x.
Proof.
  intros E id fuel k chain x z s HD Hk A G M H. unfold mutual_authenticate in H. unfold sbind at 1 in H. rewrite (construct_presents E k chain Hk x A) in H.
  rewrite bind_get in H. unfold sbind, sok in H. rewrite presenting_sess, G in H. unfold sret at 1 in H. apply N.eqb_neq in M. rewrite M in H.
  destruct (_ || _); [|unfold serr in H; congruence].
  destruct (proj2 (exchange_conv E id k chain HD Hk _ fuel _ _ z (presenting_chain k chain x) H) eq_refl) as (y & C & Cl & N). exists y. split; [exact C|]. split; [exact Cl|]. destruct x; exact N.
Qed.
Print Assumptions C82_success_follows_the_closing_message.
