(** C35 continued: the responder of this library is such a peer, so requester and responder together
    transfer the chain. *)
From Verif Require Import Bytes BytesFacts Status Codec Parse ParseProofs Algo Monad.
From Verif Require Import MsgConn MsgAuth MsgSession MsgOther Message Opaque Transport TransportProofs Crypto KeySchedule Session Signing CertOps ChainVerify Context
  RspBase RspConn RspSess RspEncap Responder StRel RspFrame RspCalm RspOpcode RspPass RspEst ReqBase ReqConn ReqSess SpecReq ReqFrame ReqAnswer SpecSession SpecAuth ReqTrans ReqSplit ReqHist ReqAuth.
From Verif Require Import MsgLocal SpecDer X509Proofs PropCert PropAlgs MsgRound2 SpecRetr ReqChain PropRetr Pair PropFetch ToyCrypto PropPhase ExRun ExPair.
From Coq Require Import Lia.
Local Open Scope N_scope.

(** a responder ready to serve [chain] from slot 0 to a requester that speaks version [v] *)
Definition ready (Er : env) (v : N) (chain : bytes) (y : ctx) : Prop :=
  negotiated y = true /\ ver y = v /\ slot_of (x_my_chain y) 0 = Some chain /\ can_hash (e_cr Er) y /\
  (n_req_dts (x_nego y) = 0 \/ 520 <= n_req_dts (x_nego y)).

Lemma certificate_bytes_ok v slot part left : v < 256 -> slot < 256 -> bytes_ok part -> bytes_ok (certificate_bytes v slot part left).
Proof.
  intros V S B. unfold certificate_bytes. apply bytes_ok_app. split; [repeat (constructor; [unfold byte_ok; lia|]); constructor|].
  apply bytes_ok_app. split; [apply le_bytes_ok|]. apply bytes_ok_app. split; [apply le_bytes_ok|exact B].
Qed.
Lemma xcert x v chain o w : o <= len chain -> xwire (enc_message (xc x) (cert_msg v 0 chain o w)) =
  Some (certificate_bytes v 0 (slice_of chain o w) (len chain - o - len (slice_of chain o w))).
Proof.
  intro L. assert (Sl := slice_len chain o w L). unfold cert_msg, enc_message, enc_header, enc_payload, enc_cert_rsp. cbn [m_header m_payload h_version h_code cr_slot cr_portion cr_remainder cr_data].
  rewrite !xwire_app, !PropAlgs.xw8, !PropAlgs.xw16, MsgRound.xw_arr. unfold certificate_bytes. cbn [app]. change (N.of_nat MAX_CERT_PORTION) with 512.
  assert (E1 : N.min (N.min w 512) (len chain - o) = len (slice_of chain o w)) by lia. rewrite E1. set (n := len (slice_of chain o w)) in *.
  assert (E2 : firstn (N.to_nat n) (pad_to MAX_CERT_PORTION (slice (N.to_nat o) (N.to_nat n) chain)) = slice_of chain o w).
  { assert (Sn : slice (N.to_nat o) (N.to_nat n) chain = slice_of chain o w).
    { unfold slice, slice_of. unfold n, len. rewrite Nat2N.id. unfold slice_of. rewrite firstn_length.
      destruct (Nat.min_spec (N.to_nat (N.min w 512)) (length (skipn (N.to_nat o) chain))) as [[_ ->]|[H ->]]; [reflexivity|]. rewrite firstn_all. symmetry. apply firstn_all2. exact H. }
    assert (Ln : n <= 512) by lia. rewrite Sn. unfold n, len in *. rewrite Nat2N.id. apply pad_to_firstn. change MAX_CERT_PORTION with 512%nat. lia. }
  rewrite E2. replace (len chain - (n + o)) with (len chain - o - n) by lia. reflexivity.
Qed.
Lemma append_b_keeps E m y : can_hash (e_cr E) y -> exists d, append_b_on E None m y = (Ok tt, set_x_m1m2 (Some d) y).
Proof.
  intro C. unfold append_b_on, append_b, append_m1m2. destruct (x_m1m2 y) as [d|] eqn:M; [eauto|]. destruct C as [C|C]; [congruence|]. rewrite C. eauto.
Qed.
Lemma serve_step Er v chain y t o w : carries (e_tr Er) -> (forall i f, e_send Er i f = None) -> v < 256 -> bytes_ok chain -> ready Er v chain y ->
  o <= len chain -> o < 65536 -> w < 65536 -> tr_encap (e_tr Er) BUFFER_SIZE (get_certificate_bytes v 0 o w) false = Ok t ->
  exists f z, process_frame Er t y = (Ok (Some true), z) /\ x_sent z = f :: x_sent y /\ ready Er v chain z /\
    tr_encap (e_tr Er) BUFFER_SIZE (certificate_bytes v 0 (slice_of chain o w) (len chain - o - len (slice_of chain o w))) false = Ok f.
Proof.
  intros Ca Sn V B (Ng & Vy & Sl & Ch & Dt) Lo Lo2 Lw Te.
  destruct (Ca (get_certificate_bytes v 0 o w)) as (t' & pd & pd' & T1 & T2 & T3 & T4 & T5); [apply get_certificate_bytes_ok; [exact V|reflexivity]|cbn; lia|].
  assert (t' = t) as -> by congruence. destruct (T3 eq_refl) as [_ ->]. rewrite app_nil_r in T5. clear T3 T4 T1 T2.
  set (part := slice_of chain o w). set (reply := certificate_bytes v 0 part (len chain - o - len part)). assert (Lp := slice_len chain o w Lo). fold part in Lp.
  assert (Lr : len reply = 8 + len part) by (unfold reply, certificate_bytes; rewrite !len_app; unfold len; rewrite !le_bytes_length; cbn [length]; lia).
  destruct (Ca reply) as (f & _ & _ & R1 & _); [apply certificate_bytes_ok; [exact V|reflexivity|]; unfold part, slice_of; apply bytes_ok_firstn, bytes_ok_skipn; exact B|lia|].
  exists f. unfold process_frame. rewrite T5. unfold is_ok, scatch.
  assert (D : exists z, dispatch_message Er (get_certificate_bytes v 0 o w) y = (Ok tt, z) /\ x_sent z = f :: x_sent y /\ ready Er v chain z).
  { change (dispatch_message Er (get_certificate_bytes v 0 o w) y) with (handle_certificate Er None (get_certificate_bytes v 0 o w) y).
    unfold handle_certificate. unfold sbind at 1. unfold write_certificate. rewrite bind_get, Ng. unfold with_version. rewrite bind_get.
    assert (Rh : read_header (get_certificate_bytes v 0 o w) = Some (mkHeader v 0x82, [0; 0] ++ le_bytes 2 o ++ le_bytes 2 w)) by reflexivity.
    rewrite Rh. cbn [h_version]. rewrite Vy, N.eqb_refl. cbn [negb]. rewrite bind_mod, bind_rd.
    assert (Dg : dec_get_cert ([0; 0] ++ le_bytes 2 o ++ le_bytes 2 w) = POk (mkGetCert 0 o w) []).
    { unfold dec_get_cert. cbn [app]. do 2 (unfold dbind at 1; rewrite MsgRound2.d_u8_cons). unfold dbind at 1. rewrite MsgRound2.d_u16_le by lia. unfold dbind at 1.
      rewrite <- (app_nil_r (le_bytes 2 w)), MsgRound2.d_u16_le by lia. reflexivity. }
    rewrite Dg. cbn [gc_slot gc_offset gc_length]. change (0 =? 0) with true. cbv iota.
    set (y1 := reset_buffer RC_GET_CERTIFICATE None y). assert (Ch1 : can_hash (e_cr Er) y1) by exact Ch.
    unfold tryelse at 1, scatch. destruct (append_b_keeps Er (used_of (get_certificate_bytes v 0 o w) []) y1 Ch1) as [d ->].
    rewrite Sl, (proj2 (N.leb_le _ _)) by exact Lo. unfold encode_or_err. unfold sbind at 1, wenc. rewrite (emit_fits _ [] reply (xcert _ v chain o w Lo)) by (rewrite len_nil; change MAX_SPDM_MSG_SIZE with 4096; lia).
    cbn [fst snd app]. unfold then_append, tryelse, scatch. set (y2 := set_x_m1m2 (Some d) y1).
    destruct (append_b_keeps Er reply y2) as [d2 ->]; [left; discriminate|]. unfold sret at 1. set (y3 := set_x_m1m2 (Some d2) y2).
    cbn [send_on]. unfold send_message. rewrite bind_get. assert (TL : too_large y3 reply = false).
    { unfold too_large. change (x_nego y3) with (x_nego y). rewrite Lr. destruct Dt as [->|Dt]; [reflexivity|]. apply Bool.andb_false_iff. right. apply N.ltb_ge. lia. }
    rewrite TL. unfold send_raw. rewrite R1. unfold sbind at 1, sof. unfold sbind at 1, io_send. rewrite Sn. unfold sbind at 1.
    change (opcode reply) with (Some 2). unfold sunwrap. change (after_send 2) with (@smod ctx (fun x => if x_conn x <? CONN_AFTER_CERTIFICATE then set_x_conn CONN_AFTER_CERTIFICATE x else x)).
    unfold sret at 1, smod. eexists. split; [reflexivity|]. set (y4 := set_x_sent _ _). assert (S4 : x_sent y4 = f :: x_sent y) by reflexivity.
    assert (R4 : ready Er v chain y4) by (split; [exact Ng|]; split; [exact Vy|]; split; [exact Sl|]; split; [left; discriminate|exact Dt]).
    clearbody y4. destruct (x_conn y4 <? CONN_AFTER_CERTIFICATE) eqn:Cc; [|auto]. split; [exact S4|]. destruct R4 as (_ & R4). split; [reflexivity|exact R4]. }
  destruct D as (z & -> & D2 & D3). exists z. unfold sret. auto.
Qed.
Lemma peer_after_app Er xr a b : peer_after Er xr (a ++ b) = peer_after Er (peer_after Er xr a) b.
Proof. apply fold_left_app. Qed.
Lemma stays_ready Er v chain y : carries (e_tr Er) -> (forall i f, e_send Er i f = None) -> v < 256 -> bytes_ok chain -> len chain < 65536 -> ready Er v chain y ->
  forall asked, Forall (asks (e_tr Er) v 0 chain) asked -> ready Er v chain (peer_after Er y (rev asked)).
Proof.
  intros Ca Sn V B Lc R. induction asked as [|t asked IH]; intro F; [exact R|]. inversion F as [|? ? (o & w & Lo & Lw & Te) F2]; subst. cbn [rev]. rewrite peer_after_app.
  destruct (serve_step Er v chain _ t o w Ca Sn V B (IH F2) ltac:(lia) ltac:(lia) ltac:(lia) Te) as (f & z & P & _ & Rz & _). cbn [peer_after fold_left]. rewrite P. exact Rz.
Qed.
Lemma facing_serves E Er xr v chain sent : e_tr E = e_tr Er -> carries (e_tr Er) -> (forall i f, e_send Er i f = None) -> v < 256 -> bytes_ok chain -> len chain < 4096 ->
  ready Er v chain (peer_after Er xr (rev sent)) -> serves (facing E Er xr) v 0 chain sent.
Proof.
  intros Tr Ca Sn V B Lc R asked i o w t Fa Lo Lw Te. cbn [facing e_tr e_recv] in *. rewrite Tr in *.
  assert (R2 := stays_ready Er v chain _ Ca Sn V B ltac:(lia) R asked Fa). rewrite <- peer_after_app, <- rev_app_distr in R2.
  destruct (serve_step Er v chain _ t o w Ca Sn V B R2 ltac:(lia) ltac:(lia) ltac:(lia) Te) as (f & z & P & S & _ & En).
  assert (Lp := slice_len chain o w ltac:(lia)). set (part := slice_of chain o w) in *. set (reply := certificate_bytes v 0 part (len chain - o - len part)) in *.
  destruct (Ca reply) as (f' & pad & pad' & R1 & Lf & _ & Dc & _).
  - apply certificate_bytes_ok; [exact V|reflexivity|]. unfold part, slice_of. apply bytes_ok_firstn, bytes_ok_skipn; exact B.
  - unfold reply, certificate_bytes. rewrite !len_app. unfold len in *. rewrite !le_bytes_length. cbn [length]. lia.
  - assert (f' = f) as -> by congruence. exists f, pad. cbn [peer_reply]. rewrite P. cbn [snd]. rewrite S. cbn [length hd_error]. rewrite (proj2 (Nat.ltb_lt _ _)) by lia. auto.
Qed.
(** ** C35, both ends: a requester facing a responder of this library that has [chain] in slot 0. *)
Theorem C35_both_ends : forall E Er xr fuel chain x,
  e_tr E = e_tr Er -> carries (e_tr Er) -> (forall i f, e_send Er i f = None) ->
  ver x < 256 -> can_send x 8 -> can_hash (e_cr E) x -> length (x_peer_chain x) = 8%nat ->
  ready Er (ver x) chain (peer_after Er xr (rev (x_sent x))) ->
  bytes_ok chain -> len chain < 4096 -> acceptable_chain (e_cr E) (n_hash (x_nego x)) (x_peer_root x) chain -> (8 <= fuel)%nat ->
  exists x', get_certificate (facing E Er xr) fuel None 0 x = (Ok (Some tt), x') /\ slot_of (x_peer_chain x') 0 = Some chain /\
    forall i, i <> 0 -> slot_of (x_peer_chain x') i = slot_of (x_peer_chain x) i.
Proof.
  intros E Er xr fuel chain x Tr Ca Sn V Cs Ch L8 R B Lc Ac Lf.
  apply (C35_reassembles (facing E Er xr)); try assumption; [cbn; rewrite Tr; exact Ca|reflexivity|reflexivity|].
  apply facing_serves; assumption.
Qed.
Print Assumptions C35_both_ends.
Lemma app_same_length (a b u v : bytes) : a ++ u = b ++ v -> length a = length b -> a = b.
Proof. revert b. induction a as [|x a IH]; intros [|y b] H L; cbn in *; try discriminate; [reflexivity|]. f_equal; [congruence|]. apply IH; congruence. Qed.
Lemma blob_prefix c r u v : blob c -> blob r -> c ++ u = r ++ v -> c = r.
Proof.
  intros (h1 & l1 & b1 & -> & L1) (h2 & l2 & b2 & -> & L2) H. cbn [app] in H. assert (h2 = h1) as -> by congruence. assert (l2 = l1) as -> by congruence.
  do 4 f_equal. apply (app_same_length b1 b2 u v); [congruence|]. unfold len in *. lia.
Qed.
(** the chain the responder builds from provisioned certificates is acceptable to a requester that
    trusts them *)
Theorem C35_provisioned_chain_is_acceptable : forall cr hash root certs chain h,
  construct_slot cr hash None (Some certs) = Ok (Some chain) -> len certs <= 4096 ->
  hash_size hash = Some h -> (forall m d, cr_hash cr hash m = Some d -> len d = h) -> cr_verify_chain cr certs = true ->
  (forall r, root = Some r -> exists more, certs = r ++ more /\ blob r) ->
  acceptable_chain cr hash root chain.
Proof.
  intros cr hash root certs chain h H Lc Hh Hl Vc Rt. cbn [construct_slot] in H. destruct (get_cert certs 0) as [[a b]| |] eqn:G; try discriminate.
  apply get_first_inv in G as (c & rest & Ec & Bc & -> & ->). rewrite N.sub_0_r in H. change (N.to_nat 0) with 0%nat in H.
  assert (Sl : slice 0 (N.to_nat (len c)) certs = c). { unfold slice. cbn [skipn]. rewrite Ec. apply firstn_app_exact. unfold len. lia. } rewrite Sl in H.
  destruct (cr_hash cr hash c) as [rh|] eqn:Hc; [|discriminate]. unfold build_chain in H. cbv zeta in H.
  destruct (N.ltb_spec 65535 (4 + len rh + len certs)) as [|L1]; [discriminate|]. destruct (4 + 64 + 4096 <? _); [discriminate|]. cbn [obind] in H.
  set (n := 4 + len rh + len certs) in *.
  exists h, [n mod 256; n / 256], [0; 0], rh, c, rest. replace chain with ([n mod 256; n / 256; 0; 0] ++ rh ++ certs) by congruence.
  split; [rewrite Ec; reflexivity|]. split; [reflexivity|]. split.
  { rewrite !len_app. cbn [le_val]. change (len [n mod 256; n / 256; 0; 0]) with 4. fold n. assert (D := N.div_mod n 256 ltac:(lia)). lia. }
  split; [reflexivity|]. split; [exact Hh|]. split; [exact (Hl _ _ Hc)|]. split; [exact Bc|]. rewrite <- Ec. split; [exact Lc|]. split; [exact Vc|]. split; [exact Hc|].
  intros r Er. destruct (Rt r Er) as (more & Em & Br). rewrite Ec in Em. clear -Em Bc Br. apply (blob_prefix _ _ _ _ Bc Br Em).
Qed.
Print Assumptions C35_provisioned_chain_is_acceptable.
(** Case: the pair of ExPair.v after GET_DIGESTS (C35_reassembles and C35_both_ends), its provisioned
    certificates (C35_provisioned_chain_is_acceptable). *)
Definition ex_certs : bytes := ex_root ++ ex_leaf.
Definition ex_chain : bytes := Eval vm_compute in match construct_slot toy (n_hash (x_nego pr2)) None (Some ex_certs) with Ok (Some c) => c | _ => [] end.
Lemma all_bytes l : forallb (fun b => b <? 256) l = true -> bytes_ok l.
Proof. intro H. apply Forall_forall. intros b Hb. apply N.ltb_lt. exact (proj1 (forallb_forall _ _) H b Hb). Qed.
Example C35_case : construct_slot toy (n_hash (x_nego pr2)) None (Some ex_certs) = Ok (Some ex_chain) /\ len ex_chain = 960 /\
  acceptable_chain toy (n_hash (x_nego pr2)) (x_peer_root pr2) ex_chain /\
  exists x', get_certificate (facing ex_env ex_env pr_rsp) 8 None 0 pr2 = (Ok (Some tt), x') /\ slot_of (x_peer_chain x') 0 = Some ex_chain /\
    forall i, i <> 0 -> slot_of (x_peer_chain x') i = slot_of (x_peer_chain pr2) i.
Proof.
  assert (K1 : construct_slot toy (n_hash (x_nego pr2)) None (Some ex_certs) = Ok (Some ex_chain)) by (vm_compute; reflexivity).
  split; [exact K1|]. split; [vm_compute; reflexivity|].
  assert (A : acceptable_chain toy (n_hash (x_nego pr2)) (x_peer_root pr2) ex_chain).
  { apply (C35_provisioned_chain_is_acceptable _ _ _ ex_certs _ 48 K1); [vm_compute; discriminate|vm_compute; reflexivity| |vm_compute; reflexivity|].
    - intros m d H. change (n_hash (x_nego pr2)) with 2 in H. cbn [toy cr_hash hash_size] in H. assert (d = le_bytes (N.to_nat 48) (poly m)) as -> by congruence. unfold len. rewrite le_bytes_length. reflexivity.
    - intros r Hr. change (x_peer_root pr2) with (Some ex_root) in Hr. assert (r = ex_root) as -> by congruence. exists ex_leaf. split; [reflexivity|].
      exists 1, 0x2C, (fill 300 7). split; reflexivity. }
  split; [exact A|]. apply C35_both_ends; try (reflexivity || exact A).
  - exact carries_mctp.
  - right. vm_compute. discriminate.
  - right. vm_compute. reflexivity.
  - split; [vm_compute; reflexivity|]. split; [vm_compute; reflexivity|]. split; [vm_compute; reflexivity|]. split; [left; vm_compute; discriminate|]. right. vm_compute. discriminate.
  - apply all_bytes. vm_compute. reflexivity.
Qed.
