(** C22 (requests by session phase), C44 (END_SESSION erases), C45 (reply sizes). *)
From Verif Require Import Bytes BytesFacts Status Codec Parse ParseProofs Algo Monad.
From Verif Require Import MsgConn MsgAuth MsgSession MsgOther Message Opaque Transport Crypto KeySchedule Session Signing CertOps ChainVerify Context
  RspBase RspConn RspSess RspEncap Responder StRel RspFrame RspCalm RspOpcode RspSend SpecResponder SpecFinish RspPhase RspPass RspSlots RspSize RspTable RspIso RspEst RspDeliver RspRefuse
  ToyCrypto PropPhase ExRun PropTable PropReset.
From Coq Require Import List Lia.
Local Open Scope N_scope.

(** ** C22 *)
(** the reply a request of session [s] gets when the session does not serve it *)
Definition expected_refusal (x : ctx) (s : session) (m : bytes) : option bytes :=
  match s_state s with
  | SHandshaking => if in_clear (xc x) then None else refusal (ver x) m
  | _ => refusal (ver x) m
  end.
Lemma decode_phase cr b n s a s1 : decode_secured cr true b n s = (Ok a, s1) -> s_state s = SHandshaking \/ s_state s = SEstablished.
Proof. unfold decode_secured. destruct (s_state s); auto; discriminate. Qed.
Lemma dispatch_unserved E id m x s r x' : get_sess id x = Some s -> serves E x s m = false -> s_state s = SHandshaking \/ s_state s = SEstablished ->
  dispatch_secured E id m x = (r, x') -> refused E id x (expected_refusal x s m) r x'.
Proof.
  intros G Hs St H. assert (Short : read_header m = None -> refused E id x None r x').
  { intro K. unfold dispatch_secured in H. unfold sbind at 1, sget at 1 in H. rewrite G in H. destruct St as [St|St]; rewrite St in H.
    - unfold dispatch_handshaking in H. unfold sbind at 1, sget at 1 in H. rewrite K in H. destruct (in_clear _); unfold serr in H;
        replace x' with x by congruence; replace r with (@Err unit ST_UNSUPPORTED_CAP) by congruence; apply refused_none.
    - unfold dispatch_established in H. rewrite K in H. unfold serr in H. replace x' with x by congruence. replace r with (@Err unit ST_UNSUPPORTED_CAP) by congruence; apply refused_none. }
  assert (In : s_state s = SHandshaking -> in_clear (xc x) = true -> refused E id x None r x').
  { intros K C. unfold dispatch_secured in H. unfold sbind at 1, sget at 1 in H. rewrite G, K in H. unfold dispatch_handshaking in H. unfold sbind at 1, sget at 1 in H.
    rewrite C in H. unfold serr in H. replace x' with x by congruence. replace r with (@Err unit ST_UNSUPPORTED_CAP) by congruence; apply refused_none. }
  assert (L : (s_state s = SHandshaking /\ in_clear (xc x) = true) \/ (s_state s = SHandshaking -> in_clear (xc x) = false)).
  { destruct (in_clear (xc x)); [|right; auto]. destruct St as [St|St]; [left; auto|right; congruence]. }
  destruct L as [[L1 L2]|L].
  - unfold expected_refusal. rewrite L1, L2. exact (In L1 L2).
  - replace (expected_refusal x s m) with (refusal (ver x) m) by (unfold expected_refusal; destruct St as [St|St]; rewrite St in *; [rewrite (L eq_refl)|]; reflexivity).
    destruct m as [|h [|c m]]; [exact (Short eq_refl)|exact (Short eq_refl)|]. exact (dispatch_refuses E id h c m x s r x' G Hs L St H).
Qed.
Theorem C22_session_requests_by_phase :
  forall E f x id m s r x', delivered E f x id m false -> get_sess id x = Some s -> serves E x s m = false ->
  process_frame E f x = (r, x') ->
  only_counters id x x' /\
  match expected_refusal x s m with
  | None => x_sent x' = x_sent x
  | Some e => (x_sent x' = x_sent x \/ exists t, x_sent x' = t :: x_sent x /\ carries E t e false) /\
              (r = Ok (Some true) -> x_sent x' <> x_sent x)
  end.
Proof.
  intros E f x id m s r x' D G Hs H. pose proof D as (b & s0 & a & s1 & D1 & D2 & D3 & D4 & D5). assert (s0 = s) as -> by congruence.
  pose proof (decode_phase _ _ _ _ _ _ D4) as Ph.
  assert (OS : on_sess id (decode_secured (e_cr E) true b BUFFER_SIZE) x = (Ok a, mod_sess id (fun _ => s1) x)) by (unfold on_sess; rewrite G, D4; reflexivity).
  pose proof (counters_on_sess id _ (seq_decode (e_cr E) true b BUFFER_SIZE) _ _ _ OS) as Oc.
  pose proof (quiet_on_sess _ _ _ _ _ OS) as [Q1 Q2].
  destruct (frame_delivered E f x id m false s D G) as (t1 & K1 & K2 & K3 & K4). clear K1 K3.
  assert (P : process_frame E f x = is_ok (dispatch_secured E id m) (mod_sess id (fun _ => s1) x)).
  { unfold process_frame, secured_message in *. destruct (tr_decap _ _ f) as [[c [|]]| |]; try discriminate. assert (c = b) as -> by congruence.
    unfold process_secured. rewrite (names_read _ _ D2). unfold sbind, sget. rewrite G. unfold scatch. rewrite OS, D5. reflexivity. }
  rewrite P in H. clear P K4 K2 t1 D5 D1 D2 D.
  pose proof (get_sess_upd id s (fun _ => s1) x G) as Gu. assert (Key : skey s1 = skey s) by exact (skeep_decode _ _ _ _ _ _ _ D4).
  assert (I1 : s_id s1 = id) by (pose proof (get_sess_id _ _ _ G); unfold skey in Key; congruence). specialize (Gu I1).
  assert (S1 : s_state s1 = s_state s) by (unfold skey in Key; congruence).
  set (y := mod_sess id (fun _ => s1) x) in *.
    assert (Vy : ver y = ver x) by reflexivity. assert (Xy : xc y = xc x) by reflexivity. clearbody y.
  assert (Sy : serves E y s1 m = false) by (unfold serves in *; rewrite S1, Xy; exact Hs).
  unfold is_ok, scatch in H. destruct (dispatch_secured E id m y) as [o z] eqn:Ds.
  rewrite <- S1 in Ph. pose proof (dispatch_unserved E id m y s1 o z Gu Sy Ph Ds) as [R1 R2].
  assert (x' = z) as -> by (destruct o; unfold sret in H; congruence).
  split; [exact (proj2 (counters_pre id) _ _ _ Oc R1)|].
  replace (expected_refusal y s1 m) with (expected_refusal x s m) in R2 by (unfold expected_refusal; rewrite S1, Xy, Vy; reflexivity).
  destruct (expected_refusal x s m); [|congruence]. rewrite <- Q1. destruct R2 as [R2 R3]. split; [exact R2|].
  intro K. apply R3. destruct o as [[]| |]; [reflexivity|unfold sret in H; congruence|congruence].
Qed.
Print Assumptions C22_session_requests_by_phase.

(** outside a session *)
Definition clear_handshake (x : ctx) : Prop :=
  in_clear (xc x) = true /\ exists id s, x_last x = Some id /\ get_sess id x = Some s /\ s_state s = SHandshaking.
Theorem C22_session_requests_need_a_session :
  forall E f b h c rest x, plain_message E f = Some b -> b = h :: c :: rest ->
  In c [0xE7; 0xE8; 0xE9; 0xEC] \/ (c = 0xE5 /\ ~ clear_handshake x) ->
  just_replies E x (if h =? ver x then error_message (ver x) 4 0 else error_message (ver x) 0x41 0) (process_frame E f x) /\
  (forall r x', process_frame E f x = (r, x') -> same_but_io x x').
Proof.
  intros E f b h c rest x Pf -> Hc.
  assert (D : dispatch_message E (h :: c :: rest) x = handle_error_request E ERR_UNEXPECTED_REQUEST None (h :: c :: rest) x).
  { unfold dispatch_message. rewrite read_two. cbv zeta. cbn [h_code]. destruct Hc as [Hc|[-> Hc]].
    - cbn in Hc. destruct Hc as [<-|[<-|[<-|[<-|[]]]]]; reflexivity.
    - change (dispatch_plain_finish E (h :: 0xE5 :: rest) x = handle_error_request E ERR_UNEXPECTED_REQUEST None (h :: 0xE5 :: rest) x).
      unfold dispatch_plain_finish. unfold sbind at 1, sget at 1. unfold clear_handshake in Hc. destruct (in_clear (xc x)); [|reflexivity].
      destruct (x_last x) as [id|]; [|reflexivity]. destruct (get_sess id x) as [s|] eqn:G; [|reflexivity].
      destruct (s_state s) eqn:St; try reflexivity. exfalso. apply Hc. split; [reflexivity|]. exists id, s. auto. }
  assert (P : process_frame E f x = is_ok (send_message E (if h =? ver x then error_message (ver x) 4 0 else error_message (ver x) 0x41 0)) x).
  { rewrite (frame_plain E f _ x Pf). unfold is_ok, scatch. rewrite D. unfold handle_error_request. unfold sbind at 1. rewrite error_response_ok. cbv beta iota.
    unfold send_on, error_reply. destruct (h =? ver x); reflexivity. }
  rewrite P. destruct (h =? ver x); (split; [apply is_ok_send_error|intros r x' H; apply is_ok_inv in H as [r0 H]; exact (send_error_same E _ _ _ x r0 x' H)]).
Qed.
Print Assumptions C22_session_requests_need_a_session.

(** ** C45 *)
Theorem C45_replies_fit :
  forall E f x r x', process_frame E f x = (r, x') ->
  exists l, sent_between x x' l /\ forall t, In t l -> exists m app, carries E t m app /\ (app = true \/ fits x' m).
Proof.
  intros E f x r x' H. destruct (frame_sized E f x r x' H) as (l & A & B). exists l. split; [exact A|].
  intros t Ht. rewrite Forall_forall in B. destruct (B t Ht) as (m & app & C & D). exists m, app. split; [exact C|exact D].
Qed.
Print Assumptions C45_replies_fit.
Lemma too_large_len x m n : len m = n -> too_large x m = negb (n_req_dts (x_nego x) =? 0) && (n_req_dts (x_nego x) <? n).
Proof. intros <-. reflexivity. Qed.
(** a response that is too long is replaced *)
Theorem C45_long_replies_replaced :
  forall E w x t, n_req_dts (x_nego x) <> 0 -> n_req_dts (x_nego x) < len w -> 4 <= n_req_dts (x_nego x) ->
  tr_encap (e_tr E) BUFFER_SIZE (error_message (ver x) 0xD (* ResponseTooLarge *) 0) false = Ok t -> e_send E (x_io x) t = None ->
  send_message E w x = (Ok tt, after_sending t x).
Proof.
  intros E w x t H1 H2 H3 Ht Hs. unfold send_message. unfold sbind at 1, sget at 1.
  assert (L : too_large x w = true) by (rewrite (too_large_len x w _ eq_refl), (proj2 (N.eqb_neq _ _) H1), (proj2 (N.ltb_lt _ _) H2); reflexivity).
  rewrite L. unfold sbind at 1, write_err. rewrite write_err_nil. cbv beta iota.
  assert (S : too_large x (error_bytes (ver x) ERR_RESPONSE_TOO_LARGE 0) = false).
  { rewrite (too_large_len x (error_bytes (ver x) ERR_RESPONSE_TOO_LARGE 0) 4 eq_refl), (proj2 (N.ltb_ge _ _) H3). apply Bool.andb_false_r. }
  rewrite S. pose proof (send_error_ok E (ver x) ERR_RESPONSE_TOO_LARGE 0 x t Ht Hs (or_intror H3)) as K.
  unfold send_message in K. unfold sbind at 1, sget at 1 in K. rewrite S in K. exact K.
Qed.
Print Assumptions C45_long_replies_replaced.
Theorem C45_long_session_replies_replaced :
  forall E id w x, n_req_dts (x_nego x) <> 0 -> n_req_dts (x_nego x) < len w -> 4 <= n_req_dts (x_nego x) ->
  send_secured_message E id w false x = send_secured_message E id (error_message (ver x) 0xD 0) false x.
Proof.
  intros E id w x H1 H2 H3. unfold send_secured_message. unfold sbind at 1 3, sget at 1 2.
  assert (L : too_large x w = true) by (rewrite (too_large_len x w _ eq_refl), (proj2 (N.eqb_neq _ _) H1), (proj2 (N.ltb_lt _ _) H2); reflexivity).
  assert (S : too_large x (error_message (ver x) 0xD 0) = false).
  { rewrite (too_large_len x (error_message (ver x) 0xD 0) 4 eq_refl), (proj2 (N.ltb_ge _ _) H3). apply Bool.andb_false_r. }
  cbn [negb andb]. rewrite L, S. unfold sbind at 1, write_err. rewrite write_err_nil. cbv beta iota.
  change (error_bytes (ver x) ERR_RESPONSE_TOO_LARGE 0) with (error_message (ver x) 0xD 0). rewrite S. reflexivity.
Qed.
Print Assumptions C45_long_session_replies_replaced.

(** ** C44 *)
Lemma find_split id l s : find_sess id l = Some s -> exists l1 l2, l = l1 ++ s :: l2 /\ s_id s = id /\ forall t, In t l1 -> s_id t <> id.
Proof.
  unfold find_sess. induction l as [|a l IH]; [discriminate|]. cbn. destruct (N.eqb_spec (s_id a) id) as [A|A].
  - intro K. exists [], l. split; [now replace s with a by congruence|]. split; [congruence|]. intros t [].
  - intro K. destruct (IH K) as (l1 & l2 & -> & B & C). exists (a :: l1), l2. split; [reflexivity|]. split; [exact B|]. intros t [<-|Ht]; [exact A|auto].
Qed.
Lemma upd_split id f l1 s l2 : s_id s = id -> (forall t, In t l1 -> s_id t <> id) -> upd_sess id f (l1 ++ s :: l2) = l1 ++ f s :: l2.
Proof.
  intros Hs H. induction l1 as [|a l1 IH]; cbn.
  - rewrite (proj2 (N.eqb_eq _ _) Hs). reflexivity.
  - rewrite (proj2 (N.eqb_neq _ _)) by (apply H; now left). f_equal. apply IH. intros t Ht. apply H. now right.
Qed.
Lemma unique_rest l1 s l2 : table_integrity (l1 ++ s :: l2) -> s_id s <> 0 -> forall t, In t l2 -> s_id t <> s_id s.
Proof.
  intros (_ & _ & U) Hn t Ht E. apply In_nth_error in Ht as [k K].
  assert (length l1 = length l1 + S k)%nat; [|lia]. apply (U (length l1) (length l1 + S k)%nat s t); [| |congruence|congruence].
  - rewrite nth_error_app2, Nat.sub_diag by lia. reflexivity.
  - rewrite nth_error_app2 by lia. replace (length l1 + S k - length l1)%nat with (S k) by lia. exact K.
Qed.
(** the effect of tearing session [id] down, slot by slot *)
Definition torn (id : N) (l l' : list session) : Prop :=
  Forall2 (fun s s' => if s_id s =? id then exists k, s' = set_s_slot k session_new else s' = s) l l'.
Lemma teardown_torn id x r x' : tok x -> id <> 0 -> get_sess id x <> None -> on_sess id (session_teardown id) x = (r, x') -> torn id (x_sess x) (x_sess x') /\ get_sess id x' = None.
Proof.
  intros T Hid Hg H. unfold on_sess in H. destruct (get_sess id x) as [s|] eqn:G; [|congruence]. unfold get_sess in G. clear Hg.
  destruct (find_split _ _ _ G) as (l1 & l2 & E1 & Is & N1). unfold session_teardown in H. rewrite (proj2 (N.eqb_eq _ _) Is) in H.
  assert (Sx : x_sess x' = l1 ++ session_set_default s :: l2).
  { match type of H with (_, ?q) = _ => assert (x' = q) as -> by congruence end. unfold mod_sess.
    change (upd_sess id (fun _ => session_set_default s) (x_sess x) = l1 ++ session_set_default s :: l2). rewrite E1. exact (upd_split id (fun _ => session_set_default s) l1 s l2 Is N1). }
  clear H. pose proof (tok_integrity x T) as TI. rewrite E1 in TI. assert (N2 : forall t, In t l2 -> s_id t <> id) by (rewrite <- Is; apply unique_rest with l1; [exact TI|congruence]).
  split.
  - unfold torn. rewrite Sx, E1. apply Forall2_app; [|constructor].
    + clear -N1. induction l1; constructor; [rewrite (proj2 (N.eqb_neq _ _)) by (apply N1; now left); reflexivity|apply IHl1; intros t Ht; apply N1; now right].
    + rewrite (proj2 (N.eqb_eq _ _) Is). exists (s_slot s). reflexivity.
    + clear -N2. induction l2; constructor; [rewrite (proj2 (N.eqb_neq _ _)) by (apply N2; now left); reflexivity|apply IHl2; intros t Ht; apply N2; now right].
  - unfold get_sess, find_sess. rewrite Sx. destruct (find _ _) as [t|] eqn:F; [|reflexivity]. exfalso. apply find_some in F as [Fi Fe]. apply N.eqb_eq in Fe.
    apply in_app_or in Fi as [Fi|[<-|Fi]]; [exact (N1 _ Fi Fe)|cbn in Fe; congruence|exact (N2 _ Fi Fe)].
Qed.
Lemma end_ack_bytes c v : emit (enc_message c (mkMsg (mkHeader v RC_END_SESSION_ACK) PEndSessionAck)) [] = Some (true, [v; 0x6C; 0; 0]).
Proof. reflexivity. Qed.
Lemma write_end_ok id v a p rest x : v = ver x -> a = 0 \/ a = 1 ->
  write_end_session id (v :: 0xEC :: a :: p :: rest) x = (Ok [ver x; 0x6C; 0; 0], reset_buffer RC_END_SESSION (Some id) x).
Proof.
  intros -> Ha. unfold write_end_session, with_version. unfold sbind at 1, sget at 1. rewrite read_two. cbn [h_version]. rewrite N.eqb_refl. cbn [negb].
  assert (R : rd (fun _ => dec_end_session) (a :: p :: rest) x = (Ok (Some (a, rest)), x)) by (destruct Ha as [-> | ->]; reflexivity).
  unfold sbind at 1. rewrite R. cbv beta iota. unfold sbind at 1, smod at 1. pose proof (calm_ver (Some id) x _ (calm_reset_buffer RC_END_SESSION (Some id) x)) as V.
  set (y := reset_buffer RC_END_SESSION (Some id) x) in *. clearbody y. unfold sbind at 1, sget at 1. unfold encode_or_err. unfold sbind at 1, wenc.
  rewrite end_ack_bytes. cbv beta iota. cbn [fst snd]. rewrite V. reflexivity.
Qed.
Lemma calm_encode E id b req app : rel (calm (Some id)) (encode_secured_message E id b req app).
Proof. apply rel_encode_secured; [apply calm_pre|]. intro. apply calm_on_sess, skeep_encode. Qed.
Lemma quiet_encode E id b req app : rel quiet (encode_secured_message E id b req app).
Proof. apply rel_encode_secured; [apply quiet_pre|]. intro. apply quiet_on_sess. Qed.
Lemma torn_calm id l m n : map s_id m = map s_id l -> others (Some id) l m -> torn id m n -> torn id l n.
Proof.
  intros I O. revert n I. induction O as [|s s' l m P O IH]; intros n I T; inversion T as [|? u ? n' Q T']; subst; constructor.
  - cbn in I. injection I as I1 I2. rewrite I1 in Q. destruct (N.eqb_spec (s_id s) id); [exact Q|]. destruct P as [->|P]; [exact Q|congruence].
  - apply IH; [cbn in I; now injection I|exact T'].
Qed.
Theorem C44_end_session_erases :
  forall E cfg chain_data my_chain root x f id a p rest s x',
  digest_sizes (e_cr E) -> delivers_bytes E -> length my_chain = 8%nat ->
  served E (process_message E) (ctx_new cfg chain_data my_chain root) x ->
  delivered E f x id (ver x :: 0xEC :: a :: p :: rest) false -> a = 0 \/ a = 1 ->
  get_sess id x = Some s -> s_state s = SEstablished ->
  process_frame E f x = (Ok (Some true), x') ->
  (** one reply, END_SESSION_ACK *)
  (exists t, x_sent x' = t :: x_sent x /\ carries E t [ver x; 0x6C; 0; 0] false) /\
  (** the session's slot is as new (up to the certificate slot number), the others are as before *)
  torn id (x_sess x) (x_sess x') /\ get_sess id x' = None /\
  (** nothing that names the session is processed any more *)
  (forall f' b', secured_message E f' = Some b' -> names_session b' id -> process_frame E f' x' = (Ok None, x')).
Proof.
  intros E cfg cd mc root x f id a p rest s x' H1 H2 H3 Sv D Ha G St H. destruct (served_ok _ _ _ _ _ _ H1 H2 H3 Sv) as [S8 T].
  assert (Hid : id <> 0) by (apply (tok_live id x s T G); congruence).
  assert (Core : (exists t, x_sent x' = t :: x_sent x /\ carries E t [ver x; 0x6C; 0; 0] false) /\ torn id (x_sess x) (x_sess x') /\ get_sess id x' = None).
  { destruct (frame_delivered E f x id _ false s D G) as (s1 & K1 & K2 & K3 & K4). rewrite K4 in H. clear K4 D.
    assert (S1 : s_state s1 = SEstablished) by (unfold skey in K1; congruence).
    assert (Qy : x_sent (mod_sess id (fun _ => s1) x) = x_sent x) by reflexivity.
    set (y := mod_sess id (fun _ => s1) x) in *. clearbody y. pose proof (calm_ver _ _ _ K3) as Vy.
    unfold is_ok, scatch in H. unfold dispatch_secured in H. unfold sbind at 1, sget at 1 in H. rewrite K2, S1 in H.
    change (dispatch_established E id (ver x :: 0xEC :: a :: p :: rest)) with (handle_end_session E id (ver x :: 0xEC :: a :: p :: rest)) in H.
    unfold handle_end_session in H. unfold sbind at 1 in H. rewrite (write_end_ok id _ a p rest y (eq_sym Vy) Ha) in H. cbv beta iota in H. rewrite Vy in H.
    pose proof (calm_reset_buffer RC_END_SESSION (Some id) y) as Cz. pose proof (quiet_reset_buffer RC_END_SESSION (Some id) y) as [Qz _].
    set (z := reset_buffer RC_END_SESSION (Some id) y) in *. clearbody z.
    assert (Cx : calm (Some id) x z) by (eapply calm_pre; eassumption).
    assert (Gz : get_sess id z <> None).
    { unfold get_sess. destruct Cx as [Co _]. apply outline_ids in Co. intro K. unfold find_sess in K. unfold get_sess in G. apply find_some in G as [G1 G2]. apply N.eqb_eq in G2.
      assert (In id (map s_id (x_sess z))) as Hin by (rewrite Co, <- G2; now apply in_map). apply in_map_iff in Hin as (t & Ht & Hi). pose proof (find_none _ _ K t Hi) as F. cbn in F. rewrite Ht, N.eqb_refl in F. discriminate. }
    assert (Tz : tok z) by (exact (tok_calm (Some id) x z Cx T)).
    destruct (send_secured_message E id [ver x; 0x6C; 0; 0] false z) as [o w] eqn:Sd.
    assert (o = Ok tt /\ x' = w) as [-> ->] by (destruct o as [[]| |]; unfold sret in H; [split; congruence|congruence|congruence]). clear H.
    unfold send_secured_message in Sd. unfold sbind at 1, sget at 1 in Sd. cbn [negb andb] in Sd. destruct (too_large z _) eqn:TL.
    { exfalso. unfold sbind, write_err in Sd. rewrite write_err_nil in Sd. replace (too_large z (error_bytes _ _ _)) with true in Sd by (symmetry; exact TL). discriminate Sd. }
    unfold send_secured_raw in Sd. apply sbind_inv in Sd as (t & z1 & Ec & Sd). apply sbind_inv in Sd as ([] & z2 & Io & Sd).
    apply sbind_inv in Sd as (op & z3 & Uw & Sd). change (sunwrap (opcode [ver x; 0x6C; 0; 0]) z2) with (@Ok N 0x6C, z2) in Uw. assert (op = 0x6C /\ z3 = z2) as [-> ->] by (split; congruence).
    pose proof (calm_encode E id _ false false _ _ _ Ec) as C1. pose proof (quiet_encode E id _ false false _ _ _ Ec) as [Q1 _].
    assert (z2 = set_x_sent (t :: x_sent z1) (set_x_io (x_io z1 + 1) z1)) as -> by (unfold io_send in Io; rewrite sent_io in Io; destruct (e_send E (x_io z1) t); congruence). clear Io.
    unfold after_secured_send in Sd. apply sbind_inv in Sd as ([] & z4 & Td & Sd). unfold swhen in Td, Sd.
    change (0x6C =? RC_END_SESSION_ACK) with true in Td. change ((0x6C =? RC_FINISH_RSP) || (0x6C =? RC_PSK_FINISH_RSP)) with false in Sd. cbv iota in Td, Sd.
    assert (z4 = w) as -> by (unfold sret in Sd; congruence).
    assert (C2 : calm (Some id) x z1) by (eapply calm_pre; eassumption).
    set (z2 := set_x_sent (t :: x_sent z1) (set_x_io (x_io z1 + 1) z1)) in *.
    assert (C3 : calm (Some id) x z2) by exact C2. assert (Sz : x_sent z2 = t :: x_sent x) by (unfold z2; rewrite sent_set; congruence). clearbody z2.
    pose proof (quiet_on_sess id _ _ _ _ Td) as [Q4 _]. split; [exists t; split; [congruence|econstructor; exact Ec]|].
    assert (Gz2 : get_sess id z2 <> None).
    { intro K. apply Gz. unfold get_sess, find_sess in *. destruct (find _ (x_sess z)) as [q|] eqn:F; [|reflexivity]. exfalso. apply find_some in F as [F1 F2]. apply N.eqb_eq in F2.
      destruct Cx as [Co _]. destruct C3 as [Co2 _]. apply outline_ids in Co, Co2. assert (In id (map s_id (x_sess z2))) as Hin by (rewrite Co2, <- Co, <- F2; now apply in_map).
      apply in_map_iff in Hin as (u & Hu & Hi). pose proof (find_none _ _ K u Hi) as F. cbn in F. rewrite Hu, N.eqb_refl in F. discriminate. }
    destruct (teardown_torn id z2 _ w (tok_calm (Some id) x z2 C3 T) Hid Gz2 Td) as [U1 U2]. split; [|exact U2].
    destruct C3 as [Co Cs]. exact (torn_calm id _ _ _ (outline_ids _ _ Co) Cs U1). }
  destruct Core as (C1 & C2 & C3). split; [exact C1|]. split; [exact C2|]. split; [exact C3|].
  intros f' b' B1 B2. exact (frame_unknown E f' x' b' id B1 B2 C3).
Qed.
Print Assumptions C44_end_session_erases.
(** END_SESSION on the established PSK session of the example run *)
Example C44_case :
  let E := ex_replay ex_frames in let x := ex_after ex_frames 5 in
  served E (process_message E) ex_ctx2 x /\ delivered E f6 x ex_id (ver x :: 0xEC :: 0 :: [0]) false /\
  option_map s_state (get_sess ex_id x) = Some SEstablished /\ fst (process_frame E f6 x) = Ok (Some true).
Proof.
  cbv zeta. split; [apply replay_rounds; vm_compute; reflexivity|]. split; [apply deliveredb_ok; vm_compute; reflexivity|]. vm_compute. auto.
Qed.
(** CHALLENGE inside the established session is refused *)
Definition f_challenge : bytes := secured ex5 [0x12; 0x83; 0; 0; 1; 2; 3] false.
Example C22_case :
  delivered ex_env f_challenge ex5 ex_id [0x12; 0x83; 0; 0; 1; 2; 3] false /\
  match get_sess ex_id ex5 with Some s => serves ex_env ex5 s [0x12; 0x83; 0; 0; 1; 2; 3] | None => true end = false /\
  fst (process_frame ex_env f_challenge ex5) = Ok (Some true) /\
  length (x_sent (snd (process_frame ex_env f_challenge ex5))) = S (length (x_sent ex5)).
Proof. split; [apply deliveredb_ok; vm_compute; reflexivity|]. vm_compute. auto. Qed.
(** HEARTBEAT in the clear *)
Example C22_case2 : plain_message ex_env [5; 0x12; 0xE8; 0; 0] = Some [0x12; 0xE8; 0; 0] /\
  hd [] (x_sent (snd (process_frame ex_env [5; 0x12; 0xE8; 0; 0] ex5))) = [5; 0x12; 0x7F; 4; 0].
Proof. vm_compute. auto. Qed.
(** a requester that can take 42 bytes negotiates algorithms: the ALGORITHMS response is 52 bytes *)
Definition f2_small := [5; 0x12;0xE1;0;0; 0;0;0;0] ++ le_bytes 4 0x66C6 ++ [42;0;0;0;0;16;0;0].
Example C45_case : n_req_dts (x_nego (step f2_small ex1)) = 42 /\
  hd [] (x_sent (step f3 (step f2_small ex1))) = [5; 0x12; 0x7F; 0xD; 0].
Proof. vm_compute. auto. Qed.
