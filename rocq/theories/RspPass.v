(** One walk over the responder's dispatcher for any relation on contexts: what a relation must
    satisfy to hold between the contexts before and after a frame is processed. *)
From Verif Require Import Bytes BytesFacts Status Codec Parse ParseProofs Algo Monad.
From Verif Require Import MsgConn MsgAuth MsgSession MsgOther Message Transport Crypto KeySchedule Session CertOps ChainVerify Context
  RspBase RspConn RspSess RspEncap Responder StRel RspFrame RspCalm RspOpcode RspSend SpecResponder RspPhase.
From Coq Require Import Lia.
Local Open Scope N_scope.

(** ** replies that leave the sessions alone *)
Definition tame (c : N) : Prop := c <> RC_END_SESSION_ACK /\ c <> RC_FINISH_RSP /\ c <> RC_PSK_FINISH_RSP.
Lemma after_secured_tame id op x : tame op -> after_secured_send id op x = (Ok tt, x).
Proof.
  intros (A & B & C). unfold after_secured_send.
  rewrite (proj2 (N.eqb_neq _ _) A), (proj2 (N.eqb_neq _ _) B), (proj2 (N.eqb_neq _ _) C). reflexivity.
Qed.
Lemma calm_ioo sid : io_ok (calm sid).
Proof. intros E b. apply calm_io_send. Qed.
Lemma calm_send_secured E id w c app : tame c -> rop c w -> rel (calm (Some id)) (send_secured_message E id w app).
Proof.
  intros Hc O. apply rel_send_secured; [apply calm_pre|apply calm_ioo|intro; apply calm_on_sess, skeep_encode|].
  intros op Hop x r x' H.
  assert (T : tame op) by (destruct O as [O|O]; rewrite O in Hop; injection Hop as <-; [repeat split; discriminate|exact Hc]).
  rewrite (after_secured_tame _ _ _ T) in H. replace x' with x by congruence. apply calm_pre.
Qed.
Lemma calm_sec E id (m : st ctx bytes) c : tame c -> rel (calm (Some id)) m -> val anyc m (rop c) ->
  rel (calm (Some id)) (sbind m (fun w => send_secured_message E id w false)).
Proof.
  intros Hc Hm Hv. apply (rel_bind_any _ (calm_pre _) _ _ (rop c)); [exact Hm|exact Hv|].
  intros w O. exact (calm_send_secured E id w c false Hc O).
Qed.
Ltac tm := repeat split; discriminate.
Lemma calm_handle_error E c id b : rel (calm (Some id)) (handle_error_request E c (Some id) b).
Proof. apply (calm_sec E id _ RC_ERROR); [tm|apply calm_error_response|apply op_error_response]. Qed.
Lemma calm_handle_certificate E id b : rel (calm (Some id)) (handle_certificate E (Some id) b).
Proof. apply (calm_sec E id _ RC_CERTIFICATE); [tm|apply calm_write_certificate|apply op_certificate]. Qed.
Lemma calm_handle_measurement E id b : rel (calm (Some id)) (handle_measurement E (Some id) b).
Proof. apply (calm_sec E id _ RC_MEASUREMENTS); [tm|apply calm_write_measurement|apply op_measurement]. Qed.
Lemma calm_handle_heartbeat E id b : rel (calm (Some id)) (handle_heartbeat E id b).
Proof. apply (calm_sec E id _ RC_HEARTBEAT_ACK); [tm|apply calm_write_heartbeat|apply op_heartbeat]. Qed.
Lemma calm_handle_key_update E id b : rel (calm (Some id)) (handle_key_update E id b).
Proof. apply (calm_sec E id _ RC_KEY_UPDATE_ACK); [tm|apply calm_write_key_update|apply op_key_update]. Qed.
Lemma calm_handle_vendor E id b : rel (calm (Some id)) (handle_vendor E (Some id) b).
Proof. apply (calm_sec E id _ RC_VENDOR_RSP); [tm|apply calm_write_vendor|apply op_vendor]. Qed.
Lemma calm_handle_digest E id b x r x' : hash_lengths (e_cr E) -> slots8 x ->
  handle_digest E (Some id) b x = (r, x') -> calm (Some id) x x'.
Proof.
  intros HL S8 H. refine (rel_bind_val _ (calm_pre _) slots8 _ _ _ (calm_write_digest E (Some id) b)
    (op_digest E (Some id) b HL) _ x r x' S8 H).
  intros w O. apply (calm_send_secured E id w RC_DIGESTS false); [tm|exact O].
Qed.
Lemma calm_handle_get_encap E id b : rel (calm (Some id)) (handle_get_encap E id b).
Proof.
  apply (rel_bind_any _ (calm_pre _) _ _ (wop RC_ENCAP_REQUEST)); [apply calm_encap_check|apply encap_check_wop; now left|].
  intros w O. apply (calm_sec E id _ RC_ENCAP_REQUEST); [tm|apply calm_write_encap_request|apply op_encap_request, O].
Qed.
Lemma calm_handle_deliver E id b : rel (calm (Some id)) (handle_deliver_encap E id b).
Proof.
  apply (rel_bind_any _ (calm_pre _) _ _ (wop RC_ENCAP_RESPONSE_ACK)); [apply calm_encap_check|apply encap_check_wop; now left|].
  intros w O. apply (calm_sec E id _ RC_ENCAP_RESPONSE_ACK); [tm|apply calm_write_encap_ack|apply op_encap_ack, O].
Qed.

(** a successful FINISH_RSP sent in the clear is the only plain reply that reaches into a session *)
Lemma rel_plain_after R (HR : preorder R) (Hconn : forall x n, R x (set_x_conn n x)) op :
  op <> RC_FINISH_RSP -> rel R (after_send op).
Proof.
  intro H. unfold after_send. rewrite (proj2 (N.eqb_neq _ _) H).
  rl HR; apply rel_mod; intro y; try apply Hconn;
    match goal with |- R _ (if ?c then _ else _) => destruct c end; first [apply Hconn|apply HR].
Qed.

(** FINISH answered in the clear: the session named by last_session_id becomes established *)
Definition guarded (I : ctx -> Prop) (R : ctx -> ctx -> Prop) (x x' : ctx) : Prop := I x -> R x x' /\ I x'.
Lemma guarded_pre I R : preorder R -> preorder (guarded I R).
Proof.
  intros [A B]. split; unfold guarded; [auto|]. intros x y z H1 H2 K. destruct (H1 K) as [K1 K2]. destruct (H2 K2). split; [eapply B; eauto|assumption].
Qed.
Definition lastid (id : N) (x : ctx) : Prop := x_last x = Some id \/ x_last x = None.
Lemma clear_finish_send (R : ctx -> ctx -> Prop) E id w : preorder R -> (forall x x', calm None x x' -> R x x') ->
  (forall x n, R x (set_x_conn n x)) -> (forall x, R x (set_x_last None x)) -> rel R (on_sess id (smod (set_s_state SEstablished))) ->
  rel (guarded (lastid id) R) (send_message E w).
Proof.
  intros HR Hc Hn Hl He. pose proof (guarded_pre (lastid id) R HR) as HG.
  assert (HN : forall x n, guarded (lastid id) R x (set_x_conn n x)) by (intros x n K; split; [apply Hn|exact K]).
  apply rel_send_message; [exact HG| |].
  - intros E0 t x r x' H K. pose proof (calm_io_send E0 t None _ _ _ H) as C. split; [now apply Hc|].
    destruct C as [C _]. unfold outline in C. unfold lastid in *. replace (x_last x') with (x_last x) by congruence. exact K.
  - intros op _. destruct (N.eqb_spec op RC_FINISH_RSP) as [->|Z]; [|now apply rel_plain_after].
    intros x r x' H K. change (after_send RC_FINISH_RSP) with
      (sbind sget (fun x => sbind (sunwrap (x_last x)) (fun id => sbind (on_sess id (smod (set_s_state SEstablished))) (fun _ => smod (set_x_last None))))) in H.
    unfold sbind at 1, sget at 1 in H. destruct K as [K|K]; rewrite K in H.
    + unfold sbind, sunwrap, sret in H. cbv beta iota in H.
      destruct (on_sess id (smod (set_s_state SEstablished)) x) as [[u|e|] y] eqn:O; pose proof (He _ _ _ O) as K1.
      2,3: unfold on_sess in O; destruct (get_sess id x); [discriminate|]; replace x' with x by congruence; split; [apply HR|now left].
      unfold smod in H. replace x' with (set_x_last None y) by congruence. split; [eapply HR; [exact K1|apply Hl]|now right].
    + unfold sbind, sunwrap, spanic in H. replace x' with x by congruence. split; [apply HR|now right].
Qed.
Ltac rq := match goal with A : request_code ?b = Some ?c, B : (?c =? _) = true |- request_code ?b = Some _ => apply N.eqb_eq in B; rewrite A, B; reflexivity end.
Section pass.
  Context (E : env) (R : ctx -> ctx -> Prop) (HR : preorder R).
  Context (G : option N -> Prop) (GN : G None) (Hcalm : forall sid x x', G sid -> calm sid x x' -> R x x').
  Context (Hconn : forall x n, R x (set_x_conn n x)).
  (** what is known of the plain message, and of a message for session [id] when it is dispatched *)
  Context (P : bytes -> ctx -> Prop) (F : N -> bytes -> bool -> ctx -> Prop).
  Context (Hver : forall b x r x', P b x -> request_code b = Some RC_GET_VERSION -> write_version b x = (r, x') -> R x x')
          (Hcap : forall b x r x', P b x -> request_code b = Some RC_GET_CAPABILITIES -> write_capability b x = (r, x') -> R x x')
          (Halg : forall b x r x', P b x -> request_code b = Some RC_NEGOTIATE_ALGORITHMS -> write_algorithm E b x = (r, x') -> R x x')
          (Hkx : forall b x r x', P b x -> request_code b = Some RC_KEY_EXCHANGE -> write_key_exchange E b x = (r, x') -> R x x')
          (Hpx : forall b x r x', P b x -> request_code b = Some RC_PSK_EXCHANGE -> write_psk_exchange E b x = (r, x') -> R x x').
  Context (Hfin : forall id b x r x' s, F id b false x -> request_code b = Some RC_FINISH -> (in_clear (xc x) = true -> x_last x = Some id) -> get_sess id x = Some s -> s_state s = SHandshaking ->
             handle_finish E id b x = (r, x') -> R x x').
  Context (Hpfin : forall id b x r x' s, F id b false x -> request_code b = Some RC_PSK_FINISH -> get_sess id x = Some s -> s_state s = SHandshaking ->
             handle_psk_finish E id b x = (r, x') -> R x x').
  Context (Hend : forall id b x r x' s, F id b false x -> request_code b = Some RC_END_SESSION -> get_sess id x = Some s -> s_state s = SEstablished ->
             handle_end_session E id b x = (r, x') -> R x x').
  Context (Happ : forall id b x r x' s, F id b true x -> get_sess id x = Some s -> dispatch_app E id b x = (r, x') -> R x x').
  Context (HL : hash_lengths (e_cr E)).

  Lemma pass_calm {A} sid (m : st ctx A) : G sid -> rel (calm sid) m -> rel R m.
  Proof using Hcalm. intro K. apply rel_mono. intros x x'. now apply Hcalm. Qed.
  Lemma header_request b h t : read_header b = Some (h, t) -> request_code b = Some (h_code h).
  Proof using.
    unfold read_header, dec_header, dbind, d_u8, dlift, p_u8, dret. destruct b as [|v [|c b]]; try discriminate. intro H.
    assert (h = mkHeader v c) as -> by congruence. reflexivity.
  Qed.
  Lemma pass_io : io_ok R.
  Proof using Hcalm GN. intros E0 b. apply (pass_calm None); [exact GN|apply calm_io_send]. Qed.
  Lemma pass_plain (b : bytes) (m : st ctx bytes) c : c <> RC_FINISH_RSP -> rel R m -> val anyc m (rop c) ->
    rel R (sbind m (fun w => send_message E w)).
  Proof using HR Hcalm Hconn GN.
    intros Hc Hm Hv. apply (rel_bind_any _ HR _ _ (rop c)); [exact Hm|exact Hv|].
    intros w O. apply rel_send_message; [exact HR|exact pass_io|]. intros op Hop.
    apply rel_plain_after; [exact HR|exact Hconn|]. destruct O as [O|O]; rewrite O in Hop; injection Hop as <-; [discriminate|exact Hc].
  Qed.
  Lemma pass_at (m : st ctx bytes) c x r x' : c <> RC_FINISH_RSP -> (forall r1 x1, m x = (r1, x1) -> R x x1) -> val anyc m (rop c) ->
    sbind m (fun w => send_message E w) x = (r, x') -> R x x'.
  Proof using HR Hcalm Hconn GN.
    intros Hc Hm Hv H. unfold sbind in H. destruct (m x) as [[w|e|] x1] eqn:M; pose proof (Hm _ _ eq_refl) as K.
    - eapply HR; [exact K|]. pose proof (Hv x w x1 I M) as O. revert H.
      assert (Z : rel R (send_message E w)); [|exact (Z x1 r x')].
      apply rel_send_message; [exact HR|exact pass_io|]. intros op Hop.
      apply rel_plain_after; [exact HR|exact Hconn|]. destruct O as [O|O]; rewrite O in Hop; injection Hop as <-; [discriminate|exact Hc].
    - replace x' with x1 by congruence. exact K.
    - replace x' with x1 by congruence. exact K.
  Qed.
  Lemma pass_exact c (m : st ctx bytes) : val anyc m (fun w => opcode w = Some c) -> val anyc m (rop c).
  Proof using. apply val_mono. intros w H. now right. Qed.
  Lemma pass_error c b : rel R (handle_error_request E c None b).
  Proof using HR Hcalm Hconn GN.
    apply (pass_plain b _ RC_ERROR); [discriminate|apply (pass_calm None); [exact GN|apply calm_error_response]|apply op_error_response].
  Qed.
  Lemma pass_digest b x r x' : slots8 x -> handle_digest E None b x = (r, x') -> R x x'.
  Proof using HR Hcalm Hconn HL GN.
    intros S8 H. refine (rel_bind_val R HR slots8 _ _ _ (pass_calm None _ GN (calm_write_digest E None b))
      (op_digest E None b HL) _ x r x' S8 H).
    intros w O. apply rel_send_message; [exact HR|exact pass_io|]. intros op Hop.
    apply rel_plain_after; [exact HR|exact Hconn|]. destruct O as [O|O]; rewrite O in Hop; injection Hop as <-; discriminate.
  Qed.
  Lemma pass_message b x r x' : P b x ->
    (forall id, request_code b = Some RC_FINISH -> in_clear (xc x) = true -> x_last x = Some id -> F id b false x) -> slots8 x -> dispatch_message E b x = (r, x') -> R x x'.
  Proof using HR Hcalm Hconn HL Hver Hcap Halg Hkx Hpx Hfin GN.
    intros Pb Pf S8 H. unfold dispatch_message in H. destruct (read_header b) as [[h t]|] eqn:Rh.
    2:{ exact (rel_err R HR _ _ _ _ H). }
    cbv zeta in H. pose proof (header_request _ _ _ Rh) as RQ.
    destruct (_ =? RC_GET_VERSION) eqn:Q. { refine (pass_at _ RC_VERSION x r x' _ (fun r1 x1 => Hver b x r1 x1 Pb ltac:(rq)) (op_version b) H); discriminate. }
    destruct (_ =? RC_GET_CAPABILITIES) eqn:QG. { refine (pass_at _ RC_CAPABILITIES x r x' _ (fun r1 x1 => Hcap b x r1 x1 Pb ltac:(rq)) (op_capability b) H); discriminate. }
    destruct (_ =? RC_NEGOTIATE_ALGORITHMS) eqn:QN. { refine (pass_at _ RC_ALGORITHMS x r x' _ (fun r1 x1 => Halg b x r1 x1 Pb ltac:(rq)) (op_algorithm E b) H); discriminate. }
    destruct (_ =? RC_GET_DIGESTS). { exact (pass_digest b x r x' S8 H). }
    destruct (_ =? RC_GET_CERTIFICATE).
    { refine (pass_plain b _ RC_CERTIFICATE _ (pass_calm None _ GN (calm_write_certificate E None b)) (op_certificate E None b) _ _ _ H); discriminate. }
    destruct (_ =? RC_CHALLENGE).
    { refine (pass_plain b _ RC_CHALLENGE_AUTH _ (pass_calm None _ GN (calm_write_challenge E b)) (op_challenge E b) _ _ _ H); discriminate. }
    destruct (_ =? RC_GET_MEASUREMENTS).
    { refine (pass_plain b _ RC_MEASUREMENTS _ (pass_calm None _ GN (calm_write_measurement E None b)) (op_measurement E None b) _ _ _ H); discriminate. }
    destruct (_ =? RC_KEY_EXCHANGE) eqn:QKEY_EXCHANGE.
    { refine (pass_at _ RC_KEY_EXCHANGE_RSP x r x' _ (fun r1 x1 => Hkx b x r1 x1 Pb ltac:(rq)) (pass_exact _ _ (op_key_exchange E b)) H); discriminate. }
    destruct (_ =? RC_PSK_EXCHANGE) eqn:QPSK_EXCHANGE.
    { refine (pass_at _ RC_PSK_EXCHANGE_RSP x r x' _ (fun r1 x1 => Hpx b x r1 x1 Pb ltac:(rq)) (pass_exact _ _ (op_psk_exchange E b)) H); discriminate. }
    destruct (_ =? RC_VENDOR_REQ).
    { refine (pass_plain b _ RC_VENDOR_RSP _ (pass_calm None _ GN (calm_write_vendor E None b)) (op_vendor E None b) _ _ _ H); discriminate. }
    destruct (_ =? RC_FINISH) eqn:QFINISH.
    { unfold dispatch_plain_finish in H. unfold sbind at 1, sget at 1 in H.
      destruct (if in_clear (xc x) then x_last x else None) as [id|] eqn:IC; [|exact (pass_error _ _ _ _ _ H)].
      destruct (get_sess id x) as [s|] eqn:G0; [|exact (pass_error _ _ _ _ _ H)].
      destruct (s_state s) eqn:S; try exact (pass_error _ _ _ _ _ H). destruct (in_clear (xc x)) eqn:IC1; [|discriminate].
      exact (Hfin id b x r x' s (Pf id ltac:(rq) eq_refl IC) ltac:(rq) (fun _ => IC) G0 S H). }
    destruct (is_one_of _ _); [exact (pass_error _ _ _ _ _ H)|].
    destruct (_ =? RC_RESPOND_IF_READY); [exact (pass_error _ _ _ _ _ H)|exact (rel_err R HR _ _ _ _ H)].
  Qed.
  Lemma pass_secured id b x r x' : G (Some id) -> F id b false x -> slots8 x -> dispatch_secured E id b x = (r, x') -> R x x'.
  Proof using HR Hcalm Hfin Hpfin Hend HL.
    intros GS FS S8 H. unfold dispatch_secured in H. unfold sbind at 1, sget at 1 in H.
    destruct (get_sess id x) as [s|] eqn:G0; [|exact (rel_err R HR _ _ _ _ H)].
    destruct (s_state s) eqn:S; try exact (rel_err R HR _ _ _ _ H).
    - unfold dispatch_handshaking in H. unfold sbind at 1, sget at 1 in H.
      destruct (in_clear _) eqn:IC; [exact (rel_err R HR _ _ _ _ H)|].
      destruct (read_header b) as [[h t]|] eqn:Rh; [|exact (rel_err R HR _ _ _ _ H)]. cbv zeta in H. pose proof (header_request _ _ _ Rh) as RQ.
      destruct (_ && _); [exact (pass_calm _ _ GS (calm_handle_get_encap E id b) _ _ _ H)|].
      destruct (_ && _); [exact (pass_calm _ _ GS (calm_handle_deliver E id b) _ _ _ H)|].
      destruct (_ =? RC_FINISH) eqn:QFINISH; [exact (Hfin id b x r x' s FS ltac:(rq) ltac:(intro; congruence) G0 S H)|].
      destruct (_ =? RC_PSK_FINISH) eqn:QPSK_FINISH; [exact (Hpfin id b x r x' s FS ltac:(rq) G0 S H)|].
      destruct (_ =? RC_VENDOR_REQ); [exact (pass_calm _ _ GS (calm_handle_vendor E id b) _ _ _ H)|].
      destruct (is_one_of _ _); [exact (pass_calm _ _ GS (calm_handle_error E _ id b) _ _ _ H)|].
      destruct (_ =? RC_RESPOND_IF_READY); [exact (pass_calm _ _ GS (calm_handle_error E _ id b) _ _ _ H)|exact (rel_err R HR _ _ _ _ H)].
    - unfold dispatch_established in H.
      destruct (read_header b) as [[h t]|] eqn:Rh; [|exact (rel_err R HR _ _ _ _ H)]. cbv zeta in H. pose proof (header_request _ _ _ Rh) as RQ.
      destruct (_ =? RC_GET_DIGESTS); [exact (Hcalm _ _ _ GS (calm_handle_digest E id b x r x' HL S8 H))|].
      destruct (_ =? RC_GET_CERTIFICATE); [exact (pass_calm _ _ GS (calm_handle_certificate E id b) _ _ _ H)|].
      destruct (_ =? RC_GET_MEASUREMENTS); [exact (pass_calm _ _ GS (calm_handle_measurement E id b) _ _ _ H)|].
      destruct (_ =? RC_HEARTBEAT); [exact (pass_calm _ _ GS (calm_handle_heartbeat E id b) _ _ _ H)|].
      destruct (_ =? RC_KEY_UPDATE); [exact (pass_calm _ _ GS (calm_handle_key_update E id b) _ _ _ H)|].
      destruct (_ =? RC_END_SESSION) eqn:QEND_SESSION; [exact (Hend id b x r x' s FS ltac:(rq) G0 S H)|].
      destruct (_ =? RC_VENDOR_REQ); [exact (pass_calm _ _ GS (calm_handle_vendor E id b) _ _ _ H)|].
      destruct (is_one_of _ _); [exact (pass_calm _ _ GS (calm_handle_error E _ id b) _ _ _ H)|].
      destruct (_ =? RC_RESPOND_IF_READY); [exact (pass_calm _ _ GS (calm_handle_error E _ id b) _ _ _ H)|exact (rel_err R HR _ _ _ _ H)].
  Qed.
  Lemma is_ok_inv (m : st ctx unit) x r x' : is_ok m x = (r, x') -> exists r0, m x = (r0, x').
  Proof using.
    unfold is_ok, scatch. destruct (m x) as [[[]| |] x0]; intro H; eexists; unfold sret in H; f_equal; congruence.
  Qed.
  Lemma get_sess_upd id s f x : get_sess id x = Some s -> s_id (f s) = id -> get_sess id (mod_sess id f x) = Some (f s).
  Proof using.
    unfold get_sess, mod_sess, find_sess. cbn [x_sess set_x_sess]. induction (x_sess x) as [|a l IH]; cbn; [discriminate|].
    destruct (s_id a =? id) eqn:Q; cbn.
    - intros K1 K2. replace s with a in * by congruence. rewrite K2, N.eqb_refl. reflexivity.
    - rewrite Q. exact IH.
  Qed.
  Lemma decode_keeps id c x r x' s : get_sess id x = Some s ->
    on_sess id (decode_secured (e_cr E) true c BUFFER_SIZE) x = (r, x') -> exists s', get_sess id x' = Some s' /\ skey s' = skey s.
  Proof using.
    intros G0 H. unfold on_sess in H. rewrite G0 in H. destruct (decode_secured _ _ _ _ s) as [o s1] eqn:D.
    pose proof (skeep_decode _ _ _ _ _ _ _ D) as K. exists s1. split; [|exact K].
    replace x' with (mod_sess id (fun _ => s1) x) by congruence.
    apply (get_sess_upd id s (fun _ => s1)); [exact G0|]. change (s_id s1 = id). unfold skey in K.
    assert (s_id s = id) by (unfold get_sess, find_sess in G0; apply find_some in G0; apply N.eqb_eq, G0). congruence.
  Qed.
  Theorem pass_frame f x r x' :
    (forall b, tr_decap (e_tr E) BUFFER_SIZE f = Ok (b, false) -> P b x) ->
    (forall b id, tr_decap (e_tr E) BUFFER_SIZE f = Ok (b, false) -> request_code b = Some RC_FINISH -> in_clear (xc x) = true ->
       x_last x = Some id -> F id b false x) ->
    (forall b id, tr_decap (e_tr E) BUFFER_SIZE f = Ok (b, true) -> read_session_id b = Some id -> G (Some id)) ->
    (forall b id s a s1 m app, tr_decap (e_tr E) BUFFER_SIZE f = Ok (b, true) -> read_session_id b = Some id -> get_sess id x = Some s ->
       decode_secured (e_cr E) true b BUFFER_SIZE s = (Ok a, s1) -> tr_decap_app (e_tr E) MAX_SPDM_MSG_SIZE a = Ok (m, app) ->
       F id m app (mod_sess id (fun _ => s1) x)) ->
    slots8 x -> process_frame E f x = (r, x') -> R x x'.
  Proof using HR Hcalm Hconn HL Hver Hcap Halg Hkx Hpx Hfin Hpfin Hend Happ GN.
    intros Pf Ff Gs Fs S8 H. unfold process_frame in H. destruct (tr_decap _ _ f) as [[b [|]]| |] eqn:TD.
    - unfold process_secured in H. destruct (read_session_id b) as [id|] eqn:RI; [|exact (rel_ret R HR _ _ _ _ H)].
      unfold sbind at 1, sget at 1 in H. destruct (get_sess id x) as [s|] eqn:G0; [|exact (rel_ret R HR _ _ _ _ H)].
      unfold scatch at 1 in H. destruct (on_sess id _ x) as [o x1] eqn:D.
      assert (C : calm (Some id) x x1) by (eapply calm_on_sess; [apply skeep_decode|exact D]).
      assert (S1 : slots8 x1) by (unfold slots8 in *; destruct C as [C _]; unfold outline in C; congruence).
      destruct (decode_keeps id b x o x1 s G0 D) as (s1 & G1 & _).
      pose proof (Gs b id eq_refl RI) as GI.
      eapply HR; [exact (Hcalm _ _ _ GI C)|].
      destruct o as [a| |]; [|exact (rel_ret R HR _ _ _ _ H)|exact (rel_panic R HR _ _ _ H)].
      unfold on_sess in D. rewrite G0 in D. destruct (decode_secured _ _ _ _ s) as [o2 s2] eqn:DS.
      assert (o2 = Ok a) as -> by congruence. assert (x1 = mod_sess id (fun _ => s2) x) as -> by congruence.
      destruct (tr_decap_app _ _ a) as [[m [|]]| |] eqn:TA.
      + apply is_ok_inv in H as [r0 H]. exact (Happ id m _ r0 x' s1 (Fs _ _ _ _ _ _ _ eq_refl RI G0 DS TA) G1 H).
      + apply is_ok_inv in H as [r0 H]. exact (pass_secured id m _ r0 x' GI (Fs _ _ _ _ _ _ _ eq_refl RI G0 DS TA) S1 H).
      + exact (rel_ret R HR _ _ _ _ H).
      + exact (rel_panic R HR _ _ _ H).
    - apply is_ok_inv in H as [r0 H]. exact (pass_message b x r0 x' (Pf b eq_refl) (fun id => Ff b id eq_refl) S8 H).
    - exact (rel_ret R HR _ _ _ _ H).
    - exact (rel_panic R HR _ _ _ H).
  Qed.
End pass.
