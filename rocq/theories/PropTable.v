(** C23 (establishment), C24 (session table), C25 (half session ids). *)
From Verif Require Import Bytes BytesFacts Status Codec Parse ParseProofs Algo Monad.
From Verif Require Import MsgConn MsgAuth MsgSession MsgOther Message Opaque Transport Crypto KeySchedule Session Signing CertOps ChainVerify Context
  RspBase RspConn RspSess RspEncap Responder StRel RspFrame RspCalm RspOpcode RspSend SpecResponder SpecFinish RspPhase RspPass RspSlots RspTable RspIso RspEst
  ToyCrypto PropPhase ExRun.
From Coq Require Import List Lia.
Local Open Scope N_scope.

(** ** every state the main loop reaches *)
Lemma plain_bytes E f b : delivers_bytes E -> bytes_ok f -> plain_message E f = Some b -> bytes_ok b.
Proof.
  intros [_ D] Hf. unfold plain_message. destruct (tr_decap _ _ f) as [[c [|]]| |] eqn:T; try discriminate. intro K.
  assert (c = b) as -> by congruence. exact (D _ _ _ _ Hf T).
Qed.
Lemma served_ok E cfg cd mc root x : digest_sizes (e_cr E) -> delivers_bytes E -> length mc = 8%nat ->
  served E (process_message E) (ctx_new cfg cd mc root) x -> slots8 x /\ tok x.
Proof.
  intros HL HD Hm H. remember (ctx_new cfg cd mc root) as x0 eqn:E0. induction H as [|x0 y z r S IH P].
  - subst. split; [exact Hm|]. apply tok_fresh; reflexivity.
  - destruct (IH E0) as [S8 T]. clear IH. unfold process_message in P. apply sbind_inv in P as (f & y1 & P & K).
    assert (y1 = set_x_io (x_io y + 1) y) as -> by (unfold io_recv in P; congruence).
    assert (S1 : slots8 (set_x_io (x_io y + 1) y)) by exact S8. assert (T1 : tok (set_x_io (x_io y + 1) y)) by exact T.
    destruct f as [f|]; [|unfold sret in K; replace z with (set_x_io (x_io y + 1) y) by congruence; auto].
    assert (Hf : bytes_ok f) by (unfold io_recv in P; destruct (e_recv E (x_io y) (x_sent y)) as [g|] eqn:Rv; [|discriminate];
      destruct (BUFFER_SIZE <? len g); [discriminate|]; apply (proj1 HD (x_io y) (x_sent y)); congruence).
    split; [exact (frame_slots E f _ _ _ HL S1 K)|].
    exact (frame_tok E f _ _ _ HL (fun b => plain_bytes E f b HD Hf) S1 T1 K).
Qed.

Theorem C24_session_table_integrity : forall E cfg chain_data my_chain root x,
  digest_sizes (e_cr E) -> delivers_bytes E -> length my_chain = 8%nat ->
  served E (process_message E) (ctx_new cfg chain_data my_chain root) x -> table_integrity (x_sess x).
Proof. intros E cfg cd mc root x H1 H2 H3 H. exact (tok_integrity x (proj2 (served_ok _ _ _ _ _ _ H1 H2 H3 H))). Qed.
Print Assumptions C24_session_table_integrity.

Theorem C24_other_sessions_untouched : forall E cfg chain_data my_chain root x f r x',
  digest_sizes (e_cr E) -> delivers_bytes E -> length my_chain = 8%nat ->
  served E (process_message E) (ctx_new cfg chain_data my_chain root) x ->
  bytes_ok f -> process_frame E f x = (r, x') ->
  length (x_sess x') = length (x_sess x) /\
  forall i s s', nth_error (x_sess x) i = Some s -> nth_error (x_sess x') i = Some s' -> s' = s \/ may_touch E f x s.
Proof.
  intros E cfg cd mc root x f r x' H1 H2 H3 H Hf P. destruct (served_ok _ _ _ _ _ _ H1 H2 H3 H) as [S8 T].
  pose proof (frame_reach E f x r x' H1 (fun b => plain_bytes E f b H2 Hf) S8 T P) as R. unfold reach, slotwise in R.
  split; [exact (Forall2_len _ _ _ R)|]. intros i s s' A B. clear -R A B. revert i A B. induction R as [|a b l l' K R IH]; intros [|i] A B; try discriminate.
  - cbn in A, B. replace s with a by congruence. replace s' with b by congruence. exact K.
  - exact (IH i A B).
Qed.
Print Assumptions C24_other_sessions_untouched.

(** ** a full table *)
Ltac qu1 :=
  first [ apply quiet_on_sess | apply quiet_append_k | apply quiet_random | apply quiet_summary
        | apply rel_mod; intro; apply quiet_reset_buffer | apply rel_mod; intro; split; reflexivity ].
Lemma quiet_key_exchange E b : rel quiet (write_key_exchange E b).
Proof. unfold write_key_exchange, exchange_start, open_session, key_exchange_finishing, rsp_hmac, or_abandon, abandon. rl quiet_pre; try qu1. Qed.
Lemma quiet_psk_exchange E b : rel quiet (write_psk_exchange E b).
Proof. unfold write_psk_exchange, exchange_start, open_psk_session, psk_exchange_finishing, psk_context, rsp_hmac, or_abandon, abandon. rl quiet_pre; try qu1. Qed.
Lemma next_half_full l i : (forall s, In s l -> half false (s_id s) <> 0) -> next_half false i l = None.
Proof.
  revert i. induction l as [|s l IH]; intros i H; [reflexivity|]. cbn. rewrite (proj2 (N.eqb_neq _ _)) by (apply H; now left). apply IH. intros t Ht. apply H. now right.
Qed.
Lemma live_half x s : tok x -> In s (x_sess x) -> s_id s <> 0 -> half false (s_id s) <> 0.
Proof.
  intros (L & F & _) Hin Hs. destruct (fine_high 0 _ s F ltac:(unfold len; rewrite L; cbn; lia) Hin Hs) as (j & J & K).
  unfold len in J. rewrite L in J. rewrite (half_high s j) by (try exact K; cbn in J; lia). cbn in J. lia.
Qed.
Lemma full_next x : tok x -> (forall s, In s (x_sess x) -> s_id s <> 0) -> get_next_half_session_id false x = Err ST_SESSION_NUMBER_EXCEED.
Proof.
  intros T H. unfold get_next_half_session_id. rewrite next_half_full; [reflexivity|].
  intros s Hs. rewrite firstn_all2 in Hs by (rewrite (proj1 T); reflexivity). apply (live_half x); auto.
Qed.
Lemma exchange_full_key E b x w x' : bytes_ok b -> tok x -> (forall s, In s (x_sess x) -> s_id s <> 0) -> write_key_exchange E b x <> (Ok w, x').
Proof.
  intros Hb T Hf H. destruct (opens_key_exchange E b x _ x' Hb T H) as [(A & B & C)|(l1 & s0 & l2 & id & S0 & Z & _)].
  2:{ apply (Hf s0); [rewrite S0; apply in_elt|exact Z]. }
  clear A B C. unfold write_key_exchange, exchange_start in H. unfold sbind at 1, sget at 1 in H.
  destruct (negotiated x); [|discriminate]. unfold with_version_r in H. unfold sbind at 1, sget at 1 in H.
  destruct (read_header b) as [[h t]|]; [|discriminate]. destruct (negb _); [discriminate|]. destruct (0x11 <=? ver x); [|discriminate].
  assert (M : forall y r y' p, tabeq x y -> (oror ST_INVALID_STATE_LOCAL (sof (get_next_half_session_id false y)) : st ctx N) y' = (Ok p, r) -> False).
  { intros y r y' p (K & K1 & _) Q. assert (Ty : tok y) by (apply (tok_field x); auto). rewrite (full_next y Ty) in Q by (rewrite K; exact Hf). discriminate. }
  assert (TB : forall A (m : st ctx A) u y v y', tabeq x y -> rel tabeq m -> m y = (u, y') -> v = y' -> tabeq x y') by (intros; eapply tabeq_pre; eauto).
  bi H. unfold smod in P. assert (T1 : tabeq x y) by (replace y with (reset_buffer RC_KEY_EXCHANGE None x) by congruence; apply tab_reset). clear P.
  bi H. destruct v0 as [[p rest]|]; [|discriminate]. assert (T2 : tabeq x y0) by (eapply tabeq_pre; [exact T1|]; refine ((_ : rel tabeq (rd dec_key_ex t)) _ _ _ P); tb). clear P.
  bi H. assert (T3 : tabeq x y1) by (eapply tabeq_pre; [exact T2|]; exact (tab_summary _ _ _ _ _ P)). clear P.
  bi H. assert (T4 : tabeq x y2) by (eapply tabeq_pre; [exact T3|]; refine ((_ : rel tabeq (sok ST_INVALID_MSG_FIELD v0)) _ _ _ P); tb). clear P.
  bi H. assert (T5 : tabeq x y3) by (eapply tabeq_pre; [exact T4|]; unfold smod in P; match type of P with (_, ?z) = _ => replace y3 with z by congruence end; repeat split). clear P.
  bi H. unfold sget in P. assert (v3 = y3) as -> by congruence. assert (y4 = y3) as -> by congruence. clear P.
  bi H. clear P. destruct (slot_ok y3 _); [|discriminate]. bi H. clear P. bi H. clear P. bi H. clear P. bi H. clear P. bi H. exact (M _ _ _ _ T5 P).
Qed.
Lemma exchange_full_psk E b x w x' : bytes_ok b -> tok x -> (forall s, In s (x_sess x) -> s_id s <> 0) -> write_psk_exchange E b x <> (Ok w, x').
Proof.
  intros Hb T Hf H. unfold write_psk_exchange, exchange_start in H. unfold sbind at 1, sget at 1 in H.
  destruct (negotiated x); [|discriminate]. unfold with_version_r in H. unfold sbind at 1, sget at 1 in H.
  destruct (read_header b) as [[h t]|]; [|discriminate]. destruct (negb _); [discriminate|]. destruct (0x11 <=? ver x); [|discriminate].
  bi H. unfold smod in P. assert (T1 : tabeq x y) by (replace y with (reset_buffer RC_PSK_EXCHANGE None x) by congruence; apply tab_reset). clear P.
  bi H. destruct v0 as [[p rest]|]; [|discriminate]. assert (T2 : tabeq x y0) by (eapply tabeq_pre; [exact T1|]; refine ((_ : rel tabeq (rd dec_psk_ex t)) _ _ _ P); tb). clear P.
  bi H. assert (T3 : tabeq x y1) by (eapply tabeq_pre; [exact T2|]; exact (tab_summary _ _ _ _ _ P)). clear P.
  bi H. assert (T4 : tabeq x y2) by (eapply tabeq_pre; [exact T3|]; refine ((_ : rel tabeq (sok ST_CRYPTO_ERROR v0)) _ _ _ P); tb). clear P.
  bi H. unfold sget in P. assert (v2 = y2) as -> by congruence. assert (y3 = y2) as -> by congruence. clear P.
  bi H. clear P. cbv zeta in H. bi H. clear P. bi H. destruct T4 as (K & K1 & _). assert (Ty : tok y2) by (apply (tok_field x); auto).
  rewrite (full_next y2 Ty) in P by (rewrite K; exact Hf). discriminate.
Qed.
Theorem C24_full_table_refuses : forall E cfg chain_data my_chain root x f b c r x',
  digest_sizes (e_cr E) -> delivers_bytes E -> length my_chain = 8%nat ->
  served E (process_message E) (ctx_new cfg chain_data my_chain root) x ->
  bytes_ok f -> plain_message E f = Some b -> request_code b = Some c -> c = 0xE4 \/ c = 0xE6 ->
  (forall s, In s (x_sess x) -> s_id s <> 0) ->
  process_frame E f x = (r, x') -> r <> Ok (Some true) /\ x_sess x' = x_sess x /\ x_sent x' = x_sent x.
Proof.
  intros E cfg cd mc root x f b c r x' H1 H2 H3 H Hf Pb Rc Hc Fu P. destruct (served_ok _ _ _ _ _ _ H1 H2 H3 H) as [S8 T].
  pose proof (plain_bytes E f b H2 Hf Pb) as Bb.
  assert (N0 : forall b0, secured_message E f = Some b0 -> False).
  { intros b0 K. unfold secured_message in K. unfold plain_message in Pb. destruct (tr_decap _ _ f) as [[? [|]]| |]; discriminate. }
  unfold process_frame in P. clear N0. unfold plain_message in Pb. destruct (tr_decap _ _ f) as [[b0 [|]]| |]; try discriminate.
  assert (b0 = b) as -> by congruence. unfold is_ok, scatch in P. destruct (code_header b c Rc) as (h & t & Rh & Hh).
  unfold dispatch_message in P. rewrite Rh, Hh in P. cbv zeta in P.
  assert (NS : forall Q (y : ctx), opened Q x y -> x_sess y = x_sess x).
  { intros Q y [(K & _)|(l1 & s0 & l2 & id & S0 & Z & _)]; [exact K|]. exfalso. apply (Fu s0); [rewrite S0; apply in_elt|exact Z]. }
  destruct Hc as [->| ->].
  - unfold RC_GET_VERSION, RC_GET_CAPABILITIES, RC_NEGOTIATE_ALGORITHMS, RC_GET_DIGESTS, RC_GET_CERTIFICATE, RC_CHALLENGE, RC_GET_MEASUREMENTS, RC_KEY_EXCHANGE in P; cbn [N.eqb Pos.eqb] in P.
    unfold handle_key_exchange, sbind in P. destruct (write_key_exchange E b x) as [[w|e|] y] eqn:W.
    + exfalso. exact (exchange_full_key E b x w y Bb T Fu W).
    + pose proof (quiet_key_exchange E b _ _ _ W) as [Q1 Q2]. pose proof (NS _ _ (opens_key_exchange E b x _ y Bb T W)) as Q3.
      unfold sret in P. assert (x' = y) as -> by congruence. split; [congruence|]. split; [exact Q3|exact Q1].
    + pose proof (quiet_key_exchange E b _ _ _ W) as [Q1 Q2]. pose proof (NS _ _ (opens_key_exchange E b x _ y Bb T W)) as Q3.
      assert (x' = y) as -> by congruence. split; [congruence|]. split; [exact Q3|exact Q1].
  - unfold RC_GET_VERSION, RC_GET_CAPABILITIES, RC_NEGOTIATE_ALGORITHMS, RC_GET_DIGESTS, RC_GET_CERTIFICATE, RC_CHALLENGE, RC_GET_MEASUREMENTS, RC_KEY_EXCHANGE, RC_PSK_EXCHANGE in P; cbn [N.eqb Pos.eqb] in P.
    unfold handle_psk_exchange, sbind in P. destruct (write_psk_exchange E b x) as [[w|e|] y] eqn:W.
    + exfalso. exact (exchange_full_psk E b x w y Bb T Fu W).
    + pose proof (quiet_psk_exchange E b _ _ _ W) as [Q1 Q2]. pose proof (NS _ _ (opens_psk_exchange E b x _ y Bb T W)) as Q3.
      unfold sret in P. assert (x' = y) as -> by congruence. split; [congruence|]. split; [exact Q3|exact Q1].
    + pose proof (quiet_psk_exchange E b _ _ _ W) as [Q1 Q2]. pose proof (NS _ _ (opens_psk_exchange E b x _ y Bb T W)) as Q3.
      assert (x' = y) as -> by congruence. split; [congruence|]. split; [exact Q3|exact Q1].
Qed.
Print Assumptions C24_full_table_refuses.

(** ** C25: half session ids *)
(** the responder half of a session id *)
Definition responder_half (id : N) : N := (id / 65536) mod 65536.
Theorem C25_responder_half_ids_fresh : forall E cfg chain_data my_chain root x,
  digest_sizes (e_cr E) -> delivers_bytes E -> length my_chain = 8%nat ->
  served E (process_message E) (ctx_new cfg chain_data my_chain root) x ->
  match get_next_half_session_id false x with
  | Ok h => h <> 0 /\ h < 65536 /\ (exists s, In s (x_sess x) /\ s_id s = 0) /\
            forall s, In s (x_sess x) -> s_id s <> 0 -> responder_half (s_id s) <> h
  | Err e => e = ST_SESSION_NUMBER_EXCEED /\ forall s, In s (x_sess x) -> s_id s <> 0
  | Panic => False
  end.
Proof.
  intros E cfg cd mc root x H1 H2 H3 H. destruct (served_ok _ _ _ _ _ _ H1 H2 H3 H) as [_ T].
  destruct (get_next_half_session_id false x) as [h|e|] eqn:Nx.
  - destruct (open_split x h 0 T Nx ltac:(lia)) as (l1 & s0 & l2 & S & Z & _ & _ & Hh & I0 & U1 & U2).
    unfold session_id in *. pose proof T as (L & F & _). rewrite S in L. rewrite app_length in L. cbn [length] in L.
    unfold len in Hh. assert (h = 0xFFFD - N.of_nat (length l1)) as Eh.
    { rewrite <- Hh. rewrite N.add_0_r. first [rewrite N.shiftl_mul_pow2; symmetry; apply N.div_mul; discriminate | symmetry; apply N.div_mul; discriminate]. }
    split; [lia|]. split; [lia|]. split; [exists s0; split; [rewrite S; apply in_elt|exact Z]|].
    intros s Hs Hn Eq. unfold responder_half in Eq.
    unfold table_integrity in *. rewrite S in F. apply fine_app in F as [F1 F2]. rewrite S in Hs. apply in_app_or in Hs as [Hs|[->|Hs]].
    + destruct (fine_high 0 l1 s F1 ltac:(unfold len; lia) Hs Hn) as (j & J & K). unfold len in J. rewrite K, N.mod_small in Eq by lia. lia.
    + congruence.
    + cbn [fine_from] in F2. destruct F2 as [_ F2]. destruct (fine_high _ l2 s F2 ltac:(unfold len in *; lia) Hs Hn) as (j & J & K). unfold len in J. rewrite K, N.mod_small in Eq by lia. lia.
  - unfold get_next_half_session_id in Nx. rewrite firstn_all2 in Nx by (rewrite (proj1 T); reflexivity).
    destruct (next_half false 0 (x_sess x)) eqn:K; [discriminate|]. split; [congruence|]. intros s Hs Z.
    enough (G : forall l i, next_half false i l = None -> forall s, In s l -> half false (s_id s) <> 0) by (apply (G _ _ K s Hs); rewrite Z; reflexivity).
    clear. induction l as [|a l IH]; intros i K s Hs; [destruct Hs|].
    cbn [next_half] in K. destruct (N.eqb_spec (half false (s_id a)) 0) as [_|Q]; [discriminate|]. destruct Hs as [<-|Hs]; [exact Q|]. exact (IH _ K s Hs).
  - unfold get_next_half_session_id in Nx. destruct (next_half _ _ _); discriminate.
Qed.
Print Assumptions C25_responder_half_ids_fresh.

(** ** C23: how a session becomes established *)
Theorem C23_established_only_by_verified_finish : forall E cfg chain_data my_chain root x f r x',
  digest_sizes (e_cr E) -> delivers_bytes E -> app_replies_differ E -> length my_chain = 8%nat ->
  served E (process_message E) (ctx_new cfg chain_data my_chain root) x ->
  bytes_ok f -> process_frame E f x = (r, x') ->
  forall i s s', nth_error (x_sess x) i = Some s -> nth_error (x_sess x') i = Some s' -> s_state s' = SEstablished ->
  (s_state s = SEstablished /\ s_id s' = s_id s) \/
  (s_id s = 0 /\ opens_psk_without_context E f x) \/
  completes E f x (s_id s').
Proof.
  intros E cfg cd mc root x f r x' H1 H2 Ha H3 H Hf P i s s' A B Es. destruct (served_ok _ _ _ _ _ _ H1 H2 H3 H) as [S8 T].
  pose proof (frame_est E f x r x' H1 Ha (fun b => plain_bytes E f b H2 Hf) S8 T P) as R. unfold est, slotwise in R.
  assert (adv (opens_psk_without_context E f x) (completes E f x) s s') as K.
  { clear -R A B. revert i A B. induction R as [|a b l l' K R IH]; intros [|i] A B; try discriminate.
    - cbn in A, B. replace s with a by congruence. replace s' with b by congruence. exact K.
    - exact (IH i A B). }
  destruct (K Es) as [K1|[K1|K1]]; auto.
  destruct (C24_other_sessions_untouched E cfg cd mc root x f r x' H1 H2 H3 H Hf P) as [_ O]. destruct (O i s s' A B) as [->|M]; [now left; auto|].
  destruct K1 as (b & Pb & Rb & Nc). inversion M as [b0 M1|b0 M1 M2|b0 c M1 M2 M3 M4|b0 M1 M2].
  - exfalso. unfold secured_message in M1. unfold plain_message in Pb. destruct (tr_decap _ _ f) as [[? [|]]| |]; discriminate.
  - exfalso. congruence.
  - right. left. split; [exact M4|]. exists b. auto.
  - exfalso. congruence.
Qed.
Print Assumptions C23_established_only_by_verified_finish.

(** over the whole history: an established session got there by one of those frames *)
Theorem C23_established_sessions_were_finished : forall E cfg chain_data my_chain root x,
  digest_sizes (e_cr E) -> delivers_bytes E -> app_replies_differ E -> length my_chain = 8%nat ->
  served E (process_message E) (ctx_new cfg chain_data my_chain root) x ->
  forall s, In s (x_sess x) -> s_state s = SEstablished ->
  exists y f, served E (process_message E) (ctx_new cfg chain_data my_chain root) y /\
    e_recv E (x_io y) (x_sent y) = Some f /\
    (opens_psk_without_context E f y \/ completes E f (set_x_io (x_io y + 1) y) (s_id s)).
Proof.
  intros E cfg cd mc root x H1 H2 Ha H3 H. remember (ctx_new cfg cd mc root) as x0 eqn:E0. induction H as [|x0 y z r S IH P].
  - subst. intros s Hs Es. exfalso. cbn in Hs. repeat (destruct Hs as [<-|Hs]; [discriminate|]). exact Hs.
  - intros s Hs Es. pose proof P as P0. unfold process_message in P. apply sbind_inv in P as (f & y1 & P & K).
    assert (y1 = set_x_io (x_io y + 1) y) as -> by (unfold io_recv in P; congruence).
    assert (Old : forall t, In t (x_sess y) -> s_state t = SEstablished -> s_id s = s_id t -> exists y f, served E (process_message E) x0 y /\
      e_recv E (x_io y) (x_sent y) = Some f /\ (opens_psk_without_context E f y \/ completes E f (set_x_io (x_io y + 1) y) (s_id s))).
    { intros t Ht Et ->. exact (IH E0 t Ht Et). }
    destruct f as [f|]; [|unfold sret in K; assert (z = set_x_io (x_io y + 1) y) as -> by congruence; exact (Old s Hs Es eq_refl)].
    assert (Rv : e_recv E (x_io y) (x_sent y) = Some f).
    { unfold io_recv in P; destruct (e_recv E (x_io y) (x_sent y)) as [g|] eqn:Rv; [|discriminate]. destruct (BUFFER_SIZE <? len g); [discriminate|]. congruence. }
    assert (Hf : bytes_ok f) by (exact (proj1 H2 _ _ _ Rv)).
    assert (X : slots8 y /\ tok y) by (apply (served_ok E cfg cd mc root); try assumption; rewrite <- E0; exact S). destruct X as [S8 T].
    set (y1 := set_x_io (x_io y + 1) y) in *. assert (S1 : slots8 y1) by exact S8. assert (T1 : tok y1) by exact T.
    pose proof (frame_est E f y1 _ z H1 Ha (fun b => plain_bytes E f b H2 Hf) S1 T1 K) as R. unfold est, slotwise in R.
    assert (exists t, In t (x_sess y1) /\ adv (opens_psk_without_context E f y1) (completes E f y1) t s) as (t & Ht & V).
    { clear -R Hs. induction R as [|a b l l' K R IH]; [destruct Hs|]. destruct Hs as [<-|Hs].
      - exists a. split; [now left|exact K].
      - destruct (IH Hs) as (t & Ht & Kt). exists t. split; [now right|exact Kt]. }
    destruct (V Es) as [[V1 V2]|[V1|V1]].
    + exact (Old t Ht V1 V2).
    + exists y, f. split; [exact S|]. split; [exact Rv|]. left. destruct V1 as (b & B1 & B2 & B3). exists b. auto.
    + exists y, f. auto.
Qed.
Print Assumptions C23_established_sessions_were_finished.

(** ** a run that meets the premises: negotiation, PSK_EXCHANGE, PSK_FINISH, END_SESSION *)
Lemma patch_ok a d l : bytes_ok d -> bytes_ok l -> bytes_ok (patch a d l).
Proof. intros. unfold patch. rewrite !bytes_ok_app. repeat split; auto using bytes_ok_firstn, bytes_ok_skipn. Qed.
Lemma took2_ok o b s : bytes_ok (snd o) -> took2 o = Ok (b, s) -> bytes_ok b.
Proof.
  intros H. unfold took2. destruct (fst o) as [[n t]| |]; try discriminate. cbn. intro K. assert (b = firstn n (snd o)) as -> by congruence. now apply bytes_ok_firstn.
Qed.
Lemma zbuf_ok n : bytes_ok (zbuf n). Proof. apply bytes_ok_fill. unfold byte_ok. lia. Qed.
Ltac deliver := repeat match goal with |- context [match ?e with _ => _ end] => destruct e | |- context [if ?e then _ else _] => destruct e end;
  cbn [snd]; auto using zbuf_ok, patch_ok, bytes_ok_skipn, bytes_ok_firstn.
Lemma mctp_delivers room f b s : bytes_ok f -> tr_decap mctp_transport room f = Ok (b, s) -> bytes_ok b.
Proof. intros Hf. apply took2_ok. unfold mctp_decap. cbv zeta. deliver. Qed.
Lemma doe_delivers room f b s : bytes_ok f -> tr_decap doe_transport room f = Ok (b, s) -> bytes_ok b.
Proof. intros Hf. apply took2_ok. unfold doe_decap, slice. cbv zeta. deliver. Qed.
Definition byte_okb (b : N) : bool := b <? 256.
Lemma bytes_okb l : forallb byte_okb l = true -> bytes_ok l.
Proof. intro H. apply Forall_forall. intros b Hb. rewrite forallb_forall in H. apply H in Hb. now apply N.ltb_lt. Qed.
Lemma replay_delivers l : forallb (fun f => forallb byte_okb f) l = true -> delivers_bytes (ex_replay l).
Proof.
  intro H. split.
  - intros n sent f Hf. cbn in Hf. destruct (N.even n); [|discriminate]. apply nth_error_In in Hf. rewrite forallb_forall in H. apply bytes_okb, H, Hf.
  - intros room f b s Hf. apply mctp_delivers, Hf.
Qed.
Definition ex_after (l : list bytes) (n : nat) : ctx := Nat.iter n (fun y => snd (process_message (ex_replay l) y)) ex_ctx2.
Definition ok_round (l : list bytes) (n : nat) : bool := match fst (process_message (ex_replay l) (ex_after l n)) with Ok _ => true | _ => false end.
Lemma replay_rounds l n : forallb (ok_round l) (seq 0 n) = true -> served (ex_replay l) (process_message (ex_replay l)) ex_ctx2 (ex_after l n).
Proof.
  induction n as [|n IH]; intro H; [constructor|]. rewrite seq_S, forallb_app in H. apply andb_prop in H as [H K]. specialize (IH H). cbn in K. rewrite Bool.andb_true_r in K.
  unfold ok_round in K. destruct (process_message (ex_replay l) (ex_after l n)) as [o y] eqn:P. cbn [fst] in K. destruct o as [r| |]; try discriminate.
  replace (ex_after l (S n)) with y; [econstructor; [exact IH|exact P]|].
  change (ex_after l (S n)) with (snd (process_message (ex_replay l) (ex_after l n))). rewrite P. reflexivity.
Qed.
Lemma ex_frames_premises : digest_sizes (e_cr (ex_replay ex_frames)) /\ delivers_bytes (ex_replay ex_frames) /\ app_replies_differ (ex_replay ex_frames) /\ length (x_my_chain ex_ctx2) = 8%nat.
Proof.
  split; [apply toy_digest_sizes|]. split; [apply replay_delivers; vm_compute; reflexivity|]. split; [|reflexivity].
  intros id b r H. cbn in H. assert (r = [0; 0]) as -> by congruence. split; discriminate.
Qed.
(** the state after PSK_EXCHANGE is reachable; PSK_FINISH then establishes the session *)
Example C23_case :
  let E := ex_replay ex_frames in let x := ex_after ex_frames 4 in
  served E (process_message E) ex_ctx2 x /\
  option_map s_state (nth_error (x_sess x) 0%nat) = Some SHandshaking /\ option_map s_id (nth_error (x_sess x) 0%nat) = Some ex_id /\
  fst (process_frame E f5 x) = Ok (Some true) /\ option_map s_state (nth_error (x_sess (snd (process_frame E f5 x))) 0%nat) = Some SEstablished.
Proof. cbv zeta. split; [apply replay_rounds; vm_compute; reflexivity|]. vm_compute. auto. Qed.
(** with four PSK sessions open, the table is full *)
Example C24_case :
  let E := ex_replay ex_full in let x := ex_after ex_full 7 in
  delivers_bytes E /\ served E (process_message E) ex_ctx2 x /\ map s_id (x_sess x) = [0xFFFD0001; 0xFFFC0002; 0xFFFB0001; 0xFFFA0000] /\
  plain_message E (f4_of 7) = Some (tl (f4_of 7)) /\ request_code (tl (f4_of 7)) = Some 0xE6 /\ fst (process_frame E (f4_of 7) x) = Ok (Some false).
Proof.
  cbv zeta. split; [apply replay_delivers; vm_compute; reflexivity|]. split; [apply replay_rounds; vm_compute; reflexivity|]. vm_compute. auto.
Qed.
Example C25_case : let x := ex_after ex_full 6 in map s_id (x_sess x) = [0xFFFD0001; 0xFFFC0002; 0xFFFB0001; 0] /\ get_next_half_session_id false x = Ok 0xFFFA.
Proof. vm_compute. auto. Qed.

(** ** C56: application data can complete a handshake.
    The claim: a message handed to the application cannot change the state of its session. *)
Definition app_data_leaves_sessions_alone : Prop :=
  forall E f x id m r x', delivered E f x id m true -> process_frame E f x = (r, x') ->
  forall s s', get_sess id x = Some s -> get_sess id x' = Some s' -> s_state s' = s_state s.
Definition ex_env_app : env := mkEnv toy mctp_transport (fun _ _ => None) (fun _ _ => None) (fun _ _ => Ok [0; 0x65]) (fun b => Ok b) false.
Definition f_app : bytes := secured ex4 [1; 2; 3] true.
Definition deliveredb (E : env) (f : bytes) (x : ctx) (id : N) (m : bytes) (app : bool) : bool :=
  match secured_message E f, get_sess id x with
  | Some b, Some s =>
      match decode_secured (e_cr E) true b BUFFER_SIZE s with
      | (Ok a, _) => match tr_decap_app (e_tr E) MAX_SPDM_MSG_SIZE a with
                     | Ok (n, p) => (4 <=? len b) && (id =? le_val (firstn 4 b)) && bytes_eqb n m && Bool.eqb p app
                     | _ => false end
      | _ => false end
  | _, _ => false
  end.
Lemma deliveredb_ok E f x id m app : deliveredb E f x id m app = true -> delivered E f x id m app.
Proof.
  unfold deliveredb. intro V. destruct (secured_message E f) as [b|] eqn:Sb; [|discriminate].
  destruct (get_sess id x) as [s|] eqn:Gs; [|discriminate].
  destruct (decode_secured _ true b _ s) as [[a| |] s1] eqn:Dc; try discriminate.
  destruct (tr_decap_app _ _ a) as [[n p]| |] eqn:Ta; try discriminate.
  apply andb_prop in V as [V V4]. apply andb_prop in V as [V V3]. apply andb_prop in V as [V1 V2].
  apply N.leb_le in V1. apply N.eqb_eq in V2. apply bytes_eqb_eq in V3. apply Bool.eqb_prop in V4. subst n p.
  exists b, s, a, s1. split; [exact Sb|]. split; [split; [exact V1|exact V2]|]. split; [exact Gs|]. split; [exact Dc|exact Ta].
Qed.
Lemma app_leaves_no E f x id m : app_data_leaves_sessions_alone -> deliveredb E f x id m true = true ->
  forall q q', option_map s_state (get_sess id x) = Some q -> option_map s_state (get_sess id (snd (process_frame E f x))) = Some q' -> q' = q.
Proof.
  intros H D q q' A B. specialize (H E f x id m (fst (process_frame E f x)) (snd (process_frame E f x)) (deliveredb_ok _ _ _ _ _ _ D) (surjective_pairing _)).
  destruct (get_sess id x) as [s|]; [|discriminate]. destruct (get_sess id (snd _)) as [s'|]; [|discriminate].
  specialize (H s s' eq_refl eq_refl). cbn in A, B. congruence.
Qed.
Theorem C56_app_data_leaves_sessions_alone_refuted : ~ app_data_leaves_sessions_alone.
Proof.
  intro H. enough (SEstablished = SHandshaking) by discriminate.
  apply (app_leaves_no ex_env_app f_app ex4 ex_id [1; 2; 3] H); vm_compute; reflexivity.
Qed.
Print Assumptions C56_app_data_leaves_sessions_alone_refuted.
