(** The requester's new session, as the result of the handshake programs of Twin.v. *)
From Verif Require Import Bytes BytesFacts Status Codec Parse ParseProofs Algo Monad MsgConn MsgAuth MsgSession MsgOther Message Opaque.
From Verif Require Import Transport Crypto KeySchedule Session Signing CertOps ChainVerify Context SessionProofs
  RspBase RspConn RspSess StRel RspFrame RspCalm RspOpcode RspPass RspEst RspTable ReqBase ReqConn ReqSess SpecReq ReqFrame ReqAnswer SpecSession SpecAuth ReqTrans ReqSplit ReqHist ReqAuth ReqOpen ReqHand ReqHand2 SpecKeys KeyProofs SpecPair RspPair Twin.
From Coq Require Import Lia.
Local Open Scope N_scope.

Lemma bind_mod {S A} f (k : unit -> st S A) x : sbind (smod f) k x = k tt (f x). Proof. reflexivity. Qed.
Lemma hmac_step E id mac z s u z' : get_sess id z = Some s -> check_rsp_hmac E id mac z = (Ok u, z') ->
  z' = mod_sess id (fun _ => k_add mac s) z /\ get_sess id z' = Some (k_add mac s).
Proof.
  intros G H. apply (check_hmac_ok _ _ _ _ _ _ _ G) in H as (t & h & T & _ & _ & ->). unfold k_add, th_base. rewrite T. split; [reflexivity|]. apply (put_get _ _ s); [exact G|reflexivity].
Qed.
Lemma k_step cr id m z s u z' : get_sess id z = Some s -> append_k cr id m z = (Ok u, z') -> z' = mod_sess id (fun _ => k_add m s) z /\ get_sess id z' = Some (k_add m s).
Proof. exact (append_k_ok cr id m z s u z'). Qed.
(** what stays in the context while the session's programs run *)
Definition around (z : ctx) := (x_nego z, x_msg_a z, x_sent z, x_cfg z, x_peer_chain z, x_my_chain z, x_need_sum z, x_need_sig z).
Lemma around_put id f z : around (mod_sess id f z) = around z. Proof. reflexivity. Qed.
Lemma around_eqs z x : around z = around x -> x_nego z = x_nego x /\ xc z = xc x /\ ver z = ver x /\ x_msg_a z = x_msg_a x /\ x_sent z = x_sent x.
Proof. unfold around. intro H. assert (N1 : x_nego z = x_nego x) by congruence. assert (N2 : x_need_sum z = x_need_sum x) by congruence. assert (N3 : x_need_sig z = x_need_sig x) by congruence. unfold ver, xc. rewrite N1, N2, N3. repeat split; congruence. Qed.
Lemma psk_first_prog E id s used p z s0 x0 z' u n : get_sess id z = Some s0 -> psk_first E id s used p z = (Ok x0, z') ->
  hash_size (n_hash (x_nego z)) = Some n -> drop_last n used = Ok u ->
  exists s1, (smod (k_add (s ++ u)) ;;; th1 <-- th_now (e_cr E) ;; generate_handshake_secret (e_cr E) (ver z) th1 ;;; smod (k_add (v_bytes (pr_verify p))))%st s0 = (Ok tt, s1) /\
    get_sess id z' = Some s1 /\ x0 = z /\ s_id s1 = s_id s0 /\ around z' = around z.
Proof.
  intros G H Hn Hd. unfold psk_first in H. bg H. bi H. apply unwrap_inv in P as [N1 ->]. assert (v = n) as -> by congruence.
  bi H. apply of_inv in P as [Dl ->]. assert (v = u) as -> by congruence.
  bi H. destruct (k_step _ _ _ _ _ _ _ G P) as [Z1 G1]. clear P. bi H. destruct (k_step _ _ _ _ _ _ _ G1 P) as [Z2 G2]. clear P. rewrite k_add_add in G2.
  bi H. apply (calc_inv _ _ _ _ _ _ G2) in P as (-> & t & T & Hv).
  bi H. apply (on_ok _ _ _ _ _ _ G2) in P as (s4 & K4 & Z4). destruct (hs_frame _ _ _ _ _ _ K4) as (I4 & _).
  pose proof (put_get id y0 _ s4 G2 I4) as G4. rewrite <- Z4 in G4.
  bi H. destruct (hmac_step _ _ _ _ _ _ _ G4 P) as [Z5 G5]. apply ret_inv in H as [H ->].
  exists (k_add (v_bytes (pr_verify p)) s4). split.
  { rewrite bind_mod. unfold sbind at 1. rewrite (th_now_run _ _ _ _ T Hv). unfold sbind. destruct v2. rewrite K4. reflexivity. }
  split; [exact G5|]. split; [congruence|]. split; [exact I4|]. rewrite Z5, around_put, Z4, around_put, Z2, around_put, Z1. reflexivity.
Qed.
Definition psk_prog (cr : crypto) (v : N) (without : bool) (t mac : bytes) : st session unit :=
  (exchange_prog cr v t mac ;;; swhen without (data_prog cr v))%st.
Lemma blind_psk cr v w t mac : blind (psk_prog cr v w t mac).
Proof. unfold psk_prog. apply blind_bind; [apply blind_exchange|intro]. apply blind_when, blind_data_prog. Qed.
Lemma exchange_tail cr v t mac s0 s1 : (smod (k_add t) ;;; th1 <-- th_now cr ;; generate_handshake_secret cr v th1 ;;; smod (k_add mac))%st s0 = (Ok tt, s1) ->
  exchange_prog cr v t mac s0 = (Ok tt, set_s_state SHandshaking s1).
Proof.
  intro H. unfold exchange_prog. rewrite bind_mod in H |- *. apply sbind_inv in H as (th & y & P & H). unfold sbind at 1. rewrite P. apply sbind_inv in H as ([] & y1 & P1 & H). unfold sbind at 1. rewrite P1.
  apply mod_inv in H as ->. rewrite bind_mod. reflexivity.
Qed.
Lemma data_step E id z s v th u z' : get_sess id z = Some s -> th_now (e_cr E) s = (Ok th, s) -> 
  sbind (on_sess id (generate_data_secret (e_cr E) v th)) (fun _ => on_sess id (smod (set_s_state SEstablished))) z = (Ok u, z') ->
  exists s1, data_prog (e_cr E) v s = (Ok tt, s1) /\ get_sess id z' = Some s1 /\ around z' = around z.
Proof.
  intros G T H. bi H. apply (on_ok _ _ _ _ _ _ G) in P as (s4 & K4 & Z4). pose proof (data_frame _ _ _ _ _ _ K4) as F4. assert (I4 : s_id s4 = s_id s) by (rewrite F4; reflexivity).
  pose proof (put_get id z _ s4 G I4) as G4. rewrite <- Z4 in G4. apply (on_ok _ _ _ _ _ _ G4) in H as (s5 & K5 & Z5). unfold smod in K5. assert (s5 = set_s_state SEstablished s4) as -> by congruence.
  exists (set_s_state SEstablished s4). split; [unfold data_prog; unfold sbind at 1; rewrite T; unfold sbind; destruct v0; rewrite K4; reflexivity|].
  split; [rewrite Z5; apply (put_get _ _ s4 _ G4); reflexivity|]. rewrite Z5, around_put, Z4. reflexivity.
Qed.
Lemma th_now_inv cr id z s h z' : get_sess id z = Some s -> calc_th cr id z = (Ok h, z') -> z' = z /\ th_now cr s = (Ok h, s).
Proof. intros G H. apply (calc_inv _ _ _ _ _ _ G) in H as (-> & t & T & Hv). split; [reflexivity|]. exact (th_now_run _ _ _ _ T Hv). Qed.
Lemma finish_psk_prog E id s used p z s0 z' u n : get_sess id z = Some s0 -> finish_psk_exchange E id s used p z = (Ok tt, z') ->
  hash_size (n_hash (x_nego z)) = Some n -> drop_last n used = Ok u ->
  exists s1 hb sv, psk_prog (e_cr E) (ver z) (psk_no_ctx (xc z)) (s ++ u) (v_bytes (pr_verify p)) s0 = (Ok tt, s1) /\
    get_sess id z' = Some (set_s_heartbeat hb (set_s_secver sv s1)) /\ around z' = around z.
Proof.
  intros G H Hn Hd. rewrite psk_two in H. bi H. destruct (psk_first_prog _ _ _ _ _ _ _ _ _ _ _ G P Hn Hd) as (s1 & Pr & G1 & -> & I1 & A1). clear P.
  apply exchange_tail in Pr. unfold psk_rest in H. bi H. apply (on_ok _ _ _ _ _ _ G1) in P as (s2 & K2 & Z2). unfold smod in K2. assert (s2 = set_s_state SHandshaking s1) as -> by congruence. clear K2.
  pose proof (put_get id y _ (set_s_state SHandshaking s1) G1 eq_refl) as G2. rewrite <- Z2 in G2. assert (A2 : around y0 = around z) by (rewrite Z2; exact A1).
  bi H. assert (K : exists s3, swhen (psk_no_ctx (xc z)) (data_prog (e_cr E) (ver z)) (set_s_state SHandshaking s1) = (Ok tt, s3) /\ get_sess id y1 = Some s3 /\ around y1 = around z).
  { unfold swhen in P |- *. destruct (psk_no_ctx (xc z)).
    - bi P. destruct (th_now_inv _ _ _ _ _ _ G2 P0) as [-> T]. destruct (data_step _ _ _ _ _ _ _ _ G2 T P) as (s3 & D3 & G3 & A3). exists s3. split; [exact D3|]. split; [exact G3|congruence].
    - apply ret_inv in P as [_ ->]. eexists. split; [reflexivity|]. split; [exact G2|exact A2]. }
  destruct K as (s3 & K3 & G3 & A3). apply (on_ok _ _ _ _ _ _ G3) in H as (s4 & K4 & Z4). unfold smod in K4. match type of K4 with (_, ?w) = _ => assert (S4 : s4 = w) by congruence end.
  exists s3, (pr_heartbeat p), (req_secure_version (xc z) (pr_opaque p)). split; [unfold psk_prog; unfold sbind at 1; rewrite Pr; exact K3|].
  split; [rewrite Z4, S4; apply (put_get _ _ s3 _ G3); reflexivity|]. rewrite Z4, around_put. exact A3.
Qed.
(** a new session for PSK_EXCHANGE, at either end *)
Definition psk_init (E : env) (n : nego) (a hint : bytes) (id : N) (s : session) : session :=
  set_s_req_hash None (set_s_rsp_hash None (set_s_msg_a a (set_s_psk_hint (Some hint) (session_params E n (set_s_use_psk true (set_s_id id (session_set_default s))))))).
Lemma psk_init_core E E' n n' a hint id s s' : e_tr E = e_tr E' -> n_hash n = n_hash n' -> n_dhe n = n_dhe n' -> n_aead n = n_aead n' -> n_ks n = n_ks n' ->
  core (psk_init E n a hint id s) = core (psk_init E' n' a hint id s').
Proof. intros T A B C D. unfold psk_init, session_params. rewrite T, A, B, C, D. reflexivity. Qed.
Lemma open_first id l1 s l2 z f : (forall t, In t l1 -> s_id t <> id) -> s_id s = id -> s_id (f s) = id ->
  get_sess id (mod_sess id f (set_x_sess (l1 ++ s :: l2) z)) = Some (f s).
Proof.
  intros U I I'. unfold get_sess, mod_sess. cbn [x_sess set_x_sess]. rewrite upd_app by exact U. cbn [upd_sess]. rewrite I, N.eqb_refl. rewrite find_app by exact U. unfold find_sess. cbn [find]. rewrite I', N.eqb_refl. reflexivity.
Qed.
Lemma req_open_psk_init E id hint z u z' l1 s l2 : x_sess z = l1 ++ s :: l2 -> s_id s = 0 -> (forall t, In t l1 -> s_id t <> 0) -> (forall t, In t l1 -> s_id t <> id) ->
  req_open_psk_session E id hint z = (Ok u, z') -> get_sess id z' = Some (psk_init E (x_nego z) (x_msg_a z) (v_bytes hint) id s) /\ around z' = around z.
Proof.
  intros S Z U U' H. unfold req_open_psk_session in H. bg H. destruct (get_sess 0 z) as [sz|]; [|discriminate]. clear sz. bi H. apply (setup_first _ _ _ _ _ _ _ S Z U) in P as [_ ->].
  apply mod_inv in H. rewrite H. split; [|reflexivity]. rewrite open_first; [reflexivity|exact U'|reflexivity|reflexivity].
Qed.
Lemma on_response_ok {A} code b (k : bytes -> st ctx A) z a z' : on_response code None b k z = (Ok a, z') -> exists r, b = ver z :: code :: r /\ k r z = (Ok a, z').
Proof. intro H. apply on_response_run in H as [[_ H]|H]; [exfalso; exact (H a eq_refl)|exact H]. Qed.
Lemma handle_psk_prog E h t hint s b z id z' : rtok z -> get_next_half_session_id true z = Ok h -> handle_psk_exchange_rsp E h t hint s b z = (Ok id, z') ->
  let c := mkCctx (x_nego z) ((t =? 1) || (t =? 0xFF)) (x_need_sig z) in
  exists r p rest n u s0 s1 s2, b = ver z :: 0x66 :: r /\ dec_psk_ex_rsp c r = POk p rest /\ id = session_id (pr_session p) h /\
    hash_size (n_hash (x_nego z)) = Some n /\ drop_last n (used_of b rest) = Ok u /\
    psk_prog (e_cr E) (ver z) (psk_no_ctx c) (s ++ u) (v_bytes (pr_verify p)) (psk_init E (x_nego z) (x_msg_a z) (v_bytes hint) id s0) = (Ok tt, s1) /\
    get_sess id z' = Some s2 /\ core s2 = core s1 /\ x_nego z' = x_nego z /\ x_sent z' = x_sent z.
Proof.
  intros T Nh H. cbv zeta. unfold handle_psk_exchange_rsp, set_summary in H. rewrite bind_mod in H. match type of H with _ ?y0 = _ => set (y := y0) in * end.
  apply on_response_ok in H as (r & Eb & H). apply reading_run in H as [[_ K]|(p & rest & D & H)]; [exfalso; exact (K _ eq_refl)|]. cbv zeta in H.
  bi H. destruct (half_fresh _ _ (pr_session p) T Nh) as (l1 & s1 & l2 & S & Z & U & U' & Nzi).
  change (x_sess z) with (x_sess y) in S. destruct (req_open_psk_init _ _ _ _ _ _ _ _ _ S Z U ltac:(intros; apply U'; apply in_or_app; auto) P) as [G0 A0]. clear P.
  bi H. apply ret_inv in H as [Hi ->]. assert (id = session_id (pr_session p) h) as -> by congruence. clear Hi. set (i := session_id (pr_session p) h) in *.
  destruct (around_eqs _ _ A0) as (N0 & C0 & V0 & _ & S0).
  pose proof P as P'. rewrite psk_two in P'. bi P'. unfold psk_first in P0. bg P0. bi P0. apply unwrap_inv in P1 as [Hn ->]. bi P0. apply of_inv in P1 as [Dl ->]. clear P' P0.
  destruct v, v0. match type of P with finish_psk_exchange _ _ _ _ _ _ = (Ok ?q, _) => destruct q end.
  destruct (finish_psk_prog _ _ _ _ _ _ _ _ _ _ G0 P Hn Dl) as (s3 & hb & sv & Pr & G3 & A3). destruct (around_eqs _ _ A3) as (N3 & C3 & V3 & _ & S3).
  rewrite C0, V0 in Pr. rewrite N0 in Hn. exists r, p, rest. eexists. eexists. exists s1, s3. eexists. split; [exact Eb|]. split; [exact D|]. split; [reflexivity|]. split; [exact Hn|]. split; [exact Dl|]. split; [exact Pr|].
  split; [exact G3|]. split; [reflexivity|]. split; [rewrite N3, N0; reflexivity|rewrite S3, S0; reflexivity].
Qed.
