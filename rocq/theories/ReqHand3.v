(** The requester's handshakes, concluded. *)
From Verif Require Import Bytes BytesFacts Status Codec Parse ParseProofs Algo Monad.
From Verif Require Import MsgConn MsgAuth MsgSession MsgOther Message Opaque Transport Crypto KeySchedule Session Signing CertOps ChainVerify Context
  RspBase RspConn RspSess RspEncap Responder StRel RspFrame RspCalm RspOpcode RspPass RspEst ReqBase ReqConn ReqSess SpecReq ReqFrame ReqAnswer SpecSession SessionProofs SignProofs SpecAuth ReqTrans ReqSplit ReqHist ReqAuth ReqTable ReqOpen ReqMeas.
From Verif Require Import MsgLocal SpecKeys KeyProofs SpecHand RspTable RspIso ReqHand ReqHand2.
From Coq Require Import Lia.
Local Open Scope N_scope.

Lemma msg_a_reset c x : x_msg_a (reset_buffer c None x) = x_msg_a x.
Proof. unfold reset_buffer, reset_m, reset_c, reset_b. repeat (match goal with |- context [if ?b then _ else _] => destruct b end); reflexivity. Qed.
Definition kept_states (id : N) (x x' : ctx) : Prop :=
  forall ss, In ss (x_sess x') -> s_id ss <> 0 -> s_state ss <> SNotStarted -> s_id ss <> id -> exists s, In s (x_sess x) /\ s_id s = s_id ss /\ s_state s = s_state ss.
Lemma psk_exchange_run E t hint x r x' : rtok x -> psk_exchange_req E t hint x = (r, x') ->
  nonew x x' /\ (forall a, r <> Ok a) \/
  exists id, psk_exchange_verified E x x' t hint id /\ kept_states id x x' /\
    forall a, r = Ok a -> a = id /\ exists ss, get_sess id x' = Some ss /\ s_state ss = if psk_no_ctx (asked (OPskExchange t hint) x) then SEstablished else SHandshaking.
Proof.
  intros T H. unfold psk_exchange_req in H. unfold sbind at 1 in H. unfold smod at 1 in H.
  pose proof (st_reset_buffer RC_PSK_EXCHANGE x) as [R1 _]. pose proof (xk_reset_buffer RC_PSK_EXCHANGE None x) as R2. pose proof (msg_a_reset RC_PSK_EXCHANGE x) as R3. pose proof (quiet_reset_buffer RC_PSK_EXCHANGE None x) as Rq.
  set (y := reset_buffer RC_PSK_EXCHANGE None x) in *. clearbody y. rewrite bind_get in H.
  assert (Nw : forall w, nonew y w -> nonew x w) by (intros w K ss; unfold nonew in K; rewrite <- R1; apply K).
  unfold sbind at 1 in H. unfold sof at 1 in H. destruct (get_next_half_session_id true y) as [h|e|] eqn:Nh.
  2,3: left; assert (x' = y) as -> by congruence; split; [apply Nw, nonew_pre|congruence].
  unfold sbind at 1 in H. destruct (encode_psk_exchange E h t hint y) as [[s|e|] y0] eqn:P.
  2,3: left; pose proof (st_encode_psk _ _ _ _ _ _ _ P) as [S _]; assert (x' = y0) as -> by congruence; split; [apply Nw; intros ss; rewrite S; exact (proj1 nonew_pre y ss)|congruence].
  pose proof (quiet_encode_psk _ _ _ _ _ _ _ P) as Q1. destruct (encode_psk_ok _ _ _ _ _ _ _ P) as (context & opaque & K1 & K3 & K4 & K5). clear P.
  unfold sbind at 1 in H. destruct (req_send E s y0) as [[[]|e|] y1] eqn:P; destruct (st_send _ _ _ _ _ P) as [S1 _].
  2,3: left; assert (x' = y1) as -> by congruence; split; [apply Nw; intros ss; rewrite S1, K5; exact (proj1 nonew_pre y ss)|congruence].
  unfold sbind at 1 in H. destruct (req_recv E false y1) as [[b|e|] y2] eqn:P0; destruct (st_recv _ _ _ _ _ P0) as [S2 _].
  2,3: left; assert (x' = y2) as -> by congruence; split; [apply Nw; intros ss; rewrite S2, S1, K5; exact (proj1 nonew_pre y ss)|congruence].
  destruct (send_frames E None _ _ _ _ P) as [A1 A2]. destruct (recv_frames E None _ _ _ _ P0) as [B1 B2].
  pose proof (quiet_handle_psk _ _ _ _ _ _ _ _ _ H) as Q2.
  assert (Ex : exchanged E None x x' s b). { refine (exchanged_by E None false x _ _ _ _ _ _ _ x' _ P (q_refl _) P0 Q2). eapply q_trans; eassumption. }
  assert (Sx : x_sess y2 = x_sess x) by congruence. assert (Tx : rtok y2) by (unfold rtok; rewrite Sx; exact T).
  assert (Nx : get_next_half_session_id true y2 = Ok h) by (unfold get_next_half_session_id in *; rewrite Sx, <- R1; exact Nh).
  assert (C : xc y2 = xc x /\ x_msg_a y2 = x_msg_a x).
  { destruct A2 as [A2 A2'], B2 as [B2 B2'], A1 as [A1 _], B1 as [B1 _], R2 as [R2 R2']. unfold env_of in K4. repeat split; congruence. }
  destruct C as (C1 & C3). assert (Cn : x_nego y2 = x_nego x) by (apply (f_equal c_nego) in C1; exact C1). assert (Vn : ver y2 = ver x) by (unfold ver; rewrite Cn; reflexivity).
  assert (Dn : x_nego y = x_nego x) by (destruct R2 as [R2 _]; apply (f_equal c_nego) in R2; exact R2). assert (Dv : ver y = ver x) by (unfold ver; rewrite Dn; reflexivity).
  destruct (handle_psk_run _ _ _ _ _ _ _ _ _ Tx Nx H) as [[F Fr]|(body & mac & rest & p & ss & th1 & id & F)].
  { left. split; [|exact Fr]. intros ss. unfold nonew in F. rewrite <- Sx. apply F. }
  right. cbv zeta in F. rewrite (asked_xk _ x _ C1), Cn, Vn, C3 in F. rewrite Dn in K1. rewrite Dv in K3.
  destruct F as (F1 & F2 & F3 & F4 & F5 & F6 & F7 & F8 & F9 & F10 & F11 & F12 & F13 & F14 & F15 & F16 & F17). exists id. split; [|split].
  - exists h, context, opaque, b, body, mac, rest, p, ss, th1. cbv zeta. rewrite <- K3. split; [exact K1|]. split; [exact Ex|]. split; [exact F1|]. split; [exact F2|]. split; [exact F3|].
    split; [unfold get_sess in *; rewrite <- Sx; exact F4|]. auto 20.
  - intros s' I. rewrite <- Sx. apply F17, I.
  - intros a Ha. destruct (F16 a Ha) as [-> F]. split; [reflexivity|]. exists ss. split; assumption.
Qed.

(** ** session fields that secured I/O keeps *)
Definition hk (s : session) := (fixed_of s, s_th s, s_f_init s, h_req_fin (s_hs s), h_rsp_fin (s_hs s), s_state s).
Definition sameh (s s' : session) : Prop := hk s' = hk s.
Lemma sameh_pre : preorder sameh. Proof. split; unfold sameh; congruence. Qed.
Definition eqh (x x' : ctx) : Prop := map hk (x_sess x') = map hk (x_sess x).
Lemma eqh_pre : preorder eqh. Proof. split; unfold eqh; congruence. Qed.
Lemma hk_set_dir r d s : hk (set_dir r d s) = hk s.
Proof. unfold set_dir. destruct (s_state s) eqn:E, r; cbn; unfold hk, fixed_of; cbn; congruence. Qed.
Lemma sameh_encode cr r a n : rel sameh (encode_secured cr r a n).
Proof.
  intros s o s' H. unfold sameh. unfold encode_secured, bump in H.
  destruct (s_state s); try (replace s' with s by congruence; reflexivity);
    (destruct (encode_msg _ _ _ _ _); try (destruct (_ =? _)); match goal with |- hk s' = _ => idtac end;
     first [replace s' with s by congruence; reflexivity | injection H as _ <-; apply hk_set_dir]).
Qed.
Lemma sameh_decode cr r a n : rel sameh (decode_secured cr r a n).
Proof.
  intros s o s' H. unfold sameh. unfold decode_secured, bump in H.
  destruct (s_state s); try (replace s' with s by congruence; reflexivity);
    (destruct (decode_msg _ _ _ _ _); try (destruct (_ =? _)); match goal with |- hk s' = _ => idtac end;
     first [replace s' with s by congruence; reflexivity | injection H as _ <-; apply hk_set_dir]).
Qed.
Lemma eqh_on_sess {A} id (m : st session A) : rel sameh m -> rel eqh (on_sess id m).
Proof.
  intros H x r x' E. unfold on_sess in E. destruct (get_sess id x) as [s|] eqn:G; [|replace x' with x by congruence; apply eqh_pre].
  destruct (m s) as [o s1] eqn:M. apply H in M. unfold sameh in M. replace x' with (mod_sess id (fun _ => s1) x) by congruence. unfold eqh.
  unfold mod_sess. cbn [x_sess set_x_sess]. unfold get_sess, find_sess in G. revert G. generalize (x_sess x).
  induction l as [|t l IH]; cbn; [discriminate|]. destruct (s_id t =? id); intro G; cbn.
  - f_equal. congruence.
  - f_equal. apply IH, G.
Qed.
Lemma eqh_send_on E sid b : rel eqh (req_send_on E sid b).
Proof.
  unfold req_send_on, req_send, req_send_secured, encode_secured_message. rl eqh_pre;
   first [apply eqh_on_sess, sameh_encode|intros x r x' H; unfold eqh; rewrite (io_send_sess _ _ _ _ _ H); reflexivity].
Qed.
Lemma eqh_recv_on E sid c : rel eqh (req_recv_on E sid c).
Proof.
  unfold req_recv_on, req_recv, req_recv_secured, req_timeout, decap, decode_secured_message. rl eqh_pre;
   first [apply eqh_on_sess, sameh_decode|intros x r x' H; unfold eqh; rewrite (io_recv_sess _ _ _ _ H); reflexivity].
Qed.
Lemma eqh_get id x x' s : eqh x x' -> get_sess id x = Some s -> exists s', get_sess id x' = Some s' /\ hk s' = hk s.
Proof.
  unfold eqh, get_sess, find_sess. generalize (x_sess x'). generalize (x_sess x). induction l as [|a l IH]; intros [|b l'] H G; try discriminate. cbn [map] in H. cbn [find] in *.
  assert (K : hk b = hk a) by congruence. assert (s_id b = s_id a) as -> by (unfold hk, fixed_of in K; congruence). destruct (s_id a =? id).
  - exists b. split; [reflexivity|congruence].
  - apply IH; [congruence|exact G].
Qed.
Lemma eqh_reset c id x : eqh x (reset_buffer c (Some id) x).
Proof.
  unfold reset_buffer, reset_m, reset_c, reset_b, mod_sess, eqh. repeat (match goal with |- context [if ?b then _ else _] => destruct b end); try reflexivity; cbn [x_sess set_x_sess set_x_m1m2]; apply upd_map; intro; reflexivity.
Qed.
Lemma env_reset c id x : env_of (reset_buffer c (Some id) x) = env_of x.
Proof. unfold reset_buffer, reset_m, reset_c, reset_b, mod_sess. repeat (match goal with |- context [if ?b then _ else _] => destruct b end); reflexivity. Qed.
Lemma env_send E sid b x u y : req_send_on E sid b x = (Ok u, y) -> env_of y = env_of x.
Proof. intro H. apply keeps_send_on in H. unfold keeps in H. rewrite H. reflexivity. Qed.
Lemma env_recv E sid c x u y : req_recv_on E sid c x = (Ok u, y) -> env_of y = env_of x.
Proof. intro H. apply keeps_recv_on in H. unfold keeps in H. rewrite H. reflexivity. Qed.
Definition same_hand (s s' : session) : Prop := fixed_of s' = fixed_of s /\ h_req_fin (s_hs s') = h_req_fin (s_hs s) /\ h_rsp_fin (s_hs s') = h_rsp_fin (s_hs s).
Lemma append_ok cr req id m z s u z' : get_sess id z = Some s -> append_f cr req id m z = (Ok u, z') ->
  exists t d s', s_th s = Some t /\ (s_use_psk s = true \/ s_mut_auth s = 0 \/ s_f_init s = true -> d = []) /\ get_sess id z' = Some s' /\ s_th s' = Some (t ++ d ++ m) /\
    (same_hand s s' /\ s_f_init s' = true) /\ env_of z' = env_of z.
Proof.
  intros G H. unfold append_f in H. bi H. apply the_inv in P as [G' ->]. assert (v = s) as -> by congruence. clear G'. destruct (s_th s) as [t|] eqn:Th; [|discriminate]. bi H.
  assert (K : exists d s1, (s_use_psk s = true \/ s_mut_auth s = 0 \/ s_f_init s = true -> d = []) /\ get_sess id y = Some s1 /\ s_th s1 = Some (t ++ d) /\ (same_hand s s1 /\ s_f_init s1 = true) /\ env_of y = env_of z).
  { unfold swhen in P. destruct (s_f_init s) eqn:Fi; cbn [negb] in P.
    2:{ bg P. bi P. apply of_inv in P0 as [Fd ->]. apply mod_inv in P. exists v0. match type of P with _ = mod_sess _ ?f _ => exists (f s); pose proof (get_mod id f z s G eq_refl) as Gm end. split.
      { unfold f_digest in Fd. intros [K|[K|K]]; [| |discriminate]; rewrite K in Fd; cbn [negb andb] in Fd; [congruence|]. rewrite Bool.andb_false_r in Fd. congruence. }
      split; [rewrite P; exact Gm|]. split; [cbn [s_th set_s_th set_s_f_init]; rewrite Th; reflexivity|]. split; [split; [split; [reflexivity|split; reflexivity]|reflexivity]|]. rewrite P. reflexivity. }
    apply ret_inv in P as [_ ->]. exists [], s. split; [reflexivity|]. split; [exact G|]. split; [rewrite app_nil_r; exact Th|]. split; [split; [split; [reflexivity|split; reflexivity]|exact Fi]|reflexivity]. }
  destruct K as (d & s1 & K1 & K2 & K3 & K4 & K5). clear P. apply mod_inv in H. match type of H with _ = mod_sess _ ?f _ => exists t, d, (f s1); pose proof (get_mod id f y s1 K2 eq_refl) as Gm end.
  split; [reflexivity|]. split; [exact K1|]. split; [rewrite H; exact Gm|]. split; [cbn [s_th set_s_th]; rewrite K3, <- app_assoc; reflexivity|]. split; [exact K4|rewrite H; exact K5].
Qed.
Lemma same_hand_trans a b c : same_hand a b -> same_hand b c -> same_hand a c.
Proof. unfold same_hand. intuition congruence. Qed.
Lemma hk_hand s s' : hk s' = hk s -> same_hand s s' /\ s_th s' = s_th s /\ s_f_init s' = s_f_init s.
Proof. unfold hk, same_hand. intro H. repeat split; congruence. Qed.
(** the last [n] bytes replaced *)
Lemma patch_tail n h hd tl w : patch_last n h (hd ++ tl) = Ok w -> len tl = n -> w = hd ++ h /\ len h = n.
Proof.
  unfold patch_last. intros H L. destruct (N.eqb_spec (len h) n) as [K|]; [|discriminate]. cbn [andb] in H. destruct (_ <=? _); [|discriminate]. injection H as <-. split; [|exact K].
  unfold patch, len in *. rewrite app_length. replace (length hd + length tl - length h)%nat with (length hd) by lia. rewrite firstn_app, firstn_all, Nat.sub_diag, firstn_O, app_nil_r.
  rewrite skipn_all2 by (rewrite app_length; lia). rewrite app_nil_r. reflexivity.
Qed.
Lemma env_eqs z x : env_of z = env_of x -> x_nego z = x_nego x /\ xc z = xc x /\ ver z = ver x.
Proof. unfold env_of. intro H. assert (C : xc z = xc x) by congruence. assert (C0 : x_nego z = x_nego x) by (apply (f_equal c_nego) in C; exact C). unfold ver. rewrite C0. auto. Qed.
Lemma hash_le h n : hash_size h = Some n -> n <= 64.
Proof. intro K. unfold hash_size in K. destruct h as [|[[?|?|]|[?|[?|?|]|]|]]; try discriminate K; injection K as <-; lia. Qed.
Lemma psk_finish_wire c v n : hash_size (n_hash (c_nego c)) = Some n -> exists tl, len tl = n /\
  xwire (enc_message c (mkMsg (mkHeader v RC_PSK_FINISH) (PPskFinish (mkV n (fill 64 0xcc))))) = Some ([v; 0xE7; 0; 0] ++ tl) /\
  xcount (enc_message c (mkMsg (mkHeader v RC_PSK_FINISH) (PPskFinish (mkV n (fill 64 0xcc))))) = len ([v; 0xE7; 0; 0] ++ tl).
Proof.
  intro Hn. exists (v_bytes (mkV n (fill 64 0xcc))). assert (L : len (v_bytes (mkV n (fill 64 0xcc))) = n).
  { unfold v_bytes. cbn [v_size v_data]. unfold len. rewrite firstn_length. unfold fill. rewrite repeat_length. pose proof (hash_le _ _ Hn). lia. }
  split; [exact L|]. unfold enc_message. cbn [m_header m_payload]. unfold enc_header, enc_payload, enc_psk_finish, enc_digest. cbn [h_version h_code]. unfold c_hash_size. rewrite Hn. cbn [v_size]. unfold x_assert. rewrite N.eqb_refl.
  split.
  - rewrite !xwire_app, !xwh8, xwire_arr_cnt. reflexivity.
  - rewrite !xcount_app, !xch8, xcount_arr_cnt. cbn [xcount]. rewrite len_app, L. change (len [v; 0xE7; 0; 0]) with 4. lia.
Qed.
Lemma finish_wire c v n slot : hash_size (n_hash (c_nego c)) = Some n -> exists tl, len tl = n /\
  xwire (enc_message c (mkMsg (mkHeader v RC_FINISH) (PFinish (mkFinish 0 slot (mkV 0 (fill 512 0)) (mkV n (fill 64 0xcc)))))) = Some ([v; 0xE5; 0; slot] ++ tl) /\
  xcount (enc_message c (mkMsg (mkHeader v RC_FINISH) (PFinish (mkFinish 0 slot (mkV 0 (fill 512 0)) (mkV n (fill 64 0xcc)))))) = len ([v; 0xE5; 0; slot] ++ tl).
Proof.
  intro Hn. exists (v_bytes (mkV n (fill 64 0xcc))). assert (L : len (v_bytes (mkV n (fill 64 0xcc))) = n).
  { unfold v_bytes. cbn [v_size v_data]. unfold len. rewrite firstn_length. unfold fill. rewrite repeat_length. pose proof (hash_le _ _ Hn). lia. }
  split; [exact L|]. unfold enc_message. cbn [m_header m_payload]. unfold enc_header, enc_payload, enc_finish, enc_digest. cbn [h_version h_code fi_attr fi_slot fi_sig fi_verify]. unfold c_hash_size. rewrite Hn. cbn [v_size]. unfold x_assert. rewrite N.eqb_refl.
  change (contains 0 FINISH_SIG) with false. cbn [enc_opt].
  split.
  - rewrite !xwire_app, !xwh8, xwire_arr_cnt. reflexivity.
  - rewrite !xcount_app, !xch8, xcount_arr_cnt. cbn [xcount]. rewrite len_app, L. change (len [v; 0xE5; 0; slot]) with 4. lia.
Qed.
(** ** PSK_FINISH *)
Lemma encode_psk_finish_ok E id x s w x' : get_sess id x = Some s -> encode_psk_finish E id x = (Ok w, x') ->
  exists t own s', s_th s = Some t /\ get_sess id x' = Some s' /\ s_th s' = Some (t ++ own) /\ (same_hand s s' /\ s_f_init s' = true) /\ env_of x' = env_of x /\
    (s_use_psk s = true \/ s_mut_auth s = 0 -> own = w /\ (s_hash s = n_hash (x_nego x) -> finish_message (e_cr E) s t [ver x; 0xE7; 0; 0] w)).
Proof.
  intros G H. unfold encode_psk_finish in H. bg H. bi H. apply unwrap_inv in P as [Hn ->]. bi H. pose proof (q_enc _ _ _ _ P) as ->.
  destruct (psk_finish_wire (xc x) (ver x) v Hn) as (tl & Lt & W & C). assert (v0 = [ver x; 0xE7; 0; 0] ++ tl) as -> by exact (req_enc_exact _ _ _ _ _ W C P). clear P W C.
  bi H. apply of_inv in P as [Dl ->]. rewrite drop_last_app in Dl by exact Lt. assert (v0 = [ver x; 0xE7; 0; 0]) as -> by congruence. clear Dl.
  bi H. destruct (append_ok _ _ _ _ _ _ _ _ G P) as (t & d & s1 & T & Dz & G1 & T1 & [S1 Fi1] & E1). clear P.
  bi H. apply (calc_inv _ _ _ _ _ _ G1) in P as (-> & t1 & T1' & Hh). assert (t1 = t ++ d ++ [ver x; 0xE7; 0; 0]) as -> by congruence.
  bi H. apply the_inv in P as [G1' ->]. assert (v2 = s1) as -> by congruence. clear G1'. bi H. apply of_inv in P as [Hm ->]. unfold hmac_req_fin, orc in Hm.
  bi H. destruct (append_ok _ _ _ _ _ _ _ _ G1 P) as (t2 & d2 & s2 & T2 & Dz2 & G2 & T2' & [S2 Fi2] & E2). clear P. assert (t2 = t ++ d ++ [ver x; 0xE7; 0; 0]) as -> by congruence.
  apply of_inv in H as [Pl ->]. apply patch_tail in Pl as [-> Lv]; [|exact Lt].
  exists t, (d ++ [ver x; 0xE7; 0; 0] ++ d2 ++ v2), s2. split; [exact T|]. split; [exact G2|]. split; [rewrite T2', <- !app_assoc; reflexivity|]. split; [split; [exact (same_hand_trans _ _ _ S1 S2)|exact Fi2]|]. split; [congruence|].
  intro K. assert (d = []) as -> by (apply Dz; tauto). assert (d2 = []) as -> by (apply Dz2; auto). assert (F1 : s_use_psk s1 = s_use_psk s /\ s_mut_auth s1 = s_mut_auth s /\ s_hash s1 = s_hash s) by (destruct S1 as [S1 _]; unfold fixed_of in S1; repeat split; congruence).
  destruct F1 as (F1 & F2 & F3). cbn [app] in *. split; [reflexivity|]. intro Hs. rewrite F3 in *. destruct S1 as (_ & S1 & _). rewrite S1 in Hm. destruct (cr_hmac _ _ _ _) as [m|] eqn:Em; [|discriminate]. assert (m = v2) as -> by congruence.
  exists v1, v2. split; [exact Hh|]. split; [exact Em|]. split; [congruence|reflexivity].
Qed.
Lemma two_bytes r (p : unit) rest : dec_empty r = POk p rest -> exists body, r = body ++ rest /\ length body = 2%nat.
Proof.
  intro H. unfold dec_empty in H. apply dbind_ok in H as (a & m & D1 & H). apply dbind_ok in H as (b & m' & D2 & H). apply dret_ok in H as [_ ->].
  unfold d_u8 in *. destruct r as [|r0 r]; [discriminate D1|]. destruct r as [|r1 r].
  - cbn in D1. injection D1 as _ <-. discriminate D2.
  - cbn in D1. injection D1 as _ <-. cbn in D2. injection D2 as _ <-. exists [r0; r1]. split; reflexivity.
Qed.
Definition data_ready (E : env) (z z' : ctx) (id : N) (s : session) (t : bytes) : Prop :=
  exists ss th2, get_sess id z' = Some ss /\ s_state ss = SEstablished /\ fixed_of ss = fixed_of s /\ cr_hash (e_cr E) (s_hash s) t = Some th2 /\ data_keys (e_cr E) (ver z) ss th2 (s_app ss).
(** the tail of both: TH2, the data keys, the state *)
Lemma establish_ok E v id z s t (k : unit -> st ctx unit) u z' : get_sess id z = Some s -> s_th s = Some t -> v = ver z -> (forall a y u y', k a y = (Ok u, y') -> x_sess y' = x_sess y) ->
  (th2 <-- calc_th (e_cr E) id ;; on_sess id (generate_data_secret (e_cr E) v th2) ;;; (x <-- on_sess id (smod (set_s_state SEstablished)) ;; k x))%st z = (Ok u, z') -> data_ready E z z' id s t.
Proof.
  intros G T -> Kk H. bi H. apply (calc_inv _ _ _ _ _ _ G) in P as (-> & t' & T' & Hh). assert (t' = t) as -> by congruence.
  bi H. apply (on_ok _ _ _ _ _ _ G) in P as (s4 & D4 & Z4). pose proof (kept_data _ _ _ _ _ _ D4) as (B1 & B2 & B3 & B4). assert (I4 : s_id s4 = s_id s) by (unfold fixed_of in B1; congruence).
  assert (G4 := put_get id z s s4 G I4). rewrite <- Z4 in G4. bi H. apply (on_ok _ _ _ _ _ _ G4) in P as (s5 & M5 & Z5). unfold smod in M5. assert (s5 = set_s_state SEstablished s4) as -> by congruence.
  assert (G5 := put_get id y s4 (set_s_state SEstablished s4) G4 eq_refl). rewrite <- Z5 in G5. apply Kk in H. exists (set_s_state SEstablished s4), v.
  split; [unfold get_sess in *; rewrite H; exact G5|]. split; [reflexivity|]. split; [exact B1|]. split; [exact Hh|]. apply data_ok in D4 as (D4 & _). apply (data_fixed _ _ s); [exact D4|exact B1].
Qed.
Lemma handle_psk_finish_ok E id b z s t u z' : get_sess id z = Some s -> s_th s = Some t -> s_f_init s = true -> handle_psk_finish_rsp E id b z = (Ok u, z') ->
  exists body rest, b = ver z :: 0x67 :: body ++ rest /\ length body = 2%nat /\ data_ready E z z' id s (t ++ [ver z; 0x67] ++ body).
Proof.
  intros G T Fi H. unfold handle_psk_finish_rsp in H. apply on_response_ok in H as (r & Eb & H). apply reading_ok in H as (p & rest & D & H). apply two_bytes in D as (body & Eb' & L2).
  assert (Eu : used_of b rest = [ver z; 0x67] ++ body). { apply used_split. rewrite Eb, Eb'. rewrite <- app_assoc. reflexivity. }
  rewrite Eu in H. bg H. bi H. destruct (append_ok _ _ _ _ _ _ _ _ G P) as (t0 & d & s1 & T0 & Dz & G1 & T1 & [S1 _] & E1). assert (t0 = t) as -> by congruence. assert (d = []) as -> by (apply Dz; auto). cbn [app] in T1. clear P.
  destruct (env_eqs _ _ E1) as (_ & _ & Ev).
  assert (R : data_ready E y z' id s1 (t ++ [ver z; 0x67] ++ body)).
  { refine (establish_ok E (ver z) id y s1 _ (fun a => sret a) u z' G1 T1 _ _ _); [congruence|intros a w u' w' K; apply ret_inv in K as [_ ->]; reflexivity|].
    revert H. unfold sbind. destruct (calc_th _ _ _) as [[?| |] ?]; auto. destruct (on_sess _ _ _) as [[?| |] ?]; auto. destruct (on_sess _ _ _) as [[[]| |] ?]; auto. }
  exists body, rest. split; [rewrite Eb, Eb'; reflexivity|]. split; [exact L2|].
  destruct R as (ss & th2 & R1 & R2 & R3 & R4 & R5). destruct S1 as (S1 & _). rewrite Ev in R5. exists ss, th2. split; [exact R1|]. split; [exact R2|]. split; [congruence|]. split; [replace (s_hash s) with (s_hash s1) by (unfold fixed_of in S1; congruence); exact R4|exact R5].
Qed.
Lemma psk_finish_ok E id x u x' : psk_finish_req E id x = (Ok u, x') -> psk_finish_accepted E x x' id.
Proof.
  intro H. unfold psk_finish_req in H. bg H. bi H. apply ok_inv in P as [G ->]. rename v into s. bi H. apply mod_inv in P.
  pose proof (eqh_reset RC_PSK_FINISH id x) as R1. pose proof (env_reset RC_PSK_FINISH id x) as R2. pose proof (quiet_reset_buffer RC_PSK_FINISH (Some id) x) as R3. rewrite <- P in R1, R2, R3. clear P.
  destruct (eqh_get _ _ _ _ R1 G) as (s1 & G1 & H1). apply hk_hand in H1 as [S1 [T1 _]]. destruct (env_eqs _ _ R2) as (N1 & _ & V1).
  bi H. apply or_teardown_ok in P. pose proof (quiet_encode_psk_finish _ _ _ _ _ P) as Q1. destruct (encode_psk_finish_ok _ _ _ _ _ _ G1 P) as (t & own & s2 & T & G2 & T2 & [S2 Fi2] & E2 & W). clear P.
  bi H. apply or_teardown_ok in P. pose proof (eqh_send_on E (Some id) _ _ _ _ P) as R4. pose proof (env_send E (Some id) _ _ _ _ P) as E3. destruct (eqh_get _ _ _ _ R4 G2) as (s3 & G3 & H3). apply hk_hand in H3 as [S3 [T3 Fi3]].
  bi H. apply or_teardown_ok in P0. pose proof (eqh_recv_on E (Some id) false _ _ _ P0) as R5. pose proof (env_recv E (Some id) false _ _ _ P0) as E4. destruct (eqh_get _ _ _ _ R5 G3) as (s4 & G4 & H4). apply hk_hand in H4 as [S4 [T4 Fi4]].
  apply or_teardown_if_ok in H. pose proof (quiet_handle_psk_finish _ _ _ _ _ _ H) as Q2.
  assert (Ss : same_hand s s4) by (exact (same_hand_trans _ _ _ S1 (same_hand_trans _ _ _ S2 (same_hand_trans _ _ _ S3 S4)))). assert (Fi5 : s_f_init s4 = true) by congruence. assert (T5 : s_th s4 = Some (t ++ own)) by congruence.
  destruct (handle_psk_finish_ok _ _ _ _ _ _ _ _ G4 T5 Fi5 H) as (body & rest & Eb & L2 & ss & th2 & D1 & D2 & D3 & D4 & D5).
  assert (Ev : ver y2 = ver x) by (apply env_eqs; congruence). rewrite Ev in *.
  match type of P with req_send_secured _ _ ?w _ _ = _ => exists s, t, w, own, body, rest, ss, th2 end. cbv zeta. destruct Ss as (Ss & _). unfold fixed_of in Ss, D3. rewrite <- Eb.
  split; [exact G|]. split; [congruence|]. split; [refine (exchanged_by E (Some id) false x _ _ _ _ _ _ _ x' _ P (q_refl _) P0 Q2); eapply q_trans; eassumption|]. split; [exact L2|].
  split. { intro K. destruct S1 as (S1 & S1' & _). unfold fixed_of in S1. assert (K1 : s_use_psk s1 = true \/ s_mut_auth s1 = 0) by (destruct K; [left|right]; congruence).
    destruct (W K1) as [W1 W2]. split; [exact W1|]. intro Hs. rewrite <- V1. assert (Hs1 : s_hash s1 = s_hash s) by congruence. destruct (W2 ltac:(congruence)) as (h & m & W3 & W4 & W5 & W6). exists h, m. rewrite <- Hs1, <- S1'. auto. }
  split; [exact D1|]. split; [exact D2|]. split; [congruence|]. split; [congruence|]. split; [congruence|]. split; [congruence|]. split; [congruence|].
  split; [|exact D5]. replace (s_hash s) with (s_hash s4) by congruence. rewrite <- D4. f_equal. rewrite <- !app_assoc. reflexivity.
Qed.

(** ** FINISH *)
Lemma finish_signature_state E id x sg x' : finish_signature E id x = (Ok sg, x') -> x' = x.
Proof.
  intro H. unfold finish_signature in H. bi H. unfold calc_th in P. bi P. apply the_inv in P0 as [_ ->]. apply of_inv in P as [_ ->]. bg H.
  bi H. apply of_inv in P as [_ ->]. bi H. apply ok_inv in P as [_ ->]. bi H. apply ok_inv in P as [_ ->]. bi H. apply unwrap_inv in P as [_ ->]. bi H. apply ok_inv in P as [_ ->].
  bi H. apply assert_inv in P as [_ ->]. bi H. apply assert_inv in P as [_ ->]. apply ret_inv in H as [_ ->]. reflexivity.
Qed.
Lemma encode_finish_ok E id slot x s w x' : get_sess id x = Some s -> encode_finish E id slot x = (Ok w, x') ->
  exists t own s', s_th s = Some t /\ get_sess id x' = Some s' /\ s_th s' = Some (t ++ own) /\ (same_hand s s' /\ s_f_init s' = true) /\ env_of x' = env_of x /\
    (s_mut_auth s = 0 -> own = w /\ (s_hash s = n_hash (x_nego x) -> finish_message (e_cr E) s t [ver x; 0xE5; 0; slot] w)).
Proof.
  intros G H. unfold encode_finish in H. bg H. bi H. apply ok_inv in P as [G' ->]. assert (v = s) as -> by congruence. clear G'. cbv zeta in H. bi H.
  assert (y = x) as ->. { destruct (negb _); [apply unwrap_inv in P as [_ ->]|apply ret_inv in P as [_ ->]]; reflexivity. }
  assert (Hsig : s_mut_auth s = 0 -> v = 0). { intro K. rewrite K in P. cbn in P. apply ret_inv in P as [P _]. congruence. } clear P.
  bi H. apply unwrap_inv in P as [Hn ->]. bi H. pose proof (q_enc _ _ _ _ P) as ->. rename v1 into w0.
  assert (W0 : s_mut_auth s = 0 -> exists tl, len tl = v0 /\ w0 = [ver x; 0xE5; 0; slot] ++ tl).
  { intro K. rewrite K, (Hsig K) in P. destruct (finish_wire (xc x) (ver x) v0 slot Hn) as (tl & Lt & W & C). exists tl. split; [exact Lt|]. exact (req_enc_exact _ _ _ _ _ W C P). }
  clear P. bi H. destruct (append_ok _ _ _ _ _ _ _ _ G P) as (t & d & s1 & T & Dz & G1 & T1 & [S1 Fi1] & E1). clear P.
  bi H.
  assert (K : exists ex s2, get_sess id y0 = Some s2 /\ s_th s2 = Some (t ++ d ++ firstn 4 w0 ++ ex) /\ (same_hand s1 s2 /\ s_f_init s2 = true) /\ env_of y0 = env_of y /\ (s_mut_auth s = 0 -> ex = [] /\ v2 = w0)).
  { destruct (N.eqb_spec (s_mut_auth s) 0) as [Z|Z]; cbn [negb] in P.
    - apply ret_inv in P as [P ->]. exists [], s1. rewrite app_nil_r. split; [exact G1|]. split; [exact T1|]. split; [split; [repeat split; reflexivity|exact Fi1]|]. split; [reflexivity|]. intros _. split; [reflexivity|congruence].
    - bi P. pose proof (finish_signature_state _ _ _ _ _ P0) as ->. bi P. apply of_inv in P1 as [_ ->]. bi P. destruct (append_ok _ _ _ _ _ _ _ _ G1 P1) as (t2 & d2 & s2 & T2 & _ & G2 & T2' & S2 & E2). apply ret_inv in P as [_ ->].
      exists (d2 ++ v3), s2. split; [exact G2|]. split; [rewrite T2'; assert (t2 = t ++ d ++ firstn 4 w0) as -> by congruence; rewrite <- !app_assoc; reflexivity|]. split; [exact S2|]. split; [exact E2|]. intro; contradiction. }
  destruct K as (ex & s2 & G2 & T2 & [S2 Fi2] & E2 & Kx). clear P.
  bi H. apply (calc_inv _ _ _ _ _ _ G2) in P as (-> & t1 & T1' & Hh). assert (t1 = t ++ d ++ firstn 4 w0 ++ ex) as -> by congruence.
  bi H. apply the_inv in P as [G1' ->]. assert (v4 = s2) as -> by congruence. clear G1'. bi H. apply of_inv in P as [Hm ->]. unfold hmac_req_fin, orc in Hm.
  bi H. destruct (append_ok _ _ _ _ _ _ _ _ G2 P) as (t2 & d2 & s3 & T2'' & Dz2 & G3 & T3 & [S3 Fi3] & E3). clear P. assert (t2 = t ++ d ++ firstn 4 w0 ++ ex) as -> by congruence.
  apply of_inv in H as [Pl ->].
  exists t, (d ++ firstn 4 w0 ++ ex ++ d2 ++ v4), s3. split; [exact T|]. split; [exact G3|]. split; [rewrite T3, <- !app_assoc; reflexivity|]. split; [split; [exact (same_hand_trans _ _ _ S1 (same_hand_trans _ _ _ S2 S3))|exact Fi3]|]. split; [congruence|].
  intro K. destruct (Kx K) as [-> ->]. destruct (W0 K) as (tl & Lt & ->). assert (d = []) as -> by (apply Dz; auto). assert (d2 = []) as -> by (apply Dz2; auto). pose proof (same_hand_trans _ _ _ S1 S2) as S12.
  assert (F1 : s_mut_auth s2 = s_mut_auth s /\ s_hash s2 = s_hash s) by (destruct S12 as [S12 _]; unfold fixed_of in S12; split; congruence).
  destruct F1 as (F2 & F3). apply patch_tail in Pl as [-> Lv]; [|exact Lt]. cbn [firstn app] in *. split; [reflexivity|].
  intro Hs. rewrite F3 in *. destruct S12 as (_ & S12 & _). rewrite S12 in Hm. destruct (cr_hmac _ _ _ _) as [m|] eqn:Em; [|discriminate]. assert (m = v4) as -> by congruence.
  exists v3, v4. split; [exact Hh|]. split; [exact Em|]. split; [congruence|reflexivity].
Qed.
Lemma dec_finish_split c r v rest : dec_finish_rsp c r = POk v rest ->
  exists body mac, r = body ++ mac ++ rest /\ length body = 2%nat /\ if in_clear c then mac = v_bytes v /\ Some (len mac) = hash_size (n_hash (c_nego c)) else mac = [].
Proof.
  intro H. unfold dec_finish_rsp in H. apply dbind_ok in H as (a & m & D1 & H). apply dbind_ok in H as (b & m' & D2 & H). apply dbind_ok in H as (v' & m'' & D3 & H). apply dret_ok in H as [-> ->].
  assert (Q : exists body, r = body ++ m' /\ length body = 2%nat).
  { unfold d_u8 in *. destruct r as [|r0 r]; [discriminate D1|]. destruct r as [|r1 r]; cbn in D1; injection D1 as _ <-; [discriminate D2|]. cbn in D2. injection D2 as _ <-. exists [r0; r1]. split; reflexivity. }
  destruct Q as (body & -> & L). unfold dec_opt in D3. destruct (in_clear c).
  - apply dec_digest_split in D3 as (n & K1 & K2 & ->). exists body, (v_bytes v'). split; [reflexivity|]. split; [exact L|]. split; [reflexivity|]. congruence.
  - apply dret_ok in D3 as [_ ->]. exists body, []. auto.
Qed.
Lemma handle_finish_ok E id b z s t u z' : get_sess id z = Some s -> s_th s = Some t -> s_f_init s = true -> handle_finish_rsp E id b z = (Ok u, z') ->
  exists bv body mac rest, b = bv :: 0x65 :: body ++ mac ++ rest /\ length body = 2%nat /\
    (if in_clear (xc z) then Some (len mac) = hash_size (n_hash (x_nego z)) /\ exists h, cr_hash (e_cr E) (s_hash s) (t ++ [bv; 0x65] ++ body) = Some h /\ cr_hmac_verify (e_cr E) (s_hash s) (h_rsp_fin (s_hs s)) h mac = true else mac = []) /\
    data_ready E z z' id s (t ++ [bv; 0x65] ++ body ++ mac).
Proof.
  intros G T Fi H. unfold handle_finish_rsp in H. bg H. bi H. apply ok_inv in P as [_ ->]. clear v. apply on_response_any_ok in H as (bv & r & Eb & H). apply reading_ok in H as (v & rest & D & H).
  apply dec_finish_split in D as (body & mac & -> & L2 & Hm). bi H. apply unwrap_inv in P as [Hn ->]. change (RC_FINISH_RSP) with 0x65 in Eb.
  assert (Eu : used_of b rest = ([bv; 0x65] ++ body) ++ mac). { apply used_split. rewrite Eb. rewrite <- !app_assoc. reflexivity. }
  rewrite Eu in H. bi H.
  assert (K : exists s1, get_sess id y = Some s1 /\ s_th s1 = Some (t ++ [bv; 0x65] ++ body ++ mac) /\ same_hand s s1 /\ env_of y = env_of z /\
     (if in_clear (xc z) then Some (len mac) = hash_size (n_hash (x_nego z)) /\ exists h, cr_hash (e_cr E) (s_hash s) (t ++ [bv; 0x65] ++ body) = Some h /\ cr_hmac_verify (e_cr E) (s_hash s) (h_rsp_fin (s_hs s)) h mac = true else mac = [])).
  { destruct (in_clear (xc z)).
    - destruct Hm as [Em Hm]. change (n_hash (c_nego (xc z))) with (n_hash (x_nego z)) in Hm. bi P. apply of_inv in P0 as [Dl ->]. rewrite drop_last_app in Dl by congruence. assert (v2 = [bv; 0x65] ++ body) as -> by congruence. clear Dl.
      bi P. destruct (append_ok _ _ _ _ _ _ _ _ G P0) as (t0 & d & s1 & T0 & Dz & G1 & T1 & [S1 Fi1] & E1). clear P0. assert (t0 = t) as -> by congruence. assert (d = []) as -> by (apply Dz; auto). cbn [app] in T1. clear Dz.
      bi P. apply (calc_inv _ _ _ _ _ _ G1) in P0 as (-> & t1 & T1' & Hh). assert (t1 = t ++ bv :: 0x65 :: body) as -> by congruence.
      bi P. apply the_inv in P0 as [G1' ->]. assert (v4 = s1) as -> by congruence. clear G1'. bi P. apply fail_inv in P0 as [Vf ->]. apply Bool.negb_false_iff in Vf. unfold verify_rsp_fin in Vf. rewrite <- Em in Vf, P.
      destruct (append_ok _ _ _ _ _ _ _ _ G1 P) as (t2 & d2 & s2 & T2 & Dz2 & G2 & T2' & [S2 Fi2] & E2). assert (t2 = t ++ bv :: 0x65 :: body) as -> by congruence. assert (d2 = []) as -> by (apply Dz2; auto). cbn [app] in T2'.
      exists s2. split; [exact G2|]. split; [rewrite T2', <- !app_assoc; reflexivity|]. split; [exact (same_hand_trans _ _ _ S1 S2)|]. split; [congruence|]. split; [exact Hm|].
      destruct S1 as (S1 & _ & S1'). rewrite S1' in Vf. assert (Hs : s_hash s1 = s_hash s) by (unfold fixed_of in S1; congruence). rewrite Hs in *. eexists. split; [exact Hh|exact Vf].
    - subst mac. rewrite app_nil_r in P. destruct (append_ok _ _ _ _ _ _ _ _ G P) as (t0 & d & s1 & T0 & Dz & G1 & T1 & [S1 Fi1] & E1). assert (t0 = t) as -> by congruence. assert (d = []) as -> by (apply Dz; auto).
      exists s1. rewrite app_nil_r. auto. }
  destruct K as (s1 & G1 & T1 & S1 & E1 & Hc). clear P. destruct (env_eqs _ _ E1) as (_ & _ & Ev).
  assert (R : data_ready E y z' id s1 (t ++ [bv; 0x65] ++ body ++ mac)).
  { refine (establish_ok E (ver z) id y s1 _ (fun _ => smod (set_x_last None)) u z' G1 T1 _ _ _); [congruence|intros a w u' w' K; apply mod_inv in K as ->; reflexivity|].
    revert H. unfold sbind. destruct (calc_th _ _ _) as [[?| |] ?]; auto. }
  exists bv, body, mac, rest. split; [exact Eb|]. split; [exact L2|]. split; [exact Hc|].
  destruct R as (ss & th2 & R1 & R2 & R3 & R4 & R5). destruct S1 as (S1 & _). rewrite Ev in R5. exists ss, th2. split; [exact R1|]. split; [exact R2|]. split; [congruence|]. split; [replace (s_hash s) with (s_hash s1) by (unfold fixed_of in S1; congruence); exact R4|exact R5].
Qed.
Definition slot_or_0 (rs : option N) : N := match rs with Some s => s | None => 0 end.
Lemma finish_ok E rs id x u x' : finish_req E rs id x = (Ok u, x') -> finish_accepted E x x' (slot_or_0 rs) id.
Proof.
  intro H. unfold finish_req in H. bg H. cbv zeta in H. bi H.
  assert (y = x /\ v = slot_or_0 rs) as [-> ->]. { destruct rs as [sl|]; [|apply ret_inv in P as [P ->]; split; [reflexivity|cbn; congruence]]. destruct (_ <=? _); [discriminate|]. destruct (slot_of _ _); [|discriminate]. apply ret_inv in P as [P ->]; split; [reflexivity|cbn; congruence]. }
  clear P. bi H. apply ok_inv in P as [G ->]. rename v into s. bi H. apply mod_inv in P.
  pose proof (eqh_reset RC_FINISH id x) as R1. pose proof (env_reset RC_FINISH id x) as R2. pose proof (quiet_reset_buffer RC_FINISH (Some id) x) as R3. rewrite <- P in R1, R2, R3. clear P.
  destruct (eqh_get _ _ _ _ R1 G) as (s1 & G1 & H1). apply hk_hand in H1 as [S1 [T1 _]]. destruct (env_eqs _ _ R2) as (N1 & _ & V1).
  bi H. apply or_teardown_ok in P. pose proof (quiet_encode_finish _ _ _ _ _ _ P) as Q1. destruct (encode_finish_ok _ _ _ _ _ _ _ G1 P) as (t & own & s2 & T & G2 & T2 & [S2 Fi2] & E2 & W). clear P.
  set (sid := if in_clear (xc x) then None else Some id).
  bi H. apply or_teardown_ok in P. bi H. apply or_teardown_ok in P0. 
  match type of H with or_teardown_if _ (handle_finish_rsp _ _ ?b) ?z = _ => match type of P with _ = (Ok ?u1, ?z1) => match goal with Q : encode_finish_ok = _ |- _ => idtac | _ => 
    assert (P0' : req_recv_on E sid false z1 = (Ok b, z)) by (unfold sid; destruct (in_clear (xc x)); exact P0); rename b into rb; rename z into yr; rename z1 into ys end end end.
  clear P0. rename P0' into P0.
  match type of W with _ -> _ = ?w /\ _ => match type of P with _ ?yy = (Ok ?uu, _) => assert (P' : req_send_on E sid w yy = (Ok uu, ys)) by (unfold sid; destruct (in_clear (xc x)); exact P) end end. clear P. rename P' into P.
  pose proof (eqh_send_on E sid _ _ _ _ P) as R4. pose proof (env_send E sid _ _ _ _ P) as E3. destruct (eqh_get _ _ _ _ R4 G2) as (s3 & G3 & H3). apply hk_hand in H3 as [S3 [T3 Fi3]].
  pose proof (eqh_recv_on E sid false _ _ _ P0) as R5. pose proof (env_recv E sid false _ _ _ P0) as E4. destruct (eqh_get _ _ _ _ R5 G3) as (s4 & G4 & H4). apply hk_hand in H4 as [S4 [T4 Fi4]].
  apply or_teardown_if_ok in H. pose proof (quiet_handle_finish _ _ _ _ _ _ H) as Q2.
  assert (Ss : same_hand s s4) by (exact (same_hand_trans _ _ _ S1 (same_hand_trans _ _ _ S2 (same_hand_trans _ _ _ S3 S4)))). assert (Fi5 : s_f_init s4 = true) by congruence. assert (T5 : s_th s4 = Some (t ++ own)) by congruence.
  destruct (handle_finish_ok _ _ _ _ _ _ _ _ G4 T5 Fi5 H) as (bv & body & mac & rest & Eb & L2 & Hc & ss & th2 & D1 & D2 & D3 & D4 & D5).
  assert (Ev : x_nego yr = x_nego x /\ xc yr = xc x /\ ver yr = ver x) by (apply env_eqs; congruence). destruct Ev as (Ex1 & Ex2 & Ev). rewrite Ev in D5. rewrite Ex1, Ex2 in Hc.
  match type of W with _ -> _ = ?w /\ _ => exists s, t, w, own, bv, body, mac, rest, ss, th2 end. cbv zeta. fold sid. destruct Ss as (Ss & _ & Ss'). unfold fixed_of in Ss, D3. rewrite <- Eb. assert (Hs4 : s_hash s4 = s_hash s) by congruence. rewrite Hs4 in D4, Hc. rewrite Ss' in Hc.
  split; [exact G|]. split; [congruence|]. split; [refine (exchanged_by E sid false x _ _ _ _ _ _ _ x' _ P (q_refl _) P0 Q2); eapply q_trans; eassumption|]. split; [exact L2|].
  split. { intro K. destruct S1 as (S1 & S1' & _). unfold fixed_of in S1. assert (K1 : s_mut_auth s1 = 0) by congruence.
    destruct (W K1) as [W1 W2]. split; [exact W1|]. intro Hs. rewrite <- V1. assert (Hs1 : s_hash s1 = s_hash s) by congruence. destruct (W2 ltac:(congruence)) as (h & m & W3 & W4 & W5 & W6). exists h, m. rewrite <- Hs1, <- S1'. auto. }
  rewrite <- app_assoc in Hc. split; [exact Hc|].
  split; [exact D1|]. split; [exact D2|]. split; [congruence|]. split; [congruence|]. split; [congruence|]. split; [congruence|]. split; [congruence|].
  split; [|exact D5]. rewrite <- D4. f_equal. rewrite <- !app_assoc. reflexivity.
Qed.
