(** The requester's handshakes, continued: PSK_EXCHANGE, FINISH, PSK_FINISH, and every other operation. *)
From Verif Require Import Bytes BytesFacts Status Codec Parse ParseProofs Algo Monad.
From Verif Require Import MsgConn MsgAuth MsgSession MsgOther Message Opaque Transport Crypto KeySchedule Session Signing CertOps ChainVerify Context
  RspBase RspConn RspSess RspEncap Responder StRel RspFrame RspCalm RspOpcode RspPass RspEst ReqBase ReqConn ReqSess SpecReq ReqFrame ReqAnswer SpecSession SessionProofs SignProofs SpecAuth ReqTrans ReqSplit ReqHist ReqAuth ReqTable ReqOpen ReqMeas.
From Verif Require Import MsgLocal SpecKeys KeyProofs SpecHand RspTable RspIso ReqHand.
From Coq Require Import Lia.
Local Open Scope N_scope.

(** ** no session becomes usable *)
Definition nonew (x x' : ctx) : Prop := forall ss, In ss (x_sess x') -> s_id ss <> 0 -> s_state ss <> SNotStarted ->
  exists s, In s (x_sess x) /\ s_id s = s_id ss /\ s_state s = s_state ss.
Lemma nonew_pre : preorder nonew.
Proof.
  split; [intros x ss I _ _; exists ss; auto|]. intros x y z A B ss I Z S. destruct (B ss I Z S) as (s & I' & K1 & K2).
  destruct (A s I') as (t & I'' & L1 & L2); [congruence|congruence|]. exists t. split; [exact I''|]. split; congruence.
Qed.
Lemma Forall2_in_r {A B} (R : A -> B -> Prop) l l' b : Forall2 R l l' -> In b l' -> exists a, In a l /\ R a b.
Proof. induction 1 as [|x y l l' P F IH]; intros []; [subst; exists x; split; [now left|exact P]|]. destruct (IH H) as (a & I & Q). exists a. split; [now right|exact Q]. Qed.
Lemma dk_nonew x x' : dk None None x x' -> nonew x x'.
Proof.
  intros [D _] ss I Z S. destruct (Forall2_in_r _ _ _ _ D I) as (s & Is & [[K _]|(K1 & [K2|[K2|K2]] & _)]); [contradiction| |contradiction|discriminate].
  exists s. auto.
Qed.
Lemma nonew_of {A} (m : st ctx A) : rel (dk None None) m -> rel nonew m.
Proof. apply rel_mono. intros x y. apply dk_nonew. Qed.
Lemma in_upd_const id (s : session) l t : In t (upd_sess id (fun _ => s) l) -> In t l \/ t = s.
Proof. induction l as [|a l IH]; cbn; [auto|]. destruct (s_id a =? id); cbn; intros [H|H]; auto. destruct (IH H); auto. Qed.
Lemma nonew_setup id : rel nonew (on_sess 0 (session_setup id)).
Proof.
  intros x r x' H. unfold on_sess in H. destruct (get_sess 0 x) as [s|] eqn:G; [|replace x' with x by congruence; apply nonew_pre].
  unfold session_setup in H. destruct (s_id s =? 0); (match type of H with (_, ?z) = _ => replace x' with z by congruence end); clear H;
    intros ss I Z S; unfold mod_sess in I; cbn [x_sess set_x_sess] in I; apply in_upd_const in I as [I|I].
  - exists ss. auto.
  - subst ss. exfalso. apply S. reflexivity.
  - exists ss. auto.
  - subst ss. exists s. split; [|auto]. unfold get_sess, find_sess in G. apply find_some in G. apply G.
Qed.
Lemma nonew_open_kx E id p f h : rel nonew (req_open_session E id p f h).
Proof.
  unfold req_open_session. apply (rel_bind _ nonew_pre); [apply (rel_get _ nonew_pre)|intro x]. destruct (get_sess 0 x); [|apply (rel_err _ nonew_pre)].
  apply (rel_bind _ nonew_pre); [apply nonew_setup|intros _]. apply nonew_of. dd (@None (option N)) (@None N); apply eqk_of, eqk_on_sess, s3_dhe.
Qed.
Lemma nonew_open_psk E id hint : rel nonew (req_open_psk_session E id hint).
Proof.
  unfold req_open_psk_session. apply (rel_bind _ nonew_pre); [apply (rel_get _ nonew_pre)|intro x]. destruct (get_sess 0 x); [|apply (rel_err _ nonew_pre)].
  apply (rel_bind _ nonew_pre); [apply nonew_setup|intros _]. apply nonew_of. dd (@None (option N)) (@None N).
Qed.

(** ** KEY_EXCHANGE, FINISH and PSK_FINISH that fail *)
Definition never {A} (m : st ctx A) : Prop := forall x e x', m x <> (Err e, x').
Lemma errs_never {A} R (m : st ctx A) : never m -> errs R m.
Proof. intros H x e x' K. exfalso. exact (H _ _ _ K). Qed.
Lemma never_bind {A B} (m : st ctx A) (k : A -> st ctx B) : never m -> (forall a, never (k a)) -> never (sbind m k).
Proof. intros M K x e x' H. unfold sbind in H. destruct (m x) as [[a|f|] y] eqn:F; [exact (K _ _ _ _ H)|exact (M _ _ _ F)|discriminate]. Qed.
Lemma never_mod f : never (smod f). Proof. intros x e x' H. unfold smod in H. discriminate. Qed.
Lemma never_ret {A} (a : A) : never (sret a). Proof. intros x e x' H. unfold sret in H. discriminate. Qed.
Lemma never_on_mod id f : never (on_sess id (smod f)).
Proof. intros x e x' H. unfold on_sess, smod in H. destruct (get_sess id x); discriminate. Qed.
Lemma never_when b (m : st ctx unit) : never m -> never (swhen b m). Proof. destruct b; [auto|intros _; apply never_ret]. Qed.
Ltac nn := first [apply (rel_get _ nonew_pre)|apply (rel_unwrap _ nonew_pre)|apply (rel_of _ nonew_pre)|apply (rel_ok _ nonew_pre)|apply (rel_fail_if _ nonew_pre)|apply (rel_req_enc _ nonew_pre)
  |apply nonew_of; dd (@None (option N)) (@None N)].
Ltac en := apply (errs_bind _ nonew_pre); [nn|intro].
Lemma errs_finish_kx E slot id s u p : errs nonew (finish_key_exchange E slot id s u p).
Proof.
  unfold finish_key_exchange. en. en. en. en. en. en. apply (errs_bind _ nonew_pre); [apply nonew_of; unfold verify_key_exchange_sig; dd (@None (option N)) (@None N)|intro]. en. en. en.
  apply (errs_bind _ nonew_pre); [apply nonew_of; unfold swhen; destruct (negb _); dd (@None (option N)) (@None N)|intro].
  apply errs_never. apply never_bind; [apply never_on_mod|intros _]. apply never_when, never_mod.
Qed.
Lemma errs_kx E slot t : errs nonew (key_exchange_req E slot t).
Proof.
  unfold key_exchange_req. en. en. en. apply (errs_bind _ nonew_pre); [nn|intros _]. apply (errs_bind _ nonew_pre); [apply nonew_of; unfold encode_key_exchange; dd (@None (option N)) (@None N)|intro ks]. en. en.
  unfold handle_key_exchange_rsp, set_summary. en. apply (errs_on_response _ nonew_pre); [intro r|apply nonew_of, dk_error_main]. apply (errs_reading _ nonew_pre). intros p u.
  en. en. en. cbv zeta. apply (errs_bind _ nonew_pre); [apply nonew_open_kx|intros _].
  intros x e x' H. unfold sbind in H. destruct (finish_key_exchange _ _ _ _ _ _ x) as [[v|f|] y] eqn:F; [unfold sret in H; discriminate| |discriminate]. replace x' with y by congruence. exact (errs_finish_kx _ _ _ _ _ _ _ _ _ F).
Qed.
Lemma nonew_abandon {A} id e : rel nonew (@req_abandon A id e).
Proof. apply nonew_of, dk_abandon. Qed.
Lemma errs_or_teardown_if {A} id (m : st ctx A) : errs nonew m -> errs nonew (or_teardown_if id m).
Proof.
  intros M x e x' H. unfold or_teardown_if, scatch in H. destruct (m x) as [[a|f|] y] eqn:F; [unfold sret in H; discriminate| |unfold spanic in H; discriminate].
  apply M in F. apply (proj2 nonew_pre _ _ _ F). rewrite bind_get in H. destruct (get_sess id y); [exact (nonew_abandon _ _ _ _ _ H)|]. unfold serr in H. replace x' with y by congruence. apply nonew_pre.
Qed.
Lemma nonew_or_teardown {A} id (m : st ctx A) : rel nonew m -> rel nonew (or_teardown id m).
Proof.
  intros M x r x' H. unfold or_teardown, scatch in H. destruct (m x) as [[a|f|] y] eqn:F; apply M in F; apply (proj2 nonew_pre _ _ _ F).
  - unfold sret in H. replace x' with y by congruence. apply nonew_pre.
  - exact (nonew_abandon _ _ _ _ _ H).
  - unfold spanic in H. replace x' with y by congruence. apply nonew_pre.
Qed.
Lemma errs_finish E rs id : errs nonew (finish_req E rs id).
Proof.
  unfold finish_req. en. cbv zeta. apply (errs_bind _ nonew_pre). { destruct rs as [s|]; [|apply (rel_ret _ nonew_pre)]. destruct (_ <=? _); [apply (rel_err _ nonew_pre)|]. destruct (slot_of _ _); [apply (rel_ret _ nonew_pre)|apply (rel_err _ nonew_pre)]. }
  intro slot. en. apply (errs_bind _ nonew_pre); [nn|intros _]. apply (errs_bind _ nonew_pre); [apply nonew_or_teardown, nonew_of; unfold encode_finish, finish_signature; dd (@None (option N)) (@None N)|intro w].
  apply (errs_bind _ nonew_pre); [apply nonew_or_teardown, nonew_of; destruct (in_clear _); dd (@None (option N)) (@None N)|intros _].
  apply (errs_bind _ nonew_pre); [apply nonew_or_teardown, nonew_of; destruct (in_clear _); dd (@None (option N)) (@None N)|intro b].
  apply errs_or_teardown_if. unfold handle_finish_rsp. en. en. unfold on_response_any. destruct (read_header b) as [[h r]|]; [|apply errs_rel, (rel_err _ nonew_pre)].
  unfold on_code. destruct (_ =? _); [|apply errs_rel; destruct (_ =? _); [apply nonew_of, dk_error_main|apply (rel_err _ nonew_pre)]].
  apply (errs_reading _ nonew_pre). intros p u. en. apply (errs_bind _ nonew_pre); [apply nonew_of; destruct (in_clear _); dd (@None (option N)) (@None N)|intros _]. en. en.
  apply errs_never. apply never_bind; [apply never_on_mod|intros _; apply never_mod].
Qed.
Lemma errs_psk_finish E id : errs nonew (psk_finish_req E id).
Proof.
  unfold psk_finish_req. en. en. apply (errs_bind _ nonew_pre); [nn|intros _]. apply (errs_bind _ nonew_pre); [apply nonew_or_teardown, nonew_of; unfold encode_psk_finish; dd (@None (option N)) (@None N)|intro w].
  apply (errs_bind _ nonew_pre); [apply nonew_or_teardown; nn|intros _]. apply (errs_bind _ nonew_pre); [apply nonew_or_teardown; nn|intro b].
  apply errs_or_teardown_if. unfold handle_psk_finish_rsp. apply (errs_on_response _ nonew_pre); [intro r|apply nonew_of, dk_error_main]. apply (errs_reading _ nonew_pre). intros p u. en. en. en. en.
  apply errs_never, never_on_mod.
Qed.

(** ** PSK_EXCHANGE *)
Definition psk_first (E : env) (id : N) (s used : bytes) (p : psk_ex_rsp) : st ctx ctx :=
  (x <-- sget ;;
   hash <-- sunwrap (hash_size (n_hash (x_nego x))) ;;
   u <-- sof (drop_last hash used) ;;
   append_k (e_cr E) id s ;;;
   append_k (e_cr E) id u ;;;
   th1 <-- calc_th (e_cr E) id ;;
   on_sess id (generate_handshake_secret (e_cr E) (ver x) th1) ;;;
   check_rsp_hmac E id (v_bytes (pr_verify p)) ;;; sret x)%st.
Definition psk_rest (E : env) (id : N) (p : psk_ex_rsp) (x : ctx) : st ctx unit :=
  (on_sess id (smod (set_s_state SHandshaking)) ;;;
   swhen (psk_no_ctx (xc x))
     (th2 <-- calc_th (e_cr E) id ;;
      on_sess id (generate_data_secret (e_cr E) (ver x) th2) ;;;
      on_sess id (smod (set_s_state SEstablished))) ;;;
   on_sess id (smod (fun s => set_s_heartbeat (pr_heartbeat p)
     (set_s_secver (req_secure_version (xc x) (pr_opaque p)) s))))%st.
Lemma bind_assoc3 {S A B C} (m : st S A) (f : A -> st S B) (g : B -> st S C) x : sbind (sbind m f) g x = sbind m (fun a => sbind (f a) g) x.
Proof. unfold sbind. destruct (m x) as [[?| |] ?]; reflexivity. Qed.
Lemma bind_ext {S A B} (m : st S A) (k k' : A -> st S B) x : (forall a y, k a y = k' a y) -> sbind m k x = sbind m k' x.
Proof. intro H. unfold sbind. destruct (m x) as [[?| |] ?]; [apply H|reflexivity|reflexivity]. Qed.
Lemma psk_two E id s u p z : finish_psk_exchange E id s u p z = sbind (psk_first E id s u p) (psk_rest E id p) z.
Proof.
  unfold finish_psk_exchange, psk_first. repeat (rewrite bind_assoc3; apply bind_ext; intros ? ?). reflexivity.
Qed.
Lemma psk_first_ok E id s used p z s0 x0 z' : get_sess id z = Some s0 -> psk_first E id s used p z = (Ok x0, z') ->
  forall body, used = body ++ v_bytes (pr_verify p) -> Some (len (v_bytes (pr_verify p))) = hash_size (n_hash (x_nego z)) -> s_hash s0 = n_hash (x_nego z) ->
  exists th1 ss, let t0 := th_base s0 ++ s ++ body in x0 = z /\ get_sess id z' = Some ss /\ fixed_of ss = fixed_of s0 /\
    cr_hash (e_cr E) (n_hash (x_nego z)) t0 = Some th1 /\ handshake_keys (e_cr E) (ver z) ss th1 (s_hs ss) /\ s_th ss = Some (t0 ++ v_bytes (pr_verify p)) /\
    cr_hmac_verify (e_cr E) (n_hash (x_nego z)) (h_rsp_fin (s_hs ss)) th1 (v_bytes (pr_verify p)) = true /\ env_of z' = env_of z.
Proof.
  intros G H body Eu Lm Hh. set (mac := v_bytes (pr_verify p)) in *. unfold psk_first in H. bg H. bi H. apply unwrap_inv in P as [N1 ->].
  bi H. apply of_inv in P as [Dl ->].
  assert (v0 = body) as -> by (rewrite Eu, drop_last_app in Dl; congruence).
  clear Dl. bi H. destruct (append_k_ok _ _ _ _ _ _ _ G P) as [Z1 G1]. clear P. bi H. destruct (append_k_ok _ _ _ _ _ _ _ G1 P) as [Z2 G2]. clear P.
  set (s2 := set_s_th (Some (th_base (set_s_th (Some (th_base s0 ++ s)) s0) ++ body)) (set_s_th (Some (th_base s0 ++ s)) s0)) in *.
  assert (T2 : s_th s2 = Some (th_base s0 ++ s ++ body)) by (unfold s2, th_base at 1; cbn [s_th set_s_th]; rewrite <- app_assoc; reflexivity).
  assert (F2 : fixed_of s2 = fixed_of s0) by reflexivity. assert (Hs2 : s_hash s2 = s_hash s0) by reflexivity.
  clearbody s2. assert (Ez : env_of y0 = env_of z) by (rewrite Z2, Z1; reflexivity). clear Z1 Z2 G1 y.
  bi H. apply (calc_inv _ _ _ _ _ _ G2) in P as (-> & t & T & Hv). assert (t = th_base s0 ++ s ++ body) as -> by congruence.
  bi H. apply (on_ok _ _ _ _ _ _ G2) in P as (s4 & K4 & Z4). apply handshake_ok in K4 as (Hk & S4 & _).
  assert (I4 : s_id s4 = s_id s2) by (rewrite S4; reflexivity). assert (T4 : s_th s4 = Some (th_base s0 ++ s ++ body)) by (rewrite S4; exact T2).
  assert (F4 : fixed_of s4 = fixed_of s0) by (rewrite <- F2, S4; reflexivity).
  match type of Hk with handshake_keys _ _ _ ?th _ => rename th into th1 end.
  assert (Hk4 : handshake_keys (e_cr E) (ver z) s4 th1 (s_hs s4)). { apply (handshake_fixed _ _ _ _ _ Hk). rewrite S4. reflexivity. }
  assert (H4 : s_hash s4 = n_hash (x_nego z)) by (unfold fixed_of in F4; congruence).
  clear Hk. pose proof (put_get id y0 _ s4 G2 I4) as G4. rewrite <- Z4 in G4. assert (Ey : env_of y = env_of z) by (rewrite Z4; exact Ez). clear S4 Z4.
  bi H. apply (check_hmac_ok _ _ _ _ _ _ _ G4) in P as (t5 & h5 & E5 & E6 & E7 & Z5). assert (t5 = th_base s0 ++ s ++ body) as -> by congruence.
  rewrite H4 in E6, E7. rewrite Hs2, Hh in Hv. assert (h5 = th1) as -> by congruence. apply ret_inv in H as [H ->].
  match type of Z5 with _ = mod_sess _ (fun _ => ?w) _ => exists th1, w end. cbv zeta. split; [congruence|]. split; [rewrite Z5; apply (put_get _ _ s4); [exact G4|reflexivity]|].
  split; [rewrite <- F4; reflexivity|]. split; [exact Hv|]. split; [apply (handshake_fixed s4); [exact Hk4|reflexivity]|]. split; [reflexivity|]. split; [exact E7|]. rewrite Z5. exact Ey.
Qed.
Definition kept (s s' : session) : Prop := fixed_of s' = fixed_of s /\ s_hs s' = s_hs s /\ s_th s' = s_th s /\ s_state s' = s_state s.
Lemma kept_pre : preorder kept.
Proof. split; unfold kept; intuition congruence. Qed.
Lemma kept_data cr v th : rel kept (generate_data_secret cr v th).
Proof. unfold generate_data_secret. rl kept_pre; try (apply rel_mod; intro; repeat split; reflexivity). Qed.
Lemma on_run {A} id (m : st session A) z s r z' : get_sess id z = Some s -> on_sess id m z = (r, z') ->
  exists s', m s = (r, s') /\ z' = mod_sess id (fun _ => s') z.
Proof. intros G H. unfold on_sess in H. rewrite G in H. destruct (m s) as [r' s'] eqn:M. exists s'. split; congruence. Qed.
Lemma data_fixed cr v s s' th K : data_keys cr v s th K -> fixed_of s' = fixed_of s -> data_keys cr v s' th K.
Proof.
  unfold fixed_of, data_keys, from_secret. intros H F. assert (F1 : s_use_psk s' = s_use_psk s) by congruence. assert (F2 : s_psk_hint s' = s_psk_hint s) by congruence.
  assert (F3 : s_hash s' = s_hash s) by congruence. assert (F4 : s_aead s' = s_aead s) by congruence. assert (F5 : s_master s' = s_master s) by congruence.
  rewrite F1, F2, F3, F4, F5. exact H.
Qed.
Lemma psk_rest_run E id p x0 z s1 r z' : get_sess id z = Some s1 -> psk_rest E id p x0 z = (r, z') -> 
  exists ss, get_sess id z' = Some ss /\ fixed_of ss = fixed_of s1 /\ s_hs ss = s_hs s1 /\ s_th ss = s_th s1 /\
    (s_state ss = SHandshaking \/ psk_no_ctx (xc x0) = true /\ s_state ss = SEstablished /\
       exists t th2, s_th s1 = Some t /\ cr_hash (e_cr E) (s_hash s1) t = Some th2 /\ data_keys (e_cr E) (ver x0) ss th2 (s_app ss)) /\
    (r = Ok tt -> s_state ss = if psk_no_ctx (xc x0) then SEstablished else SHandshaking).
Proof.
  intros G H. unfold psk_rest in H. unfold sbind at 1 in H. unfold on_sess at 1 in H. rewrite G in H. unfold smod at 1 in H.
  set (s2 := set_s_state SHandshaking s1) in *. assert (G2 := put_get id z s1 s2 G eq_refl). set (z2 := mod_sess id (fun _ => s2) z) in *.
  assert (A1 : fixed_of s2 = fixed_of s1) by reflexivity. assert (A2 : s_hs s2 = s_hs s1) by reflexivity. assert (A3 : s_th s2 = s_th s1) by reflexivity. assert (A4 : s_state s2 = SHandshaking) by reflexivity.
  assert (A5 : s_hash s2 = s_hash s1) by reflexivity. clearbody s2. clearbody z2. unfold sbind at 1 in H.
  match type of H with (let (_, _) := ?m z2 in _) = _ => destruct (m z2) as [r3 z3] eqn:M end.
  assert (K : exists s3, get_sess id z3 = Some s3 /\ fixed_of s3 = fixed_of s1 /\ s_hs s3 = s_hs s1 /\ s_th s3 = s_th s1 /\
    (s_state s3 = SHandshaking \/ psk_no_ctx (xc x0) = true /\ s_state s3 = SEstablished /\
       exists t th2, s_th s1 = Some t /\ cr_hash (e_cr E) (s_hash s1) t = Some th2 /\ data_keys (e_cr E) (ver x0) s3 th2 (s_app s3)) /\
    (r3 = Ok tt -> s_state s3 = if psk_no_ctx (xc x0) then SEstablished else SHandshaking)).
  { clear H. unfold swhen in M. destruct (psk_no_ctx (xc x0)).
    - unfold sbind at 1 in M. destruct (calc_th (e_cr E) id z2) as [[th2|e|] y] eqn:Ct.
      + apply (calc_inv _ _ _ _ _ _ G2) in Ct as (-> & t & T & Hh). unfold sbind in M. destruct (on_sess id (generate_data_secret (e_cr E) (ver x0) th2) z2) as [r4 z4] eqn:Ds.
        apply (on_run _ _ _ _ _ _ G2) in Ds as (s4 & D4 & Z4). pose proof (kept_data _ _ _ _ _ _ D4) as (B1 & B2 & B3 & B4). assert (I4 : s_id s4 = s_id s2) by (unfold fixed_of in B1; congruence).
        assert (G4 := put_get id z2 s2 s4 G2 I4). rewrite <- Z4 in G4. destruct r4 as [[]|e|].
        * apply (on_run _ _ _ _ _ _ G4) in M as (s5 & M5 & Z5). unfold smod in M5. assert (s5 = set_s_state SEstablished s4) as -> by congruence. assert (R5 : r3 = Ok tt) by congruence. clear M5.
          exists (set_s_state SEstablished s4). split; [rewrite Z5; apply (put_get _ _ s4 _ G4); reflexivity|]. split; [change (fixed_of s4 = fixed_of s1); congruence|]. split; [change (s_hs s4 = s_hs s1); congruence|]. split; [change (s_th s4 = s_th s1); congruence|].
          split; [|reflexivity]. right. split; [reflexivity|]. split; [reflexivity|]. exists t, th2. split; [congruence|]. split; [congruence|].
          apply data_ok in D4 as (D4 & _). apply (data_fixed _ _ s2); [exact D4|]. change (fixed_of s4 = fixed_of s2). exact B1.
        * exists s4. assert (z3 = z4) as -> by congruence. split; [exact G4|]. split; [congruence|]. split; [congruence|]. split; [congruence|]. split; [left; congruence|congruence].
        * exists s4. assert (z3 = z4) as -> by congruence. split; [exact G4|]. split; [congruence|]. split; [congruence|]. split; [congruence|]. split; [left; congruence|congruence].
      + assert (y = z2 /\ z3 = y) as [-> ->]. { split; [|congruence]. unfold calc_th, the_sess, sbind, sof in Ct. rewrite G2 in Ct. congruence. } exists s2. split; [exact G2|]. split; [exact A1|]. split; [exact A2|]. split; [exact A3|]. split; [left; exact A4|congruence].
      + assert (y = z2 /\ z3 = y) as [-> ->]. { split; [|congruence]. unfold calc_th, the_sess, sbind, sof in Ct. rewrite G2 in Ct. congruence. } exists s2. split; [exact G2|]. split; [exact A1|]. split; [exact A2|]. split; [exact A3|]. split; [left; exact A4|congruence].
    - unfold sret in M. assert (z3 = z2) as -> by congruence. exists s2. split; [exact G2|]. split; [exact A1|]. split; [exact A2|]. split; [exact A3|]. split; [left; exact A4|intros _; exact A4]. }
  destruct K as (s3 & G3 & B1 & B2 & B3 & B4 & B5). clear M. destruct r3 as [[]|e|].
  - apply (on_run _ _ _ _ _ _ G3) in H as (s5 & M5 & Z5). unfold smod in M5. match type of M5 with (_, ?w) = _ => assert (S5 : s5 = w) by congruence end. assert (R5 : r = Ok tt) by congruence. clear M5.
    assert (C : fixed_of s5 = fixed_of s3 /\ s_hs s5 = s_hs s3 /\ s_th s5 = s_th s3 /\ s_state s5 = s_state s3 /\ s_app s5 = s_app s3 /\ s_id s5 = s_id s3) by (rewrite S5; repeat split; reflexivity). clear S5. destruct C as (C1 & C2 & C3 & C4 & C5 & C6).
    exists s5. split; [rewrite Z5; apply (put_get _ _ s3 _ G3); exact C6|]. split; [congruence|]. split; [congruence|]. split; [congruence|]. rewrite C4, C5. split; [|intros _; apply B5; reflexivity].
    destruct B4 as [B4|(B4 & B4' & t & th2 & B6 & B7 & B8)]; [auto|]. right. split; [exact B4|]. split; [exact B4'|]. exists t, th2. split; [exact B6|]. split; [exact B7|]. apply (data_fixed _ _ s3); assumption.
  - exists s3. assert (z' = z3) as -> by congruence. split; [exact G3|]. split; [exact B1|]. split; [exact B2|]. split; [exact B3|]. split; [exact B4|congruence].
  - exists s3. assert (z' = z3) as -> by congruence. split; [exact G3|]. split; [exact B1|]. split; [exact B2|]. split; [exact B3|]. split; [exact B4|congruence].
Qed.
Lemma upd_mid id f l1 s l2 : s_id s = id -> (forall t, In t l1 -> s_id t <> id) -> upd_sess id f (l1 ++ s :: l2) = l1 ++ f s :: l2.
Proof. intros I U. rewrite upd_app by exact U. f_equal. cbn [upd_sess]. rewrite I, N.eqb_refl. reflexivity. Qed.
Lemma open_psk_ok E id hint z u z' l1 s l2 : x_sess z = l1 ++ s :: l2 -> s_id s = 0 -> (forall t, In t l1 -> s_id t <> 0) -> (forall t, In t l1 -> s_id t <> id) ->
  req_open_psk_session E id hint z = (Ok u, z') ->
  exists s0, get_sess id z' = Some s0 /\ s_id s0 = id /\ s_use_psk s0 = true /\ s_psk_hint s0 = Some (v_bytes hint) /\ s_hash s0 = n_hash (x_nego z) /\ s_aead s0 = n_aead (x_nego z) /\
    th_base s0 = x_msg_a z /\ env_of z' = env_of z /\ x_sess z' = l1 ++ s0 :: l2.
Proof.
  intros S Z U U' H. unfold req_open_psk_session in H. bg H. destruct (get_sess 0 z) as [sz|]; [|discriminate]. clear sz. bi H. apply (setup_first _ _ _ _ _ _ _ S Z U) in P as [_ ->].
  set (s1 := set_s_id id (session_set_default s)) in *. assert (I1 : s_id s1 = id) by reflexivity. assert (T1 : s_th s1 = None) by reflexivity. clearbody s1.
  apply mod_inv in H. match type of H with z' = mod_sess _ ?f _ => set (g := f) in * end. set (s0 := g s1).
  assert (A : s_id s0 = id) by exact I1. assert (A0 : th_base s0 = x_msg_a z). { unfold th_base. assert (K1 : s_th s0 = None) by exact T1. assert (K2 : s_msg_a s0 = x_msg_a z) by reflexivity. assert (K3 : s_rsp_hash s0 = None) by reflexivity. rewrite K1, K2, K3. apply app_nil_r. }
  assert (A1 : s_use_psk s0 = true) by reflexivity. assert (A2 : s_psk_hint s0 = Some (v_bytes hint)) by reflexivity. assert (A3 : s_hash s0 = n_hash (x_nego z)) by reflexivity. assert (A4 : s_aead s0 = n_aead (x_nego z)) by reflexivity.
  assert (Sx : x_sess z' = l1 ++ s0 :: l2). { rewrite H. unfold mod_sess. cbn [x_sess set_x_sess]. rewrite (upd_mid id g l1 s1 l2 I1 U'). reflexivity. }
  assert (Ee : env_of z' = env_of z) by (rewrite H; reflexivity). clearbody s0. exists s0. split; [exact (get_new _ _ _ _ _ Sx U' A)|]. auto 10.
Qed.
Lemma dec_psk_split c r p rest : dec_psk_ex_rsp c r = POk p rest ->
  exists pre, r = pre ++ v_bytes (pr_verify p) ++ rest /\ Some (len (v_bytes (pr_verify p))) = hash_size (n_hash (c_nego c)).
Proof.
  intro H. unfold dec_psk_ex_rsp in H. do 5 dsp H. gsp H. gsp H. dsp H. gsp H. do 3 dsp H.
  apply dbind_ok in H as (v & mb & D7 & H). apply dret_ok in H as [-> ->]. cbn [pr_verify].
  apply dec_digest_split in D7 as (h & K1 & K2 & K3). rewrite Q, Q0, Q1, Q2, Q3, Q4, Q5, Q6, Q7, K3. exists (u ++ u0 ++ u1 ++ u2 ++ u3 ++ u4 ++ u5 ++ u6 ++ u7). split; [rewrite <- !app_assoc; reflexivity|]. rewrite K1, K2. reflexivity.
Qed.
Lemma xch8 v : xcount (x_u8 v) = 1. Proof. unfold x_u8. rewrite xcount_of, CodecProofs.wire_u8. reflexivity. Qed.
Lemma xch16 v : xcount (x_u16 v) = 2. Proof. unfold x_u16. rewrite xcount_of, CodecProofs.wire_u16. reflexivity. Qed.
Lemma encode_psk_ok E h t hint x s y : encode_psk_exchange E h t hint x = (Ok s, y) ->
  exists context opaque, Some (len context) = hash_size (n_hash (x_nego x)) /\
    s = psk_exchange_message (ver x) t h hint context opaque /\ env_of y = env_of x /\ x_sess y = x_sess x.
Proof.
  intro H. unfold encode_psk_exchange in H. bi H.
  assert (Xy : env_of y0 = env_of x /\ x_sess y0 = x_sess x /\ forall w, v = Some w -> length w = 64%nat).
  { unfold get_random in P. split; [|split]; try (match type of P with (_, ?z) = _ => replace y0 with z by congruence end; reflexivity).
    intros w ->. destruct (cr_random _ _ _) as [w'|]; [|discriminate P]. destruct (Nat.eqb_spec (length w') 64); [|discriminate P]. congruence. }
  destruct Xy as (X1 & X2 & X3). clear P. bi H. apply ok_inv in P as [Nn ->]. bg H. bi H. apply of_inv in P as [Op ->]. bi H. apply unwrap_inv in P as [Hs ->].
  pose proof (q_enc _ _ _ _ H) as ->.
  assert (C : xc y0 = xc x) by (unfold env_of in X1; congruence). assert (Cn : x_nego y0 = x_nego x) by (apply (f_equal c_nego) in C; exact C). assert (Vy : ver y0 = ver x) by (unfold ver; rewrite Cn; reflexivity).
  assert (Vo : v_size v1 = len (v_bytes v1)).
  { unfold req_opaque in Op. destruct (_ <? _); [|destruct (_ =? _); [|discriminate Op]]; injection Op as <-; vm_compute; reflexivity. }
  exists (v_bytes (mkV v2 v0)), (v_bytes v1). specialize (X3 _ Nn). rewrite Cn in Hs.
  assert (Lh : len (v_bytes (mkV v2 v0)) = v2).
  { unfold v_bytes. cbn [v_size v_data]. unfold len. rewrite firstn_length, X3. assert (v2 <= 64); [|lia]. clear - Hs. unfold hash_size in Hs. destruct (n_hash (x_nego x)) as [|[[?|?|]|[?|[?|?|]|]|]]; try discriminate Hs; injection Hs as <-; lia. }
  split; [rewrite Lh; congruence|]. split; [|split; [exact X1|exact X2]]. clear Op X1 X2. rewrite Vy in H.
  refine (req_enc_exact _ _ _ _ _ _ _ H); rewrite C; unfold enc_message; cbn [m_header m_payload]; unfold enc_header, enc_payload, enc_psk_ex;
    cbn [h_version h_code px_hash_type px_session px_hint px_context px_opaque v_size]; unfold x_arr; unfold psk_exchange_message; rewrite Lh.
  - rewrite !xwire_app, !xwh8, !xwh16, !xwire_of, !CodecProofs.wire_arr, Vo. reflexivity.
  - rewrite !xcount_app, !xch8, !xch16, !xcount_of, !CodecProofs.wire_arr. rewrite !len_app. unfold len. rewrite !le_bytes_length. cbn [length]. lia.
Qed.
Lemma on_response_run {A} c b (k : bytes -> st ctx A) x r x' : on_response c None b k x = (r, x') ->
  nonew x x' /\ (forall a, r <> Ok a) \/ exists w, b = ver x :: c :: w /\ k w x = (r, x').
Proof.
  intro H. unfold on_response in H. rewrite bind_get in H. destruct (read_header b) as [[h w]|] eqn:Hd; [|left; unfold serr in H; replace x' with x by congruence; split; [apply nonew_pre|congruence]].
  apply read_header_some in Hd. destruct (N.eqb_spec (h_version h) (ver x)) as [V|]; cbn [negb] in H; [|left; unfold serr in H; replace x' with x by congruence; split; [apply nonew_pre|congruence]].
  unfold on_code in H. destruct (N.eqb_spec (h_code h) c) as [C|]; [right; exists w; split; [congruence|exact H]|]. left. destruct (_ =? _).
  - split; [exact (nonew_of _ (dk_error_main None None None b) _ _ _ H)|]. intros a ->. exact (error_main_ok _ _ _ _ _ H).
  - unfold serr in H. replace x' with x by congruence; split; [apply nonew_pre|congruence].
Qed.
Lemma reading_run {P A} (d : cctx -> dec P) b r (k : P -> bytes -> st ctx A) x o x' : reading d b r k x = (o, x') ->
  x' = x /\ (forall a, o <> Ok a) \/ exists p rest, d (xc x) r = POk p rest /\ k p (used_of b rest) x = (o, x').
Proof.
  unfold reading. intro H. unfold sbind in H. destruct (rd d r x) as [v y] eqn:R. pose proof (rd_state _ _ _ _ _ R). subst y. unfold rd in R. destruct (d (xc x) r) as [p rest| |].
  - assert (v = Ok (Some (p, rest))) as -> by congruence. right. exists p, rest. auto.
  - assert (v = Ok None) as -> by congruence. left. unfold serr in H. split; congruence.
  - assert (v = Panic) as -> by congruence. left. split; congruence.
Qed.
(** the outcome of a PSK_EXCHANGE: no session becomes usable, or the exchange verified *)
Lemma handle_psk_run E h t hint s b z r z' : rtok z -> get_next_half_session_id true z = Ok h ->
  handle_psk_exchange_rsp E h t hint s b z = (r, z') ->
  nonew z z' /\ (forall a, r <> Ok a) \/
  exists body mac rest p ss th1 id,
    let c := asked (OPskExchange t hint) z in let t0 := x_msg_a z ++ s ++ [ver z; 0x66] ++ body in
    b = ver z :: 0x66 :: body ++ mac ++ rest /\
    dec_psk_ex_rsp c (body ++ mac ++ rest) = POk p rest /\ id = session_id (pr_session p) h /\
    get_sess id z = None /\ get_sess id z' = Some ss /\ s_use_psk ss = true /\ s_psk_hint ss = Some (v_bytes hint) /\
    s_hash ss = n_hash (x_nego z) /\ s_aead ss = n_aead (x_nego z) /\
    cr_hash (e_cr E) (n_hash (x_nego z)) t0 = Some th1 /\
    handshake_keys (e_cr E) (ver z) ss th1 (s_hs ss) /\ s_th ss = Some (t0 ++ mac) /\
    Some (len mac) = hash_size (n_hash (x_nego z)) /\
    cr_hmac_verify (e_cr E) (n_hash (x_nego z)) (h_rsp_fin (s_hs ss)) th1 mac = true /\
    (s_state ss = SHandshaking \/
     psk_no_ctx c = true /\ s_state ss = SEstablished /\
       exists th2, cr_hash (e_cr E) (n_hash (x_nego z)) (t0 ++ mac) = Some th2 /\ data_keys (e_cr E) (ver z) ss th2 (s_app ss)) /\
    (forall a, r = Ok a -> a = id /\ s_state ss = if psk_no_ctx c then SEstablished else SHandshaking) /\
    (forall ss, In ss (x_sess z') -> s_id ss <> 0 -> s_state ss <> SNotStarted -> s_id ss <> id -> exists s, In s (x_sess z) /\ s_id s = s_id ss /\ s_state s = s_state ss).
Proof.
  intros T Nh H. unfold handle_psk_exchange_rsp, set_summary in H. unfold sbind at 1 in H. unfold smod at 1 in H. set (y := set_x_need_sum _ z) in *.
  assert (Xc : xc y = asked (OPskExchange t hint) z) by reflexivity. assert (Xs : x_sess y = x_sess z) by reflexivity.
  assert (Xn : x_nego y = x_nego z) by reflexivity. assert (Xa : x_msg_a y = x_msg_a z) by reflexivity. clearbody y. assert (Xv : ver y = ver z) by (unfold ver; rewrite Xn; reflexivity).
  assert (Nz : forall w, nonew y w -> nonew z w) by (intros w K ss; unfold nonew in K; rewrite <- Xs; apply K).
  apply on_response_run in H as [[H Hr]|(rr & Eb & H)]; [left; split; [apply Nz, H|exact Hr]|]. apply reading_run in H as [[-> Hr]|(p & rest & D & H)]; [left; split; [apply Nz, nonew_pre|exact Hr]|].
  pose proof D as D0. apply dec_psk_split in D0 as (pre & N1 & N2). set (mac := v_bytes (pr_verify p)) in *. cbv zeta in H.
  destruct (half_fresh _ _ (pr_session p) T Nh) as (l1 & s1 & l2 & S & Z & U & U' & Nzi). set (i := session_id (pr_session p) h) in *.
  unfold sbind at 1 in H. destruct (req_open_psk_session E i hint y) as [[[]|e|] y0] eqn:O.
  2,3: left; apply (nonew_open_psk) in O; assert (z' = y0) as -> by congruence; split; [apply Nz, O|congruence].
  rewrite S in Xs. pose proof (nonew_open_psk _ _ _ _ _ _ O) as Nop.
  apply (open_psk_ok _ _ _ _ _ _ _ _ _ Xs Z U) in O as (s0 & G0 & I0 & O1 & O2 & O3 & O4 & O5 & O6 & O7); [|intros; apply U'; apply in_or_app; auto].
  assert (Xz : x_nego y0 = x_nego z /\ xc y0 = xc y /\ ver y0 = ver z).
  { unfold env_of in O6. assert (C : xc y0 = xc y) by congruence. assert (C0 : x_nego y0 = x_nego z) by (rewrite <- Xn; apply (f_equal c_nego) in C; exact C). unfold ver. rewrite C0. auto. }
  destruct Xz as (Zn & Zc & Zv).
  assert (Eu : used_of b rest = (ver z :: 0x66 :: pre) ++ mac). { apply used_split. rewrite Eb, N1, Xv. rewrite <- !app_assoc. reflexivity. }
  rewrite Eu in H. rewrite Xc in N2. cbn [asked c_nego] in N2.
  unfold sbind at 1 in H. rewrite psk_two in H. unfold sbind at 1 in H. destruct (psk_first _ _ _ _ _ y0) as [[x0|e|] y1] eqn:F1.
  2,3: left; assert (Hf : nonew y0 y1) by (revert F1; apply nonew_of; unfold psk_first; dd (@None (option N)) (@None N)); assert (z' = y1) as -> by congruence;
       split; [apply Nz; exact (proj2 nonew_pre _ _ _ Nop Hf)|congruence].
  assert (Df : dk None None y0 y1) by (revert F1; unfold psk_first; apply rel_bind; [apply dk_pre|apply (rel_get _ (dk_pre _ _))|intro; dd (@None (option N)) (@None N)]).
  destruct (psk_first_ok _ _ _ _ _ _ _ _ _ G0 F1 (ver z :: 0x66 :: pre) eq_refl) as (th1 & ss1 & -> & P2 & P3 & P4 & P5 & P6 & P7 & P8); [fold mac; rewrite Zn; exact N2|rewrite Zn, O3, Xn; reflexivity|].
  fold mac in P6, P7. rewrite O5, Xa in P4, P6. rewrite Zn in P4, P7. rewrite Zv in P5.
  replace (x_msg_a z ++ s ++ ver z :: 0x66 :: pre) with (x_msg_a z ++ s ++ [ver z; 0x66] ++ pre) in P4, P6 by reflexivity.
  destruct (psk_rest E i p y0 y1) as [r2 z2] eqn:F2. pose proof F2 as F2'. apply (psk_rest_run _ _ _ _ _ _ _ _ P2) in F2 as (ss & R1 & R2 & R3 & R4 & R5 & R6).
  assert (z' = z2) as ->. { destruct r2; [unfold sret in H|..]; congruence. }
  assert (Dr : dk None (Some i) y1 z2). { revert F2'. unfold psk_rest. apply rel_bind; [apply dk_pre|apply dk_set_state; intro; split; reflexivity|intro]. ReqTable.ds i. }
  right. exists pre, mac, rest, p, ss, th1, i. cbv zeta. rewrite Zc, Xc in R5, R6. unfold fixed_of in R2, P3. rewrite Zv in R5.
  assert (Hh : s_hash ss1 = n_hash (x_nego z)) by (replace (s_hash ss1) with (s_hash s0) by congruence; congruence).
  split; [rewrite Eb, N1, Xv; reflexivity|]. split; [rewrite <- N1, <- Xc; exact D|]. split; [reflexivity|]. split; [apply none_of; rewrite S; exact U'|]. split; [exact R1|].
  split; [congruence|]. split; [congruence|]. split; [congruence|]. split; [congruence|]. split; [exact P4|].
  split; [apply (handshake_fixed ss1); [rewrite R3; exact P5|unfold fixed_of; congruence]|]. split; [rewrite R4, P6, <- !app_assoc; reflexivity|]. split; [exact N2|]. split; [rewrite R3; exact P7|].
  split. { destruct R5 as [R5|(R5 & R5' & tt & th2 & R7 & R8 & R9)]; [left; exact R5|]. right. split; [exact R5|]. split; [exact R5'|]. exists th2. split; [|exact R9]. rewrite <- Hh. rewrite P6 in R7. assert (tt = (x_msg_a z ++ s ++ [ver z; 0x66] ++ pre) ++ mac) as <- by congruence. exact R8. }
  split. { intros a ->. destruct r2 as [[]|e|]; [|discriminate|discriminate]. unfold sret in H. split; [congruence|]. apply R6. reflexivity. }
  intros ss' I Zi Sn Ni. destruct Dr as [Dr _]. destruct (Forall2_in_r _ _ _ _ Dr I) as (sa & Ia & [[K _]|(K1 & [K2|[K2|K2]] & _)]); [contradiction| |contradiction|injection K2 as K2; congruence].
  destruct (dk_nonew _ _ Df sa Ia) as (sb & Ib & L1 & L2); [congruence|congruence|]. destruct (Nz _ Nop sb Ib) as (sc & Ic & M1 & M2); [congruence|congruence|]. exists sc. split; [exact Ic|]. split; congruence.
Qed.
