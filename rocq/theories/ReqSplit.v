(** A successful operation: the request it sent, the response it got, and its handler's run. *)
From Verif Require Import Bytes BytesFacts Status Codec Parse ParseProofs Algo Monad.
From Verif Require Import MsgConn MsgAuth MsgSession MsgOther Message Opaque Transport Crypto KeySchedule Session Signing CertOps ChainVerify Context
  RspBase RspConn RspSess RspEncap Responder StRel RspFrame RspCalm RspOpcode RspPass RspEst ReqBase ReqConn ReqSess SpecReq ReqFrame ReqAnswer SpecSession SpecAuth ReqTrans.
From Verif Require Import MsgLocal.
From Coq Require Import Lia.
Local Open Scope N_scope.

(** the parsing context and the transcripts before the handler *)
Definition xk (x x' : ctx) : Prop := xc x' = xc x /\ x_peer_chain x' = x_peer_chain x.
Lemma xk_pre : preorder xk.
Proof. split; unfold xk; [auto|intuition congruence]. Qed.
Lemma keeps_xk x x' : keeps x x' -> xk x x'.
Proof. unfold keeps, xk. intros ->. split; reflexivity. Qed.
Lemma xk_on_sess {A} id (m : st session A) : rel xk (on_sess id m).
Proof. intros x r x' H. apply keeps_xk. exact (keeps_on_sess _ _ _ _ _ H). Qed.
Lemma xk_random cr n : rel xk (get_random cr n).
Proof. intros x r x' H. unfold get_random in H. match type of H with (_, ?z) = _ => replace x' with z by congruence end; split; reflexivity. Qed.
Lemma xk_append_f cr r id m : rel xk (append_f cr r id m).
Proof. unfold append_f. rl xk_pre; apply rel_mod; intro; split; reflexivity. Qed.
Lemma xk_reset_m sid x : xk x (reset_m sid x).
Proof. destruct sid; split; reflexivity. Qed.
Lemma xk_reset_buffer c sid x : xk x (reset_buffer c sid x).
Proof.
  unfold reset_buffer. cbv zeta. set (y := if c =? _ then x else _). assert (xk x y) as [A B] by (unfold y; destruct (_ =? _); [apply xk_pre|apply xk_reset_m]).
  clearbody y. destruct (existsb _ _); [destruct (_ <? _)|destruct (_ =? _)]; split; assumption.
Qed.
Ltac xx :=
  rl xk_pre;
  first [apply xk_append_f|apply xk_random|apply xk_on_sess|apply (rel_req_enc _ xk_pre)|apply rel_mod; intro; split; reflexivity|idtac].
Lemma xk_encode_finish E id slot : rel xk (encode_finish E id slot).
Proof. unfold encode_finish, finish_signature. xx. Qed.
Lemma xk_encode_psk_finish E id : rel xk (encode_psk_finish E id).
Proof. unfold encode_psk_finish. xx. Qed.
Lemma xk_encode_kx E r slot t : rel xk (encode_key_exchange E r slot t).
Proof. unfold encode_key_exchange. xx. Qed.
Lemma xk_encode_psk E r t h : rel xk (encode_psk_exchange E r t h).
Proof. unfold encode_psk_exchange. xx. Qed.

(** the transcripts when the handler starts *)
Definition begins (o : operation) (x z : ctx) : Prop :=
  match o with
  | OVersion | OCapabilities | OAlgorithms | OCertPart _ _ _ _ _ | OChallenge _ _ => tk x z
  | ODigests _ => tk (reset_b x) z
  | OVendor _ _ _ _ => tk (reset_context x) z
  | _ => True
  end.
Definition vendor (o : operation) : bool := match o with OVendor _ _ _ _ => true | _ => false end.
Definition split_run (E : env) (o : operation) (x x' : ctx) : Prop :=
  exists s half key b z, exchanged E (runs_in x o) x x' s b /\ on_answer E o s half key b z = (Ok tt, x') /\
    (vendor o = false -> xk x z) /\ begins o x z.
Lemma tk_trans x y z : tk x y -> tk y z -> tk x z.
Proof. exact (proj2 tk_pre x y z). Qed.
Lemma tk_refl x : tk x x.
Proof. exact (proj1 tk_pre x). Qed.
Lemma xk_trans x y z : xk x y -> xk y z -> xk x z.
Proof. exact (proj2 xk_pre x y z). Qed.
Lemma xk_refl x : xk x x.
Proof. exact (proj1 xk_pre x). Qed.
Lemma tk_conn_reset c x sid : existsb (N.eqb c) [RC_GET_VERSION; RC_GET_CAPABILITIES; RC_NEGOTIATE_ALGORITHMS; RC_GET_CERTIFICATE; RC_CHALLENGE; RC_VENDOR_REQ] = true ->
  tk x (reset_buffer c sid x).
Proof.
  cbn [existsb]. intro H. repeat (apply Bool.orb_prop in H as [H|H]); try discriminate; apply N.eqb_eq in H as ->;
   unfold reset_buffer; cbv zeta; destruct sid; repeat split; reflexivity.
Qed.
Lemma send_frames E sid s x u y : req_send_on E sid s x = (Ok u, y) -> tk x y /\ xk x y.
Proof. intro H. apply keeps_send_on in H. split; [apply keeps_tk|apply keeps_xk]; exact H. Qed.
Lemma recv_frames E sid c x u y : req_recv_on E sid c x = (Ok u, y) -> tk x y /\ xk x y.
Proof. intro H. apply keeps_recv_on in H. split; [apply keeps_tk|apply keeps_xk]; exact H. Qed.
Lemma drop_run {A} (m : st ctx A) x a x' : m x = (Ok a, x') -> drop m x = (Ok tt, x').
Proof. intro H. unfold drop, sbind. rewrite H. reflexivity. Qed.
Ltac chain T := repeat (first [exact T | eassumption | eapply tk_trans; [eassumption|]]).

Lemma split_version E x u x' : get_version E x = (Ok u, x') -> split_run E OVersion x x'.
Proof.
  unfold get_version. intro H. bi H. apply mod_inv in P as ->. bi H. apply q_enc in P as ->. bi H. bi H. destruct u.
  pose proof (quiet_handle_version _ _ _ _ _ H) as Q. destruct (send_frames E None _ _ _ _ P) as [S1 S2]. destruct (recv_frames E None _ _ _ _ P0) as [R1 R2].
  eexists _, 0, 0, _, _. split; [refine (exchanged_by E None false x _ _ _ _ _ _ _ x' _ P (q_refl _) P0 Q); apply quiet_reset_buffer|]. split; [exact H|]. split.
  - intros _. eapply xk_trans; [apply xk_reset_buffer|]. eapply xk_trans; eassumption.
  - cbn [begins]. eapply tk_trans; [exact (tk_conn_reset RC_GET_VERSION x None eq_refl)|]. eapply tk_trans; eassumption.
Qed.
Lemma split_capabilities E x u x' : get_capabilities E x = (Ok u, x') -> split_run E OCapabilities x x'.
Proof.
  unfold get_capabilities. intro H. bi H. apply mod_inv in P as ->. bg H. bi H. apply q_enc in P as ->. bi H. bi H. destruct u.
  pose proof (quiet_handle_capabilities _ _ _ _ _ H) as Q. destruct (send_frames E None _ _ _ _ P) as [S1 S2]. destruct (recv_frames E None _ _ _ _ P0) as [R1 R2].
  eexists _, 0, 0, _, _. split; [refine (exchanged_by E None false x _ _ _ _ _ _ _ x' _ P (q_refl _) P0 Q); apply quiet_reset_buffer|]. split; [exact H|]. split.
  - intros _. eapply xk_trans; [apply xk_reset_buffer|]. eapply xk_trans; eassumption.
  - cbn [begins]. eapply tk_trans; [exact (tk_conn_reset RC_GET_CAPABILITIES x None eq_refl)|]. eapply tk_trans; eassumption.
Qed.
Lemma split_algorithms E x u x' : negotiate_algorithms E x = (Ok u, x') -> split_run E OAlgorithms x x'.
Proof.
  unfold negotiate_algorithms. intro H. bi H. apply mod_inv in P as ->. bg H. bi H. apply q_enc in P as ->. bi H. bi H. destruct u.
  pose proof (quiet_handle_algorithms _ _ _ _ _ H) as Q. destruct (send_frames E None _ _ _ _ P) as [S1 S2]. destruct (recv_frames E None _ _ _ _ P0) as [R1 R2].
  eexists _, 0, 0, _, _. split; [refine (exchanged_by E None false x _ _ _ _ _ _ _ x' _ P (q_refl _) P0 Q); apply quiet_reset_buffer|]. split; [exact H|]. split.
  - intros _. eapply xk_trans; [apply xk_reset_buffer|]. eapply xk_trans; eassumption.
  - cbn [begins]. eapply tk_trans; [exact (tk_conn_reset RC_NEGOTIATE_ALGORITHMS x None eq_refl)|]. eapply tk_trans; eassumption.
Qed.
Lemma tk_digests x sid : tk (reset_b x) (reset_buffer RC_GET_DIGESTS sid x).
Proof. unfold reset_buffer. cbv zeta. destruct sid; repeat split; reflexivity. Qed.
Lemma split_digests E sid x u x' : get_digests E sid x = (Ok u, x') -> split_run E (ODigests sid) x x'.
Proof.
  unfold get_digests. intro H. bi H. apply mod_inv in P as ->. bg H. bi H. apply q_enc in P as ->. bi H. bi H. destruct u.
  pose proof (quiet_handle_digests _ _ _ _ _ _ _ H) as Q. destruct (send_frames E sid _ _ _ _ P) as [S1 S2]. destruct (recv_frames E sid _ _ _ _ P0) as [R1 R2].
  eexists _, 0, 0, _, _. split; [refine (exchanged_by E sid false x _ _ _ _ _ _ _ x' _ P (q_refl _) P0 Q); apply quiet_reset_buffer|]. split; [exact H|]. split.
  - intros _. eapply xk_trans; [apply xk_reset_buffer|]. eapply xk_trans; eassumption.
  - cbn [begins]. eapply tk_trans; [apply tk_digests|]. eapply tk_trans; eassumption.
Qed.
Lemma split_cert E sid a t o l x p x' : get_certificate_partial E sid a t o l x = (Ok p, x') -> split_run E (OCertPart sid a t o l) x x'.
Proof.
  unfold get_certificate_partial. intro H. bg H. bi H. apply q_enc in P as ->. bi H. bi H.
  pose proof (quiet_handle_certificate _ _ _ _ _ _ _ _ _ _ _ H) as Q. destruct (send_frames E sid _ _ _ _ P) as [S1 S2]. destruct (recv_frames E sid _ _ _ _ P0) as [R1 R2].
  eexists _, 0, 0, _, _. split; [exact (exchanged_by E sid false x _ _ _ _ _ _ _ x' (q_refl _) P (q_refl _) P0 Q)|]. split; [exact (drop_run _ _ _ _ H)|]. split.
  - intros _. eapply xk_trans; eassumption.
  - cbn [begins]. eapply tk_trans; eassumption.
Qed.
Lemma split_challenge E a t x p x' : challenge_req E a t x = (Ok p, x') -> split_run E (OChallenge a t) x x'.
Proof.
  unfold challenge_req. intro H. bi H. apply fail_inv in P as [_ ->]. bi H. apply mod_inv in P as ->. bi H. bi H. apply ok_inv in P0 as [_ ->].
  bg H. bi H. apply q_enc in P0 as ->. bi H. bi H. destruct p.
  pose proof (quiet_handle_challenge _ _ _ _ _ _ _ _ H) as Q. destruct (send_frames E None _ _ _ _ P0) as [S1 S2]. destruct (recv_frames E None _ _ _ _ P1) as [R1 R2].
  eexists _, 0, 0, _, _. split; [refine (exchanged_by E None true x _ _ _ _ _ _ _ x' _ P0 (q_refl _) P1 Q); eapply q_trans; [apply quiet_reset_buffer|]; exact (quiet_random _ _ _ _ _ P)|].
  split; [exact H|]. apply tk_random in P as T. apply xk_random in P as X. split.
  - intros _. eapply xk_trans; [apply xk_reset_buffer|]. eapply xk_trans; [eassumption|]. eapply xk_trans; eassumption.
  - cbn [begins]. eapply tk_trans; [exact (tk_conn_reset RC_CHALLENGE x None eq_refl)|]. eapply tk_trans; [eassumption|]. eapply tk_trans; eassumption.
Qed.
Lemma split_measurements E sid a t o x p x' : get_measurements E sid a t o x = (Ok p, x') -> split_run E (OMeasurements sid a t o) x x'.
Proof.
  unfold get_measurements. intro H. bi H. apply fail_inv in P as [_ ->]. bi H. apply mod_inv in P as ->. bi H. bi H. apply ok_inv in P0 as [_ ->].
  bg H. bi H. apply q_enc in P0 as ->. bi H. bi H.
  pose proof (quiet_handle_measurements _ _ _ _ _ _ _ _ _ _ H) as Q. destruct (send_frames E sid _ _ _ _ P0) as [S1 S2]. destruct (recv_frames E sid _ _ _ _ P1) as [R1 R2].
  eexists _, 0, 0, _, _. split; [refine (exchanged_by E sid true x _ _ _ _ _ _ _ x' _ P0 (q_refl _) P1 Q); eapply q_trans; [apply quiet_reset_buffer|]; exact (quiet_random _ _ _ _ _ P)|].
  split; [exact (drop_run _ _ _ _ H)|]. apply xk_random in P as X. split; [|exact I].
  intros _. eapply xk_trans; [apply xk_reset_buffer|]. eapply xk_trans; [eassumption|]. eapply xk_trans; eassumption.
Qed.
Lemma split_kx E a t x p x' : key_exchange_req E a t x = (Ok p, x') -> split_run E (OKeyExchange a t) x x'.
Proof.
  unfold key_exchange_req. intro H. bi H. apply fail_inv in P as [_ ->]. bg H. bi H. apply of_inv in P as [_ ->]. bi H. apply mod_inv in P as ->. bi H. bi H. bi H.
  pose proof (quiet_handle_kx _ _ _ _ _ _ _ _ _ _ H) as Q. destruct (send_frames E None _ _ _ _ P0) as [S1 S2]. destruct (recv_frames E None _ _ _ _ P1) as [R1 R2].
  eexists _, _, _, _, _. split; [refine (exchanged_by E None false x _ _ _ _ _ _ _ x' _ P0 (q_refl _) P1 Q); eapply q_trans; [apply quiet_reset_buffer|]; exact (quiet_encode_kx _ _ _ _ _ _ _ P)|].
  split; [exact (drop_run _ _ _ _ H)|]. apply xk_encode_kx in P as X. split; [|exact I].
  intros _. eapply xk_trans; [apply xk_reset_buffer|]. eapply xk_trans; [eassumption|]. eapply xk_trans; eassumption.
Qed.
Lemma split_psk E t h x p x' : psk_exchange_req E t h x = (Ok p, x') -> split_run E (OPskExchange t h) x x'.
Proof.
  unfold psk_exchange_req. intro H. bi H. apply mod_inv in P as ->. bg H. bi H. apply of_inv in P as [_ ->]. bi H. bi H. bi H.
  pose proof (quiet_handle_psk _ _ _ _ _ _ _ _ _ H) as Q. destruct (send_frames E None _ _ _ _ P0) as [S1 S2]. destruct (recv_frames E None _ _ _ _ P1) as [R1 R2].
  eexists _, _, 0, _, _. split; [refine (exchanged_by E None false x _ _ _ _ _ _ _ x' _ P0 (q_refl _) P1 Q); eapply q_trans; [apply quiet_reset_buffer|]; exact (quiet_encode_psk _ _ _ _ _ _ _ P)|].
  split; [exact (drop_run _ _ _ _ H)|]. apply xk_encode_psk in P as X. split; [|exact I].
  intros _. eapply xk_trans; [apply xk_reset_buffer|]. eapply xk_trans; [eassumption|]. eapply xk_trans; eassumption.
Qed.
Lemma split_finish E rs id x p x' : finish_req E rs id x = (Ok p, x') -> split_run E (OFinish rs id) x x'.
Proof.
  unfold finish_req. intro H. bg H. cbv zeta in H. rewrite recv_if in H.
  bi H. assert (y = x) as ->.
  { destruct rs as [sl|]; [|apply ret_inv in P; apply P]. destruct (8 <=? sl); [discriminate|]. destruct (slot_of _ _); [|discriminate]. apply ret_inv in P; apply P. }
  clear P. bi H. apply ok_inv in P as [_ ->]. bi H. apply mod_inv in P as ->. bi H. apply or_teardown_ok in P. rewrite send_if in H.
  bi H. apply or_teardown_ok in P0. bi H. apply or_teardown_ok in P1. apply or_teardown_if_ok in H. destruct p.
  pose proof (quiet_handle_finish _ _ _ _ _ _ H) as Q. destruct (send_frames _ _ _ _ _ _ P0) as [S1 S2]. destruct (recv_frames _ _ _ _ _ _ P1) as [R1 R2].
  eexists _, 0, 0, _, _. split; [unfold runs_in; refine (exchanged_by E _ false x _ _ _ _ _ _ _ x' _ P0 (q_refl _) P1 Q); eapply q_trans; [apply quiet_reset_buffer|]; exact (quiet_encode_finish _ _ _ _ _ _ P)|].
  split; [exact H|]. apply xk_encode_finish in P as X. split; [|exact I].
  intros _. eapply xk_trans; [apply xk_reset_buffer|]. eapply xk_trans; [eassumption|]. eapply xk_trans; eassumption.
Qed.
Lemma split_psk_finish E id x p x' : psk_finish_req E id x = (Ok p, x') -> split_run E (OPskFinish id) x x'.
Proof.
  unfold psk_finish_req. intro H. bg H. bi H. apply ok_inv in P as [_ ->]. bi H. apply mod_inv in P as ->. bi H. apply or_teardown_ok in P.
  bi H. apply or_teardown_ok in P0. bi H. apply or_teardown_ok in P1. apply or_teardown_if_ok in H. destruct p.
  pose proof (quiet_handle_psk_finish _ _ _ _ _ _ H) as Q. destruct (send_frames E (Some id) _ _ _ _ P0) as [S1 S2]. destruct (recv_frames E (Some id) _ _ _ _ P1) as [R1 R2].
  eexists _, 0, 0, _, _. split; [refine (exchanged_by E (Some id) false x _ _ _ _ _ _ _ x' _ P0 (q_refl _) P1 Q); eapply q_trans; [apply quiet_reset_buffer|]; exact (quiet_encode_psk_finish _ _ _ _ _ P)|].
  split; [exact H|]. apply xk_encode_psk_finish in P as X. split; [|exact I].
  intros _. eapply xk_trans; [apply xk_reset_buffer|]. eapply xk_trans; [eassumption|]. eapply xk_trans; eassumption.
Qed.
Lemma split_heartbeat E id x p x' : heartbeat_req E id x = (Ok p, x') -> split_run E (OHeartbeat id) x x'.
Proof.
  unfold heartbeat_req. intro H. bi H. apply mod_inv in P as ->. bg H. bi H. apply q_enc in P as ->. bi H. bi H. destruct p.
  match type of H with ?m _ = _ => assert (Q : rel quiet m) by (unfold heartbeat_answer; qq) end. apply Q in H as H'.
  destruct (send_frames E (Some id) _ _ _ _ P) as [S1 S2]. destruct (recv_frames E (Some id) _ _ _ _ P0) as [R1 R2].
  eexists _, 0, 0, _, _. split; [refine (exchanged_by E (Some id) false x _ _ _ _ _ _ _ x' _ P (q_refl _) P0 H'); apply quiet_reset_buffer|]. split; [exact H|]. split; [|exact I].
  intros _. eapply xk_trans; [apply xk_reset_buffer|]. eapply xk_trans; eassumption.
Qed.
Lemma split_end E id x p x' : end_session_req E id x = (Ok p, x') -> split_run E (OEndSession id) x x'.
Proof.
  unfold end_session_req. intro H. bi H. apply mod_inv in P as ->. bg H. bi H. apply q_enc in P as ->. bi H. bi H. destruct p.
  match type of H with ?m _ = _ => assert (Q : rel quiet m) by (unfold end_session_answer; qq) end. apply Q in H as H'.
  destruct (send_frames E (Some id) _ _ _ _ P) as [S1 S2]. destruct (recv_frames E (Some id) _ _ _ _ P0) as [R1 R2].
  eexists _, 0, 0, _, _. split; [refine (exchanged_by E (Some id) false x _ _ _ _ _ _ _ x' _ P (q_refl _) P0 H'); apply quiet_reset_buffer|]. split; [exact H|]. split; [|exact I].
  intros _. eapply xk_trans; [apply xk_reset_buffer|]. eapply xk_trans; eassumption.
Qed.
Lemma split_vendor E sid st vid pl x p x' : vendor_req E sid st vid pl x = (Ok p, x') -> split_run E (OVendor sid st vid pl) x x'.
Proof.
  unfold vendor_req. intro H. bi H. apply mod_inv in P as ->. bi H. apply mod_inv in P as ->. bg H. bi H. apply q_enc in P as ->. bi H. bi H.
  match type of H with ?m _ = _ => assert (Q : rel quiet m) by (unfold vendor_answer; qq) end. apply Q in H as H'.
  destruct (send_frames E sid _ _ _ _ P) as [S1 S2]. destruct (recv_frames E sid _ _ _ _ P0) as [R1 R2].
  eexists _, 0, 0, _, _. split; [refine (exchanged_by E sid false x _ _ _ _ _ _ _ x' _ P (q_refl _) P0 H'); eapply q_trans; [apply quiet_reset_buffer|split; reflexivity]|]. split; [exact (drop_run _ _ _ _ H)|]. split; [discriminate|].
  cbn [begins]. apply (tk_trans _ _ _ (tk_trans _ _ _ (conj eq_refl (conj eq_refl eq_refl) : tk (reset_context x) (reset_context (reset_buffer RC_VENDOR_REQ sid x))) S1) R1).
Qed.
Lemma split_key_update E id op tag x p x' : key_update_op_req E id op tag x = (Ok p, x') -> split_run E (OKeyUpdateOp id op tag) x x'.
Proof.
  unfold key_update_op_req. intro H. bi H. apply mod_inv in P as ->. bg H. bi H. apply q_enc in P as ->. bi H. bg H. bi H. apply ok_inv in P0 as [_ ->].
  cbv zeta in H. bi H. bi H. destruct p.
  pose proof (quiet_handle_ku _ _ _ _ _ _ _ H) as Q. destruct (send_frames E (Some id) _ _ _ _ P) as [S1 S2]. destruct (recv_frames E (Some id) _ _ _ _ P1) as [R1 R2].
  eexists _, 0, 0, _, _. split; [refine (exchanged_by E (Some id) false x _ _ _ _ _ _ _ x' _ P (quiet_on_sess _ _ _ _ _ P0) P1 Q); apply quiet_reset_buffer|]. split; [exact H|]. split; [|exact I].
  intros _. eapply xk_trans; [apply xk_reset_buffer|]. eapply xk_trans; [eassumption|]. eapply xk_trans; [exact (xk_on_sess _ _ _ _ _ P0)|eassumption].
Qed.
Theorem run_split E o x u x' : run E o x = (Ok u, x') -> split_run E o x x'.
Proof.
  intro H. destruct o; unfold run in H; try apply drop_ok in H as [w H].
  - exact (split_version _ _ _ _ H).
  - exact (split_capabilities _ _ _ _ H).
  - exact (split_algorithms _ _ _ _ H).
  - exact (split_digests _ _ _ _ _ H).
  - exact (split_cert _ _ _ _ _ _ _ _ _ H).
  - exact (split_challenge _ _ _ _ _ _ H).
  - exact (split_measurements _ _ _ _ _ _ _ _ H).
  - exact (split_kx _ _ _ _ _ _ H).
  - exact (split_finish _ _ _ _ _ _ H).
  - exact (split_psk _ _ _ _ _ _ H).
  - exact (split_psk_finish _ _ _ _ _ H).
  - exact (split_heartbeat _ _ _ _ _ H).
  - exact (split_key_update _ _ _ _ _ _ _ H).
  - exact (split_end _ _ _ _ _ H).
  - exact (split_vendor _ _ _ _ _ _ _ _ H).
Qed.
