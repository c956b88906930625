(** C72, C73: two things a user expects of the encapsulated retrieval that the code does not do. *)
From Verif Require Import Bytes BytesFacts Status Codec Parse Algo Monad Message Transport Crypto Session Context RspBase RspEncap Responder SpecMsg SpecResponder SpecFinish SpecRetr SpecEncap.
From Verif Require Import ToyCrypto PropPhase PropTable ExRun PropServe ExEncap PropEncap.
Local Open Scope N_scope.

(** ** C72: DIGESTS begins a retrieval; a half-finished one does not outlive its session *)
Definition digests_begin_afresh : Prop :=
  forall E x z n rest t, e_mut_auth E = true -> encap_ready x -> answered_round E x z n ([ver x; 0x01] ++ rest) -> x_peer_temp z = Some t -> t = [].
Definition in_use (s : session) : bool := negb (s_id s =? 0).
Definition retrieval_ends_with_session : Prop :=
  forall E x0 x, x_peer_temp x0 = None -> came E x0 x -> existsb in_use (x_sess x) = false -> x_peer_temp x = None.

Definition st_dig : bytes := secured en6 (deliver_encap 0x12 0 0 ([0x12; 1; 0; 1] ++ fill 48 3)) false.
Definition st_frames : list bytes := Eval vm_compute in [e1; e2; f3; e4; f4; e_dig; e_p1; st_dig].
Definition st7 : ctx := Eval vm_compute in en_after st_frames 7.
Definition st8 : ctx := Eval vm_compute in snd (process_message (en_env st_frames) st7).
Theorem C72_digests_begin_afresh_refuted : ~ digests_begin_afresh.
Proof.
  intro H. assert (A : answered_round (en_env st_frames) st7 st8 0 ([ver st7; 0x01] ++ [0; 1] ++ fill 48 3)).
  { apply (bringsb_ok _ _ _ ex_id 0 0); vm_compute; reflexivity. }
  assert (R : encap_ready st7). { split; [vm_compute; discriminate|]. split; [vm_compute; reflexivity|]. split; vm_compute; reflexivity. }
  destruct (x_peer_temp st8) as [t|] eqn:T; [|vm_compute in T; discriminate].
  specialize (H (en_env st_frames) st7 st8 0 _ t eq_refl R A T). subst t. vm_compute in T. discriminate.
Qed.

(** the session's PSK_FINISH and END_SESSION after one portion *)
Definition en_sess : session := hd session_new (x_sess en6).
Definition en_fin_mac : bytes :=
  match cr_hash toy 2 ((match s_th en_sess with Some t => t | None => [] end) ++ ex_fin_head) with
  | Some h => match cr_hmac toy 2 (h_req_fin (s_hs en_sess)) h with Some m => m | None => [] end
  | None => [] end.
Definition e_fin : bytes := secured en6 (ex_fin_head ++ en_fin_mac) false.
Definition en_fin : ctx := Eval vm_compute in estep e_fin en6.
Definition e_end : bytes := secured en_fin [0x12; 0xEC; 0; 0] false.
Definition end_frames : list bytes := Eval vm_compute in [e1; e2; f3; e4; f4; e_dig; e_p1; e_fin; e_end].
Theorem C72_retrieval_ends_with_session_refuted : ~ retrieval_ends_with_session.
Proof.
  intro H. assert (C : came (en_env end_frames) en_ctx (en_after end_frames 9)).
  { apply came_after. intros k Hk. do 9 (destruct k as [|k]; [eexists; vm_compute; reflexivity|]). exfalso. Lia.lia. }
  specialize (H (en_env end_frames) en_ctx _ eq_refl C ltac:(vm_compute; reflexivity)). vm_compute in H. discriminate.
Qed.

(** ** C73: an encapsulated response is refused, with one ERROR, when encapsulated requests are not negotiated *)
Definition unnegotiated_encap_refused : Prop :=
  forall E x z n inner, answered_round E x z n inner -> contains (n_req_cap (x_nego x)) 0x1000 = false ->
    x_peer_temp z = x_peer_temp x /\ exists f, x_sent z = f :: x_sent x /\ SpecResponder.carries E f [ver x; 0x7F; 7; 0xEA] false.
Definition no2 : bytes := [5; 0x12;0xE1;0;0; 0;0;0;0] ++ le_bytes 4 0x66C6 ++ [0;16;0;0;0;16;0;0].
Definition no4 : ctx := Eval vm_compute in estep f4 (estep e4 (estep f3 (estep no2 (estep e1 en_ctx)))).
Definition no_dig : bytes := secured no4 (deliver_encap 0x12 0 0 ([0x12; 1; 0; 1] ++ fill 48 3)) false.
Definition no_frames : list bytes := Eval vm_compute in [e1; no2; f3; e4; f4; no_dig].
Definition no5 : ctx := Eval vm_compute in en_after no_frames 5.
Definition no6 : ctx := Eval vm_compute in snd (process_message (en_env no_frames) no5).
Theorem C73_unnegotiated_encap_refused_refuted : ~ unnegotiated_encap_refused.
Proof.
  intro H. assert (A : answered_round (en_env no_frames) no5 no6 0 ([0x12; 1; 0; 1] ++ fill 48 3)).
  { apply (bringsb_ok _ _ _ ex_id 0 0); vm_compute; reflexivity. }
  destruct (H _ _ _ _ _ A ltac:(vm_compute; reflexivity)) as [K _]. vm_compute in K. discriminate.
Qed.
Print Assumptions C72_retrieval_ends_with_session_refuted.
Print Assumptions C73_unnegotiated_encap_refused_refuted.
