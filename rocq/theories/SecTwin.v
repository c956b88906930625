(** Secured messages between the two ends of a session, whatever its state. *)
From Verif Require Import Bytes BytesFacts Status Codec Parse ParseProofs Algo Monad MsgConn MsgAuth MsgSession MsgOther Message Opaque SpecMsg MsgProofs MsgRound MsgRound2.
From Verif Require Import Transport Crypto KeySchedule Session Signing CertOps ChainVerify Context SessionProofs
  RspBase RspConn RspSess RspEncap Responder StRel RspFrame RspCalm RspOpcode RspPass RspEst RspTable ReqBase ReqConn ReqSess SpecReq ReqFrame ReqAnswer SpecSession SpecAuth ReqTrans ReqSplit ReqHist ReqAuth ReqOpen SpecHand ReqHand ReqHand2 ReqHand3 SpecKeys KeyProofs SpecPair RspPair Pair Twin ReqTwin RspTwin WireTwin PropTable SpecRetr PairTwin.
From Coq Require Import Lia.
Local Open Scope N_scope.

(** what sealing and opening in direction [req] look at *)
Definition like (req : bool) (a b : session) : Prop :=
  s_id a = s_id b /\ s_state a = s_state b /\ s_aead a = s_aead b /\ s_seq_count a = s_seq_count b /\ get_dir req a = get_dir req b.
Lemma like_sym req a b : like req a b -> like req b a. Proof. unfold like. intuition congruence. Qed.
Lemma like_core req a b : core a = core b -> like req a b.
Proof.
  intro C. assert (K : forall {A} (f : session -> A), (forall s, f (core s) = f s) -> f a = f b) by (intros A f F; rewrite <- (F a), <- (F b), C; reflexivity).
  unfold like. repeat split; [apply (K _ s_id)|apply (K _ s_state)|apply (K _ s_aead)|apply (K _ s_seq_count)|apply (K _ (get_dir req))]; reflexivity.
Qed.
Lemma encode_public cr req m room : encode_secured cr req m room = encode_secured (public cr) req m room. Proof. reflexivity. Qed.
Lemma decode_public cr req m room : decode_secured cr req m room = decode_secured (public cr) req m room. Proof. reflexivity. Qed.
Lemma secured_like cr req app room room' w pad a a' b : aead_correct cr -> s_id a < 2 ^ 32 -> like req a b -> len app <= room' ->
  encode_secured cr req app room a = (Ok w, a') -> a' = next req a /\ decode_secured cr req (w ++ pad) room' b = (Ok app, next req b).
Proof.
  intros Hc Hid (I & S2 & A & C & D) Hr H. apply encode_secured_ok in H as (Li & He & ->). split; [reflexivity|].
  assert (Hs : d_seq (get_dir req b) <> U64_MAX) by (apply encode_msg_ok in He as (? & ? & ? & _ & _ & _ & Hs & _); rewrite <- D; exact Hs).
  apply (decode_encode_pad _ _ _ _ _ _ pad room' Hc Hid) in He; [|exact Hr]. rewrite (decode_msg_cong cr a b) in He by assumption. rewrite D in He.
  unfold decode_secured. unfold live in Li. rewrite S2 in Li. rewrite He. unfold bump. rewrite (proj2 (N.eqb_neq _ _)) by exact Hs. destruct Li as [Li|Li]; rewrite Li; reflexivity.
Qed.
Lemma delivered_like E Er id m x t x1 y a b : public (e_cr E) = public (e_cr Er) -> e_tr E = e_tr Er -> lossless (e_tr Er) -> aead_correct (e_cr Er) -> seals_bytes (e_cr Er) ->
  id < 2 ^ 32 -> bytes_ok m -> len m <= 4000 -> get_sess id x = Some a -> get_sess id y = Some b -> like true a b ->
  encode_secured_message E id m true false x = (Ok t, x1) ->
  x1 = mod_sess id (fun _ => next true a) x /\ process_frame Er t y = is_ok (dispatch_secured Er id m) (mod_sess id (fun _ => next true b) y).
Proof.
  intros Ec Et (La & Lt) Hc Sb Hid Bm Lm Ga Gb S H. destruct (envelope_inv _ _ _ _ _ _ _ _ Ga H) as (p & c & a' & H1 & H2 & H3 & ->). rewrite encode_public, Ec, <- encode_public in H2. rewrite Et in *.
  destruct (La _ _ Bm Lm H1) as (Bp & Lp & Dp). pose proof (own_id _ _ _ Ga) as Ia. pose proof (own_id _ _ _ Gb) as Ib.
  destruct (sealed_bytes _ _ _ _ _ _ _ Sb Bp H2) as (Bc & Lc & rest & Ecb). destruct (Lt c t Bc ltac:(lia) H3) as (pad & Dt).
  destruct (secured_like (e_cr Er) true p BUFFER_SIZE BUFFER_SIZE c pad a a' b Hc ltac:(lia) S ltac:(change BUFFER_SIZE with 4160; lia) H2) as (-> & D). split; [reflexivity|].
  assert (Rd : read_session_id (c ++ pad) = Some id).
  { rewrite Ecb, <- app_assoc. unfold read_session_id. rewrite (proj2 (N.ltb_ge _ _)) by (rewrite len_app; unfold len at 1; rewrite le_bytes_length; lia).
    rewrite firstn_app_exact by apply le_bytes_length. rewrite le_val_bytes by (rewrite Ia; exact Hid). rewrite Ia. reflexivity. }
  unfold process_frame. rewrite Dt. unfold process_secured. rewrite Rd, bind_get, Gb. unfold scatch at 1, on_sess. rewrite Gb, D.
  change MAX_SPDM_MSG_SIZE with 4096. rewrite Dp. reflexivity.
Qed.
Lemma answered_like E Er id m x t y y1 a b : public (e_cr E) = public (e_cr Er) -> e_tr E = e_tr Er -> lossless (e_tr Er) -> aead_correct (e_cr Er) -> seals_bytes (e_cr Er) ->
  id < 2 ^ 32 -> bytes_ok m -> len m <= 4000 -> get_sess id x = Some a -> get_sess id y = Some b -> like false a b ->
  encode_secured_message Er id m false false y = (Ok t, y1) ->
  y1 = mod_sess id (fun _ => next false b) y /\ decode_secured_message E id MAX_SPDM_MSG_SIZE t x = (Ok m, mod_sess id (fun _ => next false a) x).
Proof.
  intros Ec Et (La & Lt) Hc Sb Hid Bm Lm Ga Gb S H. destruct (envelope_inv _ _ _ _ _ _ _ _ Gb H) as (p & c & b' & H1 & H2 & H3 & ->).
  destruct (La _ _ Bm Lm H1) as (Bp & Lp & Dp). pose proof (own_id _ _ _ Ga) as Ia. pose proof (own_id _ _ _ Gb) as Ib.
  destruct (sealed_bytes _ _ _ _ _ _ _ Sb Bp H2) as (Bc & Lc & _). destruct (Lt c t Bc ltac:(lia) H3) as (pad & Dt).
  destruct (secured_like (e_cr Er) false p BUFFER_SIZE BUFFER_SIZE c pad b b' a Hc ltac:(lia) (like_sym _ _ _ S) ltac:(change BUFFER_SIZE with 4160; lia) H2) as (-> & D). split; [reflexivity|].
  unfold decode_secured_message. rewrite Et. unfold sbind at 1, sof. rewrite Dt. cbn [snd fst negb]. rewrite bind_get, Ga. unfold sbind at 1, on_sess. rewrite decode_public, Ec, <- decode_public. rewrite Ga, D.
  unfold sbind. change MAX_SPDM_MSG_SIZE with 4096. rewrite Dp. reflexivity.
Qed.
(** one secured request of a requester facing the responder [xr] *)
Lemma secured_exchange E Er xr id c m x u x1 b x2 a bs : public (e_cr E) = public (e_cr Er) -> e_tr E = e_tr Er -> lossless (e_tr Er) -> aead_correct (e_cr Er) -> seals_bytes (e_cr Er) ->
  id < 2 ^ 32 -> bytes_ok m -> len m <= 4000 -> let y := peer_after Er xr (rev (x_sent x)) in get_sess id x = Some a -> get_sess id y = Some bs -> like true a bs ->
  req_send_secured (facing E Er xr) id m false x = (Ok u, x1) -> req_recv_secured (facing E Er xr) id c x1 = (Ok b, x2) ->
  exists t r z f x1', x_sent x2 = t :: x_sent x /\ peer_after Er xr (rev (x_sent x2)) = z /\ is_ok (dispatch_secured Er id m) (mod_sess id (fun _ => next true bs) y) = (r, z) /\
    (length (x_sent y) < length (x_sent z))%nat /\ hd_error (x_sent z) = Some f /\ rest_of x1' = rest_of (mod_sess id (fun _ => next true a) x) /\
    decode_secured_message (facing E Er xr) id MAX_SPDM_MSG_SIZE f x1' = (Ok b, x2).
Proof.
  intros Pu Tr Lo Ac Sb Hid Bm Lm y Ga Gb Lk S R. pose proof S as S0. pose proof R as R0. apply (send_on_ok _ (Some id)) in S0 as (t0 & _ & S1 & _ & _). apply (recv_on_ok _ (Some id)) in R0 as (f0 & _ & _ & R1 & _).
  unfold req_send_secured in S. rewrite bind_get in S. apply sbind_inv in S as (u0 & y0 & P & S). apply fail_inv in P as [_ ->]. apply sbind_inv in S as (t & x' & P & S).
  destruct (delivered_like (facing E Er xr) Er id m x t x' y a bs Pu Tr Lo Ac Sb Hid Bm Lm Ga Gb Lk P) as [-> Dv]. clear P.
  unfold io_send in S. cbn [facing e_send] in S. match type of S with (_, ?q) = _ => assert (X1 : x1 = q) by congruence end. clear S. cbn [x_sent mod_sess set_x_sent set_x_sess set_x_io] in X1.
  assert (Sx : x_sent x1 = t :: x_sent x) by (rewrite X1; reflexivity). assert (Rx : rest_of x1 = rest_of (mod_sess id (fun _ => next true a) x)) by (rewrite X1; reflexivity). clear X1.
  unfold req_recv_secured in R. apply sbind_inv in R as (u1 & z0 & P & R). apply timeout_inv in P as ->. apply sbind_inv in R as (o & x1' & P & R). apply sbind_inv in R as (f & z0 & P0 & R). apply ok_inv in P0 as [-> ->].
  pose proof (rest_io_recv _ _ _ _ P) as Rr. unfold io_recv in P. cbn [facing e_recv] in P. rewrite Sx in P. cbn [peer_reply] in P. fold y in P. rewrite Dv in P.
  destruct (is_ok (dispatch_secured Er id m) (mod_sess id (fun _ => next true bs) y)) as [r z] eqn:Dz. cbn [snd] in P.
  assert (Sx2 : x_sent x2 = t :: x_sent x) by congruence.
  destruct (Nat.ltb_spec (length (x_sent y)) (length (x_sent z))) as [L|]; [|discriminate P].
  assert (Hf : hd_error (x_sent z) = Some f) by (destruct (hd_error (x_sent z)) as [g|]; [destruct (BUFFER_SIZE <? len g); [discriminate P|congruence]|discriminate P]).
  exists t, r, z, f, x1'. split; [exact Sx2|]. split; [rewrite Sx2, peer_after_last; fold y; rewrite Dv; reflexivity|]. split; [reflexivity|]. split; [exact L|]. split; [exact Hf|]. split; [cbv beta in Rr; congruence|exact R].
Qed.
