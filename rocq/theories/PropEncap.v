(** C49: the responder's encapsulated retrieval of the requester's certificate chain. *)
From Verif Require Import Bytes BytesFacts Status Codec Parse ParseProofs Algo Monad.
From Verif Require Import MsgConn MsgAuth MsgSession MsgOther Message Opaque Transport Crypto KeySchedule Session Signing CertOps ChainVerify Context
  RspBase RspConn RspSess RspEncap Responder StRel RspFrame RspCalm RspOpcode RspPass RspEst SpecResponder SpecFinish RspDeliver RspPeer.
From Verif Require Import SpecMsg MsgRound MsgRound2 ReqFrame ReqTrans SpecAuth SpecRetr SpecEncap PropRetr PropFetch PropDigest PropServe PropPhase PropTable ToyCrypto ExRun ExPair ExEncap.
From Coq Require Import Lia.
Local Open Scope N_scope.

(** ** one CERTIFICATE *)
Lemma bind_when {S A} c (m : st S unit) (k : unit -> st S A) x : sbind (swhen c m) k x = if c then sbind m k x else k tt x.
Proof. destruct c; reflexivity. Qed.
Definition begun (x : ctx) (t : bytes) (p : cert_rsp) : ctx := if len t =? 0 then set_x_encap_size (cr_portion p + cr_remainder p) x else x.
Definition cert_result (E : env) (x : ctx) (t : bytes) (p : cert_rsp) : outcome bool * ctx :=
  if negb (len t <=? 4096) then (Panic, x)
  else if negb (RspEncap.portion_ok x (len t) p) then (Err ST_INVALID_MSG_FIELD, x)
  else
    let y := begun x t p in
    if negb (x_encap_size y =? 0) && negb (x_encap_size y =? len t + cr_portion p + cr_remainder p) then (Err ST_INVALID_MSG_FIELD, y)
    else
      let t' := t ++ firstn (N.to_nat (cr_portion p)) (cr_data p) in
      if x_encap_size y =? 0 then (Err ST_INVALID_CERT, set_x_peer_temp None y)
      else if negb (cr_remainder p =? 0) then (Ok true, set_x_peer_temp (Some t') y)
      else match verify_chain (e_cr E) (n_hash (x_nego y)) (x_peer_root y) t' with
           | Ok _ => if x_encap_slot y <? 8 then (Ok false, set_x_peer_temp None (set_x_pslot (x_encap_slot y) (set_x_peer_chain (set_slot (N.to_nat (x_encap_slot y)) (Some t') (x_peer_chain y)) y)))
                     else (Panic, set_x_peer_temp (Some t') y)
           | Err e => (Err e, set_x_peer_temp None y)
           | Panic => (Panic, set_x_peer_temp (Some t') y)
           end.
Lemma cert_eq E r x : encap_certificate E r x =
  match dec_cert_rsp r with
  | PPanic => (Panic, x)
  | PNone => (Err ST_INVALID_MSG_FIELD, x)
  | POk p _ => match x_peer_temp x with None => (Err ST_INVALID_STATE_LOCAL, x) | Some t => cert_result E x t p end
  end.
Proof.
  unfold encap_certificate. rewrite bind_rd. destruct (dec_cert_rsp r) as [p rest| |]; [|reflexivity..]. rewrite bind_get.
  destruct (x_peer_temp x) as [t|] eqn:T; [|reflexivity]. rewrite bind_some. unfold cert_result. rewrite bind_assert. destruct (len t <=? 4096); [|reflexivity]. cbn [negb].
  rewrite bind_fail. destruct (RspEncap.portion_ok x (len t) p); [|reflexivity]. cbn [negb]. rewrite bind_when.
  assert (G : forall y, x_peer_temp y = Some t -> 
    (z <-- sget ;; _ <-- sfail_if (negb (x_encap_size z =? 0) && negb (x_encap_size z =? len t + cr_portion p + cr_remainder p)) ST_INVALID_MSG_FIELD ;;
        let t' := t ++ firstn (N.to_nat (cr_portion p)) (cr_data p) in
        smod (set_x_peer_temp (Some t')) ;;;
        if x_encap_size z =? 0 then (smod (set_x_peer_temp None) ;;; serr ST_INVALID_CERT)
        else if negb (cr_remainder p =? 0) then sret true
        else
          scatch (sof (verify_chain (e_cr E) (n_hash (x_nego z)) (x_peer_root z) t')) (fun v =>
            match v with
            | Ok _ =>
                (_ <-- sassert (x_encap_slot z <? N.of_nat SPDM_MAX_SLOT_NUMBER) ;;
                 smod (fun x => set_x_peer_chain (set_slot (N.to_nat (x_encap_slot x)) (Some t') (x_peer_chain x)) x) ;;;
                 smod (set_x_pslot (x_encap_slot z)) ;;;
                 smod (set_x_peer_temp None) ;;; sret false)
            | Err e => (smod (set_x_peer_temp None) ;;; serr e)
            | Panic => spanic
            end))%st y =
    (if negb (x_encap_size y =? 0) && negb (x_encap_size y =? len t + cr_portion p + cr_remainder p) then (Err ST_INVALID_MSG_FIELD, y)
    else
      let t' := t ++ firstn (N.to_nat (cr_portion p)) (cr_data p) in
      if x_encap_size y =? 0 then (Err ST_INVALID_CERT, set_x_peer_temp None y)
      else if negb (cr_remainder p =? 0) then (Ok true, set_x_peer_temp (Some t') y)
      else match verify_chain (e_cr E) (n_hash (x_nego y)) (x_peer_root y) t' with
           | Ok _ => if x_encap_slot y <? 8 then (Ok false, set_x_peer_temp None (set_x_pslot (x_encap_slot y) (set_x_peer_chain (set_slot (N.to_nat (x_encap_slot y)) (Some t') (x_peer_chain y)) y)))
                     else (Panic, set_x_peer_temp (Some t') y)
           | Err e => (Err e, set_x_peer_temp None y)
           | Panic => (Panic, set_x_peer_temp (Some t') y)
           end)).
  { intros y _. rewrite bind_get, bind_fail. destruct (_ && _); [reflexivity|]. cbv zeta. rewrite bind_mod. destruct (x_encap_size y =? 0); [reflexivity|].
    destruct (negb _); [reflexivity|]. unfold scatch, sof. destruct (verify_chain _ _ _ _); [|reflexivity..]. rewrite bind_assert. change (N.of_nat SPDM_MAX_SLOT_NUMBER) with 8.
    destruct (x_encap_slot y <? 8); reflexivity. }
  unfold begun. destruct (len t =? 0); [rewrite bind_mod|]; (rewrite G; [reflexivity|exact T]).
Qed.

(** the effect of one delivered response *)
Inductive taken (E : env) (x : ctx) (inner : bytes) (x' : ctx) : Prop :=
| tk_same : x_peer_temp x' = x_peer_temp x -> x_encap_size x' = x_encap_size x -> x_peer_chain x' = x_peer_chain x -> taken E x inner x'
| tk_begin rest : inner = [ver x; 0x01] ++ rest -> x_peer_temp x = None -> x_peer_temp x' = Some [] -> x_peer_chain x' = x_peer_chain x -> taken E x inner x'
| tk_part t part left : x_peer_temp x = Some t -> is_certificate (ver x) (x_encap_slot x) part left inner -> len part <= 512 -> left <> 0 -> len t + len part + left < 4096 ->
    (t <> [] -> x_encap_size x = len t + len part + left) -> x_peer_temp x' = Some (t ++ part) -> x_encap_size x' = len t + len part + left -> x_peer_chain x' = x_peer_chain x ->
    taken E x inner x'
| tk_last t part : x_peer_temp x = Some t -> is_certificate (ver x) (x_encap_slot x) part 0 inner -> len part <= 512 -> len t + len part < 4096 ->
    (t <> [] -> x_encap_size x = len t + len part) -> acceptable_chain (e_cr E) (n_hash (x_nego x)) (x_peer_root x) (t ++ part) -> x_encap_slot x < 8 ->
    x_peer_temp x' = None -> x_peer_chain x' = set_slot (N.to_nat (x_encap_slot x)) (Some (t ++ part)) (x_peer_chain x) -> taken E x inner x'
| tk_drop : x_peer_temp x' = None -> x_peer_chain x' = x_peer_chain x -> taken E x inner x'.

Lemma len0 {A} (l : list A) : (len l =? 0) = true -> l = [].
Proof. intro H. apply N.eqb_eq in H. destruct l; [reflexivity|]. rewrite len_cons in H. lia. Qed.
Lemma cert_taken E r x q x' : encap_certificate E r x = (q, x') -> q <> Panic -> taken E x (ver x :: 0x02 :: r) x'.
Proof.
  rewrite cert_eq. intros H Np.
  destruct (dec_cert_rsp r) as [p rest| |] eqn:D; [|replace x' with x by congruence; apply tk_same; reflexivity..].
  destruct (x_peer_temp x) as [t|] eqn:T; [|replace x' with x by congruence; apply tk_same; reflexivity].
  unfold cert_result in H. destruct (N.leb_spec (len t) 4096) as [L4|]; cbn [negb] in H; [|congruence].
  destruct (RspEncap.portion_ok x (len t) p) eqn:Pk; cbn [negb] in H; [|replace x' with x by congruence; apply tk_same; reflexivity].
  unfold RspEncap.portion_ok in Pk. apply andb_prop in Pk as [Pk Ps]. apply andb_prop in Pk as [Pk Pr]. apply andb_prop in Pk as [P1 P2].
  apply N.leb_le in P1, P2. apply N.ltb_lt in Pr. apply N.eqb_eq in Ps. change (N.of_nat MAX_CERT_PORTION) with 512 in P1.
  destruct (cert_rsp_split _ _ _ D P1) as [Ic Lp]. apply (is_certificate_any _ (ver x)) in Ic. rewrite Ps in Ic. set (part := firstn (N.to_nat (cr_portion p)) (cr_data p)) in *.
  rewrite <- Lp in *. cbv zeta in H.
  assert (Sz : x_encap_size (begun x t p) = if len t =? 0 then cr_portion p + cr_remainder p else x_encap_size x) by (unfold begun; destruct (len t =? 0); reflexivity).
  assert (Bp : x_peer_temp (begun x t p) = x_peer_temp x /\ x_peer_chain (begun x t p) = x_peer_chain x /\ x_encap_slot (begun x t p) = x_encap_slot x /\ x_nego (begun x t p) = x_nego x /\ x_peer_root (begun x t p) = x_peer_root x)
    by (unfold begun; destruct (len t =? 0); repeat split; reflexivity).
  destruct Bp as (B1 & B2 & B3 & B4 & B5). rewrite Sz, B2, B3, B4, B5 in H. set (y := begun x t p) in *. clearbody y. rewrite <- Lp in *.
  assert (Z : forall n, (negb (n =? 0) && negb (n =? len t + len part + cr_remainder p)) = false -> n = 0 \/ n = len t + len part + cr_remainder p).
  { intros n K. destruct (N.eqb_spec n 0); [auto|]. destruct (N.eqb_spec n (len t + len part + cr_remainder p)); [auto|]. discriminate. }
  destruct (negb _ && negb _) eqn:C in H.
  { destruct (len t =? 0) eqn:L0; [apply N.eqb_eq in L0; rewrite L0, N.add_0_l, N.eqb_refl, Bool.andb_false_r in C; discriminate|].
    replace x' with y by congruence. apply tk_same; congruence. }
  apply Z in C. set (sz := if len t =? 0 then len part + cr_remainder p else x_encap_size x) in *.
  destruct (N.eqb_spec sz 0) as [S0|S0]. { replace x' with (set_x_peer_temp None y) by congruence. apply tk_drop; [reflexivity|exact B2]. }
  destruct C as [C|C]; [congruence|].
  assert (Tn : t <> [] -> x_encap_size x = len t + len part + cr_remainder p). { intro K. unfold sz in C. destruct (len t =? 0) eqn:L0; [apply len0 in L0; congruence|exact C]. }
  destruct (N.eqb_spec (cr_remainder p) 0) as [R0|R0]; cbn [negb] in H.
  - rewrite R0 in *. rewrite N.add_0_r in *. destruct (verify_chain (e_cr E) (n_hash (x_nego x)) (x_peer_root x) (t ++ part)) as [[]|e|] eqn:V; [| |congruence].
    + destruct (N.ltb_spec (x_encap_slot x) 8) as [L8|]; [|congruence].
      match type of H with (_, ?z) = _ => replace x' with z by congruence end.
      apply (tk_last E x _ _ t part); auto; try lia. apply C37_accepted_chains. exact V.
    + match type of H with (_, ?z) = _ => replace x' with z by congruence end. apply tk_drop; [reflexivity|exact B2].
  - match type of H with (_, ?z) = _ => replace x' with z by congruence end.
    apply (tk_part E x _ _ t part (cr_remainder p)); auto; try lia; try reflexivity.
    cbn [x_encap_size set_x_peer_temp]. congruence.
Qed.

(** ** one DELIVER_ENCAPSULATED_RESPONSE *)
Lemma eq_pre : preorder (@eq ctx). Proof. split; congruence. Qed.
Lemma wput_eq e w x r x' : wput e w x = (r, x') -> x' = x.
Proof. intro H. symmetry. exact (rel_wput _ eq_pre e w _ _ _ H). Qed.
Lemma get_cert_eq w x r x' : encap_get_cert w x = (r, x') -> x' = match x_peer_temp x with None => set_x_peer_temp (Some []) x | Some _ => x end.
Proof.
  unfold encap_get_cert. rewrite bind_mod. set (y := match x_peer_temp x with None => _ | Some _ => _ end). rewrite bind_get. intro H. symmetry. revert H.
  apply (rel_bind _ eq_pre); [apply rel_unwrap, eq_pre|]. intro t. apply rel_wenc, eq_pre.
Qed.
Lemma taken_then E x inner y z : taken E x inner y -> x_peer_temp z = x_peer_temp y -> x_encap_size z = x_encap_size y -> x_peer_chain z = x_peer_chain y -> taken E x inner z.
Proof.
  intros H A B C. destruct H; [apply tk_same|eapply tk_begin|eapply tk_part|eapply tk_last|apply tk_drop]; try eassumption; congruence.
Qed.
Lemma process_taken E ack inner w x q x' : process_encap E ack inner w x = (q, x') -> q <> Panic -> taken E x inner x'.
Proof.
  intros H Np. assert (Same : taken E x inner x) by (apply tk_same; reflexivity).
  unfold process_encap in H. rewrite bind_get in H. destruct (read_header inner) as [[h r]|] eqn:Rh; [|unfold encap_fail, sret in H; replace x' with x by congruence; exact Same].
  destruct (N.eqb_spec (h_version h) (ver x)) as [Hv|]; cbn [negb] in H; [|unfold encap_fail, sret in H; replace x' with x by congruence; exact Same].
  apply read_header_some in Rh. rewrite Hv in Rh.
  apply sbind_any in H as (a & x1 & A & H). apply wput_eq in A as ->. destruct a as [hd| |]; [|destruct H as [_ ->]; exact Same..]. cbv zeta in H.
  destruct (N.eqb_spec (h_code h) RC_DIGESTS) as [Hc|].
  - rewrite Hc in Rh. rewrite bind_rd in H. destruct (dec_digests_rsp (xc x) r) as [d rest| |]; [|unfold encap_fail, sret in H; replace x' with x by congruence; exact Same|replace x' with x by congruence; exact Same].
    apply sbind_any in H as (b & x2 & B & H). rewrite bind_get in B. apply wput_eq in B as ->. destruct b as [b| |]; [|destruct H as [_ ->]; exact Same..].
    apply get_cert_eq in H. destruct (x_peer_temp x) as [t|] eqn:T; subst x'; [apply tk_same; auto|]. eapply (tk_begin _ _ _ _ r); [exact Rh|exact T|reflexivity..].
  - destruct (N.eqb_spec (h_code h) RC_CERTIFICATE) as [Hc|]; [|unfold encap_fail, sret in H; replace x' with x by congruence; exact Same].
    rewrite Hc in Rh. unfold scatch in H. destruct (encap_certificate E r x) as [v y] eqn:C.
    destruct v as [more|e|]; [| |congruence].
    + assert (K := cert_taken _ _ _ _ _ C). rewrite Rh. change RC_CERTIFICATE with 2. specialize (K ltac:(discriminate)).
      destruct more.
      * assert (Ty : exists t, x_peer_temp y = Some t).
        { rewrite cert_eq in C. destruct (dec_cert_rsp r); try discriminate. destruct (x_peer_temp x) as [t|]; [|discriminate]. unfold cert_result in C.
          repeat match type of C with (if ?c then _ else _) = _ => destruct c; try discriminate | (let _ := _ in _) = _ => cbv zeta in C end; [|destruct (verify_chain _ _ _ _); try discriminate; destruct (_ <? 8); discriminate].
          match type of C with (_, ?z) = _ => replace y with z by congruence end. eexists. reflexivity. }
        destruct Ty as [t Ty]. apply sbind_any in H as (b & x2 & B & H). rewrite bind_get in B. apply wput_eq in B as ->. destruct b as [b| |]; [|destruct H as [_ ->]; exact K..].
        destruct (fst b); [|unfold encap_fail, sret in H; replace x' with y by congruence; exact K].
        apply get_cert_eq in H. rewrite Ty in H. subst x'. exact K.
      * apply sbind_any in H as (b & x2 & B & H). rewrite bind_get in B. apply wput_eq in B as ->. destruct b as [b| |]; [|destruct H as [_ ->]; exact K..].
        destruct (fst b); [|unfold encap_fail, sret in H; replace x' with y by congruence; exact K].
        rewrite bind_get in H. apply wput_eq in H as ->. exact K.
    + unfold encap_fail, sret in H. replace x' with y by congruence. rewrite Rh. change RC_CERTIFICATE with 2. apply (cert_taken _ _ _ _ _ C). discriminate.
Qed.

(** ** one round of the responder *)
Definition pview (x : ctx) := ((x_peer_temp x, x_encap_size x, x_peer_chain x), (x_encap_slot x, x_nego x, x_peer_root x)).
Lemma taken_view E x y inner z : pview y = pview x -> taken E x inner z -> taken E y inner z.
Proof.
  unfold pview. intros V H. assert (Vn : x_nego y = x_nego x) by congruence. assert (Vv : ver y = ver x) by (unfold ver; congruence).
  assert (Vs : x_encap_slot y = x_encap_slot x) by congruence. assert (Vr : x_peer_root y = x_peer_root x) by congruence. assert (Vz : x_encap_size y = x_encap_size x) by congruence.
  assert (Vt : x_peer_temp y = x_peer_temp x) by congruence. assert (Vc : x_peer_chain y = x_peer_chain x) by congruence.
  destruct H; [apply tk_same|eapply tk_begin|eapply tk_part|eapply tk_last|apply tk_drop]; rewrite ?Vv, ?Vs, ?Vn, ?Vr, ?Vz, ?Vt, ?Vc; eassumption.
Qed.
Lemma ack_taken E c b w x q x' : write_encap_ack E (ver x :: c :: b) w x = (q, x') -> q <> Panic ->
  x' = x \/ exists n k inner, b = n :: k :: inner /\ taken E x inner x'.
Proof.
  intros H Np. assert (We : forall e u q0 y0 y, write_err e u y0 = (q0, y) -> y = y0) by (intros e u q0 y0 y K; symmetry; exact (rel_err_msg _ eq_pre _ _ _ _ _ K)).
  unfold write_encap_ack, encap_version in H. rewrite bind_get in H. change (read_header (ver x :: c :: b)) with (Some (mkHeader (ver x) c, b)) in H. cbn [h_version] in H.
  rewrite N.eqb_refl in H. cbn [negb] in H. rewrite bind_rd in H. destruct (dec_encap_id b) as [ack rest| |] eqn:D; [|left; exact (We _ _ _ _ _ H)|left; congruence].
  unfold dec_encap_id in D. apply dbind_ok in D as (i & l1 & D1 & D). apply MsgRound2.d_u8_inv in D1 as ->. apply dbind_ok in D as (j & l2 & D2 & D). apply MsgRound2.d_u8_inv in D2 as ->. apply dret_ok in D as [-> ->].
  right. exists i, j, l2. split; [reflexivity|].
  apply sbind_any in H as (v & y & P & H). destruct v as [v| |].
  - assert (x' = y) as -> by (destruct (fst v); [unfold sret in H; congruence|exact (We _ _ _ _ _ H)]). apply (process_taken _ _ _ _ _ _ _ P). discriminate.
  - destruct H as [_ ->]. apply (process_taken _ _ _ _ _ _ _ P). discriminate.
  - destruct H. congruence.
Qed.
Lemma ack_other E v c b w x q x' : write_encap_ack E (v :: c :: b) w x = (q, x') -> v <> ver x -> x' = x.
Proof.
  intros H Nv. unfold write_encap_ack, encap_version in H. rewrite bind_get in H. change (read_header (v :: c :: b)) with (Some (mkHeader v c, b)) in H. cbn [h_version] in H.
  rewrite (proj2 (N.eqb_neq _ _) Nv) in H. symmetry. exact (rel_err_msg _ eq_pre _ _ _ _ _ H).
Qed.
Lemma slot_ack E b w : rel (fun x y : ctx => x_encap_slot y = x_encap_slot x) (write_encap_ack E b w).
Proof.
  assert (P : preorder (fun a b : ctx => x_encap_slot b = x_encap_slot a)) by (split; congruence).
  unfold write_encap_ack, encap_version, process_encap, encap_certificate, encap_get_cert, encap_fail.
  rl P. all: apply rel_mod; intro z; first [reflexivity|destruct (x_peer_temp z); reflexivity].
Qed.
Lemma deliver_taken E id v c b x q x' : handle_deliver_encap E id (v :: c :: b) x = (q, x') -> q <> Panic ->
  ek0 x x' \/ exists n k inner, v = ver x /\ b = n :: k :: inner /\ (x_encap_slot x' = x_encap_slot x /\ x_nego x' = x_nego x /\ x_peer_root x' = x_peer_root x) /\ taken E x inner x'.
Proof.
  intros H Np. unfold handle_deliver_encap in H. apply sbind_any in H as (w & x1 & C & H).
  assert (K1 := ek0_encap_check _ _ _ _ _ C). destruct w as [w| |]; [|left; destruct H as [_ ->]; exact K1..].
  apply sbind_any in H as (w' & x2 & A & H). assert (M2 := calm_write_encap_ack _ _ _ (Some id) _ _ _ A). assert (S2 := slot_ack _ _ _ _ _ _ A). cbv beta in S2.
  assert (K3 : ek0 x2 x'). { destruct w' as [u| |]; [exact (ek0_send_sec _ _ _ _ _ _ _ H)|destruct H as [_ ->]; apply ek0_pre..]. }
  assert (Np2 : w' <> Panic) by (intros ->; destruct H; congruence).
  assert (N2 : x_nego x2 = x_nego x1) by (destruct M2 as [M2 _]; unfold outline in M2; congruence).
  assert (R2 : x_peer_root x2 = x_peer_root x1) by (destruct M2 as [M2 _]; unfold outline in M2; congruence).
  assert (Pv : pview x = pview x1) by (unfold pview; destruct K1 as (-> & -> & -> & -> & -> & ->); reflexivity).
  destruct (N.eq_dec v (ver x1)) as [Ev|Nv].
  - rewrite Ev in A. destruct (ack_taken _ _ _ _ _ _ _ A Np2) as [->|(n & k & inner & -> & T)]; [left; exact (proj2 ek0_pre _ _ _ K1 K3)|].
    right. exists n, k, inner. split; [rewrite Ev; unfold ver; destruct K1 as (_ & _ & _ & _ & _ & ->); reflexivity|]. split; [reflexivity|].
    assert (T' : taken E x inner x') by (apply (taken_view E x1); [exact Pv|]; destruct K3 as (k1 & k2 & k3 & k4 & k5 & k6); exact (taken_then _ _ _ _ _ T k4 k2 k5)).
    destruct K1 as (k1 & _ & k3 & _ & _ & k6). destruct K3 as (j1 & _ & j3 & _ & _ & j6). split; [|exact T']. repeat split; congruence.
  - left. apply ack_other in A; [|exact Nv]. subst x2. exact (proj2 ek0_pre _ _ _ K1 K3).
Qed.
Lemma round_cases E x r z : process_message E x = (Ok r, z) ->
  (x_encap_slot z = x_encap_slot x /\ x_peer_root z = x_peer_root x) /\ (ek x z \/ exists inner, brings E x z inner /\ x_nego z = x_nego x /\ taken E x inner z).
Proof.
  intro H. assert (H0 := H). assert (G : ek x z \/ exists inner, brings E x z inner /\ (x_encap_slot z = x_encap_slot x /\ x_nego z = x_nego x /\ x_peer_root z = x_peer_root x) /\ taken E x inner z).
  2:{ destruct G as [G|(inner & B & (S1 & S2 & S3) & T)]; [|split; [auto|right; exists inner; auto]]. split; [destruct G as ((? & ? & ?) & ?); auto|left; exact G]. }
  unfold process_message in H. unfold sbind, io_recv in H. set (x1 := set_x_io (x_io x + 1) x) in *.
  assert (K1 : ek0 x x1) by (repeat split; reflexivity).
  assert (Fin : ek x1 z -> ek x z) by (intro K; exact (proj2 ek_pre _ _ _ (ek0_ek _ _ K1) K)).
  destruct (e_recv E (x_io x) (x_sent x)) as [f|] eqn:Rv; [|left; apply Fin; unfold sret in H; replace z with x1 by congruence; apply ek_pre].
  destruct (N.ltb_spec BUFFER_SIZE (len f)) as [|Lf]; [left; apply Fin; unfold sret in H; replace z with x1 by congruence; apply ek_pre|].
  unfold process_frame in H. destruct (tr_decap (e_tr E) BUFFER_SIZE f) as [[b [|]]| |] eqn:Td;
    [|left; apply Fin; apply is_ok_inv in H as [r0 H]; refine ((_ : rel ek (dispatch_message E b)) _ _ _ H)|left; apply Fin; unfold sret in H; replace z with x1 by congruence; apply ek_pre|discriminate].
  2:{ unfold dispatch_message, dispatch_plain_finish. rl ek_pre;
      first [apply ek_version|apply ek_capability|apply ek_algorithm|apply ek_digest|apply ek_certificate|apply ek_challenge|apply ek_measurement|apply ek_kx|apply ek_psk|apply ek_vendor|apply ek_finish|apply ek_error]. }
  unfold process_secured in H. destruct (read_session_id b) as [id|] eqn:Ri; [|left; apply Fin; unfold sret in H; replace z with x1 by congruence; apply ek_pre].
  unfold sbind, sget in H. destruct (get_sess id x1) as [s|] eqn:G; [|left; apply Fin; unfold sret in H; replace z with x1 by congruence; apply ek_pre].
  unfold scatch at 1 in H. destruct (on_sess id (decode_secured (e_cr E) true b BUFFER_SIZE) x1) as [a x2] eqn:D.
  assert (K2 := ek0_on_sess _ _ _ _ _ D). assert (Fin2 : ek x2 z -> ek x z) by (intro K; apply Fin; exact (proj2 ek_pre _ _ _ (ek0_ek _ _ K2) K)).
  destruct a as [app|e|]; [|left; apply Fin2; unfold sret in H; replace z with x2 by congruence; apply ek_pre|discriminate].
  destruct (tr_decap_app (e_tr E) MAX_SPDM_MSG_SIZE app) as [[m [|]]| |] eqn:Ta; [| |left; apply Fin2; unfold sret in H; replace z with x2 by congruence; apply ek_pre|discriminate].
  { left. apply Fin2. apply is_ok_inv in H as [r0 H]. refine ((_ : rel ek (dispatch_app E id m)) _ _ _ H). unfold dispatch_app. rl ek_pre. apply ek_send_sec. }
  assert (Np : forall q, dispatch_secured E id m x2 = (q, z) -> q <> Panic). { intros q K ->. unfold is_ok, scatch in H. rewrite K in H. discriminate. }
  apply is_ok_inv in H as [r0 H]. specialize (Np _ H). unfold dispatch_secured in H. rewrite bind_get in H. destruct (get_sess id x2) as [s2|] eqn:G2; [|left; apply Fin2; unfold serr in H; replace z with x2 by congruence; apply ek_pre].
  destruct (s_state s2) eqn:St; [left; apply Fin2; unfold serr in H; replace z with x2 by congruence; apply ek_pre| | |left; apply Fin2; unfold serr in H; replace z with x2 by congruence; apply ek_pre].
  2:{ left. apply Fin2. refine ((_ : rel ek (dispatch_established E id m)) _ _ _ H). unfold dispatch_established. rl ek_pre;
      first [apply ek_digest|apply ek_certificate|apply ek_measurement|apply ek_heartbeat|apply ek_key_update|apply ek_end|apply ek_vendor|apply ek_error]. }
  unfold dispatch_handshaking in H. rewrite bind_get in H. destruct (in_clear (xc x2)); [left; apply Fin2; unfold serr in H; replace z with x2 by congruence; apply ek_pre|].
  destruct (read_header m) as [[h rr]|] eqn:Rh; [|left; apply Fin2; unfold serr in H; replace z with x2 by congruence; apply ek_pre]. cbv zeta in H.
  destruct (e_mut_auth E && (h_code h =? RC_GET_ENCAP)); [left; apply Fin2; exact (ek_get_encap _ _ _ _ _ _ H)|].
  destruct (e_mut_auth E && (h_code h =? RC_DELIVER_ENCAP)) eqn:Cd.
  2:{ left. apply Fin2. match type of H with ?m x2 = _ => refine ((_ : rel ek m) _ _ _ H) end. rl ek_pre; first [apply ek_finish|apply ek_psk_finish|apply ek_vendor|apply ek_error]. }
  apply andb_prop in Cd as [_ Cd]. apply N.eqb_eq in Cd. apply read_header_some in Rh. rewrite Cd in Rh. rewrite Rh in H.
  destruct (deliver_taken _ _ _ _ _ _ _ _ H Np) as [K|(n & k & inner & Ev & -> & S3 & T)]; [left; apply Fin2, ek0_ek, K|].
  assert (K12 := proj2 ek0_pre _ _ _ K1 K2). destruct K12 as (k1 & k2 & k3 & k4 & k5 & k6).
  right. exists inner. split; [|split; [destruct S3 as (s1 & s3 & s4); repeat split; congruence|apply (taken_view E x2); [unfold pview; congruence|exact T]]].
  assert (Gx : get_sess id x = Some s) by exact G.
  unfold on_sess in D. rewrite G in D. destruct (decode_secured (e_cr E) true b BUFFER_SIZE s) as [aa s1] eqn:Dd. assert (aa = Ok app) as -> by congruence.
  exists f, r, id, n, k, s. split; [exact Rv|]. split; [exact Lf|]. split.
  { exists b, s, app, s1. unfold secured_message. rewrite Td. split; [reflexivity|]. split; [|split; [exact Gx|split; [exact Dd|]]].
    - unfold read_session_id in Ri. destruct (N.ltb_spec (len b) 4); [discriminate|]. split; [assumption|congruence].
    - rewrite Ta, Rh, Ev. unfold deliver_encap. replace (ver x2) with (ver x) by (unfold ver; congruence). reflexivity. }
  split; [exact Gx|]. split; [|exact H0].
  assert (Kd := skeep_decode _ _ _ _ _ _ _ Dd). assert (I := get_sess_id _ _ _ G). assert (Ix : s_id s1 = id) by (unfold skey in Kd; congruence).
  assert (Gu := get_sess_upd id s (fun _ => s1) x1 G Ix). assert (x2 = mod_sess id (fun _ => s1) x1) as -> by congruence. rewrite G2 in Gu. unfold skey in Kd. congruence.
Qed.

(** ** histories *)
Definition gathers (E : env) (x0 x : ctx) : Prop :=
  forall t, x_peer_temp x = Some t -> exists parts left, gathering E x0 parts left x /\ t = concat parts /\ len t + left < 4096 /\ (t <> [] -> x_encap_size x = len t + left).
Lemma came_step E x0 x r z : came E x0 x -> process_message E x = (Ok r, z) -> came E x0 z.
Proof. intros C H. exact (served_one _ _ _ _ _ _ C H). Qed.
Lemma gathers_step E x0 x r z : came E x0 x -> gathers E x0 x -> process_message E x = (Ok r, z) -> gathers E x0 z.
Proof.
  intros C J H t Ht. destruct (round_cases _ _ _ _ H) as [_ [K|(inner & B & _ & T)]].
  - destruct K as ((_ & K2 & _) & [[K3 _]|[K3 _]]); [|congruence]. rewrite K3 in Ht. destruct (J _ Ht) as (parts & left & G & Et & L & Z).
    exists parts, left. split; [exact (g_other _ _ _ _ _ _ _ G H K3)|]. split; [exact Et|]. split; [exact L|]. rewrite K2. exact Z.
  - destruct T as [T1 T2 T3|rest Ei T1 T2 T3|t0 part left' T1 T2 T3 T4 T5 T6 T7 T8 T9|t0 part T1 T2 T3 T4 T5 T6 T7 T8 T9|T1 T2]; try congruence.
    + rewrite T1 in Ht. destruct (J _ Ht) as (parts & left & G & Et & L & Z).
      exists parts, left. split; [exact (g_other _ _ _ _ _ _ _ G H T1)|]. split; [exact Et|]. split; [exact L|]. rewrite T2. exact Z.
    + assert (t = []) as -> by congruence. exists [], 0. rewrite Ei in B. split; [exact (g_begin _ _ _ _ _ C T1 B T2)|]. split; [reflexivity|]. split; [reflexivity|congruence].
    + assert (t = t0 ++ part) as -> by congruence. destruct (J _ T1) as (parts & left & G & Et & L & Z). subst t0.
      exists (parts ++ [part]), left'. split; [|split; [rewrite concat_snoc; reflexivity|rewrite len_app; split; [lia|intro; rewrite T8; lia]]].
      refine (g_part _ _ _ _ _ _ _ _ _ G B T2 T3 T4 T5 _ T7). intro Ne. specialize (T6 Ne). specialize (Z Ne). lia.
Qed.
Lemma gathers_always E x0 x : x_peer_temp x0 = None -> came E x0 x -> gathers E x0 x.
Proof.
  intros T0 C. unfold came in C. induction C as [|x y z r C IH H]; [intros t Ht; congruence|]. exact (gathers_step _ _ _ _ _ C (IH T0) H).
Qed.
(** whatever is delivered: what the responder has gathered is exactly the portions delivered in order
    since the retrieval began, consistent with each other, and with what is still announced it stays
    under 4096 bytes *)
Theorem C49_gathered : forall E x0 x t, x_peer_temp x0 = None -> came E x0 x -> x_peer_temp x = Some t ->
  exists parts left, gathering E x0 parts left x /\ t = concat parts /\ len t + left < 4096.
Proof. intros E x0 x t T0 C Ht. destruct (gathers_always _ _ _ T0 C _ Ht) as (parts & left & G & Et & L & _). exists parts, left. auto. Qed.
Print Assumptions C49_gathered.
Lemma nth_set_other v l : forall n k, k <> n -> nth k (set_slot n v l) None = nth k l None.
Proof. induction l as [|a l IH]; intros [|n] [|k] Ne; cbn [set_slot nth]; try reflexivity; try congruence. apply IH. congruence. Qed.
Lemma nth_set_same v l : forall n, nth n (set_slot n v l) None = v \/ set_slot n v l = l.
Proof. induction l as [|a l IH]; intros [|n]; cbn [set_slot nth]; auto. destruct (IH n) as [K|K]; [auto|right; congruence]. Qed.
Lemma nth_set_in v l : forall n, (n < length l)%nat -> nth n (set_slot n v l) None = v.
Proof. induction l as [|a l IH]; intros [|n] L; cbn [set_slot nth length] in *; try lia; [reflexivity|]. apply IH. lia. Qed.
Lemma set_slot_length v l : forall n, length (set_slot n v l) = length l.
Proof. induction l as [|a l IH]; intros [|n]; cbn [set_slot length]; auto. Qed.
(** a chain the responder holds was retrieved that way *)
Theorem C49_stored : forall E x0 x slot c, x_peer_temp x0 = None -> (forall i, slot_of (x_peer_chain x0) i = None) -> came E x0 x ->
  slot_of (x_peer_chain x) slot = Some c ->
  exists y, retrieved E x0 slot c y /\ came E x0 y /\ slot_of (x_peer_chain y) slot = Some c /\ came E y x.
Proof.
  intros E x0 x slot c T0 F0 C. assert (C0 := C). unfold came in C. induction C as [|x y z r C IH H]; intro Hs; [rewrite F0 in Hs; discriminate|].
  specialize (IH T0 F0 C).
  assert (Old : slot_of (x_peer_chain y) slot = Some c -> exists y0, retrieved E x slot c y0 /\ came E x y0 /\ slot_of (x_peer_chain y0) slot = Some c /\ came E y0 z).
  { intro K. destruct (IH K) as (u & U1 & U2 & U3 & U4). exists u. split; [exact U1|]. split; [exact U2|]. split; [exact U3|]. exact (came_step _ _ _ _ _ U4 H). }
  destruct (round_cases _ _ _ _ H) as [_ [K|(inner & B & _ & T)]].
  - destruct K as (_ & [[_ K]|[_ K]]); [apply Old; congruence|]. rewrite K, slot_of_repeat in Hs. discriminate.
  - destruct T as [T1 T2 T3|rest Ei T1 T2 T3|t0 part left' T1 T2 T3 T4 T5 T6 T7 T8 T9|t0 part T1 T2 T3 T4 T5 T6 T7 T8 T9|T1 T2]; try (apply Old; congruence).
    destruct (N.eq_dec slot (x_encap_slot y)) as [->|Ns].
    2:{ apply Old. rewrite <- Hs, T9. unfold slot_of. rewrite nth_set_other; [reflexivity|]. lia. }
    destruct (nth_set_same (Some (t0 ++ part)) (x_peer_chain y) (N.to_nat (x_encap_slot y))) as [Sm|Sm]; [|apply Old; congruence].
    assert (c = t0 ++ part) as -> by (unfold slot_of in Hs; congruence).
    destruct (gathers_always _ _ _ T0 C _ T1) as (parts & left & G & Et & L & Z). subst t0.
    exists z. split; [|split; [exact C0|split; [exact Hs|apply served_none]]].
    exists parts, left, part, inner, y. split; [exact G|]. split; [exact B|]. split; [reflexivity|]. split; [exact T2|]. split; [exact T3|]. split; [intro Ne; specialize (T5 Ne); specialize (Z Ne); lia|].
    split; [reflexivity|]. split; [rewrite len_app; exact T4|]. exact T6.
Qed.
Print Assumptions C49_stored.

(** ** an honest requester *)
Lemma write_err_never e d w x s x' : write_err_data e d w x = (Err s, x') -> False.
Proof. unfold write_err_data, sbind, sget, wenc, sret. destruct (emit _ _); discriminate. Qed.
Lemma encap_check_never E w x s x' : encap_check E w x = (Err s, x') -> False.
Proof.
  unfold encap_check. rewrite bind_get, bind_when. intro H.
  assert (K : forall y, (z <-- sget ;; if negb (contains (n_req_cap (x_nego z)) REQ_ENCAP) || negb (contains (n_rsp_cap (x_nego z)) RSP_ENCAP)
     then write_err_data ERR_UNSUPPORTED_REQUEST RC_GET_ENCAP w
     else if x_conn z <? CONN_AFTER_CERTIFICATE then write_err ERR_UNEXPECTED_REQUEST w else sret w)%st y = (Err s, x') -> False).
  { intros y G. rewrite bind_get in G. match type of G with (if ?c then _ else _) _ = _ => destruct c end; [exact (write_err_never _ _ _ _ _ _ G)|]. match type of G with (if ?c then _ else _) _ = _ => destruct c end; [exact (write_err_never _ _ _ _ _ _ G)|discriminate]. }
  destruct (ver x <? 17); [|exact (K _ H)]. apply sbind_any in H as (q & y & A & H). destruct q as [u|e|]; [exact (K _ H)| |destruct H; discriminate].
  apply sbind_any in A as (q2 & y2 & A2 & A). destruct q2 as [u2|e2|]; [|exact (write_err_never _ _ _ _ _ _ A2)|destruct A; discriminate].
  unfold scatch, sret in A. destruct (send_message E u2 y2) as [[| |] ?]; discriminate.
Qed.
Definition noerr {S A} (m : st S A) : Prop := forall x e x', m x = (Err e, x') -> False.
Lemma noerr_bind {S A B} (m : st S A) (k : A -> st S B) : noerr m -> (forall a, noerr (k a)) -> noerr (sbind m k).
Proof. intros Hm Hk x e x' H. apply sbind_any in H as (q & z & P & H). destruct q as [a|e0|]; [exact (Hk a _ _ _ H)|exact (Hm _ _ _ P)|destruct H; discriminate]. Qed.
Lemma noerr_catch {S A B} (m : st S A) (k : outcome A -> st S B) : (forall a, noerr (k a)) -> noerr (scatch m k).
Proof. intros Hk x e x' H. unfold scatch in H. destruct (m x) as [[a|e0|] z]; [exact (Hk _ _ _ _ H)|exact (Hk _ _ _ _ H)|discriminate]. Qed.
Lemma noerr_ret {S A} (a : A) : noerr (@sret S A a). Proof. intros x e x' H. discriminate. Qed.
Lemma noerr_panic {S A} : noerr (@spanic S A). Proof. intros x e x' H. discriminate. Qed.
Lemma noerr_get {S} : noerr (@sget S). Proof. intros x e x' H. discriminate. Qed.
Lemma noerr_mod {S} f : noerr (@smod S f). Proof. intros x e x' H. discriminate. Qed.
Lemma noerr_unwrap {S A} (o : option A) : noerr (@sunwrap S A o). Proof. intros x e x' H. destruct o; discriminate. Qed.
Lemma noerr_wput e w : noerr (wput e w). Proof. intros x e0 x' H. unfold wput in H. destruct (emit _ _); discriminate. Qed.
Lemma noerr_wenc e w : noerr (wenc e w). Proof. intros x e0 x' H. unfold wenc in H. destruct (emit _ _); discriminate. Qed.
Lemma noerr_rd {A} (d : cctx -> dec A) l : noerr (rd d l). Proof. intros x e0 x' H. unfold rd in H. destruct (d _ _); discriminate. Qed.
Ltac ne := repeat lazymatch goal with
  | |- noerr (match ?e with _ => _ end) => destruct e
  | |- noerr (let _ := _ in _) => cbv zeta
  | |- noerr (sbind _ _) => apply noerr_bind; [|intro]
  | |- noerr (scatch _ _) => apply noerr_catch; intro
  | |- noerr (sret _) => apply noerr_ret
  | |- noerr spanic => apply noerr_panic
  | |- noerr sget => apply noerr_get
  | |- noerr (smod _) => apply noerr_mod
  | |- noerr (sunwrap _) => apply noerr_unwrap
  | |- noerr (wput _ _) => apply noerr_wput
  | |- noerr (wenc _ _) => apply noerr_wenc
  | |- noerr (rd _ _) => apply noerr_rd
  end.
Lemma process_never E n b w : noerr (process_encap E n b w).
Proof. unfold process_encap, encap_fail, encap_get_cert. ne. Qed.
Lemma brings_process E x z inner : brings E x z inner -> e_mut_auth E = true -> in_clear (xc x) = false ->
  exists n w q y y', pview y = pview x /\ process_encap E n inner w y = (Ok q, y') /\ pview z = pview y'.
Proof.
  intros (f & r & id & n & k & s & Rv & Lf & D & G & St & H) M Ic. unfold process_message in H. unfold sbind, io_recv in H. rewrite Rv in H.
  rewrite (proj2 (N.ltb_ge _ _) Lf) in H. set (x1 := set_x_io (x_io x + 1) x) in *.
  assert (D1 : delivered E f x1 id (deliver_encap (ver x) n k inner) false) by exact D. assert (G1 : get_sess id x1 = Some s) by exact G.
  destruct (frame_delivered E f x1 id _ false s D1 G1) as (s1 & K1 & K2 & K3 & K4). rewrite K4 in H. set (x2 := mod_sess id (fun _ => s1) x1) in *.
  assert (P2 : pview x2 = pview x) by reflexivity. assert (V2 : ver x2 = ver x) by reflexivity. assert (C2 : xc x2 = xc x) by reflexivity. clearbody x2.
  unfold is_ok, scatch in H. destruct (dispatch_secured E id (deliver_encap (ver x) n k inner) x2) as [o z'] eqn:Ds. assert (z' = z) as -> by (destruct o; unfold sret in H; congruence).
  assert (Np : o <> Panic) by (intros ->; discriminate).
  unfold dispatch_secured in Ds. rewrite bind_get, K2 in Ds. assert (S1 : s_state s1 = SHandshaking) by (unfold skey in K1; congruence). rewrite S1 in Ds.
  unfold dispatch_handshaking in Ds. rewrite bind_get, C2, Ic in Ds. unfold deliver_encap in Ds. cbn [app] in Ds.
  change (read_header (ver x :: 235 :: n :: k :: inner)) with (Some (mkHeader (ver x) 235, n :: k :: inner)) in Ds. cbv zeta in Ds. cbn [h_code] in Ds. rewrite M in Ds.
  change (true && (235 =? RC_GET_ENCAP)) with false in Ds. change (true && (235 =? RC_DELIVER_ENCAP)) with true in Ds. cbv iota in Ds.
  unfold handle_deliver_encap in Ds. apply sbind_any in Ds as (w & x3 & A & Ds). assert (E3 := ek0_encap_check _ _ _ _ _ A).
  destruct w as [w|e|]; [|destruct (encap_check_never _ _ _ _ _ A)|destruct Ds; congruence].
  apply sbind_any in Ds as (w' & x4 & B & Ds). 
  assert (E4 : ek0 x4 z). { destruct w' as [u| |]; [exact (ek0_send_sec _ _ _ _ _ _ _ Ds)|destruct Ds as [_ ->]; apply ek0_pre..]. }
  assert (Pn : w' <> Panic) by (intros ->; destruct Ds; congruence).
  assert (P3 : pview x3 = pview x) by (rewrite <- P2; unfold pview; destruct E3 as (-> & -> & -> & -> & -> & ->); reflexivity). assert (V3 : ver x3 = ver x) by (unfold pview in P3; unfold ver; congruence).
  assert (P4 : pview z = pview x4) by (unfold pview; destruct E4 as (-> & -> & -> & -> & -> & ->); reflexivity).
  unfold write_encap_ack, encap_version in B. rewrite bind_get in B. change (read_header (ver x :: 235 :: n :: k :: inner)) with (Some (mkHeader (ver x) 235, n :: k :: inner)) in B. cbn [h_version] in B.
  rewrite V3, N.eqb_refl in B. cbn [negb] in B. rewrite bind_rd in B. change (dec_encap_id (n :: k :: inner)) with (POk n inner) in B. cbv iota beta in B.
  apply sbind_any in B as (v & y & P & B). destruct v as [v|e|].
  - assert (y = x4) as -> by (destruct (fst v); [unfold sret in B; congruence|exact (rel_err_msg _ eq_pre _ _ _ _ _ B)]).
    exists n, w, v, x3, x4. auto.
  - destruct (process_never _ _ _ _ _ _ _ P).
  - destruct B; congruence.
Qed.

Lemma digests_decode c mask digests h pad : mask < 256 -> hash_size (n_hash (c_nego c)) = Some h -> length digests = bits_set mask -> Forall (fun d => len d = h) digests ->
  exists p, dec_digests_rsp c ([0; mask] ++ concat digests ++ pad) = POk p pad.
Proof.
  intros Hm Hh HL HF. assert (H64 : h <= 64) by (apply PropDigest.hash_cases in Hh; intuition lia).
  set (ds := map (fun d : bytes => mkV h (d ++ fill (64 - length d) 0)) digests).
  set (p := mkDigests mask (ds ++ repeat (mkV 0 (fill 64 0)) (8 - length ds))). exists p.
  assert (F : Forall (digest_ok c) ds /\ flat_map content ds = concat digests).
  { unfold ds. clear -HF Hh H64. induction HF as [|d l Hd HF [IH1 IH2]]; [split; [constructor|reflexivity]|]. cbn [map flat_map concat]. split.
    - constructor; [|exact IH1]. split; [|exact Hh]. exists d. cbn [v_size v_data]. unfold len in Hd. split; [lia|]. split; [lia|reflexivity].
    - rewrite IH2. f_equal. unfold content. cbn [v_size v_data]. rewrite firstn_app_exact by (unfold len in Hd; lia). reflexivity. }
  destruct F as [F1 F2]. assert (Ld : length ds = bits_set mask) by (unfold ds; rewrite map_length; exact HL).
  assert (O : ok_digests c p). { split; [exact Hm|]. exists ds. split; [exact Ld|]. split; [exact F1|reflexivity]. }
  destruct (rt_digests c p O) as (w & W & _ & K). rewrite (xw_digests c p O) in W. specialize (K pad). rewrite <- K. f_equal. assert (w = wire_digests p) as -> by congruence.
  unfold wire_digests. unfold p. cbn [dg_mask dg_digests]. rewrite <- Ld. rewrite firstn_app_exact by reflexivity. rewrite F2. cbn [app]. reflexivity.
Qed.
Lemma process_digests E n rest w x q x' : process_encap E n ([ver x; 0x01] ++ rest) w x = (Ok q, x') -> (exists p pad, dec_digests_rsp (xc x) rest = POk p pad) ->
  x' = match x_peer_temp x with None => set_x_peer_temp (Some []) x | Some _ => x end.
Proof.
  intros H (p & pad & D). unfold process_encap in H. rewrite bind_get in H. change (read_header ([ver x; 1] ++ rest)) with (Some (mkHeader (ver x) 1, rest)) in H. cbn [h_version h_code] in H.
  rewrite N.eqb_refl in H. cbn [negb] in H. apply sbind_any in H as (a & x1 & A & H). apply wput_eq in A as ->. destruct a as [hd| |]; [|destruct H; discriminate..]. cbv zeta in H.
  change (1 =? RC_DIGESTS) with true in H. cbv iota in H. rewrite bind_rd, D in H.
  apply sbind_any in H as (b & x2 & B & H). rewrite bind_get in B. apply wput_eq in B as ->. destruct b as [b| |]; [|destruct H; discriminate..].
  exact (get_cert_eq _ _ _ _ H).
Qed.
Lemma process_cert E n r w x q x' : process_encap E n ([ver x; 0x02] ++ r) w x = (Ok q, x') ->
  pview x' = pview (snd (encap_certificate E r x)) \/ (fst (encap_certificate E r x) = Ok true /\ x_peer_temp (snd (encap_certificate E r x)) = None).
Proof.
  intros H. unfold process_encap in H. rewrite bind_get in H. change (read_header ([ver x; 2] ++ r)) with (Some (mkHeader (ver x) 2, r)) in H. cbn [h_version h_code] in H.
  rewrite N.eqb_refl in H. cbn [negb] in H. apply sbind_any in H as (a & x1 & A & H). apply wput_eq in A as ->. destruct a as [hd| |]; [|destruct H; discriminate..]. cbv zeta in H.
  change (2 =? RC_DIGESTS) with false in H. change (2 =? RC_CERTIFICATE) with true in H. cbv iota in H. unfold scatch in H. destruct (encap_certificate E r x) as [v y]. cbn [fst snd].
  destruct v as [more|e|]; [| |discriminate].
  - destruct more.
    + destruct (x_peer_temp y) as [t|] eqn:Ty; [left|auto]. apply sbind_any in H as (b & x2 & B & H). rewrite bind_get in B. apply wput_eq in B as ->. destruct b as [b| |]; [|destruct H; discriminate..].
      destruct (fst b); [|unfold encap_fail, sret in H; congruence]. apply get_cert_eq in H. rewrite Ty in H. congruence.
    + left. apply sbind_any in H as (b & x2 & B & H). rewrite bind_get in B. apply wput_eq in B as ->. destruct b as [b| |]; [|destruct H; discriminate..].
      destruct (fst b); [|unfold encap_fail, sret in H; congruence]. rewrite bind_get in H. apply wput_eq in H as ->. reflexivity.
  - left. unfold encap_fail, sret in H. congruence.
Qed.

Lemma firstn_add {A} n m (l : list A) : firstn (n + m) l = firstn n l ++ firstn m (skipn n l).
Proof. revert l. induction n as [|n IH]; intro l; [reflexivity|]. destruct l as [|a l]; [rewrite !firstn_nil; reflexivity|]. cbn [Nat.add firstn skipn app]. f_equal. apply IH. Qed.
(** what an honest requester has brought about *)
Definition brought (chain : bytes) (x0 : ctx) (o : N) (y : ctx) : Prop :=
  x_nego y = x_nego x0 /\ x_encap_slot y = x_encap_slot x0 /\ x_peer_root y = x_peer_root x0 /\ o <= len chain /\
  (o < len chain -> x_peer_temp y = Some (firstn (N.to_nat o) chain) /\ x_peer_chain y = x_peer_chain x0 /\ (o <> 0 -> x_encap_size y = len chain)) /\
  (o = len chain -> x_peer_temp y = None /\ x_peer_chain y = set_slot (N.to_nat (x_encap_slot x0)) (Some chain) (x_peer_chain x0)).
Lemma in_clear_nego x y : x_nego y = x_nego x -> in_clear (xc y) = in_clear (xc x).
Proof. intro H. unfold xc. unfold in_clear. cbn [c_nego]. rewrite H. reflexivity. Qed.
Lemma honest_brought E chain x0 o z : e_mut_auth E = true -> in_clear (xc x0) = false -> x_peer_temp x0 = None -> x_encap_slot x0 < 8 -> 0 < len chain < 4096 ->
  acceptable_chain (e_cr E) (n_hash (x_nego x0)) (x_peer_root x0) chain -> honest E chain x0 o z -> brought chain x0 o z.
Proof.
  intros M Ic T0 S8 Lc Ac H. induction H as [z mask digests h pad B Hm Hh HL HF|o y z pad H IH Lo B].
  - destruct (brings_process _ _ _ _ B M Ic) as (n & w & q & u & u' & P1 & P & P2).
    assert (Vu : ver u = ver x0) by (unfold pview in P1; unfold ver; congruence). assert (Tu : x_peer_temp u = None) by (unfold pview in P1; congruence).
    rewrite <- Vu in P. change ([ver u; 1; 0; mask] ++ concat digests ++ pad) with ([ver u; 1] ++ ([0; mask] ++ concat digests ++ pad)) in P.
    apply process_digests in P.
    2:{ destruct (digests_decode (xc u) mask digests h pad Hm) as [p D]; [|exact HL|exact HF|eauto]. cbn [c_nego xc]. unfold pview in P1. congruence. }
    rewrite Tu in P. subst u'. unfold pview in *. cbn [x_peer_temp x_encap_size x_peer_chain x_encap_slot x_nego x_peer_root set_x_peer_temp] in P2.
    split; [congruence|]. split; [congruence|]. split; [congruence|]. split; [lia|]. split; [|lia]. intros _. split; [cbn [N.to_nat firstn]; congruence|]. split; [congruence|lia].
  - destruct IH as (I1 & I2 & I3 & I4 & I5 & _). destruct (I5 Lo) as (J1 & J2 & J3). clear I5.
    destruct (brings_process _ _ _ _ B M ltac:(rewrite (in_clear_nego x0 y I1); exact Ic)) as (n & w & q & u & u' & P1 & P & P2).
    assert (Vu : ver u = ver x0) by (unfold pview in P1; unfold ver; congruence).
    set (part := slice_of chain o 512) in *. set (left := len chain - o - len part) in *.
    assert (Lp : len part = N.min 512 (len chain - o)) by (unfold part; rewrite slice_len by lia; lia).
    rewrite <- Vu in P. destruct (dec_certificate (ver u) (x_encap_slot x0) part left pad) as (d & Dd & Df); [lia|unfold left; lia|].
    change (certificate_bytes (ver u) (x_encap_slot x0) part left ++ pad) with ([ver u; 2] ++ skipn 2 (certificate_bytes (ver u) (x_encap_slot x0) part left ++ pad)) in P.
    apply process_cert in P. rewrite cert_eq, Dd in P. assert (Tu : x_peer_temp u = Some (firstn (N.to_nat o) chain)) by (unfold pview in P1; congruence). rewrite Tu in P.
    assert (Lt : len (firstn (N.to_nat o) chain) = o) by (unfold len in *; rewrite firstn_length; lia).
    unfold cert_result in P. rewrite Lt in P. rewrite (proj2 (N.leb_le o 4096)) in P by lia. cbn [negb] in P.
    assert (Pk : RspEncap.portion_ok u o (mkCertRsp (x_encap_slot x0) (len part) left d) = true).
    { unfold RspEncap.portion_ok. cbn [cr_portion cr_remainder cr_slot]. change (N.of_nat MAX_CERT_PORTION) with 512. rewrite !(proj2 (N.leb_le _ _)) by lia. rewrite (proj2 (N.ltb_lt _ _)) by (unfold left; lia).
      rewrite (proj2 (N.eqb_eq _ _)) by (unfold pview in P1; congruence). reflexivity. }
    rewrite Pk in P. cbn [negb] in P. cbv zeta in P. cbn [cr_portion cr_remainder cr_data] in P. rewrite Df in P.
    assert (Bs : x_encap_size (begun u (firstn (N.to_nat o) chain) (mkCertRsp (x_encap_slot x0) (len part) left d)) = len chain /\
       x_peer_chain (begun u (firstn (N.to_nat o) chain) (mkCertRsp (x_encap_slot x0) (len part) left d)) = x_peer_chain x0 /\
       x_encap_slot (begun u (firstn (N.to_nat o) chain) (mkCertRsp (x_encap_slot x0) (len part) left d)) = x_encap_slot x0 /\
       x_nego (begun u (firstn (N.to_nat o) chain) (mkCertRsp (x_encap_slot x0) (len part) left d)) = x_nego x0 /\
       x_peer_root (begun u (firstn (N.to_nat o) chain) (mkCertRsp (x_encap_slot x0) (len part) left d)) = x_peer_root x0).
    { unfold begun. rewrite Lt. cbn [cr_portion cr_remainder]. unfold pview in P1. destruct (N.eqb_spec o 0) as [O0|O0].
      - cbn [x_encap_size x_peer_chain x_encap_slot x_nego x_peer_root set_x_encap_size]. split; [unfold left; lia|]. repeat split; congruence.
      - specialize (J3 O0). repeat split; congruence. }
    destruct Bs as (b1 & b2 & b3 & b4 & b5). set (v := begun u _ _) in *. clearbody v. rewrite b1, b2, b3, b4, b5 in P.
    rewrite (proj2 (N.eqb_neq (len chain) 0)) in P by lia. rewrite (proj2 (N.eqb_eq (len chain) (o + len part + left))) in P by (unfold left; lia). cbn [negb andb] in P.
    assert (Ej : firstn (N.to_nat o) chain ++ part = firstn (N.to_nat (o + len part)) chain).
    { replace (N.to_nat (o + len part)) with (N.to_nat o + length part)%nat by (unfold len; lia). rewrite firstn_add. f_equal. unfold part, slice_of. rewrite firstn_length. set (l := skipn (N.to_nat o) chain). set (g := N.to_nat (N.min 512 512)). clearbody g l.
      destruct (Nat.le_ge_cases g (length l)) as [Lg|Lg]; [rewrite Nat.min_l by exact Lg; reflexivity|rewrite Nat.min_r by exact Lg; rewrite !firstn_all2; auto]. }
    rewrite Ej in P. destruct (N.eqb_spec left 0) as [L0|L0]; cbn [negb] in P.
    + assert (Eo : o + len part = len chain) by (unfold left in L0; lia). assert (Ef : firstn (N.to_nat (o + len part)) chain = chain) by (apply firstn_all2; unfold len in *; lia). rewrite Ef in P.
      rewrite (proj2 (C37_accepted_chains _ _ _ _) Ac) in P. rewrite (proj2 (N.ltb_lt _ _) S8) in P. cbn [fst snd] in P. destruct P as [P|[P _]]; [|discriminate].
      unfold pview in P, P2. cbn [x_peer_temp x_encap_size x_peer_chain x_encap_slot x_nego x_peer_root set_x_peer_temp set_x_pslot set_x_peer_chain] in P.
      split; [congruence|]. split; [congruence|]. split; [congruence|]. split; [lia|]. split; [lia|]. intros _. split; [congruence|]. transitivity (x_peer_chain u'); [congruence|]. exact (f_equal (fun p => snd (fst p)) P).
    + cbn [fst snd] in P. destruct P as [P|[_ P]]; [|discriminate]. unfold pview in P, P2. cbn [x_peer_temp x_encap_size x_peer_chain x_encap_slot x_nego x_peer_root set_x_peer_temp] in P.
      split; [congruence|]. split; [congruence|]. split; [congruence|]. split; [lia|]. split; [|unfold left in L0; lia]. intros _. split; [congruence|]. split; [congruence|]. intros _. congruence.
Qed.
(** a requester that delivers the slices of an acceptable chain one after the other has exactly that
    chain stored, in the slot asked for, and no other slot changes *)
Theorem C49_exact : forall E chain x0 z, e_mut_auth E = true -> in_clear (xc x0) = false -> x_peer_temp x0 = None -> x_encap_slot x0 < 8 -> length (x_peer_chain x0) = 8%nat ->
  len chain < 4096 -> acceptable_chain (e_cr E) (n_hash (x_nego x0)) (x_peer_root x0) chain -> honest E chain x0 (len chain) z ->
  slot_of (x_peer_chain z) (x_encap_slot x0) = Some chain /\ x_peer_temp z = None /\
  (forall i, i <> x_encap_slot x0 -> slot_of (x_peer_chain z) i = slot_of (x_peer_chain x0) i).
Proof.
  intros E chain x0 z M Ic T0 S8 L8 Lc Ac H. assert (L0 : 0 < len chain). { destruct Ac as (h & lf & rs & rh & fi & mo & -> & L & _). rewrite !len_app. unfold len. lia. }
  destruct (honest_brought E chain x0 (len chain) z M Ic T0 S8 (conj L0 Lc) Ac H) as (_ & _ & _ & _ & _ & K). destruct (K eq_refl) as [K1 K2].
  rewrite K2. unfold slot_of. split; [apply nth_set_in; lia|]. split; [exact K1|]. intros i Ni. apply nth_set_other. lia.
Qed.
Print Assumptions C49_exact.

(** ** the replies *)
Lemma wput_fits e w u x : xwire e = Some u -> len w + len u <= MAX_SPDM_MSG_SIZE -> wput e w x = (Ok (true, w ++ u), x).
Proof. intros H L. unfold wput. rewrite (PropAlgs.emit_fits e w u H L). reflexivity. Qed.
Lemma xw_header v c : xwire (enc_header (mkHeader v c)) = Some [v; c].
Proof. reflexivity. Qed.
Definition ack_body (v req t n : N) : bytes := [req; t] ++ (if 0x12 <=? v then [n; 0; 0; 0] else []).
Lemma xw_ack c req t n : xwire (enc_encap_ack c (mkEncapAck req t n)) = Some (ack_body (n_version (c_nego c)) req t n).
Proof. unfold enc_encap_ack, ack_body, enc_opt, ver_ge, V12. cbn [ek_id ek_type ek_ack_id]. destruct (18 <=? _); reflexivity. Qed.
Lemma ack_body_len v req t n : len (ack_body v req t n) <= 6.
Proof. unfold ack_body. destruct (_ <=? _); unfold len; cbn; lia. Qed.
Lemma get_cert_out w y t q z : x_peer_temp y = Some t -> len w <= 100 -> encap_get_cert w y = (Ok q, z) -> q = (true, w ++ get_certificate_bytes (ver y) (x_encap_slot y) (len t) 512).
Proof.
  intros T L. unfold encap_get_cert. rewrite bind_mod, T, bind_get, T. unfold sbind, sunwrap, sret. unfold wenc.
  rewrite (PropAlgs.emit_fits _ w (get_certificate_bytes (ver y) (x_encap_slot y) (len t) 512)); [congruence| |].
  - change (N.of_nat MAX_CERT_PORTION) with 512. unfold enc_message, enc_header, enc_payload, enc_get_cert. cbn [m_header m_payload h_version h_code gc_slot gc_offset gc_length].
    rewrite !xwire_app, !PropAlgs.xw8, !PropAlgs.xw16. reflexivity.
  - unfold MAX_SPDM_MSG_SIZE, get_certificate_bytes. rewrite !len_app. change (len [ver y; 130; x_encap_slot y; 0]) with 4. assert (K : forall n v, len (le_bytes n v) = N.of_nat n) by (intros; unfold len; rewrite le_bytes_length; reflexivity). rewrite !K. lia.
Qed.
Lemma cert_steps E r x more y : encap_certificate E r x = (Ok more, y) -> x_encap_id y = x_encap_id x /\ x_encap_slot y = x_encap_slot x /\ x_nego y = x_nego x /\
  (more = true -> x_peer_chain y = x_peer_chain x /\ exists t, x_peer_temp y = Some t) /\ (more = false -> x_peer_temp y = None).
Proof.
  rewrite cert_eq. destruct (dec_cert_rsp r); try discriminate. destruct (x_peer_temp x) as [t|]; [|discriminate]. unfold cert_result. intro C.
  assert (Bp : x_encap_id (begun x t a) = x_encap_id x /\ x_encap_slot (begun x t a) = x_encap_slot x /\ x_nego (begun x t a) = x_nego x /\ x_peer_chain (begun x t a) = x_peer_chain x) by (unfold begun; destruct (len t =? 0); repeat split; reflexivity).
  cbv zeta in C. set (v := begun x t a) in *. clearbody v.
  repeat match type of C with (if ?c then _ else _) = _ => destruct c; try discriminate end.
  - assert (y = set_x_peer_temp (Some (t ++ firstn (N.to_nat (cr_portion a)) (cr_data a))) v) as -> by congruence. assert (more = true) as -> by congruence.
    cbn [x_encap_id x_encap_slot x_nego x_peer_chain x_peer_temp set_x_peer_temp]. destruct Bp as (-> & -> & -> & ->). repeat split; try discriminate. eexists. reflexivity.
  - destruct (verify_chain _ _ _ _); try discriminate. destruct (x_encap_slot v <? 8); [|discriminate].
    match type of C with (_, ?z) = _ => assert (y = z) as -> by congruence end. assert (more = false) as -> by congruence.
    cbn [x_encap_id x_encap_slot x_nego x_peer_chain x_peer_temp set_x_peer_temp set_x_pslot set_x_peer_chain]. destruct Bp as (-> & -> & -> & ->). repeat split; try discriminate.
Qed.
Lemma process_out E n inner x q x' : process_encap E n inner [] x = (Ok q, x') ->
  (forall t, x_peer_temp x' = Some t -> x_peer_temp x' <> x_peer_temp x -> q = (true, encap_ack_bytes (ver x) (x_encap_id x) 1 n (get_certificate_bytes (ver x) (x_encap_slot x) (len t) 512))) /\
  (x_peer_chain x' <> x_peer_chain x -> q = (true, encap_ack_bytes (ver x) (x_encap_id x) 2 n [x_encap_slot x])).
Proof.
  intro H. assert (Same : x' = x -> (forall t, x_peer_temp x' = Some t -> x_peer_temp x' <> x_peer_temp x -> q = (true, encap_ack_bytes (ver x) (x_encap_id x) 1 n (get_certificate_bytes (ver x) (x_encap_slot x) (len t) 512))) /\
    (x_peer_chain x' <> x_peer_chain x -> q = (true, encap_ack_bytes (ver x) (x_encap_id x) 2 n [x_encap_slot x]))) by (intros ->; split; [intros t _ K|intro K]; destruct (K eq_refl)).
  unfold process_encap in H. rewrite bind_get in H. destruct (read_header inner) as [[h r]|] eqn:Rh; [|unfold encap_fail, sret in H; apply Same; congruence].
  destruct (N.eqb_spec (h_version h) (ver x)) as [Hv|]; cbn [negb] in H; [|unfold encap_fail, sret in H; apply Same; congruence].
  unfold sbind at 1 in H. rewrite (wput_fits _ [] _ x (xw_header _ _)) in H by (unfold MAX_SPDM_MSG_SIZE, len; cbn [length]; lia). cbv iota beta in H. cbn [snd app] in H. cbv zeta in H.
  assert (Pa : forall t y, x_nego y = x_nego x -> x_encap_id y = x_encap_id x -> (z <-- sget ;; wput (enc_encap_ack (xc z) (mkEncapAck (x_encap_id z) t n)) [ver x; RC_ENCAP_RESPONSE_ACK])%st y = (Ok (true, [ver x; RC_ENCAP_RESPONSE_ACK] ++ ack_body (ver x) (x_encap_id x) t n), y)).
  { intros t y Hn Hi. rewrite bind_get. rewrite (wput_fits _ _ _ y (xw_ack _ _ _ _)).
    - cbn [c_nego xc]. rewrite Hn, Hi. reflexivity.
    - rewrite Hi. cbn [c_nego xc]. pose proof (ack_body_len (n_version (x_nego y)) (x_encap_id x) t n). unfold MAX_SPDM_MSG_SIZE. unfold len at 1. cbn [length]. lia. }
  assert (La : forall t, len ([ver x; RC_ENCAP_RESPONSE_ACK] ++ ack_body (ver x) (x_encap_id x) t n) <= 100).
  { intro t. rewrite len_app. pose proof (ack_body_len (ver x) (x_encap_id x) t n). unfold len at 1. cbn [length]. lia. }
  assert (Eq : forall t u, ([ver x; RC_ENCAP_RESPONSE_ACK] ++ ack_body (ver x) (x_encap_id x) t n) ++ u = encap_ack_bytes (ver x) (x_encap_id x) t n u).
  { intros t u. unfold encap_ack_bytes, ack_body. rewrite <- !app_assoc. reflexivity. }
  destruct (N.eqb_spec (h_code h) RC_DIGESTS) as [Hc|].
  - rewrite bind_rd in H. destruct (dec_digests_rsp (xc x) r) as [d rest| |]; [|unfold encap_fail, sret in H; apply Same; congruence|discriminate].
    unfold sbind at 1 in H. rewrite (Pa 1 x eq_refl eq_refl) in H. cbv iota beta in H. cbn [snd] in H. assert (H0 := H). apply get_cert_eq in H0.
    destruct (x_peer_temp x) as [t|] eqn:T; [apply Same; exact H0|]. split.
    + intros t Ht _. assert (t = []) as -> by (rewrite H0 in Ht; cbn [x_peer_temp set_x_peer_temp] in Ht; congruence).
      unfold encap_get_cert in H. rewrite bind_mod, T in H. set (y := set_x_peer_temp (Some []) x) in *.
      assert (G : encap_get_cert ([ver x; RC_ENCAP_RESPONSE_ACK] ++ ack_body (ver x) (x_encap_id x) 1 n) y = (Ok q, x')). { unfold encap_get_cert. rewrite bind_mod. exact H. }
      apply (get_cert_out _ _ []) in G; [|reflexivity|apply La]. rewrite G. rewrite Eq. reflexivity.
    + rewrite H0. intro K. destruct (K eq_refl).
  - destruct (N.eqb_spec (h_code h) RC_CERTIFICATE) as [Hc|]; [|unfold encap_fail, sret in H; apply Same; congruence].
    unfold scatch in H. destruct (encap_certificate E r x) as [v y] eqn:C. destruct v as [more|e|]; [| |discriminate].
    + destruct (cert_steps _ _ _ _ _ C) as (S1 & S2 & S3 & S4 & S5). destruct more.
      * destruct (S4 eq_refl) as [S6 [t Ty]]. unfold sbind at 1 in H. rewrite (Pa 1 y S3 S1) in H. cbv iota beta in H. cbn [snd fst] in H. assert (H0 := H). apply get_cert_eq in H0. rewrite Ty in H0. subst x'.
        split; [|intro K; congruence]. intros t0 Ht _. apply (get_cert_out _ _ t0) in H; [|exact Ht|apply La]. rewrite H, Eq. unfold ver. rewrite S3, S2. reflexivity.
      * unfold sbind at 1 in H. rewrite (Pa 2 y S3 S1) in H. cbv iota beta in H. cbn [snd fst] in H. rewrite bind_get in H.
        rewrite (wput_fits _ _ [x_encap_slot y] y) in H; [|apply PropAlgs.xw8|specialize (La 2); unfold MAX_SPDM_MSG_SIZE; unfold len at 2; cbn [length]; lia].
        assert (x' = y) as -> by congruence. assert (q = (true, ([ver x; RC_ENCAP_RESPONSE_ACK] ++ ack_body (ver x) (x_encap_id x) 2 n) ++ [x_encap_slot y])) as -> by congruence.
        split; [intros t Ht; rewrite (S5 eq_refl) in Ht; discriminate|]. intros _. rewrite Eq, S2. reflexivity.
    + unfold encap_fail, sret in H. assert (x' = y) as -> by congruence. assert (K := cert_taken _ _ _ _ _ C ltac:(discriminate)).
      rewrite cert_eq in C. destruct (dec_cert_rsp r) as [p rest| |]; [|apply Same; congruence|discriminate]. destruct (x_peer_temp x) as [t|] eqn:T; [|apply Same; congruence].
      unfold cert_result in C. cbv zeta in C.
      assert (Bp : x_peer_temp (begun x t p) = x_peer_temp x /\ x_peer_chain (begun x t p) = x_peer_chain x) by (unfold begun; destruct (len t =? 0); repeat split; reflexivity). destruct Bp as [B1 B2].
      repeat match type of C with (if ?c then _ else _) = _ => destruct c; try discriminate end;
        try (match type of C with (_, ?z) = _ => assert (y = z) as -> by congruence end; split; [intros t0 Ht Nt|intro Nc]; cbn [x_peer_temp x_peer_chain set_x_peer_temp] in *; congruence).
      destruct (verify_chain _ _ _ _); [destruct (_ <? 8); discriminate| |discriminate].
      match type of C with (_, ?z) = _ => assert (y = z) as -> by congruence end; split; [intros t0 Ht Nt|intro Nc]; cbn [x_peer_temp x_peer_chain set_x_peer_temp] in *; congruence.
Qed.
Lemma ready_check E x : encap_ready x -> encap_check E [] x = (Ok [], x).
Proof.
  intros (V & C1 & C2 & C3). unfold encap_check. rewrite bind_get, bind_when, (proj2 (N.ltb_ge _ _) V), bind_get. change REQ_ENCAP with 4096. change RSP_ENCAP with 4096. rewrite C1, C2, C3. reflexivity.
Qed.
Lemma quiet_process E n b w : rel quiet (process_encap E n b w).
Proof.
  unfold process_encap, encap_certificate, encap_get_cert, encap_fail. rl quiet_pre. all: apply rel_mod; intro z; first [split; reflexivity|destruct (x_peer_temp z); split; reflexivity].
Qed.
Lemma send_secured_sends E id w x z : send_secured_message E id w false x = (Ok tt, z) -> too_large x w = false -> exists t, x_sent z = t :: x_sent x /\ SpecResponder.carries E t w false.
Proof.
  intros H T. unfold send_secured_message in H. rewrite bind_get, T, Bool.andb_false_r in H. unfold send_secured_raw in H.
  apply sbind_any in H as (t & y & A & H). destruct t as [t| |]; [|destruct H; discriminate..]. exists t. split; [|exact (ca_secured E t id w false _ _ A)].
  assert (Sy : x_sent y = x_sent x). { unfold encode_secured_message in A. refine (proj1 ((_ : rel quiet _) _ _ _ A)). rl quiet_pre; apply quiet_on_sess. }
  apply sbind_any in H as (u & y1 & B & H). destruct u as [u| |]; [|destruct H; discriminate..].
  assert (S1 : x_sent y1 = t :: x_sent y). { unfold io_send in B. destruct (e_send E _ _); [discriminate|]. match type of B with (_, ?k) = _ => replace y1 with k by congruence end. reflexivity. }
  apply sbind_any in H as (o & y2 & C & H). assert (y2 = y1) as -> by (unfold sunwrap, sret, spanic in C; destruct (opcode w); congruence). destruct o as [o| |]; [|destruct H; discriminate..].
  rewrite <- Sy, <- S1. unfold after_secured_send in H. refine (proj1 ((_ : rel quiet _) _ _ _ H)). rl quiet_pre; apply quiet_on_sess.
Qed.
Lemma round_process E x z n inner : answered_round E x z n inner -> e_mut_auth E = true -> in_clear (xc x) = false -> encap_ready x ->
  exists q y y', pview y = pview x /\ x_encap_id y = x_encap_id x /\ process_encap E n inner [] y = (Ok q, y') /\ pview z = pview y' /\
    (fst q = true -> (n_req_dts (x_nego x) = 0 \/ len (snd q) <= n_req_dts (x_nego x)) -> exists t, x_sent z = t :: x_sent x /\ SpecResponder.carries E t (snd q) false).
Proof.
  intros (f & id & k & s & Rv & Lf & D & G & St & H) M Ic Rd. unfold process_message in H. unfold sbind, io_recv in H. rewrite Rv in H.
  rewrite (proj2 (N.ltb_ge _ _) Lf) in H. set (x1 := set_x_io (x_io x + 1) x) in *.
  assert (D1 : delivered E f x1 id (deliver_encap (ver x) n k inner) false) by exact D. assert (G1 : get_sess id x1 = Some s) by exact G.
  destruct (frame_delivered E f x1 id _ false s D1 G1) as (s1 & K1 & K2 & K3 & K4). rewrite K4 in H. set (x2 := mod_sess id (fun _ => s1) x1) in *.
  assert (P2 : pview x2 = pview x) by reflexivity. assert (V2 : ver x2 = ver x) by reflexivity. assert (C2 : xc x2 = xc x) by reflexivity.
  assert (I2 : x_encap_id x2 = x_encap_id x) by reflexivity. assert (Q2 : x_sent x2 = x_sent x) by reflexivity. assert (R2 : encap_ready x2) by exact Rd. clearbody x2.
  unfold is_ok, scatch in H. destruct (dispatch_secured E id (deliver_encap (ver x) n k inner) x2) as [o z'] eqn:Ds. assert (z' = z) as -> by (destruct o; unfold sret in H; congruence).
  assert (o = Ok tt) as -> by (destruct o as [[]| |]; unfold sret in H; [reflexivity|discriminate H|discriminate H]).
  unfold dispatch_secured in Ds. rewrite bind_get, K2 in Ds. assert (S1 : s_state s1 = SHandshaking) by (unfold skey in K1; congruence). rewrite S1 in Ds.
  unfold dispatch_handshaking in Ds. rewrite bind_get, C2, Ic in Ds. unfold deliver_encap in Ds. cbn [app] in Ds.
  change (read_header (ver x :: 235 :: n :: k :: inner)) with (Some (mkHeader (ver x) 235, n :: k :: inner)) in Ds. cbv zeta in Ds. cbn [h_code] in Ds. rewrite M in Ds.
  change (true && (235 =? RC_GET_ENCAP)) with false in Ds. change (true && (235 =? RC_DELIVER_ENCAP)) with true in Ds. cbv iota in Ds.
  unfold handle_deliver_encap in Ds. unfold sbind at 1 in Ds. rewrite (ready_check E x2 R2) in Ds. cbv iota beta in Ds.
  apply sbind_any in Ds as (w' & x4 & B & Ds). destruct w' as [u| |]; [|destruct Ds; discriminate..]. assert (E4 := ek0_send_sec _ _ _ _ _ _ _ Ds).
  assert (P4 : pview z = pview x4) by (unfold pview; destruct E4 as (-> & -> & -> & -> & -> & ->); reflexivity).
  unfold write_encap_ack, encap_version in B. rewrite bind_get in B. change (read_header (ver x :: 235 :: n :: k :: inner)) with (Some (mkHeader (ver x) 235, n :: k :: inner)) in B. cbn [h_version] in B.
  rewrite V2, N.eqb_refl in B. cbn [negb] in B. rewrite bind_rd in B. change (dec_encap_id (n :: k :: inner)) with (POk n inner) in B. cbv iota beta in B.
  apply sbind_any in B as (v & y & P & B). destruct v as [v|e|]; [|destruct B; discriminate..].
  assert (x4 = y) as -> by (destruct (fst v); [unfold sret in B; congruence|exact (eq_sym (rel_err_msg _ eq_pre _ _ _ _ _ B))]).
  exists v, x2, y. split; [exact P2|]. split; [exact I2|]. split; [exact P|]. split; [exact P4|]. intros Fv Ft. rewrite Fv in B. assert (u = snd v) as -> by (unfold sret in B; congruence).
  assert (Ny : x_nego y = x_nego x2). { pose proof (calm_process_encap E n inner [] (Some id) _ _ _ P) as [K _]. unfold outline in K. congruence. }
  assert (Sy : x_sent y = x_sent x) by (rewrite (proj1 (quiet_process _ _ _ _ _ _ _ P)); exact Q2). rewrite <- Sy.
  apply (send_secured_sends _ _ _ _ _ Ds). unfold too_large. assert (Nx : x_nego y = x_nego x) by (unfold pview in P2; congruence). rewrite Nx.
  destruct Ft as [-> |Ft]; [reflexivity|]. destruct (negb (n_req_dts (x_nego x) =? 0)); [cbn [andb]; apply N.ltb_ge; exact Ft|reflexivity].
Qed.
(** a retrieval that began or went on asks, in the acknowledgement, for the 512 bytes that follow
    what has been gathered; one that ended acknowledges with the slot number *)
Theorem C49_asks : forall E x z n inner, answered_round E x z n inner -> e_mut_auth E = true -> in_clear (xc x) = false -> encap_ready x ->
  (n_req_dts (x_nego x) = 0 \/ 16 <= n_req_dts (x_nego x)) ->
  (forall t, x_peer_temp z = Some t -> x_peer_temp z <> x_peer_temp x -> exists f, x_sent z = f :: x_sent x /\
     SpecResponder.carries E f (encap_ack_bytes (ver x) (x_encap_id x) 1 n (get_certificate_bytes (ver x) (x_encap_slot x) (len t) 512)) false) /\
  (x_peer_chain z <> x_peer_chain x -> exists f, x_sent z = f :: x_sent x /\
     SpecResponder.carries E f (encap_ack_bytes (ver x) (x_encap_id x) 2 n [x_encap_slot x]) false).
Proof.
  intros E x z n inner A M Ic Rd Dt. destruct (round_process _ _ _ _ _ A M Ic Rd) as (q & y & y' & P1 & P2 & P3 & P4 & P5).
  destruct (process_out _ _ _ _ _ _ P3) as [O1 O2]. unfold pview in P1, P4. assert (Vy : ver y = ver x) by (unfold ver; congruence). assert (Sy : x_encap_slot y = x_encap_slot x) by congruence.
  assert (Ln : forall v a b c u, len u <= 8 -> len (encap_ack_bytes v a b c u) <= 16).
  { intros v a b c u L. unfold encap_ack_bytes. rewrite !len_app. change (len [v; 107; a; b]) with 4. destruct (18 <=? v); [change (len [c; 0; 0; 0]) with 4|change (len (@nil N)) with 0]; lia. }
  split.
  - intros t Ht Nt. specialize (O1 t ltac:(congruence) ltac:(congruence)). rewrite O1, Vy, P2, Sy in P5. apply P5; [reflexivity|]. cbn [snd].
    destruct Dt as [Dt|Dt]; [auto|right]. etransitivity; [|exact Dt]. apply Ln. unfold get_certificate_bytes. rewrite !len_app. change (len [ver x; 130; x_encap_slot x; 0]) with 4.
    assert (K : forall n v, len (le_bytes n v) = N.of_nat n) by (intros; unfold len; rewrite le_bytes_length; reflexivity). rewrite !K. lia.
  - intros Nc. specialize (O2 ltac:(congruence)). rewrite O2, Vy, P2, Sy in P5. apply P5; [reflexivity|]. cbn [snd].
    destruct Dt as [Dt|Dt]; [auto|right]. etransitivity; [|exact Dt]. apply Ln. change (len [x_encap_slot x]) with 1. lia.
Qed.
Print Assumptions C49_asks.
(** ** a case: after negotiation and PSK_EXCHANGE the requester delivers DIGESTS and its 960-byte chain in two portions *)
Definition ea5 : ctx := Eval vm_compute in en_after en_frames 5.
Definition ea6 : ctx := Eval vm_compute in snd (process_message (en_env en_frames) ea5).
Definition ea7 : ctx := Eval vm_compute in snd (process_message (en_env en_frames) ea6).
Definition ea8 : ctx := Eval vm_compute in snd (process_message (en_env en_frames) ea7).
Definition bringsb (E : env) (x : ctx) (id n k : N) (inner : bytes) : bool :=
  match e_recv E (x_io x) (x_sent x) with
  | Some f => (len f <=? BUFFER_SIZE) && deliveredb E f x id (deliver_encap (ver x) n k inner) false
      && match get_sess id x with Some s => match s_state s with SHandshaking => true | _ => false end | None => false end
      && match fst (process_message E x) with Ok (Some true) => true | _ => false end
  | None => false
  end.
Lemma bringsb_ok E x z id n k inner : bringsb E x id n k inner = true -> snd (process_message E x) = z -> answered_round E x z n inner.
Proof.
  unfold bringsb. intros H Z. destruct (e_recv E (x_io x) (x_sent x)) as [f|] eqn:F; [|discriminate].
  apply andb_prop in H as [H H4]. apply andb_prop in H as [H H3]. apply andb_prop in H as [H1 H2].
  destruct (get_sess id x) as [s|] eqn:S; [|discriminate]. destruct (s_state s) eqn:St; try discriminate.
  destruct (process_message E x) as [o y] eqn:P. cbn [fst snd] in *. destruct o as [[[|]|]| |]; try discriminate. subst y.
  exists f, id, k, s. split; [exact F|]. split; [apply N.leb_le; exact H1|]. split; [apply deliveredb_ok; exact H2|]. repeat (split; [assumption|]). exact P.
Qed.
Lemma answered_brings E x z n inner : answered_round E x z n inner -> brings E x z inner.
Proof. intros (f & id & k & s & H1 & H2 & H3 & H4 & H5 & H6). exists f, (Some true), id, n, k, s. auto 10. Qed.
Lemma came_after : forall l n, (forall k, (k < n)%nat -> exists r, fst (process_message (en_env l) (en_after l k)) = Ok r) -> came (en_env l) en_ctx (en_after l n).
Proof.
  intros l n. induction n as [|n IH]; intro H; [apply served_none|]. destruct (H n ltac:(lia)) as [r R].
  apply came_step with (x := en_after l n) (r := r); [apply IH; intros k Hk; apply H; lia|]. change (en_after l (S n)) with (snd (process_message (en_env l) (en_after l n))).
  destruct (process_message (en_env l) (en_after l n)) as [o y]. cbn [fst snd] in *. congruence.
Qed.

Example C49_case :
  (came (en_env en_frames) en_ctx ea5 /\ x_peer_temp en_ctx = None /\ forall i, slot_of (x_peer_chain en_ctx) i = None) /\
  (e_mut_auth (en_env en_frames) = true /\ in_clear (xc ea5) = false /\ x_peer_temp ea5 = None /\ x_encap_slot ea5 = 0 /\ encap_ready ea5 /\ n_req_dts (x_nego ea5) = 0x1000) /\
  acceptable_chain toy (n_hash (x_nego ea5)) (x_peer_root ea5) ex_chain /\ len ex_chain = 960 /\
  honest (en_env en_frames) ex_chain ea5 960 ea8 /\
  answered_round (en_env en_frames) ea5 ea6 0 ([0x12; 1; 0; 1] ++ fill 48 3) /\
  option_map len (x_peer_temp ea7) = Some 512 /\ slot_of (x_peer_chain ea8) 0 = Some ex_chain.
Proof.
  assert (C : came (en_env en_frames) en_ctx ea5).
  { change ea5 with (id ea5). replace (id ea5) with (en_after en_frames 5) by (vm_compute; reflexivity). apply came_after.
    intros k Hk. destruct k as [|[|[|[|[|k]]]]]; [| | | | |lia]; eexists; vm_compute; reflexivity. }
  split; [split; [exact C|]; split; [reflexivity|]; intro i; apply slot_of_repeat|].
  split. { split; [reflexivity|]. split; [reflexivity|]. split; [reflexivity|]. split; [reflexivity|]. split; [|reflexivity].
    split; [vm_compute; discriminate|]. split; [vm_compute; reflexivity|]. split; vm_compute; reflexivity. }
  assert (Hp : x_peer_root ea5 = None) by reflexivity. assert (Hh : n_hash (x_nego ea5) = 2) by reflexivity.
  split. { destruct C35_case as (K1 & _ & _). change (n_hash (x_nego pr2)) with 2 in K1. rewrite Hp, Hh.
    apply (C35_provisioned_chain_is_acceptable _ _ _ ex_certs _ 48 K1); [vm_compute; discriminate|vm_compute; reflexivity| |vm_compute; reflexivity|].
    - intros m d H. cbn [toy cr_hash hash_size] in H. assert (d = le_bytes (N.to_nat 48) (poly m)) as -> by congruence. unfold len. rewrite le_bytes_length. reflexivity.
    - intros r Hr. discriminate. }
  split; [vm_compute; reflexivity|].
  assert (A1 : answered_round (en_env en_frames) ea5 ea6 0 ([0x12; 1; 0; 1] ++ fill 48 3)) by (apply (bringsb_ok _ _ _ ex_id 0 0); vm_compute; reflexivity).
  assert (B2 : brings (en_env en_frames) ea6 ea7 (certificate_bytes 0x12 0 part1 448)) by (apply (answered_brings _ _ _ 0), (bringsb_ok _ _ _ ex_id 0 0); vm_compute; reflexivity).
  assert (B3 : brings (en_env en_frames) ea7 ea8 (certificate_bytes 0x12 0 part2 0)) by (apply (answered_brings _ _ _ 0), (bringsb_ok _ _ _ ex_id 0 0); vm_compute; reflexivity).
  split.
  { assert (H0 : honest (en_env en_frames) ex_chain ea5 0 ea6).
    { apply ho_begin with (mask := 1) (digests := [fill 48 3]) (h := 48) (pad := []); [|lia|reflexivity|reflexivity|].
      - cbn [concat]. rewrite !app_nil_r. exact (answered_brings _ _ _ _ _ A1).
      - constructor; [vm_compute; reflexivity|constructor]. }
    assert (H1 : honest (en_env en_frames) ex_chain ea5 512 ea7).
    { replace 512 with (0 + len (slice_of ex_chain 0 512)) by (vm_compute; reflexivity). apply ho_next with (y := ea6) (pad := []); [exact H0|vm_compute; reflexivity|].
      rewrite app_nil_r. replace (len ex_chain - 0 - len (slice_of ex_chain 0 512)) with 448 by (vm_compute; reflexivity). exact B2. }
    replace 960 with (512 + len (slice_of ex_chain 512 512)) by (vm_compute; reflexivity). apply ho_next with (y := ea7) (pad := []); [exact H1|vm_compute; reflexivity|].
    rewrite app_nil_r. replace (len ex_chain - 512 - len (slice_of ex_chain 512 512)) with 0 by (vm_compute; reflexivity). exact B3. }
  split; [exact A1|]. split; vm_compute; reflexivity.
Qed.
