(** Sessions at the two ends of a handshake: what the handshake programs do not look at. *)
From Verif Require Import Bytes BytesFacts Status Codec Parse Algo Monad Transport Crypto KeySchedule Session SpecSession SessionProofs Context StRel.
From Verif Require Import RspFrame RspCalm RspOpcode RspPass RspEst ReqBase ReqSess ReqFrame ReqTrans ReqHand ReqHand2 SpecKeys KeyProofs SpecPair RspPair.
From Coq Require Import Lia.
Local Open Scope N_scope.

(** the algorithms of [cr], without the key pairs, random numbers and measurements of one end *)
Definition public (cr : crypto) : crypto :=
  mkCrypto (cr_hash cr) (cr_extract cr) (cr_expand cr) (cr_hmac cr) (cr_hmac_verify cr) (cr_seal cr) (cr_open cr)
    (fun _ _ _ _ _ => false) (fun _ _ _ => None) (fun _ => false) (fun _ _ => None) (fun _ _ _ => None) (fun _ _ => None)
    (cr_psk_hs cr) (cr_psk_ms cr) (fun _ _ _ _ => None) (fun _ _ _ _ _ => None).
Lemma hs_public cr v th : generate_handshake_secret cr v th = generate_handshake_secret (public cr) v th. Proof. reflexivity. Qed.
Lemma data_public cr v th : generate_data_secret cr v th = generate_data_secret (public cr) v th. Proof. reflexivity. Qed.
Lemma dhe_public cr v f : set_dhe_secret cr v f = set_dhe_secret (public cr) v f. Proof. reflexivity. Qed.

(** the fields on which the two ends of a session may differ *)
Definition core (s : session) : session := set_s_slot 0 (set_s_heartbeat 0 (set_s_secver 0 (set_s_l1l2 None s))).
Definition blind {A} (m : st session A) : Prop := forall s, m (core s) = (fst (m s), core (snd (m s))).
Lemma core_core s : core (core s) = core s. Proof. reflexivity. Qed.
Lemma blind_bind {A B} (m : st session A) (k : A -> st session B) : blind m -> (forall a, blind (k a)) -> blind (sbind m k).
Proof. intros M K s. unfold sbind. rewrite (M s). destruct (m s) as [[a| |] s']; cbn [fst snd]; [apply K|reflexivity|reflexivity]. Qed.
Lemma blind_get {B} (k : session -> st session B) : (forall s, k (core s) = k s) -> (forall s, blind (k s)) -> blind (sbind sget k).
Proof. intros E K s. rewrite !bind_get, E. apply K. Qed.
Lemma blind_of {A} (o : outcome A) : blind (sof o). Proof. intro s. reflexivity. Qed.
Lemma blind_mod f : (forall s, f (core s) = core (f s)) -> blind (smod f).
Proof. intros F s. unfold smod. rewrite F. reflexivity. Qed.
Lemma blind_when b (m : st session unit) : blind m -> blind (swhen b m). Proof. destruct b; [auto|intros _ s; reflexivity]. Qed.
Ltac bl := repeat (first [apply blind_get; [intro; reflexivity|intro] | apply blind_bind; [|intro] | apply blind_of | apply blind_mod; intro; reflexivity | apply blind_when]).
Lemma blind_hs cr v th : blind (generate_handshake_secret cr v th). Proof. unfold generate_handshake_secret. bl. Qed.
Lemma blind_data cr v th : blind (generate_data_secret cr v th). Proof. unfold generate_data_secret. bl. Qed.
Lemma blind_dhe cr v d : blind (set_dhe_secret cr v d). Proof. unfold set_dhe_secret. bl. Qed.
Definition k_add (m : bytes) (s : session) : session := set_s_th (Some (th_base s ++ m)) s.
(** two sessions with one core run alike *)
Lemma twins {A} (m : st session A) a b r a' : blind m -> core a = core b -> m a = (r, a') -> exists b', m b = (r, b') /\ core a' = core b'.
Proof.
  intros Bm C H. pose proof (Bm a) as Ka. pose proof (Bm b) as Kb. rewrite C, H in Ka. rewrite Ka in Kb. cbn [fst snd] in Kb. exists (snd (m b)). split; [|congruence].
  rewrite (surjective_pairing (m b)). cbn [snd]. congruence.
Qed.

(** ** the handshakes, seen from one session *)
Definition th_now (cr : crypto) : st session bytes := (s <-- sget ;; sof (transcript_hash cr s))%st.
(** request, response up to the HMAC, keys, HMAC *)
Definition exchange_prog (cr : crypto) (v : N) (transcript mac : bytes) : st session unit :=
  (smod (k_add transcript) ;;;
   th1 <-- th_now cr ;;
   generate_handshake_secret cr v th1 ;;;
   smod (k_add mac) ;;;
   smod (set_s_state SHandshaking))%st.
Definition data_prog (cr : crypto) (v : N) : st session unit :=
  (th2 <-- th_now cr ;; generate_data_secret cr v th2 ;;; smod (set_s_state SEstablished))%st.
Lemma blind_th cr : blind (th_now cr). Proof. unfold th_now. bl. Qed.
Lemma blind_exchange cr v t mac : blind (exchange_prog cr v t mac).
Proof. unfold exchange_prog. apply blind_bind; [bl|intro]. apply blind_bind; [apply blind_th|intro]. apply blind_bind; [apply blind_hs|intro]. bl. Qed.
Lemma blind_data_prog cr v : blind (data_prog cr v).
Proof. unfold data_prog. apply blind_bind; [apply blind_th|intro]. apply blind_bind; [apply blind_data|intro]. bl. Qed.
Lemma exchange_public cr v t mac : exchange_prog cr v t mac = exchange_prog (public cr) v t mac. Proof. reflexivity. Qed.
Lemma data_prog_public cr v : data_prog cr v = data_prog (public cr) v. Proof. reflexivity. Qed.
Lemma th_now_run cr s t h : s_th s = Some t -> cr_hash cr (s_hash s) t = Some h -> th_now cr s = (Ok h, s).
Proof. intros T H. unfold th_now. rewrite bind_get. unfold sof, transcript_hash. rewrite T, H. reflexivity. Qed.
Lemma k_add_add a b s : k_add b (k_add a s) = k_add (a ++ b) s.
Proof. unfold k_add at 1. unfold th_base. cbn [k_add s_th set_s_th]. unfold k_add. rewrite <- app_assoc. reflexivity. Qed.
Lemma k_add_th m s : s_th (k_add m s) = Some (th_base s ++ m). Proof. reflexivity. Qed.
Lemma hs_frame cr v th s u s' : generate_handshake_secret cr v th s = (Ok u, s') -> s_id s' = s_id s /\ s_th s' = s_th s /\ s_hash s' = s_hash s /\ s_state s' = s_state s.
Proof. intro H. apply handshake_ok in H as (_ & E & _). rewrite E. repeat split; reflexivity. Qed.
Lemma data_frame cr v th s u s' : generate_data_secret cr v th s = (Ok u, s') -> s' = set_s_app (s_app s') s.
Proof. intro H. apply data_ok in H as (_ & E & _). exact E. Qed.
