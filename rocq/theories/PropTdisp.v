(** C47, C48: the TDISP responder's state machine and messages; C66-C68: where it departs from TDISP. *)
From Verif Require Import Bytes BytesFacts Status Codec CodecProofs Parse ParseProofs Algo MsgConn MsgAuth MsgOther Message SpecMsg MsgProofs MsgRound Monad Tdisp SpecTdisp.
From Verif Require Import RspOpcode ReqTrans PropRetr MsgLocal.
From Coq Require Import Lia.
Local Open Scope N_scope.

(** ** C48: round trips *)
Lemma filled_padded max n b : filled max n b -> padded max n b.
Proof. intros (d & L & M & ->). exists d. split; [exact L|]. split; [exact M|]. unfold pad_to. rewrite firstn_all2 by lia. reflexivity. Qed.
Lemma rt_survives {A} e (d : dec A) a : rt e d a -> survives e d a.
Proof. intros (w & W & _ & R). exists w. auto. Qed.
Lemma rt_flags5 v : within 0x1F v -> rt (x_u16 v) d_flags5 v.
Proof.
  intro W. pose proof (within_255 _ _ W). unfold d_flags5. eapply rt_bind_last; [apply rt_u16; lia|]. unfold from_bits, within, FIVE_FLAGS in *. rewrite W, N.eqb_refl. apply rt_ret.
Qed.
Ltac rtt := first [ apply rt_ret
  | eapply rt_bind; [first [apply rt_u8 | apply rt_u16; first [assumption|lia] | apply rt_u24; lia | apply rt_u32; first [assumption|lia] | apply rt_u64; assumption | apply rt_u128; assumption | apply rt_flags5; assumption]|]
  | eapply rt_bind_last; [first [apply rt_u8 | apply rt_u16; first [assumption|lia] | apply rt_u32; first [assumption|lia] | apply rt_u64; assumption | apply rt_u128; assumption | apply rt_flags5; assumption
                                | apply rt_fixed, filled_padded; assumption]|] ].
Ltac rngs := unfold u64, u128 in *; ranges.
Lemma rt_same {A} e e' (d : dec A) a : xwire e = xwire e' -> xcount e = xcount e' -> rt e d a -> rt e' d a.
Proof. intros W C (w & H1 & H2 & H3). exists w. split; [congruence|]. split; [congruence|exact H3]. Qed.
Lemma rt_tdi i : ok_tdi i -> rt (enc_tdi i) dec_tdi i.
Proof.
  destruct i as [r [s|]]; intros [H1 H2]; cbn [i_requester i_segment] in *; rngs; unfold enc_tdi, dec_tdi; cbn [i_requester i_segment].
  - rtt. rewrite <- app_assoc. do 2 rtt. change (1 =? 1) with true. cbv iota. apply rt_retbind. repeat rtt.
  - rtt. apply (rt_same (x_u8 0 ++ x_u8 0 ++ x_u32 0)); [reflexivity|reflexivity|]. do 2 rtt. change (0 =? 1) with false. change (0 =? 0) with true. cbv iota. apply rt_retbind. repeat rtt.
Qed.
Lemma rt_theader h : ok_theader h -> rt (enc_theader h) dec_theader h.
Proof.
  intros (H1 & H2 & H3). unfold enc_theader, dec_theader. do 3 rtt. eapply rt_bind_last; [apply rt_tdi; exact H3|]. destruct h; apply rt_ret.
Qed.
Lemma rt_range p : ok_range p -> rt (enc_range p) dec_range p.
Proof. intros (H1 & H2 & H3 & H4). rngs. unfold enc_range, dec_range. do 4 rtt. destruct p; apply rt_ret. Qed.

Theorem C48_headers_and_payloads_round_trip :
  (forall h, ok_theader h -> survives (enc_theader h) dec_theader h) /\
  (forall v, ok_tversions v -> survives (enc_tversions v) dec_tversions v) /\
  (forall c, u32 c -> survives (enc_tsm_caps c) dec_tsm_caps c) /\
  (forall c, ok_tcaps c -> survives (enc_tcaps c) dec_tcaps c) /\
  (forall p, ok_lock p -> survives (enc_lock p) dec_lock p) /\
  (forall n, u128 n -> survives (enc_lock_nonce n) dec_lock_nonce n) /\
  (forall p, ok_report_req p -> survives (enc_report_req p) dec_report_req p) /\
  (forall p, ok_report p -> survives (enc_report p) dec_report p) /\
  (forall p, ok_tdi_report p -> survives (enc_tdi_report p) dec_tdi_report p) /\
  (forall s, ok_tstate s -> survives (enc_tstate s) dec_tstate s) /\
  (forall n, length n = 32%nat -> survives (enc_start n) dec_start n) /\
  (forall s, survives (enc_p2p s) dec_p2p s) /\
  (forall p, ok_range p -> survives (enc_mmio p) dec_mmio p) /\
  (forall p, ok_terror p -> survives (enc_terror p) dec_terror p) /\
  (forall p, ok_tvdm p -> survives (enc_tvdm p) dec_tvdm p).
Proof.
  split; [intros; apply rt_survives, rt_theader; assumption|].
  split. { intros v (H1 & H2). apply rt_survives. unfold enc_tversions, dec_tversions. do 2 rtt. destruct v; apply rt_ret. }
  split. { intros c H. apply rt_survives, rt_u32. exact H. }
  split. { intros c (H1 & H2 & H3 & H4 & H5 & H6). rngs. apply rt_survives. unfold enc_tcaps, dec_tcaps. do 7 rtt. destruct c; apply rt_ret. }
  split. { intros p (H1 & H2 & H3 & H4). rngs. apply rt_survives. unfold enc_lock, dec_lock. do 5 rtt. destruct p; apply rt_ret. }
  split. { intros n H. apply rt_survives, rt_u128. exact H. }
  split. { intros p (H1 & H2). rngs. apply rt_survives. unfold enc_report_req, dec_report_req. do 2 rtt. destruct p; apply rt_ret. }
  split. { intros p (H1 & H2 & H3). rngs. apply rt_survives. unfold enc_report, dec_report, MAX_TDATA. do 3 rtt. destruct p; apply rt_ret. }
  split. { intros p (H1 & H2 & H3 & H4 & H5 & (l & L1 & L2 & L3 & L4) & H7 & H8). rngs. apply rt_survives. unfold enc_tdi_report, dec_tdi_report, MAX_TDATA. do 5 rtt.
    eapply rt_bind. { apply (rt_table MAX_RANGES range_default (tr_ranges p) dec_range enc_range l (tr_range p) L1 L2 L4). eapply Forall_impl; [|exact L3]. intros a Ha. apply rt_range, Ha. }
    do 2 rtt. destruct p; apply rt_ret. }
  split. { intros s H. apply rt_survives. unfold enc_tstate, dec_tstate. eapply rt_bind_last; [apply rt_u8|].
    assert (E : tdi_of (tdi_code s) = s). { destruct s as [| | | |b]; try reflexivity. cbn [tdi_code]. destruct H as [_ H]. unfold tdi_of. rewrite !(proj2 (N.eqb_neq _ _)) by lia. reflexivity. } rewrite E. apply rt_ret. }
  split. { intros n H. apply rt_survives. unfold enc_start, dec_start, TNONCE. rewrite firstn_all2 by lia. apply rt_arr, H. }
  split. { intros s. apply rt_survives, rt_u8. }
  split. { intros p H. apply rt_survives, rt_range, H. }
  split. { intros p (H1 & H2 & H3). rngs. apply rt_survives. unfold enc_terror, dec_terror, TE_VENDOR, MAX_TVENDOR, MAX_TDATA. do 2 rtt. destruct (te_code p =? 0xFF) eqn:E.
    - destruct H3 as (A & B & C & D). eapply rt_bind_last.
      + do 2 rtt. eapply rt_bind; [apply rt_fixed, filled_padded, C|]. rtt. apply rt_ret.
      + rewrite N.mod_small by lia. destruct p as [c d [r [n v] e]]. apply rt_ret.
    - apply rt_retbind. rewrite N.mod_small by lia. unfold no_ext in H3. destruct p as [c d x]. cbn [te_ext te_code te_data] in *. rewrite H3. apply rt_ret. }
  intros p (H1 & H2 & H3). rngs. apply rt_survives. unfold enc_tvdm, dec_tvdm, MAX_TVENDOR. do 3 rtt. destruct p as [r [n v]]; apply rt_ret.
Qed.
Lemma xw_u64 v : xwire (x_u64 v) = Some (le_bytes 8 v). Proof. unfold x_u64. rewrite xwire_of, wire_u64. reflexivity. Qed.
Lemma xw_u128 v : xwire (x_u128 v) = Some (le_bytes 16 v). Proof. unfold x_u128. rewrite xwire_of, wire_u128. reflexivity. Qed.
Theorem C48_wire_layouts :
  (forall h, ok_theader h -> xwire (enc_theader h) = Some (wire_theader h)) /\
  (forall p, ok_lock p -> xwire (enc_lock p) = Some (wire_lock p)) /\
  (forall c, ok_tcaps c -> xwire (enc_tcaps c) = Some (wire_tcaps c)) /\
  (forall p, ok_range p -> xwire (enc_range p) = Some (wire_range p)).
Proof.
  split; [|split; [|split]].
  - intros [v c [r [g|]]] H; unfold enc_theader, wire_theader, enc_tdi, wire_tdi; cbn [th_version th_code th_tdi i_requester i_segment]; rewrite !xwire_app, ?xw_u8, ?xw_u16, ?xw_u32; reflexivity.
  - intros p H. unfold enc_lock, wire_lock. rewrite !xwire_app, ?xw_u8, ?xw_u16, ?xw_u64. reflexivity.
  - intros p H. unfold enc_tcaps, wire_tcaps. rewrite !xwire_app, ?xw_u8, ?xw_u16, ?xw_u24, ?xw_u32, ?xw_u128. reflexivity.
  - intros p H. unfold enc_range, wire_range. rewrite !xwire_app, ?xw_u16, ?xw_u32, ?xw_u64. reflexivity.
Qed.
Example C48_case : ok_theader (mkTHeader 0x10 0x83 (mkTdi 0x1234 (Some 7))) /\ ok_lock (mkLock 0x11 3 0x1122334455667788 0xFFFFFFFFFFFFFFFF) /\
  xwire (enc_theader (mkTHeader 0x10 0x83 (mkTdi 0x1234 (Some 7)))) = Some [0x10; 0x83; 0; 0; 0x34; 0x12; 7; 1; 0; 0; 0; 0] /\
  ok_terror (mkTErr 0xFF 1 (mkExtErr 2 (mkV 1 (9 :: repeat 0 31)) (7 :: repeat 0 (N.to_nat 0x9FFF)))).
Proof.
  split; [repeat split|]. split; [repeat split|]. split; [reflexivity|]. split; [reflexivity|]. split; [reflexivity|]. cbn [te_code te_ext te_data xe_registry xe_vendor xe_data v_size v_data]. change (255 =? 255) with true. cbv iota.
  split; [reflexivity|]. split; [reflexivity|]. split; [exists [9]; repeat split; cbn; lia|].
  exists [7]. split; [reflexivity|]. split; [cbn [length]; lia|]. replace (N.to_nat 40960 - length [7])%nat with (N.to_nat 0x9FFF) by (cbn [length]; lia). reflexivity.
Qed.

(** ** C47: what one request can do *)
Definition with_calls (s : tdi_state) (new : list (dev_call * bool)) (x : tctx) : tctx := mkTctx (t_version x) (t_tdi x) s (new ++ t_calls x).
(** no step that locks, unlocks or starts tracking *)
Definition harmless (l : list (dev_call * bool)) : Prop := ~ In (DLock, true) l /\ ~ In (DUnlock, true) l.
Inductive did (c : N) (x : tctx) : outcome treply -> tctx -> Prop :=
| did_nothing r : match r with Ok (n, _) => n = 0 | Err _ => True | Panic => False end -> did c x r x
| did_lock b : c = 0x83 -> t_state x = TUnlocked -> did c x (Ok (0, b)) (with_calls TLocked [(DLock, true); (DInit, true)] x)
| did_start b : c = 0x86 -> t_state x = TLocked -> did c x (Ok (0, b)) (with_calls TRun [(DTrack, true)] x)
| did_stop b : c = 0x87 -> did c x (Ok (0, b)) (with_calls TUnlocked [(DUnlock, true); (DErase, true)] x)
| did_refuse b l : harmless l -> did c x (Ok (0, b)) (with_calls TError ((DErase, true) :: l) x)
| did_panic l : harmless l -> did c x Panic (with_calls (t_state x) ((DErase, false) :: l) x).
Lemma with_calls_with s s' l l' x : with_calls s' l' (with_calls s l x) = with_calls s' (l' ++ l) x.
Proof. unfold with_calls. cbn. rewrite app_assoc. reflexivity. Qed.
Lemma dev_runs D k x : dev D k x = (Ok (D (t_calls x) k), with_calls (t_state x) [(k, D (t_calls x) k)] x).
Proof. reflexivity. Qed.
Definition reply_bytes (code : N) (p : enc) (x : tctx) : bytes := written (enc_theader (mkTHeader (t_version x) code (t_tdi x)) ++ p).
Lemma answer_runs code p x : answer code p x = (Ok (0, reply_bytes code p x), x).
Proof. reflexivity. Qed.
Lemma terror_runs D code x : handle_terror D code x =
  if D (t_calls x) DErase then (Ok (0, reply_bytes TR_ERROR (enc_terror (mkTErr code 0 ext_default)) x), with_calls TError [(DErase, true)] x)
  else (Panic, with_calls (t_state x) [(DErase, false)] x).
Proof. unfold handle_terror, sbind at 1. rewrite answer_runs. unfold sbind at 1. rewrite dev_runs. destruct (D (t_calls x) DErase); reflexivity. Qed.
Lemma terror_did D code c x0 l x : harmless l -> x = with_calls (t_state x0) l x0 -> did c x0 (fst (handle_terror D code x)) (snd (handle_terror D code x)).
Proof.
  intros Hl ->. rewrite terror_runs. destruct (D _ DErase); cbn [fst snd]; rewrite with_calls_with; [apply (did_refuse c x0 _ l Hl)|apply (did_panic c x0 l Hl)].
Qed.
Lemma no_calls x : x = with_calls (t_state x) [] x. Proof. destruct x. reflexivity. Qed.
Lemma harmless_nil : harmless []. Proof. split; intros []. Qed.
Lemma harmless_cons k ok l : (k, ok) <> (DLock, true) -> (k, ok) <> (DUnlock, true) -> harmless l -> harmless ((k, ok) :: l).
Proof. intros A B [C D]. split; intros [E|E]; auto. Qed.
Definition does (c : N) (m : st tctx treply) : Prop := forall x, did c x (fst (m x)) (snd (m x)).
Lemma does_terror D code c : does c (handle_terror D code).
Proof. intro x. exact (terror_did D code c x [] x harmless_nil (no_calls x)). Qed.
Lemma does_answer code p c : does c (answer code p).
Proof. intro x. rewrite answer_runs. apply did_nothing. reflexivity. Qed.
Lemma does_get (f : tctx -> st tctx treply) c : (forall y, does c (f y)) -> does c (sbind sget f).
Proof. intros H x. rewrite bind_get. apply H. Qed.
Lemma does_in_state D s m c : (forall x, t_state x = s -> did c x (fst (m x)) (snd (m x))) -> does c (in_state D s m).
Proof.
  intros H x. unfold in_state. rewrite bind_get. destruct (tdi_eqb (t_state x) s) eqn:E; cbn [negb]; [|apply does_terror].
  apply H. destruct (t_state x), s; cbn in E; try discriminate; try reflexivity. apply N.eqb_eq in E. congruence.
Qed.
Lemma safe_theader : dsafe dec_theader.
Proof. unfold dec_theader, dec_tdi. ds. Qed.
Lemma does_parsing {A} D (d : dec A) b k c : dsafe d -> (forall a, does c (k a)) -> does c (parsing D d b k).
Proof.
  intros Hd Hk x. unfold parsing. destruct (dec_theader b) as [h r| |] eqn:E; [|apply does_terror|destruct (safe_theader b E)].
  destruct (d r) as [a r'| |] eqn:E2; [apply Hk|apply does_terror|destruct (Hd r E2)].
Qed.
Lemma theader_code b h r : dec_theader b = POk h r -> nth_error b 1 = Some (th_code h).
Proof.
  unfold dec_theader, dbind. destruct b as [|v [|c t]]; [discriminate|discriminate|].
  change (d_u8 (v :: c :: t)) with (POk v (c :: t)). cbv beta iota. change (d_u8 (c :: t)) with (POk c t). cbv beta iota.
  destruct (d_u16 t) as [? t1| |]; [|discriminate|discriminate]. destruct (dec_tdi t1) as [i t2| |]; [|discriminate|discriminate]. unfold dret. intro H. assert (Hh : h = mkTHeader v c i) by congruence. rewrite Hh. reflexivity.
Qed.
Lemma safe_flags5 : dsafe d_flags5. Proof. unfold d_flags5. ds. Qed.
Lemma safe_lock : dsafe dec_lock. Proof. unfold dec_lock. ds. all: first [apply safe_flags5|ds]. Qed.
Lemma safe_range : dsafe dec_range. Proof. unfold dec_range. ds. all: first [apply safe_flags5|ds]. Qed.
Lemma bind_answer {B} code p (k : treply -> st tctx B) x : sbind (answer code p) k x = k (0, reply_bytes code p x) x.
Proof. reflexivity. Qed.
Lemma bind_dev {B} D k (f : bool -> st tctx B) x : sbind (dev D k) f x = f (D (t_calls x) k) (with_calls (t_state x) [(k, D (t_calls x) k)] x).
Proof. reflexivity. Qed.
Lemma does_lock D b : does 0x83 (handle_lock D b).
Proof.
  apply does_parsing; [exact safe_lock|]. intros _. apply does_in_state. intros x S. rewrite bind_answer, bind_dev.
  destruct (D (t_calls x) DInit).
  - rewrite bind_dev. destruct (D _ DLock).
    + exact (did_lock 131 x _ eq_refl S).
    + rewrite with_calls_with. eapply terror_did; [|reflexivity]. apply harmless_cons; [discriminate|discriminate|]. apply harmless_cons; [discriminate|discriminate|]. exact harmless_nil.
  - eapply terror_did; [|reflexivity]. apply harmless_cons; [discriminate|discriminate|]. exact harmless_nil.
Qed.
Lemma does_start D b : does 0x86 (handle_start D b).
Proof.
  apply does_parsing; [unfold dec_start; ds|]. intros _. apply does_in_state. intros x S. rewrite bind_answer, bind_dev.
  destruct (D (t_calls x) DTrack).
  - exact (did_start 134 x _ eq_refl S).
  - eapply terror_did; [|reflexivity]. apply harmless_cons; [discriminate|discriminate|]. exact harmless_nil.
Qed.
Lemma does_stop D b : does 0x87 (handle_stop D b).
Proof.
  apply does_parsing; [unfold dec_tnone; ds|]. intros _ x. rewrite bind_answer, bind_dev.
  destruct (D (t_calls x) DErase).
  - rewrite bind_dev. destruct (D _ DUnlock).
    + exact (did_stop 135 x _ eq_refl).
    + rewrite with_calls_with. eapply terror_did; [|reflexivity]. apply harmless_cons; [discriminate|discriminate|]. apply harmless_cons; [discriminate|discriminate|]. exact harmless_nil.
  - eapply terror_did; [|reflexivity]. apply harmless_cons; [discriminate|discriminate|]. exact harmless_nil.
Qed.
Lemma does_report D b c : does c (handle_report D b).
Proof. apply does_parsing; [unfold dec_report_req; ds|]. intros _. apply does_get. intro y. destruct (_ || _); [apply does_terror|apply does_answer]. Qed.
Lemma request_did D v c x : code_of v = Some c -> did c x (fst (tdisp_request D v x)) (snd (tdisp_request D v x)).
Proof.
  intro Hc. unfold tdisp_request. destruct (v_size v <? THEADER_SIZE); [apply did_nothing; exact I|]. destruct (dec_theader (v_data v)) as [h r| |] eqn:E; [|apply did_nothing; exact I|destruct (safe_theader _ E)].
  pose proof (theader_code _ _ _ E) as Hn. unfold code_of in Hc. assert (Ec : th_code h = c) by congruence. rewrite Ec. cbv zeta.
  assert (G : forall m, does c m -> did c x (fst (m x)) (snd (m x))) by (intros m H; apply H).
  destruct (c =? TC_VERSION). { apply G, does_parsing; [unfold dec_tnone; ds|]. intros _. apply does_get. intro. apply does_answer. }
  destruct (c =? TC_CAPABILITIES). { apply G, does_parsing; [unfold dec_tsm_caps; ds|]. intros _. apply does_answer. }
  destruct (N.eqb_spec c TC_LOCK) as [->|_]; [apply G, does_lock|].
  destruct (c =? TC_REPORT); [apply G, does_report|].
  destruct (c =? TC_STATE). { apply G, does_parsing; [unfold dec_tnone; ds|]. intros _. apply does_get. intro. apply does_answer. }
  destruct (N.eqb_spec c TC_START) as [->|_]; [apply G, does_start|].
  destruct (N.eqb_spec c TC_STOP) as [->|_]; [apply G, does_stop|].
  destruct (c =? TC_BIND). { apply G, does_parsing; [unfold dec_p2p; ds|]. intros _. apply does_in_state. intros y _. apply does_answer. }
  destruct (c =? TC_UNBIND). { apply G, does_parsing; [unfold dec_p2p; ds|]. intros _. apply does_in_state. intros y _. apply does_answer. }
  destruct (c =? TC_MMIO). { apply G, does_parsing; [exact safe_range|]. intros _. apply does_in_state. intros y _. apply does_answer. }
  destruct (c =? TC_VDM). { apply G, does_parsing; [unfold dec_tvdm; ds|]. intros _. apply does_answer. }
  apply did_nothing. exact I.
Qed.
Lemma request_short D v x : code_of v = None -> exists e, tdisp_request D v x = (Err e, x).
Proof.
  intro Hc. unfold tdisp_request. destruct (v_size v <? THEADER_SIZE); [eexists; reflexivity|]. destruct (dec_theader (v_data v)) as [h r| |] eqn:E; [|eexists; reflexivity|destruct (safe_theader _ E)].
  apply theader_code in E. unfold code_of in Hc. congruence.
Qed.
(** C47, one request.  Either nothing changes, or the move is one the TDISP state machine has for this
    request and the device agreed to what it takes; a panic (the device failed to erase) leaves the state *)
Theorem C47_transitions : forall D v x r x', tdisp_request D v x = (r, x') ->
  (x' = x /\ r <> Panic) \/
  exists c new, code_of v = Some c /\ x' = mkTctx (t_version x) (t_tdi x) (t_state x') (new ++ t_calls x) /\ allowed c (t_state x) (t_state x') /\
    ((exists b, r = Ok b /\ agreed (t_state x') new) \/
     (r = Panic /\ t_state x' = t_state x /\ hd_error new = Some (DErase, false) /\ ~ In (DLock, true) new /\ ~ In (DUnlock, true) new)).
Proof.
  intros D v x r x' H. destruct (code_of v) as [c|] eqn:Hc.
  - pose proof (request_did D v c x Hc) as G. rewrite H in G. cbn [fst snd] in G. destruct G as [r Hr|b Ec S|b Ec S|b Ec|b l Hl|l Hl].
    + left. split; [reflexivity|]. intros ->. exact Hr.
    + right. exists c, [(DLock, true); (DInit, true)]. split; [reflexivity|]. split; [reflexivity|]. cbn [with_calls t_state]. rewrite S. split; [apply locks; exact Ec|]. left. eexists. split; reflexivity.
    + right. exists c, [(DTrack, true)]. split; [reflexivity|]. split; [reflexivity|]. cbn [with_calls t_state]. rewrite S. split; [apply starts; exact Ec|]. left. eexists. split; reflexivity.
    + right. exists c, [(DUnlock, true); (DErase, true)]. split; [reflexivity|]. split; [reflexivity|]. cbn [with_calls t_state]. split; [apply stops; exact Ec|]. left. eexists. split; reflexivity.
    + right. exists c, ((DErase, true) :: l). split; [reflexivity|]. split; [reflexivity|]. cbn [with_calls t_state]. split; [apply fails|]. left. eexists. split; [reflexivity|]. exists l. reflexivity.
    + right. exists c, ((DErase, false) :: l). split; [reflexivity|]. split; [reflexivity|]. cbn [with_calls t_state]. split; [apply stays|]. right. split; [reflexivity|]. split; [reflexivity|]. split; [reflexivity|].
      destruct Hl as [A B]. split; intros [Q|Q]; (discriminate || auto).
  - destruct (request_short D v x Hc) as (e & He). left. split; congruence.
Qed.
(** C47, any history: an interface is CONFIG_LOCKED only while the device holds its configuration locked,
    in RUN only while it also tracks changes, and in CONFIG_UNLOCKED or ERROR only with confidential
    data erased since the last lock *)
Lemma erased_app l calls : harmless l -> erased_since_lock calls -> erased_since_lock (l ++ calls).
Proof.
  intros [Hl _] E later earlier Q. assert (P : exists later', later = l ++ later' /\ calls = later' ++ (DLock, true) :: earlier).
  { revert later Q. induction l as [|a l IH]; intros later Q; [exists later; auto|]. destruct later as [|b later].
    - cbn [app] in Q. exfalso. apply Hl. left. congruence.
    - cbn [app] in Q. assert (a = b) as -> by congruence. destruct (IH (fun F => Hl (or_intror F)) later) as (l' & -> & E2); [congruence|]. exists l'. auto. }
  destruct P as (later' & -> & P). apply in_or_app. right. exact (E _ _ P).
Qed.
Lemma erased_now l calls : harmless l -> erased_since_lock ((DErase, true) :: l ++ calls).
Proof.
  intros [Hl _] later earlier Q. destruct later as [|b later]; cbn [app] in Q; [discriminate|]. left. congruence.
Qed.
Lemma locked_app l calls : harmless l -> locked_config calls -> locked_config (l ++ calls).
Proof. intros [_ Hl] (a & b & -> & N). exists (l ++ a), b. rewrite app_assoc. split; [reflexivity|]. rewrite in_app_iff. tauto. Qed.
Lemma tracked_app l calls : harmless l -> tracked_config calls -> tracked_config (l ++ calls).
Proof. intros [_ Hl] (a & m & b & -> & N & M). exists (l ++ a), m, b. rewrite app_assoc. split; [reflexivity|]. rewrite in_app_iff. tauto. Qed.
Lemma backed_step D v x : state_backed x -> state_backed (snd (tdisp_request D v x)).
Proof.
  intro B. destruct (code_of v) as [c|] eqn:Hc.
  - pose proof (request_did D v c x Hc) as G. destruct G as [r Hr|b Ec S|b Ec S|b Ec|b l Hl|l Hl]; [exact B| | | | |]; unfold state_backed in *; cbn [with_calls t_state t_calls].
    + exists [], (t_calls x). split; [reflexivity|intros []].
    + rewrite S in B. destruct B as (a & e & Q & N). exists [], a, e. rewrite Q. split; [reflexivity|]. split; [intros []|exact N].
    + intros later earlier Q. destruct later as [|k1 [|k2 later]]; cbn [app] in Q; [discriminate|congruence|]. right. left. congruence.
    + apply erased_now, Hl.
    + assert (Hl' : harmless ((DErase, false) :: l)) by (apply harmless_cons; [discriminate|discriminate|exact Hl]).
      destruct (t_state x); [apply erased_app|apply locked_app|apply tracked_app|apply erased_app|]; assumption.
  - destruct (request_short D v x Hc) as (e & He). rewrite He. exact B.
Qed.
Theorem C47_state_backed_by_device : forall D i vs x0, tdisp_new D i = Some x0 -> state_backed (tdisp_after D vs x0).
Proof.
  intros D i vs x0 H. assert (B : state_backed x0).
  { unfold tdisp_new in H. destruct (D [] DInit); [|discriminate]. assert (x0 = mkTctx 16 i TUnlocked [(DInit, true)]) as -> by congruence. intros later earlier Q. cbn [t_calls] in Q.
    destruct later as [|a [|b later]]; cbn [app] in Q; discriminate. }
  clear H. revert x0 B. induction vs as [|v vs IH]; intros x0 B; [exact B|]. cbn [tdisp_after fold_left]. apply IH, backed_step, B.
Qed.

(** ** C47: what an agreeing device makes of well-formed requests *)
Lemma wire_header h : xwire (enc_theader h) = Some (wire_theader h).
Proof. destruct h as [v c [r [g|]]]; unfold enc_theader, wire_theader, enc_tdi, wire_tdi; cbn [th_version th_code th_tdi i_requester i_segment]; rewrite !xwire_app, ?xw_u8, ?xw_u16, ?xw_u32; reflexivity. Qed.
Lemma wire_lock_of p : xwire (enc_lock p) = Some (wire_lock p).
Proof. unfold enc_lock, wire_lock. rewrite !xwire_app, ?xw_u8, ?xw_u16, ?xw_u64. reflexivity. Qed.
Lemma wire_range_of p : xwire (enc_range p) = Some (wire_range p).
Proof. unfold enc_range, wire_range. rewrite !xwire_app, ?xw_u16, ?xw_u32, ?xw_u64. reflexivity. Qed.
Lemma reply_is code p w x : xwire p = Some w -> reply_bytes code p x = answers x code w.
Proof. intro W. unfold reply_bytes, answers, written. rewrite xwire_app, wire_header, W. reflexivity. Qed.
Lemma survives_at {A} e (d : dec A) a w rest : survives e d a -> xwire e = Some w -> d (w ++ rest) = POk a rest.
Proof. intros (w' & W & R) W'. assert (w' = w) as -> by congruence. apply R. Qed.
Lemma asks_header h pl v : asks h pl v -> exists rest, dec_theader (v_data v) = POk h (pl ++ rest).
Proof.
  intros (O & _ & rest & ->). exists rest. apply (survives_at (enc_theader h)); [|apply wire_header]. apply (proj1 C48_headers_and_payloads_round_trip), O.
Qed.
Lemma parsing_at {A} D (d : dec A) h pl v a k x : asks h pl v -> (forall rest, d (pl ++ rest) = POk a rest) -> parsing D d (v_data v) k x = k a x.
Proof. intros Q R. destruct (asks_header h pl v Q) as (rest & E). unfold parsing. rewrite E, R. reflexivity. Qed.
Lemma request_at D h pl v x : asks h pl v ->
  tdisp_request D v x =
  let b := v_data v in let c := th_code h in
  (if c =? TC_VERSION then handle_tversion D b
   else if c =? TC_CAPABILITIES then handle_tcapabilities D b
   else if c =? TC_LOCK then handle_lock D b
   else if c =? TC_REPORT then handle_report D b
   else if c =? TC_STATE then handle_tstate D b
   else if c =? TC_START then handle_start D b
   else if c =? TC_STOP then handle_stop D b
   else if c =? TC_BIND then handle_bind D b
   else if c =? TC_UNBIND then handle_unbind D b
   else if c =? TC_MMIO then handle_mmio D b
   else if c =? TC_VDM then handle_tvdm D b
   else serr ST_INVALID_MSG_FIELD) x.
Proof.
  intro Q. destruct (asks_header h pl v Q) as (rest & E). destruct Q as (_ & L & _). unfold tdisp_request. rewrite (proj2 (N.ltb_ge _ _)) by exact L. rewrite E. reflexivity.
Qed.
Lemma in_state_yes D s m x : t_state x = s -> (forall b, s <> TUnknown b) -> in_state D s m x = m x.
Proof. intros S U. unfold in_state. rewrite bind_get, S. destruct s; try reflexivity. destruct (U b eq_refl). Qed.
Lemma in_state_no D s m x : t_state x <> s -> in_state D s m x = handle_terror D TE_INVALID_STATE x.
Proof.
  intros S. unfold in_state. rewrite bind_get. destruct (tdi_eqb (t_state x) s) eqn:E; [|reflexivity]. exfalso. apply S.
  destruct (t_state x), s; cbn in E; try discriminate; try reflexivity. apply N.eqb_eq in E. congruence.
Qed.
Lemma refused D e x : D (t_calls x) DErase = true -> handle_terror D e x = (Ok (0, reply_bytes TR_ERROR (enc_terror (mkTErr e 0 ext_default)) x), moved TError [DErase] x).
Proof. intro H. rewrite terror_runs, H. reflexivity. Qed.
Lemma error_reply e x : e <> 0xFF -> reply_bytes TR_ERROR (enc_terror (mkTErr e 0 ext_default)) x = error_bytes x e.
Proof.
  intro H. apply reply_is. unfold enc_terror. cbn [te_code te_data]. rewrite (proj2 (N.eqb_neq _ _)) by exact H. rewrite !xwire_app, !xw_u32. reflexivity.
Qed.
Ltac req Q C := rewrite (request_at _ _ _ _ _ Q), C; cbv zeta.
Lemma lock_reads p rest : ok_lock p -> dec_lock (wire_lock p ++ rest) = POk p rest.
Proof. intro O. apply (survives_at (enc_lock p)); [|apply wire_lock_of]. apply C48_headers_and_payloads_round_trip, O. Qed.
Lemma range_reads p rest : ok_range p -> dec_mmio (wire_range p ++ rest) = POk p rest.
Proof. intro O. apply (survives_at (enc_mmio p)); [|apply wire_range_of]. apply C48_headers_and_payloads_round_trip, O. Qed.
Lemma start_reads n rest : length n = 32%nat -> dec_start (n ++ rest) = POk n rest.
Proof.
  intro O. apply (survives_at (enc_start n)); [apply C48_headers_and_payloads_round_trip, O|]. unfold enc_start, TNONCE. rewrite firstn_all2 by lia. apply xw_arr.
Qed.
Theorem C47_lifecycle : forall D v h x,
  (forall p, asks h (wire_lock p) v -> th_code h = 0x83 -> ok_lock p -> t_state x = TUnlocked -> willing D (t_calls x) [DInit; DLock] ->
     tdisp_request D v x = (Ok (0, answers x 0x03 (le_bytes 16 0)), moved TLocked [DInit; DLock] x)) /\
  (forall n, asks h n v -> th_code h = 0x86 -> length n = 32%nat -> t_state x = TLocked -> willing D (t_calls x) [DTrack] ->
     tdisp_request D v x = (Ok (0, answers x 0x06 []), moved TRun [DTrack] x)) /\
  (asks h [] v -> th_code h = 0x87 -> willing D (t_calls x) [DErase; DUnlock] ->
     tdisp_request D v x = (Ok (0, answers x 0x07 []), moved TUnlocked [DErase; DUnlock] x)).
Proof.
  intros D v h x. split; [|split].
  - intros p Q C O S (W1 & W2 & _). req Q C. change (handle_lock D (v_data v) x = (Ok (0, answers x 0x03 (le_bytes 16 0)), moved TLocked [DInit; DLock] x)). unfold handle_lock.
    rewrite (parsing_at D dec_lock h (wire_lock p) v p) by (try assumption; intro; apply lock_reads, O). rewrite in_state_yes by (assumption || discriminate).
    rewrite bind_answer, bind_dev, W1. rewrite bind_dev. cbn [with_calls t_calls app]. rewrite W2. rewrite (reply_is _ _ (le_bytes 16 0)) by (apply xw_u128). reflexivity.
  - intros n Q C O S (W1 & _). req Q C. change (handle_start D (v_data v) x = (Ok (0, answers x 0x06 []), moved TRun [DTrack] x)). unfold handle_start.
    rewrite (parsing_at D dec_start h n v n) by (try assumption; intro; apply start_reads, O). rewrite in_state_yes by (assumption || discriminate).
    rewrite bind_answer, bind_dev, W1. rewrite (reply_is _ _ []) by reflexivity. reflexivity.
  - intros Q C (W1 & W2 & _). req Q C. change (handle_stop D (v_data v) x = (Ok (0, answers x 0x07 []), moved TUnlocked [DErase; DUnlock] x)). unfold handle_stop.
    rewrite (parsing_at D dec_tnone h [] v tt) by (try assumption; intro; reflexivity).
    rewrite bind_answer, bind_dev, W1. rewrite bind_dev. cbn [with_calls t_calls app]. rewrite W2. rewrite (reply_is _ _ []) by reflexivity. reflexivity.
Qed.
(** requests that only ask, and the RUN-only ones in RUN: answered, nothing changes.  The state answer
    reports the state *)
Theorem C47_queries : forall D v h x,
  (asks h [] v -> th_code h = 0x85 -> tdisp_request D v x = (Ok (0, answers x 0x05 [tdi_code (t_state x)]), x)) /\
  (asks h [] v -> th_code h = 0x81 -> tdisp_request D v x = (Ok (0, answers x 0x01 [1; t_version x]), x)) /\
  (forall c, asks h (le_bytes 4 c) v -> th_code h = 0x82 -> u32 c -> tdisp_request D v x = (Ok (0, answers x 0x02 (repeat 0 28)), x)) /\
  (forall s, asks h [s] v -> th_code h = 0x88 -> t_state x = TRun -> tdisp_request D v x = (Ok (0, answers x 0x08 []), x)) /\
  (forall s, asks h [s] v -> th_code h = 0x89 -> t_state x = TRun -> tdisp_request D v x = (Ok (0, answers x 0x09 []), x)) /\
  (forall p, asks h (wire_range p) v -> th_code h = 0x8A -> ok_range p -> t_state x = TRun -> tdisp_request D v x = (Ok (0, answers x 0x0A []), x)).
Proof.
  intros D v h x. split; [|split; [|split; [|split; [|split]]]].
  - intros Q C. req Q C. change (handle_tstate D (v_data v) x = (Ok (0, answers x 0x05 [tdi_code (t_state x)]), x)). unfold handle_tstate.
    rewrite (parsing_at D dec_tnone h [] v tt) by (try assumption; intro; reflexivity). rewrite bind_get, answer_runs. rewrite (reply_is _ _ [tdi_code (t_state x)]) by apply xw_u8. reflexivity.
  - intros Q C. req Q C. change (handle_tversion D (v_data v) x = (Ok (0, answers x 0x01 [1; t_version x]), x)). unfold handle_tversion.
    rewrite (parsing_at D dec_tnone h [] v tt) by (try assumption; intro; reflexivity). rewrite bind_get, answer_runs.
    rewrite (reply_is _ _ [1; t_version x]); [reflexivity|]. unfold enc_tversions. rewrite xwire_app, xw_u8, xw_arr. reflexivity.
  - intros c Q C O. req Q C. change (handle_tcapabilities D (v_data v) x = (Ok (0, answers x 0x02 (repeat 0 28)), x)). unfold handle_tcapabilities.
    rewrite (parsing_at D dec_tsm_caps h (le_bytes 4 c) v c); [|assumption|]. 2:{ intro. apply (survives_at (enc_tsm_caps c)); [apply C48_headers_and_payloads_round_trip, O|apply xw_u32]. }
    rewrite answer_runs. rewrite (reply_is _ _ (repeat 0 28)); [reflexivity|]. unfold enc_tcaps. rewrite !xwire_app, ?xw_u8, ?xw_u16, ?xw_u24, ?xw_u32, ?xw_u128. reflexivity.
  - intros s Q C S. req Q C. change (handle_bind D (v_data v) x = (Ok (0, answers x 0x08 []), x)). unfold handle_bind.
    rewrite (parsing_at D dec_p2p h [s] v s) by (try assumption; intro; reflexivity). rewrite in_state_yes by (assumption || discriminate). rewrite answer_runs. rewrite (reply_is _ _ []) by reflexivity. reflexivity.
  - intros s Q C S. req Q C. change (handle_unbind D (v_data v) x = (Ok (0, answers x 0x09 []), x)). unfold handle_unbind.
    rewrite (parsing_at D dec_p2p h [s] v s) by (try assumption; intro; reflexivity). rewrite in_state_yes by (assumption || discriminate). rewrite answer_runs. rewrite (reply_is _ _ []) by reflexivity. reflexivity.
  - intros p Q C O S. req Q C. change (handle_mmio D (v_data v) x = (Ok (0, answers x 0x0A []), x)). unfold handle_mmio.
    rewrite (parsing_at D dec_mmio h (wire_range p) v p) by (try assumption; intro; apply range_reads, O). rewrite in_state_yes by (assumption || discriminate). rewrite answer_runs. rewrite (reply_is _ _ []) by reflexivity. reflexivity.
Qed.
(** in the wrong state: INVALID_INTERFACE_STATE, data erased, ERROR *)
Theorem C47_wrong_state : forall D v h x, willing D (t_calls x) [DErase] ->
  (exists p, asks h (wire_lock p) v /\ th_code h = 0x83 /\ ok_lock p /\ t_state x <> TUnlocked) \/
  (exists n, asks h n v /\ th_code h = 0x86 /\ length n = 32%nat /\ t_state x <> TLocked) \/
  (exists s, asks h [s] v /\ (th_code h = 0x88 \/ th_code h = 0x89) /\ t_state x <> TRun) \/
  (exists p, asks h (wire_range p) v /\ th_code h = 0x8A /\ ok_range p /\ t_state x <> TRun) ->
  tdisp_request D v x = (Ok (0, error_bytes x 0x0004), moved TError [DErase] x).
Proof.
  intros D v h x (W & _) [(p & Q & C & O & S)|[(n & Q & C & O & S)|[(s & Q & [C|C] & S)|(p & Q & C & O & S)]]]; req Q C.
  - change (handle_lock D (v_data v) x = (Ok (0, error_bytes x 4), moved TError [DErase] x)). unfold handle_lock.
    rewrite (parsing_at D dec_lock h (wire_lock p) v p) by (try assumption; intro; apply lock_reads, O). rewrite in_state_no by assumption. rewrite refused by assumption. rewrite error_reply by discriminate. reflexivity.
  - change (handle_start D (v_data v) x = (Ok (0, error_bytes x 4), moved TError [DErase] x)). unfold handle_start.
    rewrite (parsing_at D dec_start h n v n) by (try assumption; intro; apply start_reads, O). rewrite in_state_no by assumption. rewrite refused by assumption. rewrite error_reply by discriminate. reflexivity.
  - change (handle_bind D (v_data v) x = (Ok (0, error_bytes x 4), moved TError [DErase] x)). unfold handle_bind.
    rewrite (parsing_at D dec_p2p h [s] v s) by (try assumption; intro; reflexivity). rewrite in_state_no by assumption. rewrite refused by assumption. rewrite error_reply by discriminate. reflexivity.
  - change (handle_unbind D (v_data v) x = (Ok (0, error_bytes x 4), moved TError [DErase] x)). unfold handle_unbind.
    rewrite (parsing_at D dec_p2p h [s] v s) by (try assumption; intro; reflexivity). rewrite in_state_no by assumption. rewrite refused by assumption. rewrite error_reply by discriminate. reflexivity.
  - change (handle_mmio D (v_data v) x = (Ok (0, error_bytes x 4), moved TError [DErase] x)). unfold handle_mmio.
    rewrite (parsing_at D dec_mmio h (wire_range p) v p) by (try assumption; intro; apply range_reads, O). rewrite in_state_no by assumption. rewrite refused by assumption. rewrite error_reply by discriminate. reflexivity.
Qed.
(** ** C66: the nonce protects nothing: every LOCK answers with the same nonce and START takes any *)
Theorem C66_start_nonce_refuted :
  (forall D v x b x', tdisp_request D v x = (Ok (0, b), x') -> code_of v = Some 0x83 -> t_state x' = TLocked -> x' <> x ->
     b = answers x 0x03 (repeat 0 16)) /\
  (forall D v h n x, asks h n v -> th_code h = 0x86 -> length n = 32%nat -> t_state x = TLocked -> willing D (t_calls x) [DTrack] ->
     t_state (snd (tdisp_request D v x)) = TRun).
Proof.
  split.
  - intros D v x b x' H C S N. unfold tdisp_request in H. destruct (v_size v <? THEADER_SIZE); [unfold serr in H; discriminate|]. destruct (dec_theader (v_data v)) as [h r| |] eqn:E; [|unfold serr in H; discriminate|unfold spanic in H; discriminate].
    pose proof (theader_code _ _ _ E) as Hn. unfold code_of in C. assert (Ec : th_code h = 0x83) by congruence. rewrite Ec in H. cbv zeta in H. change (handle_lock D (v_data v) x = (Ok (0, b), x')) in H.
    unfold handle_lock, parsing in H. rewrite E in H. destruct (dec_lock r) as [p r'| |]; [| |unfold spanic in H; discriminate].
    + unfold in_state in H. rewrite bind_get in H. destruct (negb _).
      * rewrite terror_runs in H. destruct (D _ DErase); [|discriminate]. exfalso. assert (X : t_state x' = TError) by (replace x' with (with_calls TError [(DErase, true)] x) by congruence; reflexivity). congruence.
      * rewrite bind_answer, bind_dev in H. destruct (D (t_calls x) DInit).
        -- rewrite bind_dev in H. destruct (D _ DLock).
           ++ assert (B : (Ok (0, reply_bytes (answer_code TC_LOCK) (enc_lock_nonce 0) x) : outcome treply) = Ok (0, b)) by (unfold sbind, smod, sret in H; congruence).
              assert (b = reply_bytes (answer_code TC_LOCK) (enc_lock_nonce 0) x) as -> by congruence. rewrite (reply_is _ _ (le_bytes 16 0)) by (apply xw_u128). reflexivity.
           ++ rewrite terror_runs in H. destruct (D _ DErase); [|discriminate]. exfalso. assert (X : t_state x' = TError) by (injection H as _ <-; reflexivity). congruence.
        -- rewrite terror_runs in H. destruct (D _ DErase); [|discriminate]. exfalso. assert (X : t_state x' = TError) by (injection H as _ <-; reflexivity). congruence.
    + rewrite terror_runs in H. destruct (D _ DErase); [|discriminate]. exfalso. assert (X : t_state x' = TError) by (injection H as _ <-; reflexivity). congruence.
  - intros D v h n x Q C L S W. rewrite (proj1 (proj2 (C47_lifecycle D v h x)) n Q C L S W). reflexivity.
Qed.
(** ** C67: no state gets an interface report; asking for one is answered with an error and ends the interface's life *)
Theorem C67_interface_report_refuted : forall D v h p x, asks h (le_bytes 2 (rq_offset p) ++ le_bytes 2 (rq_length p)) v -> th_code h = 0x84 -> ok_report_req p ->
  willing D (t_calls x) [DErase] -> tdisp_request D v x = (Ok (0, error_bytes x 0x0004), moved TError [DErase] x).
Proof.
  intros D v h p x Q C O (W & _). req Q C. change (handle_report D (v_data v) x = (Ok (0, error_bytes x 4), moved TError [DErase] x)). unfold handle_report.
  rewrite (parsing_at D dec_report_req h (le_bytes 2 (rq_offset p) ++ le_bytes 2 (rq_length p)) v p); [|assumption|].
  2:{ intro. apply (survives_at (enc_report_req p)); [apply C48_headers_and_payloads_round_trip, O|]. unfold enc_report_req. rewrite xwire_app, !xw_u16. reflexivity. }
  rewrite bind_get. assert (R : negb (tdi_eqb (t_state x) TRun) || negb (tdi_eqb (t_state x) TLocked) = true) by (destruct (t_state x); reflexivity). rewrite R.
  rewrite refused by assumption. rewrite error_reply by discriminate. reflexivity.
Qed.
(** ** C68: whatever the answer, the VENDOR_DEFINED_RESPONSE that carries it has no payload bytes *)
Theorem C68_reply_reaches_peer_refuted : forall D v x n b x', tdisp_request D v x = (Ok (n, b), x') ->
  forall standard id, xwire (enc_vendor (mkVendor standard id (mkV n b))) = Some ([0; 0] ++ le_bytes 2 standard ++ [v_size id] ++ v_bytes id ++ [0; 0]).
Proof.
  intros D v x n b x' H standard id. assert (n = 0) as ->.
  { destruct (code_of v) as [c|] eqn:Hc.
    - pose proof (request_did D v c x Hc) as G. rewrite H in G. cbn [fst snd] in G.
      remember (Ok (n, b)) as r eqn:R. destruct G as [r Hr|b' Ec S|b' Ec S|b' Ec|b' l Hl|l Hl]; [|congruence|congruence|congruence|congruence|congruence]. rewrite R in Hr. exact Hr.
    - destruct (request_short D v x Hc) as (e & He). congruence. }
  unfold enc_vendor. cbn [vd_standard vd_id vd_payload]. rewrite !xwire_app, !xw_u16, !xw_u8, !xw_arr. reflexivity.
Qed.
(** ** a concrete device (it agrees to everything) and interface *)
Definition agreeable : device := fun _ _ => true.
Definition tdi7 : interface_id := mkTdi 0x1234 (Some 7).
Definition ask_of (c : N) (payload : bytes) : vbuf := mkV 60 (wire_theader (mkTHeader 0x10 c tdi7) ++ payload ++ repeat 0 100).
Definition lock1 : lock_req := mkLock 0x11 3 0x1000 0xFFF.
Example C47_case :
  tdisp_new agreeable tdi7 = Some (mkTctx 0x10 tdi7 TUnlocked [(DInit, true)]) /\
  asks (mkTHeader 0x10 0x83 tdi7) (wire_lock lock1) (ask_of 0x83 (wire_lock lock1)) /\ ok_lock lock1 /\
  asks (mkTHeader 0x10 0x86 tdi7) (repeat 9 32) (ask_of 0x86 (repeat 9 32)) /\
  asks (mkTHeader 0x10 0x84 tdi7) [0; 0; 100; 0] (ask_of 0x84 [0; 0; 100; 0]) /\
  (let x0 := mkTctx 0x10 tdi7 TUnlocked [(DInit, true)] in
   let x1 := tdisp_after agreeable [ask_of 0x83 (wire_lock lock1)] x0 in
   let x2 := tdisp_after agreeable [ask_of 0x86 (repeat 9 32)] x1 in
   t_state x1 = TLocked /\ t_state x2 = TRun /\
   t_state (tdisp_after agreeable [ask_of 0x87 []] x2) = TUnlocked /\
   t_state (tdisp_after agreeable [ask_of 0x84 [0; 0; 100; 0]] x1) = TError /\
   fst (tdisp_request agreeable (ask_of 0x85 []) x2) = Ok (0, [0x10; 0x05; 0; 0; 0x34; 0x12; 7; 1; 0; 0; 0; 0; 2])) /\
  (exists x', tdisp_request (fun _ _ => false) (ask_of 0x87 []) (mkTctx 0x10 tdi7 TRun []) = (Panic, x') /\ t_state x' = TRun).
Proof.
  split; [reflexivity|]. split; [split; [repeat split|]; split; [discriminate|]; eexists; reflexivity|]. split; [repeat split|].
  split; [split; [repeat split|]; split; [discriminate|]; eexists; reflexivity|]. split; [split; [repeat split|]; split; [discriminate|]; eexists; reflexivity|].
  split; [|eexists; split; vm_compute; reflexivity].
  cbv zeta. split; [vm_compute; reflexivity|]. split; [vm_compute; reflexivity|]. split; [vm_compute; reflexivity|]. split; [vm_compute; reflexivity|]. vm_compute; reflexivity.
Qed.
