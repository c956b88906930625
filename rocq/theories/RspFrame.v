(** What the responder's message handlers leave alone. *)
From Verif Require Import Bytes Status Codec Parse Algo Monad.
From Verif Require Import MsgConn MsgAuth MsgSession MsgOther Message Crypto KeySchedule Session CertOps ChainVerify Context
  RspBase RspConn RspSess RspEncap Responder StRel.
Local Open Scope N_scope.

(** ** sessions seen from the table *)
Definition skey (s : session) : N * sstate := (s_id s, s_state s).
Definition skeep {A} (m : st session A) : Prop := forall s r s', m s = (r, s') -> skey s' = skey s.
Definition same_key (s s' : session) : Prop := skey s' = skey s.
Lemma same_key_pre : preorder same_key.
Proof. split; unfold same_key; congruence. Qed.
Lemma skeep_rel {A} (m : st session A) : skeep m <-> rel same_key m.
Proof. reflexivity. Qed.
Ltac sk := apply skeep_rel; rl same_key_pre; try (apply rel_mod; intro; reflexivity).

Lemma skeep_th v : skeep (smod (set_s_th v)). Proof. sk. Qed.
Lemma skeep_hs cr v th : skeep (generate_handshake_secret cr v th).
Proof. unfold generate_handshake_secret. sk. Qed.
Lemma skeep_data cr v th : skeep (generate_data_secret cr v th).
Proof. unfold generate_data_secret. sk. Qed.
Lemma skeep_create cr v a b : skeep (create_data_secret_update cr v a b).
Proof. unfold create_data_secret_update, update_req, update_rsp. sk. Qed.
Lemma skey_activate a b c s : skey (activate_data_secret_update a b c s) = skey s.
Proof. destruct a, b, c; reflexivity. Qed.
Lemma skeep_dhe cr v d : skeep (set_dhe_secret cr v d).
Proof. unfold set_dhe_secret. sk. Qed.
Lemma skey_set_dir r d s : skey (set_dir r d s) = skey s.
Proof. unfold set_dir. destruct (s_state s) eqn:E, r; cbn; unfold skey; cbn; congruence. Qed.
Lemma skeep_encode cr r a n : skeep (encode_secured cr r a n).
Proof.
  intros s o s' H. unfold encode_secured, bump in H.
  destruct (s_state s); try (replace s' with s by congruence; reflexivity);
    (destruct (encode_msg _ _ _ _ _);
     try (destruct (_ =? _)); match goal with |- skey s' = _ => idtac end;
     first [replace s' with s by congruence; reflexivity
           | injection H as _ <-; apply skey_set_dir]).
Qed.
Lemma skeep_decode cr r a n : skeep (decode_secured cr r a n).
Proof.
  intros s o s' H. unfold decode_secured, bump in H.
  destruct (s_state s); try (replace s' with s by congruence; reflexivity);
    (destruct (decode_msg _ _ _ _ _);
     try (destruct (_ =? _)); match goal with |- skey s' = _ => idtac end;
     first [replace s' with s by congruence; reflexivity
           | injection H as _ <-; apply skey_set_dir]).
Qed.

(** ** the table *)
(** position by position: a slot is unchanged or belonged to session [id] *)
Definition others (sid : option N) (l l' : list session) : Prop :=
  Forall2 (fun s s' => s' = s \/ Some (s_id s) = sid) l l'.
Lemma others_refl sid l : others sid l l.
Proof. induction l; constructor; auto. Qed.
Lemma others_upd id f l : others (Some id) l (upd_sess id f l).
Proof.
  induction l as [|s l IH]; cbn; [constructor|]. destruct (s_id s =? id) eqn:E.
  - constructor; [right; f_equal; now apply N.eqb_eq|apply others_refl].
  - constructor; [now left|exact IH].
Qed.
Lemma others_trans sid l1 l2 l3 :
  map s_id l2 = map s_id l1 -> others sid l1 l2 -> others sid l2 l3 -> others sid l1 l3.
Proof.
  intros K H; revert l3 K. induction H as [|a b l l' H _ IH]; intros l3 K H3; inversion H3; subst; constructor.
  - cbn in K. injection K as K1 K2. destruct H; [|now right]. subst. assumption.
  - apply IH; [cbn in K; congruence|assumption].
Qed.
Lemma map_upd_sess {T} (k : session -> T) id s' l :
  (forall s, find_sess id l = Some s -> k s' = k s) -> map k (upd_sess id (fun _ => s') l) = map k l.
Proof.
  induction l as [|s l IH]; intro H; [reflexivity|]. unfold find_sess in H; cbn in H |- *.
  destruct (s_id s =? id); cbn; f_equal; [now apply H|apply IH, H].
Qed.
Lemma map_upd_fun {T} (k : session -> T) id f l :
  (forall s, k (f s) = k s) -> map k (upd_sess id f l) = map k l.
Proof. intro H. induction l as [|s l IH]; [reflexivity|]. cbn. destruct (s_id s =? id); cbn; f_equal; auto. Qed.

(** ** the calm relation *)
Definition outline (x : ctx) :=
  (x_conn x, x_cfg x, x_nego x, x_last x, (x_chain_data x, x_my_chain x, x_peer_root x), map skey (x_sess x)).
Definition calm (sid : option N) (x x' : ctx) : Prop :=
  outline x' = outline x /\ others sid (x_sess x) (x_sess x').
Lemma map_skey_id l l' : map skey l' = map skey l -> map s_id l' = map s_id l.
Proof.
  intro H. assert (G : forall m, map s_id m = map fst (map skey m)) by (intro; rewrite map_map; reflexivity).
  rewrite !G. now f_equal.
Qed.
Lemma outline_ids x y : outline y = outline x -> map s_id (x_sess y) = map s_id (x_sess x).
Proof. unfold outline. intro H. apply map_skey_id. congruence. Qed.
Lemma calm_pre sid : preorder (calm sid).
Proof.
  split; [split; [reflexivity|apply others_refl]|].
  intros x y z [A1 A2] [B1 B2]. split; [congruence|].
  eapply others_trans; [|exact A2|exact B2]. now apply outline_ids.
Qed.
(** no message leaves *)
Definition quiet (x x' : ctx) : Prop := x_sent x' = x_sent x /\ x_io x' = x_io x.
Lemma quiet_pre : preorder quiet.
Proof. split; unfold quiet; intuition congruence. Qed.

(** a field update that touches neither the outline nor the table *)
Lemma calm_field sid x x' : outline x' = outline x -> x_sess x' = x_sess x -> calm sid x x'.
Proof. intros A B. split; [exact A|rewrite B; apply others_refl]. Qed.
Lemma calm_mod_sess id f x : (forall s, skey (f s) = skey s) -> calm (Some id) x (mod_sess id f x).
Proof.
  intro H. split; [|apply others_upd]. unfold outline, mod_sess. cbn. now rewrite map_upd_fun.
Qed.
Lemma calm_on_sess {A} id (m : st session A) : skeep m -> rel (calm (Some id)) (on_sess id m).
Proof.
  intros H x r x' E. unfold on_sess in E. destruct (get_sess id x) as [s|] eqn:F.
  - destruct (m s) as [r1 s1] eqn:M. injection E as _ <-. split; [|apply others_upd].
    unfold outline, mod_sess. cbn. rewrite map_upd_sess; [reflexivity|].
    intros s0 F0. unfold get_sess in F. rewrite F in F0. injection F0 as <-. exact (H _ _ _ M).
  - replace x' with x by congruence. apply calm_pre.
Qed.
Lemma quiet_on_sess {A} id (m : st session A) : rel quiet (on_sess id m).
Proof.
  intros x r x' E. unfold on_sess in E. destruct (get_sess id x) as [s|] eqn:F.
  - destruct (m s) as [r1 s1] eqn:M. injection E as _ <-. split; reflexivity.
  - replace x' with x by congruence. apply quiet_pre.
Qed.

(** primitives *)
Ltac byfield := intros; apply calm_field; reflexivity.
Lemma calm_append_m1m2 cr e m sid : rel (calm sid) (append_m1m2 cr e m).
Proof.
  intros x r x' H. unfold append_m1m2 in H.
  destruct (x_m1m2 x); [|destruct (hash_ok _ _)];
    match type of H with (_, ?y) = _ => replace x' with y by congruence end; byfield.
Qed.
Lemma quiet_append_m1m2 cr e m : rel quiet (append_m1m2 cr e m).
Proof.
  intros x r x' H. unfold append_m1m2 in H.
  destruct (x_m1m2 x); [|destruct (hash_ok _ _)];
    match type of H with (_, ?y) = _ => replace x' with y by congruence end; split; reflexivity.
Qed.
Lemma calm_append_m cr sid m : rel (calm sid) (append_m cr sid m).
Proof.
  intros x r x' H. unfold append_m in H.
  destruct sid as [id|]; [destruct (get_sess id x) as [s|]; [destruct (s_l1l2 s); [|destruct (hash_ok _ _)]|]
                         |destruct (x_l1l2 x); [|destruct (hash_ok _ _)]];
    match type of H with (_, ?y) = _ => replace x' with y by congruence end;
    first [byfield | apply calm_mod_sess; reflexivity].
Qed.
Lemma quiet_append_m cr sid m : rel quiet (append_m cr sid m).
Proof.
  intros x r x' H. unfold append_m in H.
  destruct sid as [id|]; [destruct (get_sess id x) as [s|]; [destruct (s_l1l2 s); [|destruct (hash_ok _ _)]|]
                         |destruct (x_l1l2 x); [|destruct (hash_ok _ _)]];
    match type of H with (_, ?y) = _ => replace x' with y by congruence end; split; reflexivity.
Qed.
Lemma calm_append_a m sid : rel (calm sid) (append_a m).
Proof.
  intros x r x' H. unfold append_a in H. destruct (_ <? _);
    match type of H with (_, ?y) = _ => replace x' with y by congruence end; byfield.
Qed.
Lemma quiet_append_a m : rel quiet (append_a m).
Proof.
  intros x r x' H. unfold append_a in H. destruct (_ <? _);
    match type of H with (_, ?y) = _ => replace x' with y by congruence end; split; reflexivity.
Qed.
Lemma calm_append_k cr id m : rel (calm (Some id)) (append_k cr id m).
Proof.
  apply calm_on_sess. intros s r s' H. destruct (s_th s); [|destruct (hash_ok _ _)];
    match type of H with (_, ?y) = _ => replace s' with y by congruence end; reflexivity.
Qed.
Lemma quiet_append_k cr id m : rel quiet (append_k cr id m).
Proof. apply quiet_on_sess. Qed.
Lemma calm_append_f cr r id m : rel (calm (Some id)) (append_f cr r id m).
Proof.
  unfold append_f. rl (calm_pre (Some id)); apply rel_mod; intro; apply calm_mod_sess; intro; reflexivity.
Qed.
Lemma quiet_append_f cr r id m : rel quiet (append_f cr r id m).
Proof. unfold append_f. rl quiet_pre; apply rel_mod; intro; split; reflexivity. Qed.
Lemma calm_random cr n sid : rel (calm sid) (get_random cr n).
Proof.
  intros x r x' H. unfold get_random in H.
  match type of H with (_, ?y) = _ => replace x' with y by congruence end; byfield.
Qed.
Lemma quiet_random cr n : rel quiet (get_random cr n).
Proof.
  intros x r x' H. unfold get_random in H.
  match type of H with (_, ?y) = _ => replace x' with y by congruence end; split; reflexivity.
Qed.
Lemma calm_reset_m sid x : calm sid x (reset_m sid x).
Proof. destruct sid; [apply calm_mod_sess; reflexivity|byfield]. Qed.
Lemma calm_reset_buffer c sid x : calm sid x (reset_buffer c sid x).
Proof.
  unfold reset_buffer. set (y := if c =? RC_GET_MEASUREMENTS then x else reset_m sid x).
  assert (Hy : calm sid x y) by (unfold y; destruct (_ =? _); [apply calm_pre|apply calm_reset_m]).
  clearbody y.
  destruct (existsb _ _); [destruct (_ <? _)|destruct (_ =? _)]; try exact Hy;
    (eapply calm_pre; [exact Hy|]; byfield).
Qed.
Lemma quiet_reset_buffer c sid x : quiet x (reset_buffer c sid x).
Proof.
  unfold reset_buffer, quiet.
  set (y := if c =? RC_GET_MEASUREMENTS then x else reset_m sid x).
  assert (Hy : x_sent y = x_sent x /\ x_io y = x_io x)
    by (unfold y; destruct (_ =? _); [|destruct sid]; split; reflexivity).
  clearbody y. destruct (existsb _ _); [destruct (_ <? _)|destruct (_ =? _)]; exact Hy.
Qed.
Lemma calm_summary E t sid : rel (calm sid) (summary E t).
Proof. unfold summary. rl (calm_pre sid); apply rel_mod; byfield. Qed.
Lemma quiet_summary E t : rel quiet (summary E t).
Proof. unfold summary. rl quiet_pre; apply rel_mod; split; reflexivity. Qed.
