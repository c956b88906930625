(** Lemmas about Transport.v *)
From Verif Require Import Bytes BytesFacts Codec CodecProofs StatusProofs Status Transport.
Local Open Scope N_scope.

Lemma w_init_ok b : writer_ok (w_init b).
Proof. unfold writer_ok, w_init; simpl; lia. Qed.

Lemma patch0_exact d l : (length d <= length l)%nat -> patch 0 d l = d ++ skipn (length d) l.
Proof. intro. unfold patch. simpl. reflexivity. Qed.

Lemma patch_0_app d l : patch 0 d l = d ++ skipn (length d) l.
Proof. reflexivity. Qed.

(** writing the one-byte MCTP header *)
Lemma mctp_header_write t out :
  enc_mctp_header t (w_init out) =
  match out with
  | [] => WErr (w_init out)
  | _ :: tl => WOk (mkWriter (enum_get mctp_types t :: tl) 1)
  end.
Proof.
  unfold enc_mctp_header, enum_enc_u8, enc_u8, w_push, w_left, w_init. cbn [w_buf w_offs].
  destruct out as [|o tl]; cbn [length Nat.sub]; [reflexivity|].
  destruct (Nat.ltb_spec (S (length tl)) 1); [lia|]. reflexivity.
Qed.

Lemma mctp_put_spec t err payload out :
  mctp_put t err payload out =
  match out with
  | [] => (Err err, [])
  | _ :: tl =>
      if (length tl <? length payload)%nat then (Err err, enum_get mctp_types t :: tl)
      else (Ok (1 + length payload)%nat,
            enum_get mctp_types t :: payload ++ skipn (length payload) tl)
  end.
Proof.
  unfold mctp_put. rewrite mctp_header_write. destruct out as [|o tl]; [reflexivity|].
  cbn [w_used w_offs w_buf length].
  change (S (length tl) <? 1 + length payload)%nat with (length tl <? length payload)%nat.
  destruct (length tl <? length payload)%nat; reflexivity.
Qed.

Lemma read_mctp_cons b l :
  read_mctp_header (r_init (b :: l)) = Some (enum_of mctp_types b, mkReader (b :: l) 1).
Proof.
  unfold read_mctp_header, enum_read_u8, read_u8, r_take, r_left, r_init. cbn [r_buf r_offs].
  cbn [length Nat.sub]. destruct (Nat.ltb_spec (S (length l)) 1); [lia|]. reflexivity.
Qed.

Lemma mctp_decap_spec tb sb :
  mctp_decap tb sb =
  match tb with
  | b :: l =>
      if (b =? 5) || (b =? 6) then
        if (length sb <? length l)%nat then (Err ST_DECAP_FAIL, sb)
        else (Ok (length l, b =? 6), l ++ skipn (length l) sb)
      else (Err ST_DECAP_FAIL, sb)
  | [] => (Err ST_DECAP_FAIL, sb)
  end.
Proof.
  unfold mctp_decap. destruct tb as [|b l]; [reflexivity|].
  rewrite read_mctp_cons. cbn [r_used r_offs skipn length].
  rewrite (Nat.sub_succ (length l) 0 : (S (length l) - 1)%nat = _), Nat.sub_0_r.
  unfold enum_of, mctp_types. cbn [enum_find].
  destruct (N.eqb_spec b 0) as [->|?]; [reflexivity|].
  destruct (N.eqb_spec b 1) as [->|?]; [reflexivity|].
  destruct (N.eqb_spec b 2) as [->|?]; [reflexivity|].
  destruct (N.eqb_spec b 3) as [->|?]; [reflexivity|].
  destruct (N.eqb_spec b 4) as [->|?]; [reflexivity|].
  destruct (N.eqb_spec b 5) as [->|?]; [reflexivity|].
  destruct (N.eqb_spec b 6) as [->|?]; [reflexivity|].
  destruct (N.eqb_spec b 0x7E) as [->|?]; [reflexivity|].
  destruct (N.eqb_spec b 0x7F) as [->|?]; reflexivity.
Qed.

Lemma mctp_decap_app_spec tb sb :
  mctp_decap_app tb sb =
  match tb with
  | b :: l =>
      if (b =? 5) || (b =? 1) then
        if (length sb <? length l)%nat then (Err ST_DECAP_APP_FAIL, sb)
        else (Ok (length l, b =? 1), l ++ skipn (length l) sb)
      else (Err ST_DECAP_APP_FAIL, sb)
  | [] => (Err ST_DECAP_APP_FAIL, sb)
  end.
Proof.
  unfold mctp_decap_app. destruct tb as [|b l]; [reflexivity|].
  rewrite read_mctp_cons. cbn [r_used r_offs skipn length].
  rewrite (Nat.sub_succ (length l) 0 : (S (length l) - 1)%nat = _), Nat.sub_0_r.
  unfold enum_of, mctp_types. cbn [enum_find].
  destruct (N.eqb_spec b 0) as [->|?]; [reflexivity|].
  destruct (N.eqb_spec b 1) as [->|?]; [reflexivity|].
  destruct (N.eqb_spec b 2) as [->|?]; [reflexivity|].
  destruct (N.eqb_spec b 3) as [->|?]; [reflexivity|].
  destruct (N.eqb_spec b 4) as [->|?]; [reflexivity|].
  destruct (N.eqb_spec b 5) as [->|?]; [reflexivity|].
  destruct (N.eqb_spec b 6) as [->|?]; [reflexivity|].
  destruct (N.eqb_spec b 0x7E) as [->|?]; [reflexivity|].
  destruct (N.eqb_spec b 0x7F) as [->|?]; reflexivity.
Qed.

Lemma mctp_roundtrip payload tb sb secured :
  (1 + length payload <= length tb)%nat -> (length payload <= length sb)%nat ->
  exists tb',
    mctp_encap payload tb secured = (Ok (1 + length payload)%nat, tb') /\
    length tb' = length tb /\
    skipn (1 + length payload) tb' = skipn (1 + length payload) tb /\
    mctp_decap (firstn (1 + length payload) tb') sb =
      (Ok (length payload, secured), payload ++ skipn (length payload) sb).
Proof.
  intros H1 H2. unfold mctp_encap. rewrite mctp_put_spec.
  destruct tb as [|o tl]; [simpl in H1; lia|]. cbn [length] in H1.
  destruct (Nat.ltb_spec (length tl) (length payload)); [lia|].
  eexists. split; [reflexivity|]. split; [|split].
  - cbn [length]. rewrite app_length, skipn_length. lia.
  - cbn [Nat.add skipn]. rewrite skipn_app_exact by reflexivity. reflexivity.
  - cbn [Nat.add firstn]. rewrite firstn_app_exact by reflexivity.
    rewrite mctp_decap_spec.
    destruct (Nat.ltb_spec (length sb) (length payload)); [lia|].
    destruct secured; reflexivity.
Qed.

Lemma mctp_encap_fails payload tb secured :
  (exists s, fst (mctp_encap payload tb secured) = Err s) <-> (length tb < 1 + length payload)%nat.
Proof.
  unfold mctp_encap. rewrite mctp_put_spec. destruct tb as [|o tl].
  - cbn. split; [lia|eauto].
  - cbn [length]. destruct (Nat.ltb_spec (length tl) (length payload)); cbn [fst].
    + split; [lia|eauto].
    + split; [intros [s E]; discriminate | lia].
Qed.

Lemma mctp_app_roundtrip payload tb sb is_app :
  (1 + length payload <= length tb)%nat -> (length payload <= length sb)%nat ->
  exists tb',
    mctp_encap_app payload tb is_app = (Ok (1 + length payload)%nat, tb') /\
    length tb' = length tb /\
    skipn (1 + length payload) tb' = skipn (1 + length payload) tb /\
    mctp_decap_app (firstn (1 + length payload) tb') sb =
      (Ok (length payload, is_app), payload ++ skipn (length payload) sb).
Proof.
  intros H1 H2. unfold mctp_encap_app. rewrite mctp_put_spec.
  destruct tb as [|o tl]; [simpl in H1; lia|]. cbn [length] in H1.
  destruct (Nat.ltb_spec (length tl) (length payload)); [lia|].
  eexists. split; [reflexivity|]. split; [|split].
  - cbn [length]. rewrite app_length, skipn_length. lia.
  - cbn [Nat.add skipn]. rewrite skipn_app_exact by reflexivity. reflexivity.
  - cbn [Nat.add firstn]. rewrite firstn_app_exact by reflexivity.
    rewrite mctp_decap_app_spec.
    destruct (Nat.ltb_spec (length sb) (length payload)); [lia|].
    destruct is_app; reflexivity.
Qed.

Lemma mctp_decap_rejects b l sb :
  b <> 5 -> b <> 6 -> mctp_decap (b :: l) sb = (Err ST_DECAP_FAIL, sb).
Proof.
  intros H5 H6. rewrite mctp_decap_spec. apply N.eqb_neq in H5, H6. rewrite H5, H6. reflexivity.
Qed.

(** ** PCI DOE *)
Definition doe_len_field (n : N) : N := if n / 4 =? 0x40000 then 0 else n / 4.

Definition doe_wire (h : doe_header) : bytes :=
  le_bytes 2 (enum_get doe_vendors (doe_vendor h)) ++
  [enum_get doe_types (doe_type h); 0] ++ le_bytes 4 (doe_len_field (doe_len h + 8)).

Definition doe_chunks (h : doe_header) : list bytes :=
  e_u16 (enum_get doe_vendors (doe_vendor h)) ++ e_u8 (enum_get doe_types (doe_type h)) ++ e_u8 0 ++
  e_u32 (doe_len_field (doe_len h + 8)).

Lemma doe_wire_chunks h : wire (doe_chunks h) = doe_wire h.
Proof.
  unfold doe_chunks, doe_wire. rewrite !wire_app, wire_u16, !wire_u8, wire_u32. reflexivity.
Qed.

Lemma wthen_assoc r k1 k2 : wthen (wthen r k1) k2 = wthen r (fun w => wthen (k1 w) k2).
Proof. destruct r; reflexivity. Qed.

Lemma enc_doe_ok h w :
  writer_ok w -> doe_len h + 8 <= 0x100003 -> enc_doe_header h w = Some (emit (doe_chunks h) w).
Proof.
  intros Hw HL. unfold enc_doe_header, doe_chunks, doe_len_field.
  rewrite N.shiftr_div_pow2. change (2 ^ 2) with 4.
  destruct (N.leb_spec 4294967296 (doe_len h + 8)); [lia|].
  destruct (N.ltb_spec 0x40000 ((doe_len h + 8) / 4)); [lia|].
  unfold enum_enc_u16, enum_enc_u8.
  rewrite enc_u16_emit, !emit_app.
  pose proof (emit_ok (e_u16 (enum_get doe_vendors (doe_vendor h))) w Hw) as O1.
  destruct (emit (e_u16 (enum_get doe_vendors (doe_vendor h))) w) as [w1|w1]; cbn [wthen wres_writer] in *; auto.
  rewrite enc_u8_emit, !emit_app by auto.
  pose proof (emit_ok (e_u8 (enum_get doe_types (doe_type h))) w1 O1) as O2.
  destruct (emit (e_u8 (enum_get doe_types (doe_type h))) w1) as [w2|w2]; cbn [wthen wres_writer] in *; auto.
  rewrite enc_u8_emit, !emit_app by auto.
  pose proof (emit_ok (e_u8 0) w2 O2) as O3.
  destruct (emit (e_u8 0) w2) as [w3|w3]; cbn [wthen wres_writer] in *; auto.
  rewrite enc_u32_emit by auto. reflexivity.
Qed.

Lemma doe_wire_length h : length (doe_wire h) = 8%nat.
Proof. unfold doe_wire. rewrite !app_length, !le_bytes_length. reflexivity. Qed.

(** reading a header *)
Definition p_doe_header : parser doe_header :=
  fun l => match p_u16 l with None => None | Some (v, l) =>
  match p_u8 l with None => None | Some (t, l) =>
  match p_u8 l with None => None | Some (_, l) =>
  match p_u32 l with None => None | Some (n, l) =>
    let n := n mod 0x40000 in
    let n := if n =? 0 then 0x40000 else n in
    if n <? 2 then None
    else Some (mkDoe (enum_of doe_vendors v) (enum_of doe_types t) (4 * n - 8), l)
  end end end end.

Lemma run_reader_ok {A} (p : parser A) r a r' :
  reader_ok r -> (forall l x rest, p l = Some (x, rest) -> exists used, l = used ++ rest) ->
  run_reader p r = Some (a, r') ->
  reader_ok r' /\ r_buf r' = r_buf r /\ exists rest, p (skipn (r_offs r) (r_buf r)) = Some (a, rest) /\
    skipn (r_offs r') (r_buf r') = rest.
Proof.
  intros H HP E. unfold run_reader in E.
  destruct (p (skipn (r_offs r) (r_buf r))) as [[x rest]|] eqn:EP; [|discriminate].
  inversion E; subst; clear E. cbn [r_buf r_offs].
  destruct (HP _ _ _ EP) as [used HU].
  unfold reader_ok in *. cbn [r_buf r_offs]. split; [lia|]. split; auto.
  exists rest. split; auto.
  assert (HL : length (r_buf r) = (r_offs r + length used + length rest)%nat).
  { assert (length (skipn (r_offs r) (r_buf r)) = length used + length rest)%nat by (rewrite HU, app_length; auto).
    rewrite skipn_length in *. lia. }
  replace (length (r_buf r) - length rest)%nat with (r_offs r + length used)%nat by lia.
  rewrite <- skipn_skipn, HU. apply skipn_app_exact. reflexivity.
Qed.

Lemma p_le_suffix n l x rest : p_le n l = Some (x, rest) -> exists used, l = used ++ rest.
Proof.
  unfold p_le. destruct (ptake n l) as [[b r]|] eqn:E; [|discriminate].
  intro H; inversion H; subst. apply ptake_Some in E as [-> _]. eauto.
Qed.

Lemma run_reader_None {A} (p : parser A) r :
  run_reader p r = None <-> p (skipn (r_offs r) (r_buf r)) = None.
Proof. unfold run_reader. destruct (p _) as [[]|]; split; congruence. Qed.

Lemma read_doe_spec tb :
  bytes_ok tb ->
  read_doe_header (r_init tb) =
  match p_doe_header tb with Some (h, l) => Some (h, mkReader tb 8) | None => None end.
Proof.
  intro HB. unfold read_doe_header, enum_read_u16, enum_read_u8.
  assert (R0 : reader_ok (r_init tb)) by (unfold reader_ok; simpl; lia).
  unfold p_doe_header.
  destruct tb as [|b0 tb]; [reflexivity|]. destruct tb as [|b1 tb]; [reflexivity|].
  destruct tb as [|b2 tb]; [reflexivity|]. destruct tb as [|b3 tb]; [reflexivity|].
  destruct tb as [|b4 tb]; [reflexivity|]. destruct tb as [|b5 tb]; [reflexivity|].
  destruct tb as [|b6 tb]; [reflexivity|]. destruct tb as [|b7 tb]; [reflexivity|].
  inv_ok.
  set (buf := b0 :: b1 :: b2 :: b3 :: b4 :: b5 :: b6 :: b7 :: tb).
  assert (Htake : forall o n, (o + n <= 8)%nat -> r_take (mkReader buf o) n = Some (slice o n buf, mkReader buf (o + n))).
  { intros o n Hon. unfold r_take, r_left. cbn [r_buf r_offs].
    destruct (Nat.ltb_spec (length buf - o) n); auto. subst buf. cbn [length] in *. lia. }
  unfold read_u16, read_u8, read_u32, r_init.
  rewrite Htake by lia. change (slice 0 2 buf) with [b0; b1]. cbn [Nat.add].
  rewrite Htake by lia. change (slice 2 1 buf) with [b2]. cbn [Nat.add].
  rewrite Htake by lia. change (slice 3 1 buf) with [b3]. cbn [Nat.add].
  rewrite Htake by lia. change (slice 4 4 buf) with [b4; b5; b6; b7]. cbn [Nat.add].
  rewrite decode_u16_le, decode_u32_le by auto. unfold decode_u8. cbn [nth].
  subst buf. unfold p_u16, p_u32.
  unfold p_le at 1. change (ptake 2 (b0 :: b1 :: b2 :: b3 :: b4 :: b5 :: b6 :: b7 :: tb))
    with (Some ([b0; b1], b2 :: b3 :: b4 :: b5 :: b6 :: b7 :: tb)).
  cbn [p_u8].
  unfold p_le. change (ptake 4 (b4 :: b5 :: b6 :: b7 :: tb)) with (Some ([b4; b5; b6; b7], tb)).
  cbv beta iota.
  set (L := le_val [b4; b5; b6; b7]).
  change 0x3ffff with (N.ones 18). rewrite N.land_ones. change (2 ^ 18) with 0x40000.
  set (n := if L mod 262144 =? 0 then 262144 else L mod 262144).
  cbv zeta.
  destruct (N.ltb_spec n 2) as [|Hn]; auto.
  rewrite N.shiftl_mul_pow2. change (2^2) with 4.
  destruct (N.ltb_spec (n * 4) 8); [lia|].
  rewrite (N.mul_comm n 4). reflexivity.
Qed.

Lemma p_doe_wire h rest :
  doe_vendor h = EnumKnown 0 -> (doe_type h = EnumKnown 1 \/ doe_type h = EnumKnown 2) ->
  doe_len h mod 4 = 0 -> doe_len h + 8 <= 0x100000 ->
  p_doe_header (doe_wire h ++ rest) = Some (h, rest).
Proof.
  intros HV HT HM HL. unfold p_doe_header, doe_wire. rewrite <- !app_assoc.
  unfold p_u16 at 1. rewrite p_le_app by (rewrite HV; reflexivity).
  cbn [app p_u8].
  assert (HF : doe_len_field (doe_len h + 8) < 0x40000).
  { unfold doe_len_field. destruct (N.eqb_spec ((doe_len h + 8) / 4) 0x40000); lia. }
  unfold p_u32. rewrite p_le_app by (change (256 ^ N.of_nat 4) with 4294967296; lia).
  rewrite N.mod_small by auto.
  replace (if doe_len_field (doe_len h + 8) =? 0 then 262144 else doe_len_field (doe_len h + 8))
    with ((doe_len h + 8) / 4).
  2:{ unfold doe_len_field. destruct (N.eqb_spec ((doe_len h + 8) / 4) 0x40000) as [->|]; [reflexivity|].
      destruct (N.eqb_spec ((doe_len h + 8) / 4) 0); auto. lia. }
  destruct (N.ltb_spec ((doe_len h + 8) / 4) 2); [lia|].
  do 2 f_equal. destruct h as [v t n]. cbn [doe_vendor doe_type doe_len] in *. subst v.
  f_equal.
  - destruct HT as [->| ->]; reflexivity.
  - lia.
Qed.

Lemma doe_align_spec n : (n <= doe_align n < n + 4)%nat /\ (doe_align n mod 4 = 0)%nat.
Proof.
  unfold doe_align. split.
  - pose proof (Nat.div_mod_eq (n + 3) 4). pose proof (Nat.mod_upper_bound (n + 3) 4). lia.
  - apply Nat.mod_mul. lia.
Qed.

Lemma doe_decap_spec tb sb :
  bytes_ok tb ->
  doe_decap tb sb =
  match p_doe_header tb with
  | None => (Err ST_DECAP_FAIL, sb)
  | Some (h, _) =>
      match doe_vendor h with
      | EnumKnown 0 =>
          let finish (secured : bool) :=
            if (len tb <? 8 + doe_len h) then (Err ST_DECAP_FAIL, sb)
            else if (len sb <? doe_len h) then (Err ST_DECAP_FAIL, sb)
            else (Ok (N.to_nat (doe_len h), secured),
                  patch 0 (slice 8 (N.to_nat (doe_len h)) tb) sb) in
          match doe_type h with
          | EnumKnown 1 => finish false
          | EnumKnown 2 => finish true
          | _ => (Err ST_DECAP_FAIL, sb)
          end
      | _ => (Err ST_DECAP_FAIL, sb)
      end
  end.
Proof.
  intro HB. unfold doe_decap. rewrite read_doe_spec by auto.
  destruct (p_doe_header tb) as [[h l]|]; reflexivity.
Qed.

Lemma doe_roundtrip payload tb sb secured :
  bytes_ok payload -> bytes_ok tb ->
  N.of_nat (doe_align (length payload)) + 8 <= 0x100000 ->
  (8 + doe_align (length payload) <= length tb)%nat ->
  (doe_align (length payload) <= length sb)%nat ->
  exists tb' padding,
    doe_encap payload tb secured = (Ok (8 + doe_align (length payload))%nat, tb') /\
    length tb' = length tb /\
    skipn (8 + doe_align (length payload)) tb' = skipn (8 + doe_align (length payload)) tb /\
    (length payload + length padding = doe_align (length payload))%nat /\
    doe_decap (firstn (8 + doe_align (length payload)) tb') sb =
      (Ok (doe_align (length payload), secured),
       payload ++ padding ++ skipn (doe_align (length payload)) sb).
Proof.
  intros HP HTB HMAX HT HS.
  destruct (doe_align_spec (length payload)) as [HA HA4].
  set (al := doe_align (length payload)) in *.
  set (h := mkDoe (EnumKnown 0) (if secured then EnumKnown 2 else EnumKnown 1) (N.of_nat al)).
  unfold doe_encap. fold al. rewrite (N.mod_small (N.of_nat al)) by lia.
  fold h. rewrite enc_doe_ok; [|apply w_init_ok|cbn [doe_len h]; subst h; cbn [doe_len]; lia].
  pose proof (emit_spec (doe_chunks h) (w_init tb) (w_init_ok tb)) as HE.
  rewrite doe_wire_chunks in HE.
  destruct (emit (doe_chunks h) (w_init tb)) as [w|w].
  2:{ destruct HE as [HE _]. rewrite doe_wire_length in HE. unfold w_left, w_init in HE; cbn [w_buf w_offs] in HE. lia. }
  destruct HE as (_ & WO & WL & WF & WU & WS). rewrite doe_wire_length in WF.
  cbn [w_init w_offs w_buf Nat.add] in *. unfold w_used. rewrite WF in *.
  rewrite WL. destruct (Nat.ltb_spec (length tb) (8 + al)); [lia|].
  unfold w_used_slice in WU. rewrite WF in WU.
  assert (WU' : firstn 8 (w_buf w) = doe_wire h) by exact WU.
  assert (WS' : skipn 8 (w_buf w) = skipn 8 tb) by exact WS.
  assert (WB : w_buf w = doe_wire h ++ skipn 8 tb).
  { rewrite <- (firstn_skipn 8 (w_buf w)) at 1. rewrite WU', WS'. reflexivity. }
  rewrite WB.
  destruct (split_at_3 (skipn 8 tb) 0 (length payload)) as (pre & mid & post & EP & Hpre & Hmid).
  { rewrite skipn_length. lia. }
  destruct pre; [|discriminate]. cbn [app] in EP.
  assert (EP' : patch 8 payload (doe_wire h ++ skipn 8 tb) = doe_wire h ++ payload ++ post).
  { rewrite EP. rewrite <- (doe_wire_length h). apply patch_split. auto. }
  rewrite EP'.
  assert (LP : (length post = length tb - 8 - length payload)%nat).
  { assert (length (skipn 8 tb) = length mid + length post)%nat by (rewrite EP, app_length; auto).
    rewrite skipn_length in *. lia. }
  set (padding := firstn (al - length payload) post).
  assert (LPad : length padding = (al - length payload)%nat) by (subst padding; rewrite firstn_length; lia).
  assert (FS : firstn (8 + al) (doe_wire h ++ payload ++ post) = doe_wire h ++ payload ++ padding).
  { rewrite firstn_app, doe_wire_length. rewrite (firstn_all2 (doe_wire h)) by (rewrite doe_wire_length; lia).
    f_equal. replace (8 + al - 8)%nat with al by lia.
    rewrite firstn_app. rewrite (firstn_all2 payload) by lia. reflexivity. }
  exists (doe_wire h ++ payload ++ post), padding. split; [reflexivity|]. split; [|split; [|split]].
  - rewrite !app_length, doe_wire_length. lia.
  - rewrite skipn_app, doe_wire_length. rewrite (skipn_all2 (doe_wire h)) by (rewrite doe_wire_length; lia).
    replace (8 + al - 8)%nat with al by lia. cbn [app].
    rewrite skipn_app, (skipn_all2 payload) by lia. cbn [app].
    transitivity (skipn al (skipn 8 tb)); [|rewrite skipn_skipn; reflexivity].
    rewrite EP. rewrite skipn_app, (skipn_all2 mid) by lia. cbn [app].
    rewrite Hmid. f_equal. lia.
  - lia.
  - change (S (S (S (S (S (S (S (S al)))))))) with (8 + al)%nat. rewrite FS. rewrite doe_decap_spec.
    2:{ apply bytes_ok_app; split.
        - unfold doe_wire. rewrite !bytes_ok_app. split; [apply le_bytes_ok|].
          split; [|apply le_bytes_ok]. repeat constructor; unfold byte_ok; try lia.
          subst h; cbn [doe_type]. destruct secured; reflexivity.
        - apply bytes_ok_app; split; auto. apply bytes_ok_firstn.
          assert (bytes_ok (skipn 8 tb)) by (apply bytes_ok_skipn; auto).
          rewrite EP in H0. apply bytes_ok_app in H0; tauto. }
    rewrite p_doe_wire; subst h; cbn [doe_vendor doe_type doe_len]; auto.
    + cbn zeta.
      assert (L1 : len (doe_wire {| doe_vendor := EnumKnown 0; doe_type := if secured then EnumKnown 2 else EnumKnown 1;
                    doe_len := N.of_nat al |} ++ payload ++ padding) = 8 + N.of_nat al).
      { rewrite !len_app. unfold len. rewrite doe_wire_length. lia. }
      assert (SL : forall x, slice 8 (N.to_nat (N.of_nat al)) (doe_wire x ++ payload ++ padding) = payload ++ padding).
      { intro x. unfold slice. rewrite skipn_app_exact by apply doe_wire_length. rewrite Nat2N.id.
        apply firstn_all2. rewrite app_length; lia. }
      destruct secured; rewrite L1; rewrite N.ltb_irrefl; unfold len;
      (destruct (N.ltb_spec (N.of_nat (length sb)) (N.of_nat al)); [lia|]);
      rewrite SL, Nat2N.id, patch_0_app, app_length, LPad, <- app_assoc;
      replace (length payload + (al - length payload))%nat with al by lia; reflexivity.
    + destruct secured; auto.
    + lia.
Qed.

(** decap: what acceptance means *)
Lemma doe_decap_accepts tb sb n secured sb' :
  bytes_ok tb -> doe_decap tb sb = (Ok (n, secured), sb') ->
  exists rest,
    (firstn 2 tb = [1; 0] /\ nth 2 tb 0 = (if secured then 2 else 1)) /\
    (let dw := le_val (slice 4 4 tb) mod 0x40000 in
     let dw := if dw =? 0 then 0x40000 else dw in
     2 <= dw /\ N.of_nat n = 4 * dw - 8 /\ 4 * dw <= len tb) /\
    sb' = slice 8 n tb ++ rest /\ rest = skipn n sb /\ (n <= length sb)%nat.
Proof.
  intros HB H. rewrite doe_decap_spec in H by auto.
  destruct (p_doe_header tb) as [[h l]|] eqn:EH; [|inversion H].
  unfold p_doe_header in EH.
  destruct tb as [|b0 tb]; [discriminate|]. destruct tb as [|b1 tb]; [discriminate|].
  destruct tb as [|b2 tb]; [discriminate|]. destruct tb as [|b3 tb]; [discriminate|].
  destruct tb as [|b4 tb]; [discriminate|]. destruct tb as [|b5 tb]; [discriminate|].
  destruct tb as [|b6 tb]; [discriminate|]. destruct tb as [|b7 tb]; [discriminate|].
  set (TB := b0 :: b1 :: b2 :: b3 :: b4 :: b5 :: b6 :: b7 :: tb) in *.
  change (p_u16 TB) with (Some (le_val [b0; b1], b2 :: b3 :: b4 :: b5 :: b6 :: b7 :: tb)) in EH.
  cbn [p_u8] in EH.
  change (p_u32 (b4 :: b5 :: b6 :: b7 :: tb)) with (Some (le_val [b4; b5; b6; b7], tb)) in EH.
  remember (le_val [b0; b1]) as V eqn:EV. remember (le_val [b4; b5; b6; b7]) as W eqn:EW.
  cbv beta iota zeta in EH.
  set (dw := if W mod 262144 =? 0 then 262144 else W mod 262144) in *.
  destruct (N.ltb_spec dw 2) as [|Hdw]; [discriminate|].
  assert (Eh : h = mkDoe (enum_of doe_vendors V) (enum_of doe_types b2) (4 * dw - 8)) by congruence.
  clear EH. subst h. cbn [doe_vendor doe_type doe_len] in H. cbv zeta in H.
  assert (HV : V = 1).
  { destruct (N.eqb_spec V 1) as [E|E]; auto. exfalso.
    unfold enum_of at 1, doe_vendors in H. cbn [enum_find] in H.
    apply N.eqb_neq in E. rewrite E in H. inversion H. }
  rewrite HV in H. change (enum_of doe_vendors 1) with (EnumKnown 0) in H. cbv iota in H.
  assert (HTT : exists sec : bool, b2 = (if sec then 2 else 1) /\
     (if len TB <? 8 + (4 * dw - 8) then (Err ST_DECAP_FAIL, sb)
      else if len sb <? 4 * dw - 8 then (Err ST_DECAP_FAIL, sb)
      else (Ok (N.to_nat (4 * dw - 8), sec), patch 0 (slice 8 (N.to_nat (4 * dw - 8)) TB) sb)) = (Ok (n, secured), sb')).
  { unfold enum_of, doe_types in H. cbn [enum_find] in H.
    destruct (N.eqb_spec b2 0); [inversion H|].
    destruct (N.eqb_spec b2 1); [exists false; auto|].
    destruct (N.eqb_spec b2 2); [exists true; auto|inversion H]. }
  destruct HTT as (sec & Hb2 & E).
  destruct (N.ltb_spec (len TB) (8 + (4 * dw - 8))); [inversion E|].
  destruct (N.ltb_spec (len sb) (4 * dw - 8)) as [|Hsb]; [inversion E|].
  assert (En : N.to_nat (4 * dw - 8) = n) by congruence.
  assert (Eb : patch 0 (slice 8 (N.to_nat (4 * dw - 8)) TB) sb = sb') by congruence.
  assert (Es : sec = secured) by congruence. subst secured.
  exists (skipn n sb). split; [split|split; [|split; [|split]]].
  - inv_ok. rewrite EV in HV; cbn [le_val] in HV. assert (b0 = 1 /\ b1 = 0) as [-> ->] by lia. reflexivity.
  - exact Hb2.
  - replace (le_val (slice 4 4 TB)) with W by (rewrite EW; reflexivity). fold dw. subst n. repeat split; auto; lia.
  - rewrite <- Eb, patch_0_app, En. unfold len in *.
    rewrite slice_length by lia. reflexivity.
  - reflexivity.
  - unfold len in *. lia.
Qed.

Lemma doe_decap_truncated tb sb dw :
  bytes_ok tb -> dw = (let d := le_val (slice 4 4 tb) mod 0x40000 in if d =? 0 then 0x40000 else d) ->
  len tb < 4 * dw -> exists s, fst (doe_decap tb sb) = Err s.
Proof.
  intros HB Hdw HL. destruct (doe_decap tb sb) as [[[n sec]|s|] sb'] eqn:E; cbn [fst].
  - apply doe_decap_accepts in E; auto. destruct E as (rest & _ & (H2 & _ & H3) & _).
    cbv zeta in *. rewrite <- Hdw in H3. lia.
  - eauto.
  - exfalso. rewrite doe_decap_spec in E by auto.
    destruct (p_doe_header tb) as [[h l]|]; [|inversion E].
    destruct (doe_vendor h) as [[|]|]; try (inversion E; fail).
    cbv zeta in E.
    destruct (doe_type h) as [[|[|[|]]]|]; try (inversion E; fail);
      (destruct (len tb <? 8 + doe_len h); [inversion E|]; destruct (len sb <? doe_len h); inversion E).
Qed.

Lemma doe_app_flag_lost : exists payload tb sb tb' n sb' flag,
  doe_encap_app payload tb true = (Ok n, tb') /\
  doe_decap_app (firstn n tb') sb = (Ok (n, flag), sb') /\ flag <> true.
Proof.
  exists [7; 8], [0; 0; 0], [1; 1], [7; 8; 0], 2%nat, [7; 8], false.
  repeat split. discriminate.
Qed.
