(** Lemmas about Status.v *)
From Verif Require Import Bytes BytesFacts Codec CodecProofs Status.
Local Open Scope N_scope.

Lemma status_of_u32_u32 s : status_of_u32 (status_u32 s) = Some s.
Proof. destruct s as [[] [|[]|[]|[]|[]|[]|[]]]; vm_compute; reflexivity. Qed.

Lemma status_u32_lt s : status_u32 s < 256 ^ 4.
Proof. destruct s as [[] [|[]|[]|[]|[]|[]|[]]]; vm_compute; reflexivity. Qed.

Lemma p_status_roundtrip s rest : p_status (wire (enc_status s) ++ rest) = Some (s, rest).
Proof.
  unfold enc_status, p_status, p_u32. rewrite wire_u32, p_le_app by apply status_u32_lt.
  rewrite status_of_u32_u32. reflexivity.
Qed.

Lemma status_from_get s : status_from_u32 (status_u32 s) = Some s.
Proof.
  unfold status_from_u32. rewrite <- wire_u32. rewrite <- (app_nil_r (wire _)).
  fold (enc_status s). rewrite p_status_roundtrip. reflexivity.
Qed.

(** characterisation of what decodes: split the word into severity / reserved / code *)
Lemma land_ones_mod v k : N.land v (N.ones k) = v mod 2 ^ k.
Proof. apply N.land_ones. Qed.

Lemma shiftr_land_mask v k n : N.shiftr (N.land v (N.shiftl (N.ones n) k)) k = (v / 2 ^ k) mod 2 ^ n.
Proof.
  rewrite N.shiftr_land, N.shiftr_shiftl_l by lia.
  rewrite N.sub_diag, N.shiftl_0_r, N.land_ones, N.shiftr_div_pow2. reflexivity.
Qed.

Lemma land_mask_zero v k n : N.land v (N.shiftl (N.ones n) k) = 0 <-> (v / 2 ^ k) mod 2 ^ n = 0.
Proof.
  rewrite <- shiftr_land_mask. split; intro H.
  - rewrite H. apply N.shiftr_0_l.
  - apply N.bits_inj_iff; intro i. rewrite N.bits_0.
    destruct (N.lt_ge_cases i k).
    + rewrite N.land_spec, N.shiftl_spec_low, andb_false_r by auto. reflexivity.
    + assert (E : N.testbit (N.shiftr (N.land v (N.shiftl (N.ones n) k)) k) (i - k) = false) by (rewrite H; apply N.bits_0).
      rewrite N.shiftr_spec' in E. replace (i - k + k) with i in E by lia. exact E.
Qed.

Lemma sc_of_eq v : sc_of v =
  match (v / 2^16) mod 256 with
  | 0 => Some SC_SUCCESS
  | 1 => omap SC_CORE (core_of (v mod 65536))
  | 2 => omap SC_CRYPTO (crypto_of (v mod 65536))
  | 3 => omap SC_CERT (cert_of (v mod 65536))
  | 4 => omap SC_TRANSPORT (transport_of (v mod 65536))
  | 5 => omap SC_MEAS (meas_of (v mod 65536))
  | 6 => omap SC_RNG (rng_of (v mod 65536))
  | _ => None
  end.
Proof.
  unfold sc_of, as_u8.
  change 0xFF0000 with (N.shiftl (N.ones 8) 16). rewrite shiftr_land_mask.
  change 0xFFFF with (N.ones 16). rewrite land_ones_mod.
  change (2 ^ 8) with 256. rewrite N.mod_mod by discriminate. reflexivity.
Qed.

Ltac finish_code f :=
  match goal with
  | H : omap _ (f ?c) = Some _ |- _ =>
      destruct (f c) as [k|] eqn:?E; cbn [omap] in H; [inversion H; subst; clear H | discriminate]
  end.

Lemma core_of_inv v c : core_of v = Some c -> core_u16 c = v.
Proof.
  unfold core_of. intro H.
  repeat match type of H with
  | context [match ?x with _ => _ end] => is_var x; destruct x; try discriminate
  end; inversion H; reflexivity.
Qed.
Lemma crypto_of_inv v c : crypto_of v = Some c -> crypto_u16 c = v.
Proof.
  unfold crypto_of. intro H.
  repeat match type of H with
  | context [match ?x with _ => _ end] => is_var x; destruct x; try discriminate
  end; inversion H; reflexivity.
Qed.
Lemma cert_of_inv v c : cert_of v = Some c -> cert_u16 c = v.
Proof.
  unfold cert_of. intro H.
  repeat match type of H with
  | context [match ?x with _ => _ end] => is_var x; destruct x; try discriminate
  end; inversion H; reflexivity.
Qed.
Lemma transport_of_inv v c : transport_of v = Some c -> transport_u16 c = v.
Proof.
  unfold transport_of. intro H.
  repeat match type of H with
  | context [match ?x with _ => _ end] => is_var x; destruct x; try discriminate
  end; inversion H; reflexivity.
Qed.
Lemma meas_of_inv v c : meas_of v = Some c -> meas_u16 c = v.
Proof.
  unfold meas_of. intro H.
  repeat match type of H with
  | context [match ?x with _ => _ end] => is_var x; destruct x; try discriminate
  end; inversion H; reflexivity.
Qed.
Lemma rng_of_inv v c : rng_of v = Some c -> rng_u16 c = v.
Proof.
  unfold rng_of. intro H.
  repeat match type of H with
  | context [match ?x with _ => _ end] => is_var x; destruct x; try discriminate
  end; inversion H; reflexivity.
Qed.
Lemma sev_of_inv v c : sev_of v = Some c -> sev_code c = v.
Proof.
  unfold sev_of. intro H.
  repeat match type of H with
  | context [match ?x with _ => _ end] => is_var x; destruct x; try discriminate
  end; inversion H; reflexivity.
Qed.

Lemma sc_of_inv v c : v < 2^24 -> sc_of v = Some c -> c <> SC_SUCCESS -> sc_u24 c = v.
Proof.
  intros Hv H Hn. rewrite sc_of_eq in H.
  assert (E : v = (v / 2^16) mod 256 * 65536 + v mod 65536).
  { change (2^24) with 16777216 in Hv. change (2^16) with 65536. lia. }
  remember ((v / 2^16) mod 256) as src. remember (v mod 65536) as cd. clear Heqsrc Heqcd Hv.
  destruct src as [|p]; [inversion H; congruence|].
  (destruct p as [p|p|]; try (destruct p as [p|p|]); try (destruct p as [p|p|]); try discriminate).
  all: match type of H with omap ?f ?o = _ => destruct o as [k|] eqn:EK; cbn [omap] in H; [|discriminate] end.
  all: inversion H; subst c; cbn [sc_u24].
  all: first [apply core_of_inv in EK | apply crypto_of_inv in EK | apply cert_of_inv in EK
             | apply transport_of_inv in EK | apply meas_of_inv in EK | apply rng_of_inv in EK].
  all: lia.
Qed.

Lemma status_of_u32_eq v : status_of_u32 v =
  match sev_of ((v / 2^28) mod 16) with
  | None => None
  | Some sev => if (v / 2^24) mod 16 =? 0 then
      match sc_of (v mod 2^24) with None => None | Some c => Some (mkStatus sev c) end else None
  end.
Proof.
  unfold status_of_u32, as_u8.
  change 0xF0000000 with (N.shiftl (N.ones 4) 28). rewrite shiftr_land_mask.
  change (2 ^ 4) with 16.
  rewrite (N.mod_small _ 256).
  2:{ apply N.lt_trans with 16; [apply N.mod_lt; discriminate | reflexivity]. }
  destruct (sev_of _); auto.
  change 0xFFFFFF with (N.ones 24). rewrite land_ones_mod.
  replace (N.land v 0x0F000000 =? 0) with ((v / 2 ^ 24) mod 16 =? 0); auto.
  apply Bool.eq_iff_eq_true. rewrite !N.eqb_eq.
  change 0x0F000000 with (N.shiftl (N.ones 4) 24). change 16 with (2 ^ 4).
  symmetry. apply land_mask_zero.
Qed.

(** decoding a word gives a status whose encoding is the word, except that source 0 drops the low bits *)
Lemma status_of_u32_inv v s :
  v < 2^32 -> status_of_u32 v = Some s ->
  status_u32 s = v \/ (st_code s = SC_SUCCESS /\ status_u32 s = v - v mod 65536).
Proof.
  intros Hv H. rewrite status_of_u32_eq in H.
  destruct (sev_of _) as [sev|] eqn:ES; [|discriminate].
  destruct (N.eqb_spec ((v / 2^24) mod 16) 0) as [E0|]; [|discriminate].
  destruct (sc_of (v mod 2^24)) as [c|] eqn:EC; [|discriminate]. inversion H; subst s; clear H.
  apply sev_of_inv in ES. unfold status_u32. cbn [st_sev st_code].
  assert (EL : N.shiftl (N.land (sev_code sev) 15) 28 = sev_code sev * 268435456) by (destruct sev; reflexivity).
  rewrite EL, ES. change (2^28) with 268435456 in *. change (2^24) with 16777216 in *.
  change (2^32) with 4294967296 in Hv.
  assert (HD : {c = SC_SUCCESS} + {c <> SC_SUCCESS}) by (destruct c; [left; reflexivity| right; discriminate ..]).
  destruct HD as [->|Hc].
  - right. split; auto. cbn [sc_u24]. rewrite sc_of_eq in EC.
    assert (ESRC : (v mod 16777216 / 2 ^ 16) mod 256 = 0).
    { destruct ((v mod 16777216 / 2 ^ 16) mod 256) as [|p]; auto. exfalso.
      (destruct p as [p|p|]; try (destruct p as [p|p|]); try (destruct p as [p|p|]); try discriminate);
      match type of EC with omap ?f ?o = _ => destruct o; cbn [omap] in EC; discriminate end. }
    change (2^16) with 65536 in ESRC. lia.
  - left. apply sc_of_inv in EC; auto.
    + lia.
    + apply N.mod_lt; discriminate.
Qed.

Lemma status_reserved_rejected v : (v / 2^24) mod 16 <> 0 -> status_of_u32 v = None.
Proof.
  intro H. rewrite status_of_u32_eq. apply N.eqb_neq in H. rewrite H. destruct (sev_of _); auto.
Qed.

Lemma status_severity_rejected v :
  (v / 2^28) mod 16 <> 0 -> (v / 2^28) mod 16 <> 8 -> status_of_u32 v = None.
Proof.
  intros H0 H8. rewrite status_of_u32_eq.
  destruct (sev_of _) as [[]|] eqn:E; auto; apply sev_of_inv in E; cbn [sev_code] in E; congruence.
Qed.
