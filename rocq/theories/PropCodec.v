(** C01-C07: byte codecs, status codes, transport framing.  Statements only. *)
From Verif Require Import Bytes BytesFacts Codec CodecProofs Status StatusProofs Transport TransportProofs SpecCodec CodecHist.
Local Open Scope N_scope.

(** C01 *)
Theorem C01_integer_codec_roundtrip : forall k v,
  v < 256 ^ N.of_nat (width_bytes k) ->
  (forall buf offs, (offs + width_bytes k <= length buf)%nat ->
     enc_int k v (mkWriter buf offs) =
     WOk (mkWriter (firstn offs buf ++ le_spec (width_bytes k) v ++ skipn (offs + width_bytes k) buf)
                   (offs + width_bytes k))) /\
  (forall buf offs, (offs <= length buf < offs + width_bytes k)%nat ->
     exists w', enc_int k v (mkWriter buf offs) = WErr w') /\
  (forall pre post, bytes_ok pre -> bytes_ok post ->
     let buf := pre ++ le_spec (width_bytes k) v ++ post in
     read_int k (mkReader buf (length pre)) = Some (v, mkReader buf (length pre + width_bytes k))).
Proof. exact int_roundtrip. Qed.
Print Assumptions C01_integer_codec_roundtrip.
Theorem C01_u24_new_panics_iff : forall v, (u24_new v = None <-> 2 ^ 24 <= v) /\ (v < 2 ^ 24 -> u24_new v = Some v).
Proof. exact (fun v => conj (u24_new_panics v) (u24_new_value v)). Qed.
Print Assumptions C01_u24_new_panics_iff.
Example C01_case : 0xA1B2C3D4 < 256 ^ N.of_nat (width_bytes W32) /\
  le_spec 4 0xA1B2C3D4 = [0xD4; 0xC3; 0xB2; 0xA1] /\
  enc_int W32 0xA1B2C3D4 (mkWriter [9;9;9;9;9;9] 1) = WOk (mkWriter [9;0xD4;0xC3;0xB2;0xA1;9] 5).
Proof. vm_compute. auto. Qed.

(** C02: every history of reader operations *)
Theorem C02_reader_history : forall buf os,
  bytes_ok buf ->
  let (xs, r) := rop_run (r_init buf) os in
  buf = given xs ++ fst (r_rest r) /\
  r_used r = length (given xs) /\ (r_used r + r_left r = length buf)%nat /\ r_buf r = buf.
Proof. exact reader_history. Qed.
Print Assumptions C02_reader_history.
(** one operation, from any state a history can reach: exact and all-or-nothing *)
Theorem C02_reader_step : forall r o,
  (r_offs r <= length (r_buf r))%nat -> bytes_ok (r_buf r) ->
  let (x, r') := rop_step r o in
  (r_offs r' <= length (r_buf r'))%nat /\ r_buf r' = r_buf r /\
  match x with
  | None => r' = r /\ match o with RTake n | RSub n => (r_left r < n)%nat | RRest => False
                                 | RInt k => (r_left r < width_bytes k)%nat end
  | Some b => skipn (r_offs r) (r_buf r) = b ++ skipn (r_offs r') (r_buf r') /\
              r_offs r' = (r_offs r + length b)%nat /\
              match o with RTake n | RSub n => length b = n | RRest => length b = r_left r
                         | RInt k => length b = width_bytes k end
  end.
Proof. exact rop_step_spec. Qed.
Print Assumptions C02_reader_step.
Example C02_case : rop_run (r_init [1;2;3;4;5]) [RTake 2; RTake 4; RInt W16; RRest] =
  ([Some [1;2]; None; Some [3;4]; Some [5]], mkReader [1;2;3;4;5] 5).
Proof. reflexivity. Qed.

(** C03: every history of writer operations *)
Theorem C03_writer_history : forall buf os,
  Forall wop_ok os ->
  let (oks, w) := wop_run (w_init buf) os in
  exists ds, length oks = length os /\
    Forall2 (fun (p : wop * bool) d => appended (fst p) (snd p) d) (combine os oks) ds /\
    w_used w = length (concat ds) /\ (w_used w <= length buf)%nat /\
    w_buf w = concat ds ++ skipn (w_used w) buf /\
    w_used_slice w = concat ds.
Proof. exact writer_history. Qed.
Print Assumptions C03_writer_history.
Theorem C03_writer_succeeds_iff_fits : forall w o,
  (w_offs w <= length (w_buf w))%nat -> wop_ok o ->
  fst (wop_step w o) = (length (wop_bytes o) <=? w_left w)%nat.
Proof. exact writer_step_exact. Qed.
Print Assumptions C03_writer_succeeds_iff_fits.
Example C03_case : wop_run (w_init [0;0;0;0;0]) [WPush 7; WExtend [1;2;3;4;5]; WExtend [1;2]; WInt W32 0x01020304] =
  ([true; false; true; false], mkWriter [7;1;2;4;3] 5).
Proof. reflexivity. Qed.

(** C04: for the table of any enum generated by the macro *)
Theorem C04_enum_read_total_and_preserving : forall tbl x, enum_get tbl (enum_of tbl x) = x.
Proof. exact enum_get_of. Qed.
Print Assumptions C04_enum_read_total_and_preserving.
Theorem C04_enum_write_read : forall tbl e,
  NoDup tbl ->
  match e with EnumKnown i => (i < length tbl)%nat | EnumUnknown x => ~ In x tbl end ->
  enum_of tbl (enum_get tbl e) = e.
Proof. exact enum_of_get. Qed.
Print Assumptions C04_enum_write_read.
(** the exception is real: Unknown(x) with x a named value reads back as the name *)
Theorem C04_enum_collision : forall tbl x, In x tbl -> enum_of tbl (enum_get tbl (EnumUnknown x)) <> EnumUnknown x.
Proof. exact enum_collision. Qed.
Print Assumptions C04_enum_collision.
Example C04_case : enum_of mctp_types 0x7F = EnumKnown 8 /\ enum_of mctp_types 0x33 = EnumUnknown 0x33.
Proof. split; reflexivity. Qed.

(** C05 *)
Theorem C05_status_roundtrip : forall s rest,
  p_status (le_spec 4 (status_u32 s) ++ rest) = Some (s, rest) /\
  wire (enc_status s) = le_spec 4 (status_u32 s) /\ status_from_u32 (status_u32 s) = Some s.
Proof. exact status_roundtrip_all. Qed.
Print Assumptions C05_status_roundtrip.
Theorem C05_status_decode_lossless : forall v s,
  v < 2^32 -> status_of_u32 v = Some s ->
  status_u32 s = v \/ (st_code s = SC_SUCCESS /\ status_u32 s = v - v mod 65536).
Proof. exact status_of_u32_inv. Qed.
Print Assumptions C05_status_decode_lossless.
Theorem C05_status_reserved_rejected : forall v, (v / 2^24) mod 16 <> 0 -> status_of_u32 v = None.
Proof. exact status_reserved_rejected. Qed.
Print Assumptions C05_status_reserved_rejected.
Theorem C05_status_severity_rejected : forall v,
  (v / 2^28) mod 16 <> 0 -> (v / 2^28) mod 16 <> 8 -> status_of_u32 v = None.
Proof. exact status_severity_rejected. Qed.
Print Assumptions C05_status_severity_rejected.
(** the statement that decoding is injective fails for source 0 *)
Theorem C05_status_injective_refuted : exists v w s, v <> w /\ status_of_u32 v = Some s /\ status_of_u32 w = Some s.
Proof. exact status_not_injective. Qed.
Print Assumptions C05_status_injective_refuted.
Example C05_case : status_u32 ST_CRYPTO_ERROR = 0x80020000 /\
  p_status [0; 0; 2; 0x80; 9] = Some (ST_CRYPTO_ERROR, [9]) /\ p_status [0; 0; 2; 0x40] = None.
Proof. vm_compute. auto. Qed.

(** C06 *)
Theorem C06_mctp_roundtrip : forall payload tb sb secured,
  (1 + length payload <= length tb)%nat -> (length payload <= length sb)%nat ->
  exists tb',
    mctp_encap payload tb secured = (Ok (1 + length payload)%nat, tb') /\
    length tb' = length tb /\
    skipn (1 + length payload) tb' = skipn (1 + length payload) tb /\
    mctp_decap (firstn (1 + length payload) tb') sb =
      (Ok (length payload, secured), payload ++ skipn (length payload) sb).
Proof. exact mctp_roundtrip. Qed.
Print Assumptions C06_mctp_roundtrip.
Theorem C06_mctp_app_roundtrip : forall payload tb sb is_app,
  (1 + length payload <= length tb)%nat -> (length payload <= length sb)%nat ->
  exists tb',
    mctp_encap_app payload tb is_app = (Ok (1 + length payload)%nat, tb') /\
    length tb' = length tb /\
    skipn (1 + length payload) tb' = skipn (1 + length payload) tb /\
    mctp_decap_app (firstn (1 + length payload) tb') sb =
      (Ok (length payload, is_app), payload ++ skipn (length payload) sb).
Proof. exact mctp_app_roundtrip. Qed.
Print Assumptions C06_mctp_app_roundtrip.
Theorem C06_mctp_encap_fails_iff : forall payload tb secured,
  (exists s, fst (mctp_encap payload tb secured) = Err s) <-> (length tb < 1 + length payload)%nat.
Proof. exact mctp_encap_fails. Qed.
Print Assumptions C06_mctp_encap_fails_iff.
Theorem C06_mctp_decap_exact : forall tb sb,
  mctp_decap tb sb =
  match tb with
  | b :: l =>
      if (b =? 5) || (b =? 6) then
        if (length sb <? length l)%nat then (Err ST_DECAP_FAIL, sb)
        else (Ok (length l, b =? 6), l ++ skipn (length l) sb)
      else (Err ST_DECAP_FAIL, sb)
  | [] => (Err ST_DECAP_FAIL, sb)
  end.
Proof. exact mctp_decap_spec. Qed.
Print Assumptions C06_mctp_decap_exact.
Theorem C06_mctp_decap_app_exact : forall tb sb,
  mctp_decap_app tb sb =
  match tb with
  | b :: l =>
      if (b =? 5) || (b =? 1) then
        if (length sb <? length l)%nat then (Err ST_DECAP_APP_FAIL, sb)
        else (Ok (length l, b =? 1), l ++ skipn (length l) sb)
      else (Err ST_DECAP_APP_FAIL, sb)
  | [] => (Err ST_DECAP_APP_FAIL, sb)
  end.
Proof. exact mctp_decap_app_spec. Qed.
Print Assumptions C06_mctp_decap_app_exact.
Example C06_case : mctp_encap [0x10; 0x84; 0; 0] (fill 6 9) true = (Ok 5%nat, [6; 0x10; 0x84; 0; 0; 9]).
Proof. reflexivity. Qed.

(** C07 *)
Theorem C07_pcidoe_roundtrip : forall payload tb sb secured,
  bytes_ok payload -> bytes_ok tb ->
  let padded := ((length payload + 3) / 4 * 4)%nat in
  N.of_nat padded + 8 <= 2 ^ 20 ->
  (8 + padded <= length tb)%nat ->
  (padded <= length sb)%nat ->
  exists tb' padding,
    doe_encap payload tb secured = (Ok (8 + padded)%nat, tb') /\
    length tb' = length tb /\
    skipn (8 + padded) tb' = skipn (8 + padded) tb /\
    (length payload + length padding = padded)%nat /\
    doe_decap (firstn (8 + padded) tb') sb =
      (Ok (padded, secured), payload ++ padding ++ skipn padded sb).
Proof. exact doe_roundtrip. Qed.
Print Assumptions C07_pcidoe_roundtrip.
Theorem C07_pcidoe_decap_accepts_only : forall tb sb n secured sb',
  bytes_ok tb -> doe_decap tb sb = (Ok (n, secured), sb') ->
  exists rest,
    (firstn 2 tb = [1; 0] /\ nth 2 tb 0 = (if secured then 2 else 1)) /\
    (let dw := le_val (slice 4 4 tb) mod 0x40000 in
     let dw := if dw =? 0 then 0x40000 else dw in
     2 <= dw /\ N.of_nat n = 4 * dw - 8 /\ 4 * dw <= len tb) /\
    sb' = slice 8 n tb ++ rest /\ rest = skipn n sb /\ (n <= length sb)%nat.
Proof. exact doe_decap_accepts. Qed.
Print Assumptions C07_pcidoe_decap_accepts_only.
Theorem C07_pcidoe_decap_truncated_rejected : forall tb sb dw,
  bytes_ok tb -> dw = (let d := le_val (slice 4 4 tb) mod 0x40000 in if d =? 0 then 0x40000 else d) ->
  len tb < 4 * dw -> exists s, fst (doe_decap tb sb) = Err s.
Proof. exact doe_decap_truncated. Qed.
Print Assumptions C07_pcidoe_decap_truncated_rejected.
(** the application framing of this transport loses the application flag *)
Theorem C07_pcidoe_app_flag_refuted : exists payload tb sb tb' n sb' flag,
  doe_encap_app payload tb true = (Ok n, tb') /\
  doe_decap_app (firstn n tb') sb = (Ok (n, flag), sb') /\ flag <> true.
Proof. exact doe_app_flag_lost. Qed.
Print Assumptions C07_pcidoe_app_flag_refuted.
Example C07_case : doe_encap [1;2;3;4;5] (fill 20 9) false =
  (Ok 16%nat, [1;0;1;0;4;0;0;0;1;2;3;4;5;9;9;9;9;9;9;9]) /\
  doe_decap [1;0;1;0;4;0;0;0;1;2;3;4;5;9;9;9] (fill 9 0) = (Ok (8%nat, false), [1;2;3;4;5;9;9;9;0]).
Proof. split; reflexivity. Qed.
