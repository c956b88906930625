(** C08-C13, C16, C17, C38, C51: SPDM messages.  Statements only; the formats and the
    field ranges are in SpecMsg.v. *)
From Coq Require Import Sorting.Sorted.
From Verif Require Import Bytes BytesFacts Codec CodecProofs Parse ParseProofs Algo MsgConn MsgAuth MsgSession MsgOther Message SpecMsg MsgProofs MsgRound MsgRound2 MsgLocal MsgCaps.
Local Open Scope N_scope.

Definition connection_setup (p : payload) : Prop :=
  match p with PGetVersion | PVersion _ | PGetCapabilities _ | PCapabilities _ | PNegoAlgs _ | PAlgs _ => True | _ => False end.
Definition authentication (p : payload) : Prop :=
  match p with PGetDigests | PDigests _ | PGetCert _ | PCert _ | PChallenge _ | PChallengeAuth _ | PGetMeas _ | PMeas _ => True
             | _ => False end.
Definition session_msg (p : payload) : Prop :=
  match p with PKeyEx _ | PKeyExRsp _ | PFinish _ | PFinishRsp _ | PPskEx _ | PPskExRsp _ | PPskFinish _ | PPskFinishRsp
             | PHeartbeat | PHeartbeatAck | PKeyUpdate _ | PKeyUpdateAck _ | PEndSession _ | PEndSessionAck => True
             | _ => False end.

(** a negotiated 1.2 context used by the examples *)
Definition ex_nego : nego :=
  mkNego V12 (REQ_CERT + REQ_CHAL + REQ_ENCRYPT + REQ_MAC + REQ_KEY_EX)
    (RSP_CERT + RSP_CHAL + RSP_MEAS_SIG + RSP_ENCRYPT + RSP_MAC + RSP_KEY_EX) 0 0 1 2 1 0x10 8 1 0 1 2 false 4096 4096 4096 4096.
Definition ex_ctx : cctx := mkCctx ex_nego true true.
Definition ex_digest : vbuf := mkV 32 (fill 32 7 ++ fill 32 0).
Definition ex_sig : vbuf := mkV 64 (fill 64 9 ++ fill 448 0).
Definition ex_opaque : vbuf := mkV 3 ([1;2;3] ++ fill 1021 0).
Lemma ex_digest_ok : digest_ok ex_ctx ex_digest.
Proof. split; [|reflexivity]. exists (fill 32 7). repeat split. cbn. lia. Qed.
Lemma ex_sig_ok : sig_ok ex_ctx ex_sig.
Proof. split; [|reflexivity]. exists (fill 64 9). repeat split. cbn. lia. Qed.
Lemma ex_opaque_ok : opaque_ok ex_opaque.
Proof. exists [1;2;3]. repeat split. cbn. lia. Qed.

(** C08 *)
Theorem C08_connection_messages_roundtrip : forall c v code p,
  connection_setup p -> ok_payload c p -> code_of p = Some code ->
  round_trips (enc_message c (mkMsg (mkHeader v code) p)) (dec_message c)
              ([v; code] ++ wire_payload c p) (mkMsg (mkHeader v code) p).
Proof. intros c v code p H H1 H2. apply message_round_trips; auto. destruct p; exact I || contradiction. Qed.
Print Assumptions C08_connection_messages_roundtrip.
Definition C08_ex : payload :=
  PNegoAlgs (mkNegoAlgs 1 2 0x90 3 2 ([mkAlgStruct 2 (ADhe 0x18); mkAlgStruct 5 (AKeySched 1)] ++ repeat alg_struct_default 2)).
Example C08_case : connection_setup C08_ex /\ ok_payload ex_ctx C08_ex /\ code_of C08_ex = Some 0xE3 /\
  length ([0x12; 0xE3] ++ wire_payload ex_ctx C08_ex) = 40%nat.
Proof.
  split; [exact I|]. split; [|split; vm_compute; reflexivity].
  split; [reflexivity|]. split; [right; reflexivity|]. split; [reflexivity|]. split; [reflexivity|].
  exists [mkAlgStruct 2 (ADhe 0x18); mkAlgStruct 5 (AKeySched 1)].
  split; [reflexivity|]. split; [reflexivity|]. split; [intro H; discriminate|]. split; [cbn; lia|].
  split; [repeat constructor|]. split; [repeat constructor|repeat constructor].
Qed.

(** C09 *)
Theorem C09_authentication_messages_roundtrip : forall c v code p,
  authentication p -> ok_payload c p -> code_of p = Some code ->
  round_trips (enc_message c (mkMsg (mkHeader v code) p)) (dec_message c)
              ([v; code] ++ wire_payload c p) (mkMsg (mkHeader v code) p).
Proof. intros c v code p H H1 H2. apply message_round_trips; auto. destruct p; exact I || contradiction. Qed.
Print Assumptions C09_authentication_messages_roundtrip.
(** the two exceptions: a MEASUREMENTS response that counts 1 measurement is the
    message that counts 0, ... *)
Theorem C09_one_measurement_is_sent_as_zero : forall c ch sl rec nn o s,
  enc_meas_rsp c (mkMeasRsp 1 ch sl rec nn o s) = enc_meas_rsp c (mkMeasRsp 0 ch sl rec nn o s).
Proof. reflexivity. Qed.
Print Assumptions C09_one_measurement_is_sent_as_zero.
(** ... and a CERTIFICATE response announcing more than 512 bytes carries 512 *)
Theorem C09_certificate_portion_is_cut_at_512 : forall c p,
  ok_cert p -> 512 < cr_portion p ->
  len (wire_payload c (PCert p)) = 6 + 512 /\
  round_trips (enc_cert_rsp p) dec_cert_rsp (wire_cert p) p.
Proof.
  intros c p H L. split.
  - cbn [wire_payload]. unfold wire_cert. destruct H as (_ & _ & _ & b & Hb & HD).
    assert (E : Nat.min (N.to_nat (cr_portion p)) 512 = 512%nat) by lia. rewrite E in *.
    rewrite HD, firstn_app_exact by auto. unfold len. rewrite !app_length, !le_bytes_length, Hb. reflexivity.
  - apply rt_round_trips; [apply rt_cert|apply xw_cert]; auto.
Qed.
Print Assumptions C09_certificate_portion_is_cut_at_512.
Definition C09_ex : payload := PChallengeAuth (mkChallengeAuth 3 1 0x80 ex_digest (fill 32 5) ex_digest ex_opaque ex_sig).
Example C09_case : authentication C09_ex /\ ok_payload ex_ctx C09_ex /\ code_of C09_ex = Some 0x03.
Proof.
  split; [exact I|]. split; [|reflexivity]. cbn [ok_payload C09_ex].
  split; [cbn; lia|]. split; [right; reflexivity|]. split; [reflexivity|]. split; [apply ex_digest_ok|].
  split; [reflexivity|]. split; [apply ex_digest_ok|]. split; [apply ex_opaque_ok|apply ex_sig_ok].
Qed.

(** C10 *)
Theorem C10_session_messages_roundtrip : forall c v code p,
  session_msg p -> ok_payload c p -> code_of p = Some code ->
  round_trips (enc_message c (mkMsg (mkHeader v code) p)) (dec_message c)
              ([v; code] ++ wire_payload c p) (mkMsg (mkHeader v code) p).
Proof. intros c v code p H H1 H2. apply message_round_trips; auto. destruct p; exact I || contradiction. Qed.
Print Assumptions C10_session_messages_roundtrip.
Definition C10_ex : payload :=
  PKeyEx (mkKeyEx 1 0 0xFFFD 1 (fill 32 4) (mkV 64 (fill 64 6 ++ fill 32 0)) ex_opaque).
Example C10_case : session_msg C10_ex /\ ok_payload ex_ctx C10_ex /\ code_of C10_ex = Some 0xE4.
Proof.
  split; [exact I|]. split; [|reflexivity]. cbn [ok_payload C10_ex].
  split; [right; split; [left; reflexivity|left; reflexivity]|].
  split; [reflexivity|]. split; [reflexivity|]. split; [reflexivity|]. split; [intro H; discriminate|].
  split; [reflexivity|]. split; [split; [exists (fill 64 6); repeat split; cbn; lia|reflexivity]|apply ex_opaque_ok].
Qed.

(** C11: ERROR; vendor extended data has no length on the wire, so such an ERROR
    reads back at the end of the input only (or when it fills its 32 bytes) *)
Theorem C11_error_roundtrip : forall c v q,
  ok_error q ->
  let m := mkMsg (mkHeader v 0x7F) (PError q) in
  encodes (enc_message c m) ([v; 0x7F] ++ wire_error q) /\
  dec_message c ([v; 0x7F] ++ wire_error q) = POk m [] /\
  (~ open_ended q -> decodes (dec_message c) ([v; 0x7F] ++ wire_error q) m).
Proof.
  intros c v q H m. split; [apply (message_encodes c v 0x7F (PError q)); exact H|]. split.
  - unfold dec_message, dec_header. cbn [app]. unfold dbind at 1. unfold dbind at 1. rewrite d_u8_cons.
    unfold dbind at 1. rewrite d_u8_cons. unfold dret at 1. cbn [h_code]. unfold dbind.
    change 0x7F with RC_ERROR. rewrite error_end by exact H. reflexivity.
  - intro HO. apply (message_round_trips c v 0x7F (PError q)); auto.
Qed.
Print Assumptions C11_error_roundtrip.
Theorem C11_vendor_and_encapsulated_roundtrip : forall c p,
  match p with PVendorReq q => ok_vendor q | _ => False end \/
  match p with PVendorRsp q => ok_vendor q | _ => False end \/
  match p with PGetEncap => True | PEncapReq i | PDeliverEncap i => u8 i | PEncapAck q => ok_encap_ack c q | _ => False end ->
  match p with
  | PVendorReq q | PVendorRsp q => round_trips (enc_payload c p) dec_vendor (wire_vendor q) q
  | PGetEncap => round_trips (enc_payload c p) dec_empty [0; 0] tt
  | PEncapReq i | PDeliverEncap i => round_trips (enc_payload c p) dec_encap_id [i; 0] i
  | PEncapAck q => round_trips (enc_payload c p) (dec_encap_ack c) (wire_encap_ack c q) q
  | _ => False
  end.
Proof.
  intros c p H. destruct p; cbn [enc_payload] in *; try tauto;
  apply rt_round_trips;
  first [apply rt_empty | apply rt_encap_id | apply rt_encap_ack; tauto | apply rt_vendor; tauto
        | apply xw_vendor | apply xw_encap_ack | reflexivity].
Qed.
Print Assumptions C11_vendor_and_encapsulated_roundtrip.
Example C11_case :
  ok_error (mkError 0x42 0 (XNotReady (mkNotReady 5 0xE0 1 2))) /\
  ok_error (mkError 0xFF 0 (XVendor (mkV 2 ([8;9] ++ fill 30 0)))) /\
  open_ended (mkError 0xFF 0 (XVendor (mkV 2 ([8;9] ++ fill 30 0)))) /\
  dec_message ex_ctx ([0x12; 0x7F] ++ wire_error (mkError 0xFF 0 (XVendor (mkV 2 ([8;9] ++ fill 30 0)))) ++ [1])
    = POk (mkMsg (mkHeader 0x12 0x7F) (PError (mkError 0xFF 0 (XVendor (mkV 3 ([8;9;1] ++ fill 29 0)))))) [] /\
  ok_vendor (mkVendor 3 (mkV 2 ([1;2] ++ fill 253 0)) (mkV 1 ([7] ++ fill 4086 0))).
Proof.
  split; [repeat split; reflexivity|]. split.
  - split; [reflexivity|]. split; [reflexivity|]. split; [reflexivity|]. exists [8;9]. repeat split. cbn. lia.
  - split; [reflexivity|]. split; [vm_compute; reflexivity|].
    split; [reflexivity|]. split; [cbn; lia|]. split; [exists [1;2]; repeat split; cbn; lia|].
    split; [reflexivity|]. exists [7]. split; reflexivity.
Qed.

(** C12: a message decoder that succeeds leaves a suffix of its input, and what it
    read alone determines the result, except for ERROR with vendor extended data *)
Theorem C12_decoders_are_local : forall c l m r,
  dec_message c l = POk m r ->
  exists read, l = read ++ r /\
    (bounded_msg m -> forall other, dec_message c (read ++ other) = POk m other).
Proof. exact dl_message. Qed.
Print Assumptions C12_decoders_are_local.
Theorem C12_payload_decoders_are_local : forall c l,
  (forall q r, dec_vendor l = POk q r ->
     exists read, l = read ++ r /\ forall other, dec_vendor (read ++ other) = POk q other) /\
  (forall q r, dec_encap_ack c l = POk q r ->
     exists read, l = read ++ r /\ forall other, dec_encap_ack c (read ++ other) = POk q other) /\
  (forall q r, dec_encap_id l = POk q r ->
     exists read, l = read ++ r /\ forall other, dec_encap_id (read ++ other) = POk q other) /\
  (forall q r, dec_opaque l = POk q r ->
     exists read, l = read ++ r /\ forall other, dec_opaque (read ++ other) = POk q other).
Proof.
  intros c l. repeat split; intros q r H; [apply dl_vendor|apply dl_encap_ack|apply dl_encap_id|apply dl_opaque]; exact H.
Qed.
Print Assumptions C12_payload_decoders_are_local.
Example C12_case : dec_message ex_ctx [0x12; 0xE9; 2; 7; 99] = POk (mkMsg (mkHeader 0x12 0xE9) (PKeyUpdate (mkKeyUpdate 2 7))) [99]
  /\ bounded_msg (mkMsg (mkHeader 0x12 0xE9) (PKeyUpdate (mkKeyUpdate 2 7))).
Proof. split; [reflexivity|exact I]. Qed.

(** C13: every well-formed message; [encodes] (SpecMsg.v) says success iff there is
    room, the exact bytes, the reported size, and the untouched rest of the buffer *)
Theorem C13_encoders_fail_iff_no_room : forall c v code p,
  ok_payload c p ->
  encodes (enc_message c (mkMsg (mkHeader v code) p)) ([v; code] ++ wire_payload c p).
Proof. exact message_encodes. Qed.
Print Assumptions C13_encoders_fail_iff_no_room.
Theorem C13_payload_encoders : forall c p, ok_payload c p -> encodes (enc_payload c p) (wire_payload c p).
Proof. exact payload_encodes. Qed.
Print Assumptions C13_payload_encoders.
Example C13_case :
  xemit (enc_message ex_ctx (mkMsg (mkHeader 0x12 0xE9) (PKeyUpdate (mkKeyUpdate 2 7)))) (mkWriter (fill 6 1) 1) 0
    = XOk (mkWriter [1; 0x12; 0xE9; 2; 7; 1] 5) 4 /\
  xemit (enc_message ex_ctx (mkMsg (mkHeader 0x12 0xE9) (PKeyUpdate (mkKeyUpdate 2 7)))) (mkWriter (fill 4 1) 1) 0
    = XErr (mkWriter [1; 0x12; 0xE9; 2] 4).
Proof. split; reflexivity. Qed.

(** C16: for every flag word (all 32 bits) and sizes, and every reserved byte, the
    message is accepted iff the rules of SpecMsg.v hold of the defined flag bits *)
Theorem C16_get_capabilities_accepted_iff_consistent : forall c r ct f d m rest p,
  V11 <= version_of c -> u32 f -> u32 d -> u32 m ->
  (dec_get_capabilities c (get_caps_bytes c r ct f d m ++ rest) = POk p rest <->
   req_caps_consistent (version_of c) (N.land f REQ_CAP_MASK) /\
   (V12 <= version_of c -> sizes_consistent d m) /\ p = decoded_caps c REQ_CAP_MASK ct f d m).
Proof. exact get_caps_iff. Qed.
Print Assumptions C16_get_capabilities_accepted_iff_consistent.
Theorem C16_capabilities_accepted_iff_consistent : forall c r ct f d m rest p,
  u32 f -> u32 d -> u32 m ->
  (dec_capabilities c (get_caps_bytes c r ct f d m ++ rest) = POk p rest <->
   rsp_caps_consistent (version_of c) (N.land f RSP_CAP_MASK) /\
   (V12 <= version_of c -> sizes_consistent d m) /\ p = decoded_caps c RSP_CAP_MASK ct f d m).
Proof. exact caps_iff. Qed.
Print Assumptions C16_capabilities_accepted_iff_consistent.
Theorem C16_any_accepted_message_is_consistent : forall c l p r, bytes_ok l ->
  (V11 <= version_of c -> dec_get_capabilities c l = POk p r ->
     req_caps_consistent (version_of c) (cp_flags p) /\ (V12 <= version_of c -> sizes_consistent (cp_dts p) (cp_max p))) /\
  (dec_capabilities c l = POk p r ->
     rsp_caps_consistent (version_of c) (cp_flags p) /\ (V12 <= version_of c -> sizes_consistent (cp_dts p) (cp_max p))).
Proof. intros c l p r H. split; [intro; apply get_caps_accepted; auto|apply caps_accepted; auto]. Qed.
Print Assumptions C16_any_accepted_message_is_consistent.
Example C16_case : (* KEY_EX without MAC is refused, with MAC accepted; size 41 refused *)
  dec_get_capabilities ex_ctx (get_caps_bytes ex_ctx (0,0,0,0,0) 5 0x206 4096 4096) = PNone /\
  dec_get_capabilities ex_ctx (get_caps_bytes ex_ctx (0,0,0,0,0) 5 0x286 4096 4096) = POk (mkCaps 5 0x286 4096 4096) [] /\
  dec_get_capabilities ex_ctx (get_caps_bytes ex_ctx (0,0,0,0,0) 5 0x286 41 4096) = PNone /\
  dec_capabilities ex_ctx (get_caps_bytes ex_ctx (0,0,0,0,0) 5 0x18 4096 4096) = PNone.
Proof. repeat split; reflexivity. Qed.

(** C17 *)
Theorem C17_selection_is_best_common : forall f a b,
  best_common f a b (prioritize (table_of f) a b).
Proof. exact prioritize_best. Qed.
Print Assumptions C17_selection_is_best_common.
Theorem C17_selection_zero_iff_nothing_shared : forall f a b,
  prioritize (table_of f) a b = 0 <-> shared f a b = 0.
Proof. exact prioritize_zero. Qed.
Print Assumptions C17_selection_zero_iff_nothing_shared.
Example C17_case : prioritize (table_of FAsym) 0xFF 0x17 = 0x10 /\ prioritize (table_of FAead) 5 7 = 1 /\ prioritize (table_of FHash) 1 6 = 0.
Proof. repeat split; reflexivity. Qed.

(** C38 *)
Theorem C38_record_accepted_iff_well_formed : forall c n data,
  bytes_ok data ->
  (verify_record c (mkRecord n (len data) data) = Some true <-> record_bytes_ok c n data).
Proof. intros c n data H. apply verify_record_iff; auto. Qed.
Print Assumptions C38_record_accepted_iff_well_formed.
Theorem C38_accepted_measurements_are_well_formed : forall c l m r,
  bytes_ok l -> dec_mrecord c l = POk m r ->
  exists data, mr_data m = data ++ fill (4000 - length data) 0 /\ len data = mr_length m /\ mr_length m <= 4000 /\
    l = [mr_blocks m] ++ le_bytes 3 (mr_length m) ++ data ++ r /\ record_bytes_ok c (mr_blocks m) data.
Proof. exact mrecord_accepted. Qed.
Print Assumptions C38_accepted_measurements_are_well_formed.
Definition C38_block (i : N) : bytes := [i; 1] ++ le_bytes 2 7 ++ [0x83] ++ le_bytes 2 4 ++ [1; 2; 3; 4].
Example C38_case :
  verify_record ex_ctx (mkRecord 2 22 (C38_block 1 ++ C38_block 2)) = Some true /\
  verify_record ex_ctx (mkRecord 2 22 (C38_block 2 ++ C38_block 2)) = Some false /\
  verify_record ex_ctx (mkRecord 1 22 (C38_block 1 ++ C38_block 2)) = Some false.
Proof. repeat split; reflexivity. Qed.

(** C51: reading a message panics only where an algorithm the payload needs was never
    selected *)
Theorem C51_message_decoding_never_panics : forall c l,
  (forall code, nth_error l 1 = Some code ->
     (In code carries_digest -> hash_selected c) /\ (In code carries_signature -> asym_selected c) /\
     (In code carries_dhe -> dhe_selected c) /\ (In code carries_measurements -> mhash_selected c)) ->
  dec_message c l <> PPanic.
Proof.
  intros c l H. destruct l as [|v [|code l]]; try discriminate.
  destruct (H code eq_refl) as (H1 & H2 & H3 & H4).
  apply ds_message_code with (v := v) (code := code); auto. apply needs_spec; auto.
Qed.
Print Assumptions C51_message_decoding_never_panics.
(** ... and there it does: an unnegotiated context and four short messages *)
Theorem C51_decoding_without_algorithms_refuted :
  exists c, forall code, In code [0x01; 0xE4; 0xE7] -> exists l, nth_error l 1 = Some code /\ dec_message c l = PPanic.
Proof.
  exists (mkCctx nego_default false false). intros code [<-|[<-|[<-|[]]]].
  - exists [0x10; 0x01; 0; 1]. split; reflexivity.
  - exists ([0x11; 0xE4; 0; 0; 0; 0; 0; 0] ++ fill 32 0). split; reflexivity.
  - exists [0x11; 0xE7; 0; 0]. split; reflexivity.
Qed.
Print Assumptions C51_decoding_without_algorithms_refuted.
Example C51_case : hash_selected ex_ctx /\ asym_selected ex_ctx /\ dhe_selected ex_ctx /\ mhash_selected ex_ctx.
Proof. vm_compute. tauto. Qed.
