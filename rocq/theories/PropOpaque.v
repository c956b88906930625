(** C14, C52. *)
From Verif Require Import Bytes Codec Parse Status Algo MsgAuth SpecMsg Opaque SpecOpaque OpaqueProofs PropMsg.
Local Open Scope N_scope.

(** opaque data longer than 1024 bytes is rejected *)
Theorem C14_oversized_opaque_rejected : forall n rest, 1024 < n -> n < 65536 ->
  dec_opaque (le_bytes 2 n ++ rest) = PNone.
Proof. exact opaque_oversized. Qed.
Print Assumptions C14_oversized_opaque_rejected.

(** every accepted blob is re-encoded to the bytes it was read from *)
Theorem C14_accepted_opaque_round_trips : forall l o rest, bytes_ok l -> dec_opaque l = POk o rest ->
  v_size o <= 1024 /\ opaque_ok o /\ exists w, xwire (enc_opaque o) = Some w /\ l = w ++ rest.
Proof. exact opaque_accept. Qed.
Print Assumptions C14_accepted_opaque_round_trips.

(** the library's builders and parsers of the two DMTF opaque structures agree *)
Theorem C14_selection_round_trips : forall c s, ok_dmtf_sel s -> known_format c ->
  exists e w, enc_dmtf_sel c s = Some e /\ xwire e = Some w /\
    forall rest, dec_dmtf_sel c (w ++ rest) = POk s rest.
Proof. exact sel_round_trip. Qed.
Print Assumptions C14_selection_round_trips.

Theorem C14_supported_list_round_trips : forall c s, ok_dmtf_sup s -> known_format c ->
  exists e w, enc_dmtf_sup 0 c s = Some e /\ xwire e = Some w /\
    forall rest, dec_dmtf_sup (len (w ++ rest)) c (w ++ rest) = POk s rest.
Proof. exact sup_round_trip. Qed.
Print Assumptions C14_supported_list_round_trips.

(** the responder answers with nothing or with a version that is in the requester's list and in
    its own configuration *)
Theorem C14_selected_version_was_offered : forall c locals o r,
  bytes_ok (v_bytes o) -> rsp_select_version c locals o = Ok r ->
  v_bytes r = [] \/
  exists i, N.of_nat i < offered_count c (v_bytes o) /\ offered_count c (v_bytes o) <= 2 /\
    In (offered c (v_bytes o) i) locals /\ v_bytes r = selection_bytes c (offered c (v_bytes o) i).
Proof. exact select_sound'. Qed.
Print Assumptions C14_selected_version_was_offered.

(** and it does answer with one whenever a parsed list has a configured version *)
Theorem C14_common_version_is_selected : forall c locals o l i,
  bytes_ok (v_bytes o) -> rsp_get_list c o = Some l ->
  offered_count c (v_bytes o) <= 2 -> N.of_nat i < sl_count l -> In (offered c (v_bytes o) i) locals ->
  exists j r, N.of_nat j < offered_count c (v_bytes o) /\ In (offered c (v_bytes o) j) locals /\
    rsp_select_version c locals o = Ok r /\ v_bytes r = selection_bytes c (offered c (v_bytes o) j).
Proof. exact select_complete'. Qed.
Print Assumptions C14_common_version_is_selected.

Theorem C14_selection_never_panics : forall c locals o, bytes_ok (v_bytes o) ->
  rsp_select_version c locals o <> Panic.
Proof. exact select_no_panic. Qed.
Print Assumptions C14_selection_never_panics.

(** from SPDM 1.2 on the requester reads back the version the responder selected, and the
    library's own list is parsed to versions 1.0 and 1.1 *)
Theorem C14_format1_selection_is_read_back : forall c o v,
  v < 256 -> 0x12 <= n_version (c_nego c) -> n_opaque (c_nego c) = 2 ->
  v_bytes o = selection_bytes c v -> req_secure_version c o = v.
Proof. exact fmt1_read. Qed.
Print Assumptions C14_format1_selection_is_read_back.

Theorem C14_own_format1_list_is_accepted : forall c,
  0x12 <= n_version (c_nego c) -> n_opaque (c_nego c) = 2 ->
  rsp_get_list c (v_of 1024 REQ_BLOB_FMT1) = Some (mkSvl 2 [smv_from 0x10; smv_from 0x11]).
Proof. exact own_blob_fmt1. Qed.
Print Assumptions C14_own_format1_list_is_accepted.

(** before SPDM 1.2 the parsers reject the library's own blobs: DMTF_SPEC_ID is written
    0x444D546 instead of 0x444D5446 (opaque.rs:20) *)
Theorem C52_own_dsp0277_blobs_refuted : forall c, n_version (c_nego c) < 0x12 ->
  rsp_get_list c (v_of 1024 REQ_BLOB_DSP0277) = None /\
  forall o v, v_bytes o = selection_bytes c v -> req_get_sel c o = None.
Proof. intros c H. split; [exact (own_blob_dsp0277 c H)|]. intros o v. exact (dsp0277_unread c o v H). Qed.
Print Assumptions C52_own_dsp0277_blobs_refuted.

(** a 1.2 connection with format 1: the library's own list and two configured versions *)
Definition ex_fmt1 : cctx :=
  mkCctx (mkNego 0x12 0 0 0 0 0 0 0 0 0 0 0 0 2 false 0 0 0 0) false false.
Example C14_case :
  bytes_ok REQ_BLOB_FMT1 /\ offered_count ex_fmt1 REQ_BLOB_FMT1 = 2 /\
  offered ex_fmt1 REQ_BLOB_FMT1 0 = 0x10 /\ offered ex_fmt1 REQ_BLOB_FMT1 1 = 0x11 /\
  rsp_select_version ex_fmt1 [0x11; 0x10] (v_of 1024 REQ_BLOB_FMT1) = Ok (v_of 1024 (selection_bytes ex_fmt1 0x11)) /\
  req_secure_version ex_fmt1 (v_of 1024 (selection_bytes ex_fmt1 0x11)) = 0x11 /\
  ok_dmtf_sup (mkDsup 1 [mkSvl 2 [smv_from 0x10; smv_from 0x11]; svl_default; svl_default]).
Proof.
  repeat split; try reflexivity; try discriminate; repeat constructor; try reflexivity.
Qed.
