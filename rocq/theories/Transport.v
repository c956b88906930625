(** Model of mctp_transport/src/header.rs and pcidoe_transport/src/header.rs.
    A function writing into [&mut [u8]] returns the outcome and the buffer
    afterwards (also on error: a partially written header stays in the buffer). *)
From Verif Require Import Bytes Codec Status.
Local Open Scope N_scope.

(** ** MCTP *)
(** MctpMessageType — mctp header.rs:13-27 *)
Definition mctp_types : list N := [0; 1; 2; 3; 4; 5; 6; 0x7E; 0x7F].
Definition MCTP_PLDM : enum_val := EnumKnown 1.
Definition MCTP_SPDM : enum_val := EnumKnown 5.
Definition MCTP_SECURED : enum_val := EnumKnown 6.

(** MctpMessageHeader codec — mctp header.rs:39-48 *)
Definition enc_mctp_header (t : enum_val) (w : writer) : wres := enum_enc_u8 mctp_types t w.
Definition read_mctp_header (r : reader) : option (enum_val * reader) := enum_read_u8 mctp_types r.

(** common body of encap (header.rs:54-78) and encap_app (header.rs:109-135) *)
Definition mctp_put (t : enum_val) (err : status) (payload out : bytes) : outcome nat * bytes :=
  match enc_mctp_header t (w_init out) with
  | WErr w => (Err err, w_buf w)
  | WOk w =>
      let header_size := w_used w in
      let payload_len := length payload in
      if (length (w_buf w) <? header_size + payload_len)%nat then (Err err, w_buf w)
      else (Ok (header_size + payload_len)%nat, patch header_size payload (w_buf w))
  end.

(** MctpTransportEncap::encap — header.rs:54-78 *)
Definition mctp_encap (spdm_buffer transport_buffer : bytes) (secured : bool) : outcome nat * bytes :=
  mctp_put (if secured then MCTP_SECURED else MCTP_SPDM) ST_ENCAP_FAIL spdm_buffer transport_buffer.

(** MctpTransportEncap::decap — header.rs:80-107 *)
Definition mctp_decap (transport_buffer spdm_buffer : bytes) : outcome (nat * bool) * bytes :=
  match read_mctp_header (r_init transport_buffer) with
  | None => (Err ST_DECAP_FAIL, spdm_buffer)
  | Some (t, r) =>
      let finish secured :=
        let header_size := r_used r in
        let payload_size := (length transport_buffer - header_size)%nat in
        if (length spdm_buffer <? payload_size)%nat then (Err ST_DECAP_FAIL, spdm_buffer)
        else (Ok (payload_size, secured), patch 0 (skipn header_size transport_buffer) spdm_buffer) in
      match t with
      | EnumKnown 5 => finish false
      | EnumKnown 6 => finish true
      | _ => (Err ST_DECAP_FAIL, spdm_buffer)
      end
  end.

(** MctpTransportEncap::encap_app — header.rs:109-135 *)
Definition mctp_encap_app (spdm_buffer app_buffer : bytes) (is_app : bool) : outcome nat * bytes :=
  mctp_put (if is_app then MCTP_PLDM else MCTP_SPDM) ST_ENCAP_APP_FAIL spdm_buffer app_buffer.

(** MctpTransportEncap::decap_app — header.rs:137-162 *)
Definition mctp_decap_app (app_buffer spdm_buffer : bytes) : outcome (nat * bool) * bytes :=
  match read_mctp_header (r_init app_buffer) with
  | None => (Err ST_DECAP_APP_FAIL, spdm_buffer)
  | Some (t, r) =>
      let finish is_app :=
        let header_size := r_used r in
        let payload_size := (length app_buffer - header_size)%nat in
        if (length spdm_buffer <? payload_size)%nat then (Err ST_DECAP_APP_FAIL, spdm_buffer)
        else (Ok (payload_size, is_app), patch 0 (skipn header_size app_buffer) spdm_buffer) in
      match t with
      | EnumKnown 5 => finish false
      | EnumKnown 1 => finish true
      | _ => (Err ST_DECAP_APP_FAIL, spdm_buffer)
      end
  end.

(** ** PCI DOE *)
(** PciDoeVendorId — pcidoe header.rs:10-16; PciDoeDataObjectType — header.rs:23-31 *)
Definition doe_vendors : list N := [1].
Definition doe_types : list N := [0; 1; 2].

(** PciDoeMessageHeader — header.rs:38-43 *)
Record doe_header := mkDoe { doe_vendor : enum_val; doe_type : enum_val; doe_len : N (* payload bytes *) }.

(** PciDoeMessageHeader::encode — header.rs:46-60.  [None] models both the explicit
    [panic!()] and the u32 overflow of [payload_length + 8]. *)
Definition enc_doe_header (h : doe_header) (w : writer) : option wres :=
  let pre := wthen (enum_enc_u16 doe_vendors (doe_vendor h) w) (fun w =>
             wthen (enum_enc_u8 doe_types (doe_type h) w) (fun w => enc_u8 0 w)) in
  match pre with
  | WErr w => Some (WErr w)
  | WOk w =>
      if 4294967296 <=? doe_len h + 8 then None else
      let length := N.shiftr (doe_len h + 8) 2 in
      if 0x40000 <? length then None
      else Some (enc_u32 (if length =? 0x40000 then 0 else length) w)
  end.

(** PciDoeMessageHeader::read — header.rs:62-80 *)
Definition read_doe_header (r : reader) : option (doe_header * reader) :=
  match enum_read_u16 doe_vendors r with None => None | Some (v, r) =>
  match enum_read_u8 doe_types r with None => None | Some (t, r) =>
  match read_u8 r with None => None | Some (_, r) =>
  match read_u32 r with None => None | Some (l, r) =>
    let l := N.land l 0x3ffff in
    let l := if l =? 0 then 0x40000 else l in
    if l <? 2 then None
    else if N.shiftl l 2 <? 8 then None
    else Some (mkDoe v t (N.shiftl l 2 - 8), r)
  end end end end.

(** round up to a multiple of 4 — header.rs:94 *)
Definition doe_align (n : nat) : nat := ((n + 3) / 4 * 4)%nat.

(** PciDoeTransportEncap::encap — header.rs:87-114.  The padding bytes keep
    whatever the transport buffer held. *)
Definition doe_encap (spdm_buffer transport_buffer : bytes) (secured : bool) : outcome nat * bytes :=
  let payload_len := length spdm_buffer in
  let aligned := doe_align payload_len in
  let h := mkDoe (EnumKnown 0) (if secured then EnumKnown 2 else EnumKnown 1)
                 (N.of_nat aligned mod 4294967296) in
  match enc_doe_header h (w_init transport_buffer) with
  | None => (Panic, transport_buffer)
  | Some (WErr w) => (Err ST_ENCAP_FAIL, w_buf w)
  | Some (WOk w) =>
      let header_size := w_used w in
      if (length (w_buf w) <? header_size + aligned)%nat then (Err ST_ENCAP_FAIL, w_buf w)
      else (Ok (header_size + aligned)%nat, patch header_size spdm_buffer (w_buf w))
  end.

(** PciDoeTransportEncap::decap — header.rs:116-144 *)
Definition doe_decap (transport_buffer spdm_buffer : bytes) : outcome (nat * bool) * bytes :=
  match read_doe_header (r_init transport_buffer) with
  | None => (Err ST_DECAP_FAIL, spdm_buffer)
  | Some (h, r) =>
      match doe_vendor h with
      | EnumKnown 0 =>
          let finish secured :=
            let header_size := r_used r in
            (* compared in N: the claimed size may be large *)
            if (len transport_buffer <? N.of_nat header_size + doe_len h) then (Err ST_DECAP_FAIL, spdm_buffer)
            else if (len spdm_buffer <? doe_len h) then (Err ST_DECAP_FAIL, spdm_buffer)
            else (Ok (N.to_nat (doe_len h), secured),
                  patch 0 (slice header_size (N.to_nat (doe_len h)) transport_buffer) spdm_buffer) in
          match doe_type h with
          | EnumKnown 1 => finish false
          | EnumKnown 2 => finish true
          | _ => (Err ST_DECAP_FAIL, spdm_buffer)
          end
      | _ => (Err ST_DECAP_FAIL, spdm_buffer)
      end
  end.

(** PciDoeTransportEncap::encap_app — header.rs:146-154 ([Panic]: slice index out of range) *)
Definition doe_encap_app (spdm_buffer app_buffer : bytes) (is_app : bool) : outcome nat * bytes :=
  if (length app_buffer <? length spdm_buffer)%nat then (Panic, app_buffer)
  else (Ok (length spdm_buffer), patch 0 spdm_buffer app_buffer).

(** PciDoeTransportEncap::decap_app — header.rs:156-163 *)
Definition doe_decap_app (app_buffer spdm_buffer : bytes) : outcome (nat * bool) * bytes :=
  if (length spdm_buffer <? length app_buffer)%nat then (Panic, spdm_buffer)
  else (Ok (length app_buffer, false), patch 0 app_buffer spdm_buffer).
