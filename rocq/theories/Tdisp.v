(** Model of the TDISP crate (tdisp/src): messages (message.rs), interface state machine
    (state_machine.rs, context.rs) and responder (tdisp_responder/*.rs).  No proofs here.

    The crate is outside the workspace of this commit and does not compile against it (it names
    spdmlib::config::MAX_SPDM_VENDOR_DEFINED_PAYLOAD_SIZE, which lives in spdmlib::message, and
    its Codec impls predate encode returning a Result), so the model follows the text: encoders
    ignore the results of the writes.  The payload constant is that of message/vendor.rs:17.
    The TDISP requester (tdisp_requester/*.rs) passes a u32 where an Option<u32> is now expected and
    does nothing with an answer; it is not modelled.  Enumerations are their numbers, as elsewhere. *)
From Verif Require Import Bytes Status Codec Parse Algo MsgConn MsgAuth MsgOther Monad.
Local Open Scope N_scope.

(** ** messages *)
(** TdispRequestResponseCode — message.rs:22-53 *)
Definition TC_VERSION : N := 0x81.
Definition TC_CAPABILITIES : N := 0x82.
Definition TC_LOCK : N := 0x83.
Definition TC_REPORT : N := 0x84.
Definition TC_STATE : N := 0x85.
Definition TC_START : N := 0x86.
Definition TC_STOP : N := 0x87.
Definition TC_BIND : N := 0x88.
Definition TC_UNBIND : N := 0x89.
Definition TC_MMIO : N := 0x8A.
Definition TC_VDM : N := 0x8B.
Definition TR_ERROR : N := 0x7F.
(** a response code is the request code without its top bit *)
Definition answer_code (c : N) : N := c - 0x80.
(** GenericErrorResponseCode — message.rs:55-71 *)
Definition TE_INVALID_REQUEST : N := 1.
Definition TE_INVALID_STATE : N := 4.
Definition TE_VENDOR : N := 0xFF.
Definition TE_INVALID_CONFIG : N := 0x104.

(** FunctionId / InterfaceId — message.rs:92-97, 188-191; the segment is [Some] iff its valid bit is set *)
Record interface_id := mkTdi { i_requester : N; i_segment : option N }.
(** message.rs:122-131 (encode), 133-152 (read); InterfaceId 193-205 *)
Definition enc_tdi (i : interface_id) : enc :=
  x_u16 (i_requester i) ++ match i_segment i with Some s => x_u8 s ++ x_u8 1 | None => x_u16 0 end ++ x_u32 0.
Definition dec_tdi : dec interface_id :=
  (r <- d_u16 ;; s <- d_u8 ;; v <- d_u8 ;;
   i <- (if v =? 1 then dret (mkTdi r (Some s)) else if v =? 0 then dret (mkTdi r None) else dnone) ;;
   _ <- d_u32 ;; dret i)%dec.
(** TdispMessageHeader — message.rs:223-250 (the Codec twin at 252-277 is the same) *)
Record tdisp_header := mkTHeader { th_version : N; th_code : N; th_tdi : interface_id }.
Definition enc_theader (h : tdisp_header) : enc := x_u8 (th_version h) ++ x_u8 (th_code h) ++ x_u16 0 ++ enc_tdi (th_tdi h).
Definition dec_theader : dec tdisp_header :=
  (v <- d_u8 ;; c <- d_u8 ;; _ <- d_u16 ;; i <- dec_tdi ;; dret (mkTHeader v c i))%dec.
(** the payloads without fields: GetVersion 330-338, state request 727-735, start response 779-787, stop
    790-809, bind/unbind/mmio responses 828-836, 855-863, 882-890 *)
Definition enc_tnone : enc := [].
Definition dec_tnone : dec unit := dret tt.
(** MAX_VERSION_COUNT — config.rs:5 *)
Definition MAX_TVERSIONS : nat := 2.
(** MessagePayloadResponseVersion — message.rs:340-373 *)
Definition enc_tversions (v : vbuf) : enc := x_u8 (v_size v) ++ x_arr (firstn (N.to_nat (v_size v)) (v_data v)).
Definition dec_tversions : dec vbuf := (n <- d_u8 ;; b <- d_fixed MAX_TVERSIONS n ;; dret (mkV n b))%dec.
(** MessagePayloadRequestGetCapabilities — message.rs:375-390 *)
Definition enc_tsm_caps (c : N) : enc := x_u32 c.
Definition dec_tsm_caps : dec N := d_u32.
(** MessagePayloadResponseCapabilities — message.rs:392-431 *)
Record tdisp_caps := mkTCaps { tc_dsm : N; tc_msgs : N; tc_flags : N; tc_width : N; tc_this : N; tc_all : N }.
Definition enc_tcaps (c : tdisp_caps) : enc :=
  x_u32 (tc_dsm c) ++ x_u128 (tc_msgs c) ++ x_u16 (tc_flags c) ++ x_u24 0 ++ x_u8 (tc_width c) ++ x_u8 (tc_this c) ++ x_u8 (tc_all c).
Definition dec_tcaps : dec tdisp_caps :=
  (a <- d_u32 ;; b <- d_u128 ;; c <- d_u16 ;; _ <- d_u24 ;; d <- d_u8 ;; e <- d_u8 ;; f <- d_u8 ;; dret (mkTCaps a b c d e f))%dec.
(** from_bits of a 16-bit flag set with five flags: LockInterfaceFlag 433-454, InterfaceInfo 568-589,
    MMIORangeAttribute 591-612 *)
Definition FIVE_FLAGS : N := 0x1F.
Definition d_flags5 : dec N := (b <- d_u16 ;; dopt (from_bits FIVE_FLAGS b))%dec.
(** MessagePayloadRequestLockInterface — message.rs:456-486 *)
Record lock_req := mkLock { lk_flags : N; lk_stream : N; lk_offset : N; lk_mask : N }.
Definition enc_lock (p : lock_req) : enc := x_u16 (lk_flags p) ++ x_u8 (lk_stream p) ++ x_u8 0 ++ x_u64 (lk_offset p) ++ x_u64 (lk_mask p).
Definition dec_lock : dec lock_req :=
  (f <- d_flags5 ;; s <- d_u8 ;; _ <- d_u8 ;; o <- d_u64 ;; m <- d_u64 ;; dret (mkLock f s o m))%dec.
(** MessagePayloadResponseLockInterface — message.rs:488-504 *)
Definition enc_lock_nonce (n : N) : enc := x_u128 n.
Definition dec_lock_nonce : dec N := d_u128.
(** MessagePayloadRequestGetDeviceInterfaceReport — message.rs:506-523 *)
Record report_req := mkReportReq { rq_offset : N; rq_length : N }.
Definition enc_report_req (p : report_req) : enc := x_u16 (rq_offset p) ++ x_u16 (rq_length p).
Definition dec_report_req : dec report_req := (o <- d_u16 ;; l <- d_u16 ;; dret (mkReportReq o l))%dec.
(** MAX_MESSAGE_INTERNAL_BUFFER_SIZE, MAX_DEVICE_SPECIFIC_INFORMATION_LENGTH,
    MAX_EXTENDED_ERROR_DATA_LENGTH — config.rs:6, 8, 9 *)
Definition MAX_TDATA : nat := N.to_nat 0xA000.
(** MessagePayloadResponseDeviceInterfaceReport — message.rs:525-556 *)
Record report_rsp := mkReport { rp_portion : N; rp_remainder : N; rp_bytes : bytes }.
Definition enc_report (p : report_rsp) : enc := x_u16 (rp_portion p) ++ x_u16 (rp_remainder p) ++ x_arr (firstn (N.to_nat (rp_portion p)) (rp_bytes p)).
Definition dec_report : dec report_rsp := (p <- d_u16 ;; r <- d_u16 ;; b <- d_fixed MAX_TDATA p ;; dret (mkReport p r b))%dec.
(** MMIORange — message.rs:614-643 *)
Record mmio_range := mkRange { mr_page : N; mr_pages : N; mr_attr : N; mr_id : N }.
Definition range_default : mmio_range := mkRange 0 0 0 0.
Definition enc_range (p : mmio_range) : enc := x_u64 (mr_page p) ++ x_u32 (mr_pages p) ++ x_u16 (mr_attr p) ++ x_u16 (mr_id p).
Definition dec_range : dec mmio_range := (a <- d_u64 ;; b <- d_u32 ;; c <- d_flags5 ;; d <- d_u16 ;; dret (mkRange a b c d))%dec.
(** MAX_MMIO_RANGE_COUNT — config.rs:7 *)
Definition MAX_RANGES : nat := 2.
(** TDIReport — message.rs:645-709 *)
Record tdi_report := mkTdiReport { tr_info : N; tr_msix : N; tr_lnr : N; tr_tph : N; tr_ranges : N; tr_range : list mmio_range; tr_spec_len : N; tr_spec : bytes }.
Definition enc_tdi_report (p : tdi_report) : enc :=
  x_u16 (tr_info p) ++ x_u16 (tr_msix p) ++ x_u16 (tr_lnr p) ++ x_u32 (tr_tph p) ++ x_u32 (tr_ranges p) ++
  concat (map enc_range (firstn (N.to_nat (tr_ranges p)) (tr_range p))) ++
  x_u32 (tr_spec_len p) ++ x_arr (firstn (N.to_nat (tr_spec_len p)) (tr_spec p)).
Definition dec_tdi_report : dec tdi_report :=
  (a <- d_flags5 ;; b <- d_u16 ;; c <- d_u16 ;; d <- d_u32 ;; n <- d_u32 ;;
   l <- d_table MAX_RANGES range_default n dec_range ;;
   k <- d_u32 ;; s <- d_fixed MAX_TDATA k ;; dret (mkTdiReport a b c d n l k s))%dec.
(** TDIState — state_machine.rs:7-37 (codes), 46-55; an unknown byte reads as Unknown *)
Inductive tdi_state := TUnlocked | TLocked | TRun | TError | TUnknown (b : N).
Definition tdi_code (s : tdi_state) : N := match s with TUnlocked => 0 | TLocked => 1 | TRun => 2 | TError => 3 | TUnknown b => b end.
Definition tdi_of (b : N) : tdi_state := if b =? 0 then TUnlocked else if b =? 1 then TLocked else if b =? 2 then TRun else if b =? 3 then TError else TUnknown b.
(** MessagePayloadResponseDeviceInterfaceState — message.rs:737-750 *)
Definition enc_tstate (s : tdi_state) : enc := x_u8 (tdi_code s).
Definition dec_tstate : dec tdi_state := (b <- d_u8 ;; dret (tdi_of b))%dec.
(** MessagePayloadRequestStartInterface — message.rs:753-776 *)
Definition TNONCE : nat := 32.
Definition enc_start (n : bytes) : enc := x_arr (firstn TNONCE n).
Definition dec_start : dec bytes := d_arr TNONCE.
(** Bind/UnbindP2pStream — message.rs:811-825, 838-852 *)
Definition enc_p2p (s : N) : enc := x_u8 s.
Definition dec_p2p : dec N := d_u8.
(** SetMmioAttribute — message.rs:865-879 *)
Definition enc_mmio : mmio_range -> enc := enc_range.
Definition dec_mmio : dec mmio_range := dec_range.
(** MAX_VENDOR_ID_LEN — config.rs:10 *)
Definition MAX_TVENDOR : nat := 32.
(** ExtendedErrorData — message.rs:73-79 *)
Record ext_error := mkExtErr { xe_registry : N; xe_vendor : vbuf; xe_data : bytes }.
(** ExtendedErrorData::default — message.rs:81-90 *)
Definition ext_default : ext_error := mkExtErr 0 (mkV 0 (repeat 0 MAX_TVENDOR)) (repeat 0 MAX_TDATA).
(** MessagePayloadResponseTdispError — message.rs:892-956 *)
Record tdisp_error := mkTErr { te_code : N; te_data : N; te_ext : ext_error }.
Definition enc_terror (p : tdisp_error) : enc :=
  x_u32 (te_code p) ++ x_u32 (te_data p) ++
  if te_code p =? TE_VENDOR then
    x_u8 (xe_registry (te_ext p)) ++ x_u8 (v_size (xe_vendor (te_ext p))) ++
    x_arr (firstn (N.to_nat (v_size (xe_vendor (te_ext p)))) (v_data (xe_vendor (te_ext p)))) ++
    x_arr (firstn (N.to_nat (te_data p)) (xe_data (te_ext p)))
  else [].
(** the code is read as a u32 and kept as its low 16 bits — message.rs:947 *)
Definition dec_terror : dec tdisp_error :=
  (c <- d_u32 ;; d <- d_u32 ;;
   x <- (if c =? TE_VENDOR then
           (r <- d_u8 ;; n <- d_u8 ;; v <- d_fixed MAX_TVENDOR n ;; e <- d_fixed MAX_TDATA d ;; dret (mkExtErr r (mkV n v) e))%dec
         else dret ext_default) ;;
   dret (mkTErr (c mod 65536) d x))%dec.
(** MessagePayloadRequestVDM / ResponseVDM — message.rs:958-999, 1001-1042 *)
Record tvdm := mkTVdm { tv_registry : N; tv_vendor : vbuf }.
Definition enc_tvdm (p : tvdm) : enc := x_u8 (tv_registry p) ++ x_u8 (v_size (tv_vendor p)) ++ x_arr (firstn (N.to_nat (v_size (tv_vendor p))) (v_data (tv_vendor p))).
Definition dec_tvdm : dec tvdm := (r <- d_u8 ;; n <- d_u8 ;; v <- d_fixed MAX_TVENDOR n ;; dret (mkTVdm r (mkV n v)))%dec.

(** ** the responder *)
(** the callbacks of TdispConfiguration — device.rs:8-18 *)
Inductive dev_call := DInit | DLock | DUnlock | DErase | DTrack.
(** TdispContext — context.rs:16-29: version_sel, tdi, state_machine; the device is seen through the
    calls made to it, newest first, each with whether it succeeded.  The message buffers are never used
    by the responder *)
Record tctx := mkTctx { t_version : N; t_tdi : interface_id; t_state : tdi_state; t_calls : list (dev_call * bool) }.
Definition set_t_state (s : tdi_state) (x : tctx) : tctx := mkTctx (t_version x) (t_tdi x) s (t_calls x).
(** the device: whether a call succeeds, given the calls made before *)
Definition device := list (dev_call * bool) -> dev_call -> bool.
Definition dev (D : device) (c : dev_call) : st tctx bool :=
  fun x => let ok := D (t_calls x) c in (Ok ok, mkTctx (t_version x) (t_tdi x) (t_state x) ((c, ok) :: t_calls x)).
(** TdispContext::new — context.rs:34-52; [None] where the unwrap of init_config panics *)
Definition tdisp_new (D : device) (i : interface_id) : option tctx :=
  if D [] DInit then Some (mkTctx 0x10 i TUnlocked [(DInit, true)]) else None.

(** a reply: rsp_length and the bytes put into the payload array.  Every handler builds the structure
    with rsp_length 0 and never sets it, e.g. lock_interface_request_rsp.rs:67-72 *)
Definition treply := (N * bytes)%type.
(** what the encoders leave at the start of the zeroed payload array (4087 bytes; no reply is longer than
    41, so no write fails) *)
Definition written (e : enc) : bytes := match xwire e with Some w => w | None => [] end.
(** TdispMessageHeader and payload of an answer, e.g. lock_interface_request_rsp.rs:73-86 *)
Definition answer (code : N) (payload : enc) : st tctx treply :=
  (x <-- sget ;; sret (0, written (enc_theader (mkTHeader (t_version x) code (t_tdi x)) ++ payload)))%st.
(** handle_tdisp_error — tdisp_error_rsp.rs:12-53; the nine constants of mod.rs:148-266 differ in the code *)
Definition handle_terror (D : device) (code : N) : st tctx treply :=
  (r <-- answer TR_ERROR (enc_terror (mkTErr code 0 ext_default)) ;;
   ok <-- dev D DErase ;;
   if ok : bool then (smod (set_t_state TError) ;;; sret r)%st else spanic)%st.
(** the common start of the handlers: header and payload are read from the whole payload array, whatever
    req_length says, e.g. lock_interface_request_rsp.rs:45-59 *)
Definition parsing {A} (D : device) (d : dec A) (b : bytes) (k : A -> st tctx treply) : st tctx treply :=
  match dec_theader b with
  | POk _ r => match d r with POk a _ => k a | PNone => handle_terror D TE_INVALID_REQUEST | PPanic => spanic end
  | PNone => handle_terror D TE_INVALID_REQUEST
  | PPanic => spanic
  end.
(** derived PartialEq of TDIState — state_machine.rs:7-37 *)
Definition tdi_eqb (a b : tdi_state) : bool :=
  match a, b with
  | TUnlocked, TUnlocked | TLocked, TLocked | TRun, TRun | TError, TError => true
  | TUnknown m, TUnknown n => m =? n
  | _, _ => false
  end.
(** [else if current_state != wanted { handle_tdisp_error(INVALID_INTERFACE_STATE) }] *)
Definition in_state (D : device) (wanted : tdi_state) (k : st tctx treply) : st tctx treply :=
  (x <-- sget ;; if negb (tdi_eqb (t_state x) wanted) then handle_terror D TE_INVALID_STATE else k)%st.
(** handle_tdisp_version — tdisp_version_rsp.rs:16-59 *)
Definition handle_tversion (D : device) (b : bytes) : st tctx treply :=
  parsing D dec_tnone b (fun _ => (x <-- sget ;; answer (answer_code TC_VERSION) (enc_tversions (mkV 1 [t_version x; t_version x])))%st).
(** handle_tdisp_capabilities — tdisp_capabilities_rsp.rs:12-58 *)
Definition handle_tcapabilities (D : device) (b : bytes) : st tctx treply :=
  parsing D dec_tsm_caps b (fun _ => answer (answer_code TC_CAPABILITIES) (enc_tcaps (mkTCaps 0 0 0 0 0 0))).
(** handle_lock_interface_request — lock_interface_request_rsp.rs:41-106 *)
Definition handle_lock (D : device) (b : bytes) : st tctx treply :=
  parsing D dec_lock b (fun _ => in_state D TUnlocked
    (r <-- answer (answer_code TC_LOCK) (enc_lock_nonce 0) ;;
     i <-- dev D DInit ;;
     if i : bool then
       (l <-- dev D DLock ;;
        if l : bool then (smod (set_t_state TLocked) ;;; sret r)%st else handle_terror D TE_INVALID_CONFIG)%st
     else handle_terror D TE_INVALID_CONFIG)%st).
(** handle_device_interface_report — device_interface_report_rsp.rs:22-72; the condition
    [!= Run || != ConfigLocked] as written *)
Definition handle_report (D : device) (b : bytes) : st tctx treply :=
  parsing D dec_report_req b (fun _ =>
    (x <-- sget ;;
     if negb (tdi_eqb (t_state x) TRun) || negb (tdi_eqb (t_state x) TLocked) then handle_terror D TE_INVALID_STATE
     else answer (answer_code TC_REPORT) (enc_report (mkReport 0 0 (repeat 0 MAX_TDATA))))%st).
(** handle_device_interface_state — device_interface_state_rsp.rs:20-64 *)
Definition handle_tstate (D : device) (b : bytes) : st tctx treply :=
  parsing D dec_tnone b (fun _ => (x <-- sget ;; answer (answer_code TC_STATE) (enc_tstate (t_state x)))%st).
(** handle_start_interface_request — start_interface_request_rsp.rs:19-78 *)
Definition handle_start (D : device) (b : bytes) : st tctx treply :=
  parsing D dec_start b (fun _ => in_state D TLocked
    (r <-- answer (answer_code TC_START) enc_tnone ;;
     k <-- dev D DTrack ;;
     if k : bool then (smod (set_t_state TRun) ;;; sret r)%st else handle_terror D TE_INVALID_CONFIG)%st).
(** handle_stop_interface_request — stop_interface_request_rsp.rs:24-85 *)
Definition handle_stop (D : device) (b : bytes) : st tctx treply :=
  parsing D dec_tnone b (fun _ =>
    (r <-- answer (answer_code TC_STOP) enc_tnone ;;
     e <-- dev D DErase ;;
     if e : bool then
       (u <-- dev D DUnlock ;;
        if u : bool then (smod (set_t_state TUnlocked) ;;; sret r)%st else handle_terror D TE_INVALID_CONFIG)%st
     else handle_terror D TE_INVALID_CONFIG)%st).
(** handle_bind_p2p_stream_request — bind_p2p_stream_request_rsp.rs:24-69 *)
Definition handle_bind (D : device) (b : bytes) : st tctx treply :=
  parsing D dec_p2p b (fun _ => in_state D TRun (answer (answer_code TC_BIND) enc_tnone)).
(** handle_unbind_p2p_stream_request — unbind_p2p_stream_request_rsp.rs:21-66 *)
Definition handle_unbind (D : device) (b : bytes) : st tctx treply :=
  parsing D dec_p2p b (fun _ => in_state D TRun (answer (answer_code TC_UNBIND) enc_tnone)).
(** handle_set_mmio_attribute_request — set_mmio_attribute_request_rsp.rs:24-69 *)
Definition handle_mmio (D : device) (b : bytes) : st tctx treply :=
  parsing D dec_mmio b (fun _ => in_state D TRun (answer (answer_code TC_MMIO) enc_tnone)).
(** handle_vdm_request — vdm_response.rs:12-54 *)
Definition handle_tvdm (D : device) (b : bytes) : st tctx treply :=
  parsing D dec_tvdm b (fun _ => answer (answer_code TC_VDM) (enc_tvdm (mkTVdm 0 (mkV 0 (repeat 0 MAX_TVENDOR))))).
(** size_of::<TdispMessageHeader>() as rustc lays it out: u8, a two-byte enum, four bytes of interface id
    aligned to 2 *)
Definition THEADER_SIZE : N := 8.
(** vendor_defined_request_handler — tdisp_responder/mod.rs:43-130, with TDISP_RESPONDER set.  [v] is the
    VendorDefinedReqPayloadStruct: req_length and the 4087-byte array *)
Definition tdisp_request (D : device) (v : vbuf) : st tctx treply :=
  let b := v_data v in
  if v_size v <? THEADER_SIZE then serr ST_INVALID_MSG_FIELD
  else match dec_theader b with
       | POk h _ =>
           let c := th_code h in
           if c =? TC_VERSION then handle_tversion D b
           else if c =? TC_CAPABILITIES then handle_tcapabilities D b
           else if c =? TC_LOCK then handle_lock D b
           else if c =? TC_REPORT then handle_report D b
           else if c =? TC_STATE then handle_tstate D b
           else if c =? TC_START then handle_start D b
           else if c =? TC_STOP then handle_stop D b
           else if c =? TC_BIND then handle_bind D b
           else if c =? TC_UNBIND then handle_unbind D b
           else if c =? TC_MMIO then handle_mmio D b
           else if c =? TC_VDM then handle_tvdm D b
           else serr ST_INVALID_MSG_FIELD
       | PNone => serr ST_INVALID_MSG_FIELD
       | PPanic => spanic
       end.
