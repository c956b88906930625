(** What C47, C48 and C66-C68 say about TDISP. *)
From Verif Require Import Bytes Status Codec Parse Algo Monad SpecMsg Tdisp.
Local Open Scope N_scope.

(** ** the interface state machine of the TDISP specification: which request moves an interface where *)
Inductive allowed (c : N) : tdi_state -> tdi_state -> Prop :=
| stays s : allowed c s s
| locks : c = 0x83 -> allowed c TUnlocked TLocked
| starts : c = 0x86 -> allowed c TLocked TRun
| stops s : c = 0x87 -> allowed c s TUnlocked
| fails s : allowed c s TError.
(** the code a request carries: its second byte *)
Definition code_of (v : vbuf) : option N := nth_error (v_data v) 1.
(** what the device must have been asked, and agreed to, for an interface to enter a state (newest first) *)
Definition agreed (s : tdi_state) (calls : list (dev_call * bool)) : Prop :=
  match s with
  | TLocked => calls = [(DLock, true); (DInit, true)]
  | TRun => calls = [(DTrack, true)]
  | TUnlocked => calls = [(DUnlock, true); (DErase, true)]
  | TError => exists earlier, calls = (DErase, true) :: earlier
  | TUnknown _ => False
  end.
(** the responder after a list of requests, whatever became of each *)
Definition tdisp_after (D : device) (vs : list vbuf) (x : tctx) : tctx := fold_left (fun x v => snd (tdisp_request D v x)) vs x.
(** confidential data has been erased since the interface was last locked *)
Definition erased_since_lock (calls : list (dev_call * bool)) : Prop :=
  forall later earlier, calls = later ++ (DLock, true) :: earlier -> In (DErase, true) later.
(** the device configuration is locked: initialised, locked, and not unlocked since *)
Definition locked_config (calls : list (dev_call * bool)) : Prop :=
  exists later earlier, calls = later ++ (DLock, true) :: (DInit, true) :: earlier /\ ~ In (DUnlock, true) later.
(** ... and changes to it are being tracked *)
Definition tracked_config (calls : list (dev_call * bool)) : Prop :=
  exists later mid earlier, calls = later ++ (DTrack, true) :: mid ++ (DLock, true) :: (DInit, true) :: earlier /\
    ~ In (DUnlock, true) later /\ ~ In (DUnlock, true) mid.

(** what each state stands for *)
Definition state_backed (x : tctx) : Prop :=
  match t_state x with
  | TUnlocked | TError => erased_since_lock (t_calls x)
  | TLocked => locked_config (t_calls x)
  | TRun => tracked_config (t_calls x)
  | TUnknown _ => False
  end.
(** the device agrees to these calls, made one after the other *)
Fixpoint willing (D : device) (calls : list (dev_call * bool)) (ks : list dev_call) : Prop :=
  match ks with [] => True | k :: r => D calls k = true /\ willing D ((k, true) :: calls) r end.
(** the responder in another state, these further calls having succeeded (in this order) *)
Definition moved (s : tdi_state) (ks : list dev_call) (x : tctx) : tctx :=
  mkTctx (t_version x) (t_tdi x) s (rev (map (fun k => (k, true)) ks) ++ t_calls x).

(** ** values in range *)
Definition u64 (v : N) : Prop := v < 2 ^ 64.
Definition u128 (v : N) : Prop := v < 2 ^ 128.
Definition ok_tdi (i : interface_id) : Prop := u16 (i_requester i) /\ match i_segment i with Some s => u8 s | None => True end.
Definition ok_theader (h : tdisp_header) : Prop := u8 (th_version h) /\ u8 (th_code h) /\ ok_tdi (th_tdi h).
(** [n] meaningful bytes at the start of an array of [max], zero behind *)
Definition filled (max : nat) (n : N) (b : bytes) : Prop := exists d, length d = N.to_nat n /\ (length d <= max)%nat /\ b = d ++ repeat 0 (max - length d).
Definition ok_tversions (v : vbuf) : Prop := u8 (v_size v) /\ filled 2 (v_size v) (v_data v).
Definition ok_tcaps (c : tdisp_caps) : Prop := u32 (tc_dsm c) /\ u128 (tc_msgs c) /\ u16 (tc_flags c) /\ u8 (tc_width c) /\ u8 (tc_this c) /\ u8 (tc_all c).
Definition ok_lock (p : lock_req) : Prop := within 0x1F (lk_flags p) /\ u8 (lk_stream p) /\ u64 (lk_offset p) /\ u64 (lk_mask p).
Definition ok_report_req (p : report_req) : Prop := u16 (rq_offset p) /\ u16 (rq_length p).
Definition ok_report (p : report_rsp) : Prop := u16 (rp_portion p) /\ u16 (rp_remainder p) /\ filled (N.to_nat 0xA000) (rp_portion p) (rp_bytes p).
Definition ok_range (p : mmio_range) : Prop := u64 (mr_page p) /\ u32 (mr_pages p) /\ within 0x1F (mr_attr p) /\ u16 (mr_id p).
Definition ok_tdi_report (p : tdi_report) : Prop :=
  within 0x1F (tr_info p) /\ u16 (tr_msix p) /\ u16 (tr_lnr p) /\ u32 (tr_tph p) /\ u32 (tr_ranges p) /\
  (exists l, length l = N.to_nat (tr_ranges p) /\ (length l <= 2)%nat /\ Forall ok_range l /\ tr_range p = l ++ repeat (mkRange 0 0 0 0) (2 - length l)) /\
  u32 (tr_spec_len p) /\ filled (N.to_nat 0xA000) (tr_spec_len p) (tr_spec p).
Definition ok_tstate (s : tdi_state) : Prop := match s with TUnknown b => u8 b /\ 3 < b | _ => True end.
Definition no_ext (e : ext_error) : Prop := e = mkExtErr 0 (mkV 0 (repeat 0 32)) (repeat 0 (N.to_nat 0xA000)).
Definition ok_terror (p : tdisp_error) : Prop :=
  u16 (te_code p) /\ u32 (te_data p) /\
  if te_code p =? 0xFF then u8 (xe_registry (te_ext p)) /\ u8 (v_size (xe_vendor (te_ext p))) /\ filled 32 (v_size (xe_vendor (te_ext p))) (v_data (xe_vendor (te_ext p))) /\
                           filled (N.to_nat 0xA000) (te_data p) (xe_data (te_ext p))
  else no_ext (te_ext p).
Definition ok_tvdm (p : tvdm) : Prop := u8 (tv_registry p) /\ u8 (v_size (tv_vendor p)) /\ filled 32 (v_size (tv_vendor p)) (v_data (tv_vendor p)).
(** ** layouts, from the TDISP message tables *)
Definition wire_tdi (i : interface_id) : bytes :=
  le_bytes 2 (i_requester i) ++ match i_segment i with Some s => [s; 1] | None => [0; 0] end ++ [0; 0; 0; 0].
Definition wire_theader (h : tdisp_header) : bytes := [th_version h; th_code h; 0; 0] ++ wire_tdi (th_tdi h).
Definition wire_lock (p : lock_req) : bytes := le_bytes 2 (lk_flags p) ++ [lk_stream p; 0] ++ le_bytes 8 (lk_offset p) ++ le_bytes 8 (lk_mask p).
Definition wire_tcaps (c : tdisp_caps) : bytes :=
  le_bytes 4 (tc_dsm c) ++ le_bytes 16 (tc_msgs c) ++ le_bytes 2 (tc_flags c) ++ [0; 0; 0; tc_width c; tc_this c; tc_all c].
Definition wire_range (p : mmio_range) : bytes := le_bytes 8 (mr_page p) ++ le_bytes 4 (mr_pages p) ++ le_bytes 2 (mr_attr p) ++ le_bytes 2 (mr_id p).
(** an encoder's bytes, and that the decoder gets the value back from them whatever follows *)
Definition survives {A} (e : enc) (d : dec A) (a : A) : Prop := exists w, xwire e = Some w /\ forall rest, d (w ++ rest) = POk a rest.
(** a request on the wire: at least the 8 bytes the responder insists on are announced; the array holds the
    header, the payload and anything else *)
Definition asks (h : tdisp_header) (payload : bytes) (v : vbuf) : Prop :=
  ok_theader h /\ 8 <= v_size v /\ exists rest, v_data v = wire_theader h ++ payload ++ rest.
(** the bytes of an answer, and of a TDISP_ERROR with code [e] *)
Definition answers (x : tctx) (code : N) (payload : bytes) : bytes := wire_theader (mkTHeader (t_version x) code (t_tdi x)) ++ payload.
Definition error_bytes (x : tctx) (e : N) : bytes := answers x 0x7F (le_bytes 4 e ++ [0; 0; 0; 0]).
