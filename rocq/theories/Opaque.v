(** Model of spdmlib/src/common/opaque.rs (DMTF opaque elements) and of the secured-message
    version selection of the responder (responder/key_exchange_rsp.rs:108-161, the same code in
    responder/psk_exchange_rsp.rs) and requester (requester/key_exchange_req.rs:200-208).
    No proofs here.  SpdmOpaqueStruct's own codec is in MsgAuth.v ([enc_opaque], [dec_opaque]). *)
From Verif Require Import Bytes Codec Parse Status Algo MsgConn MsgAuth MsgOther.
Local Open Scope N_scope.

(** opaque.rs:17-30 *)
Definition MAX_SECURE_SPDM_VERSION_COUNT : nat := 2.
Definition MAX_OPAQUE_LIST_ELEMENTS_COUNT : nat := 3.
Definition DMTF_SPEC_ID : N := 0x444D546.
Definition DMTF_OPAQUE_VERSION : N := 1.
Definition DMTF_SECURE_SPDM_VERSION_10 : N := 0x10.
Definition DMTF_SECURE_SPDM_VERSION_11 : N := 0x11.

(** REQ_DMTF_OPAQUE_DATA_SUPPORT_VERSION_LIST_DSP0277 — opaque.rs:40-61 *)
Definition REQ_BLOB_DSP0277 : bytes :=
  [0x46;0x54;0x4d;0x44; 1;1;0;0; 0;0;7;0; 1;1;2;0; 0x10;0;0x11;0].
(** RSP_DMTF_OPAQUE_DATA_VERSION_SELECTION_DSP0277 — opaque.rs:63-80 *)
Definition RSP_BLOB_DSP0277 : bytes :=
  [0x46;0x54;0x4d;0x44; 1;1;0;0; 0;0;4;0; 1;0;0;0x11].
(** REQ_DMTF_OPAQUE_DATA_SUPPORT_VERSION_LIST_DSP0274_FMT1 — opaque.rs:82-99 *)
Definition REQ_BLOB_FMT1 : bytes := [1;0;0;0; 0;0;7;0; 1;1;2;0; 0x10;0;0x11;0].
(** RSP_DMTF_OPAQUE_DATA_VERSION_SELECTION_DSP0274_FMT1 — opaque.rs:101-114 *)
Definition RSP_BLOB_FMT1 : bytes := [1;0;0;0; 0;0;4;0; 1;0;0;0x11].

(** SecuredMessageVersion — opaque.rs:117-122 *)
Record smv := mkSmv { sv_major : N; sv_minor : N; sv_update : N; sv_alpha : N }.
Definition smv_default := mkSmv 0 0 0 0.
(** [(hi << 4) + lo] on u8: the shift drops the high bits, the addition panics on overflow *)
Definition nib (hi lo : N) : N := (hi * 16) mod 256 + lo.
(** spdm_encode — opaque.rs:125-138 *)
Definition enc_smv (v : smv) : enc :=
  x_assert (nib (sv_update v) (sv_alpha v) <? 256) ++ x_u8 (nib (sv_update v) (sv_alpha v)) ++
  x_assert (nib (sv_major v) (sv_minor v) <? 256) ++ x_u8 (nib (sv_major v) (sv_minor v)).
(** spdm_read — opaque.rs:139-153 *)
Definition dec_smv : dec smv :=
  (u <- d_u8 ;; m <- d_u8 ;;
   dret (mkSmv (N.shiftr m 4) (N.land m 0xF) (N.shiftr u 4) (N.land u 0xF)))%dec.
(** get_secure_spdm_version — opaque.rs:157-159; [None] is the overflow panic *)
Definition smv_u8 (v : smv) : option N :=
  if nib (sv_major v) (sv_minor v) <? 256 then Some (nib (sv_major v) (sv_minor v)) else None.
(** from_secure_spdm_version — opaque.rs:161-171 *)
Definition smv_from (b : N) : smv := mkSmv (N.shiftr b 4) (N.land b 0xF) 0 0.

(** SecuredMessageVersionList — opaque.rs:174-178 *)
Record smv_list := mkSvl { sl_count : N; sl_list : list smv }.
Definition svl_default := mkSvl 0 [smv_default; smv_default].

(** indexed loop [for index in 0..count { list[index].encode }]: panics when the index
    leaves the array *)
Definition x_indexed {A} (e : A -> enc) (count : N) (l : list A) : enc :=
  concat (map e (firstn (N.to_nat count) l)) ++ x_assert (count <=? len l).

(** spdm_encode — opaque.rs:181-197 *)
Definition enc_svl (l : smv_list) : enc := x_u8 (sl_count l) ++ x_indexed enc_smv (sl_count l) (sl_list l).

(** [n] reads in a row *)
Fixpoint d_many {A} (d : dec A) (n : nat) : dec (list A) :=
  match n with
  | O => dret []
  | S n' => (x <- d ;; xs <- d_many d n' ;; dret (x :: xs))%dec
  end.
(** [for d in list.iter_mut().take(count) { *d = read? }] on an array of defaults *)
Definition d_table {A} (max : nat) (dflt : A) (d : dec A) (count : N) : dec (list A) :=
  (xs <- d_many d (Nat.min (N.to_nat count) max) ;;
   dret (xs ++ repeat dflt (max - length xs)))%dec.

(** spdm_read — opaque.rs:198-209 *)
Definition dec_svl : dec smv_list :=
  (n <- d_u8 ;; l <- d_table MAX_SECURE_SPDM_VERSION_COUNT smv_default dec_smv n ;; dret (mkSvl n l))%dec.

(** OpaqueElementHeader — opaque.rs:212-262 *)
Record oe_header := mkOeh { oh_id : N; oh_vlen : N; oh_vid : bytes }.
Definition enc_oe_header (h : oe_header) : enc :=
  x_u8 (oh_id h) ++ x_u8 (oh_vlen h) ++ x_indexed x_u8 (oh_vlen h) (oh_vid h).
Definition dec_oe_header : dec oe_header :=
  (i <- d_u8 ;; n <- d_u8 ;; v <- d_fixed 255 n ;; dret (mkOeh i n v))%dec.

(** the reserved zero-based alignment of [used] to a multiple of 4 — opaque.rs:396-398, 413-415 *)
Definition align_padding (used : N) : N := (used + 3) / 4 * 4 - used.

(** encoding of the general header; [None] is Err(UNSUPPORTED_CAP)
    SecuredMessageGeneralOpaqueDataHeader::spdm_encode — opaque.rs:269-300 *)
Definition enc_general (c : cctx) (total : N) : option enc :=
  if n_version (c_nego c) <? V12 then
    Some (x_u32 DMTF_SPEC_ID ++ x_u8 DMTF_OPAQUE_VERSION ++ x_u8 total ++ x_u16 0)
  else if n_opaque (c_nego c) =? OPAQUE_FMT1 then Some (x_u8 total ++ x_u8 0 ++ x_u16 0)
  else None.
(** spdm_read — opaque.rs:301-328 *)
Definition dec_general (c : cctx) : dec N :=
  (if n_version (c_nego c) <? V12 then
     id <- d_u32 ;; guard (id =? DMTF_SPEC_ID) ;;
     v <- d_u8 ;; guard (v =? DMTF_OPAQUE_VERSION) ;;
     t <- d_u8 ;; _r <- d_u16 ;; dret t
   else if n_opaque (c_nego c) =? OPAQUE_FMT1 then
     t <- d_u8 ;; _a <- d_u8 ;; _b <- d_u8 ;; _c <- d_u8 ;; dret t
   else dnone)%dec.

(** OpaqueElementDMTFVersionSelection — opaque.rs:330-366 *)
Definition enc_sel_elem (v : smv) : enc :=
  x_u8 0 ++ x_u8 0 ++ x_u16 4 ++ x_u8 1 ++ x_u8 0 ++ enc_smv v.
Definition dec_sel_elem : dec smv :=
  (_a <- d_u8 ;; _b <- d_u8 ;; _c <- d_u16 ;; _d <- d_u8 ;; _e <- d_u8 ;; dec_smv)%dec.

(** the bytes read so far: Reader::used() of a Reader over [total] bytes *)
Definition d_used (total : N) : dec N := fun l => POk (total - len l) l.

(** OpaqueElementDMTFSupportedVersion::spdm_encode — opaque.rs:374-405.
    [used] is what the Writer already holds. *)
Definition enc_sup_elem (used : N) (l : smv_list) : enc :=
  let body := x_u8 0 ++ x_u8 0 ++ x_u16 (3 + 2 * sl_count l) ++ x_u8 1 ++ x_u8 1 ++ enc_svl l in
  body ++ x_arr (fill (N.to_nat (align_padding (used + xcount body))) 0).
(** spdm_read — opaque.rs:406-427; [total] is the length of the slice under the Reader *)
Definition dec_sup_elem (total : N) : dec smv_list :=
  (_a <- d_u8 ;; _b <- d_u8 ;; _c <- d_u16 ;; _d <- d_u8 ;; _e <- d_u8 ;; l <- dec_svl ;;
   u <- d_used total ;; _p <- d_arr (N.to_nat (align_padding u)) ;; dret l)%dec.

(** SecuredMessageDMTFVersionSelection — opaque.rs:422-473 *)
Record dmtf_sel := mkDsel { ds_total : N; ds_list : list smv }.
Definition enc_dmtf_sel (c : cctx) (s : dmtf_sel) : option enc :=
  match enc_general c (ds_total s) with
  | None => None
  | Some h => Some (h ++ x_indexed enc_sel_elem (ds_total s) (ds_list s))
  end.
Definition dec_dmtf_sel (c : cctx) : dec dmtf_sel :=
  (t <- dec_general c ;;
   l <- d_table MAX_OPAQUE_LIST_ELEMENTS_COUNT smv_default dec_sel_elem t ;; dret (mkDsel t l))%dec.

(** SecuredMessageDMTFSupportedVersion — opaque.rs:475-531 *)
Record dmtf_sup := mkDsup { dp_total : N; dp_list : list smv_list }.
Fixpoint enc_sup_elems (used : N) (ls : list smv_list) : enc :=
  match ls with
  | [] => []
  | l :: ls' => enc_sup_elem used l ++ enc_sup_elems (used + xcount (enc_sup_elem used l)) ls'
  end.
(** [used] is what the Writer already holds *)
Definition enc_dmtf_sup (used : N) (c : cctx) (s : dmtf_sup) : option enc :=
  match enc_general c (dp_total s) with
  | None => None
  | Some h => Some (h ++ enc_sup_elems (used + xcount h) (firstn (N.to_nat (dp_total s)) (dp_list s)) ++
                    x_assert (dp_total s <=? len (dp_list s)))
  end.
Definition dec_dmtf_sup (total : N) (c : cctx) : dec dmtf_sup :=
  (t <- dec_general c ;;
   guard (t <=? N.of_nat MAX_OPAQUE_LIST_ELEMENTS_COUNT) ;;
   l <- d_table MAX_OPAQUE_LIST_ELEMENTS_COUNT svl_default (dec_sup_elem total) t ;; dret (mkDsup t l))%dec.

(** rsp_get_dmtf_supported_secure_spdm_version_list — opaque.rs:576-588.
    Element 0 of the array, i.e. the default when the blob has no element. *)
Definition rsp_get_list (c : cctx) (o : vbuf) : option smv_list :=
  match dec_dmtf_sup (v_size o) c (v_bytes o) with
  | POk s _ => Some (nth 0 (dp_list s) svl_default)
  | _ => None
  end.
(** req_get_dmtf_secure_spdm_version_selection — opaque.rs:590-602 *)
Definition req_get_sel (c : cctx) (o : vbuf) : option smv :=
  match dec_dmtf_sel c (v_bytes o) with
  | POk s _ => Some (nth 0 (ds_list s) smv_default)
  | _ => None
  end.
(** requester: the version it will use — requester/key_exchange_req.rs:200-208 *)
Definition req_secure_version (c : cctx) (o : vbuf) : N :=
  match req_get_sel c o with
  | Some v => match smv_u8 v with Some b => b | None => 0 end
  | None => 0
  end.

(** blob with its last byte replaced by the selected version
    responder/key_exchange_rsp.rs:127-137, 141-149 *)
Definition sel_blob (tmpl : bytes) (v : N) : vbuf :=
  v_of MAX_OPAQUE_SIZE (firstn (length tmpl - 1) tmpl ++ [v]).

(** one matching pair of (offered, configured) version — key_exchange_rsp.rs:117-158 *)
Definition rsp_answer (c : cctx) (v : N) : outcome vbuf :=
  if n_version (c_nego c) <? V12 then Ok (sel_blob RSP_BLOB_DSP0277 v)
  else if n_opaque (c_nego c) =? OPAQUE_FMT1 then Ok (sel_blob RSP_BLOB_FMT1 v)
  else Err ST_INVALID_MSG_FIELD.

(** the two nested loops; a later match overwrites an earlier one *)
Fixpoint sel_inner (c : cctx) (b : N) (locals : list N) (acc : vbuf) : outcome vbuf :=
  match locals with
  | [] => Ok acc
  | v :: ls => if b =? v then obind (rsp_answer c v) (fun o => sel_inner c b ls o) else sel_inner c b ls acc
  end.
Fixpoint sel_outer (c : cctx) (offered : list smv) (locals : list N) (acc : vbuf) : outcome vbuf :=
  match offered with
  | [] => Ok acc
  | o :: os =>
      match smv_u8 o with
      | None => Panic
      | Some b => obind (sel_inner c b locals acc) (fun acc' => sel_outer c os locals acc')
      end
  end.

(** The opaque data of the response, or the status with which the handler stops
    (after writing ERROR(InvalidRequest) resp. ERROR(UnsupportedRequest)).
    key_exchange_rsp.rs:56 (default), 108-161 *)
Definition rsp_select_version (c : cctx) (locals : list N) (o : vbuf) : outcome vbuf :=
  match rsp_get_list c o with
  | None => Ok (v_default MAX_OPAQUE_SIZE)
  | Some l =>
      if N.of_nat MAX_SECURE_SPDM_VERSION_COUNT <? sl_count l then Err ST_INVALID_MSG_FIELD
      else sel_outer c (firstn (N.to_nat (sl_count l)) (sl_list l)) locals (v_default MAX_OPAQUE_SIZE)
  end.
