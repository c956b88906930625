(** Model of spdmlib/src/message/{version,capability,algorithm}.rs.  No proofs here. *)
From Verif Require Import Bytes Codec Parse Algo.
Local Open Scope N_scope.

(** ** GET_VERSION / VERSION — message/version.rs *)
(** SpdmGetVersionRequestPayload spdm_encode / spdm_read — version.rs:14-34 *)
Definition enc_get_version : enc := x_u8 0 ++ x_u8 0.
Definition dec_get_version : dec unit := (_ <- d_u8 ;; _ <- d_u8 ;; dret tt)%dec.

(** SpdmVersionStruct — version.rs:36-54 *)
Record version_struct := mkVer { vs_update : N; vs_version : N }.
Definition enc_version_struct (v : version_struct) : enc := x_u8 (vs_update v) ++ x_u8 (vs_version v).
Definition dec_version_struct : dec version_struct :=
  (u <- d_u8 ;; v <- d_u8 ;; dret (mkVer u v))%dec.

(** SpdmVersionResponsePayload — version.rs:56-60 *)
Record version_rsp := mkVersionRsp { vr_count : N; vr_versions : list version_struct }.

(** spdm_encode — version.rs:63-88 *)
Definition enc_version_rsp (p : version_rsp) : enc :=
  x_u8 0 ++ x_u8 0 ++ x_u8 0 ++ x_u8 (vr_count p) ++
  concat (map enc_version_struct (firstn (N.to_nat (vr_count p)) (vr_versions p))).

(** n reads into the front of an array of [max] elements filled with [dflt];
    [for x in xs.iter_mut().take(n) { *x = T::read(r)?; }] *)
Fixpoint d_rep {A} (n : nat) (d : dec A) : dec (list A) :=
  match n with
  | O => dret []
  | S n' => (x <- d ;; xs <- d_rep n' d ;; dret (x :: xs))%dec
  end.
Definition d_table {A} (max : nat) (dflt : A) (n : N) (d : dec A) : dec (list A) :=
  (xs <- d_rep (Nat.min (N.to_nat n) max) d ;; dret (xs ++ repeat dflt (max - length xs)))%dec.

(** spdm_read — version.rs:90-121 *)
Definition dec_version_rsp : dec version_rsp :=
  (_ <- d_u8 ;; _ <- d_u8 ;; _ <- d_u8 ;;
   c <- d_u8 ;;
   guard ((1 <=? c) && (c <=? MAX_SPDM_VERSION_COUNT)) ;;
   vs <- d_table 3 (mkVer 0 V10) c dec_version_struct ;;
   dret (mkVersionRsp c vs))%dec.

(** ** GET_CAPABILITIES — message/capability.rs:11-144 *)
(** SpdmGetCapabilitiesRequestPayload — capability.rs:11-18 *)
Record capabilities := mkCaps { cp_ct : N; cp_flags : N; cp_dts : N; cp_max : N }.

(** spdm_encode — capability.rs:20-56 *)
Definition enc_get_capabilities (c : cctx) (p : capabilities) : enc :=
  x_u8 0 ++ x_u8 0 ++
  (if ver_ge c V11 then x_u8 0 ++ x_u8 (cp_ct p) ++ x_u16 0 ++ x_u32 (cp_flags p) else []) ++
  (if ver_ge c V12 then x_u32 (cp_dts p) ++ x_u32 (cp_max p) else []).

(** the flag checks of spdm_read — capability.rs:72-121; [true] = not rejected *)
Definition req_flags_ok (version f : N) : bool :=
  let has := contains f in
  negb (has REQ_PSK_RSVD) &&
  (if has REQ_KEY_EX || has REQ_PSK then has REQ_MAC
   else negb (has REQ_MAC || has REQ_ENCRYPT || has REQ_HS_CLEAR || has REQ_HBEAT || has REQ_KEY_UPD)) &&
  negb (negb (has REQ_KEY_EX) && has REQ_PSK && has REQ_HS_CLEAR) &&
  (if has REQ_CERT || has REQ_PUB_KEY_ID then
     negb (has REQ_CERT && has REQ_PUB_KEY_ID) &&
     negb (negb (has REQ_CHAL) && negb (has REQ_KEY_EX))
   else negb (has REQ_CHAL || has REQ_MUT_AUTH)) &&
  negb ((version =? V11) && has REQ_MUT_AUTH && negb (has REQ_ENCAP)).

(** the size check — capability.rs:126-135 *)
Definition sizes_ok (dts mx : N) : bool := negb ((dts <? 42) || (mx <? dts)).

(** spdm_read — capability.rs:58-144 *)
Definition dec_get_capabilities (c : cctx) : dec capabilities :=
  (_ <- d_u8 ;; _ <- d_u8 ;;
   cf <- (if ver_ge c V11 then
            (_ <- d_u8 ;; ct <- d_u8 ;; _ <- d_u16 ;; f <- d_flags32 REQ_CAP_MASK ;;
             guard (req_flags_ok (n_version (c_nego c)) f) ;; dret (ct, f))
          else dret (0, 0))%dec ;;
   sz <- (if ver_ge c V12 then
            (d <- d_u32 ;; m <- d_u32 ;; guard (sizes_ok d m) ;; dret (d, m))
          else dret (0, 0))%dec ;;
   dret (mkCaps (fst cf) (snd cf) (fst sz) (snd sz)))%dec.

(** ** CAPABILITIES — message/capability.rs:147-322 *)
(** spdm_encode — capability.rs:156-190 *)
Definition enc_capabilities (c : cctx) (p : capabilities) : enc :=
  x_u8 0 ++ x_u8 0 ++ x_u8 0 ++ x_u8 (cp_ct p) ++ x_u16 0 ++ x_u32 (cp_flags p) ++
  (if ver_ge c V12 then x_u32 (cp_dts p) ++ x_u32 (cp_max p) else []).

(** the flag checks of spdm_read — capability.rs:205-298 *)
Definition rsp_flags_ok (version f : N) : bool :=
  let has := contains f in
  negb (has RSP_MEAS_NO_SIG && has RSP_MEAS_SIG) &&
  negb ((negb (has RSP_MEAS_NO_SIG) && negb (has RSP_MEAS_SIG)) && has RSP_MEAS_FRESH) &&
  (if version <? V11 then
     (if negb (has RSP_MEAS_SIG) then Bool.eqb (has RSP_CERT) (has RSP_CHAL)
      else has RSP_CERT)
   else
     negb (has RSP_PSK_WITHOUT_CTX && has RSP_PSK_WITH_CTX) &&
     (if has RSP_KEY_EX || has RSP_PSK_WITHOUT_CTX || has RSP_PSK_WITH_CTX then has RSP_MAC
      else negb (has RSP_MAC || has RSP_ENCRYPT || has RSP_HS_CLEAR || has RSP_HBEAT || has RSP_KEY_UPD)) &&
     negb (negb (has RSP_KEY_EX) && (has RSP_PSK_WITHOUT_CTX || has RSP_PSK_WITH_CTX) && has RSP_HS_CLEAR) &&
     (if has RSP_CERT || has RSP_PUB_KEY_ID then
        negb (has RSP_CERT && has RSP_PUB_KEY_ID) &&
        negb (negb (has RSP_CHAL) && negb (has RSP_KEY_EX) && negb (has RSP_MEAS_SIG))
      else negb (has RSP_CHAL || has RSP_KEY_EX || has RSP_MEAS_SIG || has RSP_MUT_AUTH))) &&
  negb ((version =? V11) && has RSP_MUT_AUTH && negb (has RSP_ENCAP)) &&
  (if V12 <=? version then
     negb (negb (has RSP_CERT) && (has RSP_ALIAS_CERT || has RSP_SET_CERT)) &&
     negb (has RSP_CSR && negb (has RSP_SET_CERT)) &&
     negb (has RSP_CERT_INSTALL_RESET && negb (has RSP_CSR) && negb (has RSP_SET_CERT))
   else true).

(** spdm_read — capability.rs:192-322 *)
Definition dec_capabilities (c : cctx) : dec capabilities :=
  (_ <- d_u8 ;; _ <- d_u8 ;; _ <- d_u8 ;;
   ct <- d_u8 ;; _ <- d_u16 ;; f <- d_flags32 RSP_CAP_MASK ;;
   guard (rsp_flags_ok (n_version (c_nego c)) f) ;;
   sz <- (if ver_ge c V12 then
            (d <- d_u32 ;; m <- d_u32 ;; guard (sizes_ok d m) ;; dret (d, m))
          else dret (0, 0))%dec ;;
   dret (mkCaps ct f (fst sz) (snd sz)))%dec.

(** ** NEGOTIATE_ALGORITHMS — message/algorithm.rs:14-203 *)
Record nego_algs := mkNegoAlgs {
  na_mspec : N; na_opaque : N; na_asym : N; na_hash : N; na_count : N; na_structs : list alg_struct }.

(** [(2 + 2) * count] computed in u8: overflow panics (debug profile) — algorithm.rs:43-46 *)
Definition alg_len (c : cctx) (base count : N) : option N :=
  if ver_ge c V11 then (if 4 * count <? 256 then Some (base + 4 * count) else None) else Some base.

Definition zeros (n : nat) : enc := x_arr (fill n 0).

(** spdm_encode — algorithm.rs:24-88 *)
Definition enc_nego_algs (c : cctx) (p : nego_algs) : enc :=
  (if ver_ge c V11 then x_u8 (na_count p) else x_u8 0) ++ x_u8 0 ++
  (match alg_len c 32 (na_count p) with
   | None => [EPanic]
   | Some n => x_u16 n ++
       x_u8 (na_mspec p) ++
       (if ver_ge c V12 then x_u8 (na_opaque p) else x_u8 0) ++
       x_u32 (na_asym p) ++ x_u32 (na_hash p) ++ zeros 12 ++ x_u8 0 ++ x_u8 0 ++ x_u16 0 ++
       (if ver_ge c V11 then
          concat (map enc_alg_struct (firstn (N.to_nat (na_count p)) (na_structs p)))
        else [])
   end).

Definition alg_kind (a : alg) : N :=
  match a with ADhe _ => 1 | AAead _ => 2 | AReqAsym _ => 4 | AKeySched _ => 8 | AUnknown => 0 end.

(** the loop over the algorithm structures — algorithm.rs:137-181 (request) and
    422-581 (response; [chk] holds the extra checks there).  [cur] is current_type,
    [seen] the set of *_present flags. *)
Fixpoint d_alg_loop (chk : alg -> bool) (n : nat) (cur seen : N) : dec (list alg_struct) :=
  match n with
  | O => dret []
  | S n' =>
      (a <- dec_alg_struct ;;
       guard (cur <? as_type a) ;;
       guard (negb (alg_kind (as_alg a) =? 0)) ;;
       guard (N.land seen (alg_kind (as_alg a)) =? 0) ;;
       guard (chk (as_alg a)) ;;
       rest <- d_alg_loop chk n' (as_type a) (N.lor seen (alg_kind (as_alg a))) ;;
       dret (a :: rest))%dec
  end.
Definition d_alg_table (chk : alg -> bool) (n : N) : dec (list alg_struct) :=
  (xs <- d_alg_loop chk (Nat.min (N.to_nat n) 4) 0 0 ;;
   dret (xs ++ repeat alg_struct_default (4 - length xs)))%dec.

Definition no_check (_ : alg) : bool := true.

(** param1 / alg_struct_count — algorithm.rs:94-103 *)
Definition dec_alg_count (c : cctx) : dec N :=
  if ver_ge c V11 then (n <- d_u8 ;; guard (n <=? 4) ;; dret n)%dec
  else (_ <- d_u8 ;; dret 0)%dec.

(** other_params — algorithm.rs:109-116 *)
Definition dec_other_params (c : cctx) : dec N :=
  if ver_ge c V12 then d_flags8_strict OPAQUE_FMT1 else (_ <- d_u8 ;; dret 0)%dec.

(** spdm_read — algorithm.rs:90-203 *)
Definition dec_nego_algs (c : cctx) : dec nego_algs :=
  (count <- dec_alg_count c ;;
   _ <- d_u8 ;;
   length_ <- d_u16 ;;
   mspec <- d_flags8 MSPEC_MASK ;;
   op <- dec_other_params c ;;
   asym <- d_flags32 ASYM_MASK ;;
   hash <- d_flags32 HASH_MASK ;;
   _ <- d_arr 12 ;;
   ea <- d_u8 ;; guard (ea =? 0) ;;
   eh <- d_u8 ;; guard (eh =? 0) ;;
   _ <- d_u16 ;;
   structs <- (if ver_ge c V11 then d_alg_table no_check count
               else dret (repeat alg_struct_default 4)) ;;
   calc <- dsize (alg_len c 32 count) ;;
   guard (length_ =? calc) ;;
   dret (mkNegoAlgs mspec op asym hash count structs))%dec.

(** ** ALGORITHMS — message/algorithm.rs:205-602 *)
Record algs_rsp := mkAlgsRsp {
  ar_mspec : N; ar_opaque : N; ar_mhash : N; ar_asym : N; ar_hash : N; ar_count : N;
  ar_structs : list alg_struct }.

(** spdm_encode — algorithm.rs:216-287 *)
Definition enc_algs_rsp (c : cctx) (p : algs_rsp) : enc :=
  (if ver_ge c V11 then x_u8 (ar_count p) else x_u8 0) ++ x_u8 0 ++
  (match alg_len c 36 (ar_count p) with
   | None => [EPanic]
   | Some n => x_u16 n ++
       x_u8 (ar_mspec p) ++
       (if ver_ge c V12 then x_u8 (ar_opaque p) else x_u8 0) ++
       x_u32 (ar_mhash p) ++ x_u32 (ar_asym p) ++ x_u32 (ar_hash p) ++
       zeros 12 ++ x_u8 0 ++ x_u8 0 ++ x_u16 0 ++
       (if ver_ge c V11 then
          concat (map enc_alg_struct (firstn (N.to_nat (ar_count p)) (ar_structs p)))
        else [])
   end).

(** [if !no_more_than_one return None; if need && !valid_one_select return None] *)
Definition sel_ok (need : bool) (mask v : N) : bool :=
  no_more_than_one v && negb (need && negb (valid_one_select mask v)).

(** when a selection is mandatory — algorithm.rs:306-316, 329-346, 353-363, 369-391, 397-430 *)
Definition need_meas (c : cctx) : bool := rsp_has c RSP_MEAS_NO_SIG || rsp_has c RSP_MEAS_SIG.
Definition key_ex_both (c : cctx) : bool := rsp_has c RSP_KEY_EX && req_has c REQ_KEY_EX.
Definition psk_both (c : cctx) : bool :=
  (rsp_has c RSP_PSK_WITHOUT_CTX || rsp_has c RSP_PSK_WITH_CTX) && req_has c REQ_PSK.
Definition need_opaque (c : cctx) : bool :=
  ver_ge c V12 && (rsp_has c RSP_KEY_EX || rsp_has c RSP_PSK_WITHOUT_CTX || rsp_has c RSP_PSK_WITH_CTX).
Definition need_asym (c : cctx) : bool :=
  rsp_has c RSP_CERT || rsp_has c RSP_CHAL || rsp_has c RSP_MEAS_SIG || key_ex_both c.
Definition need_hash (c : cctx) : bool := need_asym c || psk_both c.

(** per-structure checks — algorithm.rs:449-575 *)
Definition alg_sel_ok (c : cctx) (a : alg) : bool :=
  match a with
  | ADhe v => sel_ok (key_ex_both c) DHE_MASK v
  | AAead v => sel_ok ((rsp_has c RSP_ENCRYPT && req_has c REQ_ENCRYPT) ||
                       (rsp_has c RSP_MAC && req_has c REQ_MAC)) AEAD_MASK v
  | AReqAsym v => sel_ok (rsp_has c RSP_MUT_AUTH && req_has c REQ_MUT_AUTH) ASYM_MASK v
  | AKeySched v => sel_ok (key_ex_both c || psk_both c) KS_MASK v
  | AUnknown => false
  end.

(** spdm_read — algorithm.rs:289-602 *)
Definition dec_algs_rsp (c : cctx) : dec algs_rsp :=
  (count <- dec_alg_count c ;;
   _ <- d_u8 ;;
   length_ <- d_u16 ;;
   mspec <- d_flags8 MSPEC_MASK ;;
   guard (sel_ok (need_meas c) MSPEC_MASK mspec) ;;
   op <- dec_other_params c ;;
   guard (sel_ok (need_opaque c) OPAQUE_FMT1 op) ;;
   mhash <- d_flags32 MHASH_MASK ;;
   guard (sel_ok (need_meas c) MHASH_MASK mhash) ;;
   asym <- d_flags32 ASYM_MASK ;;
   guard (sel_ok (need_asym c) ASYM_MASK asym) ;;
   hash <- d_flags32 HASH_MASK ;;
   guard (sel_ok (need_hash c) HASH_MASK hash) ;;
   _ <- d_arr 12 ;;
   ea <- d_u8 ;; guard (ea =? 0) ;;
   eh <- d_u8 ;; guard (eh =? 0) ;;
   _ <- d_u16 ;;
   structs <- (if ver_ge c V11 then d_alg_table (alg_sel_ok c) count
               else dret (repeat alg_struct_default 4)) ;;
   calc <- dsize (alg_len c 36 count) ;;
   guard (length_ =? calc) ;;
   dret (mkAlgsRsp mspec op mhash asym hash count structs))%dec.
