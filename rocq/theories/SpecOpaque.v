(** Specification vocabulary for C14.  Independent of the opaque codecs' helpers: only byte
    positions. *)
From Verif Require Import Bytes Codec Parse Status Algo MsgAuth SpecMsg Opaque.
Local Open Scope N_scope.

(** length of the general opaque header: 8 bytes before SPDM 1.2, 4 bytes in format 1 *)
Definition header_len (c : cctx) : nat := if n_version (c_nego c) <? 0x12 then 8%nat else 4%nat.
(** opaque formats the library knows: DSP0277 before 1.2, format 1 from 1.2 on *)
Definition known_format (c : cctx) : Prop := n_version (c_nego c) < 0x12 \/ n_opaque (c_nego c) = 2.

(** number of versions announced by the first element of a supported-version list, and the
    [i]-th of them (the major/minor byte) *)
Definition offered_count (c : cctx) (b : bytes) : N := nth (header_len c + 6) b 0.
Definition offered (c : cctx) (b : bytes) (i : nat) : N := nth (header_len c + 8 + 2 * i) b 0.

(** a version whose four fields are nibbles *)
Definition ok_smv (v : smv) : Prop :=
  sv_major v < 16 /\ sv_minor v < 16 /\ sv_update v < 16 /\ sv_alpha v < 16.
Definition ok_svl (l : smv_list) : Prop :=
  sl_count l <= 2 /\ length (sl_list l) = 2%nat /\
  Forall ok_smv (firstn (N.to_nat (sl_count l)) (sl_list l)) /\
  Forall (fun v => v = smv_default) (skipn (N.to_nat (sl_count l)) (sl_list l)).
Definition ok_dmtf_sel (s : dmtf_sel) : Prop :=
  ds_total s <= 3 /\ length (ds_list s) = 3%nat /\
  Forall ok_smv (firstn (N.to_nat (ds_total s)) (ds_list s)) /\
  Forall (fun v => v = smv_default) (skipn (N.to_nat (ds_total s)) (ds_list s)).
Definition ok_dmtf_sup (s : dmtf_sup) : Prop :=
  dp_total s <= 3 /\ length (dp_list s) = 3%nat /\
  Forall ok_svl (firstn (N.to_nat (dp_total s)) (dp_list s)) /\
  Forall (fun v => v = svl_default) (skipn (N.to_nat (dp_total s)) (dp_list s)).

(** the wire form of a version selection: one DMTF element naming version [v] *)
Definition selection_bytes (c : cctx) (v : N) : bytes :=
  (if n_version (c_nego c) <? 0x12 then [0x46;0x54;0x4d;0x44;1;1;0;0] else [1;0;0;0]) ++
  [0;0;4;0;1;0;0;v].
