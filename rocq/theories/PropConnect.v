(** C86: two ends whose settings fit connect. *)
From Verif Require Import Bytes BytesFacts Status Codec CodecProofs Parse ParseProofs Algo Monad MsgConn MsgAuth MsgSession MsgOther Message SpecMsg MsgProofs MsgRound MsgCaps.
From Verif Require Import Transport Crypto KeySchedule Session Signing CertOps ChainVerify Context
  RspBase RspConn RspSess RspEncap Responder ReqBase ReqConn ReqSess SpecReq SpecRetr Pair PropAlgs PropFetch SpecDer SpecConnect ConnRuns ConnRuns2 ConnRuns3.
From Verif Require Import ToyCrypto PropPhase ExRun ExPair PropRetr.
From Coq Require Import Lia.
Local Open Scope N_scope.

(** Whatever the two ends did before, whatever other settings they have: if their settings fit,
    certificates are provisioned, the transport delivers and the peer can send, connecting succeeds,
    with the highest common version and, in every family, the best common algorithm at both ends. *)
Theorem C86_compatible_ends_connect : forall E Er xr x v, e_tr E = e_tr Er -> SpecRetr.carries (e_tr Er) -> (forall i f, e_send Er i f = None) ->
  let y := peer_after Er xr (rev (x_sent x)) in let rq := x_cfg x in let rs := x_cfg y in
  settings_ok rq -> settings_ok rs -> compatible v rq rs -> well_provisioned (e_cr Er) y -> can_send x 48 ->
  exists x1, init_connection (facing E Er xr) x = (Ok tt, x1) /\ ver x1 = v /\
    let y1 := peer_after Er xr (rev (x_sent x1)) in x_conn y1 = CONN_NEGOTIATED /\ ver y1 = v /\
    forall f, recorded (x_nego x1) f = recorded (x_nego y1) f /\ best_common f (configured rq f) (configured rs f) (recorded (x_nego x1) f).
Proof.
  intros E Er xr x v Tr Ca Sn y rq rs Sq Ss Cp Wp Cs. pose proof (proj1 Cp) as Cv.
  assert (Kn : known_version v = true) by (destruct Cv as [-> | ->]; reflexivity).
  assert (Cs4 : can_send x 4) by (unfold can_send in *; destruct Cs as [Cs|Cs]; [now left|right; lia]).
  assert (S3 : length (cf_versions rs) = 3%nat) by apply Ss. assert (S4 : Forall (fun v => v < 256) (cf_versions rs)) by apply Ss.
  assert (I1 : In v (cf_versions rq)) by apply Cp. assert (I2 : In v (cf_versions rs)) by apply Cp. assert (I3 : forall w, In w (cf_versions rq) -> In w (cf_versions rs) -> w <= v) by apply Cp.
  destruct (get_version_runs E Er xr x v Tr Ca Sn Cs4 S3 S4 I1 I2 I3 Kn) as (x1 & R1 & V1 & C1 & D1 & L1 & P1 & P2 & P3 & P4 & P5). fold y in P3, P4. fold rs in P3. fold rq in C1.
  set (y1 := peer_after Er xr (rev (x_sent x1))) in *.
  assert (Cs20 : can_send x1 20) by (unfold can_send in *; rewrite D1; destruct Cs as [Cs|Cs]; [now left|right; lia]).
  assert (Rq : req_caps_consistent v (cf_req_cap (x_cfg x1))) by (rewrite C1; apply Cp). assert (Rs : rsp_caps_consistent v (cf_rsp_cap (x_cfg y1))) by (rewrite P3; apply Cp).
  assert (Sq1 : settings_ok (x_cfg x1)) by (rewrite C1; exact Sq). assert (Ss1 : settings_ok (x_cfg y1)) by (rewrite P3; exact Ss).
  destruct (get_capabilities_runs E Er xr x1 v Tr Ca Sn Cv V1 Cs20 Sq1 Ss1 Rq Rs L1 P1 P2 P5) as (x2 & R2 & V2 & C2 & Q1 & Q2 & Q3 & L2 & O1 & O2 & O3 & O4 & O5 & O6 & O7 & O8).
  fold y1 in Q2, Q3, O4, O6, O7. rewrite C1 in C2, Q1, O3. rewrite P3 in Q2, Q3, O4, O6. rewrite P4 in O7.
  set (y2 := peer_after Er xr (rev (x_sent x2))) in *.
  assert (Cs48 : can_send x2 48). { unfold can_send in *. rewrite Q3, D1. destruct (18 <=? v); [right; assert (52 <= cf_dts rs) by apply Ss; lia|exact Cs]. }
  assert (Cp2 : compatible v (x_cfg x2) (x_cfg y2)) by (rewrite C2, O6; exact Cp). assert (Sq2 : settings_ok (x_cfg x2)) by (rewrite C2; exact Sq). assert (Ss2 : settings_ok (x_cfg y2)) by (rewrite O6; exact Ss).
  assert (Wp2 : well_provisioned (e_cr Er) y2) by (unfold well_provisioned; rewrite O7; exact Wp).
  rewrite <- C2 in Q1. rewrite <- O6 in Q2.
  destruct (negotiate_runs E Er xr x2 v Tr Ca Sn Cp2 Sq2 Ss2 Wp2 V2 Cs48 Q1 Q2 L2 O1 O2 O5 O8) as (x3 & R3 & V3 & F3 & G1 & G2 & G3).
  exists x3. split. { unfold init_connection. unfold sbind at 1. rewrite R1. unfold sbind at 1. rewrite R2. exact R3. }
  split; [exact V3|]. cbv zeta. split; [exact G1|]. split; [exact G2|]. intro f. rewrite F3, G3. split; [reflexivity|]. fold y2. rewrite C2, O6. apply prioritize_best.
Qed.
Print Assumptions C86_compatible_ends_connect.
(** Case: different settings that fit at 1.2, common choices SHA-384, P-256, SECP256R1. *)
Definition cn_rq : config := mkConfig [0x10; 0x11; 0x12] 0x66C6 0x6AF6 0 0 1 2 3 0x90 0x18 6 0x80 1 2 0 false 512 4096 0 [0x10; 0x11].
Definition cn_rs : config := mkConfig [0x10; 0x11; 0x12] 0x66C6 0x6AF6 3 0 1 2 6 0x10 8 2 0x80 1 2 0 false 1024 4096 0 [0x10; 0x11].
Definition cn_req : ctx := ctx_new cn_rq (repeat None 8) (repeat None 8) (Some ex_root).
Definition cn_rsp : ctx := ctx_new cn_rs (Some (ex_root ++ ex_leaf) :: repeat None 7) (repeat None 8) None.
Ltac settings := unfold settings_ok; repeat (apply conj); first [reflexivity | vm_compute; discriminate | right; reflexivity | right; exists 1; split; reflexivity | repeat constructor].
Example C86_case : e_tr ex_env = e_tr ex_env /\ SpecRetr.carries (e_tr ex_env) /\ (forall i f, e_send ex_env i f = None) /\
  settings_ok cn_rq /\ settings_ok cn_rs /\ compatible 0x12 cn_rq cn_rs /\
  well_provisioned (e_cr ex_env) (peer_after ex_env cn_rsp (rev (x_sent cn_req))) /\ can_send cn_req 48 /\
  n_hash (x_nego (snd (init_connection (facing ex_env ex_env cn_rsp) cn_req))) = 2.
Proof.
  split; [reflexivity|]. split; [exact carries_mctp|]. split; [reflexivity|]. split; [settings|]. split; [settings|]. split.
  - unfold compatible. cbv zeta. assert (Cm : forall f a, In a (preference f) -> has (configured cn_rq f) a -> has (configured cn_rs f) a -> common cn_rq cn_rs f) by (intros f a I A B; exists a; auto).
    split; [now right|]. split; [right; right; now left|]. split; [right; right; now left|]. split. { intros w I _. destruct I as [<-|[<-|[<-|[]]]]; vm_compute; discriminate. }
    split; [apply req_flags_ok_spec; vm_compute; reflexivity|]. split; [apply rsp_flags_ok_spec; vm_compute; reflexivity|].
    split; [apply (Cm FHash 2); [right; now left|reflexivity|reflexivity]|]. split; [apply (Cm FAsym 0x10); [right; now left|reflexivity|reflexivity]|].
    split; [intros _; split; [apply (Cm FMeasSpec 1); [now left|reflexivity|reflexivity]|discriminate]|].
    split; [intros _; apply (Cm FDhe 8); [right; now left|reflexivity|reflexivity]|]. split; [intros _; apply (Cm FAead 2); [now left|reflexivity|reflexivity]|].
    split; [intros _; apply (Cm FReqAsym 0x80); [now left|reflexivity|reflexivity]|]. split; [intros _; apply (Cm FKeySched 1); [now left|reflexivity|reflexivity]|].
    intros _ _. split; reflexivity.
  - split; [|split; [now left|vm_compute; reflexivity]]. unfold well_provisioned. change (x_chain_data (peer_after ex_env cn_rsp (rev (x_sent cn_req)))) with (Some (ex_root ++ ex_leaf) :: repeat (@None bytes) 7).
    apply Forall_cons; [|repeat constructor]. split; [vm_compute; discriminate|]. exists ex_root, ex_leaf. split; [reflexivity|]. split; [exists 1, 44, (skipn 4 ex_root); split; vm_compute; reflexivity|].
    intros h [<-|[<-|[<-|[]]]]; eexists; (split; [vm_compute; reflexivity|vm_compute; discriminate]).
Qed.
