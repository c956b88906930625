(** Vocabulary for the session properties (C26-C31, C33, C34, C53-C55), independent of the
    model's own helpers. *)
From Coq Require Import String Ascii.
From Verif Require Import Bytes Status Algo Crypto Session Signing KeySchedule Monad.
Import ListNotations.
Local Open Scope string_scope.
Local Open Scope list_scope.
Local Open Scope N_scope.

(** ASCII bytes of a string literal *)
Fixpoint ascii_bytes (s : string) : bytes :=
  match s with
  | EmptyString => []
  | String c s' => N_of_ascii c :: ascii_bytes s'
  end.

(** ** secured-message wire format (DSP0277) *)
(** the nonce: the IV with the 64-bit little-endian sequence number xored into its first bytes *)
Fixpoint xor_low (iv : bytes) (seq : bytes) : bytes :=
  match iv, seq with
  | x :: iv', y :: seq' => N.lxor x y :: xor_low iv' seq'
  | iv', _ => iv'
  end.
Definition wire_nonce (iv : bytes) (seq : N) : bytes := xor_low iv (le_bytes 8 seq).
(** the authenticated header: session id, [k] sequence-number bytes, length of what follows *)
Definition wire_header (id : N) (k : nat) (seq : N) (app_len tag : N) : bytes :=
  le_bytes 4 id ++ le_bytes k seq ++ le_bytes 2 (2 + app_len + tag).
(** the plaintext under the AEAD: a length and the application bytes *)
Definition wire_plain (app : bytes) : bytes := le_bytes 2 (len app) ++ app.

(** ** laws of the AEAD, used as premises *)
(** decryption inverts encryption *)
Definition aead_correct (cr : crypto) : Prop :=
  forall alg key nonce aad plain c t,
    cr_seal cr alg key nonce aad plain = Some (c, t) ->
    len c = len plain /\ cr_open cr alg key nonce aad c t = Some plain.
(** INT-CTXT, as a statement about one key: whatever opens was sealed, with that nonce, header
    and plaintext; [log] is what was sealed *)
Definition opens_only (cr : crypto) (alg : N) (key : bytes) (log : list (bytes * bytes * bytes)) : Prop :=
  forall nonce aad c t p, cr_open cr alg key nonce aad c t = Some p -> len p = len c /\ In (nonce, aad, p) log.
(** what an honest sender seals for the application messages [apps], starting at [seq] *)
Fixpoint seal_log (id : N) (k : nat) (iv : bytes) (tag seq : N) (apps : list bytes) : list (bytes * bytes * bytes) :=
  match apps with
  | [] => []
  | a :: apps' => (wire_nonce iv seq, wire_header id k seq (len a) tag, wire_plain a)
                  :: seal_log id k iv tag (seq + 1) apps'
  end.

(** a session that can carry secured messages *)
Definition live (s : session) : Prop := s_state s = SHandshaking \/ s_state s = SEstablished.
(** the keys of a phase and direction *)
Inductive lane := HsReq | HsRsp | AppReq | AppRsp.
Definition lane_dir (l : lane) (s : session) : dir :=
  match l with
  | HsReq => h_req_dir (s_hs s) | HsRsp => h_rsp_dir (s_hs s)
  | AppReq => a_req_dir (s_app s) | AppRsp => a_rsp_dir (s_app s)
  end.
Definition with_lane (l : lane) (d : dir) (s : session) : session :=
  match l with
  | HsReq => set_s_hs (set_h_req_dir d (s_hs s)) s | HsRsp => set_s_hs (set_h_rsp_dir d (s_hs s)) s
  | AppReq => set_s_app (set_a_req_dir d (s_app s)) s | AppRsp => set_s_app (set_a_rsp_dir d (s_app s)) s
  end.
(** the lane a message in direction [req] uses in the session's phase *)
Definition cur_lane (req : bool) (s : session) : lane :=
  match s_state s with
  | SHandshaking => if req then HsReq else HsRsp
  | _ => if req then AppReq else AppRsp
  end.
(** two endpoints agree on one direction of a session *)
Definition in_step (req : bool) (a b : session) : Prop :=
  s_id a = s_id b /\ s_aead a = s_aead b /\ s_seq_count a = s_seq_count b /\ s_state a = s_state b /\
  lane_dir (cur_lane req a) a = lane_dir (cur_lane req b) b.

(** a receiver working through any list of inputs, in order, until the program dies *)
Fixpoint decode_run (cr : crypto) (req : bool) (room : N) (ins : list bytes) (s : session) : list (outcome bytes) * session :=
  match ins with
  | [] => ([], s)
  | m :: ins' => let (r, s1) := decode_secured cr req m room s in
                 match r with
                 | Panic => ([Panic], s1)
                 | _ => let (rs, s2) := decode_run cr req room ins' s1 in (r :: rs, s2)
                 end
  end.
(** a sender working through a list of application messages *)
Fixpoint encode_run (cr : crypto) (req : bool) (room : N) (apps : list bytes) (s : session) : list (outcome bytes) * session :=
  match apps with
  | [] => ([], s)
  | a :: apps' => let (r, s1) := encode_secured cr req a room s in
                  match r with
                  | Panic => ([Panic], s1)
                  | _ => let (rs, s2) := encode_run cr req room apps' s1 in (r :: rs, s2)
                  end
  end.

(** ** histories of one endpoint's session, for nonce uniqueness *)
Inductive sop :=
| OpEncode (req : bool) (app : bytes) (room : N)
| OpDecode (req : bool) (msg : bytes) (room : N)
| OpHandshakeKeys (v : N) (th1 : bytes)
| OpDataKeys (v : N) (th2 : bytes)
| OpUpdate (v : N) (req rsp : bool)          (* create_data_secret_update *)
| OpCommit (req rsp : bool)                  (* activate, use_new = true *)
| OpRollback (req rsp : bool)                (* activate, use_new = false *)
| OpState (st : sstate).

Definition sop_run (cr : crypto) (o : sop) (s : session) : session :=
  match o with
  | OpEncode r a room => snd (encode_secured cr r a room s)
  | OpDecode r m room => snd (decode_secured cr r m room s)
  | OpHandshakeKeys v th => snd (generate_handshake_secret cr v th s)
  | OpDataKeys v th => snd (generate_data_secret cr v th s)
  | OpUpdate v a b => snd (create_data_secret_update cr v a b s)
  | OpCommit a b => activate_data_secret_update a b true s
  | OpRollback a b => activate_data_secret_update a b false s
  | OpState st => set_s_state st s
  end.
Fixpoint sop_runs (cr : crypto) (os : list sop) (s : session) : session :=
  match os with [] => s | o :: os' => sop_runs cr os' (sop_run cr o s) end.

(** the (key, nonce) pair a step hands to the AEAD's encryption, if it encrypts *)
Definition sealed_with (cr : crypto) (o : sop) (s : session) : option (bytes * bytes) :=
  match o with
  | OpEncode r a room =>
      match fst (encode_secured cr r a room s) with
      | Ok _ => let d := lane_dir (cur_lane r s) s in Some (d_key d, wire_nonce (d_salt d) (d_seq d))
      | _ => None
      end
  | _ => None
  end.
Fixpoint sealed_run (cr : crypto) (os : list sop) (s : session) : list (bytes * bytes) :=
  match os with
  | [] => []
  | o :: os' => match sealed_with cr o s with Some x => [x] | None => [] end ++ sealed_run cr os' (sop_run cr o s)
  end.

Definition lanes : list lane := [HsReq; HsRsp; AppReq; AppRsp].
Definition lane_keys (s : session) : list bytes := map (fun l => d_key (lane_dir l s)) lanes.

(** the keys a session holds: the four lanes and the two saved by a key update *)
Definition held_keys (s : session) : list bytes :=
  lane_keys s ++ [d_key (a_req_dir (s_backup s)); d_key (a_rsp_dir (s_backup s))].
(** freshness of derived keys, [used] being the keys under which something was sealed so far:
    whenever a key-deriving step changes a lane, the new key was not used and is not held; a
    successful update changes the lanes it updates; no two lanes share a (nonempty) key *)
Definition fresh_step (used : list bytes) (s s' : session) : Prop :=
  forall l, In l lanes -> lane_dir l s' = lane_dir l s \/ ~ In (d_key (lane_dir l s')) (used ++ held_keys s).
Definition lanes_distinct (s : session) : Prop :=
  forall l l', In l lanes -> In l' lanes -> l <> l' ->
    d_key (lane_dir l s) = d_key (lane_dir l' s) -> d_key (lane_dir l s) = [].
Fixpoint fresh_history (cr : crypto) (os : list sop) (used : list bytes) (s : session) : Prop :=
  match os with
  | [] => True
  | o :: os' =>
      let s' := sop_run cr o s in
      (match o with
       | OpHandshakeKeys _ _ | OpDataKeys _ _ => fresh_step used s s' /\ lanes_distinct s'
       | OpUpdate v a b =>
           fresh_step used s s' /\ lanes_distinct s' /\
           (fst (create_data_secret_update cr v a b s) = Ok tt ->
            (a = true -> ~ In (d_key (lane_dir AppReq s')) (used ++ held_keys s)) /\
            (b = true -> ~ In (d_key (lane_dir AppRsp s')) (used ++ held_keys s)))
       | _ => True
       end) /\
      fresh_history cr os' (match sealed_with cr o s with Some (k, _) => k :: used | None => used end) s'
  end.
(** the discipline of the library's callers (requester/key_update_req.rs): a direction is rolled
    back only after a successful update of it, and at most once per update; [q] and [p] say whether
    the request / response direction may be rolled back *)
Fixpoint disciplined (cr : crypto) (os : list sop) (q p : bool) (s : session) : Prop :=
  match os with
  | [] => True
  | o :: os' =>
      let s' := sop_run cr o s in
      match o with
      | OpUpdate v a b =>
          match fst (create_data_secret_update cr v a b s) with
          | Ok _ => disciplined cr os' (a || q) (b || p) s'
          | _ => disciplined cr os' (negb a && q) (negb b && p) s'
          end
      | OpCommit a b => disciplined cr os' (negb a && q) (negb b && p) s'
      | OpRollback a b => (a = true -> q = true) /\ (b = true -> p = true) /\
                          disciplined cr os' (negb a && q) (negb b && p) s'
      | _ => disciplined cr os' q p s'
      end
  end.

(** ** signed strings (DSP0274 1.2, section 15) *)
Definition spec_prefix : bytes :=
  ascii_bytes "dmtf-spdm-v1.2.*dmtf-spdm-v1.2.*dmtf-spdm-v1.2.*dmtf-spdm-v1.2.*".
Definition context_text (op : sig_op) : string :=
  match op with
  | SigChallenge => "responder-challenge_auth signing"
  | SigMeasurements => "responder-measurements signing"
  | SigKeyExchange => "responder-key_exchange_rsp signing"
  | SigFinish => "requester-finish signing"
  end.
(** the context, padded in front with zero bytes to 36 *)
Definition spec_context (op : sig_op) : bytes :=
  let t := ascii_bytes (context_text op) in repeat 0 (36 - List.length t) ++ t.

(** ** key-schedule labels (DSP0274 1.2, section 12) *)
Definition spec_labels : list bytes :=
  map ascii_bytes ["derived"; "req hs data"; "rsp hs data"; "req app data"; "rsp app data";
                   "key"; "iv"; "finished"; "exp master"; "traffic upd"].
(** HKDF-Expand returns as many bytes as asked for *)
Definition expand_exact (cr : crypto) : Prop :=
  forall h prk info n out, cr_expand cr h prk info n = Some out -> len out = n.
