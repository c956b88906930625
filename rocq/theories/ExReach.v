(** The states of ExPair.v are reached. *)
From Verif Require Import Bytes Status Codec Parse Algo Monad Context RspOpcode ReqBase ReqConn ReqSess SpecReq ReqFrame RspEst SpecAuth ReqSplit Pair ExPair.
Local Open Scope N_scope.
Lemma reached_run E o x u x' : reached E x -> run E o x = (Ok u, x') -> reached E x'.
Proof. intros R H. apply (r_op E x o (Ok u) x' R H). discriminate. Qed.
Lemma reached_init E x u x' : reached E x -> init_connection E x = (Ok u, x') -> reached E x'.
Proof.
  intros R H. unfold init_connection in H. bi H. bi H. apply (reached_run E OVersion) in P; [|exact R]. apply (reached_run E OCapabilities) in P0; [|exact P].
  exact (reached_run E OAlgorithms _ _ _ P0 H).
Qed.
Lemma reached_drop {A} E o (m : st ctx A) x : reached E x -> run E o = drop m -> okb (fst (m x)) = true -> reached E (snd (m x)).
Proof. intros R Eq Hk. destruct (okb_ok (m x) Hk) as [a Ha]. apply (reached_run E o x tt _ R). rewrite Eq. exact (drop_run _ _ _ _ Ha). Qed.
Lemma reached_plain E o x : reached E x -> okb (fst (run E o x)) = true -> reached E (snd (run E o x)).
Proof. intros R Hk. destruct (okb_ok (run E o x) Hk) as [a Ha]. exact (reached_run E o x a _ R Ha). Qed.
Lemma reached_digests E sid x : reached E x -> okb (fst (get_digests E sid x)) = true -> reached E (snd (get_digests E sid x)).
Proof. exact (reached_plain E (ODigests sid) x). Qed.
Lemma reached_challenge E a t x : reached E x -> okb (fst (challenge_req E a t x)) = true -> reached E (snd (challenge_req E a t x)).
Proof. exact (reached_plain E (OChallenge a t) x). Qed.
Lemma reached_finish E a t x : reached E x -> okb (fst (finish_req E a t x)) = true -> reached E (snd (finish_req E a t x)).
Proof. exact (reached_plain E (OFinish a t) x). Qed.
Lemma reached_measurements E sid a t o x : reached E x -> okb (fst (get_measurements E sid a t o x)) = true -> reached E (snd (get_measurements E sid a t o x)).
Proof. intro R. exact (reached_drop E (OMeasurements sid a t o) _ x R eq_refl). Qed.
Lemma reached_kx E a t x : reached E x -> okb (fst (key_exchange_req E a t x)) = true -> reached E (snd (key_exchange_req E a t x)).
Proof. intro R. exact (reached_drop E (OKeyExchange a t) _ x R eq_refl). Qed.
Lemma reached_init' E x : reached E x -> okb (fst (init_connection E x)) = true -> reached E (snd (init_connection E x)).
Proof. intros R Hk. destruct (okb_ok _ Hk) as [a Ha]. exact (reached_init E x a _ R Ha). Qed.
Lemma reached_cert' E f sid a x : reached E x -> okb (fst (get_certificate E f sid a x)) = true -> reached E (snd (get_certificate E f sid a x)).
Proof. intros R Hk. destruct (okb_ok _ Hk) as [b Hb]. apply (r_cert E x f sid a _ _ R Hb). discriminate. Qed.
Ltac runs_ok := vm_compute; reflexivity.
Lemma reached_pr1 : reached pr_env pr1.
Proof. refine (reached_init _ _ _ _ _ run1). unfold pr_req. apply r_start. Qed.
Lemma reached_pr2 : reached pr_env pr2.
Proof. exact (reached_run _ (ODigests None) _ _ _ reached_pr1 run2). Qed.
Lemma reached_pr3 : reached pr_env pr3.
Proof. apply (r_cert _ _ _ _ _ _ _ reached_pr2 run3). discriminate. Qed.
Lemma reached_pr4 : reached pr_env pr4.
Proof. exact (reached_run _ (OChallenge 0 1) _ _ _ reached_pr3 run4). Qed.
Lemma reached_pr5 : reached pr_env pr5.
Proof. destruct run5 as [n K]. exact (reached_run _ (OMeasurements None 0 1 0xFF) _ _ _ reached_pr4 (drop_run _ _ _ _ K)). Qed.
Lemma reached_pr6 : reached pr_env pr6.
Proof. exact (reached_run _ (OKeyExchange 0 1) _ _ _ reached_pr5 (drop_run _ _ _ _ run6)). Qed.
Lemma reached_pr7 : reached pr_env pr7.
Proof. exact (reached_run _ (OFinish None pr_id) _ _ _ reached_pr6 run7). Qed.
