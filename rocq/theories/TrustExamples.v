(** Trusted balances under attack (C111). *)
From Verif Require Export TrustProofs TrackerExamples.
Local Open Scope N_scope.
Local Existing Instance ex_env.

(** ** Checks *)
Definition othersb (x y : Tracker N TxHeight) : bool :=
  forallb (λ np : Txid * TxHeight, bool_decide (is_Some (sc_pos (cg_chain (tr_cg x)) !! np.1)) ||
    match get_tx (cg_graph (tr_cg y)) np.1 with
    | Some t => forallb (λ o, bool_decide (si_txout (ki_inner (tr_index x)) o = None)) (tx_in t) | None => true end)
    (map_to_list (sc_pos (cg_chain (tr_cg y)))).
Lemma othersb_ok x y : othersb x y = true → others_only x y.
Proof.
  unfold othersb. rewrite forallb_forall. intros Ha n t o Hn [p Hp] Ht Ho (ki & g & ((u & Hg) & _) & <-).
  apply elem_of_map_to_list, elem_of_list_In, Ha in Hp. cbn [fst] in Hp. apply orb_prop in Hp as [Hp|Hp].
  - by apply bool_decide_eq_true in Hp.
  - rewrite Ht, forallb_forall in Hp. apply elem_of_list_In, Hp, bool_decide_eq_true in Ho. congruence.
Qed.
Definition quietb (x : Tracker N TxHeight) (u : ChainGraph TxHeight) : bool :=
  forallb (λ hb : N * BlockHash, match sc_cps (cg_chain (tr_cg x)) !! hb.1 with Some b => bool_decide (b = hb.2) | None => true end) (map_to_list (sc_cps (cg_chain u))).
Lemma quietb_ok x u : quietb x u = true → no_reorg x u.
Proof.
  unfold quietb. rewrite forallb_forall. intros Ha h (_ & b & b' & Hb & Hb' & Hne).
  apply elem_of_map_to_list, elem_of_list_In, Ha in Hb'. cbn [fst snd] in Hb'. rewrite Hb in Hb'. by apply bool_decide_eq_true in Hb'.
Qed.
Definition lowb (x : Tracker N TxHeight) : bool :=
  forallb (λ hb : N * BlockHash, bool_decide (hb.1 < u32_max)) (map_to_list (sc_cps (cg_chain (tr_cg x)))) &&
  forallb (λ tp : Txid * TxHeight, match tp.2 with Confirmed h => bool_decide (h < u32_max) | Unconfirmed => true end) (map_to_list (sc_pos (cg_chain (tr_cg x)))).
Lemma lowb_ok x : lowb x = true → below_max (cg_chain (tr_cg x)).
Proof.
  unfold lowb. intros [H1' H2']%andb_prop. rewrite forallb_forall in H1', H2'. split.
  - intros h [b Hb]. apply elem_of_map_to_list, elem_of_list_In, H1' in Hb. by apply bool_decide_eq_true in Hb.
  - intros t p h Hp Hh. apply elem_of_map_to_list, elem_of_list_In, H2' in Hp. cbn [snd] in Hp. cbn in Hh. subst p. by apply bool_decide_eq_true in Hp.
Qed.

Definition mineb (x : Tracker N TxHeight) (o : OutPoint) : bool := existsb (λ kf, bool_decide (fto_outpoint kf.2 = o)) (full_txouts (ex_ho x) x).
Fixpoint secureb (n : nat) (x : Tracker N TxHeight) (i : Txid) : bool :=
  match sc_pos (cg_chain (tr_cg x)) !! i with
  | Some (Confirmed _) => true
  | Some Unconfirmed =>
      match n, get_tx (cg_graph (tr_cg x)) i with
      | S n, Some t => forallb (λ o, bool_decide (o ≠ null_outpoint) && (mineb x o && secureb n x (op_txid o))) (tx_in t)
      | _, _ => false
      end
  | None => false
  end.
Lemma secureb_ok x : cg_ok (tr_cg x) → ∀ n i, secureb n x i = true → secure x i.
Proof.
  intros Hok. assert (hash_order (cg_graph (tr_cg x)) (ex_ho x)) as Hho by (exact (exho_ok _)).
  induction n as [|n IH]; intros i Hs; cbn [secureb] in Hs; destruct (sc_pos (cg_chain (tr_cg x)) !! i) as [[h|]|] eqn:Ep; try done.
  1,2: by eapply secure_confirmed.
  destruct (get_tx (cg_graph (tr_cg x)) i) as [t|] eqn:Et; [|done]. rewrite forallb_forall in Hs.
  assert (∀ o, o ∈ tx_in t → o ≠ null_outpoint ∧ mine x o ∧ secure x (op_txid o)) as Ha.
  { intros o Ho%elem_of_list_In%Hs. apply andb_prop in Ho as [H1'%bool_decide_eq_true Ho]. apply andb_prop in Ho as [H2' H3'].
    split; [done|]. split; [|by apply IH]. unfold mineb in H2'. apply existsb_exists in H2' as ([ki f] & Hin%elem_of_list_In & Ho%bool_decide_eq_true).
    apply full_txouts_owned in Hin; [|done..]. by exists ki, f. }
  eapply secure_own; [by eexists|done|..]; intros o Ho; by apply Ha.
Qed.
(** Every output that counts as trusted is of a secure transaction. *)
Definition all_secureb (tip : N) (x : Tracker N TxHeight) : bool :=
  forallb (λ kf, negb (bool_decide (trusted (λ k, k =? 1) tip kf)) || secureb 3 x (op_txid (fto_outpoint kf.2))) (full_utxos (ex_ho x) x).

(** ** A payment that is taken back *)
(** 41 pays the wallet, 42 is the wallet's spend of it with change, 43 is the payer's double spend. *)
Definition tu41 : Tx := mkTx 41 [mkOutPoint 94 0] [mkTxOut 1000 (exs 1 0)] 0.
Definition tu42 : Tx := mkTx 42 [mkOutPoint 41 0] [mkTxOut 600 7; mkTxOut 390 (exs 3 0)] 0.
Definition tu43 : Tx := mkTx 43 [mkOutPoint 94 0] [mkTxOut 990 8] 0.
(** 44 double spends [trD], which pays the wallet of [tr_h]. *)
Definition tu44 : Tx := mkTx 44 [mkOutPoint 91 0] [mkTxOut 60 8] 0.
Definition tuW (i : Txid) : list OutPoint :=
  match i with 41 => tx_in tu41 | 42 => tx_in tu42 | 43 => tx_in tu43 | 44 => tx_in tu44 | _ => trW i end.
Definition tu_h : list (tr_op N TxHeight) :=
  [TrIndex (KiNext 0); TrCheckpoint (mkBlockId 100 100); TrTx exho tu41 Unconfirmed; TrIndex (KiNext 1); TrTx exho tu42 Unconfirmed].
Definition tu_upd_ops : list (cg_op TxHeight) :=
  [CgCheckpoint (mkBlockId 100 100); CgCheckpoint (mkBlockId 110 110); CgTx exho tu43 (Confirmed 105)].
Definition tu_upd : ChainGraph TxHeight := cg_after cg_default tu_upd_ops.
Definition tu_ord : list (Txid * TxHeight) := [(43, Confirmed 105)].
Definition tu_scan : KScan N TxHeight := mkKScan tu_upd ∅.
Definition tv_upd_ops : list (cg_op TxHeight) :=
  [CgCheckpoint (mkBlockId 150 150); CgCheckpoint (mkBlockId 160 160); CgTx exho tu44 (Confirmed 155)].
Definition tv_upd : ChainGraph TxHeight := cg_after cg_default tv_upd_ops.
Definition tv_ord : list (Txid * TxHeight) := [(44, Confirmed 155)].
Definition tv_scan : KScan N TxHeight := mkKScan tv_upd ∅.

Definition ts (x : Tracker N TxHeight) : option N := match ex_bal x with Ret b => match trusted_spendable b with Ret a => Some a | Panic => None end | Panic => None end.
Definition tu_obs tip (sc : KScan N TxHeight) ord (x : Tracker N TxHeight) (l1 : list (KChangeSet N TxHeight)) :=
  match tr_apply_update (ex_ho x) x sc ord with
  | Ret (Ok (x', cs)) => Some (ts x, ts x', quietb x (ks_update sc), othersb x x', lowb x, all_secureb tip x, bi_height <$> latest_checkpoint (cg_chain (tr_cg x)),
      bi_height <$> latest_checkpoint (cg_chain (tr_cg x')), sumN (value_of <$> full_utxos (ex_ho x) x), sumN (value_of <$> full_utxos (ex_ho x') x'))
  | _ => None end.
Lemma tu_obs_eq : tr_obs tr_s tu_h (tu_obs 100 tu_scan tu_ord) = Some (Some (Some 390, Some 0, true, true, true, false, Some 100, Some 110, 390, 0)).
Proof. vm_compute. reflexivity. Qed.
Lemma tv_obs_eq : tr_obs tr_s tr_h (tu_obs 150 tv_scan tv_ord) = Some (Some (Some 690, Some 690, true, true, true, true, Some 150, Some 160, 5760, 5690)).
Proof. vm_compute. reflexivity. Qed.

Lemma tu_h_ok : Forall (tr_op_ok exA tuW tr_s) tu_h.
Proof.
  unfold tu_h. repeat (apply Forall_cons; split); [..|constructor]; cbn [tr_op_ok].
  - split; [exact I|]. cbn [ki_op_ok]. check_ops.
  - vm_compute. discriminate.
  - refine (tx_op_ok exho exA tuW tr_s tu41 Unconfirmed _ _); [apply exho_ok|vm_compute; reflexivity].
  - split; [exact I|]. cbn [ki_op_ok]. check_ops.
  - refine (tx_op_ok exho exA tuW tr_s tu42 Unconfirmed _ _); [apply exho_ok|vm_compute; reflexivity].
Qed.
Lemma tu_h_cbt : Forall tr_cbt_op tu_h.
Proof. unfold tu_h. repeat (apply Forall_cons; split); [..|constructor]; exact I. Qed.
Lemma tv_h_ok : Forall (tr_op_ok exA tuW tr_s) tr_h.
Proof.
  unfold tr_h. repeat (apply Forall_cons; split); [..|constructor]; cbn [tr_op_ok].
  - split; [exact I|]. cbn [ki_op_ok]. check_ops.
  - vm_compute. discriminate.
  - split; [apply exho_ok|]. split; [apply (bool_decide_unpack _); vm_compute; done|]. split.
    { apply after_built; [apply built_default|]. repeat (apply Forall_cons; split; [split; [|done]|]); [| | | |constructor]; try done.
      split; [apply exho_ok|]. split; vm_compute; done. }
    split; [apply in_rangeb_ok; vm_compute; reflexivity|]. cbn [ks_active]. intros k t Hk. apply lookup_singleton_Some in Hk as [<- <-]. split; check_ops.
  - split; [exact I|]. cbn [ki_op_ok]. check_ops.
  - refine (tx_op_ok exho exA tuW tr_s trB Unconfirmed _ _); [apply exho_ok|vm_compute; reflexivity].
  - refine (tx_op_ok exho_rev exA tuW tr_s trC (Confirmed 105) _ _); [apply exho_rev_ok|vm_compute; reflexivity].
  - vm_compute. discriminate.
  - split; [exact I|]. cbn [ki_op_ok]. check_ops.
  - refine (tx_op_ok exho exA tuW tr_s trD Unconfirmed _ _); [apply exho_ok|vm_compute; reflexivity].
Qed.
Lemma tu_upd_ok : tr_op_ok exA tuW tr_s (TrUpdate exho tu_scan tu_ord).
Proof.
  cbn [tr_op_ok]. split; [apply exho_ok|]. split; [apply (bool_decide_unpack _); vm_compute; done|]. split.
  { apply after_built; [apply built_default|]. repeat (apply Forall_cons; split; [split; [|done]|]); [| | |constructor]; try done.
    split; [apply exho_ok|]. split; vm_compute; done. }
  split; [apply in_rangeb_ok; vm_compute; reflexivity|]. cbn [ks_active tu_scan]. intros k t Hk. by rewrite lookup_empty in Hk.
Qed.
Lemma tv_upd_ok : tr_op_ok exA tuW tr_s (TrUpdate exho tv_scan tv_ord).
Proof.
  cbn [tr_op_ok]. split; [apply exho_ok|]. split; [apply (bool_decide_unpack _); vm_compute; done|]. split.
  { apply after_built; [apply built_default|]. repeat (apply Forall_cons; split; [split; [|done]|]); [| | |constructor]; try done.
    split; [apply exho_ok|]. split; vm_compute; done. }
  split; [apply in_rangeb_ok; vm_compute; reflexivity|]. cbn [ks_active tv_scan]. intros k t Hk. by rewrite lookup_empty in Hk.
Qed.
Lemma upd_cbt (u : ChainGraph TxHeight) m : tip_height (cg_chain u) = Some m →
  forallb (λ tp, match tp.2 with Confirmed n => bool_decide (n ≤ m) | Unconfirmed => true end) (map_to_list (sc_pos (cg_chain u))) = true →
  confirmed_below_tip (cg_chain u).
Proof.
  intros Ht Hall t p n Hp Hn. rewrite forallb_forall in Hall. apply elem_of_map_to_list, elem_of_list_In, Hall in Hp. cbn [snd] in Hp. cbn in Hn. subst p.
  apply bool_decide_eq_true in Hp. exists m. split; [|done]. by apply tip_Some.
Qed.
Lemma tu_upd_cbt : tr_cbt_op (TrUpdate exho tu_scan tu_ord).
Proof. cbn [tr_cbt_op]. apply (upd_cbt tu_upd 110); vm_compute; reflexivity. Qed.
Lemma tv_upd_cbt : tr_cbt_op (TrUpdate exho tv_scan tv_ord).
Proof. cbn [tr_cbt_op]. apply (upd_cbt tv_upd 160); vm_compute; reflexivity. Qed.

(** The change of the wallet's spend counts as trusted, and goes with the payment. *)
Lemma trusted_refuted : ∃ (A : N → option Desc) W s (h : list (tr_op N TxHeight)) x0 x l1 ho sc ord x' cs trust b b' a a',
  good_env A ∧ ki_hist_ok A s ∧ tr_setup s None = Ret x0 ∧ Forall (tr_op_ok A W s) h ∧ Forall tr_cbt_op h ∧ tr_run x0 h = Ret (x, l1) ∧
  below_max (cg_chain (tr_cg x)) ∧ tr_op_ok A W s (TrUpdate ho sc ord) ∧ tr_cbt_op (TrUpdate ho sc ord) ∧
  tr_apply_update (ho (cg_graph (tr_cg x))) x sc ord = Ret (Ok (x', cs)) ∧ no_reorg x (ks_update sc) ∧ others_only x x' ∧
  balance (ho (cg_graph (tr_cg x))) x trust = Ret b ∧ balance (ho (cg_graph (tr_cg x'))) x' trust = Ret b' ∧
  trusted_spendable b = Ret a ∧ trusted_spendable b' = Ret a' ∧ a' < a.
Proof.
  destruct (tr_obs_Some _ _ _ _ tu_obs_eq) as (x0 & x & l1 & E0 & E1 & Ef). unfold tu_obs in Ef.
  destruct (tr_apply_update (ex_ho x) x tu_scan tu_ord) as [[[x' cs]|]|] eqn:Eu; [|discriminate Ef..].
  assert (ts x = Some 390 ∧ ts x' = Some 0) as [B1 B2] by (split; congruence). unfold ts, ex_bal in B1, B2.
  destruct (balance (ex_ho x) x (λ k, k =? 1)) as [b|] eqn:Eb; [|discriminate B1].
  destruct (balance (ex_ho x') x' (λ k, k =? 1)) as [b'|] eqn:Eb'; [|discriminate B2].
  destruct (trusted_spendable b) as [a|] eqn:Ea; [|discriminate B1]. destruct (trusted_spendable b') as [a'|] eqn:Ea'; [|discriminate B2].
  exists exA, tuW, tr_s, tu_h, x0, x, l1, exho, tu_scan, tu_ord, x', cs, (λ k, k =? 1), b, b', a, a'.
  split; [exact exA_good|]. split; [exact tr_s_ok|]. split; [exact E0|]. split; [exact tu_h_ok|]. split; [exact tu_h_cbt|]. split; [exact E1|].
  split; [apply lowb_ok; congruence|]. split; [exact tu_upd_ok|]. split; [exact tu_upd_cbt|]. split; [exact Eu|].
  split; [apply quietb_ok; congruence|]. split; [apply othersb_ok; congruence|]. split; [exact Eb|]. split; [exact Eb'|].
  split; [exact Ea|]. split; [exact Ea'|]. injection B1 as ->. injection B2 as ->. vm_compute. reflexivity.
Qed.

(** All hypotheses of the theorems hold of the wallet of [tr_h] and the double spend of a payment to it. *)
Lemma tv_hyps : ∃ x0 x l1 x' cs lst lst',
  tr_setup tr_s None = Ret x0 ∧ tr_run x0 tr_h = Ret (x, l1) ∧ below_max (cg_chain (tr_cg x)) ∧
  tr_apply_update (exho (cg_graph (tr_cg x))) x tv_scan tv_ord = Ret (Ok (x', cs)) ∧ no_reorg x tv_upd ∧ others_only x x' ∧
  tip_is x 150 ∧ tip_is x' 160 ∧
  (∀ ki f, owned x ki f → fto_spent_by f = None → trusted (λ k, k =? 1) 150 (ki, f) → secure x (op_txid (fto_outpoint f))) ∧
  NoDup lst ∧ (∀ ki f, (ki, f) ∈ lst ↔ owned x ki f ∧ fto_spent_by f = None) ∧ sumN (value_of <$> lst) = 5760 ∧
  NoDup lst' ∧ (∀ ki f, (ki, f) ∈ lst' ↔ owned x' ki f ∧ fto_spent_by f = None) ∧ sumN (value_of <$> lst') = 5690 ∧
  ts x = Some 690 ∧ ts x' = Some 690.
Proof.
  destruct (tr_obs_Some _ _ _ _ tv_obs_eq) as (x0 & x & l1 & E0 & E1 & Ef). unfold tu_obs in Ef.
  destruct (tr_apply_update (ex_ho x) x tv_scan tv_ord) as [[[x' cs]|]|] eqn:Eu; [|discriminate Ef..].
  assert (Hok : cg_ok (tr_cg x)) by (apply (run_reachable exA tuW tr_s None tr_h x0 x l1); [exact exA_good|exact tr_s_ok|exact E0|exact tv_h_ok|exact E1]).
  assert (hash_order (cg_graph (tr_cg x)) (ex_ho x)) as Hho by (exact (exho_ok _)).
  assert (Hok' : cg_ok (tr_cg x')).
  { apply (run_reachable exA tuW tr_s None (tr_h ++ [TrUpdate exho tv_scan tv_ord]) x0 x' (l1 ++ [cs])); [exact exA_good|exact tr_s_ok|exact E0| |apply (tr_run_snoc _ _ x _ _ _ _ E1); cbn [tr_step]; unfold ex_ho in Eu; by rewrite Eu].
    apply Forall_app. split; [exact tv_h_ok|]. apply Forall_singleton. exact tv_upd_ok. }
  assert (hash_order (cg_graph (tr_cg x')) (ex_ho x')) as Hho' by (exact (exho_ok _)).
  exists x0, x, l1, x', cs, (full_utxos (ex_ho x) x), (full_utxos (ex_ho x') x'). split; [exact E0|]. split; [exact E1|].
  split; [apply lowb_ok; congruence|]. split; [exact Eu|]. split; [apply (quietb_ok x (ks_update tv_scan)); congruence|]. split; [apply othersb_ok; congruence|].
  split; [apply latest_is_tip; congruence|]. split; [apply latest_is_tip; congruence|]. split.
  { intros ki f Hf Hsp Htr. assert (all_secureb 150 x = true) as Hall by congruence. unfold all_secureb in Hall. rewrite forallb_forall in Hall.
    specialize (Hall (ki, f)). apply (secureb_ok x Hok 3). cbn [snd] in Hall.
    apply orb_prop in Hall as [Hn|]; [|done|]; [|apply elem_of_list_In; unfold full_utxos; rewrite elem_of_list_filter, full_txouts_owned by done; done].
    by rewrite bool_decide_true in Hn. }
  split; [unfold full_utxos; apply NoDup_filter; eapply NoDup_fmap_1, full_txouts_nodup|]. split.
  { intros ki f. unfold full_utxos. rewrite elem_of_list_filter, full_txouts_owned by done. cbn [snd]. tauto. }
  split; [congruence|]. split; [unfold full_utxos; apply NoDup_filter; eapply NoDup_fmap_1, full_txouts_nodup|]. split.
  { intros ki f. unfold full_utxos. rewrite elem_of_list_filter, full_txouts_owned by done. cbn [snd]. tauto. }
  split; [congruence|]. split; congruence.
Qed.
