(** Concrete tracker histories and witnesses. *)
From Verif Require Export TrackerProofs4 KeychainExamples ChainGraphExamples.

Local Existing Instance ex_env.

(** A transaction paying indices 0 and 1 of keychain 0, a spend of it with change, a coinbase, a
    payment to an index seen by lookahead only. *)
Definition trA : Tx := mkTx 21 [mkOutPoint 90 0] [mkTxOut 1000 (exs 1 0); mkTxOut 300 (exs 1 1)] 0.
Definition trB : Tx := mkTx 22 [mkOutPoint 21 0] [mkTxOut 600 7; mkTxOut 390 (exs 3 0)] 0.
Definition trC : Tx := mkTx 23 [null_outpoint] [mkTxOut 5000 (exs 1 2)] 0.
Definition trD : Tx := mkTx 24 [mkOutPoint 91 0] [mkTxOut 70 (exs 1 4)] 0.
Definition trW (i : Txid) : list OutPoint :=
  match i with 21 => tx_in trA | 22 => tx_in trB | 23 => tx_in trC | 24 => tx_in trD | _ => [] end.

Definition tr_upd_ops : list (cg_op TxHeight) :=
  [CgCheckpoint (mkBlockId 100 100); CgCheckpoint (mkBlockId 110 110); CgTx exho trA (Confirmed 105);
   CgTxout (mkOutPoint 90 0) (mkTxOut 1400 9)].
Lemma tr_upd_ops_ok : Forall (usable trW) tr_upd_ops.
Proof.
  repeat (apply Forall_cons; split; [split; [|done]|]); [| | | |constructor]; try done.
  split; [apply exho_ok|]. split; vm_compute; done.
Qed.
Definition tr_upd : ChainGraph TxHeight := cg_after cg_default tr_upd_ops.
Lemma tr_upd_built : built trW tr_upd.
Proof. apply after_built, tr_upd_ops_ok. apply built_default. Qed.
Definition tr_upd_ord : list (Txid * TxHeight) := [(21, Confirmed 105)].

Definition in_rangeb (g : TxGraph) : bool := forallb (λ ou, bool_decide (op_ok ou.1)) (all_txouts g).
Lemma in_rangeb_ok g : in_rangeb g = true → graph_in_range g.
Proof.
  unfold in_rangeb. rewrite forallb_forall. intros Ha o u Hin. apply elem_of_list_In, Ha, bool_decide_eq_true in Hin. done.
Qed.

Lemma tx_op_ok (ho : TxGraph → OutPoint → list Txid) (A : N → option Desc) W (s : list (ki_op N)) t (p : TxHeight) :
  hash_fun_ok ho → bool_decide (txid t ≤ max_txid) && bool_decide (N.of_nat (length (tx_out t)) ≤ u32_max) &&
    bool_decide (pos_ok p) && bool_decide (tx_in t = W (txid t)) = true → tr_op_ok A W s (TrTx ho t p).
Proof.
  intros Hho Hb. apply andb_prop in Hb as [Hb H4%bool_decide_eq_true]. apply andb_prop in Hb as [Hb H3%bool_decide_eq_true].
  apply andb_prop in Hb as [H1%bool_decide_eq_true H2%bool_decide_eq_true]. cbn [tr_op_ok]. split; [done|]. split; [split; [done|lia]|done].
Qed.
Definition tr_s : list (ki_op N) := [KiAdd 0 1; KiAdd 1 3; KiLook 0 3; KiLook 1 2].
Lemma tr_s_ok : ki_hist_ok exA tr_s.
Proof. apply ops_ok_nil. cbn [ops_ok tr_s app ki_op_ok]. cbn [exA]. check_ops. Qed.
Definition tr_h : list (tr_op N TxHeight) :=
  [TrIndex (KiNext 0); TrCheckpoint (mkBlockId 100 100); TrUpdate exho (mkKScan tr_upd {[ 0 := 0 ]}) tr_upd_ord;
   TrIndex (KiNext 1); TrTx exho trB Unconfirmed; TrTx exho_rev trC (Confirmed 105); TrCheckpoint (mkBlockId 150 150);
   TrIndex (KiMark 0 1); TrTx exho trD Unconfirmed].
Lemma tr_h_ok : Forall (tr_op_ok exA trW tr_s) tr_h.
Proof.
  unfold tr_h. repeat (apply Forall_cons; split); [..|constructor]; cbn [tr_op_ok].
  - split; [exact I|]. cbn [ki_op_ok]. check_ops.
  - vm_compute. discriminate.
  - split; [apply exho_ok|]. split; [apply (bool_decide_unpack _); vm_compute; done|]. split; [exact tr_upd_built|].
    split; [apply in_rangeb_ok; vm_compute; reflexivity|]. cbn [ks_active]. intros k t Hk. apply lookup_singleton_Some in Hk as [<- <-]. split; check_ops.
  - split; [exact I|]. cbn [ki_op_ok]. check_ops.
  - refine (tx_op_ok exho exA trW tr_s trB Unconfirmed _ _); [apply exho_ok|vm_compute; reflexivity].
  - refine (tx_op_ok exho_rev exA trW tr_s trC (Confirmed 105) _ _); [apply exho_rev_ok|vm_compute; reflexivity].
  - vm_compute. discriminate.
  - split; [exact I|]. cbn [ki_op_ok]. check_ops.
  - refine (tx_op_ok exho exA trW tr_s trD Unconfirmed _ _); [apply exho_ok|vm_compute; reflexivity].
Qed.
Lemma tr_h_cbt : Forall tr_cbt_op tr_h.
Proof.
  unfold tr_h. repeat (apply Forall_cons; split); [..|constructor]; cbn [tr_cbt_op]; try exact I.
  intros t p n Hp Hn. cbn [ks_update] in *. 
  assert (forallb (λ tp, match pos_height tp.2 with Confirmed n => bool_decide (n ≤ 110) | Unconfirmed => true end)
    (map_to_list (sc_pos (cg_chain tr_upd))) = true) as Hall by (vm_compute; reflexivity).
  rewrite forallb_forall in Hall. apply elem_of_map_to_list, elem_of_list_In, Hall in Hp. cbn [snd] in Hp. rewrite Hn in Hp.
  apply bool_decide_eq_true in Hp. exists 110. split; [|done]. apply tip_Some. vm_compute. reflexivity.
Qed.
Lemma tr_h_quiet : Forall (λ op, ¬ offers_outputs op ∧ ¬ sets_limit op) tr_h.
Proof.
  unfold tr_h. repeat (apply Forall_cons; split); [..|constructor]; split; unfold offers_outputs, sets_limit; intros [l El]; discriminate.
Qed.
(** Observations of a run after a set-up. *)
Definition tr_obs {B} (s : list (ki_op N)) (h : list (tr_op N TxHeight))
    (f : Tracker N TxHeight → list (KChangeSet N TxHeight) → B) : option B :=
  match tr_setup s None with
  | Ret x0 => match tr_run x0 h with Ret (x, l1) => Some (f x l1) | Panic => None end
  | Panic => None
  end.
Lemma tr_obs_Some {B} s h (f : Tracker N TxHeight → list (KChangeSet N TxHeight) → B) b :
  tr_obs s h f = Some b → ∃ x0 x l1, tr_setup s None = Ret x0 ∧ tr_run x0 h = Ret (x, l1) ∧ f x l1 = b.
Proof.
  unfold tr_obs. intros E. destruct (tr_setup s None) as [x0|]; [|done]. destruct (tr_run x0 h) as [[x l1]|] eqn:Er; [|done].
  exists x0, x, l1. by injection E as ->.
Qed.
Definition ex_ho (x : Tracker N TxHeight) : OutPoint → list Txid := exho (cg_graph (tr_cg x)).
Definition ex_bal (x : Tracker N TxHeight) : outcome Balance := balance (ex_ho x) x (λ k, k =? 1).

(** All hypotheses of the balance theorems hold of the run of [tr_h]. *)
Lemma latest_is_tip (x : Tracker N TxHeight) n : bi_height <$> latest_checkpoint (cg_chain (tr_cg x)) = Some n → tip_is x n.
Proof.
  intros E. left. apply tip_Some. unfold tip_height. unfold latest_checkpoint in E.
  destruct (last (bmap_list (sc_cps (cg_chain (tr_cg x))))) as [[a b]|]; exact E.
Qed.
Definition ex_facts (x : Tracker N TxHeight) (l1 : list (KChangeSet N TxHeight)) :=
  (bi_height <$> latest_checkpoint (cg_chain (tr_cg x)), sumN (value_of <$> full_utxos (ex_ho x) x),
   sumN (value_of <$> filter (λ kf, spendable_by 204 kf = true) (full_txouts (ex_ho x) x)),
   forallb (λ kf : N * N * FullTxOut TxHeight, negb (fto_on_coinbase kf.2) || match fto_pos kf.2 with Confirmed _ => true | Unconfirmed => false end) (full_txouts (ex_ho x) x)).
Lemma ex_facts_eq : tr_obs tr_s tr_h ex_facts = Some (Some 150, 5760, 6300, true).
Proof. vm_compute. reflexivity. Qed.
Lemma ex_balance_hyps : ∃ x0 x l1 lst, tr_setup tr_s None = Ret x0 ∧ tr_run x0 tr_h = Ret (x, l1) ∧
  hash_order (cg_graph (tr_cg x)) (ex_ho x) ∧ tip_is x 150 ∧ 150 < u32_max ∧ NoDup lst ∧
  (∀ ki f, (ki, f) ∈ lst ↔ owned x ki f ∧ fto_spent_by f = None) ∧ sumN (value_of <$> lst) = 5760 ∧ 5760 ≤ u64_max.
Proof.
  destruct (tr_obs_Some _ _ _ _ ex_facts_eq) as (x0 & x & l1 & E0 & E1 & Ef). unfold ex_facts in Ef.
  assert (Hok : cg_ok (tr_cg x)) by (apply (run_reachable exA trW tr_s None tr_h x0 x l1); [exact exA_good|exact tr_s_ok|exact E0|exact tr_h_ok|exact E1]).
  assert (hash_order (cg_graph (tr_cg x)) (ex_ho x)) as Hho by (exact (exho_ok _)).
  exists x0, x, l1, (full_utxos (ex_ho x) x). split; [exact E0|]. split; [exact E1|]. split; [exact Hho|].
  split; [apply latest_is_tip; congruence|]. split; [vm_compute; reflexivity|].
  split; [unfold full_utxos; apply NoDup_filter; eapply NoDup_fmap_1, full_txouts_nodup|]. split; [|split; [congruence|vm_compute; discriminate]].
  intros ki f. unfold full_utxos. rewrite elem_of_list_filter, full_txouts_owned by done. cbn [snd]. tauto.
Qed.
Lemma ex_balance_at_hyps : ∃ x0 x l1 lst, tr_setup tr_s None = Ret x0 ∧ tr_run x0 tr_h = Ret (x, l1) ∧
  hash_order (cg_graph (tr_cg x)) (ex_ho x) ∧
  (∀ ki f, owned x ki f → fto_on_coinbase f = true → ∃ c, pos_height (fto_pos f) = Confirmed c) ∧
  204 < u32_max ∧ NoDup lst ∧ (∀ ki f, (ki, f) ∈ lst ↔ owned x ki f ∧ spendable_by 204 (ki, f) = true) ∧
  sumN (value_of <$> lst) = 6300 ∧ 6300 ≤ u64_max.
Proof.
  destruct (tr_obs_Some _ _ _ _ ex_facts_eq) as (x0 & x & l1 & E0 & E1 & Ef). unfold ex_facts in Ef.
  assert (Hok : cg_ok (tr_cg x)) by (apply (run_reachable exA trW tr_s None tr_h x0 x l1); [exact exA_good|exact tr_s_ok|exact E0|exact tr_h_ok|exact E1]).
  assert (hash_order (cg_graph (tr_cg x)) (ex_ho x)) as Hho by (exact (exho_ok _)).
  exists x0, x, l1, (filter (λ kf, spendable_by 204 kf = true) (full_txouts (ex_ho x) x)).
  split; [exact E0|]. split; [exact E1|]. split; [exact Hho|]. split.
  { intros ki f Hf Hc. assert (forallb (λ kf : N * N * FullTxOut TxHeight, negb (fto_on_coinbase kf.2) || match fto_pos kf.2 with Confirmed _ => true | Unconfirmed => false end) (full_txouts (ex_ho x) x) = true) as Hall by congruence.
    rewrite forallb_forall in Hall. apply (full_txouts_owned (ex_ho x)) in Hf; [|done..]. apply elem_of_list_In, Hall in Hf. cbn [snd] in Hf.
    rewrite Hc in Hf. cbn in Hf. cbn [pos_height]. destruct (fto_pos f) as [c|]; [exists c; reflexivity|discriminate]. }
  split; [vm_compute; reflexivity|].
  split; [apply NoDup_filter; eapply NoDup_fmap_1, full_txouts_nodup|]. split; [|split; [congruence|vm_compute; discriminate]].
  intros ki f. rewrite elem_of_list_filter, full_txouts_owned by done. tauto.
Qed.

(** ** Refutations *)
(** 31 pays index [i] of keychain 0, 32 index [j]. *)
Definition tr31 (i : N) : Tx := mkTx 31 [mkOutPoint 92 0] [mkTxOut 100 (exs 1 i)] 0.
Definition tr32 (i : N) : Tx := mkTx 32 [mkOutPoint 93 0] [mkTxOut 1000 (exs 1 i)] 0.
Definition tr_coinbase : Tx := mkTx 33 [null_outpoint] [mkTxOut 5000 (exs 1 0)] 0.
Definition trW3 (i : Txid) : list OutPoint := match i with 31 => [mkOutPoint 92 0] | 32 => [mkOutPoint 93 0] | 33 => [null_outpoint] | _ => [] end.
Definition tr_s3 : list (ki_op N) := [KiAdd 0 1; KiLook 0 3].
Lemma tr_s3_ok : ki_hist_ok exA tr_s3.
Proof. apply ops_ok_nil. cbn [ops_ok tr_s3 app ki_op_ok]. cbn [exA]. check_ops. Qed.
Definition tr_s0 : list (ki_op N) := [KiAdd 0 1].
Lemma tr_s0_ok : ki_hist_ok exA tr_s0.
Proof. apply ops_ok_nil. cbn [ops_ok tr_s0 app ki_op_ok]. cbn [exA]. check_ops. Qed.
Definition tr_h3 : list (tr_op N TxHeight) := [TrTx exho (tr31 2) Unconfirmed; TrTx exho (tr32 4) Unconfirmed].
Lemma tr_h3_ok : Forall (tr_op_ok exA trW3 tr_s3) tr_h3.
Proof.
  unfold tr_h3. repeat (apply Forall_cons; split); [..|constructor].
  - refine (tx_op_ok exho exA trW3 tr_s3 _ Unconfirmed _ _); [apply exho_ok|vm_compute; reflexivity].
  - refine (tx_op_ok exho exA trW3 tr_s3 _ Unconfirmed _ _); [apply exho_ok|vm_compute; reflexivity].
Qed.
Definition rets {B} (r : outcome B) : option B := match r with Ret b => Some b | Panic => None end.
Definition total_of (x : Tracker N TxHeight) : option N :=
  match ex_bal x with Ret b => rets (bal_total b) | Panic => None end.
Definition tr_then {B} (s : list (ki_op N)) (g : Tracker N TxHeight → outcome (Tracker N TxHeight)) (f : Tracker N TxHeight → B) : option B :=
  match tr_setup s None with Ret y0 => match g y0 with Ret y => Some (f y) | Panic => None end | Panic => None end.
Lemma tr_then_Some {B} s g (f : Tracker N TxHeight → B) b : tr_then s g f = Some b → ∃ y0 y, tr_setup s None = Ret y0 ∧ g y0 = Ret y ∧ f y = b.
Proof.
  unfold tr_then. intros E. destruct (tr_setup s None) as [y0|]; [|done]. destruct (g y0) as [y|] eqn:Eg; [|done].
  exists y0, y. injection E as <-. done.
Qed.
Lemma lookahead_obs : tr_obs tr_s3 tr_h3 (λ x l1, (total_of x, last_revealed_index (tr_index x) 0,
    tr_then tr_s0 (λ y0, tr_replay y0 l1) (λ y, (total_of y, last_revealed_index (tr_index y) 0)))) =
  Some (Some 1100, Some 4, Some (Some 0, None)).
Proof. vm_compute. reflexivity. Qed.
Lemma lookahead_witness : ∃ (E : DescEnv) (A : N → option Desc) W s s' (h : list (tr_op N TxHeight)) x0 x l1 y0 y,
  good_env A ∧ ki_hist_ok A s ∧ ki_hist_ok A s' ∧ (∀ k, known s k ↔ known s' k) ∧
  tr_setup s None = Ret x0 ∧ tr_setup s' None = Ret y0 ∧ Forall (tr_op_ok A W s) h ∧
  tr_run x0 h = Ret (x, l1) ∧ tr_replay y0 l1 = Ret y ∧
  last_revealed_index (tr_index x) 0 = Some 4 ∧ last_revealed_index (tr_index y) 0 = None ∧
  ∃ b b', balance (ex_ho x) x (λ k, k =? 1) = Ret b ∧ bal_total b = Ret 1100 ∧
    balance (ex_ho y) y (λ k, k =? 1) = Ret b' ∧ bal_total b' = Ret 0.
Proof.
  destruct (tr_obs_Some _ _ _ _ lookahead_obs) as (x0 & x & l1 & E0 & E1 & Ef).
  assert (tr_then tr_s0 (λ y0, tr_replay y0 l1) (λ y, (total_of y, last_revealed_index (tr_index y) 0)) = Some (Some 0, None)) as Et by congruence.
  destruct (tr_then_Some _ _ _ _ Et) as (y0 & y & Ey0 & Ey & Ey2).
  exists ex_env, exA, trW3, tr_s3, tr_s0, tr_h3, x0, x, l1, y0, y.
  split; [exact exA_good|]. split; [exact tr_s3_ok|]. split; [exact tr_s0_ok|]. split.
  { intros k. unfold known, tr_s3, tr_s0. split; intros [d Hd]; exists d; set_solver. }
  split; [exact E0|]. split; [exact Ey0|]. split; [exact tr_h3_ok|]. split; [exact E1|]. split; [exact Ey|].
  split; [congruence|]. split; [congruence|].
  assert (total_of x = Some 1100) as T1 by congruence. assert (total_of y = Some 0) as T2 by congruence.
  unfold total_of, ex_bal in T1, T2. destruct (balance (ex_ho x) _ _) as [b|]; [|done]. destruct (balance (ex_ho y) _ _) as [b'|]; [|done].
  exists b, b'. unfold rets in *. destruct (bal_total b); [|done]. destruct (bal_total b'); [|done]. split; [done|]. split; [congruence|]. split; [done|congruence].
Qed.
Lemma merge_obs : tr_obs tr_s3 tr_h3 (λ x l1, (total_of x, 
    tr_then tr_s3 (λ y0, tr_replay y0 l1) total_of, tr_then tr_s3 (λ y0, tr_apply_changeset y0 (fold_changes l1)) total_of)) =
  Some (Some 1100, Some (Some 1100), Some (Some 100)).
Proof. vm_compute. reflexivity. Qed.
(** A floating output paying index 2, then a transaction paying index 4. *)
Definition tr_upd_f : ChainGraph TxHeight := cg_after cg_default [CgTxout (mkOutPoint 95 0) (mkTxOut 100 (exs 1 2))].
Lemma tr_upd_f_built : built trW3 tr_upd_f.
Proof.
  apply after_built; [apply built_default|]. apply Forall_cons; split; [split; [|exact I]|constructor]. exact I.
Qed.
Definition tr_h4 : list (tr_op N TxHeight) :=
  [TrUpdate exho (mkKScan tr_upd_f ∅) []; TrTx exho (tr32 4) Unconfirmed].
Lemma tr_h4_ok : Forall (tr_op_ok exA trW3 tr_s3) tr_h4.
Proof.
  unfold tr_h4. repeat (apply Forall_cons; split); [..|constructor].
  - cbn [tr_op_ok]. split; [apply exho_ok|]. split; [apply (bool_decide_unpack _); vm_compute; done|]. split; [exact tr_upd_f_built|].
    split; [apply in_rangeb_ok; vm_compute; reflexivity|]. cbn [ks_active]. intros k t Hk. by rewrite lookup_empty in Hk.
  - refine (tx_op_ok exho exA trW3 tr_s3 _ Unconfirmed _ _); [apply exho_ok|vm_compute; reflexivity].
Qed.
Lemma merge_obs_f : tr_obs tr_s3 tr_h4 (λ x l1, (total_of x, 
    tr_then tr_s3 (λ y0, tr_replay y0 l1) total_of, tr_then tr_s3 (λ y0, tr_apply_changeset y0 (fold_changes l1)) total_of)) =
  Some (Some 1000, Some (Some 1000), Some (Some 0)).
Proof. vm_compute. reflexivity. Qed.
Lemma merge_witness : ∃ (E : DescEnv) (A : N → option Desc) W s (h : list (tr_op N TxHeight)) x0 x l1 y1 y2,
  good_env A ∧ ki_hist_ok A s ∧ tr_setup s None = Ret x0 ∧ Forall (tr_op_ok A W s) h ∧
  tr_run x0 h = Ret (x, l1) ∧ tr_replay x0 l1 = Ret y1 ∧ tr_apply_changeset x0 (fold_changes l1) = Ret y2 ∧
  ∃ b1 b2, balance (ex_ho y1) y1 (λ k, k =? 1) = Ret b1 ∧ bal_total b1 = Ret 1000 ∧
    balance (ex_ho y2) y2 (λ k, k =? 1) = Ret b2 ∧ bal_total b2 = Ret 0.
Proof.
  destruct (tr_obs_Some _ _ _ _ merge_obs_f) as (x0 & x & l1 & E0 & E1 & Ef).
  assert (tr_then tr_s3 (λ y0, tr_replay y0 l1) total_of = Some (Some 1000)) as T1 by congruence.
  assert (tr_then tr_s3 (λ y0, tr_apply_changeset y0 (fold_changes l1)) total_of = Some (Some 0)) as T2 by congruence.
  destruct (tr_then_Some _ _ _ _ T1) as (y0 & y1 & Ey0 & Ey1 & O1). rewrite E0 in Ey0. injection Ey0 as <-.
  destruct (tr_then_Some _ _ _ _ T2) as (y0 & y2 & Ey0 & Ey2 & O2). rewrite E0 in Ey0. injection Ey0 as <-.
  exists ex_env, exA, trW3, tr_s3, tr_h4, x0, x, l1, y1, y2.
  split; [exact exA_good|]. split; [exact tr_s3_ok|]. split; [exact E0|]. split; [exact tr_h4_ok|]. split; [exact E1|]. split; [exact Ey1|]. split; [exact Ey2|].
  unfold total_of, ex_bal in O1, O2. destruct (balance (ex_ho y1) _ _) as [b|]; [|done]. destruct (balance (ex_ho y2) _ _) as [b'|]; [|done].
  exists b, b'. unfold rets in *. destruct (bal_total b); [|done]. destruct (bal_total b'); [|done]. split; [done|]. split; [congruence|]. split; [done|congruence].
Qed.
(** Unknown keychain among the active indices. *)
Lemma unknown_keychain_obs : tr_obs tr_s3 [] (λ x _, match tr_apply_update (ex_ho x) x (mkKScan cg_default {[ 7 := 0 ]}) [] with Panic => true | Ret _ => false end) = Some true.
Proof. vm_compute. reflexivity. Qed.
Lemma unknown_keychain_witness : ∃ (E : DescEnv) (A : N → option Desc) s (x0 : Tracker N TxHeight) ho sc,
  good_env A ∧ ki_hist_ok A s ∧ tr_setup s None = Ret x0 ∧ hash_order (cg_graph (tr_cg x0)) ho ∧ ks_update sc = cg_default ∧
  tr_apply_update ho x0 sc [] = Panic.
Proof.
  destruct (tr_obs_Some _ _ _ _ unknown_keychain_obs) as (x0 & x & l1 & E0 & E1 & Ef). injection E1 as <- <-.
  exists ex_env, exA, tr_s3, x0, (ex_ho x0), (mkKScan cg_default {[ 7 := 0 ]}).
  split; [exact exA_good|]. split; [exact tr_s3_ok|]. split; [exact E0|]. split; [exact (exho_ok _)|]. split; [reflexivity|].
  destruct (tr_apply_update _ _ _ _); [discriminate|reflexivity].
Qed.
(** A confirmed coinbase with all checkpoints pruned; an unconfirmed coinbase. *)
Definition tr_h5 : list (tr_op N TxHeight) :=
  [TrCheckpoint (mkBlockId 10 10); TrTx exho tr_coinbase (Confirmed 10); TrLimit (Some 0%nat)].
Lemma tr_h5_ok : Forall (tr_op_ok exA trW3 tr_s3) tr_h5.
Proof.
  unfold tr_h5. repeat (apply Forall_cons; split); [..|constructor].
  - vm_compute. discriminate.
  - refine (tx_op_ok exho exA trW3 tr_s3 _ (Confirmed 10) _ _); [apply exho_ok|vm_compute; reflexivity].
  - exact I.
Qed.
Lemma limit_obs : tr_obs tr_s3 tr_h5 (λ x _, (match ex_bal x with Panic => true | Ret _ => false end, length (full_txouts (ex_ho x) x))) = Some (true, 1%nat).
Proof. vm_compute. reflexivity. Qed.
Lemma limit_witness : ∃ (E : DescEnv) (A : N → option Desc) W s (h : list (tr_op N TxHeight)) x0 x l1 ho trust,
  good_env A ∧ ki_hist_ok A s ∧ tr_setup s None = Ret x0 ∧ Forall (tr_op_ok A W s) h ∧ tr_run x0 h = Ret (x, l1) ∧
  hash_order (cg_graph (tr_cg x)) ho ∧ balance ho x trust = Panic.
Proof.
  destruct (tr_obs_Some _ _ _ _ limit_obs) as (x0 & x & l1 & E0 & E1 & Ef).
  exists ex_env, exA, trW3, tr_s3, tr_h5, x0, x, l1, (ex_ho x), (λ k, k =? 1).
  split; [exact exA_good|]. split; [exact tr_s3_ok|]. split; [exact E0|]. split; [exact tr_h5_ok|]. split; [exact E1|]. split; [exact (exho_ok _)|].
  unfold ex_bal in Ef. destruct (balance _ _ _); [discriminate|reflexivity].
Qed.
Definition tr_h6 : list (tr_op N TxHeight) := [TrTx exho tr_coinbase Unconfirmed].
Lemma tr_h6_ok : Forall (tr_op_ok exA trW3 tr_s3) tr_h6.
Proof.
  unfold tr_h6. repeat (apply Forall_cons; split); [..|constructor].
  refine (tx_op_ok exho exA trW3 tr_s3 _ Unconfirmed _ _); [apply exho_ok|vm_compute; reflexivity].
Qed.
Lemma coinbase_obs : tr_obs tr_s3 tr_h6 (λ x _, match balance_at (ex_ho x) x 200 with Panic => true | Ret _ => false end) = Some true.
Proof. vm_compute. reflexivity. Qed.
Lemma coinbase_witness : ∃ (E : DescEnv) (A : N → option Desc) W s (h : list (tr_op N TxHeight)) x0 x l1 ho,
  good_env A ∧ ki_hist_ok A s ∧ tr_setup s None = Ret x0 ∧ Forall (tr_op_ok A W s) h ∧ tr_run x0 h = Ret (x, l1) ∧
  hash_order (cg_graph (tr_cg x)) ho ∧ balance_at ho x 200 = Panic.
Proof.
  destruct (tr_obs_Some _ _ _ _ coinbase_obs) as (x0 & x & l1 & E0 & E1 & Ef).
  exists ex_env, exA, trW3, tr_s3, tr_h6, x0, x, l1, (ex_ho x).
  split; [exact exA_good|]. split; [exact tr_s3_ok|]. split; [exact E0|]. split; [exact tr_h6_ok|]. split; [exact E1|]. split; [exact (exho_ok _)|].
  destruct (balance_at _ _ _); [discriminate|reflexivity].
Qed.
(** ** Merging within the window *)
(** Two reported changesets whose outputs are within the lookahead from the start. *)
Definition tr_h7 : list (tr_op N TxHeight) := [TrCheckpoint (mkBlockId 10 10); TrTx exho (tr31 2) Unconfirmed; TrTx exho (tr32 1) (Confirmed 5); TrIndex (KiNext 0)].
Definition trWo (o : OutPoint) : TxOut := if op_txid o =? 31 then mkTxOut 100 (exs 1 2) else mkTxOut 1000 (exs 1 1).
Definition fitb (s : list (ki_op N)) (Wo : OutPoint → TxOut) (i : KIndex N) (cs : KChangeSet N TxHeight) : bool :=
  forallb (λ kt, existsb (λ op, match op with KiAdd k _ => k =? kt.1 | _ => false end) s && bool_decide (kt.2 ≤ bip32_max)) (map_to_list (kcs_indices cs)) &&
  forallb (λ ou, bool_decide (op_ok ou.1) && bool_decide (ou.2 = Wo ou.1) &&
      match si_index_of_spk (ki_inner i) (txo_spk ou.2) with
      | Some (k, j) => bool_decide (j < n_revealed i k + lookahead_of i k) | None => false end) (cs_outs cs).
Lemma fitb_ok A s Wo i outs acc cs : good_env A → ki_hist_ok A s → ki_run s = Ret (i, outs, acc) → fitb s Wo i cs = true →
  cs_fit s Wo cs ∧ in_window i cs.
Proof.
  intros HA Hs E. unfold fitb. intros Hb. apply andb_prop in Hb as [H1 H2]. rewrite forallb_forall in H1, H2.
  destruct (hist_run' A s i outs acc HA Hs E) as [hs Hi]. split; [split|].
  - intros k t Hk. apply elem_of_map_to_list, elem_of_list_In, H1 in Hk. apply andb_prop in Hk as [Hk Ht%bool_decide_eq_true]. split; [|done].
    apply existsb_exists in Hk as (op & Hin & Hop). destruct op as [k' d| | | | | | | | | | | | |]; try discriminate. exists d. apply N.eqb_eq in Hop. cbn in Hop. subst. by apply elem_of_list_In.
  - intros o u Hin. apply elem_of_list_In, H2 in Hin. apply andb_prop in Hin as [Hin _]. apply andb_prop in Hin as [Ha%bool_decide_eq_true Hb%bool_decide_eq_true]. done.
  - intros o u k j Hin (d & Hd & Hj & Eq). apply elem_of_list_In, H2 in Hin. apply andb_prop in Hin as [_ Hin]. cbn [fst snd] in Hin.
    destruct (si_index_of_spk (ki_inner i) (txo_spk u)) as [[k' j']|] eqn:Ei; [|discriminate].
    apply (tracked_is_paid A hs) in Ei; [|apply Hi]. destruct (paid_fun A i k j k' j' u HA) as [-> ->]; [apply Hi|by exists d|done|].
    by apply bool_decide_eq_true in Hin.
Qed.

Definition once_b (l : list (KChangeSet N TxHeight)) : bool :=
  let ts := l ≫= λ cs, elements (ad_tx (cgs_graph (kcs_cg cs))) in
  forallb (λ t, forallb (λ t', bool_decide (txid t = txid t' → t = t')) ts) ts.
Lemma once_b_ok l : once_b l = true → txids_once l.
Proof.
  unfold once_b. rewrite forallb_forall. intros Ha a b t t' Hina Hinb Ht Ht'.
  assert (∀ c u, c ∈ l → u ∈ ad_tx (cgs_graph (kcs_cg c)) → In u (l ≫= λ cs, elements (ad_tx (cgs_graph (kcs_cg cs))))) as Hin.
  { intros c u Hc Hu. apply elem_of_list_In, elem_of_list_bind. exists c. split; [by apply elem_of_elements|done]. }
  specialize (Ha t (Hin a t Hina Ht)). rewrite forallb_forall in Ha. specialize (Ha t' (Hin b t' Hinb Ht')).
  by apply bool_decide_eq_true in Ha.
Qed.
Lemma merge_ex_obs : tr_obs tr_s3 tr_h7 (λ _ l1, (once_b l1, match tr_setup (P:=TxHeight) tr_s3 None with Ret y => forallb (fitb tr_s3 trWo (tr_index y)) l1 | Panic => false end, length l1,
    tr_then tr_s3 (λ y0, tr_apply_changeset y0 (fold_changes l1)) (λ y, (total_of y, last_revealed_index (tr_index y) 0)))) = Some (true, true, 4%nat, Some (Some 1100, Some 3)).
Proof. vm_compute. reflexivity. Qed.
Lemma merge_ex_hyps : ∃ y l, tr_setup tr_s3 None = Ret y ∧ (∀ o u, (o, u) ∈ hist_outs tr_s3 → u = trWo o) ∧
  Forall (cs_fit tr_s3 trWo) l ∧ Forall (in_window (P:=TxHeight) (tr_index y)) l ∧ txids_once l ∧ length l = 4%nat ∧
  ∃ y2, tr_apply_changeset y (fold_changes l) = Ret y2 ∧ last_revealed_index (tr_index y2) 0 = Some 3 ∧ total_of y2 = Some 1100.
Proof.
  destruct (tr_obs_Some _ _ _ _ merge_ex_obs) as (x0 & x & l1 & E0 & E1 & Ef).
  assert (once_b l1 = true) as F1 by congruence. assert (length l1 = 4%nat) as F3 by congruence.
  assert (match tr_setup (P:=TxHeight) tr_s3 None with Ret y => forallb (fitb tr_s3 trWo (tr_index y)) l1 | Panic => false end = true) as F2 by congruence.
  assert (tr_then tr_s3 (λ y0, tr_apply_changeset y0 (fold_changes l1)) (λ y, (total_of y, last_revealed_index (tr_index y) 0)) = Some (Some 1100, Some 3)) as F4 by congruence.
  clear Ef. rewrite E0 in F2. exists x0, l1. split; [exact E0|]. split; [by intros o u Hin%elem_of_nil|].
  assert (∀ cs, cs ∈ l1 → cs_fit tr_s3 trWo cs ∧ in_window (tr_index x0) cs) as Hall.
  { intros cs Hin. rewrite forallb_forall in F2. apply elem_of_list_In, F2 in Hin. unfold tr_setup in E0.
    destruct (ki_run tr_s3) as [[[i outs] acc]|] eqn:Er; [|discriminate]. injection E0 as <-. cbn [tr_index] in *.
    apply (fitb_ok exA tr_s3 trWo i outs acc cs exA_good tr_s3_ok Er Hin). }
  split; [apply Forall_forall; intros cs Hin; apply (Hall cs Hin)|]. split; [apply Forall_forall; intros cs Hin; apply (Hall cs Hin)|].
  split; [apply once_b_ok, F1|]. split; [exact F3|].
  destruct (tr_then_Some _ _ _ _ F4) as (y0 & y2 & Ey0 & Ey2 & O2). rewrite E0 in Ey0. injection Ey0 as <-.
  exists y2. split; [exact Ey2|]. split; congruence.
Qed.
