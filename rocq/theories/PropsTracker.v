(** Properties C41-C44: tracker balances, replay and staging.
    Statements only; every proof is a lemma of the *Proofs files. *)
From Verif Require Import TrackerExamples.

Section props.
Context `{!DescEnv} `{Countable K, !Ord K, !OrdLaws K} `{ChainPositionLaws P}.
Implicit Types (x y : Tracker K P) (k : K) (s : list (ki_op K)) (h : list (tr_op K P)) (A : K → option Desc)
  (W : Txid → list OutPoint).

(** The listing of wallet outputs is exact: one entry per indexed outpoint in the chain, telling the
    truth about value, position and spender. *)
Theorem C41_listing A W s l h x0 x l1 ho :
  good_env A → ki_hist_ok A s → tr_setup s l = Ret x0 → Forall (tr_op_ok A W s) h → tr_run x0 h = Ret (x, l1) →
  hash_order (cg_graph (tr_cg x)) ho →
  (∀ ki f, (ki, f) ∈ full_txouts ho x ↔ owned x ki f) ∧ NoDup ((λ kf, fto_outpoint kf.2) <$> full_txouts ho x) ∧
  (∀ ki f, (ki, f) ∈ full_utxos ho x ↔ owned x ki f ∧ fto_spent_by f = None).
Proof. exact (listing_reachable A W s l h x0 x l1 ho). Qed.
(** C41: each category of the balance is the sum over the unspent outputs in it, their total is the
    total, and computing them does not panic. *)
Theorem C41_balance A W s l h x0 x l1 ho trust tip lst :
  good_env A → ki_hist_ok A s → tr_setup s l = Ret x0 → Forall (tr_op_ok A W s) h → Forall tr_cbt_op h → l ≠ Some 0%nat →
  tr_run x0 h = Ret (x, l1) → hash_order (cg_graph (tr_cg x)) ho → tip_is x tip → tip < u32_max → NoDup lst →
  (∀ ki f, (ki, f) ∈ lst ↔ owned x ki f ∧ fto_spent_by f = None) → sumN (value_of <$> lst) ≤ u64_max →
  ∃ b, balance ho x trust = Ret b ∧
    (∀ c, amount b c = sumN (value_of <$> filter (λ kf, categorize trust tip kf = c) lst)) ∧
    bal_total b = Ret (sumN (value_of <$> lst)) ∧
    trusted_spendable b = Ret (sumN (value_of <$> filter (λ kf, categorize trust tip kf = ConfirmedFunds ∨ categorize trust tip kf = TrustedPending) lst)).
Proof. exact (balance_reachable A W s l h x0 x l1 ho trust tip lst). Qed.
(** C42: the balance at a height is the sum of the outputs spendable by then. *)
Theorem C42_balance_at A W s l h x0 x l1 ho n lst :
  good_env A → ki_hist_ok A s → tr_setup s l = Ret x0 → Forall (tr_op_ok A W s) h →
  tr_run x0 h = Ret (x, l1) → hash_order (cg_graph (tr_cg x)) ho →
  (∀ ki f, owned x ki f → fto_on_coinbase f = true → ∃ c, pos_height (fto_pos f) = Confirmed c) →
  n < u32_max → NoDup lst → (∀ ki f, (ki, f) ∈ lst ↔ owned x ki f ∧ spendable_by n (ki, f) = true) →
  sumN (value_of <$> lst) ≤ u64_max → balance_at ho x n = Ret (sumN (value_of <$> lst)).
Proof. exact (balance_at_reachable A W s l h x0 x l1 ho n lst). Qed.
(** C43: replaying the reported changesets onto a tracker with the same set-up restores the tracker:
    scripts and revealed indices, transactions and positions; outputs, if none were offered to the
    index directly; checkpoints, if both trackers prune alike.  In passing: no call panics. *)
Theorem C43_replay A W s l l' h x0 y0 :
  good_env A → ki_hist_ok A s → tr_setup s l = Ret x0 → tr_setup s l' = Ret y0 → Forall (tr_op_ok A W s) h →
  ∃ x l1 y, tr_run x0 h = Ret (x, l1) ∧ tr_replay y0 l1 = Ret y ∧
    same_index (tr_index x) (tr_index y) ∧ same_txs (tr_cg x) (tr_cg y) ∧
    (Forall (λ op, ¬ offers_outputs op) h → same_outputs (tr_index x) (tr_index y)) ∧
    (l = l' → Forall (λ op, ¬ sets_limit op) h → tr_cg x = tr_cg y).
Proof. exact (replay_ok A W s l l' h x0 y0). Qed.
(** The balances of a restored wallet are those of the wallet that was persisted. *)
Theorem C43_view A W s l h x0 ho :
  good_env A → ki_hist_ok A s → tr_setup s l = Ret x0 → Forall (tr_op_ok A W s) h →
  Forall (λ op, ¬ offers_outputs op ∧ ¬ sets_limit op) h →
  ∃ x l1 y, tr_run x0 h = Ret (x, l1) ∧ tr_replay x0 l1 = Ret y ∧ tr_cg x = tr_cg y ∧
    full_txouts ho x = full_txouts ho y ∧ full_utxos ho x = full_utxos ho y ∧
    (∀ trust, balance ho x trust = balance ho y trust) ∧ ∀ n, balance_at ho x n = balance_at ho y n.
Proof. exact (replay_view A W s l h x0 ho). Qed.
(** The state in between is sound: C43's histories keep the chain graph consistent, and confirmed
    transactions at or below the tip. *)
Theorem C43_consistent A W s l h x0 x l1 :
  good_env A → ki_hist_ok A s → tr_setup s l = Ret x0 → Forall (tr_op_ok A W s) h → tr_run x0 h = Ret (x, l1) →
  cg_ok (tr_cg x) ∧ (Forall tr_cbt_op h → l ≠ Some 0%nat → confirmed_below_tip (cg_chain (tr_cg x))).
Proof. exact (run_consistent A W s l h x0 x l1). Qed.
(** C43: of the active indices a scan reports, the changeset of the update holds those not yet revealed. *)
Theorem C43_new_indices ho x (sc : KScan K P) ord cs k i :
  tr_determine_changeset ho x sc ord = Ret (Ok cs) →
  kcs_indices cs !! k = Some i ↔ ks_active sc !! k = Some i ∧ n_revealed (tr_index x) k ≤ i.
Proof. exact (new_indices_ok ho x sc ord cs k i). Qed.
(** C44: one merged changeset does what its parts do in turn, as long as the outputs paying the wallet
    are within the lookahead of the tracker it is applied to. *)
Theorem C44_merged_partial A (Wo : OutPoint → TxOut) s y (cs : list (KChangeSet K P)) :
  good_env A → ki_hist_ok A s → tr_setup s None = Ret y → (∀ o u, (o, u) ∈ hist_outs s → u = Wo o) →
  Forall (cs_fit s Wo) cs → Forall (in_window (tr_index y)) cs → txids_once cs →
  ∃ y1 y2, tr_replay y cs = Ret y1 ∧ tr_apply_changeset y (fold_changes cs) = Ret y2 ∧
    same_index (tr_index y1) (tr_index y2) ∧ same_outputs (tr_index y1) (tr_index y2) ∧ tr_cg y1 = tr_cg y2.
Proof. exact (merged_ok A Wo s y cs). Qed.
Theorem C44_append_assoc (a b c : KChangeSet K P) : kcs_append a (kcs_append b c) = kcs_append (kcs_append a b) c.
Proof. exact (kcs_append_assoc a b c). Qed.
Theorem C44_append_default (a : KChangeSet K P) : kcs_append kcs_default a = a ∧ kcs_append a kcs_default = a.
Proof. exact (conj (kcs_append_default_l a) (kcs_append_default_r a)). Qed.
End props.

Section staging.
Context `{Countable K} `{ChainPosition P} `{!Backend K P B E}.
(** C44: each commit hands the backend what was staged since the last successful commit, once and in
    order; what the backend accepted together with what is staged is everything ever staged. *)
Theorem C44_staging (b : B) (h : list (pe_op K P)) :
  ∃ attempts segs rest,
    pe_backend (pe_run b h) = (feed b attempts).1 ∧ length attempts = commits_in h ∧
    (feed b attempts).2 = fold_changes <$> segs ∧
    staged_in h = concat segs ++ rest ∧ pe_stage (pe_run b h) = fold_changes rest.
Proof. exact (staging_ok b h). Qed.
Theorem C44_total (b : B) (h : list (pe_op K P)) :
  ∃ attempts, pe_backend (pe_run b h) = (feed b attempts).1 ∧
    fold_changes (staged_in h) = kcs_append (fold_changes (feed b attempts).2) (pe_stage (pe_run b h)).
Proof. exact (staging_total b h). Qed.
(** A failed commit keeps the stage, a successful one empties it. *)
Theorem C44_commit (p : Persist K P B) :
  let r := backend_append (pe_backend p) (pe_stage p) in
  pe_commit p = (mkPersist r.1 (match r.2 with Ok _ => kcs_default | Err _ => pe_stage p end),
                 match r.2 with Ok _ => Ok tt | Err e => Err e end).
Proof. exact (commit_ok p). Qed.
End staging.

(** With all checkpoints pruned away, a confirmed coinbase makes [balance] panic. *)
Theorem C41_no_checkpoint_refuted : ∃ (E : DescEnv) (A : N → option Desc) W s (h : list (tr_op N TxHeight)) x0 x l1 ho trust,
  good_env A ∧ ki_hist_ok A s ∧ tr_setup s None = Ret x0 ∧ Forall (tr_op_ok A W s) h ∧ tr_run x0 h = Ret (x, l1) ∧
  hash_order (cg_graph (tr_cg x)) ho ∧ balance ho x trust = Panic.
Proof. exact limit_witness. Qed.
(** An unconfirmed coinbase makes [balance_at] panic (in a build with debug assertions). *)
Theorem C42_coinbase_refuted : ∃ (E : DescEnv) (A : N → option Desc) W s (h : list (tr_op N TxHeight)) x0 x l1 ho,
  good_env A ∧ ki_hist_ok A s ∧ tr_setup s None = Ret x0 ∧ Forall (tr_op_ok A W s) h ∧ tr_run x0 h = Ret (x, l1) ∧
  hash_order (cg_graph (tr_cg x)) ho ∧ balance_at ho x 200 = Panic.
Proof. exact coinbase_witness. Qed.
(** Restoring with a smaller lookahead loses revealed indices and funds: the indices a scan reveals
    are not in the changeset that made it scan. *)
Theorem C43_lookahead_refuted : ∃ (E : DescEnv) (A : N → option Desc) W s s' (h : list (tr_op N TxHeight)) x0 x l1 y0 y,
  good_env A ∧ ki_hist_ok A s ∧ ki_hist_ok A s' ∧ (∀ k, known s k ↔ known s' k) ∧
  tr_setup s None = Ret x0 ∧ tr_setup s' None = Ret y0 ∧ Forall (tr_op_ok A W s) h ∧
  tr_run x0 h = Ret (x, l1) ∧ tr_replay y0 l1 = Ret y ∧
  last_revealed_index (tr_index x) 0 = Some 4 ∧ last_revealed_index (tr_index y) 0 = None ∧
  ∃ b b', balance (ex_ho x) x (λ k, k =? 1) = Ret b ∧ bal_total b = Ret 1100 ∧
    balance (ex_ho y) y (λ k, k =? 1) = Ret b' ∧ bal_total b' = Ret 0.
Proof. exact lookahead_witness. Qed.
(** An update naming an unknown keychain panics. *)
Theorem C43_unknown_keychain_refuted : ∃ (E : DescEnv) (A : N → option Desc) s (x0 : Tracker N TxHeight) ho sc,
  good_env A ∧ ki_hist_ok A s ∧ tr_setup s None = Ret x0 ∧ hash_order (cg_graph (tr_cg x0)) ho ∧ ks_update sc = cg_default ∧
  tr_apply_update ho x0 sc [] = Panic.
Proof. exact unknown_keychain_witness. Qed.
(** The changesets of a run, merged as staging merges them, need not restore the wallet they came
    from: funds are missing. *)
Theorem C44_merged_refuted : ∃ (E : DescEnv) (A : N → option Desc) W s (h : list (tr_op N TxHeight)) x0 x l1 y1 y2,
  good_env A ∧ ki_hist_ok A s ∧ tr_setup s None = Ret x0 ∧ Forall (tr_op_ok A W s) h ∧
  tr_run x0 h = Ret (x, l1) ∧ tr_replay x0 l1 = Ret y1 ∧ tr_apply_changeset x0 (fold_changes l1) = Ret y2 ∧
  ∃ b1 b2, balance (ex_ho y1) y1 (λ k, k =? 1) = Ret b1 ∧ bal_total b1 = Ret 1000 ∧
    balance (ex_ho y2) y2 (λ k, k =? 1) = Ret b2 ∧ bal_total b2 = Ret 0.
Proof. exact merge_witness. Qed.

Print Assumptions C41_listing.
Print Assumptions C41_balance.
Print Assumptions C42_balance_at.
Print Assumptions C43_replay.
Print Assumptions C43_view.
Print Assumptions C43_consistent.
Print Assumptions C43_new_indices.
Print Assumptions C44_merged_partial.
Print Assumptions C44_append_assoc.
Print Assumptions C44_append_default.
Print Assumptions C44_staging.
Print Assumptions C44_total.
Print Assumptions C44_commit.
Print Assumptions C41_no_checkpoint_refuted.
Print Assumptions C42_coinbase_refuted.
Print Assumptions C43_lookahead_refuted.
Print Assumptions C43_unknown_keychain_refuted.
Print Assumptions C44_merged_refuted.

(** ** Concrete cases *)
Local Existing Instance ex_env.
(** Two keychains, a merged update, a spend with change, a coinbase and a payment beyond what is revealed. *)
Example C43_ex : good_env exA ∧ ki_hist_ok exA tr_s ∧ Forall (tr_op_ok exA trW tr_s) tr_h ∧ Forall tr_cbt_op tr_h ∧
  Forall (λ op, ¬ offers_outputs op ∧ ¬ sets_limit op) tr_h.
Proof. exact (conj exA_good (conj tr_s_ok (conj tr_h_ok (conj tr_h_cbt tr_h_quiet)))). Qed.
Example C43_ex_obs : tr_obs tr_s tr_h (λ x l1, (bmap_list (ki_revealed (tr_index x)), length l1,
    (λ kf, (kf.1, value_of kf)) <$> full_txouts (ex_ho x) x,
    tr_then tr_s (λ y, tr_replay y l1) (λ y, (bmap_list (ki_revealed (tr_index y)), (λ kf, (kf.1, value_of kf)) <$> full_txouts (ex_ho y) y)))) =
  Some ([(0, 4); (1, 0)], 9%nat, [(0, 0, 1000); (0, 1, 300); (1, 0, 390); (0, 2, 5000); (0, 4, 70)],
    Some ([(0, 4); (1, 0)], [(0, 0, 1000); (0, 1, 300); (1, 0, 390); (0, 2, 5000); (0, 4, 70)])).
Proof. vm_compute. reflexivity. Qed.
(** One keychain has revealed less than the scan saw, the other exactly as much. *)
Example C43_ex_new : tr_obs tr_s [TrIndex (KiNext 0); TrIndex (KiNext 1)] (λ x _, 
    match tr_determine_changeset (ex_ho x) x (mkKScan tr_upd {[ 0 := 2; 1 := 0 ]}) tr_upd_ord with
    | Ret (Ok cs) => Some (bmap_list (kcs_indices cs)) | _ => None end) = Some (Some [(0, 2)]).
Proof. vm_compute. reflexivity. Qed.
Example C41_ex : ∃ x0 x l1 lst, tr_setup tr_s None = Ret x0 ∧ tr_run x0 tr_h = Ret (x, l1) ∧
  hash_order (cg_graph (tr_cg x)) (ex_ho x) ∧ tip_is x 150 ∧ 150 < u32_max ∧ NoDup lst ∧
  (∀ ki f, (ki, f) ∈ lst ↔ owned x ki f ∧ fto_spent_by f = None) ∧ sumN (value_of <$> lst) = 5760 ∧ 5760 ≤ u64_max.
Proof. exact ex_balance_hyps. Qed.
Example C41_ex_obs : tr_obs tr_s tr_h (λ x _, balance (ex_ho x) x (λ k, k =? 1)) = Some (Ret (mkBalance 5000 390 70 300)).
Proof. vm_compute. reflexivity. Qed.
Example C42_ex : ∃ x0 x l1 lst, tr_setup tr_s None = Ret x0 ∧ tr_run x0 tr_h = Ret (x, l1) ∧
  hash_order (cg_graph (tr_cg x)) (ex_ho x) ∧
  (∀ ki f, owned x ki f → fto_on_coinbase f = true → ∃ c, pos_height (fto_pos f) = Confirmed c) ∧
  204 < u32_max ∧ NoDup lst ∧ (∀ ki f, (ki, f) ∈ lst ↔ owned x ki f ∧ spendable_by 204 (ki, f) = true) ∧
  sumN (value_of <$> lst) = 6300 ∧ 6300 ≤ u64_max.
Proof. exact ex_balance_at_hyps. Qed.
Example C42_ex_obs : tr_obs tr_s tr_h (λ x _, (balance_at (ex_ho x) x 104, balance_at (ex_ho x) x 203, balance_at (ex_ho x) x 204)) =
  Some (Ret 0, Ret 1300, Ret 6300).
Proof. vm_compute. reflexivity. Qed.
Example C44_ex_merged : ∃ y l, tr_setup tr_s3 None = Ret y ∧ (∀ o u, (o, u) ∈ hist_outs tr_s3 → u = trWo o) ∧
  Forall (cs_fit tr_s3 trWo) l ∧ Forall (in_window (P:=TxHeight) (tr_index y)) l ∧ txids_once l ∧ length l = 4%nat ∧
  ∃ y2, tr_apply_changeset y (fold_changes l) = Ret y2 ∧ last_revealed_index (tr_index y2) 0 = Some 3 ∧ total_of y2 = Some 1100.
Proof. exact merge_ex_hyps. Qed.
(** Merging full transactions alone can lose funds too. *)
Example C44_ex_merged_txs : tr_obs tr_s3 tr_h3 (λ x l1, (total_of x,
    tr_then tr_s3 (λ y0, tr_replay y0 l1) total_of, tr_then tr_s3 (λ y0, tr_apply_changeset y0 (fold_changes l1)) total_of)) =
  Some (Some 1100, Some (Some 1100), Some (Some 100)).
Proof. exact merge_obs. Qed.
(** A backend that refuses its second changeset. *)
Example C44_ex_staging :
  let cs n : KChangeSet N TxHeight := kcs_of_indices {[ n := n ]} in
  let bk : Backend N TxHeight (nat * list (list (N * N))) unit := λ b c,
    if decide (b.1 = 1%nat) then ((2%nat, b.2), Err tt) else ((S b.1, b.2 ++ [bmap_list (kcs_indices c)]), Ok tt) in
  let p := pe_run (Backend0 := bk) (0%nat, [])
    [PeStage (cs 1); PeStage (cs 2); PeCommit; PeStage (cs 3); PeCommit; PeStage (cs 4); PeCommit; PeStage (cs 5)] in
  (pe_backend p).2 = [[(1, 1); (2, 2)]; [(3, 3); (4, 4)]] ∧ bmap_list (kcs_indices (pe_stage p)) = [(5, 5)].
Proof. vm_compute. split; reflexivity. Qed.
