(** C61: what a scan of one keychain finds although the chain is reorganised meanwhile. *)
From Verif Require Import ElectrumProofs7 ReorgExamples.

(** One keychain: if no transaction of its scripts moves, and the scripts are asked for one by one or the
    reorganisation does not change which of them are used, an update finished after the reorganisation has
    everything a scan of the new chain would find.  The index it reports for the keychain is at least the last used
    one, and that of a script which was used before the reorganisation or is used after it. *)
Theorem C61_one_keychain wA wB dbg srv n0 `{Countable K, !Ord K, !OrdLaws K} fuel local (k : K) (l : list (N * Script))
  (txids : list Txid) (outpoints : list OutPoint) (gap : N) (batch : nat) n e :
  world_ok wA → world_ok wB →
  (∀ n, (n < n0)%nat → electrum_honest wA (srv n)) → (∀ n, (n0 ≤ n)%nat → electrum_honest wB (srv n)) →
  (∀ h, is_Some (local !! h) → h ≤ w_tip wA) → w_tip wA ≤ w_tip wB → w_block wB (w_tip wA) ≠ w_block wA (w_tip wA) →
  (0 < batch)%nat → Forall (λ t, t ≤ max_txid) txids → Forall (λ o, is_Some (w_tx wB (op_txid o))) outpoints →
  StronglySorted N.lt l.*1 → Forall (λ i, i ≤ u32_max) l.*1 →
  (∀ s s' t, s ∈ l.*2 → s' ∈ l.*2 → t ∈ w_history wA s → t ∈ w_history wB s' → w_position wA t = w_position wB t) →
  (batch = 1%nat ∨ activity wA l = activity wB l) →
  scan dbg srv fuel local {[k := l]} txids outpoints gap batch 0%nat = Done n e → (n0 < n)%nat →
  (∀ p i s t, l !! p = Some (i, s) → within_gap gap (activity wB l) p → t ∈ w_history wB s →
     is_Some (sc_pos (eu_chain e) !! t)) ∧
  (∀ i, found_index wB gap l i → ∃ j, eu_active e !! k = Some j ∧ i ≤ j) ∧
  ∀ k' j, eu_active e !! k' = Some j → k' = k ∧ ∃ s, (j, s) ∈ l ∧ (w_history wA s ≠ [] ∨ w_history wB s ≠ []).
Proof. exact (scan_scripts wA wB dbg srv n0 fuel local k l txids outpoints gap batch n e). Qed.
Print Assumptions C61_one_keychain.
Example C61_one_keychain_ex :
  (world_ok ex_none ∧ world_ok ex_tip_gone ∧ w_block ex_tip_gone (w_tip ex_none) ≠ w_block ex_none (w_tip ex_none) ∧
   StronglySorted N.lt ex_row.*1 ∧ activity ex_none ex_row ≠ activity ex_tip_gone ex_row ∧ found_index ex_tip_gone 1 ex_row 2) ∧
  show (scan true (reorg 3 ex_none ex_tip_gone) 3 ∅ {[ 0 := ex_row ]} [] [] 1 1 0%nat) =
    Some (10%nat, [(6, 99)], [(8, Confirmed 5); (9, Unconfirmed)], [(0, 2)]) ∧
  show (scan true (reorg 3 ex_none ex_tip_gone) 3 ∅ {[ 0 := [(0, 22); (1, 100)] ]} [] [] 1 1 0%nat) =
    Some (8%nat, [(6, 99)], [(9, Unconfirmed)], [(0, 0)]).
Proof. exact (conj ex_row_hyps ex_row_found). Qed.
(** Asked for in batches: scripts of a batch that follow the one at which the scan stopped are forgotten; if the
    reorganisation makes an earlier script a used one they are within the gap, but not asked for again. *)
Theorem C61_batch_refuted : ∃ wA wB srv (l : list (N * Script)) n (e : ElectrumUpdate N TxHeight),
  world_ok wA ∧ world_ok wB ∧ (∀ n, (n < 2)%nat → electrum_honest wA (srv n)) ∧
  (∀ n, (2 ≤ n)%nat → electrum_honest wB (srv n)) ∧
  (∀ s t, t ∉ w_history wA s) ∧
  scan true srv 3 ∅ {[0 := l]} [] [] 1 4 0%nat = Done n e ∧ (2 < n)%nat ∧
  l !! 2%nat = Some (2, 30) ∧ within_gap 1 (activity wB l) 2 ∧ 8 ∈ w_history wB 30 ∧
  sc_pos (eu_chain e) !! 8 = None ∧ eu_active e !! 0 = Some 1.
Proof.
  exists ex_none, ex_tip_gone, (reorg 2 ex_none ex_tip_gone), ex_row. eexists _, _.
  destruct ex_row_hyps as (HA & HB & _ & _ & _ & p & s & Hp & Hg). split; [exact HA|]. split; [exact HB|].
  split; [exact (proj1 (ex_none_reorg 2))|]. split; [exact (proj2 (ex_none_reorg 2))|].
  split; [by intros ?? ?%elem_of_nil|]. split; [vm_compute; reflexivity|]. split; [lia|]. split; [done|].
  split; [|split; [left|split; by vm_compute]].
  destruct p as [|[|[|[|p]]]]; try discriminate Hp. exact Hg.
Qed.
Print Assumptions C61_batch_refuted.
