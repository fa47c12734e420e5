(** Properties C31-C33: script index.
    Statements only; every proof is a lemma of the *Proofs files. *)
From Verif Require Import SpkExamples.

Section props.
Context `{Countable Ix, !Ord Ix, !OrdLaws Ix}.
Implicit Types (h : list (si_op Ix)) (x : SpkIndex Ix) (i : Ix).

(** C31: no history of calls panics... *)
Theorem C31_no_panic h : scans_ok h → ∃ x, si_run h = Ret x.
Proof. exact (si_run_ok h). Qed.
(** ...a script is tracked under the index it was first inserted with... *)
Theorem C31_tracked h x s : scans_ok h → si_run h = Ret x → si_index_of_spk x s = tracked h s.
Proof. exact (tracked_exact h x s). Qed.
Theorem C31_spk_at h x i s :
  scans_ok h → indices_once h → si_run h = Ret x → si_spk_at x i = Some s ↔ tracked h s = Some i.
Proof. exact (spk_at_exact h x i s). Qed.
(** ...an output is found by outpoint exactly when it was scanned while its script was tracked... *)
Theorem C31_by_outpoint W h x i o u :
  scans_ok h → consistent W h → si_run h = Ret x → si_txout x o = Some (i, u) ↔ hit h i o u.
Proof. exact (txouts_exact W h x i o u). Qed.
(** ...the listings give exactly these, in order of outpoint... *)
Theorem C31_listing x :
  StronglySorted ord_lt ((λ r : Ix * OutPoint * TxOut, r.1.2) <$> si_txouts_list x) ∧
  ∀ i o u, (i, o, u) ∈ si_txouts_list x ↔ si_txout x o = Some (i, u).
Proof. exact (txouts_list_exact x). Qed.
Theorem C31_in_tx h x t i o u :
  scans_ok h → si_run h = Ret x →
  (i, o, u) ∈ si_txouts_in_tx x t ↔ op_txid o = t ∧ si_txout x o = Some (i, u).
Proof. exact (run_in_tx_exact h x t i o u). Qed.
(** ...and so does a query by any range of indices (which panics only on an invalid range)... *)
Theorem C31_by_index h x (lo hi : bound Ix) :
  scans_ok h → si_run h = Ret x →
  match si_outputs_in_range x lo hi with
  | Panic => range_bad lo hi = true
  | Ret l => range_bad lo hi = false ∧ StronglySorted ord_lt l ∧
      ∀ i o, (i, o) ∈ l ↔ (∃ u, hit h i o u) ∧ above_lo lo i ∧ below_hi hi i
  end.
Proof. exact (by_index_exact h x lo hi). Qed.
(** ...a scan returns the indices it found outputs for, and the order of a batch does not matter. *)
Theorem C31_scan_result h x l i :
  scans_ok h → si_run h = Ret x →
  i ∈ (si_scan x l).2 ↔ ∃ o u, (o, u) ∈ l ∧ tracked h (txo_spk u) = Some i.
Proof. exact (scan_found h x l i). Qed.
Theorem C31_batch_order x l l' :
  l ≡ₚ l' → (∀ o u u', (o, u) ∈ l → (o, u') ∈ l → u = u') → si_scan x l = si_scan x l'.
Proof. exact (scan_perm l l' x). Qed.

(** C32: an index is unused exactly when it is tracked, nothing was scanned for it, and it is not marked. *)
Theorem C32_unused h x i :
  scans_ok h → indices_once h → si_run h = Ret x →
  si_is_used x i = false ↔ (∃ s, tracked h s = Some i) ∧ (¬ ∃ o u, hit h i o u) ∧ marked h i = false.
Proof. exact (is_used_exact h x i). Qed.
(** Listing unused scripts panics only on an invalid range, and is exact. *)
Theorem C32_listing h x (lo hi : bound Ix) :
  scans_ok h → indices_once h → si_run h = Ret x →
  match si_unused_spks x lo hi with
  | Panic => range_bad lo hi = true
  | Ret l => range_bad lo hi = false ∧ StronglySorted ord_lt l.*1 ∧
      ∀ i s, (i, s) ∈ l ↔ tracked h s = Some i ∧ si_is_used x i = false ∧ above_lo lo i ∧ below_hi hi i
  end.
Proof. exact (unused_spks_exact h x lo hi). Qed.
(** What marking and unmarking report. *)
Theorem C32_mark x i : (si_mark_used x i).2 = negb (si_is_used x i).
Proof. exact (mark_result x i). Qed.
Theorem C32_unmark h x i :
  scans_ok h → indices_once h → si_run h = Ret x →
  ∃ x' b, si_unmark_used x i = Ret (x', b) ∧
    (b = true ↔ (∃ s, tracked h s = Some i) ∧ (¬ ∃ o u, hit h i o u) ∧ marked h i = true).
Proof. exact (unmark_result h x i). Qed.

(** C33: totals, or a panic when one exceeds a u64. *)
Theorem C33_sent_received x t :
  let sent := sumN (omap (λ o, (λ iu, txo_value iu.2) <$> si_txout x o) (tx_in t)) in
  let received := sumN (txo_value <$> filter (λ u, is_Some (si_index_of_spk x (txo_spk u))) (tx_out t)) in
  si_sent_and_received x t =
    if bool_decide (sent ≤ u64_max ∧ received ≤ u64_max) then Ret (sent, received) else Panic.
Proof. exact (sent_received_exact x t). Qed.
Theorem C33_net_value x t s r :
  si_sent_and_received x t = Ret (s, r) → s < 9223372036854775808 → r < 9223372036854775808 →
  si_net_value x t = Ret (Z.of_N r - Z.of_N s)%Z.
Proof. exact (net_value_exact x t s r). Qed.
Theorem C33_relevant x t :
  si_is_relevant x t = true ↔
  (∃ o, o ∈ tx_in t ∧ is_Some (si_txout x o)) ∨ (∃ u, u ∈ tx_out t ∧ is_Some (si_index_of_spk x (txo_spk u))).
Proof. exact (relevant_exact x t). Qed.
End props.

Print Assumptions C31_no_panic.
Print Assumptions C31_tracked.
Print Assumptions C31_spk_at.
Print Assumptions C31_by_outpoint.
Print Assumptions C31_listing.
Print Assumptions C31_in_tx.
Print Assumptions C31_by_index.
Print Assumptions C31_scan_result.
Print Assumptions C31_batch_order.
Print Assumptions C32_unused.
Print Assumptions C32_listing.
Print Assumptions C32_mark.
Print Assumptions C32_unmark.
Print Assumptions C33_sent_received.
Print Assumptions C33_net_value.
Print Assumptions C33_relevant.

(** Without a fixed output per outpoint the two views can disagree: the index by script
    keeps an output the index by outpoint has replaced. *)
Theorem C31_views_refuted : ∃ (h : list (si_op N)), scans_ok h ∧ indices_once h ∧
  match si_run h with
  | Ret x => (0, mkOutPoint 50 0) ∈ si_spk_txouts x ∧ si_txout x (mkOutPoint 50 0) = Some (1, mkTxOut 100 8)
  | Panic => False
  end.
Proof. exact spk_bad_views. Qed.
Print Assumptions C31_views_refuted.

(** The hypotheses hold of a history with outputs scanned before and after their script
    was inserted, marks and a repeated script; its observations. *)
Example C31_ex : scans_ok spk_h ∧ consistent spkW spk_h ∧ indices_once spk_h.
Proof. exact (conj spk_h_scans_ok (conj spk_h_consistent spk_h_once)). Qed.
Example C31_ex_list : spk_obs si_txouts_list =
  Some [(0, mkOutPoint 50 0, mkTxOut 100 7); (2, mkOutPoint 51 0, mkTxOut 40 9); (0, mkOutPoint 51 3, mkTxOut 25 7)].
Proof. vm_compute. reflexivity. Qed.
Example C31_ex_tx : spk_obs (λ x, si_txouts_in_tx x 51) =
  Some [(2, mkOutPoint 51 0, mkTxOut 40 9); (0, mkOutPoint 51 3, mkTxOut 25 7)].
Proof. vm_compute. reflexivity. Qed.
Example C31_ex_range : spk_obs (λ x, si_outputs_in_range x (Excl 0) (Incl 2)) = Some (Ret [(2, mkOutPoint 51 0)]).
Proof. vm_compute. reflexivity. Qed.
Example C31_ex_batch : spk_scan2 ≡ₚ reverse spk_scan2 ∧ (∀ o u u', (o, u) ∈ spk_scan2 → (o, u') ∈ spk_scan2 → u = u').
Proof. exact spk_scan2_batch. Qed.
Example C32_ex : spk_obs (λ x, si_unused_spks x Unb Unb) = Some (Ret [(3, 10)]) ∧ spk_obs (λ x, si_is_used x <$> [0; 1; 2; 3; 4]) =
  Some [true; true; true; false; true].
Proof. vm_compute. split; reflexivity. Qed.
Example C33_ex : spk_obs (λ x, si_sent_and_received x spk_tx) = Some (Ret (100, 65)) ∧
  spk_obs (λ x, si_net_value x spk_tx) = Some (Ret (-35)%Z) ∧ spk_obs (λ x, si_is_relevant x spk_tx) = Some true.
Proof. vm_compute. split_and!; reflexivity. Qed.
