(** C108: the movements of transactions that the documentation of sparse_chain.rs
    (125-144) calls valid and invalid. *)
From Verif Require Import MoveExamples ChainExamples.

Section props.
Context `{ChainPositionLaws P}.

(** An update that connects is accepted exactly when each transaction it has at
    another position than the chain was unconfirmed, or had its block reorganised.
    The chain has all its confirmed transactions at or below its tip (C07). *)
Theorem C108_movement_rules (c u : SparseChain P) ord :
  chain_ok c → below_max c → confirmed_below_tip c → ord ≡ₚ map_to_list (sc_pos u) → connects c u →
  (∃ cs, determine_changeset c u ord = Ret (Ok cs)) ↔
  (∀ t p q, sc_pos c !! t = Some p → sc_pos u !! t = Some q → q ≠ p → may_move c u p).
Proof. exact (movement_rules c u ord). Qed.

(** A confirmed transaction cannot move, or be gone, without a reorganisation of the
    blocks from its own on: whether the update has it elsewhere or not at all. *)
Theorem C108_moves_only_in_reorg (c u : SparseChain P) ord c' cs t p h :
  chain_ok c → below_max c → confirmed_below_tip c → ord ≡ₚ map_to_list (sc_pos u) →
  apply_update c u ord = Ret (Ok (c', cs)) →
  sc_pos c !! t = Some p → pos_height p = Confirmed h → sc_pos c' !! t ≠ Some p →
  reorganised c u h.
Proof. exact (moves_only_in_reorg c u ord c' cs t p h). Qed.
End props.

(** "Even with a reorg, an originally confirmed transaction cannot be moved below the
    height of the reorg": it can, below a block both chains have, which thereby is
    said to contain a transaction it did not contain before.  The witness is a test
    of the project. *)
Theorem C108_below_refuted :
  ∃ (os : list (sc_op TxHeight)) c u ord c' cs t h h' a,
    Forall sc_op_ok os ∧ Forall cbt_op os ∧ sc_run sc_default os = Ret c ∧
    chain_ok u ∧ confirmed_below_tip u ∧ ord ≡ₚ map_to_list (sc_pos u) ∧
    agree_at c u a ∧ h' ≤ a ∧ a < h ∧ reorg_at c u h ∧
    sc_pos c !! t = Some (Confirmed h) ∧
    apply_update c u ord = Ret (Ok (c', cs)) ∧ sc_pos c' !! t = Some (Confirmed h').
Proof. exact move_below_refuted. Qed.

(** "A confirmed transaction cannot move without a reorg": it can, in a chain that was
    told to keep no checkpoints. *)
Theorem C108_limit_refuted :
  ∃ (os : list (sc_op TxHeight)) c u ord c' cs t h h',
    Forall sc_op_ok os ∧ sc_run sc_default os = Ret c ∧
    chain_ok u ∧ below_max u ∧ confirmed_below_tip u ∧ ord ≡ₚ map_to_list (sc_pos u) ∧
    (∀ x, ¬ reorg_at c u x) ∧ h ≠ h' ∧
    sc_pos c !! t = Some (Confirmed h) ∧
    apply_update c u ord = Ret (Ok (c', cs)) ∧ sc_pos c' !! t = Some (Confirmed h').
Proof. exact move_limit_refuted. Qed.

(** The reorganisation of block 10 in [exC] by [exU]: transaction 3 moves from 10 to
    11, transaction 4 is confirmed, transaction 2 at 7 could be moved, transaction 1
    at 3 could not. *)
Example C108_ex :
  chain_ok exC ∧ below_max exC ∧ confirmed_below_tip exC ∧ exOrd ≡ₚ map_to_list (sc_pos exU) ∧
  connects exC exU ∧ reorg_at exC exU 10 ∧ reorganised exC exU 10 ∧ may_move exC exU (Confirmed 7) ∧
  match apply_update exC exU exOrd with
  | Ret (Ok (c', _)) => (sc_pos c' !!.) <$> [1; 2; 3; 4]
  | _ => []
  end = [Some (Confirmed 3); Some (Confirmed 7); Some (Confirmed 11); Some (Confirmed 10)].
Proof.
  split; [exact exC_ok|]. split; [exact exC_max|]. split; [exact exC_cbt|].
  split; [vm_compute; reflexivity|]. split; [exact exU_connects|]. split; [exact exU_reorg|].
  split; [split; [exists 10; exact exU_reorg|by apply exU_above]|].
  split; [split; [exists 10; exact exU_reorg|by apply exU_above]|].
  vm_compute. reflexivity.
Qed.

Print Assumptions C108_movement_rules.
Print Assumptions C108_moves_only_in_reorg.
Print Assumptions C108_below_refuted.
Print Assumptions C108_limit_refuted.
