(** What the documentation of sparse_chain.rs (125-144, "Movement of transactions
    during update") says, in terms of the blocks two chains have. *)
From Verif Require Export SparseChainSpec.

Section spec.
Context `{ChainPosition P}.
Implicit Types (c u : SparseChain P).

(** "A reorg": the update has another block than the chain at some height above all
    the blocks they share. *)
Definition reorg_at c u (x : N) : Prop :=
  above_agreement c u x ∧
  ∃ b b', sc_cps c !! x = Some b ∧ sc_cps u !! x = Some b' ∧ b ≠ b'.
(** A transaction confirmed at [h] may be part of it: no block they share is at or
    above [h]. *)
Definition reorganised c u (h : N) : Prop := (∃ x, reorg_at c u x) ∧ above_agreement c u h.

(** The movements called valid, but for where the transaction moves to: to any other
    position if it was unconfirmed, or if its block was reorganised. *)
Definition may_move c u (p : P) : Prop :=
  match pos_height p with
  | Unconfirmed => True
  | Confirmed h => reorganised c u h
  end.

(** The update has a block at the lowest height the chain has to give up. *)
Definition connects c u : Prop := ∀ f, first_invalid c u f → is_Some (sc_cps u !! f).
End spec.
