(** Specification: which coins a transaction spends (C112). *)
From Verif Require Export CliPaySpec.
Local Open Scope N_scope.

Section pick.
Context `{ChainPosition P}.
(** What the names of the algorithms say: coin [a] is to be spent before coin [b], or either may be. *)
Definition spent_before (algo : CoinSelectionAlgo) (a b : Keychain * N * FullTxOut P) : Prop :=
  match algo with
  | LargestFirst => value_of b ≤ value_of a
  | SmallestFirst => value_of a ≤ value_of b
  | OldestFirst => ord_le (fto_pos a.2) (fto_pos b.2)
  | NewestFirst => ord_le (fto_pos b.2) (fto_pos a.2)
  | BranchAndBound => True
  end.
End pick.
