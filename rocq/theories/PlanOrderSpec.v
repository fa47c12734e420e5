(** Which keys a descriptor names (C97). *)
From Verif Require Export PlanSpec.

(** A key in a leaf of the fragments that are planned; planning stops at the others. *)
Fixpoint names (k : DescKey) (t : term) : Prop :=
  match t with
  | TPkK k' | TPkH k' => k = k'
  | TAlt t | TSwap t | TCheck t | TDupIf t | TVerify t | TNonZero t | TZeroNotEqual t => names k t
  | TAndV l r | TAndB l r | TOrI l r => names k l ∨ names k r
  | _ => False
  end.
(** A key of an output: the internal one or one in a leaf. *)
Definition named_by (tr : Tr) (k : DescKey) : Prop := k = tr_internal tr ∨ ∃ t, t ∈ iter_scripts tr ∧ names k t.
