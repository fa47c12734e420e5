(** Specification vocabulary for what a command line wallet sends in its life (C102, C103). *)
From Verif Require Export CliSpec.

Section send.
Context `{ChainPosition P}.
(** The entry takes the transaction out of the chain. *)
Definition drops (cs : KChangeSet Keychain P) (i : Txid) : Prop := cs_txids (cgs_chain (kcs_cg cs)) !! i = Some None.
(** The two transactions spend a common output. *)
Definition double_spends (t t' : Ctx) : Prop := ∃ o, o ≠ null_outpoint ∧ o ∈ ci_prev <$> ct_in t ∧ o ∈ ci_prev <$> ct_in t'.
End send.
