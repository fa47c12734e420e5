(** What "shouldn't get cancelled via another party double spending it" means of the
    trusted balance (keychain.rs:231-235, tracker.rs:230-234; C111). *)
From Verif Require Export TrackerSpec MoveSpec.

Section spec.
Context `{!DescEnv} `{Countable K, !Ord K} `{ChainPosition P}.
Implicit Types (x y : Tracker K P).

(** The outpoint is one of the wallet's: only the wallet can sign for it. *)
Definition mine x (o : OutPoint) : Prop := ∃ ki g, owned x ki g ∧ fto_outpoint g = o.

(** Nobody else can cancel the transaction: it is confirmed, or the wallet made it from its own
    outputs, which nobody else can cancel either. *)
Inductive secure x : Txid → Prop :=
| secure_confirmed i p n :
    sc_pos (cg_chain (tr_cg x)) !! i = Some p → pos_height p = Confirmed n → secure x i
| secure_own i t :
    in_chain (tr_cg x) i → get_tx (cg_graph (tr_cg x)) i = Some t →
    (∀ o, o ∈ tx_in t → o ≠ null_outpoint) → (∀ o, o ∈ tx_in t → mine x o) →
    (∀ o, o ∈ tx_in t → secure x (op_txid o)) → secure x i.

(** From [x] to [y] only others have been active: what is new in the chain spends nothing of the
    wallet's. *)
Definition others_only x y : Prop :=
  ∀ n t o, ¬ in_chain (tr_cg x) n → in_chain (tr_cg y) n → get_tx (cg_graph (tr_cg y)) n = Some t →
    o ∈ tx_in t → ¬ mine x o.

(** The update [u] reorganises nothing. *)
Definition no_reorg x (u : ChainGraph P) : Prop := ∀ h, ¬ reorg_at (cg_chain (tr_cg x)) (cg_chain u) h.

(** The output counts as trusted and spendable. *)
Definition trusted (trust : K → bool) (tip : N) (kf : K * N * FullTxOut P) : Prop :=
  categorize trust tip kf = ConfirmedFunds ∨ categorize trust tip kf = TrustedPending.
Global Instance trusted_dec trust tip kf : Decision (trusted trust tip kf).
Proof. unfold trusted. apply _. Defined.
End spec.
