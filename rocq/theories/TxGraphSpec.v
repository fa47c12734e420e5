(** Specification vocabulary for the transaction graph (C18-C24). *)
From Verif Require Export TxGraphModel.

(** Calls a client can make on a [TxGraph]. *)
Inductive g_op :=
| GTx (t : Tx)
| GTxout (o : OutPoint) (x : TxOut)
| GUpdate (u : TxGraph).
Definition g_step (g : TxGraph) (op : g_op) : TxGraph * Additions :=
  match op with
  | GTx t => tg_insert_tx g t
  | GTxout o x => tg_insert_txout g o x
  | GUpdate u => tg_apply_update g u
  end.
Definition g_run (os : list g_op) : TxGraph := foldl (λ g o, (g_step g o).1) tg_default os.
(** The additions returned along the way. *)
Fixpoint g_log (g : TxGraph) (os : list g_op) : list Additions :=
  match os with
  | [] => []
  | o :: os => (g_step g o).2 :: g_log (g_step g o).1 os
  end.

(** Full nodes are stored under their own txid. *)
Definition keyed (g : TxGraph) : Prop := ∀ i t, tg_txs g !! i = Some (Whole t) → txid t = i.
(** An update passed by a client is such a graph. *)
Definition g_op_ok (op : g_op) : Prop := match op with GUpdate u => keyed u | _ => True end.

(** The full transactions an operation offers, and the single outputs. *)
Definition offered_txs (op : g_op) : list Tx :=
  match op with GTx t => [t] | GTxout _ _ => [] | GUpdate u => full_transactions u end.
Definition offers_txout (op : g_op) (o : OutPoint) (x : TxOut) : Prop :=
  match op with
  | GTx t => txid t = op_txid o ∧ tx_out t !! N.to_nat (op_vout o) = Some x
  | GTxout o' x' => o' = o ∧ x' = x
  | GUpdate u => get_txout u o = Some x
  end.
(** All offers agree with one assignment of outputs to txids (txids determine
    outputs; single outputs are genuine). *)
Definition honest (W : Txid → list TxOut) (os : list g_op) : Prop :=
  (∀ op t, op ∈ os → t ∈ offered_txs op → tx_out t = W (txid t)) ∧
  (∀ op o x, op ∈ os → offers_txout op o x → W (op_txid o) !! N.to_nat (op_vout o) = Some x).

(** What a node becomes when an update's node is merged into it: a full
    transaction is never replaced; single outputs of the update win. *)
Definition merge_node (a b : option TxNode) : option TxNode :=
  match a, b with
  | Some (Whole t), _ => Some (Whole t)
  | _, Some (Whole t) => Some (Whole t)
  | Some (Partial x), Some (Partial y) => Some (Partial (y ∪ x))
  | Some (Partial x), None => Some (Partial x)
  | None, Some (Partial y) => if decide (y = ∅) then None else Some (Partial y)
  | None, None => None
  end.

(** The spend index lists exactly the full transactions having the outpoint
    among their inputs. *)
Definition spends_exact (g : TxGraph) : Prop :=
  ∀ o s, s ∈ outspends g o ↔ o ≠ null_outpoint ∧ ∃ t, get_tx g s = Some t ∧ o ∈ tx_in t.
Definition graph_ok (g : TxGraph) : Prop := keyed g ∧ spends_exact g.

(** No two different transactions of the set share a txid. *)
Definition ad_inj (X : gset Tx) : Prop := ∀ t t', t ∈ X → t' ∈ X → txid t = txid t' → t = t'.

(** Iteration order of the spender sets. *)
Definition hash_order (g : TxGraph) (ho : OutPoint → list Txid) : Prop :=
  ∀ o, ho o ≡ₚ elements (outspends g o).

(** [j] is a full transaction of [g] spending some output of [i]. *)
Definition child (g : TxGraph) (i j : Txid) : Prop :=
  ∃ t o, get_tx g j = Some t ∧ o ∈ tx_in t ∧ o ≠ null_outpoint ∧ op_txid o = i.

(** Reachable from [start] after [d] spends, with every transaction strictly in
    between kept by the callback. *)
Inductive reach_in (g : TxGraph) (keep : Txid → bool) (start : Txid) : nat → Txid → Prop :=
| reach_one j : child g start j → reach_in g keep start 1 j
| reach_next d i j : reach_in g keep start d i → keep i = true → child g i j →
                     reach_in g keep start (S d) j.
Definition reachable g keep start j : Prop := ∃ d, reach_in g keep start d j.

(** Descending from a set of roots, the roots included. *)
Inductive reach_from (g : TxGraph) (keep : Txid → bool) (root : Txid → Prop) : Txid → Prop :=
| rf_root j : root j → reach_from g keep root j
| rf_next i j : reach_from g keep root i → keep i = true → child g i j → reach_from g keep root j.

(** [s] conflicts with [t] at input [vin]. *)
Definition conflicts_at (g : TxGraph) (t : Tx) (vin : nat) (s : Txid) : Prop :=
  s ≠ txid t ∧ ∃ o ts, tx_in t !! vin = Some o ∧ o ≠ null_outpoint ∧ get_tx g s = Some ts ∧ o ∈ tx_in ts.

(** Sums of satoshis. *)
Definition sum_values (l : list TxOut) : N := foldr (λ x s, txo_value x + s) 0 l.
