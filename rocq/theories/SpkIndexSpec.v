(** Specification vocabulary for the script index (C31-C33). *)
From Verif Require Export SpkIndexModel.

Section spec.
Context `{Countable Ix, !Ord Ix}.
Implicit Types (i : Ix).

(** Calls that change a script index. *)
Inductive si_op :=
| SiSpk (i : Ix) (s : Script)
| SiScan (l : list (OutPoint * TxOut))
| SiMark (i : Ix)
| SiUnmark (i : Ix).
Definition si_step (x : SpkIndex Ix) (op : si_op) : outcome (SpkIndex Ix) :=
  match op with
  | SiSpk i s => Ret (si_insert_spk x i s).1
  | SiScan l => Ret (si_scan x l).1
  | SiMark i => Ret (si_mark_used x i).1
  | SiUnmark i => match si_unmark_used x i with Ret r => Ret r.1 | Panic => Panic end
  end.
(** The state after a history of calls on a new index. *)
Definition si_run (h : list si_op) : outcome (SpkIndex Ix) :=
  foldl (λ s op, match s with Ret x => si_step x op | Panic => Panic end) (Ret si_default) h.

(** The index a script was first inserted under. *)
Definition tracked (h : list si_op) (s : Script) : option Ix :=
  head (omap (λ op, match op with SiSpk i s' => if decide (s' = s) then Some i else None | _ => None end) h).
(** Output [u] at [o] was scanned at a time its script was tracked under [i]. *)
Definition hit (h : list si_op) i (o : OutPoint) (u : TxOut) : Prop :=
  ∃ h1 l h2, h = h1 ++ SiScan l :: h2 ∧ (o, u) ∈ l ∧ tracked h1 (txo_spk u) = Some i.
(** An outpoint is always offered with the same output. *)
Definition consistent (W : OutPoint → TxOut) (h : list si_op) : Prop :=
  ∀ l o u, SiScan l ∈ h → (o, u) ∈ l → u = W o.
(** Outpoints within the range of their Rust type. *)
Definition op_ok (o : OutPoint) : Prop := op_txid o ≤ max_txid ∧ op_vout o ≤ u32_max.
Definition scans_ok (h : list si_op) : Prop := ∀ l o u, SiScan l ∈ h → (o, u) ∈ l → op_ok o.
(** No index is inserted twice. *)
Definition indices_once (h : list si_op) : Prop :=
  NoDup (omap (λ op, match op with SiSpk i _ => Some i | _ => None end) h).
(** The latest marking of [i] since its insertion. *)
Definition marked (h : list si_op) i : bool :=
  foldl (λ b op, match op with
    | SiSpk j _ | SiUnmark j => if decide (j = i) then false else b
    | SiMark j => if decide (j = i) then true else b
    | SiScan _ => b end) false h.
Definition sumN (l : list N) : N := foldr N.add 0 l.
End spec.
Global Arguments si_op _ : clear implicits.
