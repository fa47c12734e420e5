(** Model of bdk_chain/src/spk_txout_index.rs and of [ForEachTxOut]. *)
From Verif Require Export TxGraphModel.

(** spk_txout_index.rs:30-41 *)
Record SpkIndex (Ix : Type) `{Countable Ix} := mkSI {
  si_spks : gmap Ix Script;
  si_indices : gmap Script Ix;
  si_unused : gset Ix;
  si_txouts : gmap OutPoint (Ix * TxOut);
  si_spk_txouts : gset (Ix * OutPoint)
}.
Global Arguments mkSI {_ _ _} _ _ _ _ _.
Global Arguments si_spks {_ _ _} _.
Global Arguments si_indices {_ _ _} _.
Global Arguments si_unused {_ _ _} _.
Global Arguments si_txouts {_ _ _} _.
Global Arguments si_spk_txouts {_ _ _} _.

(** tx_data_traits.rs:67-84: the outputs a transaction offers to a scan *)
Definition tx_txouts (t : Tx) : list (OutPoint * TxOut) :=
  (λ kx, (mkOutPoint (txid t) kx.1, kx.2)) <$> enum_outs (tx_out t).
(** tx_data_traits.rs:15-21: a block, given by its transactions *)
Definition block_txouts (l : list Tx) : list (OutPoint * TxOut) := l ≫= tx_txouts.

(** spk_txout_index.rs:127-134 *)
Definition min_op : OutPoint := mkOutPoint 0 0.
Definition max_op : OutPoint := mkOutPoint max_txid u32_max.

Section spk_index.
Context `{Countable Ix, !Ord Ix}.
Implicit Types (x : SpkIndex Ix) (i : Ix).

(** spk_txout_index.rs:43-53 *)
Definition si_default : SpkIndex Ix := mkSI ∅ ∅ ∅ ∅ ∅.

(** spk_txout_index.rs:58-68 and :97-99 *)
Definition si_scan_txout x (o : OutPoint) (t : TxOut) : SpkIndex Ix * option Ix :=
  match si_indices x !! txo_spk t with
  | Some i =>
      (mkSI (si_spks x) (si_indices x) (si_unused x ∖ {[ i ]})
            (<[o := (i, t)]> (si_txouts x)) ({[ (i, o) ]} ∪ si_spk_txouts x), Some i)
  | None => (x, None)
  end.
(** spk_txout_index.rs:82-93; a [ForEachTxOut] is the list of what it yields *)
Definition si_scan x (l : list (OutPoint * TxOut)) : SpkIndex Ix * gset Ix :=
  foldl (λ s ot, let r := si_scan_txout s.1 ot.1 ot.2 in
           (r.1, match r.2 with Some i => {[ i ]} ∪ s.2 | None => s.2 end)) (x, ∅) l.

(** spk_txout_index.rs:102-108 *)
Definition si_txouts_list x : list (Ix * OutPoint * TxOut) :=
  (λ kv, (kv.2.1, kv.1, kv.2.2)) <$> bmap_list (si_txouts x).
(** spk_txout_index.rs:111-119: the range covers every vout of the txid *)
Definition si_txouts_in_tx x (t : Txid) : list (Ix * OutPoint * TxOut) :=
  (λ kv, (kv.2.1, kv.1, kv.2.2)) <$>
    filter (λ kv, ord_le (mkOutPoint t 0) kv.1 ∧ ord_le kv.1 (mkOutPoint t u32_max)) (bmap_list (si_txouts x)).

(** spk_txout_index.rs:136-146 *)
Definition op_lo (b : bound Ix) : bound (Ix * OutPoint) :=
  match b with Incl i => Incl (i, min_op) | Excl i => Excl (i, max_op) | Unb => Unb end.
Definition op_hi (b : bound Ix) : bound (Ix * OutPoint) :=
  match b with Incl i => Incl (i, max_op) | Excl i => Excl (i, min_op) | Unb => Unb end.
(** spk_txout_index.rs:121-149 *)
Definition si_outputs_in_range x (lo hi : bound Ix) : outcome (list (Ix * OutPoint)) :=
  bset_range (si_spk_txouts x) (op_lo lo) (op_hi hi).

(** spk_txout_index.rs:154-158 *)
Definition si_txout x (o : OutPoint) : option (Ix * TxOut) := si_txouts x !! o.
(** spk_txout_index.rs:163-165 *)
Definition si_spk_at x i : option Script := si_spks x !! i.

(** spk_txout_index.rs:175-185 *)
Definition si_insert_spk x i (s : Script) : SpkIndex Ix * bool :=
  match si_indices x !! s with
  | Some _ => (x, false)
  | None => (mkSI (<[i := s]> (si_spks x)) (<[s := i]> (si_indices x)) ({[ i ]} ∪ si_unused x)
                  (si_txouts x) (si_spk_txouts x), true)
  end.

(** spk_txout_index.rs:209: the [expect] on every unused index of the range *)
Fixpoint with_spks x (l : list Ix) : outcome (list (Ix * Script)) :=
  match l with
  | [] => Ret []
  | i :: l =>
      match si_spk_at x i with
      | None => Panic
      | Some s => match with_spks x l with Panic => Panic | Ret r => Ret ((i, s) :: r) end
      end
  end.
(** spk_txout_index.rs:204-211 *)
Definition si_unused_spks x (lo hi : bound Ix) : outcome (list (Ix * Script)) :=
  match bset_range (si_unused x) lo hi with Panic => Panic | Ret l => with_spks x l end.
(** spk_txout_index.rs:217-219 *)
Definition si_is_used x i : bool := bool_decide (i ∉ si_unused x).
(** spk_txout_index.rs:231-233 *)
Definition si_mark_used x i : SpkIndex Ix * bool :=
  (mkSI (si_spks x) (si_indices x) (si_unused x ∖ {[ i ]}) (si_txouts x) (si_spk_txouts x),
   bool_decide (i ∈ si_unused x)).
(** spk_txout_index.rs:242-252 *)
Definition si_unmark_used x i : outcome (SpkIndex Ix * bool) :=
  match si_spks x !! i with
  | None => Ret (x, false)
  | Some _ =>
      match si_outputs_in_range x (Incl i) (Incl i) with
      | Panic => Panic
      | Ret (_ :: _) => Ret (x, false)
      | Ret [] => Ret (mkSI (si_spks x) (si_indices x) ({[ i ]} ∪ si_unused x) (si_txouts x) (si_spk_txouts x),
                       bool_decide (i ∉ si_unused x))
      end
  end.
(** spk_txout_index.rs:255-257 *)
Definition si_index_of_spk x (s : Script) : option Ix := si_indices x !! s.

(** [u64 += u64] and [sum] in the debug profile, spk_txout_index.rs:267-275, tracker.rs:286 *)
Definition add_u64 (a b : N) : outcome N := if bool_decide (a + b ≤ u64_max) then Ret (a + b) else Panic.
Fixpoint sum_u64 (acc : N) (l : list N) : outcome N :=
  match l with
  | [] => Ret acc
  | v :: l => match add_u64 acc v with Ret s => sum_u64 s l | Panic => Panic end
  end.
(** spk_txout_index.rs:264-280 *)
Definition si_sent_and_received x (t : Tx) : outcome (N * N) :=
  match sum_u64 0 (omap (λ o, (λ it, txo_value it.2) <$> si_txout x o) (tx_in t)) with
  | Panic => Panic
  | Ret sent =>
      match sum_u64 0 (omap (λ u, match si_index_of_spk x (txo_spk u) with
                                  | Some _ => Some (txo_value u) | None => None end) (tx_out t)) with
      | Panic => Panic
      | Ret received => Ret (sent, received)
      end
  end.
(** spk_txout_index.rs:287-290 *)
Definition si_net_value x (t : Tx) : outcome Z :=
  match si_sent_and_received x t with
  | Panic => Panic
  | Ret (sent, received) => add_i64 (as_i64 received) (- as_i64 sent)
  end.
(** spk_txout_index.rs:299-311 *)
Definition si_is_relevant x (t : Tx) : bool :=
  existsb (λ o, match si_txouts x !! o with Some _ => true | None => false end) (tx_in t) ||
  existsb (λ u, match si_indices x !! txo_spk u with Some _ => true | None => false end) (tx_out t).
End spk_index.
