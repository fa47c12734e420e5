(** What coin selection should do, independent of how the code sums things up. *)
From Verif Require Import MachineSpec CoinSelectModel.

Definition Zsum (l : list Z) : Z := foldr Z.add 0 l.

(** The elements at the given indices, in order of index. *)
Definition at_indices {A : Type} (l : list A) (sel : gset nat) : list A :=
  (filter (λ p, p.1 ∈ sel) (imap pair l)).*2.
Definition picked (s : CoinSelector) : list WeightedValue := at_indices (cs_cands s) (cs_sel s).

(** Total value of the selected candidates. *)
Definition value_in (s : CoinSelector) : Z := Zsum (wv_value <$> picked s).

(** Length of Bitcoin's CompactSize encoding of a count. *)
Definition compact_len (n : Z) : Z :=
  if n <? 253 then 1 else if n <? 2 ^ 16 then 3 else if n <? 2 ^ 32 then 5 else 9.

(** Weight of the finished transaction: the template, the inputs, the segwit marker and
    flag, the longer input count, and the drain output if there is one. *)
Definition inputs_weight (base : Z) (l : list WeightedValue) : Z :=
  base + Zsum (wv_weight <$> l) + (if existsb wv_segwit l then 2 else 0)
       + 4 * (compact_len (Zsum (wv_count <$> l)) - 1).
Definition tx_weight (s : CoinSelector) (drain : bool) : Z :=
  inputs_weight (o_base (cs_opts s)) (picked s) + (if drain then o_drain (cs_opts s) else 0).

(** The fee for a weight at the target rate, as the code computes it in [f32]. *)
Definition rate_fee (o : CoinSelectorOpt) (w : Z) : Z := f32_as U64 (weight_fee w (o_rate o)).

(** What must be selected to meet each constraint. *)
Definition needed (s : CoinSelector) (c : SelectionConstraint) : Z :=
  let o := cs_opts s in
  let t := default 0 (o_target o) in
  match c with
  | TargetValue => t
  | TargetFee => t + rate_fee o (tx_weight s false)
  | MinAbsoluteFee => t + o_min_fee o
  | MinDrainValue =>
      match o_target o with
      | None => rate_fee o (tx_weight s true) + o_min_drain o
      | Some _ => 0
      end
  end.

(** The fields hold values of their Rust types. *)
Definition in_type (t : ity) (z : Z) : Prop := imin t ≤ z ≤ imax t.
Definition wv_ok (c : WeightedValue) : Prop :=
  in_type U64 (wv_value c) ∧ in_type U32 (wv_weight c) ∧ in_type USize (wv_count c).
Definition opts_ok (o : CoinSelectorOpt) : Prop :=
  (∀ t, o_target o = Some t → in_type U64 t) ∧ in_type U64 (o_extra o) ∧
  in_type U64 (o_min_fee o) ∧ in_type U32 (o_base o) ∧ in_type U32 (o_drain o) ∧
  in_type U32 (o_spend_drain o) ∧ in_type U64 (o_min_drain o).
(** A selector as the API can build it: values of their types, every selected index a
    candidate's. *)
Definition typed (s : CoinSelector) : Prop :=
  opts_ok (cs_opts s) ∧ Forall wv_ok (cs_cands s) ∧
  (∀ i, i ∈ cs_sel s → (i < length (cs_cands s))%nat).

(** A non-negative finite fee rate of at most 2^20 sat per weight unit. *)
Definition rate_ok (r : f32) : Prop := ∃ v, f32_is r v ∧ v ≤ 2 ^ 420.
(** Amounts and weights far below the limits of their types: values up to 2^61
    satoshi (there are fewer than 2^51), weights up to 2^31. *)
Definition modest (s : CoinSelector) : Prop :=
  let o := cs_opts s in
  Zsum (wv_value <$> cs_cands s) ≤ 2 ^ 61 ∧
  o_base o + Zsum (wv_weight <$> cs_cands s) + o_drain o + o_spend_drain o ≤ 2 ^ 31 ∧
  Zsum (wv_count <$> cs_cands s) ≤ 2 ^ 62 ∧
  default 0 (o_target o) ≤ 2 ^ 61 ∧ o_min_fee o ≤ 2 ^ 61 ∧ o_min_drain o ≤ 2 ^ 61 ∧
  rate_ok (o_rate o) ∧ (∀ r, o_long_rate o = Some r → rate_ok r).

(** What every returned strategy must satisfy: it pays out exactly what is selected, at
    no less than the target rate and the minimum fee; a drain is at least the minimum;
    the recipients get the target and at most the allowed extra, exactly the target
    unless the strategy is to give them more. *)
Definition strategy_good (s : CoinSelector) (k : ExcessStrategyKind) (e : ExcessStrategy) : Prop :=
  let o := cs_opts s in
  value_in s = default 0 (es_recipient e) + default 0 (es_drain e) + es_fee e ∧
  es_weight e = tx_weight s (bool_decide (k = ToDrain)) ∧
  rate_fee o (es_weight e) ≤ es_fee e ∧ o_min_fee o ≤ es_fee e ∧
  match es_drain e with
  | Some d => k = ToDrain ∧ o_min_drain o ≤ d
  | None => k ≠ ToDrain
  end ∧
  match o_target o with
  | None => es_recipient e = None ∧ k = ToDrain
  | Some v => ∃ r, es_recipient e = Some r ∧ v ≤ r ≤ v + o_extra o ∧ (k ≠ ToRecipient → r = v)
  end.

(** The indices not selected yet, in order, and the selector with the first [k] of them
    selected as well. *)
Definition waiting (s : CoinSelector) : list nat :=
  filter (λ i, i ∉ cs_sel s) (seq 0 (length (cs_cands s))).
Definition with_first (s : CoinSelector) (k : nat) : CoinSelector :=
  mkCS (cs_opts s) (cs_cands s) (cs_sel s ∪ list_to_set (take k (waiting s))).

(** ** Weight of a transaction, after BIP 141 *)

(** The lengths that matter of an input: its script and the elements of its witness. *)
Record tx_input := mkTI { ti_script : Z; ti_witness : list Z }.
Definition bytes_len (n : Z) : Z := compact_len n + n.
Definition witness_size (i : tx_input) : Z :=
  compact_len (Z.of_nat (length (ti_witness i))) + Zsum (bytes_len <$> ti_witness i).
Definition has_witness (i : tx_input) : bool := match ti_witness i with [] => false | _ => true end.
(** Outputs are (value, script length) pairs.  Bytes outside witnesses weigh four; the
    marker, the flag and one witness per input are only there if some witness is not empty. *)
Definition bip141_weight (ins : list tx_input) (outs : list (Z * Z)) : Z :=
  4 * (4 + compact_len (Z.of_nat (length ins)) + Zsum ((λ i, 36 + bytes_len (ti_script i) + 4) <$> ins)
       + compact_len (Z.of_nat (length outs)) + Zsum ((λ o, 8 + bytes_len o.2) <$> outs) + 4)
  + (if existsb has_witness ins then 2 + Zsum (witness_size <$> ins) else 0).
(** What the documentation of [WeightedValue::new] asks the caller to pass. *)
Definition satisfaction_weight (i : tx_input) : Z := 4 * bytes_len (ti_script i) + witness_size i.
(** The candidate made of an input and its value, when its weight fits a [u32]. *)
Definition built (dbg : bool) (vi : Z * tx_input) (c : WeightedValue) : Prop :=
  wv_new dbg vi.1 (satisfaction_weight vi.2) (has_witness vi.2) = Ret c ∧
  in_type U32 (txin_base_weight + satisfaction_weight vi.2).

(** ** Selecting and deselecting *)

(** Calls of [select], [deselect] and [select_all], and what they return ([select_all] nothing). *)
Inductive sel_call := Select (i : nat) | Deselect (i : nat) | SelectAll.
Fixpoint sel_calls (s : CoinSelector) (l : list sel_call) : outcome (CoinSelector * list (option bool)) :=
  match l with
  | [] => Ret (s, [])
  | c :: l =>
      '(s1, b) ← match c with
                 | Select i => '(s1, b) ← cs_select s i; Ret (s1, Some b)
                 | Deselect i => let '(s1, b) := cs_deselect s i in Ret (s1, Some b)
                 | SelectAll => Ret (cs_select_all s, None)
                 end;
      '(s2, bs) ← sel_calls s1 l;
      Ret (s2, b :: bs)
  end.
(** After these calls on a selector of [n] candidates [i] is selected: it was, and was not deselected since. *)
Definition chosen (n : nat) (l : list sel_call) (i : nat) : Prop :=
  ∃ l1 c l2, l = l1 ++ c :: l2 ∧ (c = Select i ∨ c = SelectAll ∧ (i < n)%nat) ∧ Deselect i ∉ l2.
(** What the call after [l] returns. *)
Definition sel_answer (n : nat) (l : list sel_call) (c : sel_call) (b : option bool) : Prop :=
  match c with
  | Select i => ∃ x, b = Some x ∧ (x = true ↔ ¬ chosen n l i)
  | Deselect i => ∃ x, b = Some x ∧ (x = true ↔ chosen n l i)
  | SelectAll => b = None
  end.
