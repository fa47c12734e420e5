(** Model of bdk_coin_select/src/coin_selector.rs and src/lib.rs (code at the pinned
    commit).  [dbg] says whether the build has overflow checks and debug assertions. *)
From Verif Require Export MachineModel.

(** The orders of [usize] and [i64] (coin_selector.rs:138, bnb.rs:37) *)
Global Instance nat_ord : Ord nat := Nat.compare.
Global Instance Z_ord : Ord Z := Z.compare.

(** lib.rs:24-26 [TXIN_BASE_WEIGHT]. *)
Definition txin_base_weight : Z := (32 + 4 + 4) * 4.
(** lib.rs:28-33 [varint_size]; [VarInt::len] of the bitcoin crate. *)
Definition varint_size (v : Z) : Z :=
  if v <=? 252 then 1 else if v <=? 65535 then 3 else if v <=? 4294967295 then 5 else 9.

(** coin_selector.rs:3-17 [WeightedValue]. *)
Record WeightedValue := mkWV {
  wv_value : Z;      (* u64 *)
  wv_weight : Z;     (* u32 *)
  wv_count : Z;      (* usize *)
  wv_segwit : bool
}.
Global Instance WeightedValue_eq_dec : EqDecision WeightedValue.
Proof. solve_decision. Defined.

(** coin_selector.rs:43-68 [CoinSelectorOpt]. *)
Record CoinSelectorOpt := mkOpt {
  o_target : option Z;        (* target_value: Option<u64> *)
  o_extra : Z;                (* max_extra_target: u64 *)
  o_rate : f32;               (* target_feerate *)
  o_long_rate : option f32;   (* long_term_feerate *)
  o_min_fee : Z;              (* min_absolute_fee: u64 *)
  o_base : Z;                 (* base_weight: u32 *)
  o_drain : Z;                (* drain_weight: u32 *)
  o_spend_drain : Z;          (* spend_drain_weight: u32 *)
  o_min_drain : Z             (* min_drain_value: u64 *)
}.

(** coin_selector.rs:133-139 [CoinSelector]; the options and candidates are borrowed,
    [selected] is private and only the functions below change it. *)
Record CoinSelector := mkCS {
  cs_opts : CoinSelectorOpt;
  cs_cands : list WeightedValue;
  cs_sel : gset nat
}.

(** coin_selector.rs:421-426 [SelectionError], 447-457 [SelectionConstraint]. *)
Inductive SelectionConstraint := TargetValue | TargetFee | MinAbsoluteFee | MinDrainValue.
Global Instance SelectionConstraint_eq_dec : EqDecision SelectionConstraint.
Proof. solve_decision. Defined.
Record SelectionError := mkSE { se_selected : Z; se_missing : Z; se_constraint : SelectionConstraint }.

(** coin_selector.rs:477-482 [ExcessStrategyKind], 484-491 [ExcessStrategy]. *)
Inductive ExcessStrategyKind := ToFee | ToRecipient | ToDrain.
Global Instance ExcessStrategyKind_eq_dec : EqDecision ExcessStrategyKind.
Proof. solve_decision. Defined.
Record ExcessStrategy := mkES {
  es_recipient : option Z;
  es_drain : option Z;
  es_fee : Z;
  es_weight : Z;
  es_waste : Z
}.

(** coin_selector.rs:470-475 [Selection].  The [HashMap] of strategies is the list of
    its entries in order of insertion; whoever iterates it gets some permutation. *)
Record Selection := mkSelection {
  sn_selected : gset nat;
  sn_excess : Z;
  sn_strategies : list (ExcessStrategyKind * ExcessStrategy)
}.

(** A list of results that panics if one of them does ([map] and [sum], coin_selector.rs:183). *)
Fixpoint all_ret {A : Type} (l : list (outcome A)) : outcome (list A) :=
  match l with
  | [] => Ret []
  | m :: l' => a ← m; as' ← all_ret l'; Ret (a :: as')
  end.

(** [max_by_key] over pairs: the last of the largest, coin_selector.rs:335. *)
Fixpoint last_max {A : Type} (best : A * Z) (l : list (A * Z)) : A * Z :=
  match l with
  | [] => best
  | x :: l' => last_max (if best.2 <=? x.2 then x else best) l'
  end.
(** [min_by_key] over pairs: the first of the smallest, coin_selector.rs:505. *)
Fixpoint first_min {A : Type} (best : A * Z) (l : list (A * Z)) : A * Z :=
  match l with
  | [] => best
  | x :: l' => first_min (if x.2 <? best.2 then x else best) l'
  end.

(** [feerate.unwrap_or(..)], coin_selector.rs:123-125 [long_term_feerate]. *)
Definition long_term_feerate (o : CoinSelectorOpt) : f32 :=
  match o_long_rate o with Some r => r | None => o_rate o end.

(** [(weight as f32 * rate).ceil()], as in coin_selector.rs:39,237,298-300. *)
Definition weight_fee (w : Z) (rate : f32) : f32 := f32_ceil (f32_mul (f32_of w) rate).

(** coin_selector.rs:127-130 [drain_waste]. *)
Definition drain_waste (o : CoinSelectorOpt) : Z :=
  f32_as I64 (f32_add (f32_mul (f32_of (o_drain o)) (o_rate o))
                      (f32_mul (f32_of (o_spend_drain o)) (long_term_feerate o))).

(** coin_selector.rs:146-152 [CoinSelector::new]. *)
Definition cs_new (cands : list WeightedValue) (o : CoinSelectorOpt) : CoinSelector := mkCS o cands ∅.

(** [self.candidates[index]], coin_selector.rs:142-144 [candidate]. *)
Definition cs_candidate (s : CoinSelector) (i : nat) : outcome WeightedValue :=
  match cs_cands s !! i with Some c => Ret c | None => Panic end.

(** coin_selector.rs:154-157 [select]: [assert!], then insert; the flag says whether
    the index is new. *)
Definition cs_select (s : CoinSelector) (i : nat) : outcome (CoinSelector * bool) :=
  if decide (i < length (cs_cands s))%nat
  then Ret (mkCS (cs_opts s) (cs_cands s) ({[ i ]} ∪ cs_sel s), negb (bool_decide (i ∈ cs_sel s)))
  else Panic.

(** coin_selector.rs:159-161 [deselect]. *)
Definition cs_deselect (s : CoinSelector) (i : nat) : CoinSelector * bool :=
  (mkCS (cs_opts s) (cs_cands s) (cs_sel s ∖ {[ i ]}), bool_decide (i ∈ cs_sel s)).

(** coin_selector.rs:163-165 [is_selected]. *)
Definition cs_is_selected (s : CoinSelector) (i : nat) : bool := bool_decide (i ∈ cs_sel s).
(** coin_selector.rs:167-169 [is_empty]. *)
Definition cs_is_empty (s : CoinSelector) : bool := bool_decide (cs_sel s = ∅).
(** coin_selector.rs:240-242 [selected_count]. *)
Definition cs_count (s : CoinSelector) : nat := size (cs_sel s).

(** coin_selector.rs:244-248 [selected]: increasing index. *)
Definition cs_selected (s : CoinSelector) : outcome (list (nat * WeightedValue)) :=
  all_ret ((λ i, c ← cs_candidate s i; Ret (i, c)) <$> bset_list (cs_sel s)).
(** coin_selector.rs:250-255 [unselected]. *)
Definition cs_unselected (s : CoinSelector) : list (nat * WeightedValue) :=
  filter (λ p, p.1 ∉ cs_sel s) (imap pair (cs_cands s)).
(** coin_selector.rs:257-259 [selected_indexes]. *)
Definition cs_selected_indexes (s : CoinSelector) : list nat := bset_list (cs_sel s).
(** coin_selector.rs:261-263 [unselected_indexes]. *)
Definition cs_unselected_indexes (s : CoinSelector) : list nat :=
  filter (λ i, i ∉ cs_sel s) (seq 0 (length (cs_cands s))).
(** coin_selector.rs:265-267 [all_selected]. *)
Definition cs_all_selected (s : CoinSelector) : bool :=
  bool_decide (size (cs_sel s) = length (cs_cands s)).
(** coin_selector.rs:269-271 [select_all]. *)
Definition cs_select_all (s : CoinSelector) : CoinSelector :=
  mkCS (cs_opts s) (cs_cands s) (list_to_set (seq 0 (length (cs_cands s)))).

Section profile.
Context (dbg : bool).

(** coin_selector.rs:20-32 [WeightedValue::new]. *)
Definition wv_new (value satisfaction_weight : Z) (is_segwit : bool) : outcome WeightedValue :=
  w ← fit dbg U32 (txin_base_weight + satisfaction_weight);
  Ret (mkWV value w 1 is_segwit).

(** coin_selector.rs:34-40 [effective_value]. *)
Definition effective_value (c : WeightedValue) (rate : f32) : outcome Z :=
  fit dbg I64 (wrap I64 (wv_value c) - f32_as I64 (weight_fee (wv_weight c) rate)).

(** coin_selector.rs:71-90 [CoinSelectorOpt::from_weights]. *)
Definition opt_from_weights (base drain spend_drain : Z) : outcome CoinSelectorOpt :=
  w ← fit dbg U32 (drain + spend_drain);
  m ← fit dbg U64 (3 * f32_as U64 (f32_mul (f32_of w) f32_quarter));
  Ret (mkOpt None 0 f32_quarter None 0 base drain spend_drain m).

(** [Transaction::weight] of the bitcoin crate, for the transaction without inputs
    built in coin_selector.rs:97-108; outputs are (value, script length) pairs. *)
Definition outputs_weight (outs : list (Z * Z)) : Z :=
  4 * (4 + varint_size 0 + varint_size (Z.of_nat (length outs))
       + foldr Z.add 0 ((λ o, 8 + varint_size o.2 + o.2) <$> outs) + 4).

(** coin_selector.rs:92-121 [CoinSelectorOpt::fund_outputs].  Simplification: the
    [usize] arithmetic inside [weight()] is unbounded. *)
Definition opt_fund_outputs (outs : list (Z * Z)) (drain_out : Z * Z) (drain_satisfaction : Z)
    : outcome CoinSelectorOpt :=
  let base := outputs_weight outs in
  let drain := outputs_weight (outs ++ [drain_out]) - base in
  t ← match outs with
      | [] => Ret None
      | _ :: _ => v ← sum_fit dbg U64 0 (fst <$> outs); Ret (Some v)
      end;
  sd ← fit dbg U32 (txin_base_weight + drain_satisfaction);
  o ← opt_from_weights (wrap U32 base) (wrap U32 drain) sd;
  Ret (mkOpt t (o_extra o) (o_rate o) (o_long_rate o) (o_min_fee o) (o_base o) (o_drain o)
             (o_spend_drain o) (o_min_drain o)).

(** coin_selector.rs:171-177 [selected_weight]. *)
Definition selected_weight (s : CoinSelector) : outcome Z :=
  l ← cs_selected s; sum_fit dbg U32 0 ((λ p, wv_weight p.2) <$> (l : list (nat * WeightedValue))).

(** coin_selector.rs:179-185 [selected_effective_value]. *)
Definition selected_effective_value (s : CoinSelector) : outcome Z :=
  l ← cs_selected s;
  vs ← all_ret ((λ p, effective_value p.2 (o_rate (cs_opts s))) <$> (l : list (nat * WeightedValue)));
  sum_fit dbg I64 0 vs.

(** coin_selector.rs:187-193 [selected_absolute_value]. *)
Definition selected_absolute_value (s : CoinSelector) : outcome Z :=
  l ← cs_selected s; sum_fit dbg U64 0 ((λ p, wv_value p.2) <$> (l : list (nat * WeightedValue))).

(** coin_selector.rs:195-199 [selected_waste]. *)
Definition selected_waste (s : CoinSelector) : outcome Z :=
  w ← selected_weight s;
  Ret (f32_as I64 (f32_mul (f32_of w) (f32_sub (o_rate (cs_opts s)) (long_term_feerate (cs_opts s))))).

(** coin_selector.rs:201-216 [current_weight]. *)
Definition current_weight (s : CoinSelector) : outcome Z :=
  l ← cs_selected s;
  let witness := if existsb (λ p, wv_segwit p.2) (l : list (nat * WeightedValue)) then 2 else 0 in
  n ← sum_fit dbg USize 0 ((λ p, wv_count p.2) <$> (l : list (nat * WeightedValue)));
  w ← selected_weight s;
  sum_fit dbg U32 (o_base (cs_opts s)) [w; witness; (varint_size n - 1) * 4].

(** coin_selector.rs:223-238 [effective_target]. *)
Definition effective_target (s : CoinSelector) : outcome Z :=
  let o := cs_opts s in
  n ← sum_fit dbg USize 0 (wv_count <$> cs_cands s);
  let witness := if existsb wv_segwit (cs_cands s) then 2 else 0 in
  w ← sum_fit dbg U32 (o_base o) [witness; (varint_size n - 1) * 4];
  fit dbg I64 (wrap I64 (default 0 (o_target o)) + f32_as I64 (weight_fee w (o_rate o))).

(** coin_selector.rs:218-221 [current_excess]. *)
Definition current_excess (s : CoinSelector) : outcome Z :=
  e ← selected_effective_value s; t ← effective_target s; fit dbg I64 (e - t).

(** coin_selector.rs:302-333: the four constraints with what is missing of each, in
    the order of the code. *)
Definition shortfalls (o : CoinSelectorOpt) (selected fee0 fee1 : Z)
    : outcome (list (SelectionConstraint * Z)) :=
  let t := default 0 (o_target o) in
  tf ← fit dbg U64 (t + fee0);
  tm ← fit dbg U64 (t + o_min_fee o);
  td ← match o_target o with
       | None => d ← fit dbg U64 (fee1 + o_min_drain o); Ret (sat_sub d selected)
       | Some _ => Ret 0
       end;
  Ret [(TargetValue, sat_sub t selected); (TargetFee, sat_sub tf selected);
       (MinAbsoluteFee, sat_sub tm selected); (MinDrainValue, td)].

(** coin_selector.rs:334-342: keep the positive ones, take the last of the largest. *)
Definition worst_shortfall (l : list (SelectionConstraint * Z)) : option (SelectionConstraint * Z) :=
  match filter (λ p, 0 < p.2) l with
  | [] => None
  | x :: l' => Some (last_max x l')
  end.

(** coin_selector.rs:353-406: the excess strategies. *)
Definition strategies (o : CoinSelectorOpt) (ins_minus_outs fee0 fee1 w0 w1 input_waste excess : Z)
    : outcome (list (ExcessStrategyKind * ExcessStrategy)) :=
  no_drain ← match o_target o with
    | None => Ret []
    | Some t =>
        fee ← fit dbg U64 (fee0 + excess);
        waste ← fit dbg I64 (input_waste + wrap I64 excess);
        let to_fee := (ToFee, mkES (Some t) None fee w0 waste) in
        if (0 <? excess) && (0 <? o_extra o) then
          let extra := Z.min (o_extra o) excess in
          let extra_fee := excess - extra in
          r ← fit dbg U64 (t + extra);
          fee' ← fit dbg U64 (fee0 + extra_fee);
          waste' ← fit dbg I64 (input_waste + wrap I64 extra_fee);
          Ret [to_fee; (ToRecipient, mkES (Some r) None fee' w0 waste')]
        else Ret [to_fee]
    end;
  (* [fee_with_drain >= min_absolute_fee &&] guards the addition *)
  if o_min_fee o <=? fee1 then
    need ← fit dbg U64 (fee1 + o_min_drain o);
    if need <=? ins_minus_outs then
      waste ← fit dbg I64 (input_waste + drain_waste o);
      Ret (no_drain ++ [(ToDrain, mkES (o_target o) (Some (sat_sub ins_minus_outs fee1)) fee1 w1 waste)])
    else Ret no_drain
  else Ret no_drain.

(** coin_selector.rs:294-419 [finish]. *)
Definition finish (s : CoinSelector) : outcome (result Selection SelectionError) :=
  let o := cs_opts s in
  w0 ← current_weight s;
  w1 ← fit dbg U32 (w0 + o_drain o);
  let fee0 := f32_as U64 (weight_fee w0 (o_rate o)) in
  let fee1 := f32_as U64 (weight_fee w1 (o_rate o)) in
  selected ← selected_absolute_value s;
  short ← shortfalls o selected fee0 fee1;
  match worst_shortfall short with
  | Some (c, missing) => Ret (Err (mkSE selected missing c))
  | None =>
      ins_minus_outs ← fit dbg U64 (selected - default 0 (o_target o));
      let fee0' := Z.max fee0 (o_min_fee o) in
      let fee1' := Z.max fee1 (o_min_fee o) in
      excess ← fit dbg U64 (ins_minus_outs - fee0');
      input_waste ← selected_waste s;
      strats ← strategies o ins_minus_outs fee0' fee1' w0 w1 input_waste excess;
      (* debug_assert! "should have at least one excess strategy", 408-411 *)
      match strats with
      | [] => if dbg then Panic else Ret (Ok (mkSelection (cs_sel s) excess strats))
      | _ :: _ => Ret (Ok (mkSelection (cs_sel s) excess strats))
      end
  end.

(** coin_selector.rs:273-292 [select_until_finished], the loop over what was
    unselected at the start; the second component is the selector afterwards. *)
Fixpoint select_loop (s : CoinSelector) (last : result Selection SelectionError) (todo : list nat)
    : outcome (result Selection SelectionError * CoinSelector) :=
  match todo with
  | [] => Ret (last, s)
  | i :: todo' =>
      '(s', _) ← cs_select s i;
      r ← finish s';
      match r with
      | Ok _ => Ret (r, s')
      | Err _ => select_loop s' r todo'
      end
  end.
(** coin_selector.rs:273-292 [select_until_finished] *)
Definition select_until_finished (s : CoinSelector)
    : outcome (result Selection SelectionError * CoinSelector) :=
  r ← finish s;
  match r with
  | Ok _ => Ret (r, s)
  | Err _ => select_loop s r (cs_unselected_indexes s)
  end.

End profile.

(** coin_selector.rs:493-499 [apply_selection]. *)
Definition apply_selection {T : Type} (sn : Selection) (candidates : list T) : outcome (list T) :=
  all_ret ((λ i, match candidates !! i with Some t => Ret t | None => Panic end)
             <$> bset_list (sn_selected sn)).

(** coin_selector.rs:501-507 [best_strategy]; [entries] is the order in which the
    [HashMap] hands out its entries; [expect] panics when there are none. *)
Definition best_strategy (entries : list (ExcessStrategyKind * ExcessStrategy))
    : outcome (ExcessStrategyKind * ExcessStrategy) :=
  match entries with
  | [] => Panic
  | x :: l =>
      Ret ((first_min (x, es_waste x.2) ((λ y, (y, es_waste y.2)) <$> l)).1)
  end.

(** coin_selector.rs:520-524 [ExcessStrategy::feerate]. *)
Definition es_feerate (e : ExcessStrategy) : f32 := f32_div (f32_of (es_fee e)) (f32_of (es_weight e)).
