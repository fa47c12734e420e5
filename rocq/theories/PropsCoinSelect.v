(** C51-C54, C67, C68: coin selection. *)
From Verif Require Import BaseProofs F32Proofs CoinSelectProofs CoinSelectProofs2 CoinSelectProofs3 CoinSelectProofs4 CoinSelectProofs5 CoinSelectExamples.

(** C51: every strategy of a finished selection pays out exactly what is selected, at the fee rate and the
    minimum fee, with a drain of the minimum at least, and the recipients get the target and at most the allowed
    extra.  In a build without overflow checks this needs amounts below 2^61; with checks nothing. *)
Theorem C51_balance dbg s sn : typed s → (dbg = false → modest s) → finish dbg s = Ret (Ok sn) →
  sn_selected sn = cs_sel s ∧
  sn_excess sn = value_in s - default 0 (o_target (cs_opts s))
                 - Z.max (rate_fee (cs_opts s) (tx_weight s false)) (o_min_fee (cs_opts s)) ∧
  0 ≤ sn_excess sn ∧ NoDup (sn_strategies sn).*1 ∧
  (∀ k e, (k, e) ∈ sn_strategies sn → strategy_good s k e) ∧
  (is_Some (o_target (cs_opts s)) ↔ ToFee ∈ (sn_strategies sn).*1) ∧
  (Z.max (rate_fee (cs_opts s) (tx_weight s true)) (o_min_fee (cs_opts s)) + o_min_drain (cs_opts s)
     + default 0 (o_target (cs_opts s)) ≤ value_in s ↔ ToDrain ∈ (sn_strategies sn).*1).
Proof. exact (finish_ok_spec dbg s sn). Qed.
Print Assumptions C51_balance.
Example C51_balance_ex : (typed ex_sel ∧ modest ex_sel) ∧ ∃ sn, finish true ex_sel = Ret (Ok sn) ∧
  finish false ex_sel = Ret (Ok sn) ∧ sn_excess sn = 4356 ∧
  sn_strategies sn =
    [(ToFee, mkES (Some 50000) None 5000 1030 4680); (ToRecipient, mkES (Some 52000) None 3000 1030 2680);
     (ToDrain, mkES (Some 50000) (Some 4278) 722 1154 469)].
Proof. exact (conj ex_sel_ok ex_sel_finish). Qed.

(** C51: against the exact rate, the fee falls short by at most half a satoshi: the product is rounded to a
    float before it is rounded up. *)
Theorem C51_rate_partial dbg s sn k e R : typed s → (dbg = false → modest s) → finish dbg s = Ret (Ok sn) →
  (k, e) ∈ sn_strategies sn → f32_is (o_rate (cs_opts s)) R → 0 ≤ R ≤ 2 ^ 420 →
  es_weight e < 2 ^ 24 → es_weight e * R < 2 ^ 424 →
  es_weight e * R ≤ es_fee e * 2 ^ 400 + 2 ^ 399.
Proof. exact (fee_rate_close dbg s sn k e R). Qed.
Print Assumptions C51_rate_partial.
(** It does fall short: 80 satoshi for 560 weight units at the float nearest to 1/7, which is more than 1/7. *)
Theorem C51_rate_refuted : ∃ s sn k e R, typed s ∧ modest s ∧ finish true s = Ret (Ok sn) ∧ finish false s = Ret (Ok sn) ∧
  (k, e) ∈ sn_strategies sn ∧ f32_is (o_rate (cs_opts s)) R ∧ es_fee e * 2 ^ 400 < es_weight e * R.
Proof. exact ex_seventh_underpays. Qed.
Print Assumptions C51_rate_refuted.
(** At a whole number of satoshi per virtual byte the rate is met exactly. *)
Theorem C51_whole_rate dbg s sn k e n : typed s → (dbg = false → modest s) → finish dbg s = Ret (Ok sn) →
  (k, e) ∈ sn_strategies sn → f32_is (o_rate (cs_opts s)) (n * 2 ^ 398) → 0 ≤ n ≤ 2 ^ 22 →
  es_weight e < 2 ^ 24 → es_weight e * n < 2 ^ 24 →
  es_weight e * n ≤ 4 * es_fee e ∧
  rate_fee (cs_opts s) (es_weight e) = - (- (es_weight e * n) / 4).
Proof. exact (fee_rate_exact dbg s sn k e n). Qed.
Print Assumptions C51_whole_rate.
Example C51_whole_rate_ex : f32_is (f32_mul (f32_of 3) f32_quarter) (3 * 2 ^ 398).
Proof. exact (f32_is_three). Qed.

(** C52: a selection fails exactly when one of the constraints is not met; the error names one with the largest
    shortfall. *)
Theorem C52_error dbg s r : typed s → (dbg = false → modest s) → finish dbg s = Ret r →
  ((∃ e, r = Err e) ↔ ∃ c, value_in s < needed s c) ∧
  ∀ e, r = Err e →
    se_selected e = value_in s ∧ 0 < se_missing e ∧ se_missing e = needed s (se_constraint e) - value_in s ∧
    ∀ c, needed s c - value_in s ≤ se_missing e.
Proof. exact (finish_err_iff dbg s r). Qed.
Print Assumptions C52_error.
Example C52_error_ex : (typed ex_short ∧ modest ex_short) ∧ finish true ex_short = Ret (Err (mkSE 30700 19944 TargetFee)).
Proof. exact (conj ex_short_ok ex_short_finish). Qed.
(** Neither overflows nor fails otherwise on modest amounts, but for the assertion of C53. *)
Theorem C52_total dbg s : typed s → modest s →
  (dbg = true → o_target (cs_opts s) = None →
   o_min_fee (cs_opts s) ≤ rate_fee (cs_opts s) (tx_weight s true)) →
  ∃ r, finish dbg s = Ret r.
Proof. exact (finish_total dbg s). Qed.
Print Assumptions C52_total.
(** Without the bound: overflow checks panic, and a build without them fails although enough is selected. *)
Theorem C52_unbounded_refuted : ∃ s, typed s ∧ needed s TargetFee < value_in s ∧ finish true s = Panic ∧
  ∃ e, finish false s = Ret (Err e) ∧ se_selected e = 0.
Proof. exact (ex_intro _ ex_huge ex_huge_finish). Qed.
Print Assumptions C52_unbounded_refuted.

(** C53: a finished selection may have no strategy: without a target, when the minimum fee is above the fee at
    the target rate.  Debug builds fail an assertion, release builds panic on choosing the best. *)
Theorem C53_strategy_refuted : ∃ s, (typed s ∧ modest s) ∧ finish true s = Panic ∧
  ∃ sn, finish false s = Ret (Ok sn) ∧ sn_strategies sn = [] ∧ best_strategy (sn_strategies sn) = Panic.
Proof. exact (ex_intro _ ex_stuck (conj ex_stuck_ok ex_stuck_finish)). Qed.
Print Assumptions C53_strategy_refuted.
(** Exactly when there is none. *)
Theorem C53_empty dbg s sn : typed s → (dbg = false → modest s) → finish dbg s = Ret (Ok sn) →
  sn_strategies sn = [] ↔
  o_target (cs_opts s) = None ∧
  value_in s < Z.max (rate_fee (cs_opts s) (tx_weight s true)) (o_min_fee (cs_opts s)) + o_min_drain (cs_opts s).
Proof. exact (finish_empty_iff dbg s sn). Qed.
Print Assumptions C53_empty.
(** Otherwise the best strategy is one of them with the least waste, in whatever order the map is read. *)
Theorem C53_best_partial dbg s sn entries : typed s → (dbg = false → modest s) → finish dbg s = Ret (Ok sn) →
  (o_target (cs_opts s) = None → o_min_fee (cs_opts s) ≤ rate_fee (cs_opts s) (tx_weight s true)) →
  entries ≡ₚ sn_strategies sn →
  ∃ k e, best_strategy entries = Ret (k, e) ∧ (k, e) ∈ sn_strategies sn ∧
    ∀ k' e', (k', e') ∈ sn_strategies sn → es_waste e ≤ es_waste e'.
Proof. exact (best_of_finish dbg s sn entries). Qed.
Print Assumptions C53_best_partial.
Example C53_best_ex : best_strategy
    [(ToDrain, mkES (Some 50000) (Some 4278) 722 1154 469); (ToFee, mkES (Some 50000) None 5000 1030 4680);
     (ToRecipient, mkES (Some 52000) None 3000 1030 2680)]
  = Ret (ToDrain, mkES (Some 50000) (Some 4278) 722 1154 469).
Proof. exact eq_refl. Qed.

(** C54: the shortest sufficient number of waiting candidates is added, in order; failing, all are. *)
Theorem C54_prefix dbg s r s' : select_until_finished dbg s = Ret (r, s') →
  ∃ k, (k ≤ length (waiting s))%nat ∧ s' = with_first s k ∧ finish dbg s' = Ret r ∧
    (∀ j, (j < k)%nat → ∃ e, finish dbg (with_first s j) = Ret (Err e)) ∧
    (∀ e, r = Err e → k = length (waiting s)).
Proof. exact (select_until_finished_spec dbg s r s'). Qed.
Print Assumptions C54_prefix.
Theorem C54_all s : typed s →
  cs_sel (with_first s (length (waiting s))) = list_to_set (seq 0 (length (cs_cands s))).
Proof. exact (with_first_all s). Qed.
Print Assumptions C54_all.
Theorem C54_total dbg s : typed s → modest s →
  (is_Some (o_target (cs_opts s)) ∨ o_min_fee (cs_opts s) = 0 ∨ dbg = false) →
  ∃ r s', select_until_finished dbg s = Ret (r, s').
Proof. exact (select_until_finished_total dbg s). Qed.
Print Assumptions C54_total.
Example C54_ex : (typed ex_empty ∧ modest ex_empty) ∧
  ∃ sn s', select_until_finished true ex_empty = Ret (Ok sn, s') ∧ bset_list (cs_sel s') = [0%nat; 1%nat].
Proof. exact (conj ex_empty_ok ex_empty_until). Qed.

(** C67: what is selected and what is not are exactly the candidates, each in order of index; applying a
    selection to a list gives the elements at the selected positions, in order. *)
Theorem C67_partition s : typed s →
  ∃ l, cs_selected s = Ret l ∧ l ++ cs_unselected s ≡ₚ imap pair (cs_cands s) ∧
    (∀ i c, (i, c) ∈ l ↔ i ∈ cs_sel s ∧ cs_cands s !! i = Some c) ∧
    (∀ i c, (i, c) ∈ cs_unselected s ↔ i ∉ cs_sel s ∧ cs_cands s !! i = Some c) ∧
    StronglySorted lt l.*1 ∧ StronglySorted lt (cs_unselected s).*1.
Proof. exact (selected_partition s). Qed.
Print Assumptions C67_partition.
Theorem C67_apply {T} sn (l : list T) :
  (∀ i, i ∈ sn_selected sn → (i < length l)%nat) → apply_selection sn l = Ret (at_indices l (sn_selected sn)).
Proof. exact (apply_selection_spec sn l). Qed.
Print Assumptions C67_apply.
Example C67_ex : at_indices [10; 20; 30; 40] {[ 3%nat; 1%nat ]} = [20; 40].
Proof. exact eq_refl. Qed.

(** C67: after any calls of [select], [deselect] and [select_all] exactly the indices are selected that were not
    deselected since they were selected; the calls say whether they changed anything. *)
Theorem C67_calls cands o l : (∀ i, Select i ∈ l → (i < length cands)%nat) →
  ∃ s bs, sel_calls (cs_new cands o) l = Ret (s, bs) ∧ cs_opts s = o ∧ cs_cands s = cands ∧ length bs = length l ∧
    (∀ k c b, l !! k = Some c → bs !! k = Some b → sel_answer (length cands) (take k l) c b) ∧
    (∀ i, cs_is_selected s i = true ↔ chosen (length cands) l i) ∧
    (cs_is_empty s = true ↔ ∀ i, ¬ chosen (length cands) l i) ∧
    (cs_all_selected s = true ↔ ∀ i, (i < length cands)%nat → chosen (length cands) l i) ∧
    StronglySorted lt (cs_selected_indexes s) ∧ (∀ i, i ∈ cs_selected_indexes s ↔ chosen (length cands) l i) ∧
    StronglySorted lt (cs_unselected_indexes s) ∧ (∀ i, i ∈ cs_unselected_indexes s ↔ (i < length cands)%nat ∧ ¬ chosen (length cands) l i) ∧
    cs_count s = length (cs_selected_indexes s).
Proof. exact (sel_calls_ok cands o l). Qed.
Print Assumptions C67_calls.
(** [select] panics for an index without a candidate. *)
Theorem C67_outside cands o l i : Select i ∈ l → (length cands ≤ i)%nat → sel_calls (cs_new cands o) l = Panic.
Proof. exact (sel_calls_panic cands o l i). Qed.
Print Assumptions C67_outside.
Example C67_calls_ex : ∃ s, sel_calls (cs_new (cs_cands ex_sel) ex_opts) [Select 1; Select 1; Deselect 0; SelectAll; Deselect 1] =
    Ret (s, [Some true; Some false; Some false; None; Some true]) ∧ length (cs_cands ex_sel) = 4%nat ∧
  cs_selected_indexes s = [0; 2; 3]%nat ∧ cs_unselected_indexes s = [1]%nat ∧ cs_all_selected s = false ∧ cs_is_empty s = false.
Proof. eexists. split; [vm_compute; reflexivity|]. by vm_compute. Qed.

(** C68: with options from [fund_outputs] and candidates from [WeightedValue::new] the weight used is the
    transaction's by BIP 141, or, without any witness, one more for each input. *)
Theorem C68_weight dbg outs dout dsat o ins s drain :
  opt_fund_outputs dbg outs dout dsat = Ret o →
  in_type U32 (outputs_weight outs) → in_type U32 (outputs_weight (outs ++ [dout]) - outputs_weight outs) →
  o_base (cs_opts s) = o_base o → o_drain (cs_opts s) = o_drain o →
  Forall2 (built dbg) ins (cs_cands s) →
  let spent := (at_indices ins (cs_sel s)).*2 in
  tx_weight s drain =
    bip141_weight spent (outs ++ (if drain then [dout] else []))
    + (if existsb has_witness spent then 0 else Z.of_nat (length spent)).
Proof. exact (weight_bip141 dbg outs dout dsat o ins s drain). Qed.
Print Assumptions C68_weight.
Example C68_ex : ∃ o s, opt_fund_outputs true ex_outs (0, 22) 109 = Ret o ∧ o_target o = Some 70000 ∧
  in_type U32 (outputs_weight ex_outs) ∧ in_type U32 (outputs_weight (ex_outs ++ [(0, 22)]) - outputs_weight ex_outs) ∧
  cs_opts s = o ∧ Forall2 (built true) ex_ins (cs_cands s) ∧ cs_sel s = {[ 1%nat; 2%nat ]} ∧
  tx_weight s true = bip141_weight [mkTI 107 []; mkTI 0 [64]] (ex_outs ++ [(0, 22)]) ∧ tx_weight s true = 1285.
Proof. exact ex_funded. Qed.
(** C68: the options [fund_outputs] makes: the target is the value of the outputs, the fee rate one satoshi per
    virtual byte, and a drain has to be worth three times what making and spending it costs. *)
Theorem C68_options dbg outs dout dsat : let base := outputs_weight outs in let drain := outputs_weight (outs ++ [dout]) - base in
  let spend := txin_base_weight + dsat in
  in_type U32 base → in_type U32 drain → in_type U32 spend → drain + spend < 2 ^ 24 →
  Forall (λ p, 0 ≤ p.1) outs → Zsum outs.*1 < 2 ^ 64 →
  ∃ o, opt_fund_outputs dbg outs dout dsat = Ret o ∧ o_target o = (match outs with [] => None | _ => Some (Zsum outs.*1) end) ∧
    o_extra o = 0 ∧ f32_is (o_rate o) (2 ^ 398) ∧ o_long_rate o = None ∧ o_min_fee o = 0 ∧
    o_base o = base ∧ o_drain o = drain ∧ o_spend_drain o = spend ∧ o_min_drain o = 3 * ((drain + spend) / 4).
Proof. exact (fund_outputs_ok dbg outs dout dsat). Qed.
Print Assumptions C68_options.
Example C68_options_ex : in_type U32 (outputs_weight ex_outs) ∧ outputs_weight (ex_outs ++ [(0, 22)]) - outputs_weight ex_outs = 124 ∧
  Zsum ex_outs.*1 = 70000 ∧ ∃ o, opt_fund_outputs true ex_outs (0, 22) 109 = Ret o ∧ o_target o = Some 70000 ∧ o_min_drain o = 294.
Proof. split; [vm_compute; split; discriminate|]. split; [done|]. split; [done|]. eexists. split; [vm_compute; reflexivity|]. done. Qed.
