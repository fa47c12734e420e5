(** [finish] does not panic on modest amounts; [best_strategy];
    [select_until_finished]; how close the fee is to the exact one. *)
From Verif Require Import BaseProofs MachineSpec F32Proofs CoinSelectModel CoinSelectSpec CoinSelectProofs CoinSelectProofs2.

Lemma selected_waste_ret dbg s : typed s → modest s → ∃ w, selected_waste dbg s = Ret w ∧ Z.abs w ≤ 2 ^ 52.
Proof.
  intros Ht Hm. unfold selected_waste. rewrite selected_weight_ret by done. cbn [mbind outcome_bind].
  eexists. split; [done|]. apply waste_bound; [done|].
  pose proof (picked_weight_nonneg s Ht). pose proof (picked_weight_le s Ht).
  destruct Hm as (_ & Hw & _). pose proof (opts_nonneg s Ht).
  destruct Ht as ((_ & _ & _ & _ & _ & Hsd & _) & _). unfold in_type in Hsd. cbn in Hsd. lia.
Qed.

Lemma strategies_ret dbg s waste excess : typed s → modest s → Z.abs waste ≤ 2 ^ 52 →
  0 ≤ excess ≤ 2 ^ 61 →
  ∃ l, strategies dbg (cs_opts s) (value_in s - default 0 (o_target (cs_opts s)))
    (Z.max (rate_fee (cs_opts s) (tx_weight s false)) (o_min_fee (cs_opts s)))
    (Z.max (rate_fee (cs_opts s) (tx_weight s true)) (o_min_fee (cs_opts s)))
    (tx_weight s false) (tx_weight s true) waste excess = Ret l.
Proof.
  intros Ht Hm Hw He. set (o := cs_opts s).
  pose proof (tx_weight_range s Ht Hm) as [Hw0 Hw1].
  pose proof (rate_fee_modest s (tx_weight s false) Hm ltac:(lia)) as Hf0. fold o in Hf0.
  pose proof (rate_fee_modest s (tx_weight s true) Hm ltac:(lia)) as Hf1. fold o in Hf1.
  pose proof (opts_nonneg s Ht) as Hon. fold o in Hon. pose proof (target_range s Ht) as Htr. fold o in Htr.
  pose proof (drain_waste_bound s Ht Hm) as Hdw. fold o in Hdw.
  destruct Hm as (_ & _ & _ & Hmt & Hmf & Hmd & _). fold o in Hmt, Hmf, Hmd.
  unfold strategies.
  match goal with |- ∃ l, (?m ≫= _) = _ => assert (Hnd : ∃ nd, m = Ret nd) end.
  { destruct (o_target o) as [v|] eqn:Htg; [|by eexists]. cbn [from_option] in *. unfold id in *.
    rewrite (fit_ret dbg U64 (_ + excess)) by (unfold in_type; cbn [imin imax] in *; lia).
    cbn [mbind outcome_bind].
    rewrite (wrap_id I64 excess) by (unfold in_type; cbn [imin imax] in *; lia).
    rewrite (fit_ret dbg I64 (_ + excess)) by (unfold in_type; cbn [imin imax] in *; lia).
    cbn [mbind outcome_bind].
    destruct ((0 <? excess) && (0 <? o_extra o)) eqn:Hc; [|by eexists].
    rewrite (fit_ret dbg U64 (v + _)) by (unfold in_type; cbn [imin imax] in *; lia).
    cbn [mbind outcome_bind].
    rewrite (fit_ret dbg U64 (_ + (excess - _))) by (unfold in_type; cbn [imin imax] in *; lia).
    cbn [mbind outcome_bind].
    rewrite (wrap_id I64 (excess - _)) by (unfold in_type; cbn [imin imax] in *; lia).
    rewrite (fit_ret dbg I64 (_ + (excess - _))) by (unfold in_type; cbn [imin imax] in *; lia).
    cbn [mbind outcome_bind]. by eexists. }
  destruct Hnd as [nd ->]. cbn [mbind outcome_bind].
  destruct (_ <=? _); [|by eexists].
  rewrite (fit_ret dbg U64 (_ + o_min_drain o)) by (unfold in_type; cbn [imin imax] in *; lia).
  cbn [mbind outcome_bind]. destruct (_ <=? _); [|by eexists].
  rewrite (fit_ret dbg I64 (waste + _)) by (unfold in_type; cbn [imin imax] in *; lia).
  cbn [mbind outcome_bind]. by eexists.
Qed.

(** The one way [finish] can panic on modest amounts: with debug assertions, no target
    and a minimum fee above the fee of the feerate. *)
Lemma finish_total dbg s : typed s → modest s →
  (dbg = true → o_target (cs_opts s) = None →
   o_min_fee (cs_opts s) ≤ rate_fee (cs_opts s) (tx_weight s true)) →
  ∃ r, finish dbg s = Ret r.
Proof.
  intros Ht Hm Hcond. unfold finish. rewrite current_weight_ret by done. cbn [mbind outcome_bind].
  pose proof (tx_weight_range s Ht Hm) as [Hw0 Hw1].
  replace (tx_weight s false + o_drain (cs_opts s)) with (tx_weight s true) by (unfold tx_weight; lia).
  rewrite (fit_ret dbg U32) by (unfold in_type; cbn [imin imax] in *; lia). cbn [mbind outcome_bind].
  rewrite selected_absolute_value_ret by done. cbn [mbind outcome_bind].
  change (f32_as U64 (weight_fee (tx_weight s false) (o_rate (cs_opts s)))) with (rate_fee (cs_opts s) (tx_weight s false)).
  change (f32_as U64 (weight_fee (tx_weight s true) (o_rate (cs_opts s)))) with (rate_fee (cs_opts s) (tx_weight s true)).
  pose proof (picked_value_nonneg s Ht) as Hv0. pose proof (picked_value_le s Ht) as Hv1.
  rewrite shortfalls_ret by done. cbn [mbind outcome_bind]. fold (all_constraints).
  destruct (worst_shortfall _) as [[c m]|] eqn:Hworst; [by eexists|].
  assert (Hall : ∀ c, needed s c ≤ value_in s).
  { intros c. pose proof (proj1 (worst_None _) Hworst c (Z.max 0 (needed s c - value_in s))) as Hc.
    specialize (Hc ltac:(apply elem_of_list_fmap; exists c; split; [done|apply all_constraints_in])). lia. }
  pose proof (Hall TargetValue) as Hn1. pose proof (Hall TargetFee) as Hn2. pose proof (Hall MinAbsoluteFee) as Hn3.
  cbn [needed] in Hn1, Hn2, Hn3. pose proof (target_range s Ht) as Htr. pose proof (opts_nonneg s Ht) as Hon.
  pose proof (rate_fee_range (cs_opts s) (tx_weight s false)).
  pose proof Hm as (Hmv & _).
  rewrite (fit_ret dbg U64 (value_in s - _)) by (unfold in_type; cbn [imin imax] in *; lia).
  cbn [mbind outcome_bind].
  rewrite (fit_ret dbg U64 (value_in s - _ - _)) by (unfold in_type; cbn [imin imax] in *; lia).
  cbn [mbind outcome_bind].
  destruct (selected_waste_ret dbg s Ht Hm) as (w & -> & Hw). cbn [mbind outcome_bind].
  destruct (strategies_ret dbg s w (value_in s - default 0 (o_target (cs_opts s))
     - Z.max (rate_fee (cs_opts s) (tx_weight s false)) (o_min_fee (cs_opts s))) Ht Hm Hw ltac:(lia)) as [l Hl].
  rewrite Hl. cbn [mbind outcome_bind].
  destruct l as [|x l]; [|by eexists]. destruct dbg; [exfalso|by eexists].
  refine (strategies_nonempty true s Ht w [] _ _ Hall _ eq_refl Hl _ eq_refl); [done| |].
  - cbn [imax]. lia.
  - intros Htn. by apply Hcond.
Qed.

(** ** Best strategy *)

Lemma first_min_spec {A} (l : list (A * Z)) : ∀ b,
  first_min b l ∈ b :: l ∧ ∀ x, x ∈ b :: l → (first_min b l).2 ≤ x.2.
Proof.
  induction l as [|y l IH]; intros b; cbn [first_min].
  - split; [by apply elem_of_list_singleton|]. intros x ->%elem_of_list_singleton. lia.
  - destruct (IH (if y.2 <? b.2 then y else b)) as [H1 H2]. split.
    + apply elem_of_cons in H1 as [-> | H1]; [|by do 2 apply elem_of_list_further].
      destruct (y.2 <? b.2); [apply elem_of_list_further|]; apply elem_of_list_here.
    + intros x Hx. pose proof (H2 _ (elem_of_list_here _ _)) as Hh.
      apply elem_of_cons in Hx as [-> | Hx].
      { destruct (Z.ltb_spec y.2 b.2); lia. }
      apply elem_of_cons in Hx as [-> | Hx].
      { destruct (Z.ltb_spec y.2 b.2); lia. }
      apply H2. by apply elem_of_list_further.
Qed.

Lemma best_strategy_spec l : l ≠ [] →
  ∃ k e, best_strategy l = Ret (k, e) ∧ (k, e) ∈ l ∧ ∀ k' e', (k', e') ∈ l → es_waste e ≤ es_waste e'.
Proof.
  destruct l as [|x l]; [done|]. intros _. unfold best_strategy.
  set (f := λ y : ExcessStrategyKind * ExcessStrategy, (y, es_waste y.2)).
  destruct (first_min_spec (f <$> l) (f x)) as [H1 H2]. fold (f x) in *.
  rewrite <-fmap_cons in H1. apply elem_of_list_fmap in H1 as ([k e] & Heq & Hin).
  change ((x, es_waste x.2)) with (f x). rewrite Heq in *. exists k, e. split; [done|]. split; [done|].
  intros k' e' Hin'. apply (H2 (f (k', e'))). rewrite <-fmap_cons. by apply elem_of_list_fmap_1.
Qed.

(** ** [select_until_finished] *)

Lemma waiting_eq s : cs_unselected_indexes s = waiting s.
Proof. done. Qed.
Lemma with_first_0 s : with_first s 0 = s.
Proof. destruct s as [o c sel]. unfold with_first. cbn. f_equal. set_solver. Qed.
Lemma waiting_lt s i : i ∈ waiting s → (i < length (cs_cands s))%nat.
Proof. intros Hi. apply elem_of_list_filter in Hi as [_ Hi]. apply elem_of_seq in Hi. lia. Qed.

Lemma with_first_typed s k : typed s → typed (with_first s k).
Proof.
  intros (Ho & Hc & Hs). split; [done|]. split; [done|]. cbn. intros i Hi.
  apply elem_of_union in Hi as [Hi|Hi]; [by apply Hs|]. apply elem_of_list_to_set in Hi.
  apply elem_of_take in Hi as (j & Hj & _). apply elem_of_list_lookup_2 in Hj. by apply waiting_lt.
Qed.
Lemma with_first_modest s k : modest s → modest (with_first s k).
Proof. done. Qed.

Lemma with_first_S s k i : waiting s !! k = Some i →
  mkCS (cs_opts s) (cs_cands s) ({[ i ]} ∪ cs_sel (with_first s k)) = with_first s (S k).
Proof.
  intros Hi. unfold with_first. f_equal. cbn [cs_sel]. erewrite take_S_r by done.
  rewrite list_to_set_app_L. set_solver.
Qed.

Lemma select_loop_spec dbg s todo : ∀ k r0 r s', drop k (waiting s) = todo → (k ≤ length (waiting s))%nat →
  finish dbg (with_first s k) = Ret r0 → (∃ e, r0 = Err e) →
  select_loop dbg (with_first s k) r0 todo = Ret (r, s') →
  ∃ k', (k ≤ k' ≤ length (waiting s))%nat ∧ s' = with_first s k' ∧ finish dbg s' = Ret r ∧
    (∀ j, (k ≤ j < k')%nat → ∃ e, finish dbg (with_first s j) = Ret (Err e)) ∧
    (∀ e, r = Err e → k' = length (waiting s)).
Proof.
  induction todo as [|i todo IH]; intros k r0 r s' Hd Hk Hf0 He Hl.
  - cbn in Hl. injection Hl as <- <-. exists k.
    assert (length (waiting s) ≤ k)%nat.
    { apply (f_equal length) in Hd. rewrite drop_length in Hd. cbn in Hd. lia. }
    split; [lia|]. split; [done|]. split; [done|]. split; [lia|]. intros; lia.
  - assert (Hi : waiting s !! k = Some i).
    { rewrite <-(Nat.add_0_r k), <-lookup_drop, Hd. done. }
    pose proof (lookup_lt_Some _ _ _ Hi) as Hlt.
    cbn [select_loop] in Hl. unfold cs_select in Hl.
    rewrite decide_True in Hl by (apply (waiting_lt s); by eapply elem_of_list_lookup_2).
    cbn [mbind outcome_bind] in Hl.
    change (cs_opts (with_first s k)) with (cs_opts s) in Hl.
    change (cs_cands (with_first s k)) with (cs_cands s) in Hl.
    rewrite (with_first_S s k i Hi) in Hl.
    destruct (finish dbg (with_first s (S k))) as [r1|] eqn:Hf; [|done]. cbn [mbind outcome_bind] in Hl.
    destruct r1 as [sn|e].
    + injection Hl as <- <-. exists (S k). split; [lia|]. split; [done|]. split; [done|]. split; [|done].
      intros j Hj. assert (j = k) as -> by lia. destruct He as [e ->]. by exists e.
    + destruct (IH (S k) (Err e) r s') as (k' & Hk' & -> & Hfk & Hmid & Hend); try done.
      { rewrite <-Nat.add_1_r, <-drop_drop, Hd. done. }
      { by exists e. }
      exists k'. split; [lia|]. split; [done|]. split; [done|]. split; [|done].
      intros j Hj. destruct (decide (j = k)) as [->|].
      { destruct He as [e' ->]. by exists e'. }
      apply Hmid. lia.
Qed.

Lemma select_until_finished_spec dbg s r s' : select_until_finished dbg s = Ret (r, s') →
  ∃ k, (k ≤ length (waiting s))%nat ∧ s' = with_first s k ∧ finish dbg s' = Ret r ∧
    (∀ j, (j < k)%nat → ∃ e, finish dbg (with_first s j) = Ret (Err e)) ∧
    (∀ e, r = Err e → k = length (waiting s)).
Proof.
  unfold select_until_finished. destruct (finish dbg s) as [r0|] eqn:Hf; [|done]. cbn [mbind outcome_bind].
  destruct r0 as [sn|e].
  - intros [= <- <-]. exists 0%nat. rewrite with_first_0. split; [lia|]. split; [done|]. split; [done|].
    split; [lia|done].
  - intros Hl. rewrite <-(with_first_0 s) in Hf. rewrite <-(with_first_0 s) in Hl at 1. rewrite waiting_eq in Hl.
    destruct (select_loop_spec dbg s _ 0%nat _ r s' (drop_0 _) ltac:(lia) Hf ltac:(by exists e) Hl)
      as (k' & Hk' & -> & Hfk & Hmid & Hend).
    exists k'. split; [lia|]. split; [done|]. split; [done|]. split; [|done]. intros j Hj. apply Hmid. lia.
Qed.

Lemma select_loop_total dbg s todo : (∀ k, ∃ r, finish dbg (with_first s k) = Ret r) →
  ∀ k r0, drop k (waiting s) = todo → ∃ r s', select_loop dbg (with_first s k) r0 todo = Ret (r, s').
Proof.
  intros Hall. induction todo as [|i todo IH]; intros k r0 Hd; [by do 2 eexists|].
  assert (Hi : waiting s !! k = Some i).
  { rewrite <-(Nat.add_0_r k), <-lookup_drop, Hd. done. }
  cbn [select_loop]. unfold cs_select.
  rewrite decide_True by (apply (waiting_lt s); by eapply elem_of_list_lookup_2).
  cbn [mbind outcome_bind].
  change (cs_opts (with_first s k)) with (cs_opts s).
  change (cs_cands (with_first s k)) with (cs_cands s).
  rewrite (with_first_S s k i Hi). destruct (Hall (S k)) as [r1 ->]. cbn [mbind outcome_bind].
  destruct r1 as [sn|e]; [by do 2 eexists|]. apply IH.
  rewrite <-Nat.add_1_r, <-drop_drop, Hd. done.
Qed.

Lemma select_until_finished_total dbg s : typed s → modest s →
  (is_Some (o_target (cs_opts s)) ∨ o_min_fee (cs_opts s) = 0 ∨ dbg = false) →
  ∃ r s', select_until_finished dbg s = Ret (r, s').
Proof.
  intros Ht Hm Hc.
  assert (Hall : ∀ k, ∃ r, finish dbg (with_first s k) = Ret r).
  { intros k. apply finish_total; [by apply with_first_typed|by apply with_first_modest|].
    cbn. intros Hd Htn. destruct Hc as [[v Hv]|[Hc|Hc]]; [congruence| |congruence].
    pose proof (rate_fee_range (cs_opts s) (tx_weight (with_first s k) true)). lia. }
  unfold select_until_finished. destruct (Hall 0%nat) as [r0 Hr0]. rewrite with_first_0 in Hr0. rewrite Hr0.
  cbn [mbind outcome_bind]. destruct r0 as [sn|e]; [by do 2 eexists|].
  destruct (select_loop_total dbg s _ Hall 0%nat (Err e) eq_refl) as (r & s' & Hl).
  rewrite with_first_0, drop_0 in Hl. rewrite waiting_eq. eauto.
Qed.

(** With everything waiting selected, everything is selected. *)
Lemma with_first_all s : typed s →
  cs_sel (with_first s (length (waiting s))) = list_to_set (seq 0 (length (cs_cands s))).
Proof.
  intros (_ & _ & Hs). cbn [with_first cs_sel]. rewrite take_ge by lia. apply set_eq. intros i.
  rewrite elem_of_union, !elem_of_list_to_set. unfold waiting. rewrite elem_of_list_filter, elem_of_seq.
  split.
  - intros [Hi|[_ Hi]]; [specialize (Hs _ Hi); lia|done].
  - intros Hi. destruct (decide (i ∈ cs_sel s)); auto.
Qed.

(** ** The fee against the exact one *)

Lemma fee_units_lower w R : 0 ≤ w < 2 ^ 24 → 0 ≤ R → w * R < 2 ^ 424 →
  w * R ≤ fee_units w R * 2 ^ 400 + 2 ^ 399.
Proof.
  intros Hw HR Hlt. unfold fee_units. rewrite RN_exact by lia.
  replace (w * 2 ^ 400 * R / 2 ^ 400) with (w * R).
  2:{ replace (w * 2 ^ 400 * R) with (w * R * 2 ^ 400) by ring. rewrite Z.div_mul; [done|lia]. }
  pose proof (up_bounds (RN (w * R))) as [Hu _].
  pose proof (RN_err (w * R) ltac:(nia)) as [_ He].
  assert (Hulp : 2 ^ ulp_exp (w * R) ≤ 2 ^ 400).
  { apply pow2_le. unfold ulp_exp.
    assert (Z.log2 (w * R) ≤ 423); [|lia].
    destruct (Z.le_gt_cases (w * R) 0) as [H0|H0].
    - rewrite Z.log2_nonpos by done. lia.
    - apply Z.lt_succ_r. apply Z.log2_lt_pow2; done. }
  change (2 ^ 400) with (2 * 2 ^ 399) in Hulp. lia.
Qed.

(** At [n] satoshi per virtual byte the computed fee is exact. *)
Lemma fee_units_exact w n : 0 ≤ w < 2 ^ 24 → 0 ≤ n → w * n < 2 ^ 24 →
  fee_units w (n * 2 ^ 398) = - (- (w * n) / 4).
Proof.
  intros Hw Hn Hlt. unfold fee_units. rewrite RN_exact by lia.
  replace (w * 2 ^ 400 * (n * 2 ^ 398) / 2 ^ 400) with (w * n * 2 ^ 398).
  2:{ replace (w * 2 ^ 400 * (n * 2 ^ 398)) with (w * n * 2 ^ 398 * 2 ^ 400) by ring. rewrite Z.div_mul; [done|lia]. }
  rewrite RN_exact by nia. unfold up. f_equal.
  rewrite <-Z.mul_opp_l. change (2 ^ 400) with (4 * 2 ^ 398). apply Z.div_mul_cancel_r; lia.
Qed.
