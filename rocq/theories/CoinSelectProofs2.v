(** [finish]: balance, errors, strategies. *)
From Verif Require Import BaseProofs MachineSpec F32Proofs CoinSelectModel CoinSelectSpec CoinSelectProofs.

Lemma rate_fee_range o w : 0 ≤ rate_fee o w ≤ imax U64.
Proof. apply (f32_as_range U64). Qed.
Lemma rate_fee_modest s w : modest s → 0 ≤ w ≤ 2 ^ 32 → 0 ≤ rate_fee (cs_opts s) w ≤ 2 ^ 52.
Proof.
  intros (_ & _ & _ & _ & _ & _ & (R & Hr & HR) & _) Hw. unfold rate_fee, weight_fee.
  rewrite (weight_fee_as U64 w _ R) by auto. apply fee_units_range; [done|].
  apply f32_is_range in Hr. lia.
Qed.

Lemma long_rate_ok s : modest s → rate_ok (long_term_feerate (cs_opts s)).
Proof.
  intros (_ & _ & _ & _ & _ & _ & Hr & Hl). unfold long_term_feerate.
  destruct (o_long_rate (cs_opts s)) as [r|]; auto.
Qed.

Lemma waste_bound s w : modest s → 0 ≤ w ≤ 2 ^ 32 →
  Z.abs (f32_as I64 (f32_mul (f32_of w) (f32_sub (o_rate (cs_opts s)) (long_term_feerate (cs_opts s))))) ≤ 2 ^ 52.
Proof.
  intros Hm Hw. pose proof (long_rate_ok s Hm) as (L & Hl & HL).
  destruct Hm as (_ & _ & _ & _ & _ & _ & (R & Hr & HR) & _).
  pose proof (f32_is_range _ _ Hr). pose proof (f32_is_range _ _ Hl).
  pose proof (f32_sub_mag _ _ _ _ Hr Hl) as Hs.
  assert (HD : 0 ≤ RN (Z.abs (R - L)) ≤ 2 ^ (20 + 400)).
  { split; [apply RN_nonneg|]. apply RN_le_pow2; [lia|]. change (20 + 400) with 420. lia. }
  pose proof (RN_weight_le w Hw) as Hwr.
  pose proof (RN_mul_le (RN (w * 2 ^ 400)) _ 32 20 Hwr HD) as (Hm0 & Hm1 & Hm2); try lia.
  pose proof (f32_mul_mag _ _ _ _ (f32_is_mag _ _ (f32_of_spec w ltac:(lia))) Hs Hm2) as Hmm.
  apply f32_as_mag in Hmm. etrans; [exact Hmm|].
  apply Z.div_le_upper_bound; [lia|]. etrans; [exact Hm1|]. done.
Qed.

Lemma drain_waste_bound s : typed s → modest s → 0 ≤ drain_waste (cs_opts s) ≤ 2 ^ 53.
Proof.
  intros Ht Hm. pose proof (long_rate_ok s Hm) as (L & Hl & HL).
  destruct Hm as (_ & Hw & _ & _ & _ & _ & (R & Hr & HR) & _).
  assert (Hd : 0 ≤ o_drain (cs_opts s) ≤ 2 ^ 32 ∧ 0 ≤ o_spend_drain (cs_opts s) ≤ 2 ^ 32).
  { destruct Ht as ((_ & _ & _ & _ & Hd & Hsd & _) & _). unfold in_type in *. cbn in Hd, Hsd. lia. }
  destruct Hd as [Hd Hsd].
  destruct (weight_mul_spec _ _ _ Hd Hr HR) as [H1 H1'].
  destruct (weight_mul_spec _ _ _ Hsd Hl HL) as [H2 H2'].
  unfold drain_waste. set (A := RN (RN (o_drain (cs_opts s) * 2 ^ 400) * R / 2 ^ 400)) in *.
  set (B := RN (RN (o_spend_drain (cs_opts s) * 2 ^ 400) * L / 2 ^ 400)) in *.
  assert (HAB : RN (A + B) ≤ 2 ^ 453).
  { apply RN_le_pow2; [lia|]. change (2 ^ 453) with (2 ^ 452 + 2 ^ 452). lia. }
  assert (0 ≤ RN (A + B)) by apply RN_nonneg.
  pose proof (f32_add_spec _ _ _ _ H1 H2) as Ha. specialize (Ha ltac:(lia)).
  rewrite (f32_as_spec I64 _ _ Ha).
  assert (0 ≤ RN (A + B) / 2 ^ 400) by (apply Z.div_pos; lia).
  assert (RN (A + B) / 2 ^ 400 ≤ 2 ^ 53).
  { apply Z.div_le_upper_bound; [lia|]. etrans; [exact HAB|]. done. }
  cbn [imax]. lia.
Qed.

Section finish.
Context (dbg : bool) (s : CoinSelector) (Ht : typed s).
Notation o := (cs_opts s).
Notation t := (default 0 (o_target (cs_opts s))).
Notation fee0 := (rate_fee (cs_opts s) (tx_weight s false)).
Notation fee1 := (rate_fee (cs_opts s) (tx_weight s true)).

Lemma target_range : 0 ≤ t ≤ imax U64.
Proof.
  destruct Ht as ((Ht' & _) & _). destruct (o_target o) as [v|] eqn:Hv; cbn; [|cbn; lia].
  specialize (Ht' _ eq_refl). unfold in_type in Ht'. cbn in *. lia.
Qed.
Lemma opts_nonneg : 0 ≤ o_extra o ∧ 0 ≤ o_min_fee o ∧ 0 ≤ o_drain o ∧ 0 ≤ o_min_drain o ∧ 0 ≤ o_base o.
Proof. destruct Ht as ((_ & ? & ? & ? & ? & ? & ?) & _). unfold in_type in *. cbn in *. lia. Qed.

Lemma shortfalls_inv v l : (dbg = false → modest s) →
  shortfalls dbg o v fee0 fee1 = Ret l →
  l = (λ c, (c, Z.max 0 (needed s c - v))) <$> [TargetValue; TargetFee; MinAbsoluteFee; MinDrainValue] ∨ v < 0.
Proof.
  intros Hm Hs. destruct (Z.le_gt_cases 0 v) as [Hv|]; [left|by right].
  pose proof target_range as Htr. pose proof opts_nonneg as Hon.
  assert (Hfee : dbg = false → fee0 ≤ 2 ^ 52 ∧ fee1 ≤ 2 ^ 52).
  { intros Hd. specialize (Hm Hd). pose proof (tx_weight_range s Ht Hm).
    split; apply rate_fee_modest; try done; lia. }
  pose proof (rate_fee_range o (tx_weight s false)). pose proof (rate_fee_range o (tx_weight s true)).
  unfold shortfalls in Hs.
  destruct (fit dbg U64 (t + fee0)) as [tf|] eqn:H1; [|done]. cbn [mbind outcome_bind] in Hs.
  apply fit_inv in H1 as [-> _].
  2:{ intros Hd. specialize (Hfee Hd). destruct (Hm Hd) as (_ & _ & _ & Hlt & _). unfold in_type. cbn [imin imax] in *. lia. }
  destruct (fit dbg U64 (t + o_min_fee o)) as [tm|] eqn:H2; [|done]. cbn [mbind outcome_bind] in Hs.
  apply fit_inv in H2 as [-> _].
  2:{ intros Hd. destruct (Hm Hd) as (_ & _ & _ & Hlt & Hmf & _). unfold in_type. cbn [imin imax] in *. lia. }
  cbn [fmap list_fmap needed]. unfold sat_sub in Hs.
  destruct (o_target o) as [v0|] eqn:Htg; cbn [mbind outcome_bind] in Hs.
  - injection Hs as <-. replace (Z.max 0 (0 - v)) with 0 by lia. done.
  - destruct (fit dbg U64 (fee1 + o_min_drain o)) as [d|] eqn:H3; [|done]. cbn [mbind outcome_bind] in Hs.
    apply fit_inv in H3 as [-> _].
    2:{ intros Hd. specialize (Hfee Hd). destruct (Hm Hd) as (_ & _ & _ & _ & _ & Hmd & _). unfold in_type. cbn [imin imax] in *. lia. }
    injection Hs as <-. done.
Qed.
Lemma shortfalls_ret v : 0 ≤ v → modest s →
  shortfalls dbg o v fee0 fee1
  = Ret ((λ c, (c, Z.max 0 (needed s c - v))) <$> [TargetValue; TargetFee; MinAbsoluteFee; MinDrainValue]).
Proof.
  intros Hv Hm. pose proof target_range as Htr. pose proof opts_nonneg as Hon.
  pose proof (tx_weight_range s Ht Hm) as [Hw0 Hw1].
  pose proof (rate_fee_modest s (tx_weight s false) Hm ltac:(lia)).
  pose proof (rate_fee_modest s (tx_weight s true) Hm ltac:(lia)).
  destruct Hm as (_ & _ & _ & Hlt & Hmf & Hmd & _).
  unfold shortfalls. rewrite (fit_ret dbg U64 (t + fee0)) by (unfold in_type; cbn [imin imax]; lia).
  cbn [mbind outcome_bind]. rewrite (fit_ret dbg U64 (t + o_min_fee o)) by (unfold in_type; cbn [imin imax]; lia).
  cbn [mbind outcome_bind].
  cbn [fmap list_fmap needed]. unfold sat_sub.
  destruct (o_target o) as [v0|] eqn:Htg; cbn [mbind outcome_bind].
  - replace (Z.max 0 (0 - v)) with 0 by lia. done.
  - rewrite (fit_ret dbg U64 (fee1 + o_min_drain o)) by (unfold in_type; cbn [imin imax]; lia). done.
Qed.

(** *** The largest shortfall *)

Lemma last_max_spec {A} (l : list (A * Z)) : ∀ b,
  last_max b l ∈ b :: l ∧ ∀ x, x ∈ b :: l → x.2 ≤ (last_max b l).2.
Proof.
  induction l as [|y l IH]; intros b; cbn [last_max].
  - split; [by apply elem_of_list_singleton|]. intros x ->%elem_of_list_singleton. lia.
  - destruct (IH (if b.2 <=? y.2 then y else b)) as [H1 H2]. split.
    + apply elem_of_cons in H1 as [-> | H1]; [|by do 2 apply elem_of_list_further].
      destruct (b.2 <=? y.2); [apply elem_of_list_further|]; apply elem_of_list_here.
    + intros x Hx. pose proof (H2 _ (elem_of_list_here _ _)) as Hh.
      apply elem_of_cons in Hx as [-> | Hx].
      { destruct (Z.leb_spec b.2 y.2); lia. }
      apply elem_of_cons in Hx as [-> | Hx].
      { destruct (Z.leb_spec b.2 y.2); lia. }
      apply H2. by apply elem_of_list_further.
Qed.

Lemma worst_None l : worst_shortfall l = None ↔ ∀ c m, (c, m) ∈ l → m ≤ 0.
Proof.
  unfold worst_shortfall. destruct (filter (λ p, 0 < p.2) l) as [|x k] eqn:Hf.
  - split; [|done]. intros _ c m Hin.
    destruct (Z.le_gt_cases m 0) as [|Hgt]; [done|exfalso].
    assert ((c, m) ∈ filter (λ p : SelectionConstraint * Z, 0 < p.2) l) as Hx
      by (apply elem_of_list_filter; cbn; split; [lia|done]).
    rewrite Hf in Hx. by apply elem_of_nil in Hx.
  - split; [done|]. intros Hall. exfalso. destruct x as [c m].
    assert ((c, m) ∈ filter (λ p : SelectionConstraint * Z, 0 < p.2) l) as Hx by (rewrite Hf; apply elem_of_list_here).
    apply elem_of_list_filter in Hx as [Hpos Hin]. specialize (Hall _ _ Hin). cbn in Hpos. lia.
Qed.
Lemma worst_Some l c m : worst_shortfall l = Some (c, m) →
  (c, m) ∈ l ∧ 0 < m ∧ ∀ c' m', (c', m') ∈ l → m' ≤ m.
Proof.
  unfold worst_shortfall. destruct (filter (λ p, 0 < p.2) l) as [|x k] eqn:Hf; [done|].
  intros [= Hw]. destruct (last_max_spec k x) as [H1 H2]. rewrite Hw, <-Hf in *.
  apply elem_of_list_filter in H1 as [Hpos Hin]. cbn in Hpos. split; [done|]. split; [done|].
  intros c' m' Hin'. destruct (Z.le_gt_cases m' 0) as [|Hgt]; [lia|].
  apply (H2 (c', m')). apply elem_of_list_filter. cbn. split; [lia|done].
Qed.

(** *** The result of [finish] *)

Definition all_constraints : list SelectionConstraint := [TargetValue; TargetFee; MinAbsoluteFee; MinDrainValue].

Lemma all_constraints_in c : c ∈ all_constraints.
Proof. destruct c; unfold all_constraints; rewrite !elem_of_cons; tauto. Qed.

Lemma finish_inv r : (dbg = false → modest s) → finish dbg s = Ret r →
  match r with
  | Err e =>
      se_selected e = value_in s ∧ value_in s < needed s (se_constraint e) ∧
      se_missing e = needed s (se_constraint e) - value_in s ∧
      ∀ c, needed s c - value_in s ≤ se_missing e
  | Ok sn =>
      (∀ c, needed s c ≤ value_in s) ∧ sn_selected sn = cs_sel s ∧
      sn_excess sn = value_in s - t - Z.max fee0 (o_min_fee o) ∧
      ∃ waste, strategies dbg o (value_in s - t) (Z.max fee0 (o_min_fee o)) (Z.max fee1 (o_min_fee o))
                 (tx_weight s false) (tx_weight s true) waste (sn_excess sn) = Ret (sn_strategies sn) ∧
               selected_waste dbg s = Ret waste ∧ value_in s ≤ imax U64 ∧
               (sn_strategies sn = [] → dbg = false)
  end.
Proof.
  intros Hm Hf. unfold finish in Hf.
  destruct (current_weight dbg s) as [w0|] eqn:Hw0; [|done]. cbn [mbind outcome_bind] in Hf.
  apply current_weight_inv in Hw0 as [-> Hw0r]; [|done|done].
  destruct (fit dbg U32 (tx_weight s false + o_drain o)) as [w1|] eqn:Hw1; [|done]. cbn [mbind outcome_bind] in Hf.
  assert (Hw1e : tx_weight s false + o_drain o = tx_weight s true) by (unfold tx_weight; lia).
  rewrite Hw1e in Hw1.
  apply fit_inv in Hw1 as [-> Hw1r].
  2:{ intros Hd. pose proof (tx_weight_range s Ht (Hm Hd)). unfold in_type. cbn [imin imax]. lia. }
  destruct (selected_absolute_value dbg s) as [v|] eqn:Hv; [|done]. cbn [mbind outcome_bind] in Hf.
  apply selected_absolute_value_inv in Hv as [-> Hvr]; [|done|done].
  pose proof (picked_value_nonneg s Ht) as Hv0.
  change (f32_as U64 (weight_fee (tx_weight s false) (o_rate o))) with fee0 in Hf.
  change (f32_as U64 (weight_fee (tx_weight s true) (o_rate o))) with fee1 in Hf.
  destruct (shortfalls dbg o (value_in s) fee0 fee1) as [short|] eqn:Hs; [|done]. cbn [mbind outcome_bind] in Hf.
  apply shortfalls_inv in Hs as [Hs|]; [|lia|done]. fold all_constraints in Hs.
  assert (Hin : ∀ c, (c, Z.max 0 (needed s c - value_in s)) ∈ short).
  { intros c. rewrite Hs. apply elem_of_list_fmap. exists c. split; [done|]. apply all_constraints_in. }
  destruct (worst_shortfall short) as [[c m]|] eqn:Hworst.
  - injection Hf as <-. apply worst_Some in Hworst as (Hc & Hpos & Hmax). cbn [se_selected se_missing se_constraint].
    rewrite Hs in Hc. apply elem_of_list_fmap in Hc as (c' & [= -> ->] & _).
    split; [done|]. split; [lia|]. split; [lia|]. intros c. specialize (Hmax _ _ (Hin c)). lia.
  - assert (Hall : ∀ c, needed s c ≤ value_in s).
    { intros c. pose proof (proj1 (worst_None short) Hworst _ _ (Hin c)). lia. }
    pose proof (Hall TargetValue) as Hn1. pose proof (Hall TargetFee) as Hn2. pose proof (Hall MinAbsoluteFee) as Hn3.
    cbn [needed] in Hn1, Hn2, Hn3. pose proof target_range as Htr. pose proof opts_nonneg as Hon.
    pose proof (rate_fee_range o (tx_weight s false)).
    rewrite (fit_ret dbg U64 (value_in s - t)) in Hf by (unfold in_type; cbn [imin imax] in *; lia).
    cbn [mbind outcome_bind] in Hf.
    rewrite (fit_ret dbg U64 (value_in s - t - _)) in Hf by (unfold in_type; cbn [imin imax] in *; lia).
    cbn [mbind outcome_bind] in Hf.
    destruct (selected_waste dbg s) as [waste|] eqn:Hwaste; [|done]. cbn [mbind outcome_bind] in Hf.
    destruct (strategies _ _ _ _ _ _ _ _ _) as [st|] eqn:Hst; [|done]. cbn [mbind outcome_bind] in Hf.
    destruct st as [|x st].
    + destruct dbg; [done|]. injection Hf as <-. cbn [sn_selected sn_excess sn_strategies].
      split; [done|]. split; [done|]. split; [done|]. exists waste. auto.
    + injection Hf as <-. cbn [sn_selected sn_excess sn_strategies].
      split; [done|]. split; [done|]. split; [done|]. exists waste. split; [done|]. split; [done|]. split; [done|]. done.
Qed.

(** *** The strategies *)

Lemma strategies_good waste l excess :
  (dbg = false → modest s) → (∀ c, needed s c ≤ value_in s) → value_in s ≤ imax U64 →
  excess = value_in s - t - Z.max fee0 (o_min_fee o) →
  strategies dbg o (value_in s - t) (Z.max fee0 (o_min_fee o)) (Z.max fee1 (o_min_fee o))
    (tx_weight s false) (tx_weight s true) waste excess = Ret l →
  NoDup l.*1 ∧ (∀ k e, (k, e) ∈ l → strategy_good s k e) ∧
  (∀ v, o_target o = Some v → ∃ e, (ToFee, e) ∈ l ∧ es_recipient e = Some v) ∧
  (value_in s - t < Z.max fee1 (o_min_fee o) + o_min_drain o ↔ ToDrain ∉ l.*1).
Proof.
  intros Hm Hall Hvr He Hst.
  pose proof (Hall TargetValue) as Hn1. pose proof (Hall TargetFee) as Hn2. pose proof (Hall MinAbsoluteFee) as Hn3.
  cbn [needed] in Hn1, Hn2, Hn3. pose proof target_range as Htr. pose proof opts_nonneg as Hon.
  pose proof (rate_fee_range o (tx_weight s false)) as Hf0. pose proof (rate_fee_range o (tx_weight s true)) as Hf1.
  unfold strategies in Hst.
  (* the strategies without a drain *)
  match type of Hst with (?m ≫= _) = _ => destruct m as [nd|] eqn:Hnd; [|done] end.
  cbn [mbind outcome_bind] in Hst.
  assert (Hnd' : NoDup nd.*1 ∧ (∀ k e, (k, e) ∈ nd → strategy_good s k e) ∧
                 (∀ v, o_target o = Some v → ∃ e, (ToFee, e) ∈ nd ∧ es_recipient e = Some v) ∧ ToDrain ∉ nd.*1).
  { clear Hst. destruct (o_target o) as [v|] eqn:Htg.
    2:{ injection Hnd as <-. split; [constructor|]. split; [by intros k e ?%elem_of_nil|]. split; [done|]. apply not_elem_of_nil. }
    change (default 0 (Some v)) with v in *.
    rewrite (fit_ret dbg U64 (_ + excess)) in Hnd by (unfold in_type; cbn [imin imax] in *; lia).
    cbn [mbind outcome_bind] in Hnd.
    destruct (fit dbg I64 (waste + wrap I64 excess)) as [wst|]; [|done]. cbn [mbind outcome_bind] in Hnd.
    assert (Hgood : ∀ w, strategy_good s ToFee (mkES (Some v) None (Z.max fee0 (o_min_fee o) + excess) (tx_weight s false) w)).
    { intros w. unfold strategy_good. cbn [es_recipient es_drain es_fee es_weight from_option]; unfold id. rewrite Htg.
      split; [lia|]. split; [done|]. split; [lia|]. split; [lia|]. split; [done|].
      exists v. split; [done|]. split; [lia|]. done. }
    destruct ((0 <? excess) && (0 <? o_extra o)) eqn:Hc.
    - apply andb_true_iff in Hc as [Hc1 Hc2]. apply Z.ltb_lt in Hc1, Hc2.
      rewrite (fit_ret dbg U64 (v + _)) in Hnd by (unfold in_type; cbn [imin imax] in *; lia).
      cbn [mbind outcome_bind] in Hnd.
      rewrite (fit_ret dbg U64 (Z.max _ _ + _)) in Hnd by (unfold in_type; cbn [imin imax] in *; lia).
      cbn [mbind outcome_bind] in Hnd.
      destruct (fit dbg I64 (waste + wrap I64 (excess - _))) as [wst'|]; [|done]. cbn [mbind outcome_bind] in Hnd.
      injection Hnd as <-. split; [|split; [|split]].
      + cbn. repeat constructor; rewrite ?elem_of_cons, ?elem_of_nil; naive_solver.
      + intros k e Hin. rewrite !elem_of_cons, elem_of_nil in Hin.
        destruct Hin as [[= -> ->]|[[= -> ->]|[]]]; [apply Hgood|].
        unfold strategy_good. cbn [es_recipient es_drain es_fee es_weight from_option]; unfold id. rewrite Htg.
        split; [lia|]. split; [done|]. split; [lia|]. split; [lia|]. split; [done|].
        eexists. split; [done|]. split; [lia|]. done.
      + intros v' [= <-]. eexists. split; [apply elem_of_list_here|done].
      + cbn. rewrite !elem_of_cons, elem_of_nil. naive_solver.
    - injection Hnd as <-. split; [|split; [|split]].
      + cbn. apply NoDup_singleton.
      + intros k e Hin%elem_of_list_singleton. injection Hin as -> ->. apply Hgood.
      + intros v' [= <-]. eexists. split; [apply elem_of_list_here|done].
      + cbn. rewrite elem_of_list_singleton. done. }
  clear Hnd. destruct Hnd' as (Hnd & Hgood & Htofee & Hno).
  destruct (Z.leb_spec (o_min_fee o) (Z.max fee1 (o_min_fee o))) as [_|]; [|lia].
  destruct (fit dbg U64 (Z.max fee1 (o_min_fee o) + o_min_drain o)) as [need|] eqn:Hneed; [|done].
  cbn [mbind outcome_bind] in Hst.
  apply fit_inv in Hneed as [-> Hneedr].
  2:{ intros Hd. specialize (Hm Hd). pose proof (tx_weight_range s Ht Hm).
      pose proof (rate_fee_modest s (tx_weight s true) Hm ltac:(lia)).
      destruct Hm as (_ & _ & _ & _ & ? & ? & _). unfold in_type. cbn [imin imax]. lia. }
  destruct (Z.leb_spec (Z.max fee1 (o_min_fee o) + o_min_drain o) (value_in s - t)) as [Hle|Hgt].
  - destruct (fit dbg I64 (waste + drain_waste o)) as [wst|]; [|done]. cbn [mbind outcome_bind] in Hst.
    injection Hst as <-. split; [|split; [|split]].
    + rewrite fmap_app. apply NoDup_app. split; [done|]. split; [|cbn; apply NoDup_singleton].
      intros k Hk. cbn. rewrite elem_of_list_singleton. intros ->. done.
    + intros k e Hin. apply elem_of_app in Hin as [Hin|Hin]; [by apply Hgood|].
      apply elem_of_list_singleton in Hin as [= -> ->].
      unfold strategy_good. cbn [es_recipient es_drain es_fee es_weight].
      unfold sat_sub. split; [destruct (o_target o); cbn [from_option] in *; unfold id in *; lia|]. split; [done|]. split; [lia|]. split; [lia|].
      split; [split; [done|lia]|].
      destruct (o_target o) as [v|]; [|done]. exists v. split; [done|]. split; [lia|done].
    + intros v Hv. destruct (Htofee v Hv) as (e & He1 & He2). exists e. split; [|done]. apply elem_of_app. by left.
    + split; [lia|]. intros Hn. exfalso. apply Hn. rewrite fmap_app. apply elem_of_app. right. cbn. apply elem_of_list_here.
  - injection Hst as <-. done.
Qed.

(** Without a target, the drain can be paid for unless the minimum absolute fee is
    above the fee of the feerate. *)
Lemma strategies_nonempty waste l excess :
  (dbg = false → modest s) → (∀ c, needed s c ≤ value_in s) → value_in s ≤ imax U64 →
  excess = value_in s - t - Z.max fee0 (o_min_fee o) →
  strategies dbg o (value_in s - t) (Z.max fee0 (o_min_fee o)) (Z.max fee1 (o_min_fee o))
    (tx_weight s false) (tx_weight s true) waste excess = Ret l →
  (o_target o = None → o_min_fee o ≤ fee1) → l ≠ [].
Proof.
  intros Hm Hall Hvr He Hst Hcond ->.
  destruct (strategies_good waste [] excess Hm Hall Hvr He Hst) as (_ & _ & H1 & H2).
  destruct (o_target o) as [v|] eqn:Htg.
  - destruct (H1 v eq_refl) as (e & Hin & _). by apply elem_of_nil in Hin.
  - pose proof (Hall MinDrainValue) as Hn. unfold needed in Hn. rewrite Htg in Hn.
    specialize (Hcond eq_refl). cbn [default] in H2.
    pose proof (proj2 H2 (not_elem_of_nil _)). lia.
Qed.

End finish.
