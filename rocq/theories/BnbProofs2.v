(** Branch and bound: what a whole run returns. *)
From Verif Require Import BaseProofs MachineSpec F32Proofs CoinSelectModel BnbModel CoinSelectSpec BnbSpec
  CoinSelectProofs CoinSelectProofs2 CoinSelectProofs3 BnbProofs.

Lemma with_sel_id s : with_sel s (cs_sel s) = s.
Proof. by destruct s. Qed.
Lemma sel_lawful s : typed s → lawful s (cs_sel s).
Proof. by intros (_ & _ & ?). Qed.
Lemma tree_pow k : tree k = (2 ^ S k - 1)%nat.
Proof.
  induction k as [|k IH]; [done|]. cbn [tree]. rewrite IH. rewrite (Nat.pow_succ_r' 2 (S k)).
  pose proof (Nat.pow_nonzero 2 (S k)). lia.
Qed.

Section run.
Context (dbg : bool) (s : CoinSelector) (Ht : typed s) (Hm : modest s).
Context (sort : (nat * WeightedValue → nat * WeightedValue → comparison)
            → list (nat * WeightedValue) → list (nat * WeightedValue)).
Context (Hsort : ∀ cmp l, sort cmp l ≡ₚ l).
Notation o := (cs_opts s).
Notation cands := (cs_cands s).
Notation all := (imap pair cands).
Definition pool_of : list (nat * WeightedValue) :=
  sort (by_eff_desc (o_rate o)) (filter (λ p, 0 < worth o p.2) (cs_unselected s)).

Lemma pool_of_ok : pool_of ≡ₚ filter (λ p, p.1 ∉ cs_sel s ∧ 0 < worth o p.2) all.
Proof.
  unfold pool_of. rewrite Hsort. unfold cs_unselected. rewrite list_filter_filter.
  erewrite list_filter_iff; [done|]. intros p. cbn. tauto.
Qed.

Lemma value_limit_ret : fit dbg U64 (value_target s + f32_as U64 (f32_mul (f32_of (o_drain o)) (o_rate o))) = Ret (value_limit s).
Proof.
  pose proof (value_target_range s Ht Hm). rewrite fit_ret; [done|]. unfold in_type. cbn [imin imax].
  destruct Hm as (_ & Hw & _ & _ & _ & _ & (R & Hr & HR) & _).
  assert (Hd : 0 ≤ o_drain o ≤ 2 ^ 32).
  { destruct Ht as ((_ & _ & _ & _ & Hd & _) & _). unfold in_type in Hd. cbn in Hd. lia. }
  destruct (weight_mul_spec _ _ _ Hd Hr HR) as [H1 H1'].
  rewrite (f32_as_spec U64 _ _ H1). cbn [imax].
  assert (0 ≤ RN (RN (o_drain o * 2 ^ 400) * R / 2 ^ 400) / 2 ^ 400 ≤ 2 ^ 52).
  { split; [apply Z.div_pos; [apply RN_nonneg|lia]|]. apply Z.div_le_upper_bound; [lia|]. etrans; [exact H1'|]. done. }
  lia.
Qed.
Lemma worth_limit_ret : fit dbg I64 (worth_target s + drain_waste o) = Ret (worth_limit s).
Proof.
  pose proof (worth_target_range s Ht Hm). pose proof (drain_waste_bound s Ht Hm).
  rewrite fit_ret; [done|]. unfold in_type. cbn [imin imax]. lia.
Qed.

Notation start := (mkIter (mkBnb pool_of 0%nat (imax I64) s (gs wv_value pool_of) (gs (worth o) pool_of)) false).
Notation strategy := (bnb_strategy dbg (f32_gt (o_rate o) (long_term_feerate o)) (value_target s) (worth_target s)
                        (value_limit s) (worth_limit s)).
Notation short := ((value_in s + gs wv_value pool_of <? value_target s)
                   || (worth_in s + gs (worth o) pool_of <? worth_target s)).

Lemma coin_select_bnb_eq limit :
  coin_select_bnb dbg sort limit s =
    if short then Ret None
    else r ← match limit with
             | Rounds n => run_rounds dbg strategy n start None
             | Duration clock => run_clock dbg strategy clock start None
             end;
         Ret (default None r).
Proof.
  unfold coin_select_bnb.
  rewrite positive_eff_ret; [|done|done|apply filter_sub, all_sub]. cbn [mbind outcome_bind].
  fold pool_of. pose proof (value_target_range s Ht Hm) as Hvt.
  fold (value_target s). rewrite (fit_ret dbg U64 (value_target s)) by (unfold in_type; cbn [imin imax]; lia).
  cbn [mbind outcome_bind].
  rewrite <-(with_sel_id s) at 1. rewrite worth_target_ret by done. cbn [mbind outcome_bind].
  rewrite value_limit_ret. cbn [mbind outcome_bind]. rewrite worth_limit_ret. cbn [mbind outcome_bind].
  rewrite cs_selected_ret by done. cbn [mbind outcome_bind].
  change (sel_pairs s) with (inside s (cs_sel s)).
  pose proof (inside_bounds s Ht Hm (cs_sel s)) as Hib.
  pose proof (sub_nonneg s Ht Hm _ (inside_sub s (cs_sel s))) as Hin.
  rewrite totals_ret; [|done|done|apply inside_sub|lia|cbn [imax]; lia|cbn [imin]; lia|cbn [imax]; lia].
  cbn [mbind outcome_bind]. rewrite !Z.add_0_l.
  pose proof (pool_bounds s Ht Hm _ pool_of_ok) as Hpb.
  unfold bnb_new.
  rewrite totals_ret; [|done|done|by eapply pool_sub, pool_of_ok|lia|cbn [imax]; lia|cbn [imin]; lia|cbn [imax]; lia].
  cbn [mbind outcome_bind b_rem_abs b_rem_eff]. rewrite !Z.add_0_l.
  rewrite <-value_in_gs, <-worth_in_gs, with_sel_id.
  pose proof (sel_bounds s Ht Hm (cs_sel s)) as Hsb. rewrite with_sel_id in Hsb.
  rewrite (fit_ret dbg U64) by (unfold in_type; cbn [imin imax]; lia). cbn [mbind outcome_bind].
  destruct (value_in s + gs wv_value pool_of <? value_target s); [done|]. cbn [orb].
  assert (gs (worth o) pool_of ≤ 2 ^ 61).
  { unfold worth. assert (Hle : ∀ l, (∀ p, p ∈ l → 0 ≤ spend_fee o p.2) → gs (worth o) l ≤ gs wv_value l).
    { induction l as [|p l IH]; intros Hl; [done|]. rewrite !gs_cons. unfold worth at 1.
      specialize (IH (λ p Hp, Hl p (elem_of_list_further _ _ _ Hp))). pose proof (Hl p (elem_of_list_here _ _)). lia. }
    etrans; [apply Hle|lia]. intros p Hp. apply (spend_fee_range s Ht Hm).
    by apply (pool_sub s _ pool_of_ok). }
  rewrite (fit_ret dbg I64) by (unfold in_type; cbn [imin imax]; lia). cbn [mbind outcome_bind].
  done.
Qed.

Lemma start_live : live s pool_of start [].
Proof.
  split; [done|]. unfold inv. cbn [bi_state b_pool b_pos b_selection b_rem_abs b_rem_eff length]. rewrite !drop_0.
  split; [lia|]. split; [done|]. split; [done|]. split; [|done].
  rewrite <-(with_sel_id s) at 1. f_equal. 
Qed.
Lemma short_none T : short = true → choosable s T → ¬ fits (with_sel s T).
Proof.
  intros Hs HT (Hv & Hw & _). change (value_target (with_sel s T)) with (value_target s) in Hv.
  change (worth_target (with_sel s T)) with (worth_target s) in Hw.
  rewrite value_in_gs, (choosable_gs s _ pool_of_ok _ _ HT), <-value_in_gs, with_sel_id in Hv.
  rewrite worth_in_gs, (choosable_gs s _ pool_of_ok _ _ HT), <-worth_in_gs, with_sel_id in Hw.
  assert (gs wv_value (filter (λ p, p.1 ∈ T) pool_of) ≤ gs wv_value pool_of).
  { apply gs_filter_le. intros p Hp. apply (cand_value s Ht Hm). by apply (pool_sub s _ pool_of_ok). }
  assert (gs (worth o) (filter (λ p, p.1 ∈ T) pool_of) ≤ gs (worth o) pool_of).
  { apply gs_filter_le. intros p Hp. apply (pool_elem s _ pool_of_ok) in Hp as (_ & _ & ? & _). lia. }
  apply orb_true_iff in Hs as [Hs|Hs]; apply Z.ltb_lt in Hs; lia.
Qed.

Lemma bnb_found limit : clock_ok limit →
  ∃ res, coin_select_bnb dbg sort limit s = Ret res ∧
    ∀ s', res = Some s' → ∃ T, s' = with_sel s T ∧ choosable s T ∧ fits s'.
Proof.
  intros Hc. rewrite coin_select_bnb_eq. destruct short; [by exists None|].
  destruct limit as [N|clock].
  - destruct (run_rounds_spec dbg s Ht Hm _ pool_of_ok (f32_gt (o_rate o) (long_term_feerate o)) N _ _ None start_live eq_refl)
      as (r & bst & -> & Hacc & _).
    cbn [mbind outcome_bind]. eexists. split; [done|]. intros s' Hs'. destruct r as [[c|]|]; try done.
    cbn in Hs'. injection Hs' as <-. destruct Hacc as (T & -> & HT & Hf & _). by exists T.
  - destruct (run_clock_spec dbg s Ht Hm _ pool_of_ok (f32_gt (o_rate o) (long_term_feerate o)) clock _ _ None Hc start_live eq_refl)
      as (r & bst & -> & Hacc).
    cbn [mbind outcome_bind]. eexists. split; [done|]. intros s' Hs'. destruct r as [[c|]|]; try done.
    cbn in Hs'. injection Hs' as <-. destruct Hacc as (T & -> & HT & Hf & _). by exists T.
Qed.

Lemma start_left : (left_over pool_of [] ≤ 2 ^ S (length cands))%nat.
Proof.
  unfold left_over. cbn [length later]. rewrite Nat.sub_0_r, tree_pow.
  pose proof (pool_length s _ pool_of_ok).
  pose proof (Nat.pow_le_mono_r 2 (S (length pool_of)) (S (length cands)) ltac:(lia) ltac:(lia)). lia.
Qed.

Lemma bnb_enough N N' : (2 ^ S (length cands) ≤ N)%nat → (2 ^ S (length cands) ≤ N')%nat →
  coin_select_bnb dbg sort (Rounds N) s = coin_select_bnb dbg sort (Rounds N') s.
Proof.
  intros HN HN'. rewrite !coin_select_bnb_eq. destruct short; [done|].
  pose proof start_left.
  rewrite (run_rounds_enough dbg s Ht Hm _ pool_of_ok _ (2 ^ S (length cands))%nat [] start None N start_live) by lia.
  rewrite (run_rounds_enough dbg s Ht Hm _ pool_of_ok _ (2 ^ S (length cands))%nat [] start None N' start_live) by lia.
  done.
Qed.

Lemma bnb_clock_enough N rest : (2 ^ S (length cands) ≤ N)%nat →
  coin_select_bnb dbg sort (Duration (replicate N InTime ++ rest)) s = coin_select_bnb dbg sort (Rounds N) s.
Proof.
  intros HN. rewrite !coin_select_bnb_eq. destruct short; [done|]. pose proof start_left.
  rewrite (run_clock_enough dbg s Ht Hm _ pool_of_ok _ N [] start None rest start_live) by lia. done.
Qed.

Lemma bnb_optimal N : waste_mono s → (2 ^ S (length cands) ≤ N)%nat →
  ∃ res, coin_select_bnb dbg sort (Rounds N) s = Ret res ∧
    match res with
    | Some s' => (∃ T, s' = with_sel s T ∧ choosable s T) ∧ fits s' ∧
        ∀ T, choosable s T → fits (with_sel s T) → score s' ≤ score (with_sel s T)
    | None => ∀ T, choosable s T → ¬ fits (with_sel s T)
    end.
Proof.
  intros Hmono HN. rewrite coin_select_bnb_eq. destruct short eqn:Hs.
  { exists None. split; [done|]. intros T. by apply short_none. }
  pose proof start_left.
  destruct (run_rounds_spec dbg s Ht Hm _ pool_of_ok (f32_gt (o_rate o) (long_term_feerate o)) N _ _ None start_live eq_refl)
    as (r & bst & -> & Hacc & Hopt).
  cbn [mbind outcome_bind]. eexists. split; [done|].
  assert (Ha : all_opt s bst) by (apply Hopt; [done|intros T _ _ []|lia]).
  assert (Hnone : bst = imax I64 → ∀ T, choosable s T → ¬ fits (with_sel s T)).
  { intros -> T HT Hf. specialize (Ha T HT Hf). cbn [imax] in Ha. pose proof (score_range s Ht Hm T). lia. }
  destruct r as [[c|]|]; cbn [default from_option id]; [|by apply Hnone..].
  destruct Hacc as (T & -> & HT & Hf & Hsc). split; [by exists T|]. split; [done|].
  intros T' HT' Hf'. change (id (with_sel s T)) with (with_sel s T). rewrite Hsc. by apply Ha.
Qed.

Lemma rates_mono R L : f32_is (o_rate o) R → f32_is (long_term_feerate o) L → L ≤ R → waste_mono s.
Proof.
  intros Hr Hl Hle w w' Hw Hw'. unfold waste_of.
  pose proof (f32_sub_spec _ _ _ _ Hr Hl Hle) as Hd.
  assert (HR : R ≤ 2 ^ 420).
  { destruct Hm as (_ & _ & _ & _ & _ & _ & (R' & Hr' & HR') & _). by rewrite (f32_is_inj _ _ _ Hr Hr'). }
  pose proof (f32_is_range _ _ Hl).
  assert (HD : 0 ≤ RN (R - L) ≤ 2 ^ 420).
  { split; [apply RN_nonneg|]. apply RN_le_pow2; lia. }
  destruct (weight_mul_spec w _ _ ltac:(lia) Hd (proj2 HD)) as [H1 _].
  destruct (weight_mul_spec w' _ _ ltac:(lia) Hd (proj2 HD)) as [H2 _].
  rewrite (f32_as_spec I64 _ _ H1), (f32_as_spec I64 _ _ H2).
  apply Z.min_le_compat_l, Z.div_le_mono; [lia|]. apply RN_mono, Z.div_le_mono; [lia|].
  apply Z.mul_le_mono_nonneg_r; [lia|]. apply RN_mono. lia.
Qed.
End run.
