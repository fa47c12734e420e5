(** Proofs about the selector's accessors and the default options (C67, C68). *)
From stdpp Require Import sorting.
From Verif Require Import BaseProofs MachineSpec F32Proofs CoinSelectModel CoinSelectSpec CoinSelectProofs CoinSelectProofs2 CoinSelectProofs3 CoinSelectProofs4.

(** ** Calls *)
Lemma chosen_nil n i : ¬ chosen n [] i.
Proof. intros (l1 & c & l2 & E & _). by destruct l1. Qed.
Lemma chosen_snoc n l c i : chosen n (l ++ [c]) i ↔
  (c = Select i ∨ c = SelectAll ∧ (i < n)%nat) ∨ c ≠ Deselect i ∧ chosen n l i.
Proof.
  split.
  - intros (l1 & c' & l2 & E & Hc & Hd). destruct l2 as [|e l2 _] using rev_ind.
    + apply app_inj_tail in E as [-> <-]. by left.
    + rewrite app_comm_cons, app_assoc in E. apply app_inj_tail in E as [-> ->]. right.
      split; [intros ->; apply Hd; set_solver|]. exists l1, c', l2. split; [done|]. split; [done|]. set_solver.
  - intros [Hc|[Hne (l1 & c' & l2 & -> & Hc & Hd)]].
    + exists l, c, []. split; [done|]. split; [done|]. set_solver.
    + exists l1, c', (l2 ++ [c]). split; [by rewrite <-app_assoc|]. split; [done|].
      rewrite elem_of_app, elem_of_list_singleton. naive_solver.
Qed.

(** The selector after the calls [l]. *)
Definition sel_after cands o l s : Prop :=
  cs_opts s = o ∧ cs_cands s = cands ∧ (∀ i, i ∈ cs_sel s → (i < length cands)%nat) ∧ ∀ i, i ∈ cs_sel s ↔ chosen (length cands) l i.
Lemma sel_calls_gen cands o l pre s : sel_after cands o pre s → (∀ i, Select i ∈ l → (i < length cands)%nat) →
  ∃ s' bs, sel_calls s l = Ret (s', bs) ∧ sel_after cands o (pre ++ l) s' ∧ length bs = length l ∧
    ∀ k c b, l !! k = Some c → bs !! k = Some b → sel_answer (length cands) (pre ++ take k l) c b.
Proof.
  revert pre s. induction l as [|c l IH]; intros pre s Hs Hl.
  { exists s, []. rewrite app_nil_r. split; [done|]. split; [done|]. split; [done|]. intros k ? ? Hk. by destruct k. }
  assert (∃ s1 b, sel_calls s (c :: l) = ('(s2, bs) ← sel_calls s1 l; Ret (s2, b :: bs)) ∧
            sel_after cands o (pre ++ [c]) s1 ∧ sel_answer (length cands) pre c b) as (s1 & b & E & Hs1 & Hb).
  { destruct Hs as (Ho & Hc & Hlt & Hsel). destruct c as [i|i|]; cbn [sel_calls].
    - unfold cs_select. rewrite Hc. assert (i < length cands)%nat by (apply Hl; set_solver). rewrite decide_True by done.
      cbn [mbind outcome_bind]. do 2 eexists. split; [done|]. split.
      + split; [done|]. split; [done|]. cbn [cs_sel]. split; [set_solver|]. intros j. rewrite elem_of_union, elem_of_singleton, Hsel, chosen_snoc.
        split; [intros [->|?]; [by left; left|by right]|]. intros [[[= ->]|[? _]]|[_ ?]]; [by left|done|by right].
      + cbn. eexists. split; [done|]. rewrite <-Hsel. case_bool_decide; cbn; naive_solver.
    - unfold cs_deselect. cbn [mbind outcome_bind]. do 2 eexists. split; [done|]. split.
      + split; [done|]. split; [done|]. cbn [cs_sel]. split; [set_solver|]. intros j. rewrite elem_of_difference, elem_of_singleton, Hsel, chosen_snoc.
        naive_solver.
      + cbn. eexists. split; [done|]. rewrite <-Hsel. case_bool_decide; naive_solver.
    - cbn [mbind outcome_bind]. do 2 eexists. split; [done|]. split; [|done].
      split; [done|]. split; [done|]. cbn [cs_sel cs_select_all]. rewrite Hc. split; [intros j; rewrite elem_of_list_to_set, elem_of_seq; lia|]. intros j.
      rewrite elem_of_list_to_set, elem_of_seq, chosen_snoc. split; [intros [_ ?]; left; right; split; [done|lia]|].
      intros [[?|[_ ?]]|[_ Hj]]; [done|lia|]. apply Hsel, Hlt in Hj. lia. }
  destruct (IH _ _ Hs1) as (s' & bs & E' & Hs' & Hlen & Hbs); [set_solver|].
  exists s', (b :: bs). rewrite E, E'. split; [done|]. rewrite <-app_assoc in Hs'. split; [done|]. split; [cbn; lia|].
  intros [|k] c' b' Hk Hk'; cbn in Hk, Hk'; [injection Hk as <-; injection Hk' as <-; by rewrite app_nil_r|].
  specialize (Hbs _ _ _ Hk Hk'). by rewrite <-app_assoc in Hbs.
Qed.

Lemma sel_calls_ok cands o l : (∀ i, Select i ∈ l → (i < length cands)%nat) →
  ∃ s bs, sel_calls (cs_new cands o) l = Ret (s, bs) ∧ cs_opts s = o ∧ cs_cands s = cands ∧ length bs = length l ∧
    (∀ k c b, l !! k = Some c → bs !! k = Some b → sel_answer (length cands) (take k l) c b) ∧
    (∀ i, cs_is_selected s i = true ↔ chosen (length cands) l i) ∧
    (cs_is_empty s = true ↔ ∀ i, ¬ chosen (length cands) l i) ∧
    (cs_all_selected s = true ↔ ∀ i, (i < length cands)%nat → chosen (length cands) l i) ∧
    StronglySorted lt (cs_selected_indexes s) ∧ (∀ i, i ∈ cs_selected_indexes s ↔ chosen (length cands) l i) ∧
    StronglySorted lt (cs_unselected_indexes s) ∧ (∀ i, i ∈ cs_unselected_indexes s ↔ (i < length cands)%nat ∧ ¬ chosen (length cands) l i) ∧
    cs_count s = length (cs_selected_indexes s).
Proof.
  intros Hl. destruct (sel_calls_gen cands o l [] (cs_new cands o)) as (s & bs & E & (Ho & Hc & Hlt & Hsel) & Hlen & Hbs); [|done|].
  { split; [done|]. split; [done|]. cbn. split; [set_solver|]. intros i. split; [set_solver|]. by intros ?%chosen_nil. }
  cbn [app] in *. exists s, bs. split; [done|]. split; [done|]. split; [done|]. split; [done|]. split; [exact Hbs|].
  split; [intros i; unfold cs_is_selected; by rewrite bool_decide_eq_true|].
  split. { unfold cs_is_empty. rewrite bool_decide_eq_true, <-leibniz_equiv_iff, elem_of_equiv_empty. setoid_rewrite Hsel. done. }
  assert (cs_selected_indexes s = filter (λ i, i ∈ cs_sel s) (seq 0 (length cands))) as Hi by exact (bset_list_seq _ _ Hlt).
  assert (∀ (Q : nat → Prop) `{∀ x, Decision (Q x)} n m, StronglySorted lt (filter Q (seq m n))) as Hss.
  { clear. intros Q HQ n. induction n as [|n IH]; intros m; [constructor|]. cbn [seq]. rewrite filter_cons. destruct (decide _); [|done].
    constructor; [done|]. apply Forall_forall. intros j [_ Hj]%elem_of_list_filter. apply elem_of_seq in Hj. lia. }
  assert (cs_sel s ⊆ list_to_set (seq 0 (length cands))) as Hsub.
  { intros i Hi'. rewrite elem_of_list_to_set, elem_of_seq. apply Hlt in Hi'. lia. }
  assert (size (list_to_set (seq 0 (length cands)) : gset nat) = length cands) as Hsz.
  { rewrite size_list_to_set by apply NoDup_seq. apply seq_length. }
  split.
  { unfold cs_all_selected. rewrite bool_decide_eq_true, Hc. split.
    - intros Hn i Hii. apply Hsel. destruct (decide (i ∈ cs_sel s)) as [|Hni]; [done|].
      assert (cs_sel s ⊂ list_to_set (seq 0 (length cands))) as Hss'%subset_size; [|lia].
      split; [done|]. intros Hsub'. apply Hni, Hsub'. rewrite elem_of_list_to_set, elem_of_seq. lia.
    - intros Hall. rewrite <-Hsz. f_equal. apply leibniz_equiv, (anti_symm (⊆)); [done|].
      intros i. rewrite elem_of_list_to_set, elem_of_seq. intros ?. apply Hsel, Hall. lia. }
  split; [rewrite Hi; apply Hss|].
  split. { intros i. rewrite Hi, elem_of_list_filter, elem_of_seq, Hsel. split; [tauto|]. intros Hch. split; [done|]. apply Hsel, Hlt in Hch. lia. }
  split; [apply Hss|].
  split. { intros i. unfold cs_unselected_indexes. rewrite elem_of_list_filter, elem_of_seq, Hc, Hsel. split; [intros [? ?]; split; [lia|done]|intros [? ?]; split; [done|lia]]. }
  unfold cs_count, cs_selected_indexes. by rewrite bset_list_perm.
Qed.
Lemma sel_calls_panic cands o l i : Select i ∈ l → (length cands ≤ i)%nat → sel_calls (cs_new cands o) l = Panic.
Proof.
  intros Hin Hi. assert (∀ s, cs_cands s = cands → sel_calls s l = Panic) as Hg; [|by apply Hg].
  induction l as [|c l IH]; intros s Hs; [by apply elem_of_nil in Hin|]. cbn [sel_calls].
  apply elem_of_cons in Hin as [<-|Hin].
  { unfold cs_select. rewrite Hs, decide_False by lia. done. }
  specialize (IH Hin). destruct c as [j|j|].
  - unfold cs_select. destruct (decide _); [|done]. cbn [mbind outcome_bind]. by rewrite IH.
  - unfold cs_deselect. cbn [mbind outcome_bind]. by rewrite IH.
  - cbn [mbind outcome_bind]. by rewrite IH.
Qed.

(** ** Default options *)
Lemma fund_outputs_ok dbg outs dout dsat : let base := outputs_weight outs in let drain := outputs_weight (outs ++ [dout]) - base in
  let spend := txin_base_weight + dsat in
  in_type U32 base → in_type U32 drain → in_type U32 spend → drain + spend < 2 ^ 24 →
  Forall (λ p, 0 ≤ p.1) outs → Zsum outs.*1 < 2 ^ 64 →
  ∃ o, opt_fund_outputs dbg outs dout dsat = Ret o ∧ o_target o = (match outs with [] => None | _ => Some (Zsum outs.*1) end) ∧
    o_extra o = 0 ∧ f32_is (o_rate o) (2 ^ 398) ∧ o_long_rate o = None ∧ o_min_fee o = 0 ∧
    o_base o = base ∧ o_drain o = drain ∧ o_spend_drain o = spend ∧ o_min_drain o = 3 * ((drain + spend) / 4).
Proof.
  intros base drain spend Hb Hd Hs Hlt Hpos Hsum. unfold opt_fund_outputs. fold base. fold drain. fold spend.
  assert (sum_fit dbg U64 0 (fst <$> outs) = Ret (Zsum outs.*1)) as Es.
  { rewrite (sum_fit_ret dbg U64 (fst <$> outs) 0); [done|lia| |cbn; lia|cbn; lia]. by apply Forall_fmap. }
  assert (match outs with [] => Ret None | _ :: _ => v ← sum_fit dbg U64 0 (fst <$> outs); Ret (Some v) end =
    Ret (match outs with [] => None | _ => Some (Zsum outs.*1) end)) as -> by (destruct outs; [done|by rewrite Es]).
  cbn [mbind outcome_bind]. rewrite fit_ret by done. cbn [mbind outcome_bind]. rewrite !wrap_id by done.
  assert (f32_is f32_quarter (2 ^ 398)) as Hq by (cbn [f32_is f32_quarter]; vm_compute; intuition congruence).
  unfold in_type in Hb, Hd, Hs. cbn [imin imax] in Hb, Hd, Hs.
  unfold opt_from_weights. rewrite fit_ret by (unfold in_type; cbn [imin imax]; lia). cbn [mbind outcome_bind].
  assert (f32_as U64 (f32_mul (f32_of (drain + spend)) f32_quarter) = (drain + spend) / 4) as ->.
  { destruct (weight_mul_spec (drain + spend) f32_quarter (2 ^ 398)) as [Hm _]; [lia|done|lia|].
    rewrite (f32_as_spec U64 _ _ Hm), RN_exact by lia.
    replace ((drain + spend) * 2 ^ 400 * 2 ^ 398 / 2 ^ 400) with ((drain + spend) * 2 ^ 398).
    2:{ replace ((drain + spend) * 2 ^ 400 * 2 ^ 398) with ((drain + spend) * 2 ^ 398 * 2 ^ 400) by ring. rewrite Z.div_mul; [done|lia]. }
    rewrite RN_exact by lia. change (2 ^ 400) with (4 * 2 ^ 398). rewrite Z.div_mul_cancel_r by lia.
    pose proof (Z.div_le_upper_bound (drain + spend) 4 (2 ^ 24)). cbn [imax]. lia. }
  pose proof (Z.div_pos (drain + spend) 4 ltac:(lia) ltac:(lia)). pose proof (Z.div_le_upper_bound (drain + spend) 4 (2 ^ 24)).
  rewrite fit_ret by (unfold in_type; cbn [imin imax]; lia). cbn [mbind outcome_bind]. eexists. split; [reflexivity|].
  cbn [o_target o_extra o_rate o_long_rate o_min_fee o_base o_drain o_spend_drain o_min_drain]. done.
Qed.
