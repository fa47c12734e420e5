(** Proofs about the command line wallet: when coin selection succeeds (C104). *)
From stdpp Require Import sorting.
From Verif Require Export CliSelectProofs.
From Verif Require CliModel CoinSelectProofs5.
Import CliModel (f32_half, LargestFirst, SmallestFirst, OldestFirst, NewestFirst, BranchAndBound).
Local Open Scope Z_scope.

Lemma at_indices_all {A} (l : list A) : at_indices l (list_to_set (seq 0 (length l))) = l.
Proof.
  unfold at_indices.
  assert (∀ (k : list A) i (X : gset nat), (∀ j, (i ≤ j < i + length k)%nat → j ∈ X) →
    (filter (λ p, p.1 ∈ X) (imap (λ j a, ((i + j)%nat, a)) k)).*2 = k) as Hk.
  { induction k as [|a k IH]; intros i X HX; [done|]. cbn [imap]. rewrite filter_cons_True by (apply HX; cbn; lia).
    rewrite fmap_cons. cbn [snd]. f_equal. erewrite <-(IH (S i) X) at 2; [|intros j Hj; apply HX; cbn; lia].
    f_equal. f_equal. apply imap_ext. intros j b _. cbn. f_equal. lia. }
  apply (Hk l 0%nat). intros j Hj. apply elem_of_list_to_set, elem_of_seq. lia.
Qed.

Section select.
Context {P : Type}.
Implicit Types (ch : CliModel.Choices P) (s : CoinSelector).
Definition everything (wvs : list WeightedValue) (o : CoinSelectorOpt) : CoinSelector :=
  mkCS o wvs (list_to_set (seq 0 (length wvs))).

Lemma ok_needed dbg s sn : typed s → modest s → finish dbg s = Ret (Ok sn) → needed s TargetFee ≤ value_in s.
Proof.
  intros Ht Hm Hf. destruct (finish_err_iff dbg s (Ok sn) Ht (λ _, Hm) Hf) as [[_ He] _].
  destruct (Z.le_gt_cases (needed s TargetFee) (value_in s)) as [|Hlt]; [done|].
  destruct He as [e ?]; [by exists TargetFee|done].
Qed.
Lemma err_needed dbg s e : typed s → modest s → is_Some (o_target (cs_opts s)) → o_min_fee (cs_opts s) = 0 →
  finish dbg s = Ret (Err e) → value_in s < needed s TargetFee.
Proof.
  intros Ht Hm [t Htg] Hmf Hf. destruct (finish_err_iff dbg s (Err e) Ht (λ _, Hm) Hf) as [[Hi _] _].
  destruct Hi as [c Hc]; [by eexists|]. pose proof (rate_fee_range (cs_opts s) (tx_weight s false)) as Hr.
  pose proof (picked_value_nonneg s Ht) as Hv0. 
  assert (0 ≤ t) as Ht0. { destruct Ht as ((H1 & _) & _). specialize (H1 t Htg). unfold in_type in H1. cbn [imin] in H1. lia. }
  cbn [needed] in *. rewrite Htg in *. cbn [default from_option] in *. unfold id in *.
  destruct c; cbn [needed] in Hc; rewrite ?Htg, ?Hmf in Hc; cbn [default from_option] in Hc; unfold id in Hc; lia.
Qed.

Lemma run_selection_exact dbg ch algo wvs o : typed (cs_new wvs o) → modest (cs_new wvs o) →
  (∀ cmp l, CliModel.ch_sort ch cmp l ≡ₚ l) → clock_ok (Duration (CliModel.ch_clock ch)) →
  is_Some (o_target o) → o_min_fee o = 0 → o_rate o = f32_half →
  template_weight (cs_new wvs o) + Zsum (wv_weight <$> wvs) < 2 ^ 23 →
  ∃ r, CliModel.run_selection dbg ch algo (cs_new wvs o) = Ret r ∧
    match r with
    | Ok sn => ∃ s, cs_opts s = o ∧ cs_cands s = wvs ∧ typed s ∧ modest s ∧ finish dbg s = Ret (Ok sn)
    | Err _ => value_in (everything wvs o) < needed (everything wvs o) TargetFee
    end.
Proof.
  intros Ht Hm Hs Hc Htg Hmf Hr Hw.
  assert (∃ r, (r ← select_until_finished dbg (cs_new wvs o); Ret r.1) = Ret r ∧
    match r with
    | Ok sn => ∃ s, cs_opts s = o ∧ cs_cands s = wvs ∧ typed s ∧ modest s ∧ finish dbg s = Ret (Ok sn)
    | Err _ => value_in (everything wvs o) < needed (everything wvs o) TargetFee
    end) as Huntil.
  { destruct (select_until_finished_total dbg (cs_new wvs o) Ht Hm (or_introl Htg)) as (r & s' & E). rewrite E. cbn [mbind outcome_bind fst].
    exists r. split; [done|]. destruct (select_until_finished_spec dbg (cs_new wvs o) r s' E) as (k & _ & -> & Hf & _ & He). destruct r as [sn|e].
    - exists (with_first (cs_new wvs o) k). split; [done|]. split; [done|]. split; [by apply with_first_typed|]. split; [by apply with_first_modest|done].
    - rewrite (He e eq_refl) in Hf.
      assert (with_first (cs_new wvs o) (length (waiting (cs_new wvs o))) = everything wvs o) as Ew.
      { unfold everything. change wvs with (cs_cands (cs_new wvs o)) at 4. rewrite <-with_first_all by done. done. }
      rewrite <-Ew. apply (err_needed dbg _ e); [by apply with_first_typed|by apply with_first_modest|done..]. }
  unfold CliModel.run_selection. destruct algo; try exact Huntil.
  destruct (bnb_found dbg (cs_new wvs o) Ht Hm _ Hs _ Hc) as (res & Er & Hres). rewrite Er. cbn [mbind outcome_bind].
  destruct res as [s'|]; [|exact Huntil].
  destruct (Hres s' eq_refl) as (T & -> & HT & _).
  assert (typed (with_sel (cs_new wvs o) T)) as HtT by (apply with_sel_typed; [done|]; by apply choosable_lawful).
  assert (modest (with_sel (cs_new wvs o) T)) as HmT by exact Hm.
  pose proof (picked_weight_le _ HtT) as Hle. cbn [with_sel cs_cands cs_new] in Hle.
  change (template_weight (cs_new wvs o)) with (template_weight (with_sel (cs_new wvs o) T)) in Hw.
  destruct (bnb_finish dbg _ _ (cs_new wvs o) _ 1 399 Ht Hm Hs Hc Er Htg) as [sn Hf].
  { cbn [cs_new cs_opts]. rewrite Hr. replace (1 * 2 ^ 399) with (2 * 2 ^ 398) by lia. exact f32_half_is. }
  { lia. } { lia. } { unfold weight_in. change (template_weight (cs_new wvs o)) with (template_weight (with_sel (cs_new wvs o) T)). lia. }
  { unfold weight_in. change (template_weight (cs_new wvs o)) with (template_weight (with_sel (cs_new wvs o) T)). lia. }
  exists (Ok sn). split; [done|]. exists (with_sel (cs_new wvs o) T). done.
Qed.

Lemma create_opts_total `{!CliModel.CliEnv} dbg d value addr cspk cw :
  (value ≤ 2 ^ 61)%N → (CliModel.script_len addr ≤ 10000)%N → (CliModel.script_len cspk ≤ 10000)%N → (cw ≤ 4000000)%N →
  ∃ o, CliModel.create_opts dbg d value addr cspk cw = Ret o ∧
    o_base o = outputs_weight [(Z.of_N value, Z.of_N (CliModel.script_len addr))].
Proof.
  intros Hv Ha Hc Hw. apply N2Z.inj_le in Hv. change (Z.of_N (2 ^ 61)) with (2 ^ 61) in Hv. unfold CliModel.create_opts.
  rewrite wrap_id by (unfold in_type; cbn [imin imax]; lia).
  set (outs := [(Z.of_N value, Z.of_N (CliModel.script_len addr))]). set (dout := (0, Z.of_N (CliModel.script_len cspk))).
  assert (∀ n, (n ≤ 10000)%N → 1 ≤ varint_size (Z.of_N n) ≤ 9) as Hvar.
  { intros n _. rewrite varint_compact. apply compact_len_range. }
  pose proof (Hvar _ Ha). pose proof (Hvar _ Hc).
  assert (0 ≤ outputs_weight outs ≤ 2 ^ 17 ∧ 0 ≤ outputs_weight (outs ++ [dout]) - outputs_weight outs ≤ 2 ^ 17) as [Hb Hd].
  { unfold outputs_weight, outs, dout. cbn [app length fmap list_fmap foldr fst snd].
    change (varint_size 0) with 1. change (varint_size (Z.of_nat 1)) with 1. change (varint_size (Z.of_nat 2)) with 1. lia. }
  destruct (CoinSelectProofs5.fund_outputs_ok dbg outs dout (Z.of_N cw)) as (o & -> & F1 & _ & _ & _ & _ & F2 & _);
    try (unfold in_type, txin_base_weight; cbn [imin imax]; lia).
  { repeat constructor. unfold outs. cbn. lia. }
  { unfold outs, Zsum. cbn [fmap list_fmap foldr fst]. lia. }
  cbn [mbind outcome_bind]. eexists. split; [done|]. cbn [o_base]. done.
Qed.
End select.
