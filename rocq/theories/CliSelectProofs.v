(** Proofs about the command line wallet: what it asks of coin selection and gets. *)
From stdpp Require Import sorting.
From Verif Require Export BaseProofs MachineSpec F32Proofs CoinSelectModel CoinSelectSpec CoinSelectProofs CoinSelectProofs2 CoinSelectProofs3 CoinSelectProofs4 BnbModel BnbSpec BnbProofs BnbProofs2 BnbProofs3.
From Verif Require CliModel.
Import CliModel (f32_half, LargestFirst, SmallestFirst, OldestFirst, NewestFirst, BranchAndBound).
Local Open Scope Z_scope.

Lemma f32_half_is : f32_is f32_half (2 * 2 ^ 398).
Proof. unfold f32_half. cbn [f32_is]. lia. Qed.

Section select.
Context {P : Type}.
Implicit Types (ch : CliModel.Choices P) (s : CoinSelector).

Lemma run_selection_inv dbg ch algo wvs o sn : typed (cs_new wvs o) → modest (cs_new wvs o) →
  (∀ cmp l, CliModel.ch_sort ch cmp l ≡ₚ l) → clock_ok (Duration (CliModel.ch_clock ch)) →
  CliModel.run_selection dbg ch algo (cs_new wvs o) = Ret (Ok sn) →
  ∃ s, cs_opts s = o ∧ cs_cands s = wvs ∧ typed s ∧ modest s ∧ finish dbg s = Ret (Ok sn).
Proof.
  intros Ht Hm Hs Hc E.
  assert (∀ m : outcome (result Selection SelectionError * CoinSelector), m = select_until_finished dbg (cs_new wvs o) → (r ← m; Ret r.1) = Ret (Ok sn) →
    ∃ s, cs_opts s = o ∧ cs_cands s = wvs ∧ typed s ∧ modest s ∧ finish dbg s = Ret (Ok sn)) as Huntil.
  { intros m Em E'. destruct m as [[r s']|]; [|done]. cbn [mbind outcome_bind fst] in E'. injection E' as ->.
    destruct (select_until_finished_spec dbg (cs_new wvs o) (Ok sn) s') as (k & _ & -> & Hf & _); [done|].
    exists (with_first (cs_new wvs o) k). split; [done|]. split; [done|]. split; [by apply with_first_typed|]. split; [by apply with_first_modest|done]. }
  unfold CliModel.run_selection in E.
  destruct algo; try (eapply Huntil; [reflexivity|exact E]).
  destruct (bnb_found dbg (cs_new wvs o) Ht Hm _ Hs _ Hc) as (res & Er & Hres). rewrite Er in E. cbn [mbind outcome_bind] in E.
  destruct res as [s'|]; [|eapply Huntil; [reflexivity|exact E]].
  destruct (Hres s' eq_refl) as (T & -> & HT & _). exists (with_sel (cs_new wvs o) T).
  split; [done|]. split; [done|]. split; [|split; [by apply with_sel_modest|done]].
  apply with_sel_typed; [done|]. by apply choosable_lawful.
Qed.

(** ** The options [create_tx] hands to coin selection *)
Lemma create_opts_inv `{!CliModel.CliEnv} dbg d value addr cspk cw o :
  (value ≤ 2 ^ 61)%N → (CliModel.script_len addr ≤ 10000)%N → (CliModel.script_len cspk ≤ 10000)%N → (cw ≤ 4000000)%N →
  CliModel.create_opts dbg d value addr cspk cw = Ret o →
  let outs := [(Z.of_N value, Z.of_N (CliModel.script_len addr))] in
  let dout := (0, Z.of_N (CliModel.script_len cspk)) in
  ∃ o', opt_fund_outputs dbg outs dout (Z.of_N cw) = Ret o' ∧
    in_type U32 (outputs_weight outs) ∧ in_type U32 (outputs_weight (outs ++ [dout]) - outputs_weight outs) ∧
    o_base o' = o_base o ∧ o_drain o' = o_drain o ∧
    o = mkOpt (Some (Z.of_N value)) 0 f32_half None 0 (o_base o) (o_drain o) (160 + Z.of_N cw) (Z.of_N (CliModel.dust_value d)) ∧
    0 ≤ o_base o ≤ 2 ^ 17 ∧ 0 ≤ o_drain o ≤ 2 ^ 17.
Proof.
  intros Hv Ha Hc Hw E outs dout. apply N2Z.inj_le in Hv. change (Z.of_N (2 ^ 61)) with (2 ^ 61) in Hv. unfold CliModel.create_opts in E. fold outs dout in E.
  rewrite wrap_id in E by (unfold in_type; cbn [imin imax]; lia).
  destruct (opt_fund_outputs dbg outs dout (Z.of_N cw)) as [o'|] eqn:Eo; [|done]. exists o'. split; [done|].
  assert (∀ n, (n ≤ 10000)%N → 1 ≤ varint_size (Z.of_N n) ≤ 9) as Hvar.
  { intros n _. rewrite varint_compact. apply compact_len_range. }
  pose proof (Hvar _ Ha). pose proof (Hvar _ Hc).
  assert (0 ≤ outputs_weight outs ≤ 2 ^ 17 ∧ 0 ≤ outputs_weight (outs ++ [dout]) - outputs_weight outs ≤ 2 ^ 17) as [Hb Hd].
  { unfold outputs_weight, outs, dout. cbn [app length fmap list_fmap foldr fst snd].
    change (varint_size 0) with 1. change (varint_size (Z.of_nat 1)) with 1. change (varint_size (Z.of_nat 2)) with 1. lia. }
  split; [unfold in_type; cbn [imin imax]; lia|]. split; [unfold in_type; cbn [imin imax]; lia|].
  cbn [mbind outcome_bind] in E. injection E as <-. cbn [o_base o_drain]. split; [done|]. split; [done|].
  unfold opt_fund_outputs in Eo. fold dout in Eo.
  assert (sum_fit dbg U64 0 (fst <$> outs) = Ret (Z.of_N value)) as Es.
  { unfold outs. cbn [fmap list_fmap fst sum_fit]. rewrite fit_ret by (unfold in_type; cbn [imin imax]; lia). done. }
  change (match outs with [] => Ret None | _ :: _ => v ← sum_fit dbg U64 0 (fst <$> outs); Ret (Some v) end)
    with (v ← sum_fit dbg U64 0 (fst <$> outs); Ret (Some v)) in Eo. rewrite Es in Eo. cbn [mbind outcome_bind] in Eo.
  rewrite !wrap_id in Eo by (unfold in_type; cbn [imin imax]; lia).
  unfold txin_base_weight in Eo. rewrite fit_ret in Eo by (unfold in_type; cbn [imin imax]; lia). cbn [mbind outcome_bind] in Eo.
  unfold opt_from_weights in Eo.
  match type of Eo with ((?m ≫= _) ≫= _) = _ => destruct m as [w|]; [|done] end. cbn [mbind outcome_bind] in Eo.
  match type of Eo with ((?m ≫= _) ≫= _) = _ => destruct m as [w'|]; [|done] end. cbn [mbind outcome_bind] in Eo.
  injection Eo as <-. cbn [o_target o_extra o_base o_drain o_long_rate o_min_fee o_spend_drain]. done.
Qed.

(** ** What comes back *)
Definition wv_of (p : N * N) : WeightedValue := mkWV (Z.of_N p.1) (160 + Z.of_N p.2) 1 true.
Lemma wv_of_sums (vw : list (N * N)) M : Forall (λ p, (p.2 ≤ M)%N) vw →
  Zsum (wv_value <$> (wv_of <$> vw)) = Z.of_N (foldr N.add 0%N vw.*1) ∧
  0 ≤ Zsum (wv_weight <$> (wv_of <$> vw)) ≤ Z.of_nat (length vw) * (160 + Z.of_N M) ∧
  Zsum (wv_count <$> (wv_of <$> vw)) = Z.of_nat (length vw).
Proof.
  induction 1 as [|[v w] vw Hp Hvw IH]; [done|]. destruct IH as (IH1 & IH2 & IH3).
  rewrite !fmap_cons, !Zsum_cons. cbn [foldr fst snd wv_of wv_value wv_weight wv_count length]. cbn [fst snd] in Hp.
  rewrite IH1, IH3. split; [lia|]. split; lia.
Qed.
Lemma selector_typed (vw : list (N * N)) M o : Forall (λ p, (p.2 ≤ M)%N) vw →
  (foldr N.add 0%N vw.*1 ≤ 2 ^ 61)%N → (M ≤ 4000000)%N → ((1 + N.of_nat (length vw)) * (160 + M) ≤ 2 ^ 30)%N →
  (∀ v, o_target o = Some v → 0 ≤ v ≤ 2 ^ 61) → o_extra o = 0 → o_rate o = f32_half → o_long_rate o = None → o_min_fee o = 0 →
  0 ≤ o_base o ≤ 2 ^ 17 → 0 ≤ o_drain o ≤ 2 ^ 17 → 0 ≤ o_spend_drain o ≤ 160 + Z.of_N M → 0 ≤ o_min_drain o ≤ 2 ^ 61 →
  typed (cs_new (wv_of <$> vw) o) ∧ modest (cs_new (wv_of <$> vw) o).
Proof.
  intros Hvw Hs HM Hl Ht He Hr Hlr Hmf Hb Hd Hsd Hmd.
  apply N2Z.inj_le in Hs. change (Z.of_N (2 ^ 61)) with (2 ^ 61) in Hs.
  apply N2Z.inj_le in Hl. change (Z.of_N (2 ^ 30)) with (2 ^ 30) in Hl. rewrite N2Z.inj_mul, !N2Z.inj_add, nat_N_Z in Hl.
  change (Z.of_N 1) with 1 in Hl. change (Z.of_N 160) with 160 in Hl.
  destruct (wv_of_sums vw M Hvw) as (E1 & E2 & E3). split.
  - split; [|split].
    + unfold opts_ok. cbn [cs_new cs_opts]. rewrite He, Hmf. unfold in_type. cbn [imin imax].
      split; [intros v Hv; specialize (Ht v Hv); lia|]. lia.
    + cbn [cs_new cs_cands]. apply Forall_fmap. rewrite Forall_forall in *. intros [v w] Hp. specialize (Hvw _ Hp). cbn [snd] in Hvw.
      assert (Z.of_N v ≤ 2 ^ 61).
      { assert (∀ p : N * N, p ∈ vw → p.1 ≤ foldr N.add 0 vw.*1)%N as Hin; [|specialize (Hin _ Hp); cbn [fst] in Hin; lia].
        clear. intros p Hp. induction Hp as [p l|p q l Hp IH]; cbn [fmap list_fmap foldr]; lia. }
      unfold wv_ok, in_type, wv_of. cbn [compose wv_value wv_weight wv_count fst snd imin imax]. lia.
    + cbn [cs_new cs_sel]. intros i Hi. by apply elem_of_empty in Hi.
  - unfold modest. cbn [cs_new cs_cands cs_opts]. rewrite E1, E3, Hmf, Hr, Hlr.
    split; [lia|]. split; [nia|]. split; [lia|]. split.
    { destruct (o_target o) as [v|]; [|done]. cbn [default]. specialize (Ht v eq_refl). cbn. lia. }
    split; [lia|]. split; [lia|]. split; [|done]. eexists. split; [exact f32_half_is|lia].
Qed.
End select.

(** ** The fee *)
Lemma half_mul n : 0 ≤ n < 2 ^ 24 → f32_is (f32_mul (f32_of n) f32_half) (n * 2 ^ 399).
Proof.
  intros Hn. destruct (weight_mul_spec n f32_half (2 * 2 ^ 398) ltac:(lia) f32_half_is ltac:(lia)) as [Hi _].
  rewrite (RN_exact n 400) in Hi by lia.
  replace (n * 2 ^ 400 * (2 * 2 ^ 398) / 2 ^ 400) with (n * 2 ^ 399) in Hi.
  2:{ replace (n * 2 ^ 400 * (2 * 2 ^ 398)) with (n * 2 ^ 399 * 2 ^ 400) by lia. by rewrite Z.div_mul by lia. }
  by rewrite (RN_exact n 399) in Hi by lia.
Qed.
Lemma half_drain_waste o : o_rate o = f32_half → o_long_rate o = None → 0 ≤ o_drain o → 0 ≤ o_spend_drain o →
  o_drain o + o_spend_drain o < 2 ^ 24 → drain_waste o = (o_drain o + o_spend_drain o) / 2.
Proof.
  intros Hr Hl Hd Hs Hlt. unfold drain_waste, long_term_feerate. rewrite Hr, Hl.
  pose proof (half_mul (o_drain o) ltac:(lia)) as H1. pose proof (half_mul (o_spend_drain o) ltac:(lia)) as H2.
  pose proof (f32_add_spec _ _ _ _ H1 H2) as Ha.
  rewrite <-Z.mul_add_distr_r, (RN_exact _ 399) in Ha by lia.
  assert ((o_drain o + o_spend_drain o) * 2 ^ 399 < 2 ^ 528) as Hb.
  { apply Z.lt_trans with (2 ^ 24 * 2 ^ 399); [|done]. apply Z.mul_lt_mono_pos_r; [done|lia]. }
  rewrite (f32_as_spec I64 _ _ (Ha Hb)).
  assert ((o_drain o + o_spend_drain o) * 2 ^ 399 / 2 ^ 400 = (o_drain o + o_spend_drain o) / 2) as ->.
  { change (2 ^ 400) with (2 * 2 ^ 399). by rewrite Z.div_mul_cancel_r by lia. }
  assert (0 ≤ (o_drain o + o_spend_drain o) / 2) by (apply Z.div_pos; lia).
  assert ((o_drain o + o_spend_drain o) / 2 ≤ 2 ^ 24) by (apply Z.div_le_upper_bound; lia).
  cbn [imax]. lia.
Qed.
Lemma no_input_waste dbg s waste : o_rate (cs_opts s) = f32_half → o_long_rate (cs_opts s) = None → typed s →
  (dbg = false → modest s) → selected_waste dbg s = Ret waste → waste = 0.
Proof.
  intros Hr Hl Ht Hm. unfold selected_waste, long_term_feerate. rewrite Hr, Hl.
  destruct (selected_weight dbg s) as [w|]; [|done]. cbn [mbind outcome_bind]. intros [= <-].
  change (f32_sub f32_half f32_half) with (SpecFloat.S754_zero false).
  destruct (f32_of w); done.
Qed.
Lemma half_fee o w : o_rate o = f32_half → 0 ≤ w < 2 ^ 23 → rate_fee o w = - (- w / 2).
Proof.
  intros Hr Hw. unfold rate_fee, weight_fee. rewrite Hr, (weight_fee_as U64 w _ (2 * 2 ^ 398)); [|lia|exact f32_half_is|lia|by left].
  rewrite fee_units_exact by lia. f_equal.
  replace (- (w * 2)) with (- w * 2) by lia. change 4 with (2 * 2). by rewrite Z.div_mul_cancel_r by lia.
Qed.
Lemma fee_upper dbg s sl k e t : typed s → modest s → finish dbg s = Ret (Ok sl) →
  o_target (cs_opts s) = Some t → o_extra (cs_opts s) = 0 → o_rate (cs_opts s) = f32_half → o_long_rate (cs_opts s) = None →
  o_min_fee (cs_opts s) = 0 →
  (k, e) ∈ sn_strategies sl → (∀ k' e', (k', e') ∈ sn_strategies sl → es_waste e ≤ es_waste e') →
  tx_weight s true < 2 ^ 23 → o_drain (cs_opts s) + o_spend_drain (cs_opts s) < 2 ^ 24 →
  match es_drain e with
  | Some _ => 2 * es_fee e ≤ es_weight e + 1
  | None => 2 * es_fee e ≤ es_weight e + 1 + o_drain (cs_opts s) + Z.max (o_spend_drain (cs_opts s)) (2 * o_min_drain (cs_opts s))
  end.
Proof.
  intros Ht Hm Hf Htg Hex Hr Hl Hmf Hin Hmin Hw Hd.
  destruct (finish_inv dbg s Ht _ (λ _, Hm) Hf) as (Hall & _ & Hexc & waste & Hst & Hwa & Hv & _).
  apply no_input_waste in Hwa as ->; try done.
  pose proof (tx_weight_range s Ht Hm) as Hwr.
  assert (0 ≤ o_drain (cs_opts s) ∧ 0 ≤ o_spend_drain (cs_opts s) ∧ 0 ≤ o_min_drain (cs_opts s)) as (Hd0 & Hs0 & Hmd0).
  { destruct Ht as ((_ & _ & _ & _ & H1 & H2 & H3) & _). unfold in_type in *. cbn [imin] in *. lia. }
  assert (Hw01 : tx_weight s true = tx_weight s false + o_drain (cs_opts s)) by (unfold tx_weight; lia).
  pose proof (half_fee (cs_opts s) (tx_weight s false) Hr ltac:(lia)) as Hf0.
  pose proof (half_fee (cs_opts s) (tx_weight s true) Hr ltac:(lia)) as Hf1.
  pose proof (half_drain_waste (cs_opts s) Hr Hl Hd0 Hs0 Hd) as Hdw.
  pose proof (picked_value_le s Ht) as Hvi.
  pose proof (Hall TargetFee) as Hn2. cbn [needed] in Hn2.
  unfold strategies in Hst. rewrite Htg, Hex, Hmf in *. cbn [default from_option] in *. unfold id in *.
  rewrite Hf0, Hf1 in *.
  assert (∀ w, 0 ≤ w → 0 ≤ - (- w / 2) ∧ 2 * - (- w / 2) ≤ w + 1 ∧ w ≤ 2 * - (- w / 2)) as Hceil.
  { intros w Hw0. pose proof (Z.div_mod (- w) 2 ltac:(lia)). pose proof (Z.mod_pos_bound (- w) 2 ltac:(lia)). lia. }
  pose proof (Hceil (tx_weight s false) ltac:(lia)) as Hc0. pose proof (Hceil (tx_weight s true) ltac:(lia)) as Hc1.
  assert (value_in s ≤ 2 ^ 61) as Hv61.
  { destruct Hm as (Hm & _). lia. }
  rewrite !Z.max_l in * by lia.
  set (ex := sn_excess sl) in *.
  assert (0 ≤ t) as Ht0.
  { destruct Ht as ((H1 & _) & _). specialize (H1 t Htg). unfold in_type in H1. cbn [imin] in H1. lia. }
  rewrite (fit_ret dbg U64 (- (- tx_weight s false / 2) + ex)) in Hst by (unfold in_type; cbn [imin imax]; lia). cbn [mbind outcome_bind] in Hst.
  rewrite (wrap_id I64 ex) in Hst by (unfold in_type; cbn [imin imax]; lia).
  rewrite (fit_ret dbg I64 (0 + ex)) in Hst by (unfold in_type; cbn [imin imax]; lia). cbn [mbind outcome_bind] in Hst.
  replace ((0 <? ex) && (0 <? 0)) with false in Hst by (by rewrite andb_false_r). cbn [mbind outcome_bind] in Hst.
  destruct (Z.leb_spec 0 (- (- tx_weight s true / 2))) as [_|]; [|lia].
  assert (o_min_drain (cs_opts s) ≤ 2 ^ 61) by (destruct Hm as (_ & _ & _ & _ & _ & Hm & _); lia).
  assert (tx_weight s true ≤ 2 ^ 32) by lia.
  rewrite (fit_ret dbg U64) in Hst by (unfold in_type; cbn [imin imax]; lia). cbn [mbind outcome_bind] in Hst.
  destruct (Z.leb_spec (- (- tx_weight s true / 2) + o_min_drain (cs_opts s)) (value_in s - t)) as [Hle|Hgt].
  - rewrite Hdw in Hst.
    assert (0 ≤ (o_drain (cs_opts s) + o_spend_drain (cs_opts s)) / 2) by (apply Z.div_pos; lia).
    assert (2 * ((o_drain (cs_opts s) + o_spend_drain (cs_opts s)) / 2) ≤ o_drain (cs_opts s) + o_spend_drain (cs_opts s)) by (apply Z.mul_div_le; lia).
    rewrite (fit_ret dbg I64) in Hst by (unfold in_type; cbn [imin imax]; lia). cbn [mbind outcome_bind app] in Hst.
    injection Hst as Hst. rewrite <-Hst in *. clear Hst.
    apply elem_of_cons in Hin as [[= -> ->]|Hin].
    + cbn [es_drain es_fee es_weight es_waste] in *.
      specialize (Hmin ToDrain _ (elem_of_list_further _ _ _ (elem_of_list_here _ _))). cbn [es_waste] in Hmin. lia.
    + apply elem_of_list_singleton in Hin as [= -> ->]. cbn [es_drain es_fee es_weight]. lia.
  - injection Hst as Hst. rewrite <-Hst in *. clear Hst.
    apply elem_of_list_singleton in Hin as [= -> ->]. cbn [es_drain es_fee es_weight]. lia.
Qed.
