(** Branch and bound: whether a solution can be finished. *)
From Verif Require Import BaseProofs MachineSpec F32Proofs CoinSelectModel BnbModel CoinSelectSpec BnbSpec
  CoinSelectProofs CoinSelectProofs2 CoinSelectProofs3 CoinSelectProofs4 BnbProofs BnbProofs2.

Lemma compact_len_mono n m : n ≤ m → compact_len n ≤ compact_len m.
Proof.
  intros Hle. unfold compact_len.
  destruct (Z.ltb_spec n 253), (Z.ltb_spec m 253), (Z.ltb_spec n (2 ^ 16)), (Z.ltb_spec m (2 ^ 16)),
    (Z.ltb_spec n (2 ^ 32)), (Z.ltb_spec m (2 ^ 32)); lia.
Qed.
Lemma existsb_picked (s : CoinSelector) : existsb wv_segwit (picked s) = true → existsb wv_segwit (cs_cands s) = true.
Proof.
  rewrite !existsb_exists. intros (c & Hc & Hs). exists c. split; [|done].
  apply elem_of_list_In. apply elem_of_list_In in Hc. unfold picked, at_indices in Hc.
  apply elem_of_list_fmap in Hc as (p & -> & [_ Hp]%elem_of_list_filter).
  apply elem_of_lookup_imap in Hp as (i & c' & -> & Hc'). by apply elem_of_list_lookup_2 in Hc'.
Qed.
Lemma template_covers s : typed s → tx_weight s false ≤ template_weight s + weight_in s.
Proof.
  intros Ht. unfold tx_weight, inputs_weight, template_weight, weight_in.
  pose proof (compact_len_mono _ _ (picked_count_le s Ht)). pose proof (existsb_picked s) as Hb.
  destruct (existsb wv_segwit (picked s)), (existsb wv_segwit (cs_cands s)); lia.
Qed.

(** ** Fees of parts *)

Lemma up_add x y : up (x + y) ≤ up x + up y.
Proof. apply up_le. pose proof (up_bounds x). pose proof (up_bounds y). lia. Qed.

Lemma fee_units_mul w R : 0 ≤ w < 2 ^ 24 → fee_units w R = up (RN (w * R)).
Proof.
  intros Hw. unfold fee_units. rewrite RN_exact by lia.
  replace (w * 2 ^ 400 * R) with (w * R * 2 ^ 400) by ring. rewrite Z.div_mul; [done|lia].
Qed.

(** Rates with few enough digits: nothing is rounded but the result. *)
Lemma fee_units_few w r a : 251 ≤ a → 0 ≤ w < 2 ^ 24 → 0 ≤ r → w * r < 2 ^ 24 → fee_units w (r * 2 ^ a) = up (w * (r * 2 ^ a)).
Proof. intros Ha Hw Hr Hlt. rewrite fee_units_mul by done. rewrite Z.mul_assoc, RN_exact by nia. done. Qed.
Lemma parts_few ws r a b : 251 ≤ a → 0 ≤ r → Forall (λ w, 0 ≤ w) ws → 0 ≤ b →
  b + Zsum ws < 2 ^ 24 → (b + Zsum ws) * r < 2 ^ 24 →
  fee_units (b + Zsum ws) (r * 2 ^ a) ≤ fee_units b (r * 2 ^ a) + Zsum ((λ w, fee_units w (r * 2 ^ a)) <$> ws).
Proof.
  intros Ha Hr Hws. revert b. induction Hws as [|w ws Hw Hws IH]; intros b Hb Hlt Hlt'.
  { cbn. rewrite !Z.add_0_r. lia. }
  rewrite fmap_cons, !Zsum_cons in *. pose proof (Zsum_nonneg ws Hws).
  rewrite Z.add_assoc in *. etrans; [apply IH; lia|].
  assert (fee_units (b + w) (r * 2 ^ a) ≤ fee_units b (r * 2 ^ a) + fee_units w (r * 2 ^ a)); [|lia].
  rewrite !fee_units_few by nia. rewrite Z.mul_add_distr_r. apply up_add.
Qed.

Lemma mul_least w R : 0 ≤ w → (R = 0 ∨ 2 ^ 274 ≤ R) → w * R ≠ 0 → 2 ^ 274 ≤ w * R.
Proof.
  intros Hw [->|HR] He; [lia|]. assert (w ≠ 0) by (intros ->; lia).
  transitivity (1 * R); [lia|]. apply Z.mul_le_mono_nonneg_r; lia.
Qed.
(** Otherwise at most one satoshi is lost on fees up to 2^23. *)
Lemma fee_units_least w R : 0 ≤ w < 2 ^ 24 → (R = 0 ∨ 2 ^ 274 ≤ R) → (2 ^ 24 - 1) * (w * R) ≤ 2 ^ 24 * (fee_units w R * 2 ^ 400).
Proof.
  intros Hw HR. rewrite fee_units_mul by done. pose proof (up_bounds (RN (w * R))) as [Hu _].
  destruct (decide (w * R = 0)) as [He|He].
  { rewrite He, Z.mul_0_r. change (RN 0) with 0. change (up 0) with 0. lia. }
  assert (2 ^ 274 ≤ w * R) by (apply mul_least; [lia|done|done]). pose proof (RN_rel (w * R) ltac:(lia)). lia.
Qed.
Lemma parts_least ws R : Forall (λ w, 0 ≤ w < 2 ^ 24) ws → (R = 0 ∨ 2 ^ 274 ≤ R) →
  (2 ^ 24 - 1) * (Zsum ws * R) ≤ 2 ^ 24 * (Zsum ((λ w, fee_units w R) <$> ws) * 2 ^ 400).
Proof.
  intros Hws HR. induction Hws as [|w ws Hw Hws IH]; [done|]. rewrite fmap_cons, !Zsum_cons.
  pose proof (fee_units_least w R Hw HR). lia.
Qed.
Lemma parts_round ws R : Forall (λ w, 0 ≤ w) ws → (R = 0 ∨ 2 ^ 274 ≤ R) → Zsum ws < 2 ^ 24 → Zsum ws * R ≤ 2 ^ 423 →
  fee_units (Zsum ws) R ≤ Zsum ((λ w, fee_units w R) <$> ws) + 1.
Proof.
  intros Hws HR Hlt Hle.
  assert (Hws' : Forall (λ w, 0 ≤ w < 2 ^ 24) ws).
  { rewrite Forall_forall in *. intros w Hw. split; [by apply Hws|]. 
    assert (w ≤ Zsum ws); [|lia]. apply Zsum_elem; [by apply Forall_forall|done]. }
  pose proof (parts_least ws R Hws' HR) as Hp. pose proof (Zsum_nonneg ws Hws) as Hn.
  rewrite fee_units_mul by lia. apply up_le.
  destruct (decide (Zsum ws * R = 0)) as [He|He].
  { rewrite He in *. change (RN 0) with 0.
    assert (0 ≤ Zsum ((λ w, fee_units w R) <$> ws)) by lia. lia. }
  assert (2 ^ 274 ≤ Zsum ws * R) by (apply mul_least; [lia|done|done]). pose proof (RN_rel (Zsum ws * R) ltac:(lia)) as [Hr _].
  lia.
Qed.

(** ** Finishing *)

Section finish.
Context (dbg : bool) (s : CoinSelector) (Ht : typed s) (Hm : modest s).
Notation o := (cs_opts s).

Lemma worth_in_fees R : (∀ w, 0 ≤ w ≤ 2 ^ 32 → f32_as I64 (weight_fee w (o_rate o)) = fee_units w R) →
  worth_in s = value_in s - Zsum ((λ w, fee_units w R) <$> (wv_weight <$> picked s)).
Proof.
  intros Hf. unfold worth_in, value_in. pose proof (picked_ok s Ht) as Hp.
  induction Hp as [|c l Hc Hl IH]; [done|]. rewrite !fmap_cons, !Zsum_cons, IH. unfold worth at 1, spend_fee.
  destruct Hc as (_ & Hw & _). unfold in_type in Hw. cbn [imin imax] in Hw. rewrite Hf by lia. lia.
Qed.
Lemma rate_fee_units R : f32_is (o_rate o) R → R ≤ 2 ^ 420 → rate_fee o (tx_weight s false) = fee_units (tx_weight s false) R.
Proof.
  intros Hr HR. unfold rate_fee, weight_fee. apply weight_fee_as; [|done|done|by left].
  pose proof (tx_weight_range s Ht Hm). lia.
Qed.
Lemma fits_rest : fits s → needed s TargetValue ≤ value_in s ∧ needed s MinAbsoluteFee ≤ value_in s.
Proof.
  intros (Hv & _). unfold value_target in Hv. cbn [needed]. pose proof (opts_nonneg s Ht). lia.
Qed.
Lemma fits_fee R d : f32_is (o_rate o) R → fits s →
  fee_units (template_weight s + weight_in s) R
    ≤ fee_units (template_weight s) R + Zsum ((λ w, fee_units w R) <$> (wv_weight <$> picked s)) + d →
  needed s TargetFee ≤ value_in s + d.
Proof.
  intros Hr (_ & Hw & _) Hd. destruct (rate_units s Hm) as (R' & Hr' & HR & Hf).
  assert (R' = R) as -> by (by eapply f32_is_inj).
  rewrite (worth_in_fees R Hf) in Hw. unfold worth_target in Hw. rewrite Hf in Hw by (by apply template_range).
  cbn [needed]. rewrite (rate_fee_units R) by (done || lia).
  pose proof (fee_units_mono _ _ R (template_covers s Ht) ltac:(lia)). lia.
Qed.
Lemma finish_fits d : fits s → needed s TargetFee ≤ value_in s + d → 0 ≤ d →
  (∀ sn_e, finish dbg s = Ret (Err sn_e) →
     (o_target o = None ∧ se_constraint sn_e = MinDrainValue) ∨ se_missing sn_e ≤ d) ∧
  (is_Some (o_target o) → ∃ r, finish dbg s = Ret r ∧ ∀ e, r = Err e → se_constraint e = TargetFee ∧ 0 < se_missing e ≤ d).
Proof.
  intros Hfit Hfee Hd. pose proof (fits_rest Hfit) as [H1 H2]. split.
  - intros e He. destruct (finish_err_iff dbg s _ Ht (λ _, Hm) He) as [_ Hx].
    destruct (Hx e eq_refl) as (_ & Hp & Hmiss & _).
    destruct (se_constraint e) eqn:Hc; [lia|lia|lia|].
    left. cbn [needed] in Hmiss. destruct (o_target o); [|done]. pose proof (picked_value_nonneg s Ht). lia.
  - intros [t Htg]. destruct (finish_total dbg s Ht Hm) as [r Hr]; [by rewrite Htg|].
    exists r. split; [done|]. intros e ->. destruct (finish_err_iff dbg s _ Ht (λ _, Hm) Hr) as [_ Hx].
    destruct (Hx e eq_refl) as (_ & Hp & Hmiss & _).
    destruct (se_constraint e) eqn:Hc; [lia| |lia|].
    + split; [done|lia].
    + cbn [needed] in Hmiss. rewrite Htg in Hmiss. pose proof (picked_value_nonneg s Ht). lia.
Qed.
End finish.

Lemma bnb_finish dbg sort limit s s' r a : typed s → modest s → (∀ cmp l, sort cmp l ≡ₚ l) → clock_ok limit →
  coin_select_bnb dbg sort limit s = Ret (Some s') → is_Some (o_target (cs_opts s)) →
  f32_is (o_rate (cs_opts s)) (r * 2 ^ a) → 251 ≤ a → 0 ≤ r →
  template_weight s + weight_in s' < 2 ^ 24 → (template_weight s + weight_in s') * r < 2 ^ 24 →
  ∃ sn, finish dbg s' = Ret (Ok sn).
Proof.
  intros Ht Hm Hsort Hc Hs' Htg Hr Ha Hr0 Hw Hwr.
  destruct (bnb_found dbg s Ht Hm sort Hsort limit Hc) as (res & Hres & Hf).
  rewrite Hs' in Hres. injection Hres as <-. destruct (Hf s' eq_refl) as (T & -> & HT & Hfit).
  pose proof (choosable_lawful s Ht T HT) as Hl.
  pose proof (with_sel_typed s Ht T Hl) as Ht'. assert (Hm' : modest (with_sel s T)) by exact Hm.
  assert (Hfee : needed (with_sel s T) TargetFee ≤ value_in (with_sel s T) + 0).
  { apply (fits_fee _ Ht' Hm' (r * 2 ^ a)); [done|done|]. rewrite Z.add_0_r.
    apply parts_few; try done.
    - apply Forall_fmap_nonneg; [by apply picked_ok|]. wvok.
    - apply (template_range (with_sel s T)); done. }
  destruct (finish_fits dbg _ Ht' Hm' 0 Hfit Hfee) as [_ Hok]; [done|].
  destruct (Hok Htg) as (res & Hres & He). destruct res as [sn|e]; [by exists sn|].
  destruct (He e eq_refl) as [_ ?]. lia.
Qed.

Lemma bnb_finish_round dbg sort limit s s' R : typed s → modest s → (∀ cmp l, sort cmp l ≡ₚ l) → clock_ok limit →
  coin_select_bnb dbg sort limit s = Ret (Some s') → is_Some (o_target (cs_opts s)) →
  f32_is (o_rate (cs_opts s)) R → (R = 0 ∨ 2 ^ 274 ≤ R) →
  template_weight s + weight_in s' < 2 ^ 24 → (template_weight s + weight_in s') * R ≤ 2 ^ 423 →
  ∃ res, finish dbg s' = Ret res ∧ ∀ e, res = Err e → se_constraint e = TargetFee ∧ se_missing e = 1.
Proof.
  intros Ht Hm Hsort Hc Hs' Htg Hr HR Hw Hwr.
  destruct (bnb_found dbg s Ht Hm sort Hsort limit Hc) as (res & Hres & Hf).
  rewrite Hs' in Hres. injection Hres as <-. destruct (Hf s' eq_refl) as (T & -> & HT & Hfit).
  pose proof (choosable_lawful s Ht T HT) as Hl.
  pose proof (with_sel_typed s Ht T Hl) as Ht'. assert (Hm' : modest (with_sel s T)) by exact Hm.
  assert (Hfee : needed (with_sel s T) TargetFee ≤ value_in (with_sel s T) + 1).
  { apply (fits_fee _ Ht' Hm' R); [done|done|].
    apply (parts_round (template_weight s :: (wv_weight <$> picked (with_sel s T)))); try done.
    constructor; [by apply (template_range s)|]. apply Forall_fmap_nonneg; [by apply picked_ok|]. wvok. }
  destruct (finish_fits dbg _ Ht' Hm' 1 Hfit Hfee) as [_ Hok]; [done|].
  destruct (Hok Htg) as (res & Hres & He). exists res. split; [done|]. intros e Hee.
  destruct (He e Hee). split; [done|lia].
Qed.

Lemma bnb_finish_none dbg sort limit s s' r a e : typed s → modest s → (∀ cmp l, sort cmp l ≡ₚ l) → clock_ok limit →
  coin_select_bnb dbg sort limit s = Ret (Some s') → finish dbg s' = Ret (Err e) →
  f32_is (o_rate (cs_opts s)) (r * 2 ^ a) → 251 ≤ a → 0 ≤ r →
  template_weight s + weight_in s' < 2 ^ 24 → (template_weight s + weight_in s') * r < 2 ^ 24 →
  o_target (cs_opts s) = None ∧ se_constraint e = MinDrainValue.
Proof.
  intros Ht Hm Hsort Hc Hs' Hfin Hr Ha Hr0 Hw Hwr.
  destruct (bnb_found dbg s Ht Hm sort Hsort limit Hc) as (res & Hres & Hf).
  rewrite Hs' in Hres. injection Hres as <-. destruct (Hf s' eq_refl) as (T & -> & HT & Hfit).
  pose proof (choosable_lawful s Ht T HT) as Hl.
  pose proof (with_sel_typed s Ht T Hl) as Ht'. assert (Hm' : modest (with_sel s T)) by exact Hm.
  assert (Hfee : needed (with_sel s T) TargetFee ≤ value_in (with_sel s T) + 0).
  { apply (fits_fee _ Ht' Hm' (r * 2 ^ a)); [done|done|]. rewrite Z.add_0_r.
    apply parts_few; try done.
    - apply Forall_fmap_nonneg; [by apply picked_ok|]. wvok.
    - apply (template_range (with_sel s T)); done. }
  destruct (finish_fits dbg _ Ht' Hm' 0 Hfit Hfee) as [Hok _]; [done|].
  destruct (Hok e Hfin) as [?|Hle]; [done|].
  destruct (finish_err_iff dbg _ _ Ht' (λ _, Hm') Hfin) as [_ Hx]. destruct (Hx e eq_refl) as (_ & ? & _). lia.
Qed.
