(** Branch and bound: the sums it keeps, its state, one step of the search. *)
From Verif Require Import BaseProofs MachineSpec F32Proofs CoinSelectModel BnbModel CoinSelectSpec BnbSpec
  CoinSelectProofs CoinSelectProofs2 CoinSelectProofs3.

Definition gs (g : WeightedValue → Z) (l : list (nat * WeightedValue)) : Z := Zsum ((λ p, g p.2) <$> l).
Lemma gs_cons g p l : gs g (p :: l) = g p.2 + gs g l.
Proof. done. Qed.
Lemma gs_app g l k : gs g (l ++ k) = gs g l + gs g k.
Proof. unfold gs. by rewrite fmap_app, Zsum_app. Qed.
Lemma gs_perm g l k : l ≡ₚ k → gs g l = gs g k.
Proof. intros Hp. unfold gs. apply Zsum_perm. by rewrite Hp. Qed.
Lemma gs_nonneg g l : (∀ p, p ∈ l → 0 ≤ g p.2) → 0 ≤ gs g l.
Proof.
  intros Hg. apply Zsum_nonneg, Forall_fmap, Forall_forall. intros p Hp. by apply Hg.
Qed.
Lemma gs_filter_le g (P : nat * WeightedValue → Prop) `{∀ p, Decision (P p)} l :
  (∀ p, p ∈ l → 0 ≤ g p.2) → 0 ≤ gs g (filter P l) ≤ gs g l.
Proof.
  intros Hg. split; [apply gs_nonneg; intros p [_ Hp]%elem_of_list_filter; by apply Hg|].
  induction l as [|p l IH]; [done|]. rewrite filter_cons.
  specialize (IH (λ p Hp, Hg p (elem_of_list_further _ _ _ Hp))). pose proof (Hg p (elem_of_list_here _ _)).
  destruct (decide (P p)); rewrite !gs_cons; lia.
Qed.
Lemma Zsum_elem x l : Forall (λ y, 0 ≤ y) l → x ∈ l → x ≤ Zsum l.
Proof.
  induction 1 as [|y l Hy Hl IH]; intros Hx; [by apply not_elem_of_nil in Hx|].
  rewrite Zsum_cons. pose proof (Zsum_nonneg l Hl).
  apply elem_of_cons in Hx as [->|Hx]; [lia|]. specialize (IH Hx). lia.
Qed.

(** ** Fees *)

Lemma fee_units_le w R : 0 ≤ w ≤ 2 ^ 32 → 0 ≤ R ≤ 2 ^ 420 → fee_units w R ≤ 2 ^ 22 * w.
Proof.
  intros Hw HR. destruct (decide (w = 0)) as [->|Hne]; [by vm_compute|].
  assert (Hrw : RN (w * 2 ^ 400) ≤ 2 * (w * 2 ^ 400)).
  { pose proof (RN_rel (w * 2 ^ 400) ltac:(lia)). lia. }
  pose proof (RN_nonneg (w * 2 ^ 400)).
  assert (Hx : RN (w * 2 ^ 400) * R / 2 ^ 400 ≤ w * 2 ^ 421).
  { apply Z.div_le_upper_bound; [lia|].
    etrans; [apply Z.mul_le_mono_nonneg; [lia|exact Hrw|lia|apply HR]|].
    apply Z.eq_le_incl. change (2 ^ 421) with (2 * 2 ^ 420). ring. }
  unfold fee_units. apply up_le. etrans; [apply RN_mono, Hx|].
  pose proof (RN_rel (w * 2 ^ 421) ltac:(lia)) as [Hr _].
  assert (RN (w * 2 ^ 421) ≤ 2 * (w * 2 ^ 421)) by lia.
  etrans; [eassumption|]. apply Z.eq_le_incl. change (2 ^ 421) with (2 ^ 21 * 2 ^ 400). ring.
Qed.

Section search.
Context (dbg : bool) (s : CoinSelector) (Ht : typed s) (Hm : modest s).
Notation o := (cs_opts s).
Notation cands := (cs_cands s).
Implicit Types (T : gset nat) (rp : list bool) (b : Bnb Z) (p : nat * WeightedValue).

Lemma cand_weight c : c ∈ cands → 0 ≤ wv_weight c ≤ 2 ^ 32.
Proof.
  intros Hc. destruct Ht as (_ & Hall & _). rewrite Forall_forall in Hall. specialize (Hall _ Hc).
  destruct Hall as (_ & Hw & _). unfold in_type in Hw. cbn in Hw. lia.
Qed.
Lemma cand_value c : c ∈ cands → 0 ≤ wv_value c ≤ 2 ^ 61.
Proof.
  intros Hc. pose proof Ht as (_ & Hall & _). destruct Hm as (Hv & _).
  pose proof (Zsum_elem (wv_value c) (wv_value <$> cands)) as Hle.
  assert (Hnn : Forall (λ x, 0 ≤ x) (wv_value <$> cands)) by (apply Forall_fmap_nonneg; [done|wvok]).
  specialize (Hle Hnn (elem_of_list_fmap_1 _ _ _ Hc)).
  rewrite Forall_forall in Hall. specialize (Hall _ Hc). apply wv_ok_nonneg in Hall. lia.
Qed.
Lemma rate_units : ∃ R, f32_is (o_rate o) R ∧ 0 ≤ R ≤ 2 ^ 420 ∧
  ∀ w, 0 ≤ w ≤ 2 ^ 32 → f32_as I64 (weight_fee w (o_rate o)) = fee_units w R.
Proof.
  destruct Hm as (_ & _ & _ & _ & _ & _ & (R & Hr & HR) & _). exists R. pose proof (f32_is_range _ _ Hr).
  split; [done|]. split; [lia|]. intros w Hw. unfold weight_fee. apply weight_fee_as; auto.
Qed.
Lemma spend_fee_range c : c ∈ cands → 0 ≤ spend_fee o c ≤ 2 ^ 22 * wv_weight c.
Proof.
  intros Hc. apply cand_weight in Hc. destruct rate_units as (R & _ & HR & Hf). unfold spend_fee. rewrite Hf by done.
  split; [apply fee_units_range; lia|apply fee_units_le; lia].
Qed.
Lemma cands_weight : Zsum (wv_weight <$> cands) ≤ 2 ^ 31 ∧ o_base o ≤ 2 ^ 31 ∧ 0 ≤ o_base o.
Proof.
  assert (0 ≤ Zsum (wv_weight <$> cands)).
  { apply Zsum_nonneg, Forall_fmap_nonneg; [apply Ht|wvok]. }
  destruct Hm as (_ & Hw & _). pose proof (opts_nonneg s Ht).
  destruct Ht as ((_ & _ & _ & _ & _ & Hsd & _) & _). unfold in_type in Hsd. cbn in Hsd. lia.
Qed.
Lemma cands_fee : Zsum (spend_fee o <$> cands) ≤ 2 ^ 53.
Proof.
  assert (Hle : ∀ l, l ⊆ cands → Zsum (spend_fee o <$> l) ≤ 2 ^ 22 * Zsum (wv_weight <$> l)).
  { induction l as [|c l IH]; intros Hl; [done|]. rewrite !fmap_cons, !Zsum_cons.
    assert (c ∈ cands) as Hc by (apply Hl, elem_of_list_here). apply spend_fee_range in Hc.
    specialize (IH ltac:(intros x Hx; apply Hl; by apply elem_of_list_further)). lia. }
  specialize (Hle cands ltac:(done)). pose proof cands_weight. lia.
Qed.

Lemma effective_value_ret c : c ∈ cands → effective_value dbg c (o_rate o) = Ret (worth o c).
Proof.
  intros Hc. unfold effective_value. pose proof (cand_value c Hc). pose proof (spend_fee_range c Hc) as Hf.
  pose proof (cand_weight c Hc). unfold spend_fee in Hf.
  rewrite wrap_id by (unfold in_type; cbn [imin imax]; lia).
  rewrite fit_ret; [done|]. unfold in_type. cbn [imin imax]. lia.
Qed.
Lemma eff_of_worth c : c ∈ cands → eff_of (o_rate o) c = worth o c.
Proof.
  intros Hc. unfold eff_of. pose proof (cand_value c Hc). pose proof (spend_fee_range c Hc) as Hf.
  pose proof (cand_weight c Hc). unfold spend_fee in Hf.
  rewrite (wrap_id I64 (wv_value c)) by (unfold in_type; cbn [imin imax]; lia).
  rewrite wrap_id; [done|]. unfold in_type. cbn [imin imax]. lia.
Qed.

Definition sub (l : list (nat * WeightedValue)) : Prop := ∀ p, p ∈ l → p.2 ∈ cands.
Lemma sub_cons p l : sub (p :: l) → p.2 ∈ cands ∧ sub l.
Proof. intros Hl. split; [apply Hl, elem_of_list_here|]. intros q Hq. apply Hl. by apply elem_of_list_further. Qed.

Lemma sub_nonneg l : sub l → 0 ≤ gs wv_value l ∧ 0 ≤ gs (spend_fee o) l ∧ 0 ≤ gs wv_weight l ∧
  gs (worth o) l = gs wv_value l - gs (spend_fee o) l.
Proof.
  induction l as [|p l IH]; intros Hl; [done|]. apply sub_cons in Hl as [Hp Hl]. specialize (IH Hl).
  pose proof (cand_value _ Hp). pose proof (spend_fee_range _ Hp). pose proof (cand_weight _ Hp).
  rewrite !gs_cons. unfold worth at 1. lia.
Qed.

Lemma effective_values_ret l : sub l →
  all_ret ((λ p, effective_value dbg p.2 (o_rate o)) <$> l) = Ret ((λ p, worth o p.2) <$> l).
Proof.
  induction l as [|p l IH]; intros Hl; [done|]. apply sub_cons in Hl as [Hp Hl].
  rewrite !fmap_cons. cbn [all_ret]. rewrite effective_value_ret by done. cbn [mbind outcome_bind].
  rewrite IH by done. done.
Qed.
Lemma sum_worth_ret l : ∀ acc, sub l → imin I64 ≤ acc - gs (spend_fee o) l → acc + gs wv_value l ≤ imax I64 →
  sum_fit dbg I64 acc ((λ p, worth o p.2) <$> l) = Ret (acc + gs (worth o) l).
Proof.
  induction l as [|p l IH]; intros acc Hl Hlo Hhi; [by rewrite Z.add_0_r|].
  apply sub_cons in Hl as [Hp Hl]. pose proof (sub_nonneg l Hl).
  pose proof (cand_value _ Hp). pose proof (spend_fee_range _ Hp).
  rewrite gs_cons in *. rewrite fmap_cons. cbn [sum_fit].
  rewrite fit_ret by (unfold in_type, worth; lia). cbn [mbind outcome_bind].
  rewrite IH; [f_equal; lia|done|unfold worth; lia|unfold worth; lia].
Qed.
Lemma totals_ret l : ∀ a e, sub l → 0 ≤ a → a + gs wv_value l ≤ imax U64 →
  imin I64 ≤ e - gs (spend_fee o) l → e + gs wv_value l ≤ imax I64 →
  totals dbg (o_rate o) a e l = Ret (a + gs wv_value l, e + gs (worth o) l).
Proof.
  induction l as [|[i c] l IH]; intros a e Hl Ha Hav Hlo Hhi; [by rewrite !Z.add_0_r|].
  apply sub_cons in Hl as [Hp Hl]. cbn [snd] in Hp. pose proof (sub_nonneg l Hl).
  pose proof (cand_value _ Hp). pose proof (spend_fee_range _ Hp).
  rewrite !gs_cons in *. cbn [totals snd] in *.
  rewrite fit_ret by (unfold in_type; cbn [imin]; lia). cbn [mbind outcome_bind].
  rewrite effective_value_ret by done. cbn [mbind outcome_bind].
  rewrite fit_ret by (unfold in_type, worth; lia). cbn [mbind outcome_bind].
  rewrite IH; [do 2 f_equal; lia|done|lia|lia|unfold worth; lia|unfold worth; lia].
Qed.

(** ** Sums of a selection *)

Notation all := (imap pair cands).
Lemma all_sub : sub all.
Proof. intros p Hp. apply elem_of_lookup_imap in Hp as (i & c & -> & Hc). by apply elem_of_list_lookup_2 in Hc. Qed.
Lemma all_gs g : gs g all = Zsum (g <$> cands).
Proof.
  unfold gs. f_equal. apply list_eq. intros i. rewrite !list_lookup_fmap, list_lookup_imap.
  by destruct (cands !! i).
Qed.
Lemma filter_sub (P : nat * WeightedValue → Prop) `{∀ p, Decision (P p)} l : sub l → sub (filter P l).
Proof. intros Hl p [_ Hp]%elem_of_list_filter. by apply Hl. Qed.

Definition inside T : list (nat * WeightedValue) := filter (λ p, p.1 ∈ T) all.
Lemma inside_sub T : sub (inside T).
Proof. apply filter_sub, all_sub. Qed.
Lemma picked_gs g T : Zsum (g <$> picked (with_sel s T)) = gs g (inside T).
Proof. unfold picked, at_indices, gs. cbn [with_sel cs_cands cs_sel]. by rewrite <-list_fmap_compose. Qed.
Lemma inside_bounds T : gs wv_value (inside T) ≤ 2 ^ 61 ∧ gs (spend_fee o) (inside T) ≤ 2 ^ 53 ∧ gs wv_weight (inside T) ≤ 2 ^ 31.
Proof.
  pose proof cands_fee. pose proof cands_weight. destruct Hm as (Hv & _).
  assert (Hle : ∀ g, (∀ p, p ∈ all → 0 ≤ g p.2) → gs g (inside T) ≤ Zsum (g <$> cands)).
  { intros g Hg. rewrite <-all_gs. by apply gs_filter_le. }
  split; [|split].
  - etrans; [apply Hle|done]. intros p Hp. by apply cand_value, all_sub.
  - etrans; [apply Hle|done]. intros p Hp. by apply spend_fee_range, all_sub.
  - etrans; [apply Hle|lia]. intros p Hp. by apply cand_weight, all_sub.
Qed.

Definition lawful T : Prop := ∀ i, i ∈ T → (i < length cands)%nat.
Lemma with_sel_typed T : lawful T → typed (with_sel s T).
Proof. intros HT. destruct Ht as (? & ? & _). done. Qed.
Lemma with_sel_modest T : modest (with_sel s T).
Proof. exact Hm. Qed.

Lemma value_ret T : lawful T → selected_absolute_value dbg (with_sel s T) = Ret (value_in (with_sel s T)).
Proof. intros HT. apply selected_absolute_value_ret; [by apply with_sel_typed|apply with_sel_modest]. Qed.
Lemma worth_ret T : lawful T → selected_effective_value dbg (with_sel s T) = Ret (worth_in (with_sel s T)).
Proof.
  intros HT. unfold selected_effective_value. rewrite cs_selected_ret by (by apply with_sel_typed).
  cbn [mbind outcome_bind]. change (sel_pairs (with_sel s T)) with (inside T). cbn [with_sel cs_opts].
  rewrite effective_values_ret by apply inside_sub. cbn [mbind outcome_bind].
  pose proof (inside_bounds T). pose proof (sub_nonneg _ (inside_sub T)).
  rewrite sum_worth_ret; [|apply inside_sub|cbn [imin]; lia|cbn [imax]; lia].
  unfold worth_in. rewrite picked_gs. done.
Qed.
Lemma waste_ret T : lawful T → selected_waste dbg (with_sel s T) = Ret (waste_of o (weight_in (with_sel s T))).
Proof.
  intros HT. unfold selected_waste. rewrite selected_weight_ret; [done|by apply with_sel_typed|apply with_sel_modest].
Qed.
Lemma template_range : 0 ≤ template_weight s ≤ 2 ^ 32.
Proof.
  pose proof cands_weight. unfold template_weight. pose proof (compact_len_range (Zsum (wv_count <$> cands))).
  destruct (existsb _ _); lia.
Qed.
Lemma template_fee : 0 ≤ f32_as I64 (weight_fee (template_weight s) (o_rate o)) ≤ 2 ^ 52.
Proof.
  destruct rate_units as (R & _ & HR & Hf). rewrite Hf by apply template_range.
  apply fee_units_range; [apply template_range|lia].
Qed.
Lemma worth_target_range : 0 ≤ worth_target s ≤ 2 ^ 61 + 2 ^ 52.
Proof.
  pose proof template_fee. unfold worth_target. pose proof (target_range s Ht). destruct Hm as (_ & _ & _ & Htg & _). lia.
Qed.
Lemma worth_target_ret T : effective_target dbg (with_sel s T) = Ret (worth_target s).
Proof.
  unfold effective_target. cbn [with_sel cs_opts cs_cands].
  assert (Hnn : Forall (λ x, 0 ≤ x) (wv_count <$> cands)) by (apply Forall_fmap_nonneg; [apply Ht|wvok]).
  rewrite (sum_fit_ret dbg USize); [|lia|done|cbn; lia|].
  2:{ destruct Hm as (_ & _ & Hc & _). cbn [imax]. lia. }
  cbn [mbind outcome_bind]. rewrite Z.add_0_l, varint_compact.
  pose proof (compact_len_range (Zsum (wv_count <$> cands))). pose proof cands_weight. pose proof template_range as Htr.
  assert (Hsum : o_base o + Zsum [if existsb wv_segwit cands then 2 else 0; (compact_len (Zsum (wv_count <$> cands)) - 1) * 4]
                 = template_weight s).
  { unfold template_weight, Zsum. cbn [foldr]. lia. }
  assert (Htl : template_weight s ≤ imax U32).
  { unfold template_weight. cbn [imax]. destruct (existsb _ _); lia. }
  rewrite (sum_fit_ret dbg U32); [|lia| |cbn; lia|by rewrite Hsum].
  2:{ repeat constructor; [|lia]. destruct (existsb _ _); lia. }
  cbn [mbind outcome_bind]. rewrite Hsum. pose proof (target_range s Ht). pose proof template_fee.
  destruct Hm as (_ & _ & _ & Htg & _).
  rewrite wrap_id by (unfold in_type; cbn [imin imax]; lia).
  rewrite fit_ret; [done|]. unfold in_type. cbn [imin imax]. lia.
Qed.
Lemma value_target_range : 0 ≤ value_target s ≤ 2 ^ 62.
Proof.
  unfold value_target. pose proof (target_range s Ht). pose proof (opts_nonneg s Ht).
  destruct Hm as (_ & _ & _ & Htg & Hmf & _). lia.
Qed.

Lemma value_in_gs T : value_in (with_sel s T) = gs wv_value (inside T).
Proof. unfold value_in. apply picked_gs. Qed.
Lemma worth_in_gs T : worth_in (with_sel s T) = gs (worth o) (inside T).
Proof. unfold worth_in. apply picked_gs. Qed.
Lemma weight_in_gs T : weight_in (with_sel s T) = gs wv_weight (inside T).
Proof. unfold weight_in. apply picked_gs. Qed.
Lemma sel_bounds T : 0 ≤ value_in (with_sel s T) ≤ 2 ^ 61 ∧ - 2 ^ 53 ≤ worth_in (with_sel s T) ≤ 2 ^ 61 ∧
  0 ≤ weight_in (with_sel s T) ≤ 2 ^ 31.
Proof.
  rewrite value_in_gs, worth_in_gs, weight_in_gs. pose proof (inside_bounds T). pose proof (sub_nonneg _ (inside_sub T)). lia.
Qed.
Lemma excess_ret T : lawful T →
  current_excess dbg (with_sel s T) = Ret (worth_in (with_sel s T) - worth_target s).
Proof.
  intros HT. unfold current_excess. rewrite worth_ret by done. cbn [mbind outcome_bind].
  rewrite worth_target_ret. cbn [mbind outcome_bind]. pose proof (sel_bounds T). pose proof worth_target_range.
  apply fit_ret. unfold in_type. cbn [imin imax]. lia.
Qed.
Lemma waste_range T : Z.abs (waste_of o (weight_in (with_sel s T))) ≤ 2 ^ 52.
Proof. apply waste_bound; [done|]. pose proof (sel_bounds T). lia. Qed.
Lemma score_range T : Z.abs (score (with_sel s T)) < 2 ^ 63 - 1.
Proof.
  unfold score. cbn [with_sel cs_opts]. pose proof (waste_range T). pose proof (sel_bounds T).
  pose proof worth_target_range. change (worth_target (with_sel s T)) with (worth_target s). lia.
Qed.

(** ** The pool *)

Notation is_pool pool := (pool ≡ₚ filter (λ p, p.1 ∉ cs_sel s ∧ 0 < worth o p.2) all).

Lemma positive_eff_ret l : sub l → positive_eff dbg (o_rate o) l = Ret (filter (λ p, 0 < worth o p.2) l).
Proof.
  induction l as [|p l IH]; intros Hl; [done|]. apply sub_cons in Hl as [Hp Hl].
  cbn [positive_eff]. rewrite effective_value_ret by done. cbn [mbind outcome_bind].
  rewrite IH by done. cbn [mbind outcome_bind]. rewrite filter_cons.
  destruct (Z.ltb_spec 0 (worth o p.2)); [rewrite decide_True by done|rewrite decide_False by lia]; done.
Qed.

Context (pool : list (nat * WeightedValue)) (Hpool : is_pool pool).

Lemma pool_elem p : p ∈ pool → cands !! p.1 = Some p.2 ∧ p.1 ∉ cs_sel s ∧ 0 < worth o p.2 ∧ p.2 ∈ cands.
Proof.
  intros Hp. rewrite Hpool in Hp. apply elem_of_list_filter in Hp as [[Hn Hw] Hp].
  pose proof (all_sub _ Hp). apply elem_of_lookup_imap in Hp as (i & c & -> & Hc). done.
Qed.
Lemma pool_sub : sub pool.
Proof. intros p Hp. by apply pool_elem in Hp as (_ & _ & _ & ?). Qed.
Lemma all_NoDup : NoDup (all).*1.
Proof.
  assert (He : (all).*1 = seq 0 (length cands)).
  { apply list_eq. intros i. rewrite list_lookup_fmap, list_lookup_imap.
    destruct (cands !! i) eqn:Hi; cbn.
    - symmetry. apply lookup_seq. split; [done|]. by eapply lookup_lt_Some.
    - symmetry. apply lookup_seq_ge. by apply lookup_ge_None. }
  rewrite He. apply NoDup_seq.
Qed.
Lemma filter_fst_NoDup (P : nat * WeightedValue → Prop) `{∀ p, Decision (P p)} l : NoDup l.*1 → NoDup (filter P l).*1.
Proof.
  induction l as [|p l IH]; [done|]. rewrite fmap_cons. intros [Hp Hl]%NoDup_cons. rewrite filter_cons.
  destruct (decide (P p)); [|by apply IH]. rewrite fmap_cons. apply NoDup_cons. split; [|by apply IH].
  intros (q & Hq & Hin)%elem_of_list_fmap. apply Hp. rewrite Hq. apply elem_of_list_fmap_1.
  by apply elem_of_list_filter in Hin as [_ ?].
Qed.
Lemma pool_NoDup : NoDup pool.*1.
Proof. rewrite Hpool. apply filter_fst_NoDup, all_NoDup. Qed.
Lemma pool_inj q q' p p' : pool !! q = Some p → pool !! q' = Some p' → p.1 = p'.1 → q = q'.
Proof.
  intros Hq Hq' He. apply (NoDup_lookup pool.*1 q q' p.1); [apply pool_NoDup| |].
  - by rewrite list_lookup_fmap, Hq.
  - rewrite list_lookup_fmap, Hq'. cbn. by rewrite He.
Qed.
Lemma pool_length : (length pool ≤ length cands)%nat.
Proof.
  rewrite Hpool. etrans; [apply filter_length|]. by rewrite imap_length.
Qed.
Lemma pool_bounds : 0 ≤ gs wv_value pool ≤ 2 ^ 61 ∧ 0 ≤ gs (spend_fee o) pool ≤ 2 ^ 53 ∧ 0 ≤ gs (worth o) pool.
Proof.
  pose proof cands_fee. pose proof (sub_nonneg _ pool_sub). destruct Hm as (Hv & _).
  assert (gs wv_value pool ≤ 2 ^ 61).
  { rewrite (gs_perm _ _ _ Hpool). etrans; [apply gs_filter_le|by rewrite all_gs].
    intros p Hp. by apply cand_value, all_sub. }
  assert (gs (spend_fee o) pool ≤ 2 ^ 53).
  { rewrite (gs_perm _ _ _ Hpool). etrans; [apply gs_filter_le|by rewrite all_gs].
    intros p Hp. by apply spend_fee_range, all_sub. }
  assert (0 ≤ gs (worth o) pool).
  { apply gs_nonneg. intros p Hp. apply pool_elem in Hp as (_ & _ & ? & _). lia. }
  lia.
Qed.

(** What a choosable set adds to the sums. *)
Lemma choosable_gs g T : choosable s T →
  gs g (inside T) = gs g (inside (cs_sel s)) + gs g (filter (λ p, p.1 ∈ T) pool).
Proof.
  intros [Hsub Hch].
  assert (Hp : filter (λ p, p.1 ∈ T) pool ≡ₚ filter (λ p, p.1 ∈ T) (filter (λ p, p.1 ∉ cs_sel s ∧ 0 < worth o p.2) all)).
  { by rewrite Hpool. }
  rewrite (gs_perm _ _ _ Hp). unfold inside.
  assert (Hall : ∀ p, p ∈ all → p.1 ∈ T → p.1 ∈ cs_sel s ∨ 0 < worth o p.2).
  { intros p Hin HT. apply elem_of_lookup_imap in Hin as (i & c & -> & Hc). cbn [fst snd] in *.
    destruct (Hch _ HT) as [?|(c' & Hc' & Hw)]; [by left|]. right. congruence. }
  clear Hp Hpool Hch. revert Hall. generalize (all). clear -Hsub.
  induction l as [|p l IH]; intros Hall; [done|].
  specialize (IH (λ q Hq, Hall q (elem_of_list_further _ _ _ Hq))).
  pose proof (Hall p (elem_of_list_here _ _)) as Hp.
  rewrite !filter_cons. destruct (decide (p.1 ∈ cs_sel s)) as [Hs|Hs].
  - rewrite (decide_True (P := p.1 ∈ T)) by (by apply Hsub). rewrite (decide_False (P := _ ∧ _)) by tauto.
    rewrite !gs_cons. lia.
  - destruct (decide (p.1 ∈ T)) as [HT|HT].
    + rewrite (decide_True (P := _ ∧ _)) by tauto. rewrite filter_cons, decide_True by done. rewrite !gs_cons. lia.
    + destruct (decide (p.1 ∉ cs_sel s ∧ 0 < worth o p.2)); [rewrite filter_cons, decide_False by done|]; lia.
Qed.
Lemma choosable_lawful T : choosable s T → lawful T.
Proof.
  intros [_ Hch] i Hi. destruct (Hch _ Hi) as [Hs|(c & Hc & _)]; [by apply Ht|by eapply lookup_lt_Some].
Qed.

(** ** Paths

    The decisions taken so far, the latest first: the head of [rp] is about the
    candidate at position [length (tail rp)]. *)

Notation n := (length pool).

Fixpoint chosen rp : gset nat :=
  match rp with
  | [] => cs_sel s
  | d :: r => match pool !! length r with
              | Some p => if d then {[ p.1 ]} ∪ chosen r else chosen r
              | None => chosen r
              end
  end.
Fixpoint agree T rp : Prop :=
  match rp with
  | [] => True
  | d :: r => agree T r ∧ ∀ p, pool !! length r = Some p → (p.1 ∈ T ↔ d = true)
  end.
(** [T] branches off the path on the side that is searched first. *)
Fixpoint precedes T rp : Prop :=
  match rp with
  | [] => False
  | d :: r => precedes T r ∨ (d = false ∧ agree T r ∧ ∃ p, pool !! length r = Some p ∧ p.1 ∈ T)
  end.
Fixpoint next_path rp : option (list bool) :=
  match rp with
  | [] => None
  | false :: r => next_path r
  | true :: r => Some (false :: r)
  end.
(** Nodes left to visit: the full tree of depth [k], and what is left from a path. *)
Fixpoint tree (k : nat) : nat := match k with O => 1 | S k => 1 + 2 * tree k end%nat.
Fixpoint later rp : nat :=
  match rp with
  | [] => 0
  | d :: r => if d then later r + tree (n - length r - 1) else later r
  end%nat.
Definition left_over rp : nat := (tree (n - length rp) + later rp)%nat.

Lemma chosen_base rp : cs_sel s ⊆ chosen rp.
Proof. induction rp as [|d r IH]; [done|]. cbn. destruct (pool !! length r); [destruct d|]; set_solver. Qed.
Lemma chosen_choosable rp : choosable s (chosen rp).
Proof.
  split; [apply chosen_base|]. induction rp as [|d r IH]; cbn [chosen]; [auto|].
  destruct (pool !! length r) as [p|] eqn:Hp; [|done]. destruct d; [|done].
  intros i [->%elem_of_singleton|Hi]%elem_of_union; [|by apply IH]. right. exists p.2.
  apply elem_of_list_lookup_2, pool_elem in Hp as (? & _ & ? & _). done.
Qed.
Lemma chosen_later rp q p : (length rp ≤ q)%nat → pool !! q = Some p → p.1 ∉ chosen rp.
Proof.
  induction rp as [|d r IH]; cbn [chosen length]; intros Hq Hp.
  - apply elem_of_list_lookup_2, pool_elem in Hp as (_ & ? & _). done.
  - specialize (IH ltac:(lia) Hp). destruct (pool !! length r) as [p'|] eqn:Hp'; [|done]. destruct d; [|done].
    intros [Hi%elem_of_singleton|Hi]%elem_of_union; [|done].
    assert (q = length r) by (by eapply pool_inj). lia.
Qed.
Lemma agree_ext T T' rp : (∀ q p, (q < length rp)%nat → pool !! q = Some p → (p.1 ∈ T ↔ p.1 ∈ T')) →
  agree T rp → agree T' rp.
Proof.
  induction rp as [|d r IH]; cbn [agree length]; [done|]. intros He [Ha Hd]. split.
  - apply IH; [|done]. intros q p Hq. apply He. lia.
  - intros p Hp. rewrite <-(He (length r) p) by (lia || done). by apply Hd.
Qed.
Lemma agree_chosen rp : agree (chosen rp) rp.
Proof.
  induction rp as [|d r IH]; [done|]. split.
  - eapply agree_ext; [|exact IH]. intros q p Hq Hp. cbn [chosen].
    destruct (pool !! length r) as [p'|] eqn:Hp'; [|done]. destruct d; [|done].
    rewrite elem_of_union, elem_of_singleton. split; [by right|]. intros [He|?]; [|done].
    assert (q = length r) by (by eapply pool_inj). lia.
  - intros p Hp. cbn [chosen]. rewrite Hp. pose proof (chosen_later r (length r) p ltac:(lia) Hp).
    destruct d; set_solver.
Qed.
Lemma agree_filter T T' rp : (length rp ≤ n)%nat → agree T rp → agree T' rp →
  filter (λ p, p.1 ∈ T) (take (length rp) pool) = filter (λ p, p.1 ∈ T') (take (length rp) pool).
Proof.
  induction rp as [|d r IH]; cbn [length agree]; [done|]. intros Hl [Ha Hd] [Ha' Hd'].
  destruct (lookup_lt_is_Some_2 pool (length r) ltac:(lia)) as [p Hp].
  erewrite take_S_r by done. rewrite !filter_app. rewrite IH by (lia || done). f_equal.
  rewrite !filter_cons. specialize (Hd _ Hp). specialize (Hd' _ Hp).
  destruct (decide (p.1 ∈ T)), (decide (p.1 ∈ T')); try done; tauto.
Qed.
Lemma later_none rp : filter (λ p, p.1 ∈ chosen rp) (drop (length rp) pool) = [].
Proof.
  destruct (filter (λ p, p.1 ∈ chosen rp) (drop (length rp) pool)) as [|p l] eqn:Hf; [done|exfalso].
  assert (Hp : p ∈ filter (λ p, p.1 ∈ chosen rp) (drop (length rp) pool)) by (rewrite Hf; apply elem_of_list_here).
  apply elem_of_list_filter in Hp as [Hc Hp]. apply elem_of_list_lookup in Hp as [q Hq].
  rewrite lookup_drop in Hq. revert Hc. refine (chosen_later rp _ p _ Hq). lia.
Qed.
Lemma agree_gs g T rp : (length rp ≤ n)%nat → choosable s T → agree T rp →
  gs g (inside T) = gs g (inside (chosen rp)) + gs g (filter (λ p, p.1 ∈ T) (drop (length rp) pool)).
Proof.
  intros Hl Hc Ha. rewrite (choosable_gs g T Hc), (choosable_gs g _ (chosen_choosable rp)).
  rewrite <-(take_drop (length rp) pool) at 1 2. rewrite !filter_app, !gs_app, later_none.
  rewrite (agree_filter T (chosen rp) rp) by (done || apply agree_chosen). change (gs g []) with 0. lia.
Qed.

Lemma tree_pos k : (1 ≤ tree k)%nat.
Proof. induction k; cbn; lia. Qed.

Lemma next_path_spec rp : (length rp ≤ n)%nat →
  match next_path rp with
  | None => ∀ T, precedes T rp ∨ agree T rp
  | Some rp' => (length rp' ≤ length rp)%nat ∧ left_over rp' = later rp ∧
      ∀ T, precedes T rp' → precedes T rp ∨ agree T rp
  end.
Proof.
  induction rp as [|d r IH]; intros Hl; [by right|]. cbn [length] in Hl. specialize (IH ltac:(lia)).
  destruct (lookup_lt_is_Some_2 pool (length r) ltac:(lia)) as [p Hp].
  destruct d; cbn [next_path].
  - split; [done|]. split.
    + unfold left_over. cbn [length later].
      replace (n - length r - 1)%nat with (n - S (length r))%nat by lia. lia.
    + intros T [Hpr|(_ & Ha & p' & Hp' & Hin)]; [left; by left|]. right. split; [done|].
      intros p'' Hp''. assert (p'' = p') as -> by congruence. done.
  - assert (Hcase : ∀ T, precedes T r ∨ agree T r → precedes T (false :: r) ∨ agree T (false :: r)).
    { intros T [Hpr|Ha]; [left; by left|]. destruct (decide (p.1 ∈ T)) as [Hi|Hi].
      - left. right. split; [done|]. split; [done|]. by exists p.
      - right. split; [done|]. intros p' Hp'. assert (p' = p) as -> by congruence. by split. }
    destruct (next_path r) as [rp'|].
    + destruct IH as (H1 & H2 & H3). split; [cbn; lia|]. split; [done|].
      intros T HT. by apply Hcase, H3.
    + intros T. apply Hcase, IH.
Qed.

(** ** The state of the search *)

Definition inv rp b : Prop :=
  (length rp ≤ n)%nat ∧ b_pool b = pool ∧ b_pos b = length rp ∧ b_selection b = with_sel s (chosen rp) ∧
  b_rem_abs b = gs wv_value (drop (length rp) pool) ∧ b_rem_eff b = gs (worth o) (drop (length rp) pool).
Definition bump b : Bnb Z :=
  mkBnb (b_pool b) (Datatypes.S (b_pos b)) (b_best b) (b_selection b) (b_rem_abs b) (b_rem_eff b).

Lemma drop_lookup q p : pool !! q = Some p → drop q pool = p :: drop (S q) pool.
Proof. apply drop_S. Qed.
Lemma drop_bounds q : 0 ≤ gs wv_value (drop q pool) ≤ 2 ^ 61 ∧ 0 ≤ gs (worth o) (drop q pool) ≤ 2 ^ 61.
Proof.
  assert (Hs : sub (drop q pool)) by (intros p Hp; apply pool_sub; by eapply elem_of_drop_2 in Hp || (apply elem_of_list_lookup in Hp as [i Hi]; rewrite lookup_drop in Hi; by eapply elem_of_list_lookup_2)).
  pose proof (sub_nonneg _ Hs). pose proof pool_bounds as (H1 & _).
  assert (0 ≤ gs (worth o) (drop q pool)).
  { apply gs_nonneg. intros p Hp. apply elem_of_list_lookup in Hp as [i Hi]. rewrite lookup_drop in Hi.
    apply elem_of_list_lookup_2, pool_elem in Hi as (_ & _ & ? & _). lia. }
  assert (0 ≤ gs wv_value (take q pool)).
  { apply sub_nonneg. intros p Hp. apply elem_of_take in Hp as (i & Hi & _).
    apply elem_of_list_lookup_2 in Hi. by apply pool_sub. }
  rewrite <-(take_drop q pool) in H1. rewrite gs_app in H1. lia.
Qed.

Lemma selected_head d r p : pool !! length r = Some p → cs_is_selected (with_sel s (chosen (d :: r))) p.1 = d.
Proof.
  intros Hp. unfold cs_is_selected. cbn [with_sel cs_sel chosen]. rewrite Hp.
  pose proof (chosen_later r (length r) p ltac:(lia) Hp). destruct d.
  - apply bool_decide_eq_true_2. set_solver.
  - by apply bool_decide_eq_false_2.
Qed.

Lemma backtrack_from_spec rp : ∀ b, (length rp ≤ n)%nat → b_pool b = pool → b_selection b = with_sel s (chosen rp) →
  b_rem_abs b = gs wv_value (drop (length rp) pool) → b_rem_eff b = gs (worth o) (drop (length rp) pool) →
  ∃ b' more, backtrack_from dbg b (length rp) = Ret (b', more) ∧ b_best b' = b_best b ∧
    match next_path rp with
    | Some rp' => more = true ∧ inv rp' (bump b')
    | None => more = false
    end.
Proof.
  induction rp as [|d r IH]; intros b Hl Hb Hsel Ha He.
  { do 2 eexists. split; [done|]. done. }
  cbn [length] in Hl. destruct (lookup_lt_is_Some_2 pool (length r) ltac:(lia)) as [[i c] Hp].
  pose proof (selected_head d r _ Hp) as Hd. cbn [fst] in Hd.
  cbn [length backtrack_from]. rewrite Hb, Hp, Hsel, Hd. destruct d; cbn [next_path].
  - do 2 eexists. split; [done|]. split; [done|]. split; [done|].
    split; [cbn; lia|]. split; [done|]. split; [done|]. split.
    { cbn [bump b_selection cs_deselect fst with_sel cs_opts cs_cands cs_sel chosen]. rewrite Hp. cbn [fst].
      pose proof (chosen_later r (length r) _ ltac:(lia) Hp). cbn [fst] in *. unfold with_sel. f_equal. set_solver. }
    done.
  - pose proof (drop_bounds (length r)) as Hdb. rewrite (drop_lookup _ _ Hp), !gs_cons in Hdb. cbn [snd] in Hdb.
    pose proof (drop_bounds (S (length r))) as Hdb'.
    assert (Hc : c ∈ cands) by (apply elem_of_list_lookup_2, pool_elem in Hp as (_ & _ & _ & ?); done).
    cbn [length] in Ha, He. rewrite Ha, He.
    rewrite fit_ret by (unfold in_type; cbn [imin imax]; lia). cbn [mbind outcome_bind].
    cbn [with_sel cs_opts]. rewrite effective_value_ret by done. cbn [mbind outcome_bind].
    rewrite fit_ret by (unfold in_type; cbn [imin imax]; lia). cbn [mbind outcome_bind].
    destruct (IH (mkBnb pool (b_pos b) (b_best b) (with_sel s (chosen (false :: r)))
       (gs wv_value (drop (S (length r)) pool) + wv_value c) (gs (worth o) (drop (S (length r)) pool) + worth o c)))
      as (b' & more & Hbt & Hbest & Hn).
    + lia.
    + done.
    + cbn [b_selection chosen]. by rewrite Hp.
    + cbn [b_rem_abs]. rewrite (drop_lookup _ _ Hp), gs_cons. cbn [snd]. lia.
    + cbn [b_rem_eff]. rewrite (drop_lookup _ _ Hp), gs_cons. cbn [snd]. lia.
    + exists b', more. done.
Qed.
Lemma backtrack_spec rp b : inv rp b →
  ∃ b' more, backtrack dbg b = Ret (b', more) ∧ b_best b' = b_best b ∧
    match next_path rp with
    | Some rp' => more = true ∧ inv rp' (bump b')
    | None => more = false
    end.
Proof.
  intros (Hl & Hp & Hpos & Hs & Ha & He). unfold backtrack. rewrite Hpos. by apply backtrack_from_spec.
Qed.

Lemma forward_spec rp b skip : inv rp b → (length rp < n)%nat →
  ∃ b', forward dbg b skip = Ret b' ∧ b_best b' = b_best b ∧ inv (negb skip :: rp) (bump b').
Proof.
  intros (Hl & Hp & Hpos & Hs & Ha & He) Hlt. unfold forward. rewrite Hp, Hpos.
  destruct (lookup_lt_is_Some_2 pool (length rp) ltac:(lia)) as [[i c] Hi]. rewrite Hi.
  pose proof (drop_bounds (length rp)) as Hdb. pose proof (drop_bounds (S (length rp))) as Hdb'.
  rewrite Ha, He, (drop_lookup _ _ Hi), !gs_cons in *. cbn [snd] in *.
  destruct (pool_elem _ (elem_of_list_lookup_2 _ _ _ Hi)) as (Hci & Hni & _ & Hc). cbn [fst snd] in *.
  rewrite fit_ret by (unfold in_type; cbn [imin imax]; lia). cbn [mbind outcome_bind].
  rewrite Hs. cbn [with_sel cs_opts]. rewrite effective_value_ret by done. cbn [mbind outcome_bind].
  rewrite fit_ret by (unfold in_type; cbn [imin imax]; lia). cbn [mbind outcome_bind].
  assert (Hsel : (if skip then Ret (with_sel s (chosen rp)) else '(s', _) ← cs_select (with_sel s (chosen rp)) i; Ret s')
                 = Ret (with_sel s (chosen (negb skip :: rp)))).
  { cbn [chosen]. rewrite Hi. destruct skip; [done|]. unfold cs_select. cbn [with_sel cs_cands].
    rewrite decide_True by (by eapply lookup_lt_Some). done. }
  unfold with_sel in Hsel at 1 2. cbn [with_sel cs_opts] in Hsel. fold (with_sel s (chosen rp)) in Hsel.
  rewrite Hsel. cbn [mbind outcome_bind]. eexists. split; [done|]. split; [done|].
  unfold inv, bump. cbn [length b_pool b_pos b_selection b_rem_abs b_rem_eff].
  split; [lia|]. split; [done|]. split; [done|]. split; [done|]. lia.
Qed.

(** ** One decision *)

Notation strat dec := (bnb_strategy dbg dec (value_target s) (worth_target s) (value_limit s) (worth_limit s)).

(** Nothing below the current node is better than [best]. *)
Definition pruned rp (best : Z) : Prop :=
  ∀ T, choosable s T → agree T rp → fits (with_sel s T) → best ≤ score (with_sel s T).

Lemma strategy_spec dec rp b : inv rp b →
  ∃ br sc, strat dec b = Ret (br, sc) ∧
  match br, sc with
  | SkipBoth, Some w => fits (with_sel s (chosen rp)) ∧ w = score (with_sel s (chosen rp))
  | SkipBoth, None =>
      (∃ T, choosable s T ∧ agree T rp ∧ fits (with_sel s T)) → dec = true ∧ b_best b < waste_of o (weight_in (with_sel s (chosen rp)))
  | Continue, None => (length rp < n)%nat
  | SkipInclusion, None => (length rp < n)%nat ∧
      ∃ r p p', rp = false :: r ∧ pool !! length r = Some p ∧ pool !! length rp = Some p' ∧
        wv_value p.2 = wv_value p'.2 ∧ wv_weight p.2 = wv_weight p'.2
  | _, Some _ => False
  end.
Proof.
  intros (Hl & Hp & Hpos & Hs & Ha & He). unfold bnb_strategy. rewrite Hs, Ha, He, Hp, Hpos.
  set (C := chosen rp). assert (HC : lawful C) by (apply choosable_lawful, chosen_choosable).
  pose proof (sel_bounds C) as Hsb. pose proof (drop_bounds (length rp)) as Hdb.
  pose proof value_target_range as Hvt. pose proof worth_target_range as Hwt. pose proof (waste_range C) as Hwr.
  rewrite value_ret by done. cbn [mbind outcome_bind]. rewrite worth_ret by done. cbn [mbind outcome_bind].
  rewrite (fit_ret dbg U64) by (unfold in_type; cbn [imin imax]; lia). cbn [mbind outcome_bind].
  rewrite (fit_ret dbg I64 (worth_in _ + _)) by (unfold in_type; cbn [imin imax]; lia).
  assert (Hbelow : ∀ T, choosable s T → agree T rp →
    value_in (with_sel s C) ≤ value_in (with_sel s T) ≤ value_in (with_sel s C) + gs wv_value (drop (length rp) pool) ∧
    worth_in (with_sel s C) ≤ worth_in (with_sel s T) ≤ worth_in (with_sel s C) + gs (worth o) (drop (length rp) pool)).
  { intros T HT Hag. rewrite !value_in_gs, !worth_in_gs, !(agree_gs _ T rp) by done. fold C.
    assert (∀ g, (∀ p, p ∈ pool → 0 ≤ g p.2) →
      0 ≤ gs g (filter (λ p, p.1 ∈ T) (drop (length rp) pool)) ≤ gs g (drop (length rp) pool)) as Hg.
    { intros g Hg. apply gs_filter_le. intros p Hin. apply Hg. apply elem_of_list_lookup in Hin as [i Hi].
      rewrite lookup_drop in Hi. by eapply elem_of_list_lookup_2. }
    pose proof (Hg wv_value ltac:(intros p Hin; apply cand_value; by apply pool_sub)).
    pose proof (Hg (worth o) ltac:(intros p Hin; apply pool_elem in Hin as (_ & _ & ? & _); lia)). lia. }
  assert (Hshort : (if value_in (with_sel s C) + gs wv_value (drop (length rp) pool) <? value_target s then Ret true
     else all_eff ← Ret (worth_in (with_sel s C) + gs (worth o) (drop (length rp) pool)); Ret (all_eff <? worth_target s))
     = Ret ((value_in (with_sel s C) + gs wv_value (drop (length rp) pool) <? value_target s)
            || (worth_in (with_sel s C) + gs (worth o) (drop (length rp) pool) <? worth_target s))).
  { by destruct (_ <? value_target s). }
  rewrite Hshort. clear Hshort. cbn [mbind outcome_bind].
  destruct (orb _ _) eqn:Hsh.
  { do 2 eexists. split; [done|]. cbn beta iota. intros (T & HT & Hag & Hv & Hw & _). exfalso.
    specialize (Hbelow T HT Hag). change (value_target (with_sel s T)) with (value_target s) in Hv.
    change (worth_target (with_sel s T)) with (worth_target s) in Hw.
    apply orb_true_iff in Hsh as [?%Z.ltb_lt|?%Z.ltb_lt]; lia. }
  apply orb_false_iff in Hsh as [Hsh1%Z.ltb_ge Hsh2%Z.ltb_ge].
  destruct (andb (value_limit s <? _) _) eqn:Hov.
  { do 2 eexists. split; [done|]. cbn beta iota. intros (T & HT & Hag & _ & _ & Hlim). exfalso.
    specialize (Hbelow T HT Hag). change (value_limit (with_sel s T)) with (value_limit s) in Hlim.
    change (worth_limit (with_sel s T)) with (worth_limit s) in Hlim.
    apply andb_true_iff in Hov as [?%Z.ltb_lt ?%Z.ltb_lt]. lia. }
  apply andb_false_iff in Hov. rewrite !Z.ltb_ge in Hov.
  rewrite waste_ret by done. cbn [mbind outcome_bind].
  destruct (dec && _) eqn:Hdec.
  { do 2 eexists. split; [done|]. cbn beta iota. intros _. by apply andb_true_iff in Hdec as [? ?%Z.ltb_lt]. }
  clear Hdec. destruct (andb (value_target s <=? _) _) eqn:Hok.
  { apply andb_true_iff in Hok as [Hok1%Z.leb_le Hok2%Z.leb_le].
    rewrite excess_ret by done. cbn [mbind outcome_bind].
    rewrite fit_ret by (unfold in_type; cbn [imin imax]; lia). cbn [mbind outcome_bind].
    do 2 eexists. split; [done|]. cbn beta iota. split; [|done]. split; [done|]. split; [done|]. done. }
  assert (Hlt : (length rp < n)%nat).
  { destruct (decide (length rp = n)) as [Hn|]; [|lia]. exfalso. rewrite Hn, drop_all in Hsh1, Hsh2.
    change (gs wv_value []) with 0 in Hsh1. change (gs (worth o) []) with 0 in Hsh2.
    apply andb_false_iff in Hok. rewrite !Z.leb_gt in Hok. lia. }
  clear Hok. destruct (lookup_lt_is_Some_2 pool (length rp) Hlt) as [[i' c'] Hp'].
  destruct (andb (Nat.ltb 0 _) _) eqn:Hne; [|by do 2 eexists].
  apply andb_true_iff in Hne as [Hpos0%Nat.ltb_lt _].
  destruct rp as [|d r]; [cbn in Hpos0; lia|].
  destruct (lookup_lt_is_Some_2 pool (length r) ltac:(cbn in Hlt; lia)) as [[i c] Hi].
  rewrite Hp'. replace (length (d :: r) - 1)%nat with (length r) by (cbn; lia). rewrite Hi.
  unfold C. rewrite (selected_head d r _ Hi : cs_is_selected _ i = d).
  destruct (negb d && _ && _) eqn:Hsk; [|by do 2 eexists].
  do 2 eexists. split; [done|]. cbn beta iota.
  apply andb_true_iff in Hsk as [[Hd Hv%Z.eqb_eq]%andb_true_iff Hw%Z.eqb_eq]. destruct d; [done|].
  split; [done|]. exists r, (i, c), (i', c'). done.
Qed.

(** ** Optimality *)

Definition waste_mono : Prop := ∀ w w', 0 ≤ w ≤ w' → w' ≤ 2 ^ 31 → waste_of o w ≤ waste_of o w'.
Definition opt rp (best : Z) : Prop :=
  ∀ T, choosable s T → fits (with_sel s T) → precedes T rp → best ≤ score (with_sel s T).
Definition all_opt (best : Z) : Prop := ∀ T, choosable s T → fits (with_sel s T) → best ≤ score (with_sel s T).

Lemma below_waste rp T : waste_mono → (length rp ≤ n)%nat → choosable s T → agree T rp →
  waste_of o (weight_in (with_sel s (chosen rp))) ≤ waste_of o (weight_in (with_sel s T)) ∧
  worth_in (with_sel s (chosen rp)) ≤ worth_in (with_sel s T).
Proof.
  intros Hmono Hl HT Ha. rewrite !weight_in_gs, !worth_in_gs, !(agree_gs _ T rp) by done.
  assert (Hsub : ∀ p, p ∈ filter (λ p, p.1 ∈ T) (drop (length rp) pool) → p ∈ pool).
  { intros p [_ Hin]%elem_of_list_filter. apply elem_of_list_lookup in Hin as [i Hi].
    rewrite lookup_drop in Hi. by eapply elem_of_list_lookup_2. }
  assert (0 ≤ gs wv_weight (filter (λ p, p.1 ∈ T) (drop (length rp) pool))).
  { apply gs_nonneg. intros p Hp. by apply cand_weight, pool_sub, Hsub. }
  assert (0 ≤ gs (worth o) (filter (λ p, p.1 ∈ T) (drop (length rp) pool))).
  { apply gs_nonneg. intros p Hp. apply Hsub, pool_elem in Hp as (_ & _ & ? & _). lia. }
  split; [|lia]. pose proof (sel_bounds T) as Hb. rewrite weight_in_gs, (agree_gs _ T rp) in Hb by done.
  pose proof (sel_bounds (chosen rp)) as Hb'. rewrite weight_in_gs in Hb'.
  apply Hmono; lia.
Qed.

(** Swapping equal neighbours. *)
Lemma swap_gs g T q p p' : choosable s T → pool !! q = Some p → pool !! S q = Some p' →
  p.1 ∉ T → p'.1 ∈ T → g p.2 = g p'.2 →
  gs g (inside ({[ p.1 ]} ∪ T ∖ {[ p'.1 ]})) = gs g (inside T) ∧ choosable s ({[ p.1 ]} ∪ T ∖ {[ p'.1 ]}).
Proof.
  intros HT Hp Hp' Hn Hi Hg.
  assert (HT' : choosable s ({[ p.1 ]} ∪ T ∖ {[ p'.1 ]})).
  { destruct HT as [H1 H2]. split.
    - apply elem_of_list_lookup_2, pool_elem in Hp' as (_ & ? & _). set_solver.
    - intros i [->%elem_of_singleton|[Hi' _]%elem_of_difference]%elem_of_union; [|by apply H2].
      right. exists p.2. apply elem_of_list_lookup_2, pool_elem in Hp as (? & _ & ? & _). done. }
  split; [|done]. rewrite (choosable_gs g T HT), (choosable_gs g _ HT'). f_equal.
  rewrite <-(take_drop q pool). rewrite (drop_lookup _ _ Hp), (drop_lookup _ _ Hp').
  rewrite !filter_app, !filter_cons, !gs_app.
  assert (Hne : p.1 ≠ p'.1) by (intros He; by rewrite <-He in Hi).
  rewrite (decide_True (P := p.1 ∈ {[p.1]} ∪ _)) by set_solver.
  rewrite (decide_False (P := p'.1 ∈ {[p.1]} ∪ _)) by set_solver.
  rewrite (decide_False (P := p.1 ∈ T)) by done. rewrite (decide_True (P := p'.1 ∈ T)) by done.
  rewrite !gs_cons.
  assert (Hsame : ∀ l : list (nat * WeightedValue), (∀ x, x ∈ l → ∃ j, pool !! j = Some x ∧ j ≠ q ∧ j ≠ S q) →
    filter (λ x : nat * WeightedValue, x.1 ∈ {[ p.1 ]} ∪ T ∖ {[ p'.1 ]}) l = filter (λ x : nat * WeightedValue, x.1 ∈ T) l).
  { induction l as [|x l IH]; intros Hl; [done|]. rewrite !filter_cons.
    rewrite IH by (intros y Hy; apply Hl; by apply elem_of_list_further).
    destruct (Hl x (elem_of_list_here _ _)) as (j & Hj & Hjq & Hjq').
    assert (x.1 ≠ p.1) by (intros He; apply Hjq; by eapply pool_inj).
    assert (x.1 ≠ p'.1) by (intros He; apply Hjq'; by eapply pool_inj).
    destruct (decide (x.1 ∈ T)); [rewrite decide_True by set_solver|rewrite decide_False by set_solver]; done. }
  rewrite (Hsame (take q pool)), (Hsame (drop (S (S q)) pool)); [lia| |].
  - intros x Hx. apply elem_of_list_lookup in Hx as [j Hj]. rewrite lookup_drop in Hj. eexists. split; [done|]. lia.
  - intros x Hx. apply elem_of_take in Hx as (j & Hj & Hlt). exists j. split; [done|]. lia.
Qed.

Lemma skip_opt best r p p' : pool !! length r = Some p → pool !! S (length r) = Some p' →
  wv_value p.2 = wv_value p'.2 → wv_weight p.2 = wv_weight p'.2 →
  opt (false :: r) best → opt (false :: false :: r) best.
Proof.
  intros Hp Hp' Hv Hw Ho T HT Hf [Hpr|(_ & [Ha Hd] & p'' & Hp'' & Hin)]; [by apply Ho|].
  assert (p'' = p') as -> by (cbn in Hp''; congruence).
  assert (Hn : p.1 ∉ T) by (intros Hc; by apply (Hd _ Hp) in Hc).
  assert (Hworth : worth o p.2 = worth o p'.2) by (unfold worth, spend_fee; by rewrite Hv, Hw).
  destruct (swap_gs wv_value T _ p p' HT Hp Hp' Hn Hin Hv) as [H1 HT'].
  destruct (swap_gs wv_weight T _ p p' HT Hp Hp' Hn Hin Hw) as [H2 _].
  destruct (swap_gs (worth o) T _ p p' HT Hp Hp' Hn Hin Hworth) as [H3 _].
  set (T' := {[ p.1 ]} ∪ T ∖ {[ p'.1 ]}) in *.
  assert (Hsc : score (with_sel s T) = score (with_sel s T')).
  { unfold score. cbn [with_sel cs_opts]. fold (with_sel s T) (with_sel s T').
    rewrite !weight_in_gs, !worth_in_gs, H2, H3. done. }
  rewrite Hsc. apply Ho; [done| |].
  - destruct Hf as (Hf1 & Hf2 & Hf3). split; [|split].
    + rewrite value_in_gs, H1, <-value_in_gs. done.
    + rewrite worth_in_gs, H3, <-worth_in_gs. done.
    + rewrite value_in_gs, H1, <-value_in_gs, worth_in_gs, H3, <-worth_in_gs. done.
  - right. split; [done|]. split.
    + eapply agree_ext; [|exact Ha]. intros q x Hq Hx. unfold T'.
      assert (x.1 ≠ p.1) by (intros He; assert (q = length r) by (by eapply pool_inj); lia).
      assert (x.1 ≠ p'.1) by (intros He; assert (q = S (length r)) by (by eapply pool_inj); lia).
      set_solver.
    + exists p. split; [done|]. unfold T'. set_solver.
Qed.

(** ** One step *)

Definition live (it : BnbIter Z) rp : Prop := bi_done it = false ∧ inv rp (bi_state it).
Notation best it := (b_best (bi_state it)).

Lemma advertise_spec rp b w : inv rp b →
  ∃ b' f, advertise b w = (b', f) ∧ inv rp b' ∧ (if f then w ≤ b_best b ∧ b_best b' = w else b_best b < w ∧ b_best b' = b_best b).
Proof.
  intros Hi. unfold advertise. destruct (decide (ord_le w (b_best b))) as [Hle|Hle].
  - do 2 eexists. split; [done|]. split; [done|]. split; [|done]. unfold ord_le, ord_cmp, Z_ord in Hle.
    by rewrite Z.compare_le_iff in Hle.
  - do 2 eexists. split; [done|]. split; [done|]. split; [|done]. unfold ord_le, ord_cmp, Z_ord in Hle.
    rewrite Z.compare_le_iff in Hle. lia.
Qed.

Lemma iter_next_spec dec it rp : live it rp →
  ∃ it' item, iter_next dbg (strat dec) it = Ret (it', item) ∧
    ((∃ T, choosable s T ∧ fits (with_sel s T) ∧ item = Some (Some (with_sel s T)) ∧
        best it' = score (with_sel s T) ∧ best it' ≤ best it)
     ∨ (item = (if bi_done it' then None else Some None) ∧ best it' = best it)) ∧
    ((bi_done it' = true ∧ (waste_mono → opt rp (best it) → all_opt (best it')))
     ∨ ∃ rp', live it' rp' ∧ (left_over rp' < left_over rp)%nat ∧ (waste_mono → opt rp (best it) → opt rp' (best it'))).
Proof.
  intros [Hd Hi]. unfold iter_next. rewrite Hd.
  destruct (strategy_spec dec rp (bi_state it) Hi) as (br & sc & Hst & Hspec). rewrite Hst. cbn [mbind outcome_bind].
  pose proof Hi as (Hl & _).
  assert (Hboth : ∀ b found, inv rp b →
    ((∃ T, choosable s T ∧ fits (with_sel s T) ∧ found = Some (with_sel s T) ∧
        b_best b = score (with_sel s T) ∧ b_best b ≤ best it) ∨ (found = None ∧ b_best b = best it)) →
    (waste_mono → opt rp (best it) → ∀ T, choosable s T → fits (with_sel s T) → precedes T rp ∨ agree T rp → b_best b ≤ score (with_sel s T)) →
    ∃ it' item,
      (('(b', done) ← ('(b', more) ← backtrack dbg b; Ret (b', negb more));
        let it' := mkIter (mkBnb (b_pool b') (S (b_pos b')) (b_best b') (b_selection b') (b_rem_abs b') (b_rem_eff b')) done in
        Ret (it', match found with Some _ => Some found | None => if (done : bool) then None else Some None end))
       : outcome (BnbIter Z * option (option CoinSelector))) = Ret (it', item) ∧
      ((∃ T, choosable s T ∧ fits (with_sel s T) ∧ item = Some (Some (with_sel s T)) ∧
          best it' = score (with_sel s T) ∧ best it' ≤ best it)
       ∨ (item = (if bi_done it' then None else Some None) ∧ best it' = best it)) ∧
      ((bi_done it' = true ∧ (waste_mono → opt rp (best it) → all_opt (best it')))
       ∨ ∃ rp', live it' rp' ∧ (left_over rp' < left_over rp)%nat ∧ (waste_mono → opt rp (best it) → opt rp' (best it')))).
  { intros b found Hib Hfound Hopt. destruct (backtrack_spec rp b Hib) as (b' & more & Hbt & Hbest & Hn).
    rewrite Hbt. cbn [mbind outcome_bind]. do 2 eexists. split; [done|]. cbn [bi_state b_best bi_done].
    rewrite Hbest. split.
    { destruct Hfound as [(T & HT & Hf & -> & Hb1 & Hb2)|[-> Hb]]; [left; by exists T|by right]. }
    pose proof (next_path_spec rp Hl) as Hnp. destruct (next_path rp) as [rp'|].
    - destruct Hn as [-> Hinv]. right. exists rp'. destruct Hnp as (_ & Hlo & Hpr). split; [by split|].
      split; [rewrite Hlo; unfold left_over; pose proof (tree_pos (n - length rp)); lia|].
      intros Hmono Ho T HT Hf Hp. apply Hopt; auto.
    - subst more. left. split; [done|]. intros Hmono Ho T HT Hf. apply Hopt; auto. }
  destruct br, sc as [w|]; try done; cbn [will_continue].
  - (* Continue *)
    assert (Hpos : bool_decide (b_pos (bi_state it) < length (b_pool (bi_state it)))%nat = true).
    { apply bool_decide_eq_true_2. destruct Hi as (_ & -> & -> & _). done. }
    rewrite Hpos, andb_false_r. destruct (forward_spec rp _ false Hi Hspec) as (b' & -> & Hb & Hinv).
    cbn [mbind outcome_bind]. do 2 eexists. split; [done|]. cbn [bi_state b_best bi_done].
    split; [right; done|]. right. exists (true :: rp). split; [by split|]. split.
    { unfold left_over. cbn [length later]. replace (n - length rp - 1)%nat with (n - S (length rp))%nat by lia.
      replace (n - length rp)%nat with (S (n - S (length rp))) by lia. cbn [tree]. lia. }
    intros _ Ho T HT Hf [Hpr|(? & _)]; [|done]. rewrite Hb. by apply Ho.
  - (* SkipInclusion *)
    destruct Hspec as (Hlt & r & p & p' & -> & Hp & Hp' & Hv & Hw).
    assert (Hpos : bool_decide (b_pos (bi_state it) < length (b_pool (bi_state it)))%nat = true).
    { apply bool_decide_eq_true_2. destruct Hi as (_ & -> & -> & _). done. }
    rewrite Hpos, andb_false_r. destruct (forward_spec _ _ true Hi Hlt) as (b' & -> & Hb & Hinv).
    cbn [mbind outcome_bind]. do 2 eexists. split; [done|]. cbn [bi_state b_best bi_done].
    split; [right; done|]. right. exists (false :: false :: r). split; [by split|]. split.
    { unfold left_over. cbn [length later] in *.
      replace (n - S (length r))%nat with (S (n - S (S (length r)))) by lia. cbn [tree]. lia. }
    intros _ Ho. rewrite Hb. by apply (skip_opt _ r p p').
  - (* SkipBoth with a solution *)
    destruct Hspec as [Hf ->].
    destruct (advertise_spec rp (bi_state it) (score (with_sel s (chosen rp))) Hi) as (b & f & -> & Hib & Hb).
    rewrite andb_false_r, andb_false_l.
    destruct Hi as (_ & _ & _ & Hsel & _). rewrite Hsel.
    apply Hboth; [done| |].
    + destruct f; [left|right; tauto]. exists (chosen rp). split; [apply chosen_choosable|]. split; [done|].
      split; [done|]. lia.
    + intros Hmono Ho T HT HfT [Hpr|Ha].
      * specialize (Ho T HT HfT Hpr). destruct f; lia.
      * destruct (below_waste rp T Hmono Hl HT Ha) as [H1 H2].
        assert (score (with_sel s (chosen rp)) ≤ score (with_sel s T)).
        { unfold score. change (worth_target (with_sel s T)) with (worth_target s).
          change (worth_target (with_sel s (chosen rp))) with (worth_target s).
          change (cs_opts (with_sel s T)) with o. change (cs_opts (with_sel s (chosen rp))) with o. lia. }
        destruct f; lia.
  - (* SkipBoth without *)
    rewrite andb_false_r, andb_false_l. apply (Hboth (bi_state it) None); [done|by right|].
    intros Hmono Ho T HT HfT [Hpr|Ha]; [by apply Ho|].
    destruct Hspec as [_ Hlt]; [by exists T|]. destruct (below_waste rp T Hmono Hl HT Ha) as [H1 _].
    destruct HfT as (_ & Hw & _). unfold score. change (worth_target (with_sel s T)) with (worth_target s) in *.
    change (cs_opts (with_sel s T)) with o. lia.
Qed.

(** ** The runs *)

Definition acc_ok (bst : Z) (acc : option (option CoinSelector)) : Prop :=
  match acc with
  | Some (Some c) => ∃ T, c = with_sel s T ∧ choosable s T ∧ fits c ∧ score c = bst
  | _ => bst = imax I64
  end.

Lemma better_ok it it' acc item : acc_ok (best it) acc →
  ((∃ T, choosable s T ∧ fits (with_sel s T) ∧ item = Some (Some (with_sel s T)) ∧
        best it' = score (with_sel s T) ∧ best it' ≤ best it)
     ∨ (item = (if bi_done it' then None else Some None) ∧ best it' = best it)) →
  match item with
  | Some c => acc_ok (best it') (better_of acc c)
  | None => acc_ok (best it') acc ∧ bi_done it' = true
  end.
Proof.
  intros Hacc [(T & HT & Hf & -> & Hb & _)|[-> Hb]].
  - destruct acc as [a|]; cbn; exists T; done.
  - rewrite Hb. destruct (bi_done it'); [done|]. destruct acc as [[a|]|]; done.
Qed.

Lemma run_done dec N it acc : bi_done it = true → run_rounds dbg (strat dec) N it acc = Ret acc.
Proof. intros Hd. destruct N as [|N]; [done|]. cbn [run_rounds]. unfold iter_next. rewrite Hd. done. Qed.
Lemma run_clock_done dec l it acc : bi_done it = true → run_clock dbg (strat dec) l it acc = Ret acc.
Proof. intros Hd. destruct l as [|t l]; cbn [run_clock]; unfold iter_next; rewrite Hd; done. Qed.

Lemma run_rounds_spec dec N : ∀ rp it acc, live it rp → acc_ok (best it) acc →
  ∃ r bst, run_rounds dbg (strat dec) N it acc = Ret r ∧ acc_ok bst r ∧
    (waste_mono → opt rp (best it) → (left_over rp ≤ N)%nat → all_opt bst).
Proof.
  induction N as [|N IH]; intros rp it acc Hlive Hacc.
  { exists acc, (best it). split; [done|]. split; [done|]. intros _ _ Hle. unfold left_over in Hle.
    pose proof (tree_pos (n - length rp)). lia. }
  destruct (iter_next_spec dec it rp Hlive) as (it' & item & Hit & Hitem & Hnext).
  cbn [run_rounds]. rewrite Hit. cbn [mbind outcome_bind].
  pose proof (better_ok it it' acc item Hacc Hitem) as Hb.
  destruct Hnext as [[Hd Ho]|(rp' & Hl' & Hlt & Ho)].
  - destruct item as [c|].
    + rewrite run_done by done. exists (better_of acc c), (best it'). split; [done|]. split; [done|]. auto.
    + destruct Hb as [Hb _]. exists acc, (best it'). split; [done|]. split; [done|]. auto.
  - destruct item as [c|].
    + destruct (IH rp' it' (better_of acc c) Hl' Hb) as (r & bst & Hr & Hacc' & Hopt).
      exists r, bst. split; [done|]. split; [done|]. intros Hmono Hop Hle. apply Hopt; auto. lia.
    + destruct Hb as [_ Hd]. destruct Hl' as [Hd' _]. congruence.
Qed.

Lemma run_rounds_enough dec N : ∀ rp it acc N', live it rp → (left_over rp ≤ N)%nat → (N ≤ N')%nat →
  run_rounds dbg (strat dec) N' it acc = run_rounds dbg (strat dec) N it acc.
Proof.
  induction N as [|N IH]; intros rp it acc N' Hlive Hle HN.
  { unfold left_over in Hle. pose proof (tree_pos (n - length rp)). lia. }
  destruct N' as [|N']; [lia|].
  destruct (iter_next_spec dec it rp Hlive) as (it' & item & Hit & _ & Hnext).
  cbn [run_rounds]. rewrite Hit. cbn [mbind outcome_bind]. destruct item as [c|]; [|done].
  destruct Hnext as [[Hd _]|(rp' & Hl' & Hlt & _)]; [by rewrite !run_done|].
  apply (IH rp'); [done|lia|lia].
Qed.

Lemma run_clock_spec dec l : ∀ rp it acc, ClockBack ∉ l → live it rp → acc_ok (best it) acc →
  ∃ r bst, run_clock dbg (strat dec) l it acc = Ret r ∧ acc_ok bst r.
Proof.
  induction l as [|t l IH]; intros rp it acc Hcl Hlive Hacc;
    destruct (iter_next_spec dec it rp Hlive) as (it' & item & Hit & Hitem & Hnext);
    pose proof (better_ok it it' acc item Hacc Hitem) as Hb;
    cbn [run_clock]; rewrite Hit; cbn [mbind outcome_bind].
  - destruct item as [c|]; by exists acc, (best it).
  - apply not_elem_of_cons in Hcl as [Ht' Hcl]. destruct item as [c|]; [|by exists acc, (best it)].
    destruct t; [|by exists acc, (best it)|done].
    destruct Hnext as [[Hd _]|(rp' & Hl' & _ & _)].
    + rewrite run_clock_done by done. by eexists _, (best it').
    + by apply (IH rp').
Qed.

Lemma run_clock_enough dec N : ∀ rp it acc rest, live it rp → (left_over rp ≤ N)%nat →
  run_clock dbg (strat dec) (replicate N InTime ++ rest) it acc = run_rounds dbg (strat dec) N it acc.
Proof.
  induction N as [|N IH]; intros rp it acc rest Hlive Hle.
  { unfold left_over in Hle. pose proof (tree_pos (n - length rp)). lia. }
  destruct (iter_next_spec dec it rp Hlive) as (it' & item & Hit & _ & Hnext).
  cbn [replicate app run_clock run_rounds]. rewrite Hit. cbn [mbind outcome_bind]. destruct item as [c|]; [|done].
  destruct Hnext as [[Hd _]|(rp' & Hl' & Hlt & _)]; [by rewrite run_clock_done, run_done|].
  apply (IH rp'); [done|lia].
Qed.

End search.
