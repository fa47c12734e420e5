(** Coin selection: the theorems as stated, weights against BIP 141, accessors. *)
From stdpp Require Import sorting.
From Verif Require Import BaseProofs MachineSpec F32Proofs CoinSelectModel CoinSelectSpec CoinSelectProofs CoinSelectProofs2 CoinSelectProofs3.

Lemma finish_ok_spec dbg s sn : typed s → (dbg = false → modest s) → finish dbg s = Ret (Ok sn) →
  sn_selected sn = cs_sel s ∧
  sn_excess sn = value_in s - default 0 (o_target (cs_opts s))
                 - Z.max (rate_fee (cs_opts s) (tx_weight s false)) (o_min_fee (cs_opts s)) ∧
  0 ≤ sn_excess sn ∧ NoDup (sn_strategies sn).*1 ∧
  (∀ k e, (k, e) ∈ sn_strategies sn → strategy_good s k e) ∧
  (is_Some (o_target (cs_opts s)) ↔ ToFee ∈ (sn_strategies sn).*1) ∧
  (Z.max (rate_fee (cs_opts s) (tx_weight s true)) (o_min_fee (cs_opts s)) + o_min_drain (cs_opts s)
     + default 0 (o_target (cs_opts s)) ≤ value_in s ↔ ToDrain ∈ (sn_strategies sn).*1).
Proof.
  intros Ht Hm Hf. destruct (finish_inv dbg s Ht _ Hm Hf) as (Hall & Hsel & Hex & waste & Hst & _ & Hv & _).
  destruct (strategies_good dbg s Ht waste _ _ Hm Hall Hv Hex Hst) as (Hnd & Hg & Hfee & Hdr).
  split; [done|]. split; [done|]. split.
  { rewrite Hex. specialize (Hall TargetFee) as H1. specialize (Hall MinAbsoluteFee) as H2. cbn [needed] in H1, H2. lia. }
  split; [done|]. split; [done|]. split.
  - split.
    + intros [v Hv']. destruct (Hfee v Hv') as (e & Hin & _). apply elem_of_list_fmap. by exists (ToFee, e).
    + intros ([k e] & Hk & Hin)%elem_of_list_fmap. destruct (Hg _ _ Hin) as (_ & _ & _ & _ & _ & Htg).
      cbn [fst] in Hk. subst k. destruct (o_target (cs_opts s)); [by eexists|]. by destruct Htg as [_ ?].
  - destruct (decide (ToDrain ∈ (sn_strategies sn).*1)) as [Hi|Hi]; split; intros Hx; try done.
    + destruct (Z.le_gt_cases (Z.max (rate_fee (cs_opts s) (tx_weight s true)) (o_min_fee (cs_opts s)) + o_min_drain (cs_opts s)
        + default 0 (o_target (cs_opts s))) (value_in s)) as [|Hlt]; [done|].
      exfalso. refine (proj1 Hdr _ Hi). lia.
    + exfalso. apply Hdr in Hi. lia.
Qed.

Lemma finish_err_iff dbg s r : typed s → (dbg = false → modest s) → finish dbg s = Ret r →
  ((∃ e, r = Err e) ↔ ∃ c, value_in s < needed s c) ∧
  ∀ e, r = Err e →
    se_selected e = value_in s ∧ 0 < se_missing e ∧ se_missing e = needed s (se_constraint e) - value_in s ∧
    ∀ c, needed s c - value_in s ≤ se_missing e.
Proof.
  intros Ht Hm Hf. pose proof (finish_inv dbg s Ht _ Hm Hf) as Hi. destruct r as [sn|e]; split.
  - split; [by intros [e ?]|]. intros [c Hc]. destruct Hi as [Hall _]. specialize (Hall c). lia.
  - done.
  - destruct Hi as (_ & Hlt & _). split; [|by eexists]. intros _. by eexists.
  - intros e' [= <-]. destruct Hi as (-> & Hlt & Hmi & Hall). split; [done|]. split; [lia|]. split; [done|]. done.
Qed.

(** Exactly when a selection finishes without a strategy. *)
Lemma finish_empty_iff dbg s sn : typed s → (dbg = false → modest s) → finish dbg s = Ret (Ok sn) →
  sn_strategies sn = [] ↔
  o_target (cs_opts s) = None ∧
  value_in s < Z.max (rate_fee (cs_opts s) (tx_weight s true)) (o_min_fee (cs_opts s)) + o_min_drain (cs_opts s).
Proof.
  intros Ht Hm Hf. destruct (finish_ok_spec dbg s sn Ht Hm Hf) as (_ & _ & _ & _ & Hg & Hfee & Hdr). split.
  - intros He. rewrite He in Hfee, Hdr. split.
    + destruct (o_target (cs_opts s)) as [v|]; [|done].
      assert (Hx : ToFee ∈ @nil ExcessStrategyKind) by (apply Hfee; eauto). by apply not_elem_of_nil in Hx.
    + destruct (o_target (cs_opts s)) as [v|] eqn:Hv.
      { exfalso. assert (Hx : ToFee ∈ @nil ExcessStrategyKind) by (apply Hfee; eauto). by apply not_elem_of_nil in Hx. }
      cbn in Hdr. destruct (Z.le_gt_cases (Z.max (rate_fee (cs_opts s) (tx_weight s true)) (o_min_fee (cs_opts s)) + o_min_drain (cs_opts s)) (value_in s)) as [Hx|Hx]; [|done].
      exfalso. assert (Hy : ToDrain ∈ @nil ExcessStrategyKind) by (apply Hdr; lia). by apply not_elem_of_nil in Hy.
  - intros [Hn Hlt]. destruct (sn_strategies sn) as [|[k e] l] eqn:Hs; [done|]. exfalso.
    destruct (Hg k e (elem_of_list_here _ _)) as (_ & _ & _ & _ & _ & Hk). rewrite Hn in Hk. destruct Hk as [_ ->].
    assert (Hx : ToDrain ∈ ((ToDrain, e) :: l).*1) by (cbn; apply elem_of_list_here). apply Hdr in Hx. rewrite Hn in Hx. cbn in Hx. lia.
Qed.

Lemma best_of_finish dbg s sn entries : typed s → (dbg = false → modest s) → finish dbg s = Ret (Ok sn) →
  (o_target (cs_opts s) = None → o_min_fee (cs_opts s) ≤ rate_fee (cs_opts s) (tx_weight s true)) →
  entries ≡ₚ sn_strategies sn →
  ∃ k e, best_strategy entries = Ret (k, e) ∧ (k, e) ∈ sn_strategies sn ∧
    ∀ k' e', (k', e') ∈ sn_strategies sn → es_waste e ≤ es_waste e'.
Proof.
  intros Ht Hm Hf Hc Hp. destruct (best_strategy_spec entries) as (k & e & Hb & Hin & Hmin).
  { intros ->. apply Permutation_nil_l in Hp. symmetry in Hp. 
    apply (finish_empty_iff dbg s sn Ht Hm Hf) in Hp as [Hn Hlt]. specialize (Hc Hn).
    destruct (finish_inv dbg s Ht _ Hm Hf) as (Hall & _). specialize (Hall MinDrainValue). cbn [needed] in Hall.
    rewrite Hn in Hall. lia. }
  exists k, e. split; [done|]. setoid_rewrite <-Hp. done.
Qed.

(** ** The fee against the exact rate *)

Lemma fee_rate_close dbg s sn k e R : typed s → (dbg = false → modest s) → finish dbg s = Ret (Ok sn) →
  (k, e) ∈ sn_strategies sn → f32_is (o_rate (cs_opts s)) R → 0 ≤ R ≤ 2 ^ 420 →
  es_weight e < 2 ^ 24 → es_weight e * R < 2 ^ 424 →
  es_weight e * R ≤ es_fee e * 2 ^ 400 + 2 ^ 399.
Proof.
  intros Ht Hm Hf Hin Hr HR Hw Hwr.
  destruct (finish_ok_spec dbg s sn Ht Hm Hf) as (_ & _ & _ & _ & Hg & _).
  destruct (Hg _ _ Hin) as (_ & Hwe & Hfee & _).
  assert (0 ≤ es_weight e).
  { rewrite Hwe. unfold tx_weight, inputs_weight.
    pose proof (picked_weight_nonneg s Ht). pose proof (compact_len_range (Zsum (wv_count <$> picked s))).
    destruct Ht as ((_ & _ & _ & Hb & Hd & _) & _). unfold in_type in *. cbn [imin] in *.
    destruct (existsb _ _), (bool_decide _); lia. }
  unfold rate_fee, weight_fee in Hfee.
  rewrite (weight_fee_as _ _ _ R) in Hfee; [|lia|done|lia|by left].
  pose proof (fee_units_lower (es_weight e) R ltac:(lia) ltac:(lia) Hwr). nia.
Qed.

Lemma fee_rate_exact dbg s sn k e n : typed s → (dbg = false → modest s) → finish dbg s = Ret (Ok sn) →
  (k, e) ∈ sn_strategies sn → f32_is (o_rate (cs_opts s)) (n * 2 ^ 398) → 0 ≤ n ≤ 2 ^ 22 →
  es_weight e < 2 ^ 24 → es_weight e * n < 2 ^ 24 →
  es_weight e * n ≤ 4 * es_fee e ∧
  rate_fee (cs_opts s) (es_weight e) = - (- (es_weight e * n) / 4).
Proof.
  intros Ht Hm Hf Hin Hr Hn Hw Hwr.
  destruct (finish_ok_spec dbg s sn Ht Hm Hf) as (_ & _ & _ & _ & Hg & _).
  destruct (Hg _ _ Hin) as (_ & Hwe & Hfee & _).
  assert (0 ≤ es_weight e).
  { rewrite Hwe. unfold tx_weight, inputs_weight.
    pose proof (picked_weight_nonneg s Ht). pose proof (compact_len_range (Zsum (wv_count <$> picked s))).
    destruct Ht as ((_ & _ & _ & Hb & Hd & _) & _). unfold in_type in *. cbn [imin] in *.
    destruct (existsb _ _), (bool_decide _); lia. }
  unfold rate_fee, weight_fee in *.
  assert (Hx : f32_as U64 (f32_ceil (f32_mul (f32_of (es_weight e)) (o_rate (cs_opts s)))) = - (- (es_weight e * n) / 4)).
  { rewrite (weight_fee_as _ _ _ (n * 2 ^ 398)); [|lia|done|lia|by left]. apply fee_units_exact; lia. }
  rewrite Hx in *. split; [|done].
  pose proof (Z.div_mod (- (es_weight e * n)) 4 ltac:(lia)).
  pose proof (Z.mod_pos_bound (- (es_weight e * n)) 4 ltac:(lia)). lia.
Qed.

(** ** Accessors *)

Lemma all_ret_lookup {A} (pre post : list A) (sel : gset nat) :
  all_ret ((λ i, match (pre ++ post) !! i with Some t => Ret t | None => Panic end)
             <$> filter (λ i, i ∈ sel) (seq (length pre) (length post)))
  = Ret (filter (λ p, p.1 ∈ sel) (imap (λ i, pair (length pre + i)%nat) post)).*2.
Proof.
  revert pre. induction post as [|c post IH]; intros pre; [done|].
  specialize (IH (pre ++ [c])). rewrite app_length in IH. cbn [length] in IH. rewrite Nat.add_1_r in IH.
  cbn [length seq imap]. rewrite !filter_cons. cbn [fst]. rewrite Nat.add_0_r.
  assert (Hi : imap ((λ i, pair (length pre + i)%nat) ∘ S) post
               = imap (λ i, pair (S (length pre) + i)%nat) post).
  { apply imap_ext. intros i x _. cbn. f_equal. lia. }
  rewrite Hi. rewrite <-app_assoc in IH. cbn [app] in IH.
  destruct (decide (length pre ∈ sel)); [|exact IH].
  rewrite fmap_cons. cbn [all_ret]. rewrite list_lookup_middle by done. cbn [mbind outcome_bind]. rewrite IH. done.
Qed.

Lemma apply_selection_spec {T} sn (l : list T) :
  (∀ i, i ∈ sn_selected sn → (i < length l)%nat) → apply_selection sn l = Ret (at_indices l (sn_selected sn)).
Proof.
  intros Hl. unfold apply_selection. rewrite (bset_list_seq _ (length l) Hl). exact (all_ret_lookup [] l _).
Qed.

Lemma selected_partition s : typed s →
  ∃ l, cs_selected s = Ret l ∧ l ++ cs_unselected s ≡ₚ imap pair (cs_cands s) ∧
    (∀ i c, (i, c) ∈ l ↔ i ∈ cs_sel s ∧ cs_cands s !! i = Some c) ∧
    (∀ i c, (i, c) ∈ cs_unselected s ↔ i ∉ cs_sel s ∧ cs_cands s !! i = Some c) ∧
    StronglySorted lt l.*1 ∧ StronglySorted lt (cs_unselected s).*1.
Proof.
  intros Ht. exists (sel_pairs s). split; [by apply cs_selected_ret|].
  assert (Hin : ∀ i c, (i, c) ∈ imap pair (cs_cands s) ↔ cs_cands s !! i = Some c).
  { intros i c. rewrite elem_of_lookup_imap. naive_solver. }
  split.
  { unfold sel_pairs, cs_unselected. generalize (imap pair (cs_cands s)). clear.
    induction l as [|x l IH]; [done|]. rewrite !filter_cons. destruct (decide (x.1 ∈ cs_sel s)).
    - rewrite decide_False by tauto. cbn. by rewrite IH.
    - rewrite decide_True by tauto. by rewrite <-Permutation_middle, IH. }
  split; [intros i c; unfold sel_pairs; by rewrite elem_of_list_filter, Hin|].
  split; [intros i c; unfold cs_unselected; by rewrite elem_of_list_filter, Hin|].
  assert (Hs : ∀ (P : nat * WeightedValue → Prop) `{∀ x, Decision (P x)} (l : list WeightedValue) (f : nat → nat),
    (∀ i j, (i < j)%nat → (f i < f j)%nat) →
    StronglySorted lt (filter P (imap (λ i, pair (f i)) l)).*1 ∧
    ∀ i, i ∈ (filter P (imap (λ i, pair (f i)) l)).*1 → (f 0 ≤ i)%nat).
  { clear. intros P HP l. induction l as [|c l IH]; intros f Hf.
    { split; [constructor|]. intros i Hi. cbn in Hi. by apply not_elem_of_nil in Hi. }
    destruct (IH (λ i, f (S i))) as [Hs Hb]; [intros; apply Hf; lia|].
    cbn [imap]. change ((λ i : nat, pair (f i)) ∘ S) with (λ i : nat, @pair nat WeightedValue (f (S i))) in *.
    rewrite filter_cons. destruct (decide (P _)).
    - rewrite fmap_cons. cbn [fst]. split.
      + constructor; [done|]. apply Forall_forall. intros i Hi. apply Hb in Hi. specialize (Hf 0%nat 1%nat). lia.
      + intros i [->|Hi]%elem_of_cons; [done|]. apply Hb in Hi. specialize (Hf 0%nat 1%nat). lia.
    - split; [done|]. intros i Hi. apply Hb in Hi. specialize (Hf 0%nat 1%nat). lia. }
  split; apply (Hs _ _ _ (λ i, i)); done.
Qed.

(** ** Weights *)

Lemma Forall2_imap_pair {A B} (P : A → B → Prop) l k : ∀ f : nat → nat, Forall2 P l k →
  Forall2 (λ p q, p.1 = q.1 ∧ P p.2 q.2) (imap (λ i, pair (f i)) l) (imap (λ i, pair (f i)) k).
Proof.
  intros f Hl. revert f. induction Hl as [|x y l k Hxy Hl IH]; intros f; [constructor|].
  cbn [imap]. constructor; [done|]. exact (IH (λ i, f (S i))).
Qed.
Lemma at_indices_Forall2 {A B} (P : A → B → Prop) l k (sel : gset nat) : Forall2 P l k →
  Forall2 P (at_indices l sel) (at_indices k sel).
Proof.
  intros Hl. pose proof (Forall2_imap_pair P l k (λ i, i) Hl) as Hi.
  unfold at_indices. change (imap pair l) with (imap (λ i, @pair nat A i) l).
  change (imap pair k) with (imap (λ i, @pair nat B i) k).
  induction Hi as [|p q l' k' [Hpq HP] Hi IH]; [constructor|].
  rewrite !filter_cons, Hpq. destruct (decide (q.1 ∈ sel)); [|exact IH].
  rewrite !fmap_cons. by constructor.
Qed.

Lemma outputs_weight_eq outs : outputs_weight outs = bip141_weight [] outs.
Proof.
  unfold outputs_weight, bip141_weight. cbn [length existsb fmap list_fmap Zsum foldr]. rewrite !varint_compact.
  change (compact_len 0) with 1. change (compact_len (Z.of_nat 0)) with 1.
  assert (He : foldr Z.add 0 ((λ o : Z * Z, 8 + varint_size o.2 + o.2) <$> outs)
               = Zsum ((λ o : Z * Z, 8 + bytes_len o.2) <$> outs)).
  { induction outs as [|o outs IH]; [done|]. rewrite !fmap_cons. unfold Zsum. cbn [foldr].
    change (foldr Z.add 0 ((λ o : Z * Z, 8 + bytes_len o.2) <$> outs)) with (Zsum ((λ o : Z * Z, 8 + bytes_len o.2) <$> outs)).
    rewrite IH, varint_compact. unfold bytes_len. lia. }
  rewrite He. lia.
Qed.

Lemma built_sums dbg ins cands : Forall2 (built dbg) ins cands →
  Zsum (wv_count <$> cands) = Z.of_nat (length ins) ∧
  existsb wv_segwit cands = existsb has_witness ins.*2 ∧
  Zsum (wv_weight <$> cands) = 4 * Zsum ((λ i, 36 + bytes_len (ti_script i) + 4) <$> ins.*2) + Zsum (witness_size <$> ins.*2) ∧
  wv_value <$> cands = ins.*1.
Proof.
  induction 1 as [|[v i] c ins cands [Hb Hr] Hl IH]; [done|]. destruct IH as (IH1 & IH2 & IH3 & IH4).
  unfold wv_new in Hb. cbn [fst snd] in *. rewrite fit_ret in Hb by done. cbn [mbind outcome_bind] in Hb. injection Hb as <-.
  rewrite !fmap_cons, !Zsum_cons. cbn [wv_count wv_segwit wv_weight wv_value existsb length fst snd].
  rewrite IH1, IH2, IH3, IH4. split; [lia|]. split; [done|]. split; [|done].
  unfold satisfaction_weight, txin_base_weight. lia.
Qed.

Lemma weight_picked dbg outs dout dsat o ins s drain :
  opt_fund_outputs dbg outs dout dsat = Ret o →
  in_type U32 (outputs_weight outs) → in_type U32 (outputs_weight (outs ++ [dout]) - outputs_weight outs) →
  o_base (cs_opts s) = o_base o → o_drain (cs_opts s) = o_drain o →
  Forall2 (built dbg) ins (picked s) →
  let spent := ins.*2 in
  tx_weight s drain =
    bip141_weight spent (outs ++ (if drain then [dout] else []))
    + (if existsb has_witness spent then 0 else Z.of_nat (length spent)).
Proof.
  intros Ho Hb Hd Hob Hod Hall spent.
  assert (Hopt : o_base o = outputs_weight outs ∧ o_drain o = outputs_weight (outs ++ [dout]) - outputs_weight outs).
  { unfold opt_fund_outputs in Ho.
    match type of Ho with (?m ≫= _) = _ => destruct m as [t|]; [|done] end. cbn [mbind outcome_bind] in Ho.
    destruct (fit dbg U32 (txin_base_weight + dsat)) as [sd|]; [|done]. cbn [mbind outcome_bind] in Ho.
    rewrite !wrap_id in Ho by done. unfold opt_from_weights in Ho.
    match type of Ho with ((?m ≫= _) ≫= _) = _ => destruct m as [w|]; [|done] end. cbn [mbind outcome_bind] in Ho.
    match type of Ho with ((?m ≫= _) ≫= _) = _ => destruct m as [w'|]; [|done] end. cbn [mbind outcome_bind] in Ho.
    injection Ho as <-. done. }
  destruct Hopt as [Hopt1 Hopt2]. unfold tx_weight, inputs_weight. rewrite Hob, Hod, Hopt1, Hopt2.
  destruct (built_sums dbg _ _ Hall) as (H1 & H2 & H3 & _).
  rewrite H1, H2, H3. fold spent.
  replace (length ins) with (length spent) by apply fmap_length.
  rewrite !outputs_weight_eq. unfold bip141_weight. cbn [existsb fmap list_fmap Zsum foldr length].
  change (compact_len (Z.of_nat 0)) with 1.
  assert (Hw : existsb has_witness spent = false → Zsum (witness_size <$> spent) = Z.of_nat (length spent)).
  { generalize spent. clear. induction spent as [|i l IH]; [done|]. cbn [existsb]. intros [Hi Hl]%orb_false_iff.
    rewrite fmap_cons, Zsum_cons, IH by done. unfold witness_size, has_witness in *.
    destruct (ti_witness i); [|done]. cbn [length fmap list_fmap Zsum foldr]. change (compact_len (Z.of_nat 0)) with 1. lia. }
  destruct (existsb has_witness spent); [|rewrite (Hw eq_refl)]; destruct drain; rewrite ?app_nil_r; lia.
Qed.
Lemma weight_bip141 dbg outs dout dsat o ins s drain :
  opt_fund_outputs dbg outs dout dsat = Ret o →
  in_type U32 (outputs_weight outs) → in_type U32 (outputs_weight (outs ++ [dout]) - outputs_weight outs) →
  o_base (cs_opts s) = o_base o → o_drain (cs_opts s) = o_drain o →
  Forall2 (built dbg) ins (cs_cands s) →
  let spent := (at_indices ins (cs_sel s)).*2 in
  tx_weight s drain =
    bip141_weight spent (outs ++ (if drain then [dout] else []))
    + (if existsb has_witness spent then 0 else Z.of_nat (length spent)).
Proof.
  intros Ho Hb Hd Hob Hod Hall. apply (weight_picked dbg outs dout dsat o _ s drain); try done. by apply at_indices_Forall2.
Qed.
