(** Proofs about the coin selector. *)
From Verif Require Import BaseProofs MachineSpec F32Proofs CoinSelectModel CoinSelectSpec.

Global Instance nat_ord_laws : OrdLaws nat.
Proof.
  split; unfold ord_cmp, nat_ord.
  - apply Nat.compare_eq_iff.
  - intros a b. apply Nat.compare_antisym.
  - intros a b c. rewrite !Nat.compare_lt_iff. lia.
Qed.
Global Instance Z_ord_laws : OrdLaws Z.
Proof.
  split; unfold ord_cmp, Z_ord.
  - apply Z.compare_eq_iff.
  - intros a b. apply Z.compare_antisym.
  - intros a b c. rewrite !Z.compare_lt_iff. lia.
Qed.

(** ** Integers *)

Lemma in_ity_true t z : in_ity t z = true ↔ in_type t z.
Proof. unfold in_ity, in_type. rewrite andb_true_iff, !Z.leb_le. done. Qed.

Lemma wrap_id t z : in_type t z → wrap t z = z.
Proof.
  unfold in_type, wrap. intros Hz. rewrite Z.mod_small; [lia|]. lia.
Qed.
Lemma fit_ret dbg t z : in_type t z → fit dbg t z = Ret z.
Proof. intros Hz. unfold fit. apply in_ity_true in Hz. by rewrite Hz. Qed.
Lemma fit_inv dbg t z z' : fit dbg t z = Ret z' → (dbg = false → in_type t z) → z' = z ∧ in_type t z.
Proof.
  unfold fit. destruct (in_ity t z) eqn:Hi.
  - intros [= <-] _. split; [done|]. by apply in_ity_true.
  - destruct dbg; [done|]. intros _ Hf. specialize (Hf eq_refl). apply in_ity_true in Hf. congruence.
Qed.
Lemma fit_false t z : ∃ z', fit false t z = Ret z'.
Proof. unfold fit. destruct (in_ity t z); eauto. Qed.

Lemma Zsum_app l k : Zsum (l ++ k) = Zsum l + Zsum k.
Proof. induction l as [|x l IH]; [done|]. simpl. unfold Zsum in *. lia. Qed.
Lemma Zsum_cons x l : Zsum (x :: l) = x + Zsum l.
Proof. done. Qed.
Lemma Zsum_nonneg l : Forall (λ x, 0 ≤ x) l → 0 ≤ Zsum l.
Proof. induction 1; [done|]. rewrite Zsum_cons. lia. Qed.
Lemma Zsum_perm l k : l ≡ₚ k → Zsum l = Zsum k.
Proof. induction 1; unfold Zsum in *; simpl in *; lia. Qed.

Lemma sum_fit_ret dbg t l : ∀ acc, 0 ≤ acc → Forall (λ x, 0 ≤ x) l → imin t ≤ 0 → acc + Zsum l ≤ imax t →
  sum_fit dbg t acc l = Ret (acc + Zsum l).
Proof.
  induction l as [|x l IH]; intros acc Ha Hl Ht Hs.
  - cbn. by rewrite Z.add_0_r.
  - apply Forall_cons in Hl as [Hx Hl]. rewrite Zsum_cons in *. pose proof (Zsum_nonneg l Hl).
    cbn [sum_fit]. rewrite fit_ret by (unfold in_type; lia). cbn [mbind outcome_bind].
    rewrite IH by (lia || done). f_equal. lia.
Qed.
Lemma sum_fit_inv dbg t l : ∀ acc z, sum_fit dbg t acc l = Ret z → 0 ≤ acc → Forall (λ x, 0 ≤ x) l → imin t ≤ 0 →
  (dbg = false → acc + Zsum l ≤ imax t) → z = acc + Zsum l ∧ (l = [] ∨ acc + Zsum l ≤ imax t).
Proof.
  induction l as [|x l IH]; intros acc z Hz Ha Hl Ht Hs.
  - cbn in Hz. injection Hz as <-. split; [cbn; lia|by left].
  - apply Forall_cons in Hl as [Hx Hl]. rewrite Zsum_cons in *. pose proof (Zsum_nonneg l Hl).
    cbn [sum_fit] in Hz. destruct (fit dbg t (acc + x)) as [a|] eqn:Hf; [|done].
    cbn [mbind outcome_bind] in Hz.
    apply fit_inv in Hf as [-> Hr]; [|intros Hd; specialize (Hs Hd); unfold in_type; lia].
    destruct (IH _ _ Hz) as [-> Hor]; [lia|done|done|intros Hd; specialize (Hs Hd); lia|].
    split; [lia|]. right. unfold in_type in Hr. destruct Hor as [->|]; [cbn in *; lia|lia].
Qed.
Lemma sum_fit_false t l : ∀ acc, ∃ z, sum_fit false t acc l = Ret z.
Proof.
  induction l as [|x l IH]; intros acc; [by eexists|]. cbn [sum_fit].
  destruct (fit_false t (acc + x)) as [z ->]. apply IH.
Qed.

Lemma f32_as_range t x : in_type t (f32_as t x).
Proof.
  unfold in_type. assert (imin t ≤ 0 ≤ imax t) by (destruct t; cbn; lia).
  destruct x as [s|s| |s m e]; cbn [f32_as]; try destruct s; lia.
Qed.

(** ** The selected candidates *)

Lemma seq_sorted n : ∀ k, StronglySorted ord_le (seq k n).
Proof.
  induction n as [|n IH]; intros k; [constructor|]. simpl. constructor; [apply IH|].
  apply Forall_forall. intros i Hi. apply elem_of_seq in Hi. unfold ord_le, ord_cmp, nat_ord.
  rewrite Nat.compare_gt_iff. lia.
Qed.
Lemma filter_ssorted {A} (R : relation A) (P : A → Prop) `{∀ x, Decision (P x)} l :
  StronglySorted R l → StronglySorted R (filter P l).
Proof.
  induction 1 as [|x l Hl IH Hx]; [constructor|]. rewrite filter_cons. destruct (decide (P x)); [|done].
  constructor; [done|]. rewrite Forall_forall in Hx |- *. intros y Hy. apply elem_of_list_filter in Hy as [_ Hy].
  by apply Hx.
Qed.

Lemma bset_list_seq (X : gset nat) n : (∀ i, i ∈ X → (i < n)%nat) →
  bset_list X = filter (λ i, i ∈ X) (seq 0 n).
Proof.
  intros HX. apply (StronglySorted_unique ord_le).
  - apply bset_list_sorted.
  - apply filter_ssorted, seq_sorted.
  - apply NoDup_Permutation.
    + apply NoDup_bset_list.
    + apply NoDup_filter, NoDup_seq.
    + intros i. rewrite elem_of_bset_list, elem_of_list_filter, elem_of_seq.
      split; [|naive_solver]. intros Hi. split; [done|]. specialize (HX _ Hi). lia.
Qed.

Definition sel_pairs (s : CoinSelector) : list (nat * WeightedValue) :=
  filter (λ p, p.1 ∈ cs_sel s) (imap pair (cs_cands s)).

Lemma cs_selected_aux (s : CoinSelector) post : ∀ pre, cs_cands s = pre ++ post →
  all_ret ((λ i, c ← cs_candidate s i; Ret (i, c))
             <$> filter (λ i, i ∈ cs_sel s) (seq (length pre) (length post)))
  = Ret (filter (λ p, p.1 ∈ cs_sel s) (imap (λ i, pair (length pre + i)%nat) post)).
Proof.
  induction post as [|c post IH]; intros pre Hc; [done|].
  specialize (IH (pre ++ [c])). rewrite app_length in IH. cbn [length] in IH.
  rewrite Nat.add_1_r in IH.
  cbn [length seq imap]. rewrite !filter_cons. cbn [fst]. rewrite Nat.add_0_r.
  assert (Hi : imap ((λ i, pair (length pre + i)%nat) ∘ S) post
               = imap (λ i, pair (S (length pre) + i)%nat) post).
  { apply imap_ext. intros i x _. cbn. f_equal. lia. }
  rewrite Hi. rewrite <-app_assoc in IH. specialize (IH Hc).
  destruct (decide (length pre ∈ cs_sel s)); [|exact IH].
  assert (Hcand : cs_candidate s (length pre) = Ret c).
  { unfold cs_candidate. rewrite Hc. by rewrite list_lookup_middle. }
  rewrite fmap_cons. cbn [all_ret]. rewrite Hcand. cbn [mbind outcome_bind]. rewrite IH. done.
Qed.

Lemma cs_selected_ret s : typed s → cs_selected s = Ret (sel_pairs s).
Proof.
  intros (_ & _ & Hsel). unfold cs_selected. rewrite (bset_list_seq _ (length (cs_cands s)) Hsel).
  exact (cs_selected_aux s (cs_cands s) [] eq_refl).
Qed.

Lemma sel_pairs_picked s : (sel_pairs s).*2 = picked s.
Proof. done. Qed.

Lemma filter_imap_sub {P : nat → Prop} `{∀ i, Decision (P i)} (f : nat → nat) (l : list WeightedValue) :
  (filter (λ p, P p.1) (imap (λ i, pair (f i)) l)).*2 ⊆ l.
Proof.
  intros c Hc. apply elem_of_list_fmap in Hc as ([i c'] & -> & Hc).
  apply elem_of_list_filter in Hc as [_ Hc]. apply elem_of_lookup_imap in Hc as (j & x & [= _ ->] & Hx).
  by apply elem_of_list_lookup_2 in Hx.
Qed.

Lemma at_indices_sub (cands : list WeightedValue) sel : at_indices cands sel ⊆ cands.
Proof. exact (filter_imap_sub (P := λ i, i ∈ sel) (λ i, i) cands). Qed.

Lemma picked_ok s : typed s → Forall wv_ok (picked s).
Proof.
  intros (_ & Hc & _). rewrite Forall_forall in *. intros c Hin. apply Hc. by apply at_indices_sub in Hin.
Qed.

(** A sum of non-negative numbers over the picked ones is at most the sum over all. *)
Lemma filter_sum_le (P : nat → Prop) `{∀ i, Decision (P i)} (g : WeightedValue → Z) l :
  ∀ f, Forall (λ c, 0 ≤ g c) l →
  Zsum (g <$> (filter (λ p, P p.1) (imap (λ i, pair (f i)) l)).*2) ≤ Zsum (g <$> l).
Proof.
  induction l as [|c l IH]; intros f Hl; [done|]. apply Forall_cons in Hl as [Hc Hl].
  cbn [imap]. rewrite filter_cons. cbn [fst].
  specialize (IH (f ∘ S) Hl).
  replace (imap ((λ i, pair (f i)) ∘ S) l) with (imap (λ i, pair ((f ∘ S) i)) l) by done.
  rewrite !fmap_cons, Zsum_cons. destruct (decide (P (f 0%nat))).
  - rewrite !fmap_cons, Zsum_cons. cbn [snd]. lia.
  - lia.
Qed.

Lemma at_indices_sum g (cands : list WeightedValue) sel : Forall (λ c, 0 ≤ g c) cands →
  Zsum (g <$> at_indices cands sel) ≤ Zsum (g <$> cands).
Proof. exact (filter_sum_le (λ i, i ∈ sel) g cands (λ i, i)). Qed.

Lemma wv_ok_nonneg c : wv_ok c → 0 ≤ wv_value c ∧ 0 ≤ wv_weight c ∧ 0 ≤ wv_count c.
Proof. unfold wv_ok, in_type. cbn. lia. Qed.
Lemma Forall_fmap_nonneg (g : WeightedValue → Z) l : Forall wv_ok l → (∀ c, wv_ok c → 0 ≤ g c) →
  Forall (λ x, 0 ≤ x) (g <$> l).
Proof. intros Hl Hg. apply Forall_fmap. eapply Forall_impl; [exact Hl|]. intros c Hc. by apply Hg. Qed.
Lemma cands_nonneg (g : WeightedValue → Z) s : typed s → (∀ c, wv_ok c → 0 ≤ g c) →
  Forall (λ c, 0 ≤ g c) (cs_cands s).
Proof. intros (_ & Hc & _) Hg. eapply Forall_impl; [exact Hc|]. intros c Hok. by apply Hg. Qed.

Ltac wvok := let c := fresh in let Hc := fresh in intros c Hc; apply wv_ok_nonneg in Hc; lia.

Lemma existsb_snd {A} (f : WeightedValue → bool) (l : list (A * WeightedValue)) :
  existsb (λ p, f p.2) l = existsb f l.*2.
Proof. induction l as [|p l IH]; [done|]. simpl. by rewrite IH. Qed.

Lemma varint_compact n : varint_size n = compact_len n.
Proof.
  unfold varint_size, compact_len. change (2 ^ 16) with 65536. change (2 ^ 32) with 4294967296.
  repeat (case_match; rewrite ?Z.leb_le, ?Z.leb_gt, ?Z.ltb_lt, ?Z.ltb_ge in *); lia || done.
Qed.
Lemma compact_len_range n : 1 ≤ compact_len n ≤ 9.
Proof. unfold compact_len. repeat case_match; lia. Qed.

Section totals.
Context (s : CoinSelector) (Ht : typed s).

Lemma picked_value_nonneg : 0 ≤ value_in s.
Proof. apply Zsum_nonneg, Forall_fmap_nonneg; [by apply picked_ok|]. wvok. Qed.
Lemma picked_weight_nonneg : 0 ≤ Zsum (wv_weight <$> picked s).
Proof. apply Zsum_nonneg, Forall_fmap_nonneg; [by apply picked_ok|]. wvok. Qed.
Lemma picked_count_nonneg : 0 ≤ Zsum (wv_count <$> picked s).
Proof. apply Zsum_nonneg, Forall_fmap_nonneg; [by apply picked_ok|]. wvok. Qed.
Lemma picked_value_le : value_in s ≤ Zsum (wv_value <$> cs_cands s).
Proof. apply at_indices_sum, cands_nonneg; [done|]. wvok. Qed.
Lemma picked_weight_le : Zsum (wv_weight <$> picked s) ≤ Zsum (wv_weight <$> cs_cands s).
Proof. apply at_indices_sum, cands_nonneg; [done|]. wvok. Qed.
Lemma picked_count_le : Zsum (wv_count <$> picked s) ≤ Zsum (wv_count <$> cs_cands s).
Proof. apply at_indices_sum, cands_nonneg; [done|]. wvok. Qed.

Context (dbg : bool).

Lemma fmap_sel_pairs (g : WeightedValue → Z) : (λ p : nat * WeightedValue, g p.2) <$> sel_pairs s = g <$> picked s.
Proof. rewrite <-sel_pairs_picked, <-list_fmap_compose. done. Qed.

Lemma selected_absolute_value_inv z : (dbg = false → modest s) →
  selected_absolute_value dbg s = Ret z → z = value_in s ∧ value_in s ≤ imax U64.
Proof.
  intros Hm. unfold selected_absolute_value. rewrite cs_selected_ret by done. cbn [mbind outcome_bind].
  rewrite fmap_sel_pairs. intros Hs.
  apply sum_fit_inv in Hs as [-> Hor]; try done; cbn; try lia.
  - unfold value_in in *. split; [lia|]. cbn in Hor. destruct Hor as [->|]; cbn; lia.
  - apply Forall_fmap_nonneg; [by apply picked_ok|]. wvok.
  - intros Hd. specialize (Hm Hd) as (Hv & _). pose proof picked_value_le. unfold value_in in *. lia.
Qed.
Lemma selected_absolute_value_ret : modest s → selected_absolute_value dbg s = Ret (value_in s).
Proof.
  intros (Hv & _). unfold selected_absolute_value. rewrite cs_selected_ret by done. cbn [mbind outcome_bind].
  rewrite fmap_sel_pairs. apply (sum_fit_ret dbg U64); cbn; try lia.
  - apply Forall_fmap_nonneg; [by apply picked_ok|]. wvok.
  - pose proof picked_value_le. unfold value_in in *. lia.
Qed.

Lemma selected_weight_inv z : (dbg = false → modest s) →
  selected_weight dbg s = Ret z → z = Zsum (wv_weight <$> picked s).
Proof.
  intros Hm. unfold selected_weight. rewrite cs_selected_ret by done. cbn [mbind outcome_bind].
  rewrite fmap_sel_pairs. intros Hs.
  apply sum_fit_inv in Hs as [-> Hor]; try done; cbn; try lia.
  - apply Forall_fmap_nonneg; [by apply picked_ok|]. wvok.
  - intros Hd. specialize (Hm Hd) as (_ & Hw & _). pose proof picked_weight_le.
    destruct Ht as ((_ & _ & _ & Hb & Hdr & Hsd & _) & _). unfold in_type in *. cbn in *. lia.
Qed.
Lemma selected_weight_ret : modest s → selected_weight dbg s = Ret (Zsum (wv_weight <$> picked s)).
Proof.
  intros (_ & Hw & _). unfold selected_weight. rewrite cs_selected_ret by done. cbn [mbind outcome_bind].
  rewrite fmap_sel_pairs. apply (sum_fit_ret dbg U32); cbn; try lia.
  - apply Forall_fmap_nonneg; [by apply picked_ok|]. wvok.
  - pose proof picked_weight_le.
    destruct Ht as ((_ & _ & _ & Hb & Hdr & Hsd & _) & _). unfold in_type in *. cbn in *. lia.
Qed.

Lemma tx_weight_range : modest s → 0 ≤ tx_weight s false ≤ 2 ^ 31 + 34 ∧ 0 ≤ tx_weight s true ≤ 2 ^ 31 + 34.
Proof.
  intros (_ & Hw & _). destruct Ht as ((_ & _ & _ & Hb & Hdr & Hsd & _) & _). unfold in_type in *. cbn in Hb, Hdr, Hsd.
  pose proof picked_weight_le. pose proof picked_weight_nonneg.
  pose proof (compact_len_range (Zsum (wv_count <$> picked s))).
  unfold tx_weight, inputs_weight. destruct (existsb wv_segwit (picked s)); lia.
Qed.

Lemma current_weight_inv z : (dbg = false → modest s) →
  current_weight dbg s = Ret z → z = tx_weight s false ∧ 0 ≤ z ≤ imax U32.
Proof.
  intros Hm. unfold current_weight. rewrite cs_selected_ret by done. cbn [mbind outcome_bind].
  rewrite existsb_snd, sel_pairs_picked, fmap_sel_pairs.
  destruct (sum_fit dbg USize 0 (wv_count <$> picked s)) as [n|] eqn:Hn; [|done]. cbn [mbind outcome_bind].
  apply sum_fit_inv in Hn as [-> _]; [|done| |done|].
  2:{ apply Forall_fmap_nonneg; [by apply picked_ok|]. wvok. }
  2:{ cbn [imax]. intros Hd. specialize (Hm Hd) as (_ & _ & Hc & _). pose proof picked_count_le. lia. }
  destruct (selected_weight dbg s) as [w|] eqn:Hw; [|done]. cbn [mbind outcome_bind].
  apply selected_weight_inv in Hw as ->; [|done].
  rewrite varint_compact. pose proof picked_weight_nonneg as H1.
  pose proof (compact_len_range (0 + Zsum (wv_count <$> picked s))) as H2. rewrite Z.add_0_l in *.
  intros Hs.
  assert (Hb : 0 ≤ o_base (cs_opts s)) by (destruct Ht as ((_ & _ & _ & Hb & _) & _); unfold in_type in Hb; cbn in Hb; lia).
  assert (Hsum : o_base (cs_opts s) + Zsum [Zsum (wv_weight <$> picked s); if existsb wv_segwit (picked s) then 2 else 0;
                       (compact_len (Zsum (wv_count <$> picked s)) - 1) * 4] = tx_weight s false).
  { unfold tx_weight, inputs_weight, Zsum. cbn [foldr]. lia. }
  apply sum_fit_inv in Hs as [-> Hor]; try done.
  - rewrite Hsum in *. split; [done|]. destruct Hor as [?|?]; [done|].
    split; [|done]. unfold tx_weight, inputs_weight. destruct (existsb wv_segwit (picked s)); lia.
  - repeat constructor; [done| |lia]. destruct (existsb wv_segwit (picked s)); lia.
  - intros Hd. rewrite Hsum. pose proof (tx_weight_range (Hm Hd)). cbn [imax]. lia.
Qed.
Lemma current_weight_ret : modest s → current_weight dbg s = Ret (tx_weight s false).
Proof.
  intros Hm. unfold current_weight. rewrite cs_selected_ret by done. cbn [mbind outcome_bind].
  rewrite existsb_snd, sel_pairs_picked, fmap_sel_pairs.
  rewrite (sum_fit_ret dbg USize); cbn [imin imax]; try lia.
  2:{ apply Forall_fmap_nonneg; [by apply picked_ok|]. wvok. }
  2:{ destruct Hm as (_ & _ & Hc & _). pose proof picked_count_le. lia. }
  cbn [mbind outcome_bind]. rewrite selected_weight_ret by done. cbn [mbind outcome_bind].
  rewrite varint_compact, Z.add_0_l.
  pose proof picked_weight_nonneg as H1.
  pose proof (compact_len_range (Zsum (wv_count <$> picked s))) as H2.
  assert (Hb : 0 ≤ o_base (cs_opts s)) by (destruct Ht as ((_ & _ & _ & Hb & _) & _); unfold in_type in Hb; cbn in Hb; lia).
  assert (Hsum : o_base (cs_opts s) + Zsum [Zsum (wv_weight <$> picked s); if existsb wv_segwit (picked s) then 2 else 0;
                       (compact_len (Zsum (wv_count <$> picked s)) - 1) * 4] = tx_weight s false).
  { unfold tx_weight, inputs_weight, Zsum. cbn [foldr]. lia. }
  rewrite (sum_fit_ret dbg U32); [by rewrite Hsum|done| |cbn; lia|].
  - repeat constructor; [done| |lia]. destruct (existsb wv_segwit (picked s)); lia.
  - rewrite Hsum. pose proof (tx_weight_range Hm). cbn [imax]. lia.
Qed.

End totals.
