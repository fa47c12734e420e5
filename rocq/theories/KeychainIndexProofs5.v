(** Proofs about the keychain index: the properties. *)
From Verif Require Export KeychainIndexProofs4.

Lemma sorted_fst_filter {A B} (R : A → A → Prop) (Q : A * B → Prop) `{∀ ab, Decision (Q ab)} (l : list (A * B)) :
  StronglySorted R l.*1 → StronglySorted R (filter Q l).*1.
Proof.
  induction l as [|ab l IH]; [done|]. rewrite fmap_cons. intros Hs. inversion Hs as [|? ? Hs' HF]; subst.
  rewrite filter_cons. case_decide; [|by apply IH]. rewrite fmap_cons. constructor; [by apply IH|].
  apply Forall_forall. intros c Hc. apply elem_of_list_fmap in Hc as (ab' & -> & Hin). apply elem_of_list_filter in Hin as [_ Hin].
  rewrite Forall_forall in HF. apply HF. by apply elem_of_list_fmap_1.
Qed.

Section proofs.
Context `{!DescEnv} `{Countable K, !Ord K, !OrdLaws K}.
Implicit Types (hs : list (si_op (K * N))) (x y : KIndex K) (k : K) (h : list (ki_op K)) (A : K → option Desc) (outs : list (K * N * Script)) (acc ad m : gmap K N).

(** ** C34 *)
Lemma ki_no_panic A h : good_env A → ki_hist_ok A h → ∃ r, ki_run h = Ret r.
Proof. intros HA Hh. destruct (hist_run A h HA Hh) as (? & ? & ? & ? & E & _). eauto. Qed.
Lemma ki_stored_exact A h x outs acc k d :
  good_env A → ki_hist_ok A h → ki_run h = Ret (x, outs, acc) → A k = Some d → known h k →
  ∃ n, n_revealed x k ≤ n ∧ n ≤ cap d ∧ N.min (cap d) (n_revealed x k + look_after h k) ≤ n ∧
    (∀ i s, si_spk_at (ki_inner x) (k, i) = Some s ↔ i < n ∧ derive d i = Some s) ∧
    (∀ i s, si_index_of_spk (ki_inner x) s = Some (k, i) ↔ i < n ∧ derive d i = Some s).
Proof.
  intros HA Hh E Ha Hk. destruct (hist_run' A h x outs acc HA Hh E) as [hs Hi].
  pose proof (known_desc A h hs x outs acc k d Hi Ha Hk) as Hd.
  destruct Hi as ([Hc Hl] & _ & _ & _ & _ & Hla & _). destruct (core_stored A hs x k d Hc Hd) as (n & Hn & Hcap & Hr).
  exists n. split; [done|]. split; [done|]. split; [rewrite <- Hla; by apply (proj1 Hl k d n)|].
  assert (∀ i s, si_spk_at (ki_inner x) (k, i) = Some s ↔ i < n ∧ derive d i = Some s) as Hs.
  { intros i s. split.
    - intros Hs. split; [apply Hn; eauto|]. destruct Hc as (_ & _ & C3 & _). destruct (C3 _ _ _ Hs) as (d' & Hd' & Hder). congruence.
    - intros [Hin Hder]. destruct (stored_script A hs x k d n i Hc HA Hd Hn Hin) as (s' & Hs' & Hder' & _). congruence. }
  split; [done|]. intros i s. rewrite <- Hs. symmetry. apply (si_good_inverse hs). apply Hc.
Qed.
Lemma ki_nothing_else A h x outs acc k i s :
  good_env A → ki_hist_ok A h → ki_run h = Ret (x, outs, acc) →
  si_index_of_spk (ki_inner x) s = Some (k, i) → known h k ∧ ∃ d, A k = Some d ∧ i < cap d ∧ derive d i = Some s.
Proof.
  intros HA Hh E Hs. destruct (hist_run' A h x outs acc HA Hh E) as [hs Hi].
  destruct (tracked_paid A hs x k i s (proj1 Hi) Hs) as (d & Hd & Hcap & Hder).
  split; [apply (known_keychain _ _ _ _ _ _ _ Hi); eauto|]. exists d. split; [|done]. by apply (proj1 (proj1 (proj1 Hi))).
Qed.
Lemma revealed_list_ok A hs x k d :
  good_env A → ki_inv A hs x → ki_keychains x !! k = Some d →
  ∃ l, revealed_spks_of_keychain x k = Ret l ∧ derived d 0 (n_revealed x k) l.
Proof.
  intros HA Hi Hd. pose proof (n_revealed_le_cap A hs x k d Hi Hd) as Hcap. pose proof (cap_bound d) as [Hcb0 Hcb].
  unfold revealed_spks_of_keychain. rewrite (next_reveal_ok x k (n_revealed x k)) by lia. cbn [mbind outcome_bind].
  eexists. split; [done|].
  assert (∀ k' i, ord_le (k, 0) (k', i) ∧ ord_lt (k', i) (k, n_revealed x k) ↔ k' = k ∧ i < n_revealed x k) as Hr.
  { intros k' i. rewrite prod_ord_le, prod_ord_lt. cbn [fst snd]. rewrite N_ord_lt. split.
    - intros [[Hlt|[E _]] [Hgt|[E' Hx]]]; [|subst; by apply ord_lt_irrefl in Hlt|subst; by apply ord_lt_irrefl in Hgt|done].
      exfalso. apply (ord_lt_irrefl k). by eapply ord_lt_trans.
    - intros [-> Hx]. split; right; (split; [done|]); [|done]. apply N_ord_le. lia. }
  set (l := filter _ _).
  assert (∀ k' i s, (k', i, s) ∈ l ↔ (k' = k ∧ i < n_revealed x k) ∧ si_spk_at (ki_inner x) (k', i) = Some s) as Hl.
  { intros k' i s. unfold l. rewrite elem_of_list_filter, elem_of_bmap_list. cbn [fst]. by rewrite Hr. }
  split.
  - rewrite <- list_fmap_compose. cbn.
    assert (StronglySorted ord_lt l.*1) as Hs.
    { unfold l. apply sorted_fst_filter, bmap_list_sorted. }
    assert (∀ k' i s, (k', i, s) ∈ l → k' = k) as Hk by (intros k' i s Hin; by apply Hl in Hin as [[? _] _]).
    clear -Hs Hk OrdLaws0. induction l as [|[[k' i] s] l IH]; [constructor|].
    cbn in *. inversion Hs as [|? ? Hs' HF]; subst. constructor; [apply IH; [done|]|].
    + intros. eapply Hk. by right.
    + apply Forall_forall. intros j Hj. apply elem_of_list_fmap in Hj as ([[k2 i2] s2] & -> & Hin).
      rewrite Forall_forall in HF. assert (ord_lt (k', i) (k2, i2)) as Hlt.
      { apply HF. apply elem_of_list_fmap. by exists (k2, i2, s2). }
      assert (k' = k) as -> by (apply (Hk k' i s); by left). assert (k2 = k) as -> by (apply (Hk k2 i2 s2); by right).
      apply prod_ord_lt in Hlt as [Hx|[_ Hx]]; [by apply ord_lt_irrefl in Hx|]. by apply N_ord_lt in Hx.
  - intros i s. rewrite elem_of_list_fmap. split.
    + intros ([[k' i'] s'] & [= -> ->] & Hin). apply Hl in Hin as [[-> Hlt] Hs]. split; [lia|]. split; [done|].
      destruct (proj1 Hi) as (_ & _ & C3 & _). destruct (C3 _ _ _ Hs) as (d' & Hd' & Hder). congruence.
    + intros (_ & Hlt & Hder). exists (k, i, s). split; [done|]. apply Hl. split; [done|].
      destruct (revealed_script A hs x k d i Hi HA Hd Hlt) as (s' & Hs' & Hder' & _). congruence.
Qed.
Lemma ki_revealed_list A h x outs acc k d :
  good_env A → ki_hist_ok A h → ki_run h = Ret (x, outs, acc) → A k = Some d → known h k →
  ∃ l, revealed_spks_of_keychain x k = Ret l ∧ derived d 0 (n_revealed x k) l.
Proof.
  intros HA Hh E Ha Hk. destruct (hist_run' A h x outs acc HA Hh E) as [hs Hi].
  pose proof (known_desc A h hs x outs acc k d Hi Ha Hk) as Hd. apply (revealed_list_ok A hs); [done|apply Hi|done].
Qed.
Lemma hist_ok_app A h h2 : ki_hist_ok A (h ++ h2) → ki_hist_ok A h.
Proof. intros Hh h1 op h3 ->. apply (Hh h1 op (h3 ++ h2)). by rewrite <- app_assoc. Qed.
Lemma hist_monotone A h h2 x outs acc x2 outs2 acc2 :
  good_env A → ki_hist_ok A (h ++ h2) → ki_run h = Ret (x, outs, acc) → ki_run (h ++ h2) = Ret (x2, outs2, acc2) →
  (∀ k, n_revealed x k ≤ n_revealed x2 k) ∧ spks_sub x x2 ∧ ∃ outs', outs2 = outs ++ outs'.
Proof.
  intros HA. revert x2 outs2 acc2. induction h2 as [|op h2 IH] using rev_ind; intros x2 outs2 acc2 Hh E E2.
  - rewrite app_nil_r, E in E2. injection E2 as <- <- <-. split; [intros k; apply N.le_refl|]. split; [by intros ki s|]. exists []. by rewrite app_nil_r.
  - rewrite app_assoc in Hh, E2. apply hist_ok_snoc in Hh as [Hh Hop]. rewrite ki_run_snoc in E2.
    destruct (ki_run (h ++ h2)) as [[[x1 outs1] acc1]|] eqn:E1; [|done].
    destruct (IH x1 outs1 acc1 Hh E eq_refl) as (M1 & M2 & outs' & ->).
    destruct (hist_run' A _ _ _ _ HA Hh E1) as [hs Hi].
    destruct (hist_step A _ op hs x1 _ acc1 HA Hi Hop) as (x' & o & ad & hs' & Es & Hs & _). rewrite Es in E2. simplify_eq.
    destruct Hs as (_ & _ & _ & S4 & _ & S6 & _). split; [|split].
    + intros k. pose proof (n_revealed_mono x1 x2 ad k S4). specialize (M1 k). lia.
    + intros ki s Hs. by apply S6, M2.
    + rewrite <- app_assoc. eauto.
Qed.
Lemma ki_monotone A h h2 x outs acc x2 outs2 acc2 :
  good_env A → ki_hist_ok A (h ++ h2) → ki_run h = Ret (x, outs, acc) → ki_run (h ++ h2) = Ret (x2, outs2, acc2) →
  (∀ k i, last_revealed_index x k = Some i → ∃ j, last_revealed_index x2 k = Some j ∧ i ≤ j) ∧
  (∀ ki s, si_spk_at (ki_inner x) ki = Some s → si_spk_at (ki_inner x2) ki = Some s).
Proof.
  intros HA Hh E E2. destruct (hist_monotone A h h2 x outs acc x2 outs2 acc2 HA Hh E E2) as (M1 & M2 & _). split; [|done].
  intros k i Hi. specialize (M1 k). unfold n_revealed, last_revealed_index in *. rewrite Hi in M1.
  destruct (ki_revealed x2 !! k) as [j|]; [|lia]. exists j. split; [done|]. lia.
Qed.

(** ** C35 *)
Lemma n_revealed_insert x x' k i : ki_revealed x' = <[k := i]> (ki_revealed x) ↔ n_revealed x' k = i + 1 ∧ ∀ k', k' ≠ k → ki_revealed x' !! k' = ki_revealed x !! k'.
Proof.
  unfold n_revealed. split.
  - intros ->. rewrite lookup_insert. split; [done|]. intros. by rewrite lookup_insert_ne.
  - intros [E Ho]. apply map_eq. intros k'. destruct (decide (k' = k)) as [->|Hne].
    + rewrite lookup_insert. destruct (ki_revealed x' !! k); [|lia]. f_equal. lia.
    + rewrite lookup_insert_ne by done. by apply Ho.
Qed.
Lemma ki_fresh A h x outs acc k d :
  good_env A → ki_hist_ok A h → ki_run h = Ret (x, outs, acc) → A k = Some d → known h k →
  ∃ x' i s ad, reveal_next_spk x k = Ret (x', (i, s), ad) ∧ derive d i = Some s ∧
    si_index_of_spk (ki_inner x') s = Some (k, i) ∧
    (n_revealed x k < cap d → i = n_revealed x k ∧ ad = {[ k := i ]} ∧ ki_revealed x' = <[k := i]> (ki_revealed x) ∧
       (∀ k' i' s', (k', i', s') ∈ outs → s' ≠ s) ∧
       (∀ k' i', i' < n_revealed x k' → si_spk_at (ki_inner x) (k', i') ≠ Some s)) ∧
    (cap d ≤ n_revealed x k → i = cap d - 1 ∧ ad = ∅ ∧ ki_revealed x' = ki_revealed x).
Proof.
  intros HA Hh E Ha Hk. destruct (hist_run' A h x outs acc HA Hh E) as [hs Hi].
  pose proof (known_desc A h hs x outs acc k d Hi Ha Hk) as Hd. pose proof Hi as (I1 & I2 & I3 & I4 & I5 & I7 & I6).
  destruct (tr_next A hs x k d HA I1 Hd) as (x' & hs' & i & s & ad & En & Ht & El & Hder & Hsp & Hlt & Hr).
  exists x', i, s, ad. split; [done|]. split; [done|]. split; [apply (si_good_inverse (hs ++ hs')); [|done]; apply Ht|].
  destruct (bool_decide (n_revealed x k < cap d)) eqn:Eb; [apply bool_decide_eq_true in Eb|apply bool_decide_eq_false in Eb];
    (split; intros Hb; [|]); try lia; [|done].
  destruct Hr as (-> & -> & Hn). split; [done|]. split; [done|]. split; [|].
  { apply n_revealed_insert. split; [done|]. intros k' Hne. rewrite (proj1 (proj2 (proj2 Ht))).
    rewrite da_append_lookup, lookup_singleton_ne by done. by destruct (ki_revealed x !! k'). }
  assert (∀ k' d' i', ki_keychains x !! k' = Some d' → i' < n_revealed x k' → derive d' i' ≠ Some s) as Hne.
  { intros k' d' i' Hd' Hlt' Hder'. pose proof (n_revealed_le_cap A hs x k' d' I1 Hd') as Hcap'.
    destruct (proj2 HA k k' d d' (n_revealed x k) i' s) as [-> Heq]; try done; [by apply (proj1 (proj1 I1))|lia|]. lia. }
  split.
  - intros k' i' s' Hin ->. destruct (I6 k' i' s Hin) as (d' & Hd' & Hder' & Hlt'). by apply (Hne k' d' i').
  - intros k' i' Hlt' Hs. destruct (proj1 I1) as (_ & _ & C3 & _). destruct (C3 _ _ _ Hs) as (d' & Hd' & Hder'). by apply (Hne k' d' i').
Qed.
Lemma ki_outs_bounded A h x outs acc k i s :
  good_env A → ki_hist_ok A h → ki_run h = Ret (x, outs, acc) → (k, i, s) ∈ outs →
  i < n_revealed x k ∧ ∃ d, A k = Some d ∧ derive d i = Some s.
Proof.
  intros HA Hh E Hin. destruct (hist_run' A h x outs acc HA Hh E) as [hs (I1 & I2 & I3 & I4 & I5 & I7 & I6)].
  destruct (I6 k i s Hin) as (d & Hd & Hder & Hlt). split; [done|]. exists d. split; [|done]. by apply (proj1 (proj1 I1)).
Qed.
Lemma unused_no_outputs A hs x ki : ki_inv A hs x → si_is_used (ki_inner x) ki = false → ∀ o, (ki, o) ∉ si_spk_txouts (ki_inner x).
Proof.
  intros Hi Hu o Ho. destruct (proj1 (proj2 (proj1 Hi))) as (Erun & Hok & Honce & Hx).
  apply (is_used_exact hs) in Hu as (_ & Hn & _); try done. apply Hn.
  destruct (si_good_inv hs (ki_inner x)) as (_ & I2 & _); [by split_and!|]. apply I2 in Ho as [u Hu]. eauto.
Qed.
Lemma ki_next_unused A h x outs acc k d :
  good_env A → ki_hist_ok A h → ki_run h = Ret (x, outs, acc) → A k = Some d → known h k →
  ∃ x' i s ad, next_unused_spk x k = Ret (x', (i, s), ad) ∧ derive d i = Some s ∧
    ((x' = x ∧ ad = ∅ ∧ i < n_revealed x k ∧ si_is_used (ki_inner x) (k, i) = false ∧
        (∀ o, (k, i, o) ∉ si_spk_txouts (ki_inner x)) ∧
        ∀ j, j < i → si_is_used (ki_inner x) (k, j) = true) ∨
     ((∀ j, j < n_revealed x k → si_is_used (ki_inner x) (k, j) = true) ∧
        reveal_next_spk x k = Ret (x', (i, s), ad))).
Proof.
  intros HA Hh E Ha Hk. destruct (hist_run' A h x outs acc HA Hh E) as [hs Hi].
  pose proof (known_desc A h hs x outs acc k d Hi Ha Hk) as Hd. pose proof Hi as (I1 & _).
  destruct (tr_next_unused A hs x k d HA I1 Hd) as (x' & hs' & i & s & ad & En & Ht & El & Hder & Hsp & Hlt & Hr).
  exists x', i, s, ad. split; [done|]. split; [done|]. destruct Hr as [(-> & -> & Hlt' & Hu & Hj)|Hr]; [left|by right].
  split_and!; try done. intros o. by apply (unused_no_outputs A hs x (k, i)).
Qed.
Lemma ki_reserve A h x outs acc k d :
  good_env A → ki_hist_ok A h → ki_run h = Ret (x, outs, acc) → A k = Some d → known h k →
  (∃ x1 is ad x2, reveal_next_spk x k = Ret (x1, is, ad) ∧ reveal_and_reserve_next_spk x k = Ret (x2, is, ad) ∧
     si_is_used (ki_inner x2) (k, is.1) = true ∧ ki_revealed x2 = ki_revealed x1) ∧
  (∃ x1 is ad x2, next_unused_spk x k = Ret (x1, is, ad) ∧ reserve_next_unused_spk x k = Ret (x2, is, ad) ∧
     si_is_used (ki_inner x2) (k, is.1) = true ∧ ki_revealed x2 = ki_revealed x1).
Proof.
  intros HA Hh E Ha Hk. destruct (hist_run' A h x outs acc HA Hh E) as [hs Hi].
  pose proof (known_desc A h hs x outs acc k d Hi Ha Hk) as Hd. pose proof Hi as (I1 & _). split.
  - destruct (tr_next A hs x k d HA I1 Hd) as (x' & hs' & i & s & ad & En & Ht & El & Hder & Hsp & Hlt & Hr).
    destruct (tr_reserve A hs x x' hs' k i s ad I1 Ht Hsp) as (x2 & hs2 & E2 & Ht2 & Er2 & El2 & Hu).
    exists x', (i, s), ad, x2. split; [done|]. split; [|done]. unfold reveal_and_reserve_next_spk. rewrite En. cbn [mbind outcome_bind]. done.
  - destruct (tr_next_unused A hs x k d HA I1 Hd) as (x' & hs' & i & s & ad & En & Ht & El & Hder & Hsp & Hlt & Hr).
    destruct (tr_reserve A hs x x' hs' k i s ad I1 Ht Hsp) as (x2 & hs2 & E2 & Ht2 & Er2 & El2 & Hu).
    exists x', (i, s), ad, x2. split; [done|]. split; [|done]. unfold reserve_next_unused_spk. rewrite En. cbn [mbind outcome_bind]. done.
Qed.

(** ** C36 *)
Lemma range_spks_empty d lo hi : hi ≤ lo → range_spks d lo hi = [].
Proof. intros Hle. unfold range_spks. replace (hi - lo) with 0 by lia. done. Qed.
Lemma with_inner_id x : with_inner x (ki_inner x) = x.
Proof. by destruct x. Qed.
Lemma reveal_nothing A hs x k d t :
  ki_inv A hs x → ki_keychains x !! k = Some d → target_of d t < n_revealed x k → reveal_to_target x k t = Ret (x, [], ∅).
Proof.
  intros Hi Hd Ht. pose proof (n_revealed_le_cap A hs x k d Hi Hd) as Hcap. pose proof (cap_bound d) as [Hcb0 Hcb].
  destruct (core_stored A hs x k d (proj1 Hi) Hd) as (n & Hn & Hnc & _). pose proof (proj2 (proj2 Hi) k) as Hla.
  unfold reveal_to_target. rewrite Hd. rewrite (next_store_ok x k n) by (try done; lia). cbn [mbind outcome_bind].
  rewrite (next_reveal_ok x k (n_revealed x k)) by lia. cbn [mbind outcome_bind]. fold (target_of d t).
  rewrite add_u32_ok by lia. cbn [mbind outcome_bind]. rewrite add_u32_ok by lia. cbn [mbind outcome_bind].
  rewrite bool_decide_false by lia. rewrite range_spks_empty by lia. cbn. by rewrite with_inner_id.
Qed.
Lemma ki_reveal_within A h x outs acc k d t :
  good_env A → ki_hist_ok A h → ki_run h = Ret (x, outs, acc) → A k = Some d → known h k →
  target_of d t < n_revealed x k → reveal_to_target x k t = Ret (x, [], ∅).
Proof.
  intros HA Hh E Ha Hk. destruct (hist_run' A h x outs acc HA Hh E) as [hs Hi].
  apply (reveal_nothing A hs); [apply Hi|]. by apply (known_desc A h hs x outs acc).
Qed.
Lemma ki_reveal_beyond A h x outs acc k d t :
  good_env A → ki_hist_ok A h → ki_run h = Ret (x, outs, acc) → A k = Some d → known h k →
  t ≤ bip32_max → n_revealed x k ≤ target_of d t →
  ∃ x' l, reveal_to_target x k t = Ret (x', l, {[ k := target_of d t ]}) ∧
    ki_revealed x' = <[k := target_of d t]> (ki_revealed x) ∧ derived d (n_revealed x k) (target_of d t + 1) l ∧
    si_txouts (ki_inner x') = si_txouts (ki_inner x) ∧
    (∀ k' i, k' ≠ k → si_spk_at (ki_inner x') (k', i) = si_spk_at (ki_inner x) (k', i)).
Proof.
  intros HA Hh E Ha Hk Hb Ht. destruct (hist_run' A h x outs acc HA Hh E) as [hs Hi].
  pose proof (known_desc A h hs x outs acc k d Hi Ha Hk) as Hd. pose proof Hi as (I1 & _).
  pose proof (target_cap d t Hb) as Hc.
  destruct (tr_reveal A hs x k d t HA I1 Hd Hc) as (x' & hs' & Er & Htr & El & Hn & Ho & Htx & Hst & n & n' & Hsn & Hgr).
  exists x', (range_spks d (n_revealed x k) (n_revealed x' k)). unfold reveal_ad in Er. rewrite bool_decide_false in Er by lia.
  rewrite N.max_r in Hn by lia. split; [done|]. split; [by apply n_revealed_insert|]. split.
  { rewrite Hn. pose proof (range_spks_spec d (n_revealed x k) (target_of d t + 1)) as Hsp. rewrite N.min_l in Hsp by lia.
    apply Hsp. by apply (proj1 HA k). }
  split; [done|]. intros k' i Hne. destruct Hgr as (_ & G2 & G3 & _). unfold si_spk_at. 
  destruct (si_spks (ki_inner x) !! (k', i)) as [s|] eqn:Es; [by apply G3|].
  destruct (si_spks (ki_inner x') !! (k', i)) as [s|] eqn:Es'; [|done]. exfalso.
  destruct (proj1 (proj1 Htr)) as (_ & _ & C3 & _). destruct (C3 _ _ _ Es') as (d' & Hd' & _). rewrite (proj1 (proj2 Htr)) in Hd'.
  destruct (core_stored A hs x k' d' (proj1 I1) Hd') as (m & Hm & _). 
  assert (stored (with_inner x (ki_inner x')) k' m) as Hm' by (by apply G2).
  assert (i < m) as Him by (apply Hm'; cbn; unfold si_spk_at; eauto). apply Hm in Him as [s' Hs']. unfold si_spk_at in Hs'. congruence.
Qed.
(** A target beyond the bound. *)
Lemma ki_reveal_max A h x outs acc k d t :
  good_env A → ki_hist_ok A h → ki_run h = Ret (x, outs, acc) → A k = Some d → known h k →
  has_wildcard d = true → bip32_max < t → t ≤ 2147483647 → n_revealed x k + look_after h k ≤ bip32_max →
  ∃ x' l, reveal_to_target x k t = Ret (x', l, {[ k := bip32_max ]}) ∧
    ki_revealed x' = <[k := bip32_max]> (ki_revealed x) ∧ derived d (n_revealed x k) (bip32_max + 1) l.
Proof.
  intros HA Hh E Ha Hk Hw Hb Ht Hla. destruct (hist_run' A h x outs acc HA Hh E) as [hs Hi].
  pose proof (known_desc A h hs x outs acc k d Hi Ha Hk) as Hd. pose proof Hi as (I1 & _ & _ & _ & _ & I7 & _).
  assert (target_of d t = t) as Et by (unfold target_of; by rewrite Hw).
  assert (cap d = bip32_max + 1) as Ec by (unfold cap; by rewrite Hw).
  destruct (core_stored A hs x k d (proj1 I1) Hd) as (n & Hn & _). pose proof (proj2 (proj2 I1) k) as Hl.
  destruct (reveal_ok A hs x k d n t HA I1 Hd Hn) as (s' & h' & _ & _ & _ & Hr); [rewrite Et; lia|].
  rewrite Et in Hr. unfold reveals in Hr. rewrite (I7 k) in Hr. rewrite Ec in Hr.
  rewrite (bool_decide_false (t < n_revealed x k)) in Hr by lia. rewrite (bool_decide_false (t < n_revealed x k + _)) in Hr by lia.
  rewrite bool_decide_true in Hr by lia. replace (N.min t (bip32_max + 1 - 1)) with bip32_max in Hr by lia.
  cbn zeta in Hr. destruct Hr as (Er & _). eexists _, _. split; [exact Er|]. split; [done|].
  pose proof (range_spks_spec d (n_revealed x k) (bip32_max + 1)) as Hsp. rewrite Ec, N.min_id in Hsp.
  apply Hsp. by apply (proj1 HA k).
Qed.

(** ** C37 *)
Lemma ki_bound A h x outs acc k i :
  good_env A → ki_hist_ok A h → ki_run h = Ret (x, outs, acc) → last_revealed_index x k = Some i → i ≤ 1073741824.
Proof.
  intros HA Hh E Hr. destruct (hist_run' A h x outs acc HA Hh E) as [hs (I1 & _)].
  unfold last_revealed_index in Hr. destruct (proj1 I1) as (_ & _ & _ & _ & C5).
  destruct (C5 k) as [d Hd]; [eauto|]. pose proof (n_revealed_le_cap A hs x k d I1 Hd) as Hc. pose proof (cap_bound d) as [_ Hcb].
  unfold n_revealed in Hc. rewrite Hr in Hc. lia.
Qed.

(** ** C38 *)
Lemma ki_look_exact A h x outs acc k d n t :
  good_env A → ki_hist_ok A h → ki_run h = Ret (x, outs, acc) → A k = Some d → known h k → t ≤ 2147483648 → stored x k n →
  ∃ x', lookahead_to_target x k t = Ret x' ∧ ki_revealed x' = ki_revealed x ∧ ki_lookahead x' = ki_lookahead x ∧
    stored x' k (if bool_decide (n < t) then N.max n (N.min (n_revealed x k + (t - n)) (cap d)) else n) ∧
    ∀ ki s, si_spk_at (ki_inner x) ki = Some s → si_spk_at (ki_inner x') ki = Some s.
Proof.
  intros HA Hh E Ha Hk Ht Hn. destruct (hist_run' A h x outs acc HA Hh E) as [hs Hi].
  pose proof (known_desc A h hs x outs acc k d Hi Ha Hk) as Hd. pose proof Hi as (I1 & _).
  destruct (lookahead_to_ok A hs x k d n t HA I1 Hd Hn Ht) as (s' & h' & El & Hh' & Hi' & Hg).
  exists (with_inner x s'). split; [done|]. split; [done|]. split; [done|]. split; [exact (proj1 Hg)|]. exact (proj1 (proj2 (proj2 Hg))).
Qed.
Lemma ki_look_target A h x outs acc k d t :
  good_env A → ki_hist_ok A h → ki_run h = Ret (x, outs, acc) → A k = Some d → known h k → t ≤ 2147483648 →
  stored x k (n_revealed x k) →
  ∃ x', lookahead_to_target x k t = Ret x' ∧ ki_revealed x' = ki_revealed x ∧ ki_lookahead x' = ki_lookahead x ∧
    ∀ i, i < t → i < cap d → ∃ s, derive d i = Some s ∧ si_index_of_spk (ki_inner x') s = Some (k, i).
Proof.
  intros HA Hh E Ha Hk Ht Hn. destruct (hist_run' A h x outs acc HA Hh E) as [hs Hi].
  pose proof (known_desc A h hs x outs acc k d Hi Ha Hk) as Hd. pose proof Hi as (I1 & _).
  destruct (lookahead_to_ok A hs x k d _ t HA I1 Hd Hn Ht) as (s' & h' & El & Hh' & Hi' & Hg).
  exists (with_inner x s'). split; [done|]. split; [done|]. split; [done|]. intros i Hi1 Hi2.
  destruct Hg as [Hst _]. destruct (stored_script A (hs ++ h') (with_inner x s') k d _ i (proj1 Hi') HA Hd Hst) as (s & _ & Hs & Hs').
  - unfold look_to. case_bool_decide; lia.
  - eauto.
Qed.

(** ** C39 *)
Lemma pays_tracked A pays hs x s k i :
  pays_to A pays → ki_inv A hs x → si_index_of_spk (ki_inner x) s = Some (k, i) → pays s = Some (k, i).
Proof.
  intros Hp Hi Hs. apply Hp. destruct (tracked_paid A hs x k i s Hi Hs) as (d & Hd & Hc & Hder). exists d.
  split; [|done]. by apply (proj1 (proj1 Hi)).
Qed.
Lemma gap_ext pays la nr nr' l : (∀ k, nr k = nr' k) → gap_ok pays la nr l → gap_ok (K:=K) pays la nr' l.
Proof.
  revert nr nr'. induction l as [|[o u] l IH]; intros nr nr' Hn; cbn [gap_ok]; [done|].
  destruct (pays (txo_spk u)) as [[k i]|]; [|by apply IH]. intros [Hlt Hg]. split; [by rewrite <- Hn|].
  eapply IH; [|exact Hg]. intros k'. cbn. by rewrite !Hn.
Qed.
Lemma scan_gapped A pays l : ∀ hs x ad,
  good_env A → ki_inv A hs x → (∀ o u, (o, u) ∈ l → SpkIndexSpec.op_ok o) → pays_to A pays →
  (∀ k d, A k = Some d → ki_keychains x !! k = Some d) →
  gap_ok pays (lookahead_of x) (n_revealed x) l →
  ∃ x' hs' ad', foldl (λ s ou, '(x, ad) ← s; '(x', ad') ← ki_scan_txout x ou.1 ou.2; Ret (x', da_append ad ad'))
      (Ret (x, ad)) l = Ret (x', da_append ad ad') ∧ tr A x hs x' hs' ad' l ∧
    (∀ ki o', (ki, o') ∈ si_spk_txouts (ki_inner x) → (ki, o') ∈ si_spk_txouts (ki_inner x')) ∧
    ∀ o u k i, (o, u) ∈ l → pays (txo_spk u) = Some (k, i) → (k, i, o) ∈ si_spk_txouts (ki_inner x') ∧ i < n_revealed x' k.
Proof.
  induction l as [|[o u] l IH]; intros hs x ad HA Hi Hok Hp Hkn Hg.
  - exists x, [], ∅. rewrite da_append_empty_r. split; [done|]. split; [by apply tr_refl|]. split; [done|].
    by intros ? ? ? ? ?%elem_of_nil.
  - destruct (tr_scan_txout A hs x o u HA Hi) as (x1 & hs1 & ad1 & E & Ht & El & Hst & Hr); [by eapply Hok; left|].
    assert (si_index_of_spk (ki_inner x) (txo_spk u) = pays (txo_spk u) ∧ gap_ok pays (lookahead_of x1) (n_revealed x1) l) as [Epay Hg1].
    { cbn [gap_ok] in Hg. destruct (pays (txo_spk u)) as [[k i]|] eqn:Ep.
      - destruct Hg as [Hlt Hg]. destruct (proj1 (Hp _ _ _) Ep) as (d & Hd & Hc & Hder).
        destruct (core_stored A hs x k d (proj1 Hi) (Hkn k d Hd)) as (n & Hn & _).
        pose proof (proj1 (proj2 Hi) k d n (Hkn k d Hd) Hn) as Hmin.
        destruct (stored_script A hs x k d n i (proj1 Hi) HA (Hkn k d Hd) Hn) as (s & _ & Hs & Hs'); [lia|].
        assert (s = txo_spk u) as -> by congruence. split; [done|]. rewrite Hs' in Hr. destruct Hr as [Hr1 Hr2].
        assert (lookahead_of x1 = lookahead_of x) as -> by (unfold lookahead_of; by rewrite El).
        eapply gap_ext; [|exact Hg]. intros k'. cbn. case_decide as Hk'; [by subst|]. unfold n_revealed. by rewrite Hr2.
      - destruct (si_index_of_spk (ki_inner x) (txo_spk u)) as [[k i]|] eqn:Es.
        { apply (pays_tracked A pays hs) in Es; [congruence|done|done]. }
        split; [done|]. destruct Hr as [_ Hr]. 
        assert (lookahead_of x1 = lookahead_of x) as -> by (unfold lookahead_of; by rewrite El).
        eapply gap_ext; [|exact Hg]. intros k'. unfold n_revealed. by rewrite Hr. }
    destruct (IH _ x1 (da_append ad ad1) HA (proj1 Ht)) as (x' & hs' & ad' & E' & Ht' & Hst' & Hall).
    { intros. eapply Hok. by right. }
    { done. }
    { intros k d Hd. rewrite (proj1 (proj2 Ht)). by apply Hkn. }
    { done. }
    exists x', (hs1 ++ hs'), (da_append ad1 ad'). split; [|split; [|split]].
    + cbn [foldl fst snd]. cbn [mbind outcome_bind]. rewrite E. cbn [mbind outcome_bind]. by rewrite da_append_assoc.
    + eapply (tr_trans _ _ _ _ _ _ [(o, u)]); eauto.
    + intros ki o' Ho. apply Hst', Hst. by left.
    + intros o' u' k i Hin Hpay. apply elem_of_cons in Hin as [[= -> ->]|Hin]; [|by apply (Hall o' u')].
      rewrite Epay, Hpay in *. split.
      * apply Hst', Hst. right. by split.
      * destruct Hr as [Hr _]. pose proof (n_revealed_mono x1 x' ad' k (proj1 (proj2 (proj2 Ht')))). lia.
Qed.
Lemma hist_scans_run hs (s : SpkIndex (K * N)) W : si_good hs s → (∀ o u, (o, u) ∈ scans hs → u = W o) → 
  ∀ ki o, (ki, o) ∈ si_spk_txouts s → si_txout s o = Some (ki, W o).
Proof.
  intros Hg HW ki o Ho. pose proof (si_good_inv hs s Hg) as (_ & I2 & _). apply I2 in Ho as [u Hu].
  destruct Hg as (Erun & Hok & _).
  assert (consistent W hs) as Hc.
  { intros l o' u' Hl Hin. apply HW. unfold scans. apply elem_of_list_bind. exists (SiScan l). done. }
  apply (txouts_exact W hs s) ; try done. replace (W o) with u; [done|].
  destruct Hu as (h1 & l & h2 & -> & Hin & _). eapply Hc; [|exact Hin]. apply elem_of_app. right. by left.
Qed.
Lemma ki_gapped A pays W h l x outs acc :
  good_env A → ki_hist_ok A h → ki_run h = Ret (x, outs, acc) → (∀ k d, A k = Some d → known h k) →
  (∀ o u, (o, u) ∈ l → SpkIndexSpec.op_ok o) → pays_to A pays →
  (∀ o u, (o, u) ∈ hist_outs h ++ l → u = W o) →
  gap_ok pays (look_after h) (n_revealed x) l →
  ∃ x' ad, ki_scan x l = Ret (x', ad) ∧
    ∀ o u k i, (o, u) ∈ l → pays (txo_spk u) = Some (k, i) →
      si_txout (ki_inner x') o = Some (k, i, u) ∧ ∃ j, last_revealed_index x' k = Some j ∧ i ≤ j.
Proof.
  intros HA Hh E Hkn Hok Hp HW Hg. destruct (hist_run' A h x outs acc HA Hh E) as [hs Hi]. pose proof Hi as (I1 & I2 & I3 & I4 & I5 & I7 & I6).
  assert (gap_ok pays (lookahead_of x) (n_revealed x) l) as Hg'.
  { clear -Hg I7. assert (∀ nr, gap_ok pays (look_after h) nr l → gap_ok pays (lookahead_of x) nr l) as Hx; [|by apply Hx].
    clear Hg. induction l as [|[o u] l IH]; intros nr; cbn [gap_ok]; [done|].
    destruct (pays (txo_spk u)) as [[k i]|]; [|by apply IH]. rewrite I7. intros [? ?]. split; [done|]. by apply IH. }
  destruct (scan_gapped A pays l hs x ∅ HA I1 Hok Hp) as (x' & hs' & ad' & Es & Ht & Hst & Hall); [|done|].
  { intros k d Hd. apply (known_desc A h hs x outs acc); eauto. }
  exists x', ad'. unfold ki_scan. rewrite Es, da_append_empty_l. split; [done|].
  intros o u k i Hin Hpay. destruct (Hall o u k i Hin Hpay) as [H1 H2]. split.
  - replace u with (W o) by (symmetry; apply HW; apply elem_of_app; by right).
    apply (hist_scans_run (hs ++ hs')); [apply Ht| |done].
    intros o' u' Hin'. apply HW. unfold scans in Hin'. rewrite bind_app in Hin'. fold (scans hs) in Hin'. fold (scans hs') in Hin'.
    destruct Ht as (_ & _ & _ & _ & _ & Hsc). by rewrite I5, Hsc in Hin'.
  - unfold n_revealed, last_revealed_index in *. destruct (ki_revealed x' !! k) as [j|]; [|lia]. exists j. split; [done|lia].
Qed.

(** ** C40 *)
Lemma apply_ok A h x outs acc m :
  good_env A → ki_hist_ok A h → ki_run h = Ret (x, outs, acc) →
  (∀ k t, m !! k = Some t → known h k ∧ ∃ d, A k = Some d ∧ t < cap d) →
  ∃ x', ki_apply_additions x m = Ret x' ∧ ki_run (h ++ [KiRevealMulti m]) = Ret (x', outs, da_append acc (da_append (ki_revealed x) m)) ∧
    ki_hist_ok A (h ++ [KiRevealMulti m]) ∧ ki_revealed x' = da_append (ki_revealed x) m.
Proof.
  intros HA Hh E Hm. destruct (hist_run' A h x outs acc HA Hh E) as [hs Hi]. pose proof Hi as (I1 & I2 & I3 & I4 & I5 & I7 & I6).
  assert (∀ k t, m !! k = Some t → t ≤ bip32_max) as Hb.
  { intros k t Ht. destruct (Hm k t Ht) as (_ & d & _ & Hc). pose proof (cap_bound d). rewrite bip32_max_val. lia. }
  destruct (tr_reveal_multi A (bmap_list m) hs x ∅ ∅ HA I1) as (x' & hs' & sp & ad & Er & Ht & El & En & _).
  { apply NoDup_fst_bmap_list. }
  { intros [k t] Hin. apply elem_of_bmap_list in Hin. destruct (Hm k t Hin) as (Hk & _). split; [by apply (known_keychain _ _ _ _ _ _ _ Hi)|by eapply Hb]. }
  rewrite da_append_empty_l in Er.
  assert (ki_revealed x' = da_append (ki_revealed x) m) as Erev.
  { apply map_eq. intros k. specialize (En k). rewrite da_append_lookup.
    assert (list_find (λ kt : K * N, kt.1 = k) (bmap_list m) = None ∧ m !! k = None ∨
            ∃ j t, list_find (λ kt : K * N, kt.1 = k) (bmap_list m) = Some (j, (k, t)) ∧ m !! k = Some t) as Hf.
    { destruct (list_find _ (bmap_list m)) as [[j [k0 t]]|] eqn:Ef.
      - right. exists j, t. apply list_find_Some in Ef as (Hj & Hk & _). cbn in Hk. subst k0. split; [done|].
        apply elem_of_bmap_list. by eapply elem_of_list_lookup_2.
      - left. split; [done|]. apply list_find_None in Ef. destruct (m !! k) as [t|] eqn:Em; [|done].
        apply elem_of_bmap_list in Em. rewrite Forall_forall in Ef. by destruct (Ef (k, t) Em). }
    destruct Hf as [[Ef Em]|(j & t & Ef & Em)]; rewrite Ef in En; rewrite Em.
    - assert (n_revealed x' k = n_revealed x k) as En' by (rewrite En; by destruct (ki_keychains x !! k)).
      unfold n_revealed in En'. destruct (ki_revealed x' !! k), (ki_revealed x !! k); try lia; [|done]. f_equal. lia.
    - destruct (Hm k t Em) as (Hk & d & Hd & Hc). pose proof (known_desc A h hs x outs acc k d Hi Hd Hk) as Hkd. rewrite Hkd in En. cbn [snd] in En.
      assert (target_of d t = t) as Et.
      { unfold target_of. unfold cap in Hc. destruct (has_wildcard d); [done|]. lia. }
      rewrite Et in En. unfold n_revealed in En. destruct (ki_revealed x' !! k), (ki_revealed x !! k); try lia; f_equal; lia. }
  exists x'. split; [|split; [|split]].
  - unfold ki_apply_additions, reveal_to_target_multi. by rewrite Er.
  - rewrite ki_run_snoc, E. cbn [ki_step]. unfold reveal_to_target_multi. rewrite Er. cbn [option_list]. rewrite app_nil_r. f_equal. f_equal.
    rewrite I4, <- Erev. rewrite (proj1 (proj2 (proj2 Ht))). by rewrite da_append_assoc, da_append_idemp.
  - apply hist_ok_snoc. split; [done|]. cbn. intros k t Hmk. split; [by apply (Hm k t)|by eapply Hb].
  - done.
Qed.
Lemma ki_apply A h x outs acc m :
  good_env A → ki_hist_ok A h → ki_run h = Ret (x, outs, acc) →
  (∀ k t, m !! k = Some t → known h k ∧ ∃ d, A k = Some d ∧ t < cap d) →
  ∃ x', ki_apply_additions x m = Ret x' ∧ ki_revealed x' = da_append (ki_revealed x) m.
Proof. intros HA Hh E Hm. destruct (apply_ok A h x outs acc m HA Hh E Hm) as (x' & ? & _ & _ & ?). eauto. Qed.
Lemma apply_two A h x outs acc m1 m2 :
  good_env A → ki_hist_ok A h → ki_run h = Ret (x, outs, acc) →
  (∀ k t, m1 !! k = Some t → known h k ∧ ∃ d, A k = Some d ∧ t < cap d) →
  (∀ k t, m2 !! k = Some t → known h k ∧ ∃ d, A k = Some d ∧ t < cap d) →
  ∃ x1 x2, ki_apply_additions x m1 = Ret x1 ∧ ki_apply_additions x1 m2 = Ret x2 ∧ ki_revealed x2 = da_append (ki_revealed x) (da_append m1 m2).
Proof.
  intros HA Hh E H1 H2. destruct (apply_ok A h x outs acc m1 HA Hh E H1) as (x1 & E1 & R1 & Hh1 & V1).
  destruct (apply_ok A _ x1 outs _ m2 HA Hh1 R1) as (x2 & E2 & _ & _ & V2).
  { intros k t Ht. destruct (H2 k t Ht) as [[d Hd] ?]. split; [|done]. exists d. apply elem_of_app. by left. }
  exists x1, x2. split; [done|]. split; [done|]. by rewrite V2, V1, da_append_assoc.
Qed.
Lemma ki_apply_order A h x outs acc m1 m2 :
  good_env A → ki_hist_ok A h → ki_run h = Ret (x, outs, acc) →
  (∀ k t, m1 !! k = Some t → known h k ∧ ∃ d, A k = Some d ∧ t < cap d) →
  (∀ k t, m2 !! k = Some t → known h k ∧ ∃ d, A k = Some d ∧ t < cap d) →
  ∃ x1 x12 y1 y12 z w, ki_apply_additions x m1 = Ret x1 ∧ ki_apply_additions x1 m2 = Ret x12 ∧
    ki_apply_additions x m2 = Ret y1 ∧ ki_apply_additions y1 m1 = Ret y12 ∧
    ki_apply_additions x (da_append m1 m2) = Ret z ∧ ki_apply_additions x1 m1 = Ret w ∧
    ki_revealed x12 = ki_revealed z ∧ ki_revealed y12 = ki_revealed z ∧ ki_revealed w = ki_revealed x1.
Proof.
  intros HA Hh E H1 H2. destruct (apply_two A h x outs acc m1 m2 HA Hh E H1 H2) as (x1 & x12 & Ea & Eb & Ec).
  destruct (apply_two A h x outs acc m2 m1 HA Hh E H2 H1) as (y1 & y12 & Fa & Fb & Fc).
  destruct (apply_two A h x outs acc m1 m1 HA Hh E H1 H1) as (w1 & w & Ga & Gb & Gc). assert (w1 = x1) as -> by congruence.
  destruct (ki_apply A h x outs acc (da_append m1 m2) HA Hh E) as (z & Hz & Ez).
  { intros k t. rewrite da_append_lookup. destruct (m1 !! k) as [t1|] eqn:Em1, (m2 !! k) as [t2|] eqn:Em2; intros [= <-]; eauto.
    destruct (H1 k t1 Em1) as (? & d & Hd & ?), (H2 k t2 Em2) as (? & d' & Hd' & ?). simplify_eq. split; [done|]. exists d. split; [done|]. lia. }
  exists x1, x12, y1, y12, z, w. split_and!; try done.
  - congruence.
  - rewrite Fc, Ez. by rewrite (da_append_comm m2).
  - rewrite Gc, da_append_idemp. destruct (ki_apply A h x outs acc m1 HA Hh E H1) as (x1' & Hx & Ex). congruence.
Qed.
Lemma ki_replay A h x outs acc h0 y outs0 acc0 :
  good_env A → ki_hist_ok A h → ki_run h = Ret (x, outs, acc) →
  ki_hist_ok A h0 → ki_run h0 = Ret (y, outs0, acc0) → (∀ k, known h k → known h0 k) →
  ∃ y', ki_apply_additions y acc = Ret y' ∧ ki_revealed y' = da_append (ki_revealed y) (ki_revealed x) ∧ 
    (ki_revealed y = ∅ → ki_revealed y' = ki_revealed x).
Proof.
  intros HA Hh E Hh0 E0 Hk. destruct (hist_run' A h x outs acc HA Hh E) as [hs Hi]. pose proof Hi as (I1 & I2 & I3 & I4 & I5 & I7 & I6).
  destruct (ki_apply A h0 y outs0 acc0 acc HA Hh0 E0) as (y' & Ey & Er).
  { intros k t Ht. rewrite I4 in Ht. destruct (proj1 I1) as (C1 & _ & _ & _ & C5). destruct (C5 k) as [d Hd]; [eauto|].
    split; [apply Hk, (known_keychain _ _ _ _ _ _ _ Hi); eauto|]. exists d. split; [by apply C1|].
    pose proof (n_revealed_le_cap A hs x k d I1 Hd) as Hc. unfold n_revealed in Hc. rewrite Ht in Hc. lia. }
  exists y'. split; [done|]. rewrite I4 in Er. split; [done|]. intros Ey0. by rewrite Er, Ey0, da_append_empty_l.
Qed.
End proofs.
