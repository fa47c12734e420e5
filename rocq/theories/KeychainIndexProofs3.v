(** Proofs about the keychain index: addresses, scanning, histories. *)
From Verif Require Export KeychainIndexProofs2.

Section proofs.
Context `{!DescEnv} `{Countable K, !Ord K, !OrdLaws K}.
Implicit Types (x : KIndex K) (k : K) (h : list (ki_op K)) (hs : list (si_op (K * N))).

(** ** Stored scripts *)
Lemma stored_script A hs x k d n i :
  core A hs x → good_env A → ki_keychains x !! k = Some d → stored x k n → i < n →
  ∃ s, si_spk_at (ki_inner x) (k, i) = Some s ∧ derive d i = Some s ∧ si_index_of_spk (ki_inner x) s = Some (k, i).
Proof.
  intros Hc HA Hd Hn Hi. apply Hn in Hi as [s Hs]. exists s. split; [done|].
  destruct Hc as (_ & C2 & C3 & _). destruct (C3 _ _ _ Hs) as (d' & Hd' & Hder). simplify_eq. split; [done|].
  by apply (si_good_inverse hs).
Qed.
Lemma revealed_script A hs x k d i :
  ki_inv A hs x → good_env A → ki_keychains x !! k = Some d → i < n_revealed x k →
  ∃ s, si_spk_at (ki_inner x) (k, i) = Some s ∧ derive d i = Some s ∧ si_index_of_spk (ki_inner x) s = Some (k, i).
Proof.
  intros [Hc _] HA Hd Hi. destruct (core_stored A hs x k d Hc Hd) as (n & Hn & _ & Hr).
  apply (stored_script A hs x k d n i); try done. lia.
Qed.
Lemma n_revealed_le_cap A hs x k d : ki_inv A hs x → ki_keychains x !! k = Some d → n_revealed x k ≤ cap d.
Proof. intros [Hc _] Hd. destruct (core_stored A hs x k d Hc Hd) as (n & Hn & ? & ?). lia. Qed.
Lemma tracked_paid A hs x k i s :
  ki_inv A hs x → si_index_of_spk (ki_inner x) s = Some (k, i) →
  ∃ d, ki_keychains x !! k = Some d ∧ i < cap d ∧ derive d i = Some s.
Proof.
  intros [Hc _] Hs. destruct (Hc) as (_ & C2 & C3 & _). apply (si_good_inverse hs) in Hs; [|done].
  destruct (C3 _ _ _ Hs) as (d & Hd & Hder). exists d. split; [done|]. split; [|done].
  destruct (core_stored A hs x k d Hc Hd) as (n & Hn & ? & ?). assert (i < n); [|lia]. apply Hn. eauto.
Qed.

(** ** Next address *)
Lemma tr_next A hs x k d :
  good_env A → ki_inv A hs x → ki_keychains x !! k = Some d →
  ∃ x' hs' i s ad, reveal_next_spk x k = Ret (x', (i, s), ad) ∧ tr A x hs x' hs' ad [] ∧ ki_lookahead x' = ki_lookahead x ∧
    derive d i = Some s ∧ si_spk_at (ki_inner x') (k, i) = Some s ∧
    i < n_revealed x' k ∧
    if bool_decide (n_revealed x k < cap d) then i = n_revealed x k ∧ ad = {[ k := i ]} ∧ n_revealed x' k = i + 1
    else i = cap d - 1 ∧ ad = ∅ ∧ ki_revealed x' = ki_revealed x.
Proof.
  intros HA Hi Hd. pose proof (n_revealed_le_cap A hs x k d Hi Hd) as Hcap. pose proof (cap_bound d) as [Hcb0 Hcb].
  assert (∃ b, next_index x k = Ret (if bool_decide (n_revealed x k < cap d) then n_revealed x k else cap d - 1, b)) as [b En].
  { unfold next_index, n_revealed in *. rewrite Hd. destruct (ki_revealed x !! k) as [v|].
    - unfold cap in *. destruct (has_wildcard d); cbn [negb].
      + rewrite bool_decide_false by lia. rewrite bip32_max_val in *. case_bool_decide as Hv.
        * eexists. rewrite bool_decide_false by lia. repeat f_equal. lia.
        * rewrite add_u32_ok by lia. eexists. rewrite bool_decide_true by lia. done.
      + eexists. rewrite bool_decide_false by lia. done.
    - eexists. rewrite bool_decide_true by lia. done. }
  set (i := if bool_decide (n_revealed x k < cap d) then n_revealed x k else cap d - 1) in *.
  assert (i < cap d) as Hic by (unfold i; case_bool_decide; lia).
  assert (target_of d i = i) as Et.
  { unfold target_of. unfold cap in Hic. destruct (has_wildcard d); [done|]. lia. }
  destruct (tr_reveal A hs x k d i HA Hi Hd) as (x' & hs' & E & Ht & El & Er & Eo & _); [by rewrite Et|]. rewrite Et in *.
  assert (ki_keychains x' !! k = Some d) as Hd' by (by rewrite (proj1 (proj2 Ht))).
  assert (i < n_revealed x' k) as Hlt by (rewrite Er; lia).
  destruct (revealed_script A (hs ++ hs') x' k d i (proj1 Ht) HA Hd' Hlt) as (s & Hs & Hder & _).
  exists x', hs', i, s, (reveal_ad x k i). split.
  { unfold reveal_next_spk. rewrite En. cbn [mbind outcome_bind fst]. rewrite E. cbn [mbind outcome_bind]. by rewrite Hs. }
  split; [done|]. split; [done|]. split; [done|]. split; [done|]. split; [done|].
  unfold reveal_ad. unfold i in *. destruct (bool_decide (n_revealed x k < cap d)) eqn:Eb.
  - apply bool_decide_eq_true in Eb. split; [done|]. rewrite bool_decide_false by lia. split; [done|]. rewrite Er. lia.
  - apply bool_decide_eq_false in Eb. split; [done|]. rewrite bool_decide_true by lia. split; [done|].
    rewrite (proj1 (proj2 (proj2 Ht))). unfold reveal_ad. rewrite bool_decide_true by lia. apply da_append_empty_r.
Qed.

(** ** Unused addresses *)
Lemma unused_of_keychain_ok A hs x k d :
  good_env A → ki_inv A hs x → ki_keychains x !! k = Some d →
  ∃ l, unused_spks_of_keychain x k = Ret l ∧ StronglySorted N.lt l.*1 ∧
    ∀ i s, (i, s) ∈ l ↔ i < n_revealed x k ∧ si_spk_at (ki_inner x) (k, i) = Some s ∧ si_is_used (ki_inner x) (k, i) = false.
Proof.
  intros HA Hi Hd. pose proof (n_revealed_le_cap A hs x k d Hi Hd) as Hcap. pose proof (cap_bound d) as [Hcb0 Hcb].
  destruct (proj1 (proj2 (proj1 Hi))) as (Erun & Hok & Ho & _).
  pose proof (unused_spks_exact hs (ki_inner x) (Incl (k, 0)) (Excl (k, n_revealed x k)) Hok Ho Erun) as Hu.
  assert (range_bad (Incl (k, 0)) (Excl (k, n_revealed x k)) = false) as Hb.
  { cbn. apply bool_decide_eq_false. rewrite prod_ord_lt. cbn [fst snd]. rewrite N_ord_lt.
    intros [Hx|[_ Hx]]; [by apply ord_lt_irrefl in Hx|lia]. }
  assert (∀ k' i, above_lo (Incl (k, 0)) (k', i) ∧ below_hi (Excl (k, n_revealed x k)) (k', i) ↔ k' = k ∧ i < n_revealed x k) as Hr.
  { intros k' i. cbn. rewrite prod_ord_le, prod_ord_lt. cbn [fst snd]. rewrite N_ord_lt. split.
    - intros [[Hlt|[E _]] [Hgt|[E' Hx]]]; [|subst; by apply ord_lt_irrefl in Hlt|subst; by apply ord_lt_irrefl in Hgt|done].
      exfalso. apply (ord_lt_irrefl k). by eapply ord_lt_trans.
    - intros [-> Hx]. split; right; (split; [done|]); [|done]. apply N_ord_le. lia. }
  unfold unused_spks_of_keychain. rewrite (next_reveal_ok x k (n_revealed x k)) by lia. cbn [mbind outcome_bind].
  destruct (si_unused_spks _ _ _) as [l|]; [|congruence]. destruct Hu as (_ & Hs & Hl). cbn [mbind outcome_bind].
  eexists. split; [done|].
  assert (∀ ki s, (ki, s) ∈ l → ki.1 = k) as Hk.
  { intros [k' i] s Hin. apply Hl in Hin as (_ & _ & Hlo & Hhi). by apply (proj1 (Hr k' i)). }
  split.
  - rewrite <- list_fmap_compose. cbn. clear -Hs Hk OrdLaws0. induction l as [|[[k' i] s] l IH]; [constructor|].
    cbn in *. inversion Hs as [|? ? Hs' HF]; subst. constructor; [apply IH; [done|]|].
    + intros. eapply Hk. by right.
    + apply Forall_forall. intros j Hj. apply elem_of_list_fmap in Hj as ([[k2 i2] s2] & -> & Hin).
      rewrite Forall_forall in HF. assert (ord_lt (k', i) (k2, i2)) as Hlt.
      { apply HF. apply elem_of_list_fmap. by exists (k2, i2, s2). }
      assert (k' = k2) as ->.
      { transitivity k; [symmetry|]; [symmetry; apply (Hk (k', i) s); by left|symmetry; apply (Hk (k2, i2) s2); by right]. }
      apply prod_ord_lt in Hlt as [Hx|[_ Hx]]; [by apply ord_lt_irrefl in Hx|]. by apply N_ord_lt in Hx.
  - intros i s. rewrite elem_of_list_fmap. split.
    + intros ([[k' i'] s'] & [= -> ->] & Hin). pose proof (Hk _ _ Hin) as Ek. cbn in Ek. subst k'.
      apply Hl in Hin as (Ht & Hu & Hlo & Hhi). split; [by apply (proj1 (Hr k i'))|]. split; [|done].
      by apply (spk_at_exact hs (ki_inner x) (k, i') s').
    + intros (Hlt & Hs' & Hu). exists (k, i, s). split; [done|]. apply Hl.
      split; [by apply (spk_at_exact hs (ki_inner x) (k, i) s)|]. split; [done|]. by apply Hr.
Qed.
Lemma tr_next_unused A hs x k d :
  good_env A → ki_inv A hs x → ki_keychains x !! k = Some d →
  ∃ x' hs' i s ad, next_unused_spk x k = Ret (x', (i, s), ad) ∧ tr A x hs x' hs' ad [] ∧ ki_lookahead x' = ki_lookahead x ∧
    derive d i = Some s ∧ si_spk_at (ki_inner x') (k, i) = Some s ∧ i < n_revealed x' k ∧
    ((x' = x ∧ ad = ∅ ∧ i < n_revealed x k ∧ si_is_used (ki_inner x) (k, i) = false ∧
        ∀ j, j < i → si_is_used (ki_inner x) (k, j) = true) ∨
     ((∀ j, j < n_revealed x k → si_is_used (ki_inner x) (k, j) = true) ∧
        reveal_next_spk x k = Ret (x', (i, s), ad))).
Proof.
  intros HA Hi Hd. destruct (unused_of_keychain_ok A hs x k d HA Hi Hd) as (l & E & Hs & Hl).
  unfold next_unused_spk. rewrite E. cbn [mbind outcome_bind]. 
  assert (∀ j, j < n_revealed x k → si_is_used (ki_inner x) (k, j) = false → j ∈ l.*1) as Hin.
  { intros j Hj Hu. destruct (revealed_script A hs x k d j Hi HA Hd Hj) as (s & Hsj & _).
    apply elem_of_list_fmap. exists (j, s). split; [done|]. by apply Hl. }
  destruct l as [|[i s] l].
  - destruct (tr_next A hs x k d HA Hi Hd) as (x' & hs' & i & s & ad & En & Ht & El & H1 & H2 & H3 & _).
    exists x', hs', i, s, ad. do 6 (split; [done|]). right. split; [|done]. intros j Hj.
    destruct (si_is_used (ki_inner x) (k, j)) eqn:Eu; [done|]. apply Hin in Eu; [|done]. by apply elem_of_nil in Eu.
  - destruct (proj1 (Hl i s)) as (Hlt & Hsp & Hu); [by left|].
    destruct (revealed_script A hs x k d i Hi HA Hd Hlt) as (s0 & Hs0 & Hder & _).
    assert (s0 = s) as -> by congruence.
    exists x, [], i, s, ∅. split; [done|]. split; [by apply tr_refl|]. split; [done|]. split; [done|]. split; [done|]. split; [done|].
    left. do 4 (split; [done|]). intros j Hj. destruct (si_is_used (ki_inner x) (k, j)) eqn:Eu; [done|].
    apply Hin in Eu; [|lia]. cbn in Hs, Eu. inversion Hs as [|? ? _ HF]; subst. rewrite Forall_forall in HF.
    apply elem_of_cons in Eu as [->|Eu]; [lia|]. apply HF in Eu. lia.
Qed.

(** ** Operations of the inner index *)
Lemma tr_inner A hs x op s' :
  ki_inv A hs x → si_step (ki_inner x) op = Ret s' → (∀ ki s, op ≠ SiSpk ki s) → scans_ok [op] →
  tr A x hs (with_inner x s') [op] ∅ (scans [op]) ∧ si_spks s' = si_spks (ki_inner x) ∧ si_indices s' = si_indices (ki_inner x).
Proof.
  intros [Hc Hl] E Hne Hok.
  assert (si_spks s' = si_spks (ki_inner x) ∧ si_indices s' = si_indices (ki_inner x)) as [Es Ei].
  { destruct op as [ki s|l|ki|ki]; cbn [si_step] in E.
    - by destruct (Hne ki s).
    - injection E as <-. rewrite si_scan_fst. pose proof (scan_spec l (ki_inner x)) as Hx. cbn zeta in Hx. tauto.
    - injection E as <-. done.
    - unfold si_unmark_used in E. destruct (si_spks (ki_inner x) !! ki); [|injection E as <-; done].
      destruct (si_outputs_in_range _ _ _) as [[|? ?]|]; [injection E as <-; done|injection E as <-; done|done]. }
  assert (∀ k n, stored (with_inner x s') k n ↔ stored x k n) as Hst.
  { intros k n. unfold stored, si_spk_at. cbn [ki_inner with_inner]. by rewrite Es. }
  split; [|done]. split; [split|].
  - destruct Hc as (C1 & (G1 & G2 & G3 & G4) & C3 & C4 & C5). split; [done|]. split; [|split; [|split; [|done]]].
    + split; [|split; [|split]].
      * by rewrite si_run_snoc, G1.
      * intros l o u Hin. apply elem_of_app in Hin as [Hin|Hin]; [by eapply G2|by eapply Hok].
      * unfold indices_once in *. rewrite omap_app. destruct op; cbn; rewrite ?app_nil_r; try done. by destruct (Hne i s).
      * intros ki spk Hin. cbn [ki_inner with_inner]. rewrite Es. apply elem_of_app in Hin as [Hin|Hin]; [by apply G4|].
        apply elem_of_list_singleton in Hin. by destruct (Hne ki spk).
    + cbn [ki_inner with_inner ki_keychains]. by rewrite Es.
    + intros k d Hd. destruct (C4 k d Hd) as (n & Hn & Hcap & Hr). exists n. split; [by apply Hst|]. done.
  - destruct Hl as [L1 L2]. split; [|done]. intros k d n Hd Hn. apply (L1 k d n Hd). by apply Hst.
  - split; [done|]. split; [by rewrite da_append_empty_r|]. split; [intros k i; by rewrite lookup_empty|]. split; [|done].
    intros ki s. cbn [ki_inner with_inner]. by rewrite Es.
Qed.
Lemma tr_mark A hs x k i : ki_inv A hs x →
  tr A x hs (ki_mark_used x k i).1 [SiMark (k, i)] ∅ [] ∧ si_spks (ki_inner (ki_mark_used x k i).1) = si_spks (ki_inner x).
Proof.
  intros Hi. destruct (tr_inner A hs x (SiMark (k, i)) _ Hi eq_refl) as (Ht & Es & _).
  - done.
  - intros l o u Hin. by apply elem_of_list_singleton in Hin.
  - by split.
Qed.
Lemma tr_unmark A hs x k i : ki_inv A hs x →
  ∃ r, ki_unmark_used x k i = Ret r ∧ tr A x hs r.1 [SiUnmark (k, i)] ∅ [].
Proof.
  intros Hi. destruct (proj1 (proj2 (proj1 Hi))) as (Erun & Hok & Ho & _).
  destruct (unmark_result hs (ki_inner x) (k, i) Hok Ho Erun) as (s' & b & E & _).
  exists (with_inner x s', b). unfold ki_unmark_used. rewrite E. split; [done|].
  destruct (tr_inner A hs x (SiUnmark (k, i)) s' Hi) as (Ht & Es & _).
  - cbn. by rewrite E.
  - done.
  - intros l o u Hin. by apply elem_of_list_singleton in Hin.
  - exact Ht.
Qed.
Lemma tr_reserve A hs x x' hs' k i s ad :
  ki_inv A hs x → tr A x hs x' hs' ad [] → si_spk_at (ki_inner x') (k, i) = Some s →
  ∃ x2 hs2, reserve (x', (i, s), ad) k = Ret (x2, (i, s), ad) ∧ tr A x hs x2 hs2 ad [] ∧ ki_revealed x2 = ki_revealed x' ∧ ki_lookahead x2 = ki_lookahead x' ∧
    si_is_used (ki_inner x2) (k, i) = true.
Proof.
  intros Hi Ht Hs. destruct (tr_mark A (hs ++ hs') x' k i (proj1 Ht)) as [Ht2 Es].
  exists (ki_mark_used x' k i).1, (hs' ++ [SiMark (k, i)]). split.
  - unfold reserve. cbn [fst]. unfold si_spk_at in *. rewrite Es, Hs. done.
  - split; [|split_and!; try done].
    + rewrite <- (da_append_empty_r ad). eapply (tr_trans _ _ _ _ _ _ [] _ _ _ []); eauto.
    + cbn. unfold si_is_used. cbn. apply bool_decide_eq_true. set_solver.
Qed.

(** ** Scanning *)
Lemma scan_single (s : SpkIndex (K * N)) o u : (si_scan s [(o, u)]).1 = (si_scan_txout s o u).1.
Proof. done. Qed.
Lemma tr_scan_txout A hs x o u :
  good_env A → ki_inv A hs x → SpkIndexSpec.op_ok o →
  ∃ x' hs' ad, ki_scan_txout x o u = Ret (x', ad) ∧ tr A x hs x' hs' ad [(o, u)] ∧ ki_lookahead x' = ki_lookahead x ∧
    (∀ ki o', (ki, o') ∈ si_spk_txouts (ki_inner x') ↔ (ki, o') ∈ si_spk_txouts (ki_inner x) ∨
        o' = o ∧ si_index_of_spk (ki_inner x) (txo_spk u) = Some ki) ∧
    match si_index_of_spk (ki_inner x) (txo_spk u) with
    | None => ad = ∅ ∧ ki_revealed x' = ki_revealed x
    | Some (k, i) => n_revealed x' k = N.max (n_revealed x k) (i + 1) ∧ ∀ k', k' ≠ k → ki_revealed x' !! k' = ki_revealed x !! k'
    end.
Proof.
  intros HA Hi Hok. unfold ki_scan_txout.
  destruct (tr_inner A hs x (SiScan [(o, u)]) (si_scan_txout (ki_inner x) o u).1 Hi) as (Ht & Es & Ei).
  { done. }
  { done. }
  { intros l o' u' Hin Ho. apply elem_of_list_singleton in Hin as [= ->]. apply elem_of_list_singleton in Ho as [= -> ->]. done. }
  cbn in Ht. unfold si_index_of_spk.
  assert ((si_scan_txout (ki_inner x) o u).2 = si_indices (ki_inner x) !! txo_spk u) as E2.
  { unfold si_scan_txout. by destruct (si_indices (ki_inner x) !! txo_spk u). }
  rewrite E2. destruct (si_indices (ki_inner x) !! txo_spk u) as [[k i]|] eqn:Ek.
  - cbn [fst snd]. destruct (tracked_paid A hs x k i (txo_spk u) Hi Ek) as (d & Hd & Hic & Hder).
    set (x1 := with_inner x (si_scan_txout (ki_inner x) o u).1) in *.
    assert (target_of d i = i) as Et.
    { unfold target_of. unfold cap in Hic. destruct (has_wildcard d); [done|]. lia. }
    destruct (tr_reveal A _ x1 k d i HA (proj1 Ht) Hd) as (x' & hs' & E & Ht' & El & Er & Eo & _ & Est & _); [by rewrite Et|].
    rewrite Et in *. exists x', ([SiScan [(o, u)]] ++ hs'), (reveal_ad x1 k i). rewrite E. split; [done|]. split; [|split; [done|split]].
    + rewrite <- (da_append_empty_l (reveal_ad x1 k i)). eapply (tr_trans _ _ _ _ _ _ [(o, u)] _ _ _ []); eauto.
    + intros ki o'. rewrite Est. unfold x1. cbn [ki_inner with_inner]. unfold si_scan_txout. rewrite Ek. cbn [fst si_spk_txouts].
      rewrite elem_of_union, elem_of_singleton. naive_solver.
    + split; [exact Er|exact Eo].
  - cbn [fst snd]. eexists _, _, _. split; [done|]. split; [exact Ht|]. split; [done|]. split; [|done].
    intros ki o'. cbn [ki_inner with_inner]. unfold si_scan_txout. rewrite Ek. cbn [fst]. naive_solver.
Qed.
Lemma tr_scan A l : ∀ hs x ad,
  good_env A → ki_inv A hs x → (∀ o u, (o, u) ∈ l → SpkIndexSpec.op_ok o) →
  ∃ x' hs' ad', foldl (λ s ou, '(x, ad) ← s; '(x', ad') ← ki_scan_txout x ou.1 ou.2; Ret (x', da_append ad ad'))
      (Ret (x, ad)) l = Ret (x', da_append ad ad') ∧ tr A x hs x' hs' ad' l ∧ ki_lookahead x' = ki_lookahead x ∧
    (∀ ki o', (ki, o') ∈ si_spk_txouts (ki_inner x) → (ki, o') ∈ si_spk_txouts (ki_inner x')).
Proof.
  induction l as [|[o u] l IH]; intros hs x ad HA Hi Hok.
  - exists x, [], ∅. rewrite da_append_empty_r. split; [done|]. split; [by apply tr_refl|]. done.
  - destruct (tr_scan_txout A hs x o u HA Hi) as (x1 & hs1 & ad1 & E & Ht & El & Hst & _); [by eapply Hok; left|].
    destruct (IH _ x1 (da_append ad ad1) HA (proj1 Ht)) as (x' & hs' & ad' & E' & Ht' & El' & Hst').
    { intros. eapply Hok. by right. }
    exists x', (hs1 ++ hs'), (da_append ad1 ad'). split; [|split; [|split; [congruence|]]].
    + cbn [foldl fst snd]. cbn [mbind outcome_bind]. rewrite E. cbn [mbind outcome_bind]. by rewrite da_append_assoc.
    + eapply (tr_trans _ _ _ _ _ _ [(o, u)]); eauto.
    + intros ki o' Ho. apply Hst', Hst. by left.
Qed.
End proofs.
