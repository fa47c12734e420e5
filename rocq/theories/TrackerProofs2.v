(** Proofs about the tracker: two indexes that went through the same reveals (C43). *)
From Verif Require Export TrackerProofs.

Section growth.
Context `{!DescEnv} `{Countable K, !Ord K, !OrdLaws K}.
Implicit Types (x y : KIndex K) (k : K) (h : list (ki_op K)) (hs : list (si_op (K * N))).

(** What is stored grows exactly with what is revealed. *)
Definition grow x x' : Prop :=
  ∀ k d n, ki_keychains x !! k = Some d → stored x k n →
    stored x' k (N.max n (N.min (cap d) (n_revealed x' k + lookahead_of x k))).
Definition same_outs x x' : Prop :=
  si_txouts (ki_inner x') = si_txouts (ki_inner x) ∧ si_spk_txouts (ki_inner x') = si_spk_txouts (ki_inner x).
Definition grows A x hs x' hs' ad l : Prop :=
  tr A x hs x' hs' ad l ∧ ki_lookahead x' = ki_lookahead x ∧ grow x x'.

Lemma grow_intro A hs x x' :
  ki_inv A hs x' → ki_keychains x' = ki_keychains x → ki_lookahead x' = ki_lookahead x → 
  (∀ k d n, ki_keychains x !! k = Some d → stored x k n →
     ∃ n', stored x' k n' ∧ n ≤ n' ∧ n' ≤ N.max n (N.min (cap d) (n_revealed x' k + lookahead_of x k))) → grow x x'.
Proof.
  intros [_ [Hl _]] Ek El Hs k d n Hd Hn. destruct (Hs k d n Hd Hn) as (n' & Hn' & H1' & H2').
  rewrite <- Ek in Hd. specialize (Hl k d n' Hd Hn').
  assert (lookahead_of x' k = lookahead_of x k) as E by (unfold lookahead_of; by rewrite El). rewrite E in Hl.
  eapply eq_ind; [exact Hn'|]. lia.
Qed.
Lemma grows_refl A x hs : ki_inv A hs x → grows A x hs x [] ∅ [].
Proof.
  intros Hi. split; [by apply tr_refl|]. split; [done|]. apply (grow_intro A hs); [done..|]. intros k d n Hd Hn. exists n. split; [done|]. lia.
Qed.
Lemma grows_trans A x hs x1 hs1 ad1 l1 x2 hs2 ad2 l2 :
  grows A x hs x1 hs1 ad1 l1 → grows A x1 (hs ++ hs1) x2 hs2 ad2 l2 →
  grows A x hs x2 (hs1 ++ hs2) (da_append ad1 ad2) (l1 ++ l2).
Proof.
  intros (T1 & L1 & G1) (T2 & L2 & G2). split; [by eapply tr_trans|]. split; [congruence|].
  intros k d n Hd Hn. pose proof (G1 k d n Hd Hn) as Hn1. rewrite <- (proj1 (proj2 T1)) in Hd.
  pose proof (G2 k d _ Hd Hn1) as Hn2. unfold lookahead_of in *. rewrite L1 in Hn2.
  pose proof (n_revealed_mono x1 x2 ad2 k (proj1 (proj2 (proj2 T2)))) as Hm.
  eapply eq_ind; [exact Hn2|]. lia.
Qed.
Lemma same_outs_trans x x1 x2 : same_outs x x1 → same_outs x1 x2 → same_outs x x2.
Proof. intros [] []. split; congruence. Qed.

(** The inner index changes only outputs and use. *)
Lemma grows_inner A hs x op s' :
  ki_inv A hs x → si_step (ki_inner x) op = Ret s' → (∀ ki s, op ≠ SiSpk ki s) → scans_ok [op] →
  grows A x hs (with_inner x s') [op] ∅ (scans [op]).
Proof.
  intros Hi E Hne Hok. destruct (tr_inner A hs x op s' Hi E Hne Hok) as (Ht & Es & _). split; [done|]. split; [done|].
  apply (grow_intro A (hs ++ [op])); [apply Ht|done..|]. intros k d n Hd Hn. exists n. split; [|lia].
  intros i. unfold si_spk_at. cbn [ki_inner with_inner]. rewrite Es. apply Hn.
Qed.
Lemma grows_reveal A hs x k d t :
  good_env A → ki_inv A hs x → ki_keychains x !! k = Some d → target_of d t < cap d →
  ∃ x' hs', reveal_to_target x k t =
      Ret (x', range_spks d (n_revealed x k) (n_revealed x' k), reveal_ad x k (target_of d t)) ∧
    grows A x hs x' hs' (reveal_ad x k (target_of d t)) [] ∧
    n_revealed x' k = N.max (n_revealed x k) (target_of d t + 1) ∧
    (∀ k', k' ≠ k → ki_revealed x' !! k' = ki_revealed x !! k') ∧ same_outs x x'.
Proof.
  intros HA Hi Hd Ht. destruct (tr_reveal A hs x k d t HA Hi Hd Ht) as (x' & hs' & E & T & El & En & Eo & O1 & O2 & _).
  exists x', hs'. split; [done|]. split; [|done]. split; [done|]. split; [done|].
  destruct (core_stored A hs x k d (proj1 Hi) Hd) as (n & Hn & _).
  pose proof (cap_bound d) as [_ Hcb]. pose proof (proj2 (proj2 Hi) k) as Hla.
  destruct (reveal_ok A hs x k d n t HA Hi Hd Hn) as (s' & h' & _ & _ & Hgr & Hr); [lia|].
  assert (ki_inner x' = s') as Ex.
  { rewrite E in Hr. cbn zeta in Hr. destruct (reveals _ _ _ _).
    - destruct Hr as (Hr & _). by injection Hr as -> _ _.
    - destruct Hr as (Hr & _). by injection Hr as -> _ _. }
  subst s'. destruct Hgr as (G1 & G2 & _). apply (grow_intro A (hs ++ hs')); [apply T|apply T|done|].
  intros k' d' n' Hd' Hn'. destruct (decide (k' = k)) as [->|Hne].
  - simplify_eq. assert (n' = n) as -> by (by eapply stored_fun). eexists. split; [exact G1|]. rewrite En.
    destruct (bool_decide _) eqn:Eb; [apply bool_decide_eq_true in Eb|apply bool_decide_eq_false in Eb]; split; lia.
  - exists n'. split; [by apply (G2 k' n' Hne)|lia].
Qed.
Lemma grows_reveal_multi A l : ∀ hs x (spks : gmap K (list (N * Script))) ad,
  good_env A → ki_inv A hs x → NoDup l.*1 → (∀ kt : K * N, kt ∈ l → is_Some (ki_keychains x !! kt.1) ∧ kt.2 ≤ bip32_max) →
  ∃ x' hs' spks' ad', foldl (λ s kt,
    '(x, spks, ad) ← s;
    '(x', new, ad') ← reveal_to_target x kt.1 kt.2;
    if da_is_empty ad' then Ret (x', spks, ad)
    else Ret (x', <[kt.1 := new]> spks, da_append ad ad')) (Ret (x, spks, ad)) l = Ret (x', spks', da_append ad ad') ∧
    grows A x hs x' hs' ad' [] ∧ same_outs x x'.
Proof.
  induction l as [|[k0 t0] l IH]; intros hs x spks ad HA Hi Hnd Hl.
  - exists x, [], spks, ∅. rewrite da_append_empty_r. split; [done|]. split; [by apply grows_refl|]. done.
  - destruct (Hl (k0, t0)) as [[d Hd] Ht0]; [by left|]. cbn [fst snd] in *.
    destruct (grows_reveal A hs x k0 d t0 HA Hi Hd (target_cap d t0 Ht0)) as (x1 & hs1 & E & Ht & _ & _ & So).
    rewrite fmap_cons in Hnd. apply NoDup_cons in Hnd as [Hni Hnd].
    set (ad1 := reveal_ad x k0 (target_of d t0)) in *.
    set (spks1 := if da_is_empty ad1 then spks else <[k0 := range_spks d (n_revealed x k0) (n_revealed x1 k0)]> spks).
    destruct (IH (hs ++ hs1) x1 spks1 (da_append ad ad1) HA (proj1 (proj1 Ht)) Hnd) as (x' & hs' & spks' & ad' & E' & Ht' & So').
    { intros kd' Hin. rewrite (proj1 (proj2 (proj1 Ht))). apply Hl. by right. }
    exists x', (hs1 ++ hs'), spks', (da_append ad1 ad'). split; [|split; [by eapply (grows_trans _ _ _ _ _ _ [] _ _ _ [])|by eapply same_outs_trans]].
    rewrite da_append_assoc, <- E'. cbn [foldl fst snd]. f_equal. cbn [mbind outcome_bind]. rewrite E. cbn [mbind outcome_bind].
    unfold spks1. destruct (da_is_empty ad1) eqn:Ee; [|done].
    assert (ad1 = ∅) as ->; [|by rewrite da_append_empty_r].
    unfold ad1, reveal_ad in *. case_bool_decide; [done|]. by unfold da_is_empty in Ee; case_bool_decide.
Qed.
Lemma apply_grows A hs x m :
  good_env A → ki_inv A hs x → (∀ k t, m !! k = Some t → is_Some (ki_keychains x !! k) ∧ t ≤ bip32_max) →
  ∃ x' hs' ad, ki_apply_additions x m = Ret x' ∧ grows A x hs x' hs' ad [] ∧ same_outs x x' ∧
    (∀ k, n_revealed x' k = match ki_keychains x !! k, m !! k with
       | Some d, Some t => N.max (n_revealed x k) (target_of d t + 1)
       | _, _ => n_revealed x k end).
Proof.
  intros HA Hi Hm.
  assert (∀ kt : K * N, kt ∈ bmap_list m → is_Some (ki_keychains x !! kt.1) ∧ kt.2 ≤ bip32_max) as Hl.
  { intros [k t] Hin. apply elem_of_bmap_list in Hin. by apply Hm. }
  destruct (grows_reveal_multi A (bmap_list m) hs x ∅ ∅ HA Hi (NoDup_fst_bmap_list m) Hl) as (x' & hs' & sp & ad & E & G & So).
  destruct (tr_reveal_multi A (bmap_list m) hs x ∅ ∅ HA Hi (NoDup_fst_bmap_list m) Hl) as (x2 & hs2 & sp2 & ad2 & E2 & _ & _ & En & _).
  rewrite E in E2. injection E2 as <- <- _. rewrite da_append_empty_l in E.
  exists x', hs', ad. split; [unfold ki_apply_additions, reveal_to_target_multi; by rewrite E|]. split; [done|]. split; [done|].
  intros k. rewrite (En k). destruct (ki_keychains x !! k) as [d|]; [|done].
  assert (list_find (λ kt : K * N, kt.1 = k) (bmap_list m) = None ∧ m !! k = None ∨
          ∃ j t, list_find (λ kt : K * N, kt.1 = k) (bmap_list m) = Some (j, (k, t)) ∧ m !! k = Some t) as Hf.
  { destruct (list_find _ (bmap_list m)) as [[j [k0 t]]|] eqn:Ef.
    - right. exists j, t. apply list_find_Some in Ef as (Hj & Hk & _). cbn in Hk. subst k0. split; [done|].
      apply elem_of_bmap_list. by eapply elem_of_list_lookup_2.
    - left. split; [done|]. apply list_find_None in Ef. destruct (m !! k) as [t|] eqn:Em; [|done].
      apply elem_of_bmap_list in Em. rewrite Forall_forall in Ef. by destruct (Ef (k, t) Em). }
  destruct Hf as [[-> ->]|(j & t & -> & ->)]; done.
Qed.
Lemma grows_scan_txout A hs x o u :
  good_env A → ki_inv A hs x → SpkIndexSpec.op_ok o →
  ∃ x' hs' ad, ki_scan_txout x o u = Ret (x', ad) ∧ grows A x hs x' hs' ad [(o, u)].
Proof.
  intros HA Hi Hok. unfold ki_scan_txout.
  assert (grows A x hs (with_inner x (si_scan_txout (ki_inner x) o u).1) [SiScan [(o, u)]] ∅ [(o, u)]) as Hg.
  { apply (grows_inner A hs x (SiScan [(o, u)])); [done| |done|].
    - cbn [si_step]. by rewrite scan_single.
    - intros l o' u' Hin Ho. apply elem_of_list_singleton in Hin as [= ->]. apply elem_of_list_singleton in Ho as [= -> ->]. done. }
  assert ((si_scan_txout (ki_inner x) o u).2 = si_indices (ki_inner x) !! txo_spk u) as E2.
  { unfold si_scan_txout. by destruct (si_indices (ki_inner x) !! txo_spk u). }
  rewrite E2. destruct (si_indices (ki_inner x) !! txo_spk u) as [[k i]|] eqn:Ek; cbn [fst snd].
  - destruct (tracked_paid A hs x k i (txo_spk u) Hi Ek) as (d & Hd & Hic & Hder).
    set (x1 := with_inner x (si_scan_txout (ki_inner x) o u).1) in *.
    assert (target_of d i = i) as Et.
    { unfold target_of. unfold cap in Hic. destruct (has_wildcard d); [done|]. lia. }
    destruct (grows_reveal A _ x1 k d i HA (proj1 (proj1 Hg)) Hd) as (x' & hs' & E & Hg' & _); [by rewrite Et|].
    exists x', ([SiScan [(o, u)]] ++ hs'), (reveal_ad x1 k (target_of d i)). rewrite E. split; [done|].
    rewrite <- (da_append_empty_l (reveal_ad x1 k _)). eapply (grows_trans _ _ _ _ _ _ [(o, u)] _ _ _ []); eauto.
  - eauto.
Qed.
Lemma grows_scan A l : ∀ hs x ad,
  good_env A → ki_inv A hs x → (∀ o u, (o, u) ∈ l → SpkIndexSpec.op_ok o) →
  ∃ x' hs' ad', foldl (λ s ou, '(x, ad) ← s; '(x', ad') ← ki_scan_txout x ou.1 ou.2; Ret (x', da_append ad ad'))
      (Ret (x, ad)) l = Ret (x', da_append ad ad') ∧ grows A x hs x' hs' ad' l.
Proof.
  induction l as [|[o u] l IH]; intros hs x ad HA Hi Hok.
  - exists x, [], ∅. rewrite da_append_empty_r. split; [done|]. by apply grows_refl.
  - destruct (grows_scan_txout A hs x o u HA Hi) as (x1 & hs1 & ad1 & E & Ht); [by eapply Hok; left|].
    destruct (IH _ x1 (da_append ad ad1) HA (proj1 (proj1 Ht))) as (x' & hs' & ad' & E' & Ht').
    { intros. eapply Hok. by right. }
    exists x', (hs1 ++ hs'), (da_append ad1 ad'). split.
    + cbn [foldl fst snd]. cbn [mbind outcome_bind]. rewrite E. cbn [mbind outcome_bind]. by rewrite da_append_assoc.
    + by eapply (grows_trans _ _ _ _ _ _ [(o, u)] _ _ _ l).
Qed.
Lemma grows_next A hs x k d :
  good_env A → ki_inv A hs x → ki_keychains x !! k = Some d →
  ∃ x' hs' i s ad, reveal_next_spk x k = Ret (x', (i, s), ad) ∧ grows A x hs x' hs' ad [] ∧ same_outs x x' ∧
    si_spk_at (ki_inner x') (k, i) = Some s.
Proof.
  intros HA Hi Hd. destruct (tr_next A hs x k d HA Hi Hd) as (x' & hs' & i & s & ad & E & T & El & _ & Hs & Hn & _).
  exists x', hs', i, s, ad. split; [done|]. pose proof (n_revealed_le_cap A _ x' k d (proj1 T)) as Hc.
  rewrite (proj1 (proj2 T)) in Hc. specialize (Hc Hd).
  unfold reveal_next_spk in E. destruct (next_index x k) as [[i' b]|]; [|done]. cbn [mbind outcome_bind fst] in E.
  assert (reveal_to_target x k i' ≠ Panic → ∃ l, i' = i ∧ reveal_to_target x k i' = Ret (x', l, ad)) as Hr.
  { destruct (reveal_to_target x k i') as [[[x1 l] ad1]|]; [|done]. cbn [mbind outcome_bind] in E.
    destruct (si_spk_at _ _); [|done]. intros _. injection E as -> -> -> ->. eauto. }
  destruct Hr as (l & -> & Hr). { intros Hp. by rewrite Hp in E. }
  destruct (grows_reveal A hs x k d i HA Hi Hd) as (x2 & hs2 & E2 & G2 & _ & _ & So).
  { pose proof (cap_bound d). unfold target_of. destruct (has_wildcard d); lia. }
  rewrite E2 in Hr. injection Hr as -> _ _. split; [|done]. split; [done|]. apply G2.
Qed.
Lemma grows_reserve A hs x x' hs' k i s ad :
  grows A x hs x' hs' ad [] → same_outs x x' → si_spk_at (ki_inner x') (k, i) = Some s →
  ∃ x2 hs2, reserve (x', (i, s), ad) k = Ret (x2, (i, s), ad) ∧ grows A x hs x2 hs2 ad [] ∧ same_outs x x2.
Proof.
  intros G So Hs.
  assert (grows A x' (hs ++ hs') (ki_mark_used x' k i).1 [SiMark (k, i)] ∅ []) as G2.
  { apply (grows_inner A (hs ++ hs') x' (SiMark (k, i))); [apply G|done|done|]. intros l o u Hin. by apply elem_of_list_singleton in Hin. }
  exists (ki_mark_used x' k i).1, (hs' ++ [SiMark (k, i)]). split; [|split].
  - unfold reserve. cbn [fst]. destruct (tr_mark A (hs ++ hs') x' k i (proj1 (proj1 G))) as [_ Es]. unfold si_spk_at in *. by rewrite Es, Hs.
  - rewrite <- (da_append_empty_r ad). eapply (grows_trans _ _ _ _ _ _ [] _ _ _ []); eauto.
  - exact So.
Qed.
Lemma unmark_outs (s s' : SpkIndex (K * N)) ki b : si_unmark_used s ki = Ret (s', b) →
  si_txouts s' = si_txouts s ∧ si_spk_txouts s' = si_spk_txouts s.
Proof. unfold si_unmark_used. repeat (case_match; try done); intros [= <- _]; done. Qed.

(** Any call other than adding keychains and setting lookaheads. *)
Lemma step_grows A h hs x op :
  good_env A → ki_inv A hs x → (∀ k, known h k → is_Some (ki_keychains x !! k)) → ki_op_ok A h op → running op →
  ∃ x' o ad hs', ki_step x op = Ret (x', o, ad) ∧ grows A x hs x' hs' ad (op_outs op) ∧
    ((∀ l, op ≠ KiScan l) → same_outs x x').
Proof.
  intros HA Hi Hkn Hop Hrun. destruct op as [k d|k n|n|k t|m|k t|m|k|k|k|k|k i|k i|l]; cbn [ki_step ki_op_ok running op_outs] in *; try done.
  - destruct Hop as [Hk Ht]. destruct (Hkn k Hk) as [d Hd].
    destruct (grows_reveal A hs x k d t HA Hi Hd (target_cap d t Ht)) as (x' & hs' & E & G & _ & _ & So). rewrite E. eauto 10.
  - destruct (grows_reveal_multi A (bmap_list m) hs x ∅ ∅ HA Hi (NoDup_fst_bmap_list m)) as (x' & hs' & sp & ad & E & G & So).
    { intros [k t] Hin. apply elem_of_bmap_list in Hin. destruct (Hop k t Hin) as [Hk Ht]. split; [by apply Hkn|done]. }
    unfold reveal_to_target_multi. rewrite E, da_append_empty_l. eauto 10.
  - destruct (Hkn k Hop) as [d Hd]. destruct (grows_next A hs x k d HA Hi Hd) as (x' & hs' & i & s & ad & E & G & So & _).
    rewrite E. cbn. eauto 10.
  - destruct (Hkn k Hop) as [d Hd].
    destruct (tr_next_unused A hs x k d HA Hi Hd) as (x' & hs' & i & s & ad & E & T & El & _ & Hs & _ & [(-> & -> & _)|(_ & E')]).
    + rewrite E. cbn. eexists _, _, _, []. split; [done|]. split; [by apply grows_refl|done].
    + destruct (grows_next A hs x k d HA Hi Hd) as (x2 & hs2 & i2 & s2 & ad2 & E2 & G & So & _). rewrite E2 in E'. injection E' as -> -> -> ->.
      rewrite E. cbn. eauto 10.
  - destruct (Hkn k Hop) as [d Hd]. destruct (grows_next A hs x k d HA Hi Hd) as (x' & hs' & i & s & ad & E & G & So & Hs).
    destruct (grows_reserve A hs x x' hs' k i s ad G So Hs) as (x2 & hs2 & E2 & G2 & So2).
    unfold reveal_and_reserve_next_spk. rewrite E. cbn [mbind outcome_bind]. rewrite E2. cbn. eauto 10.
  - destruct (Hkn k Hop) as [d Hd].
    destruct (tr_next_unused A hs x k d HA Hi Hd) as (x' & hs' & i & s & ad & E & T & El & _ & Hs & _ & Hc).
    assert (∃ hs1, grows A x hs x' hs1 ad [] ∧ same_outs x x') as (hs1 & G & So).
    { destruct Hc as [(-> & -> & _)|(_ & E')].
      - exists []. split; [by apply grows_refl|done].
      - destruct (grows_next A hs x k d HA Hi Hd) as (x2 & hs2 & i2 & s2 & ad2 & E2 & G & So & _). rewrite E2 in E'. injection E' as -> -> -> ->. eauto. }
    destruct (grows_reserve A hs x x' hs1 k i s ad G So Hs) as (x2 & hs2 & E2 & G2 & So2).
    unfold reserve_next_unused_spk. rewrite E. cbn [mbind outcome_bind]. rewrite E2. cbn. eauto 10.
  - eexists _, _, _, [SiMark (k, i)]. split; [done|]. split; [|done].
    apply (grows_inner A hs x (SiMark (k, i))); [done..|]. intros l o u Hin. by apply elem_of_list_singleton in Hin.
  - destruct (tr_unmark A hs x k i Hi) as ([x' b] & E & _). rewrite E. unfold ki_unmark_used in E.
    destruct (si_unmark_used (ki_inner x) (k, i)) as [[s' b']|] eqn:Eu; [|done]. injection E as <- <-.
    eexists _, _, _, [SiUnmark (k, i)]. split; [done|]. split.
    + apply (grows_inner A hs x (SiUnmark (k, i))); [done| |done|]. { cbn. by rewrite Eu. } intros l o u Hin. by apply elem_of_list_singleton in Hin.
    + intros _. apply (unmark_outs _ _ _ _ Eu).
  - destruct (grows_scan A l hs x ∅ HA Hi Hop) as (x' & hs' & ad & E & G).
    unfold ki_scan. rewrite E, da_append_empty_l. eexists _, _, _, hs'. split; [done|]. split; [done|].
    intros Hl. by destruct (Hl l).
Qed.

(** ** Two indexes in step *)
Definition sim x y : Prop :=
  ki_keychains x = ki_keychains y ∧ ki_revealed x = ki_revealed y ∧ ki_lookahead x = ki_lookahead y ∧
  si_spks (ki_inner x) = si_spks (ki_inner y).
Definition outs_eq x y : Prop :=
  si_txouts (ki_inner x) = si_txouts (ki_inner y) ∧ si_spk_txouts (ki_inner x) = si_spk_txouts (ki_inner y).
Lemma sim_indices A hs hs2 x y : ki_inv A hs x → ki_inv A hs2 y → sim x y →
  si_indices (ki_inner x) = si_indices (ki_inner y).
Proof.
  intros [Hx _] [Hy _] (_ & _ & _ & E). apply map_eq. intros s. apply option_eq. intros ki.
  rewrite <- (si_good_inverse hs _ ki s) by apply Hx. rewrite <- (si_good_inverse hs2 _ ki s) by apply Hy. by rewrite E.
Qed.
Lemma spks_by_stored A hs hs2 x y :
  good_env A → ki_inv A hs x → ki_inv A hs2 y → ki_keychains x = ki_keychains y →
  (∀ k d, ki_keychains x !! k = Some d → ∃ n, stored x k n ∧ stored y k n) →
  si_spks (ki_inner x) = si_spks (ki_inner y).
Proof.
  intros HA [Hx _] [Hy _] Ek Hst.
  assert (∀ hs hs2 x y, core A hs x → core A hs2 y → ki_keychains x = ki_keychains y →
    (∀ k d, ki_keychains x !! k = Some d → ∃ n, stored x k n ∧ stored y k n) →
    ∀ ki s, si_spks (ki_inner x) !! ki = Some s → si_spks (ki_inner y) !! ki = Some s) as Hhalf.
  { clear -HA OrdLaws0. intros hs hs2 x y Hx Hy Ek Hst [k i] s Hs. destruct (proj1 (proj2 (proj2 Hx)) k i s Hs) as (d & Hd & Hder).
    destruct (Hst k d Hd) as (n & Hnx & Hny). assert (i < n) as Hi by (apply Hnx; unfold si_spk_at; eauto).
    rewrite Ek in Hd. destruct (stored_script A hs2 y k d n i Hy HA Hd Hny Hi) as (s' & Hs' & Hder' & _). unfold si_spk_at in Hs'. congruence. }
  apply map_eq. intros ki. apply option_eq. intros s. split; [by eapply Hhalf|]. eapply Hhalf; [done|done|done|].
  rewrite <- Ek. intros k d Hd. destruct (Hst k d Hd) as (n & ? & ?). eauto.
Qed.
Lemma sim_grow A hs1 hs2 x y x' y' hs1' hs2' ad1 ad2 l1 l2 :
  good_env A → ki_inv A hs1 x → sim x y →
  grows A x hs1 x' hs1' ad1 l1 → grows A y hs2 y' hs2' ad2 l2 → ki_revealed x' = ki_revealed y' → sim x' y'.
Proof.
  intros HA Hi (S1 & S2 & S3 & S4) (T1 & L1 & G1) (T2 & L2 & G2) Er.
  assert (ki_keychains x' = ki_keychains y') as Ek by (rewrite (proj1 (proj2 T1)), (proj1 (proj2 T2)); done).
  split_and!; [done|done|congruence|]. apply (spks_by_stored A (hs1 ++ hs1') (hs2 ++ hs2')); [done|apply T1|apply T2|done|].
  intros k d Hd. rewrite (proj1 (proj2 T1)) in Hd. destruct (core_stored A hs1 x k d (proj1 Hi) Hd) as (n & Hn & _).
  assert (stored y k n) as Hny. { unfold stored, si_spk_at in *. by rewrite <- S4. }
  eexists. split; [by apply G1|]. pose proof (G2 k d n) as Hy. rewrite <- S1 in Hy. specialize (Hy Hd Hny).
  unfold n_revealed, lookahead_of in *. rewrite Er, S3. done.
Qed.
Lemma n_revealed_eq x y : (∀ k, n_revealed x k = n_revealed y k) → ki_revealed x = ki_revealed y.
Proof.
  intros Hn. apply map_eq. intros k. specialize (Hn k). unfold n_revealed in Hn.
  destruct (ki_revealed x !! k), (ki_revealed y !! k); try lia; [|done]. f_equal. lia.
Qed.
(** Both apply the same derivation additions. *)
Lemma sim_apply A hs1 hs2 x y m :
  good_env A → ki_inv A hs1 x → ki_inv A hs2 y → sim x y →
  (∀ k t, m !! k = Some t → is_Some (ki_keychains x !! k) ∧ t ≤ bip32_max) →
  ∃ x' y' hs1' hs2' ad1 ad2, ki_apply_additions x m = Ret x' ∧ ki_apply_additions y m = Ret y' ∧ sim x' y' ∧
    grows A x hs1 x' hs1' ad1 [] ∧ grows A y hs2 y' hs2' ad2 [] ∧ same_outs x x' ∧ same_outs y y'.
Proof.
  intros HA Hx Hy Hs Hm. pose proof Hs as (S1 & S2 & S3 & S4).
  destruct (apply_grows A hs1 x m HA Hx Hm) as (x' & hs1' & ad1 & E1 & G1 & O1 & N1).
  destruct (apply_grows A hs2 y m HA Hy) as (y' & hs2' & ad2 & E2 & G2 & O2 & N2). { by rewrite <- S1. }
  exists x', y', hs1', hs2', ad1, ad2. split_and!; try done. eapply sim_grow; [done|exact Hx|done|done|done|].
  apply n_revealed_eq. intros k. rewrite N1, N2. unfold n_revealed. by rewrite S1, S2.
Qed.
(** One runs a call, the other applies the additions it reported. *)
Lemma sim_step A h hs1 hs2 x y op :
  good_env A → ki_inv A hs1 x → ki_inv A hs2 y → sim x y →
  (∀ k, known h k → is_Some (ki_keychains x !! k)) → ki_op_ok A h op → running op →
  ∃ x' o ad y' hs1' hs2' ad2, ki_step x op = Ret (x', o, ad) ∧ ki_apply_additions y ad = Ret y' ∧ sim x' y' ∧
    grows A x hs1 x' hs1' ad (op_outs op) ∧ grows A y hs2 y' hs2' ad2 [] ∧
    ((∀ l, op ≠ KiScan l) → outs_eq x y → outs_eq x' y').
Proof.
  intros HA Hx Hy Hs Hkn Hop Hrun. pose proof Hs as (S1 & S2 & S3 & S4).
  destruct (step_grows A h hs1 x op HA Hx Hkn Hop Hrun) as (x' & o & ad & hs1' & E & G & So). pose proof G as ((T1 & T2 & T3 & T4 & _) & _).
  assert (∀ k t, ad !! k = Some t → ∃ d, ki_keychains x !! k = Some d ∧ t < cap d) as Had.
  { intros k t Hk. assert (is_Some (ki_revealed x' !! k)) as Hr. { rewrite T3, da_append_lookup, Hk. destruct (ki_revealed x !! k); eauto. }
    destruct (proj2 (proj2 (proj2 (proj2 (proj1 T1)))) k Hr) as [d Hd]. exists d. rewrite <- T2. split; [done|].
    pose proof (n_revealed_le_cap A _ x' k d T1 Hd) as Hc. unfold n_revealed in Hc. rewrite T3, da_append_lookup, Hk in Hc.
    destruct (ki_revealed x !! k); lia. }
  destruct (apply_grows A hs2 y ad HA Hy) as (y' & hs2' & ad2 & E2 & G2 & O2 & N2).
  { intros k t Hk. rewrite <- S1. destruct (Had k t Hk) as (d & Hd & Hc). split; [eauto|]. pose proof (cap_bound d). rewrite bip32_max_val. lia. }
  exists x', o, ad, y', hs1', hs2', ad2. split_and!; try done.
  - eapply sim_grow; [done|exact Hx|done|exact G|exact G2|]. apply n_revealed_eq. intros k. rewrite N2. unfold n_revealed. rewrite T3, da_append_lookup, <- S1, <- S2.
    destruct (ad !! k) as [t|] eqn:Ea.
    + destruct (Had k t Ea) as (d & Hd & Hc). rewrite Hd.
      assert (target_of d t = t) as ->. { unfold target_of. unfold cap in Hc. destruct (has_wildcard d); [done|]. lia. }
      destruct (ki_revealed x !! k); lia.
    + destruct (ki_keychains x !! k), (ki_revealed x !! k); done.
  - intros Hns [O3 O4]. destruct (So Hns) as [O5 O6], O2 as [O7 O8]. split; congruence.
Qed.
Lemma scan_txout_outs A hs x o u x' ad :
  good_env A → ki_inv A hs x → SpkIndexSpec.op_ok o → ki_scan_txout x o u = Ret (x', ad) →
  si_txouts (ki_inner x') = si_txouts (si_scan_txout (ki_inner x) o u).1 ∧
  si_spk_txouts (ki_inner x') = si_spk_txouts (si_scan_txout (ki_inner x) o u).1.
Proof.
  intros HA Hx Ho E. unfold ki_scan_txout in E.
  assert (grows A x hs (with_inner x (si_scan_txout (ki_inner x) o u).1) [SiScan [(o, u)]] ∅ [(o, u)]) as Hg.
  { apply (grows_inner A hs x (SiScan [(o, u)])); [done| |done|].
    - cbn [si_step]. by rewrite scan_single.
    - intros l' o' u' Hin Hou. apply elem_of_list_singleton in Hin as [= ->]. apply elem_of_list_singleton in Hou as [= -> ->]. done. }
  assert ((si_scan_txout (ki_inner x) o u).2 = si_indices (ki_inner x) !! txo_spk u) as Eq2.
  { unfold si_scan_txout. by destruct (si_indices (ki_inner x) !! txo_spk u). }
  rewrite Eq2 in E. destruct (si_indices (ki_inner x) !! txo_spk u) as [[k i]|] eqn:Ek.
  - destruct (tracked_paid A hs x k i (txo_spk u) Hx Ek) as (d & Hd & Hic & _).
    destruct (grows_reveal A _ _ k d i HA (proj1 (proj1 Hg)) Hd) as (z2 & hz2 & Ez & _ & _ & _ & So).
    { unfold target_of. unfold cap in *. destruct (has_wildcard d); lia. }
    cbn [fst snd] in E. rewrite Ez in E. cbn [mbind outcome_bind] in E. injection E as <- _. destruct So as [So1 So2].
    cbn [ki_inner with_inner] in So1, So2. done.
  - injection E as <- _. done.
Qed.
(** Both scan the same outputs. *)
Lemma sim_scan A l : ∀ hs1 hs2 x y ad ad2,
  good_env A → ki_inv A hs1 x → ki_inv A hs2 y → sim x y → (∀ o u, (o, u) ∈ l → SpkIndexSpec.op_ok o) →
  ∃ x' y' hs1' hs2' ad' ad2',
    foldl (λ s ou, '(x, ad) ← s; '(x', ad') ← ki_scan_txout x ou.1 ou.2; Ret (x', da_append ad ad')) (Ret (x, ad)) l = Ret (x', da_append ad ad') ∧
    foldl (λ s ou, '(x, ad) ← s; '(x', ad') ← ki_scan_txout x ou.1 ou.2; Ret (x', da_append ad ad')) (Ret (y, ad2)) l = Ret (y', da_append ad2 ad2') ∧
    sim x' y' ∧ grows A x hs1 x' hs1' ad' l ∧ grows A y hs2 y' hs2' ad2' l ∧ (outs_eq x y → outs_eq x' y').
Proof.
  induction l as [|[o u] l IH]; intros hs1 hs2 x y ad ad2 HA Hx Hy Hs Hok.
  - exists x, y, [], [], ∅, ∅. rewrite !da_append_empty_r. split_and!; try done; by apply grows_refl.
  - assert (SpkIndexSpec.op_ok o) as Ho by (eapply Hok; by left). pose proof Hs as (S1 & S2 & S3 & S4).
    pose proof (sim_indices A hs1 hs2 x y Hx Hy Hs) as Hix.
    destruct (grows_scan_txout A hs1 x o u HA Hx Ho) as (x1 & h1 & a1 & E1 & G1).
    destruct (grows_scan_txout A hs2 y o u HA Hy Ho) as (y1 & h2 & a2 & E2 & G2).
    destruct (tr_scan_txout A hs1 x o u HA Hx Ho) as (x1' & h1' & a1' & E1' & _ & _ & _ & R1). rewrite E1 in E1'. injection E1' as <- <-.
    destruct (tr_scan_txout A hs2 y o u HA Hy Ho) as (y1' & h2' & a2' & E2' & _ & _ & _ & R2). rewrite E2 in E2'. injection E2' as <- <-.
    assert (sim x1 y1) as Hs1.
    { eapply sim_grow; [done|exact Hx|done|exact G1|exact G2|]. unfold si_index_of_spk in R1, R2. rewrite <- Hix in R2.
      destruct (si_indices (ki_inner x) !! txo_spk u) as [[k i]|].
      - destruct R1 as [R1 R1'], R2 as [R2 R2']. apply n_revealed_eq. intros k'. destruct (decide (k' = k)) as [->|Hne].
        + rewrite R1, R2. unfold n_revealed. by rewrite S2.
        + unfold n_revealed. by rewrite R1', R2', S2.
      - destruct R1 as [_ R1], R2 as [_ R2]. congruence. }
    assert (outs_eq x y → outs_eq x1 y1) as Ho1.
    { intros [O1 O2].
      destruct (scan_txout_outs A hs1 x o u x1 a1 HA Hx Ho E1) as [P1 P2]. destruct (scan_txout_outs A hs2 y o u y1 a2 HA Hy Ho E2) as [Q1 Q2].
      unfold outs_eq. rewrite P1, P2, Q1, Q2. unfold si_scan_txout. rewrite <- Hix.
      destruct (si_indices (ki_inner x) !! txo_spk u); cbn [fst si_txouts si_spk_txouts]; split; congruence. }
    destruct (IH (hs1 ++ h1) (hs2 ++ h2) x1 y1 (da_append ad a1) (da_append ad2 a2) HA (proj1 (proj1 G1)) (proj1 (proj1 G2)) Hs1)
      as (x' & y' & h1s & h2s & ad' & ad2' & F1 & F2 & Hs' & G1' & G2' & Ho').
    { intros. eapply Hok. by right. }
    exists x', y', (h1 ++ h1s), (h2 ++ h2s), (da_append a1 ad'), (da_append a2 ad2'). split_and!.
    + cbn [foldl fst snd]. cbn [mbind outcome_bind]. rewrite E1. cbn [mbind outcome_bind]. by rewrite da_append_assoc.
    + cbn [foldl fst snd]. cbn [mbind outcome_bind]. rewrite E2. cbn [mbind outcome_bind]. by rewrite da_append_assoc.
    + done.
    + by eapply (grows_trans _ _ _ _ _ _ [(o, u)] _ _ _ l).
    + by eapply (grows_trans _ _ _ _ _ _ [(o, u)] _ _ _ l).
    + auto.
Qed.
End growth.
