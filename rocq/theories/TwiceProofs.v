(** Proofs about applying a changeset a second time (C107). *)
From Verif Require Export RestoreProofs TwiceSpec.

Section chain.
Context `{ChainPositionLaws P}.
Implicit Types (c : SparseChain P) (cs : ChangeSet P) (cg : ChainGraph P).

Lemma views_ordered c c' : views_agree c → views_agree c' → sc_pos c = sc_pos c' → sc_ordered c = sc_ordered c'.
Proof. intros Hv Hv' E. apply set_eq. intros [p t]. rewrite (Hv p t), (Hv' p t). by rewrite E. Qed.
Lemma sub_size (m m' : gmap N BlockHash) : m ⊆ m' → (size m ≤ size m')%nat.
Proof. intros Hs. rewrite <- !(size_dom (D := gset N)). by apply subseteq_size, subseteq_dom. Qed.
Lemma sub_size_lt (m m' : gmap N BlockHash) i : m ⊆ m' → m !! i = None → is_Some (m' !! i) → (size m < size m')%nat.
Proof.
  intros Hs Hi Hi'. rewrite <- !(size_dom (D := gset N)). apply subset_size. split; [by apply subseteq_dom|].
  intros Hd. apply elem_of_dom in Hi'. apply Hd, elem_of_dom in Hi'. rewrite Hi in Hi'. by destruct Hi'.
Qed.
(** Between what pruning keeps and what it was given, pruning keeps the same. *)
Lemma prune_between c c' :
  sc_limit c = sc_limit c' → sc_cps (prune_checkpoints c) ⊆ sc_cps c' → sc_cps c' ⊆ sc_cps c →
  sc_cps (prune_checkpoints c') = sc_cps (prune_checkpoints c).
Proof.
  intros El H1' H2'. apply map_eq. intros h. rewrite !prune_cps, <- El.
  pose proof (prune_cps c) as Hp. destruct (sc_limit c) as [n|] eqn:En.
  2: { replace (sc_cps c') with (sc_cps c); [done|]. apply (anti_symm (⊆)); [|done].
       by rewrite prune_none in H1' by done. }
  assert (∀ j, filter (λ kv : N * BlockHash, j < kv.1) (sc_cps c') ⊆ filter (λ kv : N * BlockHash, j < kv.1) (sc_cps c)) as Hf.
  { intros j. apply map_subseteq_spec. intros i b. rewrite !map_filter_lookup_Some. intros [Hi Hj]. split; [|done].
    eapply lookup_weaken; [exact Hi|exact H2']. }
  assert (cps_above c' h ≤ cps_above c h)%nat as Hle by (apply sub_size; apply Hf).
  destruct (decide (cps_above c h < n)%nat) as [Hlt|Hge].
  - rewrite !bool_decide_true by lia. destruct (sc_cps c !! h) as [b|] eqn:Eb.
    + eapply lookup_weaken; [|exact H1']. rewrite Hp, bool_decide_true by done. done.
    + eapply lookup_weaken_None; [exact Eb|exact H2'].
  - rewrite (bool_decide_false (cps_above c h < n)%nat) by done.
    destruct (sc_cps c' !! h) as [b|] eqn:Eb; [|by case_bool_decide]. rewrite bool_decide_false; [done|].
    assert (is_Some (sc_cps c !! h)) as Hin by (eexists; eapply lookup_weaken; [exact Eb|exact H2']).
    apply is_Some_key in Hin. rewrite <- elem_of_reverse in Hin. apply elem_of_list_lookup in Hin as [i Hi].
    pose proof (cps_above_rank _ _ _ Hi) as Hr.
    destruct (lookup_lt_is_Some_2 (reverse (bmap_list (sc_cps c)).*1) n) as [k Hk]; [apply lookup_lt_Some in Hi; lia|].
    pose proof (cps_above_rank _ _ _ Hk) as Hrk.
    assert (h ≤ k) as Hhk.
    { destruct (decide (h ≤ k)); [done|]. exfalso.
      assert (cps_above c h < cps_above c k)%nat; [|lia].
      apply (sub_size_lt _ _ h).
      - apply map_subseteq_spec. intros j x. rewrite !map_filter_lookup_Some. cbn. intros [? ?]. split; [done|lia].
      - apply map_filter_lookup_None. right. intros y _. cbn. lia.
      - assert (is_Some (sc_cps c !! h)) as [x Hx].
        { eexists. eapply lookup_weaken; [exact Eb|exact H2']. }
        exists x. apply map_filter_lookup_Some. cbn. split; [done|lia]. }
    assert (cps_above c k ≤ cps_above c' h)%nat; [|lia].
    apply sub_size. apply map_subseteq_spec. intros j x. rewrite !map_filter_lookup_Some. cbn. intros [Hx Hj].
    split; [|lia]. eapply lookup_weaken; [|exact H1']. rewrite Hp, bool_decide_true; [done|].
    rewrite <- Hrk. apply (sub_size_lt _ _ j).
    + apply map_subseteq_spec. intros j' x'. rewrite !map_filter_lookup_Some. cbn. intros [? ?]. split; [done|lia].
    + apply map_filter_lookup_None. right. intros y _. cbn. lia.
    + exists x. apply map_filter_lookup_Some. cbn. split; [done|lia].
Qed.
Lemma chain_twice c cs : views_agree c → apply_changeset (apply_changeset c cs) cs = apply_changeset c cs.
Proof.
  intros Hv. pose proof (apply_changeset_views c cs Hv) as Hv1. pose proof (apply_changeset_views _ cs Hv1) as Hv2.
  assert (sc_pos (apply_changeset (apply_changeset c cs) cs) = sc_pos (apply_changeset c cs)) as Ep.
  { apply map_eq. intros t. rewrite !apply_changeset_pos. by destruct (cs_txids cs !! t). }
  pose proof (views_ordered _ _ Hv2 Hv1 Ep) as Eo.
  assert (sc_limit (apply_changeset (apply_changeset c cs) cs) = sc_limit (apply_changeset c cs)) as El by (by rewrite !apply_changeset_limit).
  assert (sc_cps (apply_changeset (apply_changeset c cs) cs) = sc_cps (apply_changeset c cs)) as Ec.
  2: { destruct (apply_changeset (apply_changeset c cs) cs), (apply_changeset c cs). cbn in *. by subst. }
  unfold apply_changeset at 1 3. 
  apply prune_between; cbn [sc_limit sc_cps]; [by rewrite apply_changeset_limit| |].
  - fold (raw_cps (apply_changeset c cs) cs). fold (apply_changeset c cs). apply map_subseteq_spec. intros h b Hb. rewrite raw_cps_lookup.
    pose proof (apply_changeset_cps_sub c cs h b Hb) as Hr. rewrite raw_cps_lookup in Hr. by destruct (cs_cps cs !! h).
  - fold (raw_cps (apply_changeset c cs) cs). fold (raw_cps c cs). apply map_subseteq_spec. intros h b Hb. rewrite raw_cps_lookup in *.
    destruct (cs_cps cs !! h) eqn:E; [done|]. apply apply_changeset_cps_sub in Hb. by rewrite raw_cps_lookup, E in Hb.
Qed.
Lemma graph_twice (g : TxGraph) (a : Additions) : ad_inj (ad_tx a) → apply_additions (apply_additions g a) a = apply_additions g a.
Proof.
  intros Hi. rewrite <- ad_append_apply by (by rewrite union_idemp_L). f_equal. unfold ad_append.
  rewrite union_idemp_L, map_union_idemp. by destruct a.
Qed.
Lemma cg_twice cg (cs : CgChangeSet P) : views_agree (cg_chain cg) → ad_inj (ad_tx (cgs_graph cs)) →
  cg_apply_changeset (cg_apply_changeset cg cs) cs = cg_apply_changeset cg cs.
Proof.
  intros Hv Hi. unfold cg_apply_changeset. cbn [cg_chain cg_graph]. by rewrite chain_twice, graph_twice.
Qed.
End chain.

Section index.
Context `{!DescEnv} `{Countable K, !Ord K, !OrdLaws K}.
Implicit Types (x y : KIndex K) (k : K) (hs : list (si_op (K * N))).

Lemma scan_txout_again A hs x o u :
  ki_inv A hs x →
  (∀ k i, si_index_of_spk (ki_inner x) (txo_spk u) = Some (k, i) →
     si_txout (ki_inner x) o = Some (k, i, u) ∧ i < n_revealed x k) →
  ki_scan_txout x o u = Ret (x, ∅).
Proof.
  intros Hi Hf. unfold ki_scan_txout, si_scan_txout. unfold si_index_of_spk in Hf.
  destruct (si_indices (ki_inner x) !! txo_spk u) as [[k i]|] eqn:Ek; cbn [fst snd]; [|by rewrite with_inner_id].
  destruct (Hf k i eq_refl) as [Ho Hr]. destruct (tracked_paid A hs x k i (txo_spk u) Hi Ek) as (d & Hd & Hic & _).
  assert (mkSI (si_spks (ki_inner x)) (si_indices (ki_inner x)) (si_unused (ki_inner x) ∖ {[(k, i)]})
    (<[o := (k, i, u)]> (si_txouts (ki_inner x))) ({[(k, i, o)]} ∪ si_spk_txouts (ki_inner x)) = ki_inner x) as ->.
  { pose proof (proj1 (proj2 (proj1 Hi))) as Hg. pose proof (si_good_inv hs _ Hg) as (_ & I2 & I3 & _ & _ & I6).
    pose proof (I3 _ _ _ Ho) as Hh. rewrite insert_id by done.
    replace ({[(k, i, o)]} ∪ si_spk_txouts (ki_inner x)) with (si_spk_txouts (ki_inner x)).
    2: { assert ((k, i, o) ∈ si_spk_txouts (ki_inner x)) by (apply I2; eauto). set_solver. }
    replace (si_unused (ki_inner x) ∖ {[(k, i)]}) with (si_unused (ki_inner x)).
    2: { assert ((k, i) ∉ si_unused (ki_inner x)); [|set_solver]. rewrite I6 by apply Hg. intros (_ & Hn & _). apply Hn. eauto. }
    by destruct (ki_inner x). }
  rewrite with_inner_id. rewrite (reveal_nothing A hs x k d i Hi Hd); [done|].
  unfold target_of. unfold cap in Hic. destruct (has_wildcard d); [done|lia].
Qed.
Lemma scan_again A hs x l ad :
  ki_inv A hs x →
  (∀ o u k i, (o, u) ∈ l → si_index_of_spk (ki_inner x) (txo_spk u) = Some (k, i) →
     si_txout (ki_inner x) o = Some (k, i, u) ∧ i < n_revealed x k) →
  foldl (λ s ou, '(x, ad) ← s; '(x', ad') ← ki_scan_txout x ou.1 ou.2; Ret (x', da_append ad ad')) (Ret (x, ad)) l = Ret (x, ad).
Proof.
  intros Hi. induction l as [|[o u] l IH]; intros Hf; [done|].
  cbn [foldl fst snd]. cbn [mbind outcome_bind]. rewrite (scan_txout_again A hs x o u Hi).
  2: { intros k i Hs. apply (Hf o u); [by left|done]. }
  cbn [mbind outcome_bind]. rewrite da_append_empty_r. apply IH. intros o' u' k i Hin. apply Hf. by right.
Qed.
Lemma apply_again A hs x (m : gmap K N) :
  ki_inv A hs x → (∀ k t, m !! k = Some t → ∃ d, ki_keychains x !! k = Some d ∧ target_of d t < n_revealed x k) →
  ki_apply_additions x m = Ret x.
Proof.
  intros Hi Hm. unfold ki_apply_additions, reveal_to_target_multi.
  assert (∀ (l : list (K * N)), (∀ k t, (k, t) ∈ l → ∃ d, ki_keychains x !! k = Some d ∧ target_of d t < n_revealed x k) →
    foldl (λ s kt, '(x, spks, ad) ← s; '(x', new, ad') ← reveal_to_target x kt.1 kt.2;
      if da_is_empty ad' then Ret (x', spks, ad) else Ret (x', <[kt.1 := new]> spks, da_append ad ad'))
      (Ret (x, ∅ : gmap K (list (N * Script)), ∅ : DerivationAdditions K)) l = Ret (x, ∅, ∅)) as Hl.
  { induction l as [|[k t] l IH]; intros Hf; [done|]. destruct (Hf k t ltac:(by left)) as (d & Hd & Ht).
    cbn [foldl fst snd]. cbn [mbind outcome_bind]. rewrite (reveal_nothing A hs x k d t Hi Hd Ht). cbn [mbind outcome_bind].
    apply IH. intros k' t' Hin. apply Hf. by right. }
  rewrite Hl; [done|]. intros k t Hin. apply Hm. by apply elem_of_bmap_list in Hin.
Qed.

(** What a scan records it reveals. *)
Lemma scan_found A l : ∀ hs x ad x' ad',
  good_env A → ki_inv A hs x → (∀ o u, (o, u) ∈ l → SpkIndexSpec.op_ok o) →
  foldl (λ s ou, '(x, ad) ← s; '(x', ad') ← ki_scan_txout x ou.1 ou.2; Ret (x', da_append ad ad')) (Ret (x, ad)) l = Ret (x', ad') →
  (∃ hs', ki_inv A hs' x') ∧ ki_keychains x' = ki_keychains x ∧
  (∀ k, n_revealed x k ≤ n_revealed x' k) ∧
  (∀ o u k i, (o, u) ∈ l → si_index_of_spk (ki_inner x) (txo_spk u) = Some (k, i) → i < n_revealed x' k) ∧
  (∀ o u k i, si_txout (ki_inner x') o = Some (k, i, u) → si_txout (ki_inner x) o = Some (k, i, u) ∨ i < n_revealed x' k).
Proof.
  induction l as [|[o u] l IH]; intros hs x ad x' ad' HA Hi Hok E.
  { injection E as <- <-. split; [eauto|]. split; [done|]. split; [done|]. split; [|by left]. intros o u k i Hin. by apply elem_of_nil in Hin. }
  destruct (grows_scan_txout A hs x o u HA Hi) as (i1 & hs1 & ad1 & E1 & G); [eapply Hok; by left|].
  destruct (tr_scan_txout A hs x o u HA Hi (Hok o u ltac:(by left))) as (x1' & hs1' & ad1' & E' & _ & _ & _ & R). rewrite E1 in E'. injection E' as <- <-.
  destruct (scan_txout_outs A hs x o u i1 ad1 HA Hi (Hok o u ltac:(by left)) E1) as [Ot _].
  cbn [foldl fst snd] in E. cbn [mbind outcome_bind] in E. rewrite E1 in E. cbn [mbind outcome_bind] in E.
  pose proof (proj1 (proj2 (proj1 G))) as Ek. pose proof (kept_grows _ _ _ _ _ _ _ G) as [K1 K2].
  destruct (IH _ i1 _ x' ad' HA (proj1 (proj1 G)) ltac:(intros; eapply Hok; by right) E) as (I0 & I1 & I2 & I3 & I4).
  split; [done|]. split; [by rewrite I1|]. split; [intros k; etrans; [apply K1|apply I2]|].
  assert (∀ k i, si_index_of_spk (ki_inner x) (txo_spk u) = Some (k, i) → i < n_revealed x' k) as Hn.
  { intros k i Hs. rewrite Hs in R. destruct R as [R1 _]. specialize (I2 k). lia. }
  split.
  - intros o' u' k i [[= -> ->]|Hin]%elem_of_cons Hs; [by apply Hn|]. apply (I3 o' u'); [done|].
    pose proof (proj1 (proj2 (proj1 (proj1 (proj1 G))))) as Hg1. pose proof (proj1 (proj2 (proj1 Hi))) as Hg.
    unfold si_index_of_spk in *. apply (si_good_inverse _ _ _ _ Hg) in Hs. apply (si_good_inverse _ _ _ _ Hg1). by apply K2.
  - intros o' u' k i Ho. apply I4 in Ho as [Ho|Ho]; [|by right]. unfold si_txout in *. rewrite Ot in Ho. unfold si_scan_txout in Ho.
    unfold si_index_of_spk in Hn. destruct (si_indices (ki_inner x) !! txo_spk u) as [[k0 j0]|]; [|by left]. cbn [fst si_txouts] in Ho.
    destruct (decide (o' = o)) as [->|Hne]; [|rewrite lookup_insert_ne in Ho by done; by left].
    rewrite lookup_insert in Ho. simplify_eq. right. by apply Hn.
Qed.
End index.

Section tracker.
Context `{!DescEnv} `{Countable K, !Ord K, !OrdLaws K} `{ChainPositionLaws P}.
Implicit Types (x y : Tracker K P) (k : K) (cs e : KChangeSet K P) (s : list (ki_op K)).

(** The wallet revealed what [e] says, and what it has on record of the outputs of [e]. *)
Definition absorbed x e : Prop :=
  (∀ k t, kcs_indices e !! k = Some t → ∃ d, ki_keychains (tr_index x) !! k = Some d ∧ target_of d t < n_revealed (tr_index x) k) ∧
  (∀ o u k i, (o, u) ∈ cs_outs e → si_txout (ki_inner (tr_index x)) o = Some (k, i, u) → i < n_revealed (tr_index x) k).
Definition sound A s x : Prop :=
  (∃ hs, ki_inv A hs (tr_index x)) ∧ (∀ k, known s k → is_Some (ki_keychains (tr_index x) !! k)) ∧ views_agree (cg_chain (tr_cg x)).

Lemma setup_sound A s lim x : good_env A → ki_hist_ok A s → tr_setup s lim = Ret x → sound A s x.
Proof.
  intros HA Hs Ex. unfold tr_setup in *. destruct (ki_run s) as [[[i outs] acc]|] eqn:E; [|done]. injection Ex as <-.
  destruct (hist_run' A s i outs acc HA Hs E) as [hs Hi]. pose proof Hi as (I1 & _). split; [cbn [tr_index]; eauto|]. split; cbn [tr_index tr_cg].
  - intros k Hk. by apply (known_keychain A s hs i outs acc k Hi).
  - intros p t. unfold cg_set_checkpoint_limit, set_checkpoint_limit. cbn [cg_chain]. rewrite prune_ordered, prune_pos. cbn.
    rewrite lookup_empty. split; [by intros ?%elem_of_empty|done].
Qed.
Lemma apply_absorbs A Wo s x e :
  good_env A → sound A s x → cs_fit s Wo e →
  ∃ x', tr_apply_changeset x e = Ret x' ∧ sound A s x' ∧ absorbed x' e ∧ (∀ e', absorbed x e' → absorbed x' e') ∧
    (in_window (tr_index x) e → all_recorded x' e) ∧ (tr_index x' = tr_index x → all_recorded x e).
Proof.
  intros HA ((hs & Hi) & Hk & Hv) [Hm Ho].
  destruct (apply_grows A hs (tr_index x) (kcs_indices e) HA Hi) as (i1 & hs1 & ad1 & E1 & G1 & [O1 O2] & N1).
  { intros k t Hkt. destruct (Hm k t Hkt). auto. }
  pose proof (proj1 (proj2 (proj1 G1))) as Ek. pose proof (kept_grows _ _ _ _ _ _ _ G1) as [K1 K2].
  assert (∀ o u, (o, u) ∈ cs_outs e → SpkIndexSpec.op_ok o) as Hop by (intros o u Hin; by apply (Ho o u)).
  assert (∀ o u u', (o, u) ∈ cs_outs e → (o, u') ∈ cs_outs e → u = u') as Hfun.
  { intros o u u' Ha Hb. destruct (Ho o u Ha) as [_ ->], (Ho o u' Hb) as [_ ->]. done. }
  destruct (grows_scan A (cs_outs e) _ i1 ∅ HA (proj1 (proj1 G1)) Hop) as (i2 & hs2 & ad2 & E2 & G2).
  destruct (scan_found A (cs_outs e) _ i1 ∅ i2 _ HA (proj1 (proj1 G1)) Hop E2) as (S1 & S2 & S3 & S4 & S5).
  pose proof (scan_finds A (cs_outs e) _ i1 ∅ i2 _ HA (proj1 (proj1 G1)) Hop Hfun E2) as Hfinds.
  assert (∀ sp ki, si_index_of_spk (ki_inner (tr_index x)) sp = Some ki → si_index_of_spk (ki_inner i1) sp = Some ki) as Hix.
  { intros sp ki Hs. unfold si_index_of_spk in *.
    apply (si_good_inverse _ _ ki sp (proj1 (proj2 (proj1 (proj1 (proj1 G1)))))). apply K2.
    by apply (si_good_inverse hs _ ki sp (proj1 (proj2 (proj1 Hi)))). }
  exists (mkTr i2 (cg_apply_changeset (tr_cg x) (kcs_cg e))).
  split; [unfold tr_apply_changeset; rewrite E1; cbn [mbind outcome_bind]; unfold ki_scan; fold (cs_outs e); by rewrite E2|].
  split; [|split; [|split; [|split]]].
  - split; [done|]. split; [cbn [tr_index]; intros k Hkk; rewrite S2, Ek; auto|]. cbn [tr_cg cg_apply_changeset cg_chain]. by apply apply_changeset_views.
  - split.
    + intros k t Hkt. destruct (Hm k t Hkt) as [Hkn _]. destruct (Hk k Hkn) as [d Hd]. exists d. cbn [tr_index]. split; [by rewrite S2, Ek|].
      specialize (S3 k). rewrite (N1 k), Hd, Hkt in S3. lia.
    + intros o u k i Hin Hs. cbn [tr_index] in *. apply S5 in Hs as [Hs|Hs]; [|done]. apply (S4 o u k i Hin).
      pose proof (si_good_inv _ _ (proj1 (proj2 (proj1 (proj1 (proj1 G1)))))) as (J1 & _ & J3 & _).
      unfold si_index_of_spk. rewrite J1. apply J3 in Hs. apply hit_tracked in Hs as (sp & Hs & ->). done.
  - intros e' [A1 A2]. split; cbn [tr_index].
    + intros k t Hkt. destruct (A1 k t Hkt) as (d & Hd & Ht). exists d. split; [by rewrite S2, Ek|]. specialize (S3 k). specialize (K1 k). lia.
    + intros o u k i Hin Hs. apply S5 in Hs as [Hs|Hs]; [|done]. unfold si_txout in Hs. rewrite O1 in Hs. specialize (A2 o u k i Hin Hs).
      specialize (S3 k). specialize (K1 k). lia.
  - intros Hw o u k i Hin Hs. cbn [tr_index] in *. apply Hfinds; [done|]. apply Hix. destruct S1 as [hs' S1].
    apply (tracked_is_paid A hs') in Hs; [|done]. rewrite (paid_keychains i2 (tr_index x)) in Hs by congruence.
    apply (paid_tracked A hs); [done|done|done|]. by apply (Hw o u).
  - cbn [tr_index]. intros Eq o u k i Hin Hs. rewrite <- Eq. apply Hfinds; [done|]. by apply Hix.
Qed.
Lemma absorbed_again A s x e :
  sound A s x → absorbed x e → all_recorded x e →
  tr_apply_changeset x e = Ret (mkTr (tr_index x) (cg_apply_changeset (tr_cg x) (kcs_cg e))).
Proof.
  intros ((hs & Hi) & _) [A1 A2] Hr. unfold tr_apply_changeset. rewrite (apply_again A hs _ _ Hi A1). cbn [mbind outcome_bind].
  unfold ki_scan. fold (cs_outs e). rewrite (scan_again A hs _ _ _ Hi); [done|].
  intros o u k i Hin Hs. split; [by apply Hr|]. apply (A2 o u k i Hin). by apply Hr.
Qed.
Lemma replay_absorbs A Wo s l : ∀ x, good_env A → sound A s x → Forall (cs_fit s Wo) l →
  ∃ y, tr_replay x l = Ret y ∧ sound A s y ∧ (∀ e, e ∈ l → absorbed y e) ∧ (∀ e, absorbed x e → absorbed y e).
Proof.
  induction l as [|e l IH]; intros x HA Hs Hf.
  - exists x. split; [done|]. split; [done|]. split; [by intros ? ?%elem_of_nil|done].
  - apply Forall_cons in Hf as [He Hf]. destruct (apply_absorbs A Wo s x e HA Hs He) as (x1 & E1 & Hs1 & Ha1 & Hk1 & _).
    destruct (IH x1 HA Hs1 Hf) as (y & E & Hsy & Hay & Hky). exists y. cbn [tr_replay]. rewrite E1. split; [done|]. split; [done|]. split.
    + intros e' [->|Hin]%elem_of_cons; auto.
    + auto.
Qed.

Lemma entry_twice A Wo s lim y0 l1 e y :
  good_env A → ki_hist_ok A s → tr_setup s lim = Ret y0 → Forall (cs_fit s Wo) (l1 ++ [e]) → txids_once [e] →
  tr_replay y0 (l1 ++ [e]) = Ret y →
  (tr_replay y0 (l1 ++ [e; e]) = Ret y ↔ all_recorded y e) ∧
  (all_recorded y e → ∀ l2, tr_replay y0 (l1 ++ e :: e :: l2) = tr_replay y0 (l1 ++ e :: l2)) ∧
  (∀ x, tr_replay y0 l1 = Ret x → in_window (tr_index x) e → all_recorded y e).
Proof.
  intros HA Hs E0 Hf Ht E. pose proof (setup_sound A s lim y0 HA Hs E0) as Hs0.
  apply Forall_app in Hf as [Hf1 Hfe]. apply Forall_cons in Hfe as [Hfe _].
  destruct (replay_absorbs A Wo s l1 y0 HA Hs0 Hf1) as (x & Ex & Hsx & _).
  destruct (apply_absorbs A Wo s x e HA Hsx Hfe) as (y' & Ey & Hsy & Hay & _ & Hw & _).
  assert (y' = y) as ->. { rewrite tr_replay_snoc, Ex in E. congruence. }
  assert (all_recorded y e → tr_apply_changeset y e = Ret y) as Htw.
  { intros Hr. rewrite (absorbed_again A s y e Hsy Hay Hr). f_equal. pose proof (apply_tr_cg x e y Ey) as Ec.
    destruct y as [iy cy]. cbn [tr_index tr_cg] in *. f_equal. rewrite Ec. apply cg_twice; [apply Hsx|].
    intros t t' Ha Hb. by apply (Ht e e); [left|left|..]. }
  split; [split|split].
  - intros E2. assert (tr_apply_changeset y e = Ret y) as E3.
    { replace (l1 ++ [e; e]) with ((l1 ++ [e]) ++ [e]) in E2 by (by rewrite <- app_assoc). by rewrite tr_replay_snoc, E in E2. }
    destruct (apply_absorbs A Wo s y e HA Hsy Hfe) as (y2 & Ey2 & _ & _ & _ & _ & Hex). rewrite E3 in Ey2. injection Ey2 as <-. by apply Hex.
  - intros Hr. replace (l1 ++ [e; e]) with ((l1 ++ [e]) ++ [e]) by (by rewrite <- app_assoc). rewrite tr_replay_snoc, E. by apply Htw.
  - intros Hr l2. rewrite !tr_replay_app, Ex. cbn [tr_replay]. rewrite Ey. by rewrite (Htw Hr).
  - intros x' Ex'. rewrite Ex in Ex'. injection Ex' as <-. exact Hw.
Qed.

(** A whole log. *)
Lemma log_index A s l : ∀ x, sound A s x → (∀ e, e ∈ l → absorbed x e ∧ all_recorded x e) →
  ∃ y, tr_replay x l = Ret y ∧ tr_index y = tr_index x.
Proof.
  induction l as [|e l IH]; intros x Hs Ha; [eauto|]. destruct (Ha e ltac:(by left)) as [Ha1 Ha2].
  cbn [tr_replay]. rewrite (absorbed_again A s x e Hs Ha1 Ha2).
  set (x1 := mkTr (tr_index x) (cg_apply_changeset (tr_cg x) (kcs_cg e))).
  destruct (IH x1) as (y & Ey & Eiy).
  - destruct Hs as (? & ? & ?). split; [done|]. split; [done|]. cbn [x1 tr_cg cg_apply_changeset cg_chain]. by apply apply_changeset_views.
  - intros e' Hin. destruct (Ha e' ltac:(by right)) as [B1 B2]. split; [exact B1|exact B2].
  - eauto.
Qed.
Lemma log_twice A Wo s y0 l y :
  good_env A → ki_hist_ok A s → tr_setup s None = Ret y0 → Forall (cs_fit s Wo) l → txids_once l →
  tr_replay y0 l = Ret y → (∀ e, e ∈ l → all_recorded y e) → tr_replay y l = Ret y.
Proof.
  intros HA Hs E0 Hf Ht E Hr. pose proof (setup_sound A s None y0 HA Hs E0) as Hs0.
  destruct (replay_absorbs A Wo s l y0 HA Hs0 Hf) as (y' & E' & Hsy & Hay & _). rewrite E in E'. injection E' as <-.
  destruct (log_index A s l y Hsy) as (z & Ez & Eiz); [auto|]. rewrite Ez. f_equal.
  assert (sc_limit (cg_chain (tr_cg y0)) = None) as Hl0.
  { unfold tr_setup in E0. destruct (ki_run s) as [[[i outs] acc]|]; [|done]. by injection E0 as <-. }
  pose proof (merged_cg y0 l (proj2 (proj2 Hs0)) Hl0 Ht y E) as Ec.
  assert (sc_limit (cg_chain (tr_cg y)) = None) as Hl by (rewrite Ec; cbn; by rewrite apply_changeset_limit).
  pose proof (merged_cg y l (proj2 (proj2 Hsy)) Hl Ht z Ez) as Ec2.
  assert (tr_cg z = tr_cg y) as Ecg.
  { rewrite Ec2, Ec. apply cg_twice; [apply Hs0|].
    assert (∀ t, t ∈ ad_tx (cgs_graph (kcs_cg (fold_changes l))) → ∃ a, a ∈ l ∧ t ∈ ad_tx (cgs_graph (kcs_cg a))) as Hin.
    { clear. induction l as [|cs l IH] using rev_ind; intros t; [by intros ?%elem_of_empty|].
      unfold fold_changes. rewrite foldl_app. cbn [foldl]. fold (fold_changes l). cbn [kcs_append kcs_cg cgs_append cgs_graph ad_append ad_tx].
      rewrite elem_of_union. intros [Hin|Hin].
      - destruct (IH t Hin) as (a & Ha & Hta). exists a. split; [by apply elem_of_app; left|done].
      - exists cs. split; [apply elem_of_app; right; by left|done]. }
    intros t t' Hta Htb. destruct (Hin t Hta) as (a & Ha & Ha'), (Hin t' Htb) as (b & Hb & Hb'). by apply (Ht a b). }
  clear -Eiz Ecg. destruct y, z. cbn in Eiz, Ecg. by rewrite Eiz, Ecg.
Qed.
End tracker.
