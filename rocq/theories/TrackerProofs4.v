(** Proofs about the tracker: applying a merged changeset instead of its parts (C44). *)
From Verif Require Export TrackerProofs3.

Section effect.
Context `{!DescEnv} `{Countable K, !Ord K, !OrdLaws K}.
Implicit Types (x y : KIndex K) (k : K) (hs : list (si_op (K * N))) (Wo : OutPoint → TxOut).

Lemma paid_keychains x y k j u : ki_keychains x = ki_keychains y → paid x k j u ↔ paid y k j u.
Proof. unfold paid. by intros ->. Qed.
Lemma paid_fun A x k j k' j' u : good_env A → (∀ k d, ki_keychains x !! k = Some d → A k = Some d) →
  paid x k j u → paid x k' j' u → k = k' ∧ j = j'.
Proof. intros HA Hk (d & Hd & Hj & E) (d' & Hd' & Hj' & E'). eapply (proj2 HA); eauto. Qed.
(** Entries of the index are what the outpoint holds. *)
Definition entries_ok Wo x : Prop :=
  ∀ o k j u, si_txout (ki_inner x) o = Some (k, j, u) → u = Wo o ∧ paid x k j u.
Lemma paid_tracked A hs x k j u :
  good_env A → ki_inv A hs x → paid x k j u → j < n_revealed x k + lookahead_of x k →
  si_index_of_spk (ki_inner x) (txo_spk u) = Some (k, j).
Proof.
  intros HA Hi (d & Hd & Hj & E) Hw. destruct (core_stored A hs x k d (proj1 Hi) Hd) as (n & Hn & _).
  pose proof (proj1 (proj2 Hi) k d n Hd Hn) as Hmin.
  destruct (stored_script A hs x k d n j (proj1 Hi) HA Hd Hn) as (s & _ & Hs & Hs'); [lia|]. congruence.
Qed.
Lemma tracked_is_paid A hs x k j u : ki_inv A hs x →
  si_index_of_spk (ki_inner x) (txo_spk u) = Some (k, j) → paid x k j u.
Proof. intros Hi Hs. destruct (tracked_paid A hs x k j _ Hi Hs) as (d & ? & ? & ?). exists d. done. Qed.

Lemma scan_effect A Wo l : ∀ hs x ad,
  good_env A → ki_inv A hs x → (∀ o u, (o, u) ∈ l → SpkIndexSpec.op_ok o ∧ u = Wo o) →
  (∀ o u k j, (o, u) ∈ l → paid x k j u → j < n_revealed x k + lookahead_of x k) → entries_ok Wo x →
  ∃ x' hs' ad', foldl (λ s ou, '(x, ad) ← s; '(x', ad') ← ki_scan_txout x ou.1 ou.2; Ret (x', da_append ad ad'))
      (Ret (x, ad)) l = Ret (x', da_append ad ad') ∧ grows A x hs x' hs' ad' l ∧ entries_ok Wo x' ∧
    (∀ k v, n_revealed x' k ≤ v ↔ n_revealed x k ≤ v ∧ ∀ o u j, (o, u) ∈ l → paid x k j u → j < v) ∧
    (∀ o, is_Some (si_txout (ki_inner x') o) ↔ is_Some (si_txout (ki_inner x) o) ∨ ∃ u k j, (o, u) ∈ l ∧ paid x k j u).
Proof.
  induction l as [|[o u] l IH]; intros hs x ad HA Hi Hok Hw He.
  - exists x, [], ∅. rewrite da_append_empty_r. split; [done|]. split; [by apply grows_refl|]. split; [done|].
    split; [intros k v; set_solver|intros o; set_solver].
  - destruct (Hok o u) as [Ho Hu]; [by left|].
    destruct (grows_scan_txout A hs x o u HA Hi Ho) as (x1 & hs1 & ad1 & E & G).
    destruct (tr_scan_txout A hs x o u HA Hi Ho) as (x1' & hs1' & ad1' & E' & _ & _ & _ & R). rewrite E in E'. injection E' as <- <-.
    destruct (scan_txout_outs A hs x o u x1 ad1 HA Hi Ho E) as [Ot _].
    pose proof (proj1 (proj2 (proj1 G))) as Ek.
    assert (∀ k j, si_index_of_spk (ki_inner x) (txo_spk u) = Some (k, j) ↔ paid x k j u) as Htp.
    { intros k j. split; [by apply (tracked_is_paid A hs)|]. intros Hp. eapply paid_tracked; [done|done|done|]. eapply Hw; [by left|done]. }
    assert (∀ k, n_revealed x k ≤ n_revealed x1 k) as Hmono.
    { intros k. eapply n_revealed_mono. apply (proj1 G). }
    assert (∀ k v, n_revealed x1 k ≤ v ↔ n_revealed x k ≤ v ∧ ∀ j, paid x k j u → j < v) as Hn1.
    { intros k v. destruct (si_index_of_spk (ki_inner x) (txo_spk u)) as [[k0 j0]|] eqn:Ei.
      - pose proof (proj1 (Htp k0 j0) eq_refl) as Hp0. destruct R as [R1 R2]. destruct (decide (k = k0)) as [->|Hne].
        + rewrite R1. split.
          * intros Hle. split; [lia|]. intros j Hp. apply Htp in Hp. simplify_eq. lia.
          * intros [? Hj]. specialize (Hj j0 Hp0). lia.
        + assert (n_revealed x1 k = n_revealed x k) as -> by (unfold n_revealed; by rewrite R2). split; [|by intros []].
          intros Hle. split; [done|]. intros j Hp. apply Htp in Hp. simplify_eq.
      - destruct R as [_ R]. assert (n_revealed x1 k = n_revealed x k) as -> by (unfold n_revealed; by rewrite R).
        split; [|by intros []]. intros Hle. split; [done|]. intros j Hp. by apply Htp in Hp. }
    assert (∀ o', si_txout (ki_inner x1) o' = match si_index_of_spk (ki_inner x) (txo_spk u) with
        | Some kj => if decide (o' = o) then Some (kj, u) else si_txout (ki_inner x) o'
        | None => si_txout (ki_inner x) o' end) as Ht1.
    { intros o'. unfold si_txout, si_index_of_spk. rewrite Ot. unfold si_scan_txout.
      destruct (si_indices (ki_inner x) !! txo_spk u); [|done]. cbn [fst si_txouts].
      case_decide; [subst; by rewrite lookup_insert|by rewrite lookup_insert_ne]. }
    assert (entries_ok Wo x1) as He1.
    { intros o' k j u' Hin. rewrite (paid_keychains x1 x) by done. rewrite Ht1 in Hin.
      destruct (si_index_of_spk (ki_inner x) (txo_spk u)) as [[k0 j0]|] eqn:Ei; [|by apply He].
      case_decide; [|by apply He]. simplify_eq. split; [done|]. by apply Htp. }
    destruct (IH _ x1 (da_append ad ad1) HA (proj1 (proj1 G))) as (x' & hs' & ad' & E' & G' & He' & Hn' & Ho').
    { intros. eapply Hok. by right. }
    { intros o' u' k j Hin Hp. rewrite (paid_keychains x1 x) in Hp by done.
      assert (lookahead_of x1 k = lookahead_of x k) as -> by (unfold lookahead_of; by rewrite (proj1 (proj2 G))).
      specialize (Hmono k). assert (j < n_revealed x k + lookahead_of x k); [|lia]. eapply Hw; [by right|done]. }
    { done. }
    exists x', (hs1 ++ hs'), (da_append ad1 ad'). split; [|split; [|split; [done|split]]].
    + cbn [foldl fst snd]. cbn [mbind outcome_bind]. rewrite E. cbn [mbind outcome_bind]. by rewrite da_append_assoc.
    + by eapply (grows_trans _ _ _ _ _ _ [(o, u)] _ _ _ l).
    + intros k v. rewrite Hn', Hn1. setoid_rewrite (paid_keychains x1 x); [|done]. split.
      * intros [[H1' H2'] H3']. split; [done|]. intros o' u' j [[= -> ->]|Hin]%elem_of_cons Hp; eauto.
      * intros [H1' H2']. split; [split; [done|]|].
        -- intros j Hp. eapply H2'; [by left|done].
        -- intros o' u' j Hin Hp. eapply H2'; [by right|done].
    + intros o'. rewrite Ho', Ht1. setoid_rewrite (paid_keychains x1 x); [|done]. setoid_rewrite elem_of_cons. 
      destruct (si_index_of_spk (ki_inner x) (txo_spk u)) as [[k0 j0]|] eqn:Ei.
      * pose proof (proj1 (Htp k0 j0) eq_refl) as Hp0. case_decide as Hd; [subst|]; naive_solver.
      * split; [naive_solver|]. intros [?|(u' & k & j & [[= -> ->]|Hin] & Hp)]; [naive_solver| |naive_solver].
        by apply Htp in Hp.
Qed.
End effect.

Section merged.
Context `{!DescEnv} `{Countable K, !Ord K, !OrdLaws K} `{ChainPositionLaws P}.
Implicit Types (x y : Tracker K P) (cs : KChangeSet K P) (l : list (KChangeSet K P)) (k : K) (s : list (ki_op K)).
Implicit Types (hs : list (si_op (K * N))) (Wo : OutPoint → TxOut).

(** What the index must do with a changeset, given what it had. *)
Definition target_le (i : KIndex K) (m : gmap K N) k (v : N) : Prop :=
  ∀ d t, ki_keychains i !! k = Some d → m !! k = Some t → target_of d t < v.
Definition effect A Wo (i : KIndex K) hs (m : gmap K N) (l : list (OutPoint * TxOut)) (i' : KIndex K) : Prop :=
  (∃ hs' ad (l' : list (OutPoint * TxOut)), grows A i hs i' hs' ad l') ∧ entries_ok Wo i' ∧
  (∀ k v, n_revealed i' k ≤ v ↔ n_revealed i k ≤ v ∧ target_le i m k v ∧ ∀ o u j, (o, u) ∈ l → paid i k j u → j < v) ∧
  (∀ o, is_Some (si_txout (ki_inner i') o) ↔ is_Some (si_txout (ki_inner i) o) ∨ ∃ u k j, (o, u) ∈ l ∧ paid i k j u).

Lemma apply_effect A Wo s hs y cs :
  good_env A → ki_inv A hs (tr_index y) → (∀ k, known s k → is_Some (ki_keychains (tr_index y) !! k)) →
  cs_fit s Wo cs → in_window (tr_index y) cs → entries_ok Wo (tr_index y) →
  ∃ y', tr_apply_changeset y cs = Ret y' ∧ tr_cg y' = cg_apply_changeset (tr_cg y) (kcs_cg cs) ∧
    effect A Wo (tr_index y) hs (kcs_indices cs) (cs_outs cs) (tr_index y').
Proof.
  intros HA Hi Hkn [Hm Ho] Hw He.
  destruct (apply_grows A hs (tr_index y) (kcs_indices cs) HA Hi) as (i1 & hs1 & ad1 & E1 & G1 & [O1 O2] & N1).
  { intros k t Hk. destruct (Hm k t Hk). auto. }
  pose proof (proj1 (proj2 (proj1 G1))) as Ek.
  destruct (scan_effect A Wo (cs_outs cs) _ i1 ∅ HA (proj1 (proj1 G1)) Ho) as (i2 & hs2 & ad2 & E2 & G2 & He2 & N2 & T2).
  { intros o u k j Hin Hp. rewrite (paid_keychains i1 (tr_index y)) in Hp by done.
    assert (lookahead_of i1 k = lookahead_of (tr_index y) k) as -> by (unfold lookahead_of; by rewrite (proj1 (proj2 G1))).
    pose proof (n_revealed_mono (tr_index y) i1 ad1 k (proj1 (proj2 (proj2 (proj1 G1))))).
    specialize (Hw o u k j Hin Hp). lia. }
  { intros o k j u. unfold si_txout. rewrite O1. intros Hin. rewrite (paid_keychains i1 (tr_index y)) by done. by apply He. }
  exists (mkTr i2 (cg_apply_changeset (tr_cg y) (kcs_cg cs))). split; [|split; [done|]].
  { unfold tr_apply_changeset. rewrite E1. cbn [mbind outcome_bind]. unfold ki_scan. fold (cs_outs cs). by rewrite E2. }
  cbn [tr_index]. split; [|split; [done|split]].
  - eexists _, _, _. eapply grows_trans; [exact G1|exact G2].
  - intros k v. rewrite N2. setoid_rewrite (paid_keychains i1 (tr_index y)); [|done]. rewrite N1. unfold target_le.
    destruct (ki_keychains (tr_index y) !! k) as [d|]; [|naive_solver].
    destruct (kcs_indices cs !! k) as [t|]; [|naive_solver]. split.
    + intros [H1' H2']. split; [lia|]. split; [|done]. intros ? ? [= <-] [= <-]. lia.
    + intros (H1' & H2' & H3'). specialize (H2' d t eq_refl eq_refl). split; [lia|done].
  - intros o. rewrite T2. setoid_rewrite (paid_keychains i1 (tr_index y)); [|done]. unfold si_txout. by rewrite O1.
Qed.
Lemma effect_sim A Wo i hs m (l : list (OutPoint * TxOut)) i1 i2 :
  good_env A → ki_inv A hs i → effect A Wo i hs m l i1 → effect A Wo i hs m l i2 → sim i1 i2 ∧ ∀ o, si_txout (ki_inner i1) o = si_txout (ki_inner i2) o.
Proof.
  intros HA Hi ((h1 & a1 & l1 & G1) & He1 & N1 & T1) ((h2 & a2 & l2 & G2) & He2 & N2 & T2). split.
  - eapply (sim_grow A hs hs i i); [done|done|done|exact G1|exact G2|]. apply n_revealed_eq. intros k.
    apply N.le_antisymm; [apply N1, N2, N.le_refl|apply N2, N1, N.le_refl].
  - intros o. specialize (T1 o). specialize (T2 o). rewrite <- T2 in T1. clear T2.
    destruct (si_txout (ki_inner i1) o) as [[[k j] u]|] eqn:Eo1.
    + destruct (proj1 T1) as [[[k' j'] u'] Eo2]; [eauto|]. apply He1 in Eo1 as [-> Hp1]. rewrite Eo2. apply He2 in Eo2 as [-> Hp2].
      rewrite (paid_keychains i1 i) in Hp1 by apply G1. rewrite (paid_keychains i2 i) in Hp2 by apply G2.
      destruct (paid_fun A i k j k' j' _ HA (proj1 (proj1 Hi)) Hp1 Hp2) as [-> ->]. done.
    + destruct (si_txout (ki_inner i2) o) eqn:Eo2; [|done]. destruct (proj2 T1) as [? ?]; [eauto|done].
Qed.
Lemma effect_trans A Wo i hs hs1 m1 (l1 : list (OutPoint * TxOut)) i1 m2 (l2 : list (OutPoint * TxOut)) i2 m (l : list (OutPoint * TxOut)) :
  effect A Wo i hs m1 l1 i1 → (∃ a (l' : list (OutPoint * TxOut)), grows A i hs i1 hs1 a l') → effect A Wo i1 (hs ++ hs1) m2 l2 i2 →
  m = da_append m1 m2 → (∀ o u, (o, u) ∈ l ↔ (o, u) ∈ l1 ∨ (o, u) ∈ l2) → effect A Wo i hs m l i2.
Proof.
  intros (_ & He1 & N1 & T1) (a1 & l1' & G1) ((h2 & a2 & l2' & G2) & He2 & N2 & T2) -> Hl.
  pose proof (proj1 (proj2 (proj1 G1))) as Ek. split; [|split; [done|split]].
  - eexists _, _, _. eapply grows_trans; [exact G1|exact G2].
  - intros k v. rewrite N2, N1. setoid_rewrite (paid_keychains i1 i); [|done]. setoid_rewrite Hl.
    assert (target_le i (da_append m1 m2) k v ↔ target_le i m1 k v ∧ target_le i1 m2 k v) as ->.
    { unfold target_le. rewrite Ek, da_append_lookup. destruct (ki_keychains i !! k) as [d|]; [|naive_solver].
      assert (∀ t t', target_of d (N.max t t') = N.max (target_of d t) (target_of d t')) as Hmax.
      { intros t t'. unfold target_of. by destruct (has_wildcard d). }
      destruct (m1 !! k) as [t1|], (m2 !! k) as [t2|]; cbn [option_union_with union_with option_union_with].
      2: { split; [intros Ht; split; [done|by intros]|by intros []]. }
      2: { split; [intros Ht; split; [by intros|done]|by intros []]. }
      2: { split; [intros _; split; by intros|by intros []]. }
      split.
      - intros Ht. specialize (Ht d _ eq_refl eq_refl). rewrite Hmax in Ht. split; intros ? ? [= <-] [= <-]; lia.
      - intros [Ha Hb] ? ? [= <-] [= <-]. specialize (Ha d _ eq_refl eq_refl). specialize (Hb d _ eq_refl eq_refl). rewrite Hmax. lia. }
    split.
    + intros ((Ha & Hb & Hc) & Hd & He). split_and!; try done. intros o u j [Hin|Hin]; eauto.
    + intros (Ha & [Hb Hc] & Hd). split_and!; try done; eauto.
  - intros o. rewrite T2, T1. setoid_rewrite (paid_keychains i1 i); [|done]. setoid_rewrite Hl. naive_solver.
Qed.
Lemma append_outs a b : (∀ o u u', (o, u) ∈ cs_outs a → (o, u') ∈ cs_outs b → u = u') →
  ∀ o u, (o, u) ∈ cs_outs (kcs_append a b : KChangeSet K P) ↔ (o, u) ∈ cs_outs a ∨ (o, u) ∈ cs_outs b.
Proof.
  intros Hc o u. unfold cs_outs, ad_txouts in *. cbn [kcs_append kcs_cg cgs_append cgs_graph ad_append ad_tx ad_txout].
  rewrite !elem_of_app, !elem_of_list_bind. setoid_rewrite elem_of_bset_list. setoid_rewrite elem_of_union. rewrite !elem_of_bmap_list.
  assert ((ad_txout (cgs_graph (kcs_cg b)) ∪ ad_txout (cgs_graph (kcs_cg a))) !! o = Some u ↔
    ad_txout (cgs_graph (kcs_cg a)) !! o = Some u ∨ ad_txout (cgs_graph (kcs_cg b)) !! o = Some u) as ->; [|naive_solver].
  specialize (Hc o). rewrite lookup_union_Some_raw. split; [naive_solver|]. intros [Ha|Hb]; [|by left].
  destruct (ad_txout (cgs_graph (kcs_cg b)) !! o) as [u'|] eqn:Eb; [|by right]. left. f_equal. symmetry. apply (Hc u u').
  - apply elem_of_app. right. by apply elem_of_bmap_list.
  - apply elem_of_app. right. by apply elem_of_bmap_list.
Qed.
Lemma append_indices a b : kcs_indices (kcs_append a b : KChangeSet K P) = da_append (kcs_indices a) (kcs_indices b).
Proof. done. Qed.

Lemma tr_replay_snoc y l cs : tr_replay y (l ++ [cs]) = match tr_replay y l with Panic => Panic | Ret y1 => tr_apply_changeset y1 cs end.
Proof. rewrite tr_replay_app. destruct (tr_replay y l) as [y1|]; [|done]. cbn. by destruct (tr_apply_changeset y1 cs). Qed.

Lemma window_mono (i i' : KIndex K) cs :
  ki_keychains i' = ki_keychains i → ki_lookahead i' = ki_lookahead i → (∀ k, n_revealed i k ≤ n_revealed i' k) → in_window i cs → in_window i' cs.
Proof.
  intros Ek El Hn Hw o u k j Hin Hp. rewrite (paid_keychains i' i) in Hp by done. specialize (Hw o u k j Hin Hp). specialize (Hn k).
  unfold lookahead_of in *. rewrite El. lia.
Qed.
Lemma merged_index A Wo s hs y l :
  good_env A → ki_inv A hs (tr_index y) → (∀ k, known s k → is_Some (ki_keychains (tr_index y) !! k)) →
  Forall (cs_fit s Wo) l → Forall (in_window (tr_index y)) l → entries_ok Wo (tr_index y) →
  cs_fit s Wo (fold_changes l) ∧ in_window (tr_index y) (fold_changes l) ∧
  ∃ y1, tr_replay y l = Ret y1 ∧
    effect A Wo (tr_index y) hs (kcs_indices (fold_changes l)) (cs_outs (fold_changes l)) (tr_index y1).
Proof.
  intros HA Hi Hkn Hf Hw He. induction l as [|cs l IH] using rev_ind.
  - split; [|split].
    + split; [intros k t Hk; change ((∅ : gmap K N) !! k = Some t) in Hk; by rewrite lookup_empty in Hk|]. by intros o u Hin%elem_of_nil.
    + by intros o u k j Hin%elem_of_nil.
    + exists y. split; [done|]. split; [eexists _, _, _; by apply grows_refl|]. split; [done|]. split.
      * intros k v. split; [|by intros []]. intros Hle. split; [done|]. split; [intros d t _ Hk; change ((∅ : gmap K N) !! k = Some t) in Hk; by rewrite lookup_empty in Hk|]. by intros o u j Hin%elem_of_nil.
      * intros o. split; [by left|]. intros [?|(u & k & j & Hin%elem_of_nil & _)]; done.
  - apply Forall_app in Hf as [Hf Hfc%Forall_inv]. apply Forall_app in Hw as [Hw Hwc%Forall_inv].
    destruct (IH Hf Hw) as (Hfm & Hwm & y1 & E1 & Ef). clear IH.
    assert (fold_changes (l ++ [cs]) = kcs_append (fold_changes l) cs) as EF by (unfold fold_changes; by rewrite foldl_app).
    assert (∀ o u, (o, u) ∈ cs_outs (kcs_append (fold_changes l) cs) ↔ (o, u) ∈ cs_outs (fold_changes l) ∨ (o, u) ∈ cs_outs cs) as Hou.
    { apply append_outs. intros o u u' Hin Hin'. destruct (proj2 Hfm o u Hin) as [_ ->]. by destruct (proj2 Hfc o u' Hin') as [_ ->]. }
    pose proof Ef as ((h1 & a1 & l1 & G1) & He1 & N1 & T1). pose proof (proj1 (proj2 (proj1 G1))) as Ek.
    destruct (apply_effect A Wo s _ y1 cs HA (proj1 (proj1 G1))) as (y2 & E2 & _ & Ef2); [|done| |done|].
    { rewrite Ek. done. }
    { eapply window_mono; [exact Ek|apply G1| |done]. intros k. eapply n_revealed_mono. apply (proj1 G1). }
    rewrite EF. split; [|split].
    + split.
      * intros k t. rewrite append_indices, da_append_lookup.
        destruct (kcs_indices (fold_changes l) !! k) as [t1|] eqn:Ea, (kcs_indices cs !! k) as [t2|] eqn:Eb; intros [= <-].
        -- destruct (proj1 Hfm k t1 Ea), (proj1 Hfc k t2 Eb). split; [done|lia].
        -- by apply (proj1 Hfm).
        -- by apply (proj1 Hfc).
      * intros o u [Hin|Hin]%Hou; [by apply Hfm|by apply Hfc].
    + intros o u k j [Hin|Hin]%Hou; [by apply (Hwm o u)|by apply (Hwc o u)].
    + exists y2. split; [by rewrite tr_replay_snoc, E1|]. eapply effect_trans; [exact Ef|eauto|exact Ef2|apply append_indices|exact Hou].
Qed.
Lemma merged_cg y l : views_agree (cg_chain (tr_cg y)) → sc_limit (cg_chain (tr_cg y)) = None → txids_once l → ∀ y1,
  tr_replay y l = Ret y1 → tr_cg y1 = cg_apply_changeset (tr_cg y) (kcs_cg (fold_changes l)).
Proof.
  intros Hv Hl. induction l as [|cs l IH] using rev_ind; intros Ht y1 E.
  - injection E as <-. cbn. unfold cg_apply_changeset. cbn [cgs_default cgs_chain cgs_graph].
    rewrite apply_additions_default, apply_default_chain, prune_none by done. by destruct (tr_cg y).
  - rewrite tr_replay_snoc in E. destruct (tr_replay y l) as [y0|] eqn:E0; [|done]. apply apply_tr_cg in E. rewrite E.
    rewrite (IH) with (y1 := y0); [|intros a b t t' Ha Hb; apply (Ht a b); by apply elem_of_app; left|done].
    unfold fold_changes. rewrite foldl_app. cbn [foldl]. fold (fold_changes l). cbn [kcs_append kcs_cg]. rewrite cgs_append_apply; [done|done|done|].
    assert (∀ t, t ∈ ad_tx (cgs_graph (kcs_cg (fold_changes l))) → ∃ a, a ∈ l ∧ t ∈ ad_tx (cgs_graph (kcs_cg a))) as Hin.
    { clear. induction l as [|cs l IH] using rev_ind; intros t; [by intros ?%elem_of_empty|].
      unfold fold_changes. rewrite foldl_app. cbn [foldl]. fold (fold_changes l). cbn [kcs_append kcs_cg cgs_append cgs_graph ad_append ad_tx].
      rewrite elem_of_union. intros [Hin|Hin].
      - destruct (IH t Hin) as (a & Ha & Hta). exists a. split; [by apply elem_of_app; left|done].
      - exists cs. split; [apply elem_of_app; right; by left|done]. }
    assert (∀ t, t ∈ ad_tx (cgs_graph (kcs_cg (fold_changes l))) ∪ ad_tx (cgs_graph (kcs_cg cs)) → ∃ a, a ∈ l ++ [cs] ∧ t ∈ ad_tx (cgs_graph (kcs_cg a))) as Hin2.
    { intros t [Ht'|Ht']%elem_of_union.
      - destruct (Hin t Ht') as (a & Ha & Hta). exists a. split; [by apply elem_of_app; left|done].
      - exists cs. split; [apply elem_of_app; right; by left|done]. }
    intros t t' Hta Htb Etx. destruct (Hin2 t Hta) as (a & Ha & Hta'), (Hin2 t' Htb) as (b & Hb & Htb'). by eapply (Ht a b).
Qed.
Lemma setup_entries A Wo s i outs acc :
  good_env A → ki_hist_ok A s → ki_run s = Ret (i, outs, acc) → (∀ o u, (o, u) ∈ hist_outs s → u = Wo o) → entries_ok Wo i.
Proof.
  intros HA Hs E HW o k j u Ho. destruct (hist_run' A s i outs acc HA Hs E) as [hs Hi]. pose proof Hi as (I1 & _ & _ & _ & I5 & _).
  pose proof (si_good_inv hs _ (proj1 (proj2 (proj1 I1)))) as (J1 & J2 & J3 & _).
  assert (hit hs (k, j) o u) as Hh by (by apply J3).
  assert (u = Wo o) as Hu.
  { apply HW. rewrite <- I5. destruct Hh as (h1 & l & h2 & -> & Hin & _). unfold scans. apply elem_of_list_bind. exists (SiScan l).
    split; [done|]. apply elem_of_app. right. by left. }
  split; [done|]. apply (tracked_is_paid A hs); [done|]. unfold si_index_of_spk. rewrite J1.
  destruct (hit_tracked _ _ _ _ Hh) as (sp & Ht & ->). done.
Qed.
Lemma merged_ok A Wo s y l :
  good_env A → ki_hist_ok A s → tr_setup s None = Ret y → (∀ o u, (o, u) ∈ hist_outs s → u = Wo o) →
  Forall (cs_fit s Wo) l → Forall (in_window (tr_index y)) l → txids_once l →
  ∃ y1 y2, tr_replay y l = Ret y1 ∧ tr_apply_changeset y (fold_changes l) = Ret y2 ∧
    same_index (tr_index y1) (tr_index y2) ∧ same_outputs (tr_index y1) (tr_index y2) ∧ tr_cg y1 = tr_cg y2.
Proof.
  intros HA Hs E HW Hf Hw Ht. pose proof E as E0. unfold tr_setup in E0. destruct (ki_run s) as [[[i outs] acc]|] eqn:Er; [|done]. injection E0 as Ey.
  destruct (hist_run' A s i outs acc HA Hs Er) as [hs Hi]. pose proof Hi as (I1 & _).
  pose proof (setup_entries A Wo s i outs acc HA Hs Er HW) as He.
  assert (tr_index y = i) as Ei by (by rewrite <- Ey). rewrite <- Ei in *.
  assert (∀ k, known s k → is_Some (ki_keychains (tr_index y) !! k)) as Hkn.
  { intros k. apply (known_keychain A s hs _ outs acc k Hi). }
  destruct (merged_index A Wo s hs y l HA I1 Hkn Hf Hw He) as (Hfm & Hwm & y1 & E1 & Ef1).
  destruct (apply_effect A Wo s hs y (fold_changes l) HA I1 Hkn Hfm Hwm He) as (y2 & E2 & Ec2 & Ef2).
  destruct (effect_sim A Wo _ hs _ _ _ _ HA I1 Ef1 Ef2) as [Hsim Ho]. exists y1, y2. split; [done|]. split; [done|].
  pose proof Ef1 as ((h1 & a1 & l1 & G1) & _). pose proof Ef2 as ((h2 & a2 & l2 & G2) & _).
  pose proof (sim_indices A _ _ _ _ (proj1 (proj1 G1)) (proj1 (proj1 G2)) Hsim) as Hix. split; [|split; [done|]].
  - destruct Hsim as (S1 & S2 & S3 & S4).
    unfold same_index, last_revealed_index, lookahead_of, si_spk_at, si_index_of_spk. rewrite S1, S2, S3, S4, Hix. done.
  - rewrite Ec2. apply (merged_cg y l); [| |done|done]; rewrite <- Ey; cbn.
    + intros p t. cbn. rewrite lookup_empty. split; [by intros ?%elem_of_empty|done].
    + done.
Qed.
End merged.

Section reachable.
Context `{!DescEnv} `{Countable K, !Ord K, !OrdLaws K} `{ChainPositionLaws P}.
Implicit Types (x y : Tracker K P) (k : K) (s : list (ki_op K)) (h : list (tr_op K P)).

Lemma balance_reachable A W s l h x0 x l1 ho trust tip lst :
  good_env A → ki_hist_ok A s → tr_setup s l = Ret x0 → Forall (tr_op_ok A W s) h → Forall tr_cbt_op h → l ≠ Some 0%nat →
  tr_run x0 h = Ret (x, l1) → hash_order (cg_graph (tr_cg x)) ho → tip_is x tip → tip < u32_max → NoDup lst →
  (∀ ki f, (ki, f) ∈ lst ↔ owned x ki f ∧ fto_spent_by f = None) → sumN (value_of <$> lst) ≤ u64_max →
  ∃ b, balance ho x trust = Ret b ∧
    (∀ c, amount b c = sumN (value_of <$> filter (λ kf, categorize trust tip kf = c) lst)) ∧
    bal_total b = Ret (sumN (value_of <$> lst)) ∧
    trusted_spendable b = Ret (sumN (value_of <$> filter (λ kf, categorize trust tip kf = ConfirmedFunds ∨ categorize trust tip kf = TrustedPending) lst)).
Proof.
  intros HA Hs Ex Hh Hcb Hl E Hho Ht Hlt Hn Hlst Hsum. apply balance_ok; try done.
  - apply (run_reachable A W s l h x0 x l1); done.
  - by apply (run_below_tip A W s l h x0 x l1).
Qed.
Lemma balance_at_reachable A W s l h x0 x l1 ho n lst :
  good_env A → ki_hist_ok A s → tr_setup s l = Ret x0 → Forall (tr_op_ok A W s) h →
  tr_run x0 h = Ret (x, l1) → hash_order (cg_graph (tr_cg x)) ho →
  (∀ ki f, owned x ki f → fto_on_coinbase f = true → ∃ c, pos_height (fto_pos f) = Confirmed c) →
  n < u32_max → NoDup lst → (∀ ki f, (ki, f) ∈ lst ↔ owned x ki f ∧ spendable_by n (ki, f) = true) →
  sumN (value_of <$> lst) ≤ u64_max → balance_at ho x n = Ret (sumN (value_of <$> lst)).
Proof.
  intros HA Hs Ex Hh E Hho Hcb Hlt Hn Hlst Hsum. apply balance_at_ok; try done.
  apply (run_reachable A W s l h x0 x l1); done.
Qed.
Lemma replay_view A W s l h x0 ho :
  good_env A → ki_hist_ok A s → tr_setup s l = Ret x0 → Forall (tr_op_ok A W s) h →
  Forall (λ op, ¬ offers_outputs op ∧ ¬ sets_limit op) h →
  ∃ x l1 y, tr_run x0 h = Ret (x, l1) ∧ tr_replay x0 l1 = Ret y ∧ tr_cg x = tr_cg y ∧
    full_txouts ho x = full_txouts ho y ∧ full_utxos ho x = full_utxos ho y ∧
    (∀ trust, balance ho x trust = balance ho y trust) ∧ ∀ n, balance_at ho x n = balance_at ho y n.
Proof.
  intros HA Hs Ex Hh Hq. destruct (replay_ok A W s l l h x0 x0 HA Hs Ex Ex Hh) as (x & l1 & y & E1 & E2 & _ & _ & Ho & Hc).
  exists x, l1, y. split; [done|]. split; [done|].
  assert (tr_cg x = tr_cg y) as Ec by (apply Hc; [done|]; eapply Forall_impl; [exact Hq|]; by intros ? []).
  split; [done|]. apply same_view; [|done]. apply Ho. eapply Forall_impl; [exact Hq|]. by intros ? [].
Qed.
End reachable.

Section reachable2.
Context `{!DescEnv} `{Countable K, !Ord K, !OrdLaws K} `{ChainPositionLaws P}.
Implicit Types (x y : Tracker K P) (k : K) (s : list (ki_op K)) (h : list (tr_op K P)).
Lemma listing_reachable A W s l h x0 x l1 ho :
  good_env A → ki_hist_ok A s → tr_setup s l = Ret x0 → Forall (tr_op_ok A W s) h → tr_run x0 h = Ret (x, l1) →
  hash_order (cg_graph (tr_cg x)) ho →
  (∀ ki f, (ki, f) ∈ full_txouts ho x ↔ owned x ki f) ∧ NoDup ((λ kf, fto_outpoint kf.2) <$> full_txouts ho x) ∧
  (∀ ki f, (ki, f) ∈ full_utxos ho x ↔ owned x ki f ∧ fto_spent_by f = None).
Proof.
  intros HA Hs Ex Hh E Hho. destruct (run_reachable A W s l h x0 x l1 HA Hs Ex Hh E) as [Hok _].
  split; [intros ki f; by apply full_txouts_owned|]. split; [apply full_txouts_nodup|].
  intros ki f. unfold full_utxos. rewrite elem_of_list_filter, full_txouts_owned by done. cbn [snd]. tauto.
Qed.
Lemma run_consistent A W s l h x0 x l1 :
  good_env A → ki_hist_ok A s → tr_setup s l = Ret x0 → Forall (tr_op_ok A W s) h → tr_run x0 h = Ret (x, l1) →
  cg_ok (tr_cg x) ∧ (Forall tr_cbt_op h → l ≠ Some 0%nat → confirmed_below_tip (cg_chain (tr_cg x))).
Proof.
  intros HA Hs Ex Hh E. split; [apply (run_reachable A W s l h x0 x l1); done|].
  intros Hc Hl. by apply (run_below_tip A W s l h x0 x l1).
Qed.
End reachable2.
