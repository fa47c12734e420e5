(** From a scan of an honest server to the outputs and funds of the wallet (C90, C91). *)
From Verif Require Export TrackerProofs5 SyncProofs2 RestoreSpec.

Section scanning.
Context `{!DescEnv} `{Countable K, !Ord K, !OrdLaws K}.
Implicit Types (i x : KIndex K) (k : K) (hs : list (si_op (K * N))).

(** Every output offered whose script is stored is in the index afterwards. *)
Lemma scan_finds A l : ∀ hs i ad i' ad',
  good_env A → ki_inv A hs i → (∀ o u, (o, u) ∈ l → SpkIndexSpec.op_ok o) → (∀ o u u', (o, u) ∈ l → (o, u') ∈ l → u = u') →
  foldl (λ s ou, '(x, ad) ← s; '(x', ad') ← ki_scan_txout x ou.1 ou.2; Ret (x', da_append ad ad')) (Ret (i, ad)) l = Ret (i', ad') →
  ∀ o u ki, (o, u) ∈ l → si_index_of_spk (ki_inner i) (txo_spk u) = Some ki → si_txout (ki_inner i') o = Some (ki, u).
Proof.
  induction l as [|[o u] l IH]; intros hs i ad i' ad' HA Hi Hok Hfun E; [by intros ??? ?%elem_of_nil|].
  destruct (grows_scan_txout A hs i o u HA Hi) as (i1 & hs1 & ad1 & E1 & G); [eapply Hok; by left|].
  destruct (scan_txout_outs A hs i o u i1 ad1 HA Hi (Hok o u ltac:(by left)) E1) as [Ot _].
  cbn [foldl fst snd] in E. cbn [mbind outcome_bind] in E. rewrite E1 in E. cbn [mbind outcome_bind] in E.
  pose proof (IH _ i1 _ i' ad' HA (proj1 (proj1 G)) ltac:(intros; eapply Hok; by right)
    ltac:(intros; eapply Hfun; right; done) E) as I.
  destruct (scan_marks A l _ i1 _ i' ad' HA (proj1 (proj1 G)) ltac:(intros; eapply Hok; by right) E) as (M1 & _).
  destruct (kept_grows _ _ _ _ _ _ _ G) as [_ Hkept].
  assert (∀ s ki, si_index_of_spk (ki_inner i) s = Some ki → si_index_of_spk (ki_inner i1) s = Some ki) as Hix.
  { intros s ki Hs. unfold si_index_of_spk in *.
    apply (si_good_inverse _ _ ki s (proj1 (proj2 (proj1 (proj1 (proj1 G)))))). apply Hkept.
    by apply (si_good_inverse hs _ ki s (proj1 (proj2 (proj1 Hi)))). }
  intros o' u' ki Hin Hs. destruct (decide (o' ∈ l.*1)) as [Hl|Hl].
  - apply elem_of_list_fmap in Hl as ([o2 u2] & -> & Hl). cbn [fst] in *.
    assert (u' = u2) as -> by (eapply Hfun; [exact Hin|by right]). apply I; [done|]. by apply Hix.
  - apply elem_of_cons in Hin as [[= -> ->]|Hin].
    + rewrite M1 by done. unfold si_txout. rewrite Ot. unfold si_scan_txout. unfold si_index_of_spk in Hs. rewrite Hs.
      cbn [fst si_txouts]. by rewrite lookup_insert.
    + exfalso. apply Hl. apply elem_of_list_fmap. by exists (o', u').
Qed.
(** Without lookahead, scanning reveals nothing. *)
Definition tight i : Prop := ∀ k d n, ki_keychains i !! k = Some d → stored i k n → n ≤ n_revealed i k.
Lemma scan_tight A l : ∀ hs i ad i' ad',
  good_env A → ki_inv A hs i → (∀ o u, (o, u) ∈ l → SpkIndexSpec.op_ok o) → tight i → ki_lookahead i = ∅ →
  foldl (λ s ou, '(x, ad) ← s; '(x', ad') ← ki_scan_txout x ou.1 ou.2; Ret (x', da_append ad ad')) (Ret (i, ad)) l = Ret (i', ad') →
  (∀ k, n_revealed i' k = n_revealed i k) ∧ tight i' ∧ ki_lookahead i' = ∅ ∧
  ∀ o k j u, si_txout (ki_inner i') o = Some (k, j, u) → si_txout (ki_inner i) o = Some (k, j, u) ∨ j < n_revealed i k.
Proof.
  induction l as [|[o u] l IH]; intros hs i ad i' ad' HA Hi Hok Ht Hl E.
  { injection E as <- <-. split_and!; try done. by left. }
  destruct (grows_scan_txout A hs i o u HA Hi) as (i1 & hs1 & ad1 & E1 & G); [eapply Hok; by left|].
  destruct (tr_scan_txout A hs i o u HA Hi (Hok o u ltac:(by left))) as (x1' & hs1' & ad1' & E' & _ & _ & _ & R). rewrite E1 in E'. injection E' as <- <-.
  destruct (scan_txout_outs A hs i o u i1 ad1 HA Hi (Hok o u ltac:(by left)) E1) as [Ot _].
  cbn [foldl fst snd] in E. cbn [mbind outcome_bind] in E. rewrite E1 in E. cbn [mbind outcome_bind] in E.
  pose proof (proj1 (proj2 (proj1 G))) as Ek.
  assert (∀ k j, si_index_of_spk (ki_inner i) (txo_spk u) = Some (k, j) → j < n_revealed i k) as Hj.
  { intros k j Hs. destruct (tracked_is_paid A hs i k j u Hi Hs) as (d & Hd & _).
    destruct (core_stored A hs i k d (proj1 Hi) Hd) as (n & Hn & _). specialize (Ht k d n Hd Hn).
    assert (j < n); [|lia]. apply Hn. apply (si_good_inverse hs _ (k, j) (txo_spk u) (proj1 (proj2 (proj1 Hi)))) in Hs.
    exists (txo_spk u). exact Hs. }
  assert (∀ k, n_revealed i1 k = n_revealed i k) as Hn1.
  { intros k. destruct (si_index_of_spk (ki_inner i) (txo_spk u)) as [[k0 j0]|] eqn:Ei.
    - destruct R as [R1 R2]. specialize (Hj k0 j0 eq_refl). destruct (decide (k = k0)) as [->|Hne]; [rewrite R1; lia|].
      unfold n_revealed. by rewrite R2.
    - destruct R as [_ R]. unfold n_revealed. by rewrite R. }
  assert (ki_lookahead i1 = ∅) as Hl1 by (rewrite (proj1 (proj2 G)); done).
  assert (tight i1) as Ht1.
  { intros k d n Hd Hn. rewrite Ek in Hd. destruct (core_stored A hs i k d (proj1 Hi) Hd) as (m & Hm & _).
    pose proof (proj2 (proj2 G) k d m Hd Hm) as Hg. specialize (Ht k d m Hd Hm).
    assert (n = N.max m (N.min (cap d) (n_revealed i1 k + lookahead_of i k))) as -> by (by eapply stored_fun).
    rewrite Hn1. unfold lookahead_of. rewrite Hl, lookup_empty. cbn. lia. }
  destruct (IH _ i1 _ i' ad' HA (proj1 (proj1 G)) ltac:(intros; eapply Hok; by right) Ht1 Hl1 E) as (I1 & I2 & I3 & I4).
  split; [intros k; by rewrite I1|]. split; [done|]. split; [done|].
  intros o' k j u' Ho'. apply I4 in Ho' as [Ho'|Ho']; [|right; by rewrite <- Hn1].
  unfold si_txout in Ho'. rewrite Ot in Ho'. unfold si_scan_txout in Ho'. unfold si_index_of_spk in Hj.
  destruct (si_indices (ki_inner i) !! txo_spk u) as [[k0 j0]|]; [|by left]. cbn [fst si_txouts] in Ho'.
  destruct (decide (o' = o)) as [->|Hne]; [|rewrite lookup_insert_ne in Ho' by done; by left].
  rewrite lookup_insert in Ho'. simplify_eq. right. by apply Hj.
Qed.
End scanning.

Lemma additions_from g u o v : keyed u → (o, v) ∈ ad_txouts (determine_additions g u) → get_txout u o = Some v ∧ get_tx g (op_txid o) = None.
Proof.
  intros Hk. unfold ad_txouts. rewrite elem_of_app, elem_of_list_bind. intros [(t & Hin & Ht)|Hin].
  - apply elem_of_list_fmap in Hin as ([j v'] & [= -> ->] & Hin). apply elem_of_enum_outs in Hin.
    apply elem_of_bset_list, determine_tx in Ht as (i & Hi & Hg). pose proof (Hk _ _ Hi) as <-.
    unfold get_txout. cbn [op_txid op_vout]. by rewrite Hi.
  - apply elem_of_bmap_list in Hin. rewrite determine_txout in Hin.
    destruct (get_tx g (op_txid o)); [done|]. destruct (tg_txs u !! op_txid o) as [[t|outs]|] eqn:Eu; try done.
    destruct (outs !! op_vout o) as [w|] eqn:Eo; [|done]. unfold get_txout. rewrite Eu. case_decide; by simplify_eq.
Qed.
Lemma additions_full g u o v t : keyed u → get_tx u (op_txid o) = Some t → tx_out t !! N.to_nat (op_vout o) = Some v →
  get_tx g (op_txid o) = None → (o, v) ∈ ad_txouts (determine_additions g u).
Proof.
  intros Hk Hu Hv Hg. apply get_tx_Some in Hu. unfold ad_txouts. rewrite elem_of_app, elem_of_list_bind. left. exists t. split.
  - apply elem_enum. split; [|done]. symmetry. by apply Hk.
  - apply elem_of_bset_list, determine_tx. eauto.
Qed.
Lemma get_txout_full u o t : get_tx u (op_txid o) = Some t → get_txout u o = tx_out t !! N.to_nat (op_vout o).
Proof. intros Ht%get_tx_Some. unfold get_txout. by rewrite Ht. Qed.

Section applied.
Context `{!DescEnv} `{Countable K, !Ord K, !OrdLaws K} `{ChainPositionLaws P}.
Implicit Types (x : Tracker K P) (k : K) (sc : KScan K P).

(** What applying an update does to the index. *)
Lemma apply_index A hs x (m : gmap K N) (cs : CgChangeSet P) :
  good_env A → ki_inv A hs (tr_index x) →
  (∀ k j, m !! k = Some j → is_Some (ki_keychains (tr_index x) !! k) ∧ j ≤ bip32_max) →
  (∀ o u, (o, u) ∈ ad_txouts (cgs_graph cs) → SpkIndexSpec.op_ok o) →
  (∀ o u u', (o, u) ∈ ad_txouts (cgs_graph cs) → (o, u') ∈ ad_txouts (cgs_graph cs) → u = u') →
  ∃ x' hs', tr_apply_changeset x (mkKCS (new_indices x m) cs) = Ret x' ∧ tr_cg x' = cg_apply_changeset (tr_cg x) cs ∧
    ki_inv A hs' (tr_index x') ∧ ki_keychains (tr_index x') = ki_keychains (tr_index x) ∧
    (∀ o, (∀ u, (o, u) ∉ ad_txouts (cgs_graph cs)) → si_txout (ki_inner (tr_index x')) o = si_txout (ki_inner (tr_index x)) o) ∧
    (∀ o u k i, (o, u) ∈ ad_txouts (cgs_graph cs) → paid (tr_index x) k i u →
       i < n_revealed (tr_index x) k ∨ (∃ j, m !! k = Some j ∧ i ≤ j) → si_txout (ki_inner (tr_index x')) o = Some (k, i, u)) ∧
    (∀ o k i u, si_txout (ki_inner (tr_index x')) o = Some (k, i, u) → si_txout (ki_inner (tr_index x)) o = Some (k, i, u) ∨
       (o, u) ∈ ad_txouts (cgs_graph cs) ∧ paid (tr_index x) k i u) ∧
    (tight (tr_index x) → ki_lookahead (tr_index x) = ∅ → tight (tr_index x') ∧ ki_lookahead (tr_index x') = ∅ ∧
      ∀ o k i u, si_txout (ki_inner (tr_index x')) o = Some (k, i, u) → si_txout (ki_inner (tr_index x)) o = Some (k, i, u) ∨
        i < n_revealed (tr_index x) k ∨ ∃ j, m !! k = Some j ∧ i ≤ j) ∧
    (∀ s ki, si_index_of_spk (ki_inner (tr_index x)) s = Some ki → si_index_of_spk (ki_inner (tr_index x')) s = Some ki) ∧
    (∀ o u ki, (o, u) ∈ ad_txouts (cgs_graph cs) → si_index_of_spk (ki_inner (tr_index x)) (txo_spk u) = Some ki →
       si_txout (ki_inner (tr_index x')) o = Some (ki, u)).
Proof.
  intros HA Hi Hm Hok Hfun. set (l := ad_txouts (cgs_graph cs)) in *.
  assert (∀ k j, new_indices x m !! k = Some j ↔ m !! k = Some j ∧ n_revealed (tr_index x) k ≤ j) as Hnew.
  { intros k j. unfold new_indices, last_revealed_index, n_revealed. rewrite map_filter_lookup_Some. cbn [fst snd].
    destruct (ki_revealed (tr_index x) !! k) as [v|]; [rewrite N.ltb_lt|]; split; intros [? ?]; split; try done; lia. }
  destruct (apply_grows A hs (tr_index x) (new_indices x m) HA Hi) as (i1 & hs1 & ad1 & E1 & G1 & [O1 O2] & N1).
  { intros k j [Hk _]%Hnew. by apply Hm. }
  destruct (grows_scan A l _ i1 ∅ HA (proj1 (proj1 G1)) Hok) as (i2 & hs2 & ad2 & E2 & G2).
  pose proof (proj1 (proj2 (proj1 G1))) as Ek1. pose proof (proj1 (proj2 (proj1 G2))) as Ek2.
  exists (mkTr i2 (cg_apply_changeset (tr_cg x) cs)). eexists. split.
  { unfold tr_apply_changeset. cbn [kcs_indices kcs_cg]. rewrite E1. cbn [mbind outcome_bind]. unfold ki_scan. fold l. by rewrite E2. }
  split; [done|]. cbn [tr_index]. split; [apply G2|]. split; [congruence|].
  destruct (scan_marks A l _ i1 _ i2 _ HA (proj1 (proj1 G1)) Hok E2) as (M1 & _ & M3).
  pose proof (scan_finds A l _ i1 _ i2 _ HA (proj1 (proj1 G1)) Hok Hfun E2) as M2.
  destruct (kept_grows _ _ _ _ _ _ _ G1) as [_ Hkept1]. destruct (kept_grows _ _ _ _ _ _ _ G2) as [_ Hkept2].
  assert (∀ s ki, si_index_of_spk (ki_inner (tr_index x)) s = Some ki → si_index_of_spk (ki_inner i1) s = Some ki) as Hix.
  { intros s ki Hs. unfold si_index_of_spk in *.
    apply (si_good_inverse _ _ ki s (proj1 (proj2 (proj1 (proj1 (proj1 G1)))))). apply Hkept1.
    by apply (si_good_inverse hs _ ki s (proj1 (proj2 (proj1 Hi)))). }
  assert (∀ s ki, si_index_of_spk (ki_inner i1) s = Some ki → si_index_of_spk (ki_inner i2) s = Some ki) as Hix2.
  { intros s ki Hs. unfold si_index_of_spk in *.
    apply (si_good_inverse _ _ ki s (proj1 (proj2 (proj1 (proj1 (proj1 G2)))))). apply Hkept2.
    by apply (si_good_inverse _ _ ki s (proj1 (proj2 (proj1 (proj1 (proj1 G1)))))). }
  split; [|split; [|split; [|split; [|split]]]].
  - intros o Hno. rewrite M1; [unfold si_txout; by rewrite O1|]. intros ([o' u] & -> & Hin)%elem_of_list_fmap. by apply (Hno u).
  - intros o u k i Hin Hp Hor. apply M2; [done|]. eapply (paid_tracked A _ i1); [done|apply G1|by rewrite (paid_keychains i1 (tr_index x))|].
    rewrite N1. destruct Hp as (d & Hd & Hc & _). rewrite Hd.
    pose proof (n_revealed_mono (tr_index x) i1 ad1 k (proj1 (proj2 (proj2 (proj1 G1))))) as Hmono. rewrite N1, Hd in Hmono.
    destruct Hor as [Hlt|(j & Hj & Hle)]; [lia|].
    destruct (new_indices x m !! k) as [j'|] eqn:En.
    + apply Hnew in En as [En Hn]. assert (j' = j) as -> by congruence. unfold target_of. unfold cap in Hc. destruct (has_wildcard d); lia.
    + destruct (N.le_gt_cases (n_revealed (tr_index x) k) j) as [Hn|Hn]; [|lia].
      assert (new_indices x m !! k = Some j) by (by apply Hnew). congruence.
  - intros o k i u Ho. apply M3 in Ho as [Ho|[Hin Hp]]; [left; unfold si_txout in *; by rewrite <- O1|].
    right. split; [done|]. cbn in Hp. by rewrite (paid_keychains (tr_index x) i1).
  - intros Ht Hl.
    assert (tight i1) as Ht1.
    { intros k d n Hd Hn. rewrite Ek1 in Hd. destruct (core_stored A hs (tr_index x) k d (proj1 Hi) Hd) as (m0 & Hm0 & _).
      pose proof (proj2 (proj2 G1) k d m0 Hd Hm0) as Hg. specialize (Ht k d m0 Hd Hm0).
      pose proof (n_revealed_mono (tr_index x) i1 ad1 k (proj1 (proj2 (proj2 (proj1 G1))))) as Hmono.
      assert (n = N.max m0 (N.min (cap d) (n_revealed i1 k + lookahead_of (tr_index x) k))) as -> by (by eapply stored_fun).
      unfold lookahead_of. rewrite Hl, lookup_empty. cbn. lia. }
    assert (ki_lookahead i1 = ∅) as Hl1 by (rewrite (proj1 (proj2 G1)); done).
    destruct (scan_tight A l _ i1 _ i2 _ HA (proj1 (proj1 G1)) Hok Ht1 Hl1 E2) as (_ & T2 & T3 & T4).
    split; [done|]. split; [done|]. intros o k i u Ho. pose proof (M3 o (k, i) u Ho) as Hm3.
    apply T4 in Ho as [Ho|Ho]; [left; unfold si_txout in *; by rewrite <- O1|].
    destruct Hm3 as [Hm3|[Hin Hp]]; [left; unfold si_txout in *; by rewrite <- O1|]. right.
    cbn [fst snd] in Hp. rewrite (paid_keychains i1 (tr_index x)) in Hp by done. destruct Hp as (d & Hd & Hc & _).
    rewrite N1, Hd in Ho. destruct (new_indices x m !! k) as [j|] eqn:En; [|by left].
    apply Hnew in En as [En Hn]. destruct (N.lt_ge_cases i (n_revealed (tr_index x) k)) as [Hlt|Hge]; [by left|]. right. exists j.
    split; [done|]. unfold target_of in Ho. destruct (has_wildcard d); lia.
  - intros s ki Hs. by apply Hix2, Hix.
  - intros o u ki Hin Hs. apply M2; [done|]. by apply Hix.
Qed.
End applied.

Section owned.
Context `{!DescEnv} `{Countable K, !Ord K} `{ChainPositionLaws P}.
Lemma owned_full ho (x : Tracker K P) ki f :
  cg_ok (tr_cg x) → hash_order (cg_graph (tr_cg x)) ho → owned x ki f → cg_full_txout ho (tr_cg x) (fto_outpoint f) = Some f.
Proof.
  intros Hok Hho (_ & t & E1 & E2 & E3 & E4 & E5). apply full_txout_exact; [done|done|]. exists t. split_and!; try done.
  destruct (fto_spent_by f) as [[p s]|].
  - destruct E5 as (E5 & t' & E6 & E7 & E8). symmetry. apply spent_by_exact; [done|done|]. split; [done|]. split; [done|]. by exists t'.
  - destruct (cg_spent_by ho (tr_cg x) (fto_outpoint f)) as [[p s]|] eqn:E; [|done].
    apply spent_by_exact in E as (E6 & E7 & t' & E8 & E9); [|done..]. destruct E7. eapply E5; [by exists p|done|done].
Qed.
End owned.

Section synced.
Context `{!DescEnv} `{Countable K, !Ord K, !OrdLaws K} `{ChainPositionLaws P}.
Context (A : K → option Desc) (HA : good_env A).
Lemma entry_paid hs i o k j u : ki_inv A hs i → si_txout (ki_inner i) o = Some (k, j, u) → paid i k j u.
Proof.
  clear HA. intros Hi Ho. pose proof (si_good_inv hs _ (proj1 (proj2 (proj1 Hi)))) as (J1 & J2 & J3 & _).
  assert (hit hs (k, j) o u) as Hh by (by apply J3).
  apply (tracked_is_paid A hs); [done|]. unfold si_index_of_spk. rewrite J1.
  destruct (hit_tracked _ _ _ _ Hh) as (sp & Ht & ->). done.
Qed.

Context (W : Txid → list OutPoint) (w : World) (wpos : Txid → P).
Context (Hw : world_ok w) (Hsane : world_sane W w) (Hwpos : ∀ t, pos_height (wpos t) = w_position w t).
Context (Htx : ∀ t a, w_tx w t = Some a → tx_ok a).
Context (x : Tracker K P) (hs : list (si_op (K * N))) (F : K → N → Prop) (sc : KScan K P).

(** What a scan comes back with, whichever way it was made. *)
Record scan_ok : Prop := {
  so_ok : cg_ok (ks_update sc);
  so_con : connects w (sc_cps (cg_chain (tr_cg x))) (sc_cps (cg_chain (ks_update sc)));
  so_pos : ∀ t p, sc_pos (cg_chain (ks_update sc)) !! t = Some p → p = wpos t ∧ is_Some (w_tx w t);
  so_tx : ∀ t a, get_tx (cg_graph (ks_update sc)) t = Some a → w_tx w t = Some a;
  so_whole : ∀ t m, tg_txs (cg_graph (ks_update sc)) !! t ≠ Some (Partial m);
  so_found : ∀ k i u t, F k i → paid (tr_index x) k i u → t ∈ w_history w (txo_spk u) → in_chain (ks_update sc) t;
  so_max : ∀ k i, F k i → ∃ j, ks_active sc !! k = Some j ∧ i ≤ j;
  so_back : ∀ k i j u, ks_active sc !! k = Some j → i ≤ j → paid (tr_index x) k i u → w_history w (txo_spk u) ≠ [] → F k i;
  so_active : ∀ k j, ks_active sc !! k = Some j → is_Some (ki_keychains (tr_index x) !! k) ∧ j ≤ bip32_max
}.
Context (Hso : scan_ok) (Hi : ki_inv A hs (tr_index x)) (Hcg : cg_ok (tr_cg x)) (Hin : inputs_by_txid W (cg_graph (tr_cg x))).
Context (Hbm : below_max (cg_chain (tr_cg x))) (Hcbt : confirmed_below_tip (cg_chain (tr_cg x))).
Context (Htrue : local_seen w wpos (in_chain (ks_update sc)) (cg_chain (tr_cg x))) (Hag : agrees w x).

Lemma world_null o t u : w_tx w (op_txid o) = Some t → tx_out t !! N.to_nat (op_vout o) = Some u → o ≠ null_outpoint.
Proof using Htx.
  intros Ht Hu ->. apply Htx in Ht as [_ Hl]. apply lookup_lt_Some in Hu. cbn [null_outpoint op_vout] in Hu. lia.
Qed.
Lemma update_txout o u : get_txout (cg_graph (ks_update sc)) o = Some u →
  ∃ t, get_tx (cg_graph (ks_update sc)) (op_txid o) = Some t ∧ w_tx w (op_txid o) = Some t ∧ tx_out t !! N.to_nat (op_vout o) = Some u.
Proof using Hso.
  unfold get_txout. destruct (tg_txs (cg_graph (ks_update sc)) !! op_txid o) as [[t|m]|] eqn:E; [| |done].
  - intros Hu. assert (get_tx (cg_graph (ks_update sc)) (op_txid o) = Some t) as Hg by (by apply get_tx_Some).
    exists t. split; [done|]. split; [by apply (so_tx Hso)|done].
  - by apply (so_whole Hso) in E.
Qed.
Lemma update_range : graph_in_range (cg_graph (ks_update sc)).
Proof using Hw Htx Hso.
  intros o u Ho%all_txouts_exact. apply update_txout in Ho as (t & Ht & Hwt & Hu). apply Htx in Hwt as Hok.
  destruct Hok as [H1' H2']. apply lookup_lt_Some in Hu. split.
  - destruct (wo_tx w Hw _ _ Hwt) as [<- _]. done.
  - rewrite <- (N2Nat.id (op_vout o)), <- (N2Nat.id u32_max). lia.
Qed.

Lemma synced ho ord :
  hash_fun_ok ho → ord ≡ₚ map_to_list (sc_pos (cg_chain (ks_update sc))) →
  ∃ x' cs hs', tr_apply_update (ho (cg_graph (tr_cg x))) x sc ord = Ret (Ok (x', cs)) ∧
    cg_apply_update (ho (cg_graph (tr_cg x))) (tr_cg x) (ks_update sc) ord = Ret (Ok (tr_cg x', kcs_cg cs)) ∧
    cg_ok (tr_cg x') ∧ ki_inv A hs' (tr_index x') ∧ ki_keychains (tr_index x') = ki_keychains (tr_index x) ∧
    (∀ t p, sc_pos (cg_chain (ks_update sc)) !! t = Some p → sc_pos (cg_chain (tr_cg x')) !! t = Some p) ∧
    (∀ t p h, sc_pos (cg_chain (tr_cg x')) !! t = Some p → pos_height p = Confirmed h → p = wpos t) ∧
    (∀ t, get_tx (cg_graph (tr_cg x')) t = match get_tx (cg_graph (tr_cg x)) t with Some a => Some a | None => get_tx (cg_graph (ks_update sc)) t end) ∧
    (∀ o t u k i, ¬ overlooked x o → w_tx w (op_txid o) = Some t → tx_out t !! N.to_nat (op_vout o) = Some u → F k i → paid (tr_index x) k i u →
       si_txout (ki_inner (tr_index x')) o = Some (k, i, u)) ∧
    (∀ o k i u, si_txout (ki_inner (tr_index x')) o = Some (k, i, u) → si_txout (ki_inner (tr_index x)) o = Some (k, i, u) ∨
       get_txout (cg_graph (ks_update sc)) o = Some u ∧ paid (tr_index x) k i u) ∧
    (tight (tr_index x) → ki_lookahead (tr_index x) = ∅ → tight (tr_index x') ∧ ki_lookahead (tr_index x') = ∅ ∧
      ∀ o k i u, si_txout (ki_inner (tr_index x')) o = Some (k, i, u) → si_txout (ki_inner (tr_index x)) o = Some (k, i, u) ∨
        i < n_revealed (tr_index x) k ∨ ∃ j, ks_active sc !! k = Some j ∧ i ≤ j) ∧
    (∀ o t, get_tx (cg_graph (tr_cg x)) (op_txid o) = Some t → si_txout (ki_inner (tr_index x')) o = si_txout (ki_inner (tr_index x)) o) ∧
    (∀ s ki, si_index_of_spk (ki_inner (tr_index x)) s = Some ki → si_index_of_spk (ki_inner (tr_index x')) s = Some ki) ∧
    (∀ o t u ki, get_tx (cg_graph (tr_cg x)) (op_txid o) = None → get_tx (cg_graph (tr_cg x')) (op_txid o) = Some t →
       tx_out t !! N.to_nat (op_vout o) = Some u → si_index_of_spk (ki_inner (tr_index x)) (txo_spk u) = Some ki →
       si_txout (ki_inner (tr_index x')) o = Some (ki, u)).
Proof using All.
  intros Hho Hord. pose proof (so_ok Hso) as Hu.
  assert (inputs_by_txid W (cg_graph (ks_update sc))) as Huin.
  { intros t a Ha. apply (ws_inputs W w Hsane). by apply (so_tx Hso). }
  destruct (sync_accepted W w wpos Hsane Hwpos (tr_cg x) (ks_update sc) Hcg Hin Hbm Hcbt Htrue Hu Huin (so_con Hso) (so_pos Hso)
    (ho (cg_graph (tr_cg x))) ord (Hho _) Hord) as (cg' & cs & E & Hp1 & Hp2).
  pose proof (update_conflicts (ho (cg_graph (tr_cg x))) (tr_cg x) (ks_update sc) ord Hcg Hu (Hho _) Hord) as Hc.
  destruct (cg_step_ok W (tr_cg x) (CgUpdate ho (ks_update sc) ord) Hcg Hin) as (cg1 & E1 & Hok1 & _); [done|by intros ??? [= <- <- <-]|].
  cbn [cg_step] in E1. rewrite E in E1. injection E1 as <-.
  unfold cg_apply_update in E. destruct (cg_determine_changeset _ _ _ _) as [[cs1|]|] eqn:Ed; [|done..]. injection E as <- <-.
  assert (cgs_graph cs1 = determine_additions (cg_graph (tr_cg x)) (cg_graph (ks_update sc))) as Had.
  { destruct (determine_changeset _ _ _) as [[ccs|e]|]; [|done|done].
    destruct Hc as [(e & Hc & _)|(cs' & Hc & Hres)]; [congruence|]. injection Hc as <-. by destruct Hres as (_ & -> & _). }
  assert (keyed (cg_graph (ks_update sc))) as Hku by apply Hu.
  destruct (apply_index A hs x (ks_active sc) cs1 HA Hi (so_active Hso)) as (x' & hs' & Ea & Ecg & I1 & I2 & I3 & I4 & I5 & I6 & I7 & I8).
  { rewrite Had. apply additions_in_range; [done|apply update_range]. }
  { rewrite Had. intros o u u' [E1 _]%additions_from [E2 _]%additions_from; [congruence|done|done]. }
  exists x', (mkKCS (new_indices x (ks_active sc)) cs1), hs'. split.
  { unfold tr_apply_update, tr_determine_changeset. rewrite Ed. by rewrite Ea. }
  split; [unfold cg_apply_update; rewrite Ed; cbn [kcs_cg]; by rewrite Ecg|].
  rewrite Ecg. split; [done|]. split; [done|]. split; [done|]. split; [done|]. split; [done|].
  assert (∀ t, get_tx (cg_graph (cg_apply_changeset (tr_cg x) cs1)) t =
    match get_tx (cg_graph (tr_cg x)) t with Some a => Some a | None => get_tx (cg_graph (ks_update sc)) t end) as Hget.
  { intros t. cbn [cg_apply_changeset cg_graph]. rewrite Had.
    change (apply_additions (cg_graph (tr_cg x)) (determine_additions (cg_graph (tr_cg x)) (cg_graph (ks_update sc))))
      with (tg_apply_update (cg_graph (tr_cg x)) (cg_graph (ks_update sc))).1. by apply update_get_tx. }
  split; [done|]. rewrite Had in I3, I4, I5, I8. split; [|split; [|split; [|split; [|split]]]].
  - intros o t u k i Hix Ht Hu' HF Hp. destruct (get_tx (cg_graph (tr_cg x)) (op_txid o)) as [a|] eqn:Ea'.
    + assert (a = t) as -> by (by eapply (proj1 Hag)). destruct (si_txout (ki_inner (tr_index x)) o) as [[[k' i'] u']|] eqn:Ho.
      2:{ destruct Hix. split; [by exists t|done]. }
      rewrite I3. 2:{ intros v [_ Hn]%additions_from; [congruence|done]. }
      rewrite Ho. pose proof (proj2 Hag o (k', i') u' t Ho Ht) as Hu2. assert (u' = u) as -> by congruence.
      apply (entry_paid hs) in Ho; [|done]. destruct (paid_fun A (tr_index x) k' i' k i u HA (proj1 (proj1 Hi)) Ho Hp) as [-> ->]. done.
    + eapply I4; [|done|right; by apply (so_max Hso)].
      destruct (so_found Hso k i u (op_txid o) HF Hp) as [p Hpos].
      { eapply wo_creates; [done|done|]. by eapply elem_of_list_lookup_2. }
      destruct (proj1 (proj2 (proj2 Hu)) (op_txid o)) as [a Ha]; [by exists p|].
      pose proof (so_tx Hso _ _ Ha) as Ha2. assert (a = t) as -> by congruence. by eapply additions_full.
  - intros o k i u [Ho|[Ho Hp]]%I5; [by left|]. right. apply additions_from in Ho as [Ho _]; done.
  - exact I6.
  - intros o t Ht. apply I3. intros v [_ Hn]%additions_from; [congruence|done].
  - exact I7.
  - intros o t u ki Hn Ht Hu' Hs. rewrite Hget, Hn in Ht. apply I8; [|done]. by eapply additions_full.
Qed.

(** An output of the world that the wallet has afterwards, if the scan has its transaction and the one that spends it. *)
Lemma found_owned ho ord x' cs o t u ki :
  hash_fun_ok ho → ord ≡ₚ map_to_list (sc_pos (cg_chain (ks_update sc))) →
  tr_apply_update (ho (cg_graph (tr_cg x))) x sc ord = Ret (Ok (x', cs)) →
  w_tx w (op_txid o) = Some t → tx_out t !! N.to_nat (op_vout o) = Some u → si_txout (ki_inner (tr_index x')) o = Some (ki, u) →
  in_chain (ks_update sc) (op_txid o) → (∀ s b, w_tx w s = Some b → o ∈ tx_in b → in_chain (ks_update sc) s) →
  ∃ f, owned x' ki f ∧ fto_outpoint f = o ∧ fto_txout f = u ∧ true_output w wpos f ∧ known_spend w wpos f.
Proof using All.
  intros Hho Hord E Ht Hu Hix Hc Hspends.
  destruct (synced ho ord Hho Hord) as (x1 & cs1 & hs' & E1 & _ & Hok & _ & _ & P1 & P2 & G & I & _). rewrite E in E1. injection E1 as <- <-.
  pose proof (world_null _ _ _ Ht Hu) as Hnull.
  assert (∀ s b, get_tx (cg_graph (tr_cg x')) s = Some b → w_tx w s = None ∨ w_tx w s = Some b) as Hsame.
  { intros s b. rewrite G. destruct (get_tx (cg_graph (tr_cg x)) s) as [a|] eqn:Ea.
    - intros [= <-]. destruct (w_tx w s) as [b|] eqn:Eb; [right|by left]. f_equal. symmetry. by apply (proj1 Hag s).
    - intros Hb%(so_tx Hso). by right. }
  assert (∀ s, in_chain (ks_update sc) s → sc_pos (cg_chain (tr_cg x')) !! s = Some (wpos s)) as Hpos.
  { intros s [p Hps]. pose proof (so_pos Hso _ _ Hps) as [-> _]. by apply P1. }
  assert (∀ s b, in_chain (ks_update sc) s → w_tx w s = Some b → get_tx (cg_graph (tr_cg x')) s = Some b) as Hget.
  { intros s b Hs Hb. destruct (proj1 (proj2 (proj2 Hok)) s) as [a Ha]; [exists (wpos s); by apply Hpos|].
    destruct (Hsame s a Ha); congruence. }
  set (h' := ho (cg_graph (tr_cg x'))). assert (hash_order (cg_graph (tr_cg x')) h') as Hh' by apply Hho.
  set (f := mkFullTxOut o u (wpos (op_txid o)) (cg_spent_by h' (tr_cg x') o) (is_coin_base t)).
  assert (∀ s b, w_tx w s = Some b → o ∈ tx_in b → cg_spent_by h' (tr_cg x') o = Some (wpos s, s)) as Hsp.
  { intros s b Hb Ho. assert (in_chain (ks_update sc) s) as Hs by (by eapply Hspends).
    apply spent_by_exact; [done|done|]. split; [by apply Hpos|]. split; [done|]. exists b. split; [by apply Hget|done]. }
  exists f. split; [|split; [done|split; [done|split]]].
  - split; [by exists u|]. exists t. cbn [f fto_outpoint fto_pos fto_txout fto_on_coinbase fto_spent_by].
    split; [by apply Hget|]. split; [by apply Hpos|]. split; [done|]. split; [done|].
    destruct (cg_spent_by h' (tr_cg x') o) as [[p s]|] eqn:Es.
    + apply spent_by_exact in Es as (E1 & E2 & t' & E3 & E4); [|done..]. split; [done|]. by exists t'.
    + intros s' t' Hs' Ht' Ho. exfalso. destruct Hs' as [p Hps].
      assert (cg_spent_by h' (tr_cg x') o = Some (p, s')) as E2; [|congruence]. apply spent_by_exact; [done|done|]. split; [done|]. split; [done|]. by exists t'.
  - exists t. done.
  - unfold known_spend, true_spend. cbn [f fto_outpoint fto_spent_by].
    destruct (cg_spent_by h' (tr_cg x') o) as [[p s]|] eqn:Es.
    + pose proof Es as Es0. apply spent_by_exact in Es as (E1 & E2 & t' & E3 & E4); [|done..].
      destruct (Hsame s t' E3) as [Hn|Hs].
      * right. exists p, s. split; [done|]. split; [done|].
        assert (∀ s' b, w_tx w s' = Some b → o ∉ tx_in b) as Hno.
        { intros s' b Hb Ho. specialize (Hsp s' b Hb Ho). congruence. }
        split; [|intros (s' & b & Hb & Ho); by eapply Hno].
        destruct (pos_height p) as [hh|] eqn:Ep; [|done]. exfalso.
        pose proof (P2 s p hh E1 Ep) as ->. 
        rewrite Hwpos in Ep. unfold w_position in Ep. destruct (w_height w s) as [h2|] eqn:Eh; [|done].
        destruct (ws_block W w Hsane s h2 Eh). congruence.
      * left. assert (Some (p, s) = Some (wpos s, s)) as Heq by (pose proof (Hsp s t' Hs E4); congruence). split; [congruence|]. by exists t'.
    + left. intros (s' & b & Hb & Ho). specialize (Hsp s' b Hb Ho). congruence.
Qed.

(** The outputs of the world at the scripts [F], afterwards. *)
Lemma synced_finds ho ord x' cs o t u k i :
  hash_fun_ok ho → ord ≡ₚ map_to_list (sc_pos (cg_chain (ks_update sc))) → ¬ overlooked x o →
  tr_apply_update (ho (cg_graph (tr_cg x))) x sc ord = Ret (Ok (x', cs)) →
  w_tx w (op_txid o) = Some t → tx_out t !! N.to_nat (op_vout o) = Some u → F k i → paid (tr_index x) k i u →
  ∃ f, owned x' (k, i) f ∧ fto_outpoint f = o ∧ fto_txout f = u ∧ true_output w wpos f ∧ known_spend w wpos f.
Proof using All.
  intros Hho Hord Hix E Ht Hu HF Hp.
  destruct (synced ho ord Hho Hord) as (x1 & cs1 & hs' & E1 & _ & _ & _ & _ & _ & _ & _ & I & _). rewrite E in E1. injection E1 as <- <-.
  eapply found_owned; [done|done|done|done|done|by eapply I| |].
  - eapply (so_found Hso); [done|done|]. eapply wo_creates; [done|done|]. by eapply elem_of_list_lookup_2.
  - intros s b Hb Ho. eapply (so_found Hso); [done|done|]. eapply wo_spends; done.
Qed.

(** A wallet that knew nothing knows the outputs of the world at the scripts [F], and no others. *)
Lemma synced_fresh ho ord x' cs ki f :
  hash_fun_ok ho → ord ≡ₚ map_to_list (sc_pos (cg_chain (ks_update sc))) →
  (∀ t, get_tx (cg_graph (tr_cg x)) t = None) → (∀ o, si_txout (ki_inner (tr_index x)) o = None) →
  (∀ k, n_revealed (tr_index x) k = 0) → tight (tr_index x) → ki_lookahead (tr_index x) = ∅ →
  tr_apply_update (ho (cg_graph (tr_cg x))) x sc ord = Ret (Ok (x', cs)) →
  owned x' ki f ↔ F ki.1 ki.2 ∧ paid (tr_index x) ki.1 ki.2 (fto_txout f) ∧ true_output w wpos f ∧ true_spend w wpos f.
Proof using All.
  intros Hho Hord Hng Hni Hnr Hti Hnl E. destruct ki as [k i]. cbn [fst snd].
  destruct (synced ho ord Hho Hord) as (x1 & cs1 & hs' & E1 & _ & Hok & _ & _ & P1 & P2 & G & I & I2 & I3 & _). rewrite E in E1. injection E1 as <- <-.
  destruct (I3 Hti Hnl) as (_ & _ & I4). clear I3.
  assert (∀ o, ¬ overlooked x o) as Hix. { intros o [[t Hg] _]. by rewrite Hng in Hg. }
  assert (∀ f1 f2, owned x' (k, i) f1 → owned x' (k, i) f2 → fto_outpoint f1 = fto_outpoint f2 → f1 = f2) as Hone.
  { intros f1 f2 Hf1%(owned_full (ho (cg_graph (tr_cg x')))) Hf2%(owned_full (ho (cg_graph (tr_cg x')))) Heq; [|done..]. congruence. }
  assert (∀ s b, get_tx (cg_graph (tr_cg x')) s = Some b → w_tx w s = Some b) as Hsame.
  { intros s b. rewrite G, Hng. apply (so_tx Hso). }
  split.
  - intros Hown. pose proof Hown as ((u & Hu) & t & Ht & Hp & Ho & Hcb & Hs).
    destruct (I2 _ _ _ _ Hu) as [Hbad|[Hgt Hpd]]; [by rewrite Hni in Hbad|].
    apply update_txout in Hgt as (t' & Ht' & Hwt & Hu').
    assert (t' = t) as -> by (apply Hsame in Ht; congruence). assert (u = fto_txout f) as -> by congruence.
    assert (F k i) as HF.
    { destruct (I4 _ _ _ _ Hu) as [Hbad|[Hbad|(j & Hj & Hij)]]; [by rewrite Hni in Hbad|rewrite Hnr in Hbad; lia|].
      eapply (so_back Hso); [done..|]. intros Hnil.
      assert (op_txid (fto_outpoint f) ∈ w_history w (txo_spk (fto_txout f))) as Hmem.
      { eapply wo_creates; [done|done|]. by eapply elem_of_list_lookup_2. }
      rewrite Hnil in Hmem. by apply elem_of_nil in Hmem. }
    destruct (synced_finds ho ord x' cs (fto_outpoint f) t (fto_txout f) k i) as (f2 & O1 & O2 & O3 & O4 & O5); [done..|].
    assert (f2 = f) as -> by (by apply Hone). split; [done|]. split; [done|]. split; [done|].
    destruct O5 as [O5|(p & s & O5 & O6 & _)]; [done|]. exfalso. rewrite O5 in Hs. destruct Hs as (_ & t' & Hs & _). apply Hsame in Hs. congruence.
  - intros (HF & Hpd & (t & Hwt & Hu & Hp & Hcb) & Hsp).
    destruct (synced_finds ho ord x' cs (fto_outpoint f) t (fto_txout f) k i) as (f2 & O1 & O2 & O3 & O4 & O5); [done..|].
    enough (f = f2) as -> by done.
    destruct O4 as (t2 & Ht2 & Hu2 & Hp2 & Hcb2). rewrite O2 in *. 
    assert (t2 = t) as -> by congruence. destruct f as [o u p sp cb], f2 as [o2 u2 p2 sp2 cb2]. cbn in *. subst. f_equal.
    destruct O5 as [O5|(p & s & O5 & O6 & O7)].
    + unfold true_spend in Hsp, O5. cbn in *. destruct sp as [[p s]|], sp2 as [[p2 s2]|]; [| | |done].
      * destruct Hsp as (-> & a & Ha & Ha'), O5 as (-> & b & Hb & Hb'). assert (s2 = s) as -> by (eapply (ws_conflict W w Hsane); [done|done|]; eexists; split; [by eapply world_null|]; done). done.
      * destruct Hsp as (-> & a & Ha & Ha'). destruct O5. by exists s, a.
      * destruct O5 as (-> & a & Ha & Ha'). destruct Hsp. by exists s2, a.
    + exfalso. cbn in O5. subst sp2. destruct O1 as (_ & t' & _ & _ & _ & _ & _ & a & Ha & _). apply Hsame in Ha. congruence.
Qed.
End synced.
