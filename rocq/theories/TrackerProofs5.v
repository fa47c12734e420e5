(** Proofs about the tracker: what inserting a transaction does to the wallet's outputs (C83). *)
From Verif Require Export TrackerProofs4.

Section insert.
Context `{!DescEnv} `{Countable K, !Ord K, !OrdLaws K} `{ChainPositionLaws P}.
Implicit Types (x y : Tracker K P) (i : KIndex K) (cg : ChainGraph P) (f : FullTxOut P) (ki : K * N) (k : K)
  (ho : OutPoint → list Txid) (hs : list (si_op (K * N))).

Lemma ret_bind {X Y} (o : outcome X) (g : X → outcome Y) v : (o ≫= g) = Ret v → ∃ a, o = Ret a ∧ g a = Ret v.
Proof. destruct o; [|done]. eauto. Qed.

(** ** The chain graph *)
Lemma tip_update_invalid (c : SparseChain P) s (m : gmap Txid P) : below_max c → invalid_from c (tip_update c s m) = None.
Proof.
  intros Hb. destruct (invalid_from c (tip_update c s m)) as [f|] eqn:E; [|done].
  apply invalid_from_Some in E as [E _]; [|done]. by apply tip_update_not_beyond in E.
Qed.

Lemma insert_pos ho cg t p cg' cs :
  cg_ok cg → below_max (cg_chain cg) → hash_order (cg_graph cg) ho → get_tx (cg_graph cg) (txid t) = None →
  (∀ s t' o, in_chain cg s → get_tx (cg_graph cg) s = Some t' → o ∈ tx_in t → o ∈ tx_in t' → o = null_outpoint) →
  cg_insert_tx ho cg t p = Ret (Ok (cg', cs)) →
  (∀ j, sc_pos (cg_chain cg') !! j = if decide (j = txid t) then Some p else sc_pos (cg_chain cg) !! j) ∧
  (∀ j, get_tx (cg_graph cg') j = if decide (j = txid t) then Some t else get_tx (cg_graph cg) j) ∧
  cgs_graph cs = tg_insert_tx_preview (cg_graph cg) t.
Proof.
  intros Hok Hbm Hho Hnew Hfree E. pose proof (insert_graph _ _ _ _ _ _ E Hok Hho) as Hg.
  assert (∀ j, ¬ conflicts_with cg t j) as Hnc.
  { intros j [Hj Hr]. induction Hr as [j [vin (Hne & o & ts & Ho & Hn & Hts & Hin)]|j l Hr IH Hk Hc].
    - apply Hn. eapply (Hfree j); [done|done|by eapply elem_of_list_lookup_2|done].
    - apply IH. unfold in_chainb in Hk. unfold in_chain. by destruct (sc_pos _ !! j). }
  unfold cg_insert_tx in E. pose proof (insert_conflicts ho cg t p Hok Hho) as Hs.
  destruct (insert_tx_preview (cg_chain cg) (txid t) p) as [[ccs|e]|] eqn:E1; [|by rewrite Hs in E|done].
  cbn zeta in Hs. destruct Hs as [(e & E2 & _)|(cs' & E2 & Hr)]; rewrite E2 in E; [done|].
  injection E as <- <-. destruct Hr as (_ & Had & _ & _ & Hke).
  assert (∀ j, ¬ conflicting cg (mkCGS ccs (tg_insert_tx_preview (cg_graph cg) t)) j) as Hncs.
  { intros j (n & t' & q & (Hn & Hni & Ht') & Hc). apply not_in_chain in Hni.
    destruct (insert_tx_new _ _ _ _ _ _ (proj1 Hok) E1 Hn Hni) as [-> _].
    destruct Ht' as [Ht'|(Hx & Ht' & _)]; [congruence|]. cbn [cgs_graph] in Ht'.
    apply (determine_tx (cg_graph cg) (one_tx t)) in Ht' as (j' & Hj & _). apply get_tx_Some, one_tx_get in Hj as [_ ->]. by apply (Hnc j). }
  split; [|split; [|done]].
  - intros j. cbn [cg_apply_changeset cg_chain]. rewrite apply_changeset_pos, (Hke _ (Hncs j)).
    apply insert_tx_preview_as_update in E1.
    assert (apply_update (cg_chain cg) (tip_update (cg_chain cg) {[ (p, txid t) ]} {[ txid t := p ]}) [(txid t, p)] =
        Ret (Ok (apply_changeset (cg_chain cg) ccs, ccs))) as E3 by (unfold apply_update; by rewrite E1).
    apply update_result_pos with (t := j) in E3; [|apply Hok|apply singleton_ord].
    cbn [sc_pos tip_update] in E3. rewrite apply_changeset_pos in E3. rewrite E3. rewrite tip_update_invalid by done.
    case_decide as Hd; [subst; by rewrite lookup_singleton|by rewrite lookup_singleton_ne].
  - intros j. rewrite Hg. change (tg_insert_tx (cg_graph cg) t).1 with (tg_apply_update (cg_graph cg) (one_tx t)).1.
    rewrite update_get_tx by apply one_tx_keyed. case_decide as Hd.
    + subst. rewrite Hnew. by apply one_tx_get.
    + destruct (get_tx (cg_graph cg) j); [done|]. destruct (get_tx (one_tx t) j) eqn:Eo; [|done]. by apply one_tx_get in Eo as [].
Qed.

(** ** The index *)
Lemma scan_marks A l : ∀ hs i ad i' ad',
  good_env A → ki_inv A hs i → (∀ o u, (o, u) ∈ l → SpkIndexSpec.op_ok o) →
  foldl (λ s ou, '(x, ad) ← s; '(x', ad') ← ki_scan_txout x ou.1 ou.2; Ret (x', da_append ad ad')) (Ret (i, ad)) l = Ret (i', ad') →
  (∀ o, o ∉ l.*1 → si_txout (ki_inner i') o = si_txout (ki_inner i) o) ∧
  (∀ o u ki, NoDup l.*1 → (o, u) ∈ l → si_index_of_spk (ki_inner i) (txo_spk u) = Some ki → si_txout (ki_inner i') o = Some (ki, u)) ∧
  (∀ o ki u, si_txout (ki_inner i') o = Some (ki, u) → si_txout (ki_inner i) o = Some (ki, u) ∨ (o, u) ∈ l ∧ paid i ki.1 ki.2 u).
Proof.
  induction l as [|[o u] l IH]; intros hs i ad i' ad' HA Hi Hok E.
  - injection E as <- <-. split; [done|]. split; [by intros ???? ?%elem_of_nil|]. by left.
  - destruct (grows_scan_txout A hs i o u HA Hi) as (i1 & hs1 & ad1 & E1 & G); [eapply Hok; by left|].
    destruct (scan_txout_outs A hs i o u i1 ad1 HA Hi (Hok o u ltac:(by left)) E1) as [Ot _].
    cbn [foldl fst snd] in E. cbn [mbind outcome_bind] in E. rewrite E1 in E. cbn [mbind outcome_bind] in E.
    destruct (IH _ i1 _ i' ad' HA (proj1 (proj1 G)) ltac:(intros; eapply Hok; by right) E) as (I1 & I2 & I3).
    assert (∀ o', si_txout (ki_inner i1) o' = match si_index_of_spk (ki_inner i) (txo_spk u) with
        | Some kj => if decide (o' = o) then Some (kj, u) else si_txout (ki_inner i) o'
        | None => si_txout (ki_inner i) o' end) as Ht1.
    { intros o'. unfold si_txout, si_index_of_spk. rewrite Ot. unfold si_scan_txout.
      destruct (si_indices (ki_inner i) !! txo_spk u); [|done]. cbn [fst si_txouts].
      case_decide; [subst; by rewrite lookup_insert|by rewrite lookup_insert_ne]. }
    pose proof (proj1 (proj2 (proj1 G))) as Ek. destruct (kept_grows _ _ _ _ _ _ _ G) as [_ Hkept].
    split; [|split].
    + intros o' Ho'. rewrite fmap_cons, not_elem_of_cons in Ho'. destruct Ho' as [Hne Ho']. rewrite I1, Ht1 by done.
      destruct (si_index_of_spk _ _); [|done]. by rewrite decide_False.
    + intros o' u' ki Hnd Hin Hs. rewrite fmap_cons, NoDup_cons in Hnd. destruct Hnd as [Hno Hnd].
      apply elem_of_cons in Hin as [[= -> ->]|Hin].
      * rewrite I1, Ht1, Hs by done. by rewrite decide_True.
      * apply I2; [done|done|]. unfold si_index_of_spk in *.
        apply (si_good_inverse _ _ ki (txo_spk u') (proj1 (proj2 (proj1 (proj1 (proj1 G)))))). apply Hkept.
        by apply (si_good_inverse hs _ ki (txo_spk u') (proj1 (proj2 (proj1 Hi)))).
    + intros o' ki u' Ho'. apply I3 in Ho' as [Ho'|[Hin Hp]].
      * rewrite Ht1 in Ho'. destruct (si_index_of_spk (ki_inner i) (txo_spk u)) as [[k j]|] eqn:Es; [|by left].
        case_decide; [|by left]. simplify_eq. right. split; [by left|]. by apply (tracked_is_paid A hs).
      * right. split; [by right|]. by rewrite (paid_keychains i i1) by done.
Qed.

Lemma one_additions g t : get_tx g (txid t) = None →
  ad_txouts (tg_insert_tx_preview g t) = (λ kx, (mkOutPoint (txid t) kx.1, kx.2)) <$> enum_outs (tx_out t).
Proof.
  intros Hnew. unfold ad_txouts, tg_insert_tx_preview. fold (one_tx t).
  assert (bset_list (ad_tx (determine_additions g (one_tx t))) = [t]) as ->.
  { apply Permutation_singleton_r. apply NoDup_Permutation; [apply NoDup_bset_list|apply NoDup_singleton|]. intros t'.
    rewrite elem_of_bset_list, determine_tx, elem_of_list_singleton. split.
    - intros (j & Hj & _). by apply get_tx_Some, one_tx_get in Hj as [_ ->].
    - intros ->. exists (txid t). split; [|done]. apply lookup_singleton. }
  assert (ad_txout (determine_additions g (one_tx t)) = ∅) as ->.
  { apply map_eq. intros o. rewrite determine_txout, lookup_empty. destruct (get_tx g (op_txid o)); [done|].
    destruct (tg_txs (one_tx t) !! op_txid o) as [[t'|m]|] eqn:E; [done| |done]. cbn [one_tx tg_txs] in E.
    by apply lookup_singleton_Some in E as [_ [=]]. }
  rewrite bmap_list_empty, app_nil_r. cbn. by rewrite app_nil_r.
Qed.
Lemma enum_fst_nodup (j : Txid) l : NoDup ((λ kx : N * TxOut, (mkOutPoint j kx.1, kx.2)) <$> enum_outs l).*1.
Proof.
  rewrite <-list_fmap_compose. pose proof (enum_outs_nodup l) as Hn.
  change (fst ∘ (λ kx : N * TxOut, (mkOutPoint j kx.1, kx.2))) with (mkOutPoint j ∘ fst (A := N) (B := TxOut)). rewrite list_fmap_compose.
  apply NoDup_fmap_2; [|done]. by intros a b [= ->].
Qed.
Lemma elem_enum (j : Txid) l o u :
  (o, u) ∈ ((λ kx : N * TxOut, (mkOutPoint j kx.1, kx.2)) <$> enum_outs l) ↔ op_txid o = j ∧ l !! N.to_nat (op_vout o) = Some u.
Proof.
  rewrite elem_of_list_fmap. split.
  - intros ([v u'] & [= -> ->] & Hin). apply elem_of_enum_outs in Hin. done.
  - destruct o as [j' v]. cbn. intros [<- Hl]. exists (v, u). split; [done|]. by apply elem_of_enum_outs.
Qed.

(** ** The tracker *)
Lemma insert_owned A hs ho x t p x' cs :
  good_env A → ki_inv A hs (tr_index x) → cg_ok (tr_cg x) → below_max (cg_chain (tr_cg x)) → hash_order (cg_graph (tr_cg x)) ho →
  tx_ok t → new_to x t →
  (∀ s t' o, in_chain (tr_cg x) s → get_tx (cg_graph (tr_cg x)) s = Some t' → o ∈ tx_in t → o ∈ tx_in t' → o = null_outpoint) →
  (∀ o, o ∈ tx_in t → op_txid o ≠ txid t) →
  tr_insert_tx ho x t p = Ret (Ok (x', cs)) →
  (sc_pos (cg_chain (tr_cg x')) !! txid t = Some p ∧ get_tx (cg_graph (tr_cg x')) (txid t) = Some t) ∧
  (∀ ki f, owned x' ki f ∧ fto_spent_by f = None ↔
    owned x ki f ∧ fto_spent_by f = None ∧ (fto_outpoint f ∈ tx_in t → fto_outpoint f = null_outpoint) ∨
    op_txid (fto_outpoint f) = txid t ∧ (∃ u, si_txout (ki_inner (tr_index x')) (fto_outpoint f) = Some (ki, u)) ∧
      tx_out t !! N.to_nat (op_vout (fto_outpoint f)) = Some (fto_txout f) ∧ fto_pos f = p ∧ fto_on_coinbase f = is_coin_base t ∧
      fto_spent_by f = None) ∧
  (∀ o u ki, op_txid o = txid t → tx_out t !! N.to_nat (op_vout o) = Some u → si_index_of_spk (ki_inner (tr_index x)) (txo_spk u) = Some ki →
    si_txout (ki_inner (tr_index x')) o = Some (ki, u)) ∧
  (∀ o u ki, op_txid o = txid t → si_txout (ki_inner (tr_index x')) o = Some (ki, u) →
    tx_out t !! N.to_nat (op_vout o) = Some u ∧ paid (tr_index x) ki.1 ki.2 u).
Proof.
  intros HA Hi Hok Hbm Hho Ht (Hnew & Hnoix & Hnochild) Hfree Hself E.
  unfold tr_insert_tx, tr_insert_tx_preview in E.
  destruct (cg_insert_tx_preview ho (tr_cg x) t p) as [[c|e]|] eqn:Ec; [|done|done].
  assert (cg_insert_tx ho (tr_cg x) t p = Ret (Ok (cg_apply_changeset (tr_cg x) c, c))) as Ei by (unfold cg_insert_tx; by rewrite Ec).
  destruct (insert_pos ho (tr_cg x) t p _ _ Hok Hbm Hho Hnew Hfree Ei) as (Hpos & Hget & Had).
  destruct (tr_apply_changeset x (kcs_of_cg c)) as [x1|] eqn:Ea; [|done]. injection E as <- <-.
  unfold tr_apply_changeset in Ea. cbn [kcs_of_cg kcs_indices kcs_cg] in Ea. rewrite Had, one_additions in Ea by done.
  apply ret_bind in Ea as (i0 & Eia & Ea).
  assert (i0 = tr_index x) as ->.
  { unfold ki_apply_additions, reveal_to_target_multi in Eia. rewrite bmap_list_empty in Eia. cbn in Eia. by injection Eia as <-. }
  apply ret_bind in Ea as ([i1 ad1] & Es & Ea). injection Ea as <-. cbn [tr_index tr_cg fst] in *.
  unfold ki_scan in Es.
  match type of Es with foldl _ _ ?l = _ => destruct (scan_marks A l hs (tr_index x) ∅ i1 ad1 HA Hi) as (S1 & S2 & S3); [|exact Es|] end.
  { intros o u [Ho Hl]%elem_enum. apply (one_tx_in_range t Ht o u). apply all_txouts_exact. unfold get_txout, one_tx. cbn [tg_txs].
    by rewrite Ho, lookup_singleton. }
  assert (∀ o, op_txid o ≠ txid t → si_txout (ki_inner i1) o = si_txout (ki_inner (tr_index x)) o) as Hother.
  { intros o Hne. apply S1. intros Hin. apply elem_of_list_fmap in Hin as ([o' u] & -> & Hin). by apply elem_enum in Hin as [? _]. }
  set (cg' := cg_apply_changeset (tr_cg x) c) in *.
  assert (∀ j, in_chain cg' j ↔ j = txid t ∨ in_chain (tr_cg x) j) as Hin'.
  { intros j. unfold in_chain. rewrite Hpos. case_decide as Hd; [subst; split; [by left|by eexists]|]. naive_solver. }
  assert (∀ ki f, owned (mkTr i1 cg') ki f ∧ fto_spent_by f = None ↔
    owned x ki f ∧ fto_spent_by f = None ∧ (fto_outpoint f ∈ tx_in t → fto_outpoint f = null_outpoint) ∨
    op_txid (fto_outpoint f) = txid t ∧ (∃ u, si_txout (ki_inner i1) (fto_outpoint f) = Some (ki, u)) ∧
      tx_out t !! N.to_nat (op_vout (fto_outpoint f)) = Some (fto_txout f) ∧ fto_pos f = p ∧ fto_on_coinbase f = is_coin_base t ∧
      fto_spent_by f = None) as Hiff.
  { intros ki f. unfold owned. cbn [tr_index tr_cg]. split.
    - intros [[Hu (t0 & G1 & G2 & G3 & G4 & G5)] Hsp]. rewrite Hget in G1. rewrite Hpos in G2. rewrite Hsp in G5 |- *.
      case_decide as Hd.
      + right. simplify_eq. done.
      + left. split; [split|split; [done|]].
        * destruct Hu as [u Hu]. rewrite Hother in Hu by done. by exists u.
        * exists t0. do 4 (split; [done|]). intros s t' Hs Hg Hi'. apply (G5 s t'); [apply Hin'; by right| |done].
          rewrite Hget. case_decide as Hd'; [subst; congruence|done].
        * intros Hti. apply (G5 (txid t) t); [apply Hin'; by left| |done]. rewrite Hget. by rewrite decide_True.
    - intros [[[Hu (t0 & G1 & G2 & G3 & G4 & G5)] (Hsp & Hnin)]|(Hd & Hu & G3 & Hp & G4 & Hsp)].
      + assert (op_txid (fto_outpoint f) ≠ txid t) as Hne by congruence. split; [|done]. rewrite Hsp in G5 |- *. split.
        * destruct Hu as [u Hu]. rewrite Hother by done. by exists u.
        * exists t0. rewrite Hget, Hpos, !decide_False by done. do 4 (split; [done|]). intros s t' Hs Hg Hi'. rewrite Hget in Hg.
          apply Hin' in Hs. case_decide as Hd'; [simplify_eq; auto|]. destruct Hs as [|Hs]; [done|]. by apply (G5 s t').
      + split; [|done]. rewrite Hsp. split; [done|]. exists t. rewrite Hget, Hpos, Hd, !decide_True by done. subst p. do 4 (split; [done|]).
        intros s t' Hs Hg Hi'. rewrite Hget in Hg. case_decide as Hd'.
        * simplify_eq. by apply Hself in Hi'.
        * by apply (Hnochild s t') in Hi'. }
  split; [|split; [exact Hiff|split]].
  - cbn [tr_cg]. by rewrite Hpos, Hget, !decide_True.
  - intros o u ki Ho Hu Hs. apply S2; [apply enum_fst_nodup|by apply elem_enum|done].
  - intros o u ki Ho Hs. apply S3 in Hs as [Hs|[Hs Hp]].
    + destruct o as [j v]. cbn in Ho. subst j. by rewrite Hnoix in Hs.
    + split; [|done]. by apply elem_enum in Hs as [_ Hs].
Qed.
End insert.
