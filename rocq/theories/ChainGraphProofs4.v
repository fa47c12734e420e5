(** Proofs about the chain graph: evictions and ancestry. *)
From Verif Require Export ChainGraphProofs3.

Section proofs.
Context `{ChainPositionLaws P}.
Implicit Types (cg u : ChainGraph P) (cs : CgChangeSet P) (c : SparseChain P) (g : TxGraph).

Lemma determine_no_eviction (c u : SparseChain P) ord ccs i :
  chain_ok c → ord ≡ₚ map_to_list (sc_pos u) → determine_changeset c u ord = Ret (Ok ccs) →
  cs_txids ccs !! i = Some None → sc_pos c !! i = None.
Proof.
  intros Hc Ho E Hn.
  assert (apply_update c u ord = Ret (Ok (apply_changeset c ccs, ccs))) as E'.
  { unfold apply_update. by rewrite E. }
  pose proof (update_result_pos c u ord _ _ i Hc Ho E') as Hr. rewrite apply_changeset_pos, Hn in Hr.
  destruct (sc_pos u !! i); [done|]. destruct (invalid_from c u), (sc_pos c !! i) as [p|]; try done.
  destruct (pos_height p); [|done]. by case_bool_decide.
Qed.
(** Whether a transaction conflicts is decided by the walk. *)
Lemma conflicting_dec ho cg cs i :
  graph_ok (cg_graph cg) → hash_order (cg_graph cg) ho → backed cg cs →
  conflicting cg cs i ∨ ¬ conflicting cg cs i.
Proof.
  intros Hg Hho Hb.
  destruct (collect_spec ho cg cs (bmap_list (cs_txids (cgs_chain cs))) Hg Hho Hb) as (l & _ & Hl).
  { intros n p Hin. by apply elem_of_bmap_list in Hin. }
  destruct (decide (i ∈ (λ x : P * Txid * P * Txid, x.2) <$> l)) as [Hin|Hni].
  - left. apply elem_of_list_fmap in Hin as ([[[up ui] cp] ci] & -> & Hin).
    apply Hl in Hin as (_ & t & Hn & _ & Hc). by exists ui, t, up.
  - right. intros (n & t & p & Hn & Hc). apply Hni. destruct (Hc) as [[q Hq] _].
    apply elem_of_list_fmap. exists (p, n, q, i). split; [done|]. apply Hl.
    split; [apply elem_of_bmap_list, Hn|]. eauto.
Qed.
(** A transaction leaving the chain is one that conflicts and is not confirmed. *)
Lemma resolved_evicts cg ccs ad cs i :
  (conflicting cg (mkCGS ccs ad) i ∨ ¬ conflicting cg (mkCGS ccs ad) i) →
  resolved cg ccs ad cs → (cs_txids ccs !! i = Some None → sc_pos (cg_chain cg) !! i = None) →
  in_chain cg i → ¬ in_chain (cg_apply_changeset cg cs) i ↔ conflicting cg (mkCGS ccs ad) i.
Proof.
  intros Hdec (Ha & Hg & Hcp & Hev & Hke) Hn [q Hi].
  unfold in_chain. cbn [cg_apply_changeset cg_chain]. rewrite apply_changeset_pos. split.
  - intros Hni. destruct Hdec as [|Hx]; [done|]. exfalso. apply Hni. rewrite (Hke i Hx).
    destruct (cs_txids ccs !! i) as [[p|]|] eqn:E; [eauto| |eauto]. rewrite Hn in Hi by done. done.
  - intros Hx. rewrite (Hev i Hx). by intros [? ?].
Qed.

Lemma update_evicts ho cg u ord cg' cs i :
  cg_ok cg → cg_ok u → hash_order (cg_graph cg) ho → ord ≡ₚ map_to_list (sc_pos (cg_chain u)) →
  cg_apply_update ho cg u ord = Ret (Ok (cg', cs)) → in_chain cg i →
  ∃ ccs, determine_changeset (cg_chain cg) (cg_chain u) ord = Ret (Ok ccs) ∧
    (¬ in_chain cg' i ↔ conflicting cg (mkCGS ccs (determine_additions (cg_graph cg) (cg_graph u))) i) ∧
    (¬ in_chain cg' i → ¬ confirmed_after (cg_chain cg) ccs i).
Proof.
  intros Hok Hu Hho Hord E Hi. unfold cg_apply_update in E.
  pose proof (update_conflicts ho cg u ord Hok Hu Hho Hord) as Hs.
  destruct (determine_changeset (cg_chain cg) (cg_chain u) ord) as [[ccs|e]|] eqn:E1; [|by rewrite Hs in E|done].
  exists ccs. split; [done|]. cbn zeta in Hs. destruct Hs as [(e & E2 & _)|(cs' & E2 & Hr)]; rewrite E2 in E; [done|].
  injection E as <- <-.
  assert (¬ in_chain (cg_apply_changeset cg cs') i ↔ conflicting cg (mkCGS ccs (determine_additions (cg_graph cg) (cg_graph u))) i) as Hx.
  { apply resolved_evicts; [|done|by eapply determine_no_eviction; [apply Hok|..]|done].
    eapply conflicting_dec; [apply Hok|done|].
    apply backed_update; [apply Hu|]. intros n q Hn Hni. apply not_in_chain in Hni.
    eapply determine_new in E1; [|apply Hok|done..]. apply Hu. unfold in_chain. eauto. }
  split; [done|]. intros Hni. apply Hx in Hni. by apply Hr.
Qed.
Lemma insert_evicts ho cg t p cg' cs i :
  cg_ok cg → hash_order (cg_graph cg) ho →
  cg_insert_tx ho cg t p = Ret (Ok (cg', cs)) → in_chain cg i →
  ¬ in_chain cg' i ↔
  ¬ in_chain cg (txid t) ∧ conflicts_with cg (default t (get_tx (cg_graph cg) (txid t))) i.
Proof.
  intros Hok Hho E Hi. unfold cg_insert_tx in E.
  pose proof (insert_conflicts ho cg t p Hok Hho) as Hs.
  destruct (insert_tx_preview (cg_chain cg) (txid t) p) as [[ccs|e]|] eqn:E1; [|by rewrite Hs in E|done].
  cbn zeta in Hs. destruct Hs as [(e & E2 & _)|(cs' & E2 & Hr)]; rewrite E2 in E; [done|].
  injection E as <- <-.
  assert (backed cg (mkCGS ccs (tg_insert_tx_preview (cg_graph cg) t))) as Hb by (eapply insert_tx_backed; [apply Hok|done]).
  rewrite (resolved_evicts cg ccs (tg_insert_tx_preview (cg_graph cg) t) cs' i); [| |done| |done].
  - assert (∀ n t' q, newly_added cg (mkCGS ccs (tg_insert_tx_preview (cg_graph cg) t)) n t' q →
      n = txid t ∧ t' = default t (get_tx (cg_graph cg) (txid t))) as Hna.
    { intros n t' q (Hn & Hni & Ht'). apply not_in_chain in Hni.
      destruct (insert_tx_new _ _ _ _ _ _ (proj1 Hok) E1 Hn Hni) as [-> _]. split; [done|].
      destruct Ht' as [->|(-> & Ht' & _)]; [done|]. cbn [cgs_graph] in Ht'.
      apply (determine_tx (cg_graph cg) (one_tx t)) in Ht' as (j & Hj & _). apply get_tx_Some, one_tx_get in Hj as [_ ->]. done. }
    split.
    + intros (n & t' & q & Hn & Hc). destruct (Hna _ _ _ Hn) as [-> ->]. split; [apply Hn|done].
    + intros [Hni Hc]. pose proof Hni as Hni'. apply not_in_chain in Hni'.
      assert (cs_txids ccs !! txid t = Some (Some p)) as Hcs.
      { pose proof E1 as E1'. apply insert_tx_preview_as_update in E1'.
        assert (apply_update (cg_chain cg) (tip_update (cg_chain cg) {[ (p, txid t) ]} {[ txid t := p ]}) [(txid t, p)] =
          Ret (Ok (apply_changeset (cg_chain cg) ccs, ccs))) as E3 by (unfold apply_update; by rewrite E1').
        apply update_result_pos with (t := txid t) in E3; [|apply Hok|apply singleton_ord].
        cbn [sc_pos tip_update] in E3. rewrite lookup_singleton in E3. rewrite apply_changeset_pos, Hni' in E3.
        destruct (cs_txids ccs !! txid t) as [o|]; [by subst|done]. }
      destruct (proj1 Hb (txid t) p Hcs Hni) as [t' Ht']. destruct (Hna _ _ _ Ht') as [_ ->].
      eexists _, _, _. split; [exact Ht'|done].
  - eapply conflicting_dec; [apply Hok|done|done].
  - apply insert_tx_preview_as_update in E1. intros Hx. eapply determine_no_eviction in E1; [exact E1|apply Hok|apply singleton_ord|exact Hx].
Qed.
Lemma insert_in_chain ho cg t p cg' cs i :
  cg_ok cg → hash_order (cg_graph cg) ho → cg_insert_tx ho cg t p = Ret (Ok (cg', cs)) →
  in_chain cg' i → i = txid t ∨ in_chain cg i.
Proof.
  intros Hok Hho E Hi. unfold cg_insert_tx in E.
  pose proof (insert_conflicts ho cg t p Hok Hho) as Hs.
  destruct (insert_tx_preview (cg_chain cg) (txid t) p) as [[ccs|e]|] eqn:E1; [|by rewrite Hs in E|done].
  cbn zeta in Hs. destruct Hs as [(e & E2 & _)|(cs' & E2 & Hr)]; rewrite E2 in E; [done|].
  injection E as <- <-. destruct (sc_pos (cg_chain cg) !! i) as [q|] eqn:Eq; [right; unfold in_chain; eauto|left].
  unfold in_chain in Hi. cbn [cg_apply_changeset cg_chain] in Hi. rewrite apply_changeset_pos in Hi.
  destruct Hr as (_ & _ & _ & Hev & Hke).
  assert (¬ conflicting cg (mkCGS ccs (tg_insert_tx_preview (cg_graph cg) t)) i) as Hnc.
  { intros (n & t' & q & _ & [Hx _]). unfold in_chain in Hx. rewrite Eq in Hx. by destruct Hx. }
  rewrite (Hke i Hnc) in Hi. destruct (cs_txids ccs !! i) as [o|] eqn:Eo; [|rewrite Eq in Hi; by destruct Hi].
  destruct Hi as [q Hq]. subst o. by eapply insert_tx_new in E1 as [-> _]; [|apply Hok|..].
Qed.
Lemma insert_puts ho cg t p cg' cs :
  cg_ok cg → hash_order (cg_graph cg) ho → cg_insert_tx ho cg t p = Ret (Ok (cg', cs)) → in_chain cg' (txid t).
Proof.
  intros Hok Hho E. destruct (decide (in_chain cg (txid t))) as [Hi|Hi].
  - destruct (decide (in_chain cg' (txid t))) as [|Hn]; [done|].
    apply (insert_evicts _ _ _ _ _ _ _ Hok Hho E Hi) in Hn as [Hn _]. done.
  - unfold cg_insert_tx in E.
    pose proof (insert_conflicts ho cg t p Hok Hho) as Hs.
    destruct (insert_tx_preview (cg_chain cg) (txid t) p) as [[ccs|e]|] eqn:E1; [|by rewrite Hs in E|done].
    cbn zeta in Hs. destruct Hs as [(e & E2 & _)|(cs' & E2 & Hr)]; rewrite E2 in E; [done|].
    injection E as <- <-. destruct Hr as (_ & _ & _ & Hev & Hke).
    assert (¬ conflicting cg (mkCGS ccs (tg_insert_tx_preview (cg_graph cg) t)) (txid t)) as Hnc.
    { intros (n & t' & q & _ & [Hx _]). done. }
    unfold in_chain. cbn [cg_apply_changeset cg_chain]. rewrite apply_changeset_pos, (Hke _ Hnc).
    apply insert_tx_preview_as_update in E1.
    assert (apply_update (cg_chain cg) (tip_update (cg_chain cg) {[ (p, txid t) ]} {[ txid t := p ]}) [(txid t, p)] =
        Ret (Ok (apply_changeset (cg_chain cg) ccs, ccs))) as E3 by (unfold apply_update; by rewrite E1).
    apply update_result_pos with (t := txid t) in E3; [|apply Hok|apply singleton_ord].
    cbn [sc_pos tip_update] in E3. rewrite lookup_singleton in E3. rewrite apply_changeset_pos in E3. rewrite E3. eauto.
Qed.
Lemma insert_graph ho cg t p cg' cs :
  cg_insert_tx ho cg t p = Ret (Ok (cg', cs)) → cg_ok cg → hash_order (cg_graph cg) ho →
  cg_graph cg' = (tg_insert_tx (cg_graph cg) t).1.
Proof.
  intros E Hok Hho. unfold cg_insert_tx in E.
  pose proof (insert_conflicts ho cg t p Hok Hho) as Hs.
  destruct (insert_tx_preview (cg_chain cg) (txid t) p) as [[ccs|e]|] eqn:E1; [|by rewrite Hs in E|done].
  cbn zeta in Hs. destruct Hs as [(e & E2 & _)|(cs' & E2 & Hr)]; rewrite E2 in E; [done|].
  injection E as <- <-. destruct Hr as (_ & Hg & _). cbn [cg_apply_changeset cg_graph]. rewrite Hg. done.
Qed.

(** Merging moves transactions as the sparse update does, except those evicted. *)
Lemma update_positions ho cg u ord cg' cs :
  cg_ok cg → cg_ok u → hash_order (cg_graph cg) ho → ord ≡ₚ map_to_list (sc_pos (cg_chain u)) →
  cg_apply_update ho cg u ord = Ret (Ok (cg', cs)) →
  ∃ c' ccs, apply_update (cg_chain cg) (cg_chain u) ord = Ret (Ok (c', ccs)) ∧
    sc_cps (cg_chain cg') = sc_cps c' ∧
    ∀ i, (conflicting cg (mkCGS ccs (determine_additions (cg_graph cg) (cg_graph u))) i ∧
            sc_pos (cg_chain cg') !! i = None) ∨
         (¬ conflicting cg (mkCGS ccs (determine_additions (cg_graph cg) (cg_graph u))) i ∧
            sc_pos (cg_chain cg') !! i = sc_pos c' !! i).
Proof.
  intros Hok Hu Hho Hord E. unfold cg_apply_update in E.
  pose proof (update_conflicts ho cg u ord Hok Hu Hho Hord) as Hs. unfold apply_update.
  destruct (determine_changeset (cg_chain cg) (cg_chain u) ord) as [[ccs|e]|] eqn:E1; [|by rewrite Hs in E|done].
  cbn zeta in Hs. destruct Hs as [(e & E2 & _)|(cs' & E2 & Hr)]; rewrite E2 in E; [done|].
  injection E as <- <-. eexists _, ccs. split; [done|]. destruct Hr as (Ha & Hg & Hcp & Hev & Hke).
  split.
  - cbn [cg_apply_changeset cg_chain]. destruct (cgs_chain cs') as [cps' tx'], ccs as [cps tx]. simpl in Hcp. subst cps'.
    unfold apply_changeset. cbn [cs_cps cs_txids]. unfold prune_checkpoints. cbn [sc_limit sc_cps].
    destruct (sc_limit (cg_chain cg)) as [n|]; [|done]. by destruct (_ !! n).
  - intros i. cbn [cg_apply_changeset cg_chain]. rewrite !apply_changeset_pos.
    destruct (conflicting_dec ho cg (mkCGS ccs (determine_additions (cg_graph cg) (cg_graph u))) i) as [Hx|Hx].
    + apply Hok.
    + done.
    + apply backed_update; [apply Hu|]. intros n q Hn Hni. apply not_in_chain in Hni.
      eapply determine_new in E1; [|apply Hok|done..]. apply Hu. unfold in_chain. eauto.
    + left. split; [done|]. by rewrite (Hev i Hx).
    + right. split; [done|]. by rewrite (Hke i Hx).
Qed.

(** ** C27 *)
Lemma ancestors_in_chain cg i a :
  parents_in_chain cg → in_chain cg i → ancestor (cg_graph cg) i a → in_chain cg a.
Proof.
  intros Hp Hi. induction 1 as [|a b t Ha IH Ht Ho Hb]; [done|].
  apply (Hp a b); [done|]. split; [done|]. eauto.
Qed.
Lemma parents_no_double_spend cg :
  no_double_spend cg → parents_in_chain cg → no_ancestor_double_spend cg.
Proof.
  intros Hd Hp i j a b ta tb Hi Hj Ha Hb Hta Htb Hdd.
  exact (Hd a b ta tb (ancestors_in_chain cg i a Hp Hi Ha) (ancestors_in_chain cg j b Hp Hj Hb) Hta Htb Hdd).
Qed.
Lemma insert_parents ho cg t p cg' cs :
  cg_ok cg → hash_order (cg_graph cg) ho → parents_in_chain cg →
  cg_insert_tx ho cg t p = Ret (Ok (cg', cs)) →
  (∀ b, known_parent (cg_graph cg') (txid t) b → in_chain cg' b) →
  parents_in_chain cg'.
Proof.
  intros Hok Hho Hp E Ht i b Hi Hk.
  destruct (decide (i = txid t)) as [->|Hne]; [by apply Ht|].
  destruct (insert_in_chain _ _ _ _ _ _ _ Hok Hho E Hi) as [->|Hio]; [done|].
  destruct (decide (b = txid t)) as [->|Hnb]; [by eapply insert_puts|].
  assert (∀ j, j ≠ txid t → get_tx (cg_graph cg') j = get_tx (cg_graph cg) j) as Hget.
  { intros j Hj. rewrite (insert_graph _ _ _ _ _ _ E Hok Hho).
    change (tg_insert_tx (cg_graph cg) t).1 with (tg_apply_update (cg_graph cg) (one_tx t)).1.
    rewrite update_get_tx by apply one_tx_keyed. destruct (get_tx (cg_graph cg) j); [done|].
    destruct (get_tx (one_tx t) j) eqn:Ej; [|done]. apply one_tx_get in Ej as [? _]. done. }
  assert (known_parent (cg_graph cg) i b) as Hk'.
  { destruct Hk as [Hb (ti & Hti & Ho)]. rewrite Hget in Hb, Hti by done. split; eauto. }
  pose proof (Hp i b Hio Hk') as Hbo.
  destruct (decide (in_chain cg' b)) as [|Hnb']; [done|]. exfalso.
  apply (insert_evicts _ _ _ _ _ _ _ Hok Hho E Hbo) in Hnb' as [Hnt [_ Hr]].
  assert (¬ in_chain cg' i) as Hni; [|done].
  apply (insert_evicts _ _ _ _ _ _ _ Hok Hho E Hio). split; [done|]. split; [done|].
  eapply rf_next; [exact Hr|by apply in_chainb_iff|].
  destruct Hk' as [_ (ti & Hti & o & Ho & Hn & Hob)]. exists ti, o. done.
Qed.
End proofs.
