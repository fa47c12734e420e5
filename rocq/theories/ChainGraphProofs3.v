(** Proofs about the chain graph: histories, and the operations as a whole. *)
From Verif Require Export ChainGraphProofs2.

Section proofs.
Context `{ChainPositionLaws P}.
Implicit Types (cg u : ChainGraph P) (cs : CgChangeSet P) (c : SparseChain P) (g : TxGraph).

(** A txid put into the chain by an update's changeset comes from the update. *)
Lemma determine_new (c u : SparseChain P) ord ccs n p :
  chain_ok c → ord ≡ₚ map_to_list (sc_pos u) → determine_changeset c u ord = Ret (Ok ccs) →
  cs_txids ccs !! n = Some (Some p) → sc_pos c !! n = None → sc_pos u !! n = Some p.
Proof.
  intros Hc Ho E Hn Hp.
  assert (apply_update c u ord = Ret (Ok (apply_changeset c ccs, ccs))) as E'.
  { unfold apply_update. by rewrite E. }
  pose proof (update_result_pos c u ord _ _ n Hc Ho E') as Hr. rewrite apply_changeset_pos, Hn in Hr.
  destruct (sc_pos u !! n); [done|]. rewrite Hp in Hr. by destruct (invalid_from c u).
Qed.
Lemma not_in_chain cg n : ¬ in_chain cg n ↔ sc_pos (cg_chain cg) !! n = None.
Proof. unfold in_chain. rewrite eq_None_not_Some. done. Qed.

(** ** insert_tx *)
Lemma insert_tx_preview_as_update c t p ccs :
  insert_tx_preview c t p = Ret (Ok ccs) →
  determine_changeset c (tip_update c {[ (p, t) ]} {[ t := p ]}) [(t, p)] = Ret (Ok ccs).
Proof.
  intros E. assert (insert_tx c t p = Ret (Ok (apply_changeset c ccs, ccs))) as E'.
  { unfold insert_tx. by rewrite E. }
  apply insert_tx_as_update in E' as [E' _]. unfold apply_update in E'.
  destruct (determine_changeset c (tip_update c {[ (p, t) ]} {[ t := p ]}) [(t, p)]) as [[x|]|]; by simplify_eq/=.
Qed.
Lemma singleton_ord (t : Txid) (p : P) : [(t, p)] ≡ₚ map_to_list ({[ t := p ]} : gmap Txid P).
Proof. by rewrite map_to_list_singleton. Qed.
Lemma insert_tx_new c t p ccs n q :
  chain_ok c → insert_tx_preview c t p = Ret (Ok ccs) →
  cs_txids ccs !! n = Some (Some q) → sc_pos c !! n = None → n = t ∧ q = p.
Proof.
  intros Hc E Hn Hp. apply insert_tx_preview_as_update in E.
  pose proof (determine_new c (tip_update c {[ (p, t) ]} {[ t := p ]}) _ _ _ _ Hc (singleton_ord t p) E Hn Hp) as Hx. cbn [sc_pos tip_update] in Hx.
  apply lookup_singleton_Some in Hx. naive_solver.
Qed.
Lemma insert_tx_vals c t p ccs :
  chain_ok c → t ≤ max_txid → pos_ok p → insert_tx_preview c t p = Ret (Ok ccs) → cs_vals_ok ccs.
Proof.
  intros Hc Ht Hp E. apply insert_tx_preview_as_update in E.
  eapply determine_vals_ok in E; [done|done| |apply singleton_ord]. split.
  - intros t' p' Hx. cbn [sc_pos tip_update] in Hx. apply lookup_singleton_Some in Hx as [<- <-]. done.
  - cbn [sc_cps tip_update]. apply values_ok_tip. apply Hc.
Qed.
(** The graph holding just [t]. *)
Definition one_tx (t : Tx) : TxGraph := mkGraph {[ txid t := Whole t ]} ∅.
Lemma one_tx_keyed t : keyed (one_tx t).
Proof. intros i t' Hi. simpl in Hi. apply lookup_singleton_Some in Hi as [<- [= ->]]. done. Qed.
Lemma one_tx_get t i t' : get_tx (one_tx t) i = Some t' ↔ i = txid t ∧ t' = t.
Proof.
  rewrite get_tx_Some. simpl. rewrite lookup_singleton_Some. split; [|naive_solver].
  intros [<- [= ->]]. done.
Qed.
Lemma insert_tx_backed cg t p ccs :
  chain_ok (cg_chain cg) → insert_tx_preview (cg_chain cg) (txid t) p = Ret (Ok ccs) →
  backed cg (mkCGS ccs (tg_insert_tx_preview (cg_graph cg) t)).
Proof.
  intros Hc E. apply (backed_update cg (one_tx t) ccs (one_tx_keyed t)).
  intros n q Hn Hni. apply not_in_chain in Hni.
  destruct (insert_tx_new _ _ _ _ _ _ Hc E Hn Hni) as [-> _]. exists t. by apply one_tx_get.
Qed.
Lemma insert_tx_preview_no_panic c t p : chain_ok c → insert_tx_preview c t p ≠ Panic.
Proof.
  intros Hc E. pose proof (c02_insert_tx c t p Hc) as Hx. unfold insert_tx in Hx. by rewrite E in Hx.
Qed.

(** ** Steps *)
Lemma no_new_ok W cg ccs :
  cg_ok cg → inputs_by_txid W (cg_graph cg) → cs_vals_ok ccs →
  (∀ n p, cs_txids ccs !! n = Some (Some p) → in_chain cg n) →
  cg_ok (mkCG (apply_changeset (cg_chain cg) ccs) (cg_graph cg)).
Proof.
  intros (Hc & Hg & Hf & Hd) HW Hv Hn.
  assert (∀ i, in_chain (mkCG (apply_changeset (cg_chain cg) ccs) (cg_graph cg)) i → in_chain cg i) as Hin.
  { intros i [p Hp]. cbn [cg_chain] in Hp. rewrite apply_changeset_pos in Hp.
    destruct (cs_txids ccs !! i) as [o|] eqn:E; [subst; by eapply Hn|]. unfold in_chain. eauto. }
  split; [by apply apply_changeset_ok|]. split; [done|]. split.
  - intros i Hi. by apply Hf, Hin.
  - intros i j a b Hi Hj. apply Hd; by apply Hin.
Qed.
Lemma apply_additions_default g : apply_additions g ad_default = g.
Proof.
  unfold apply_additions. change (ad_tx ad_default) with (∅ : gset Tx). change (ad_txout ad_default) with (∅ : gmap OutPoint TxOut).
  rewrite bmap_list_empty. assert (bset_list (∅ : gset Tx) = []) as ->.
  { unfold bset_list. rewrite elements_empty. done. }
  by destruct g.
Qed.
Lemma txs_same_ok cg g :
  cg_ok cg → graph_ok g → (∀ i, get_tx g i = get_tx (cg_graph cg) i) → cg_ok (mkCG (cg_chain cg) g).
Proof.
  intros (Hc & Hg & Hf & Hd) Hg' He. split; [done|]. split; [done|]. split.
  - intros i Hi. simpl. rewrite He. by apply Hf.
  - intros i j a b Hi Hj. simpl. rewrite !He. by apply Hd.
Qed.
Lemma limit_ok cg l : cg_ok cg → cg_ok (cg_set_checkpoint_limit cg l).
Proof.
  intros (Hc & Hg & Hf & Hd). split.
  - simpl. destruct (step_ok (cg_chain cg) (OpLimit l) Hc I) as (c' & [= <-] & Hc'). done.
  - split; [done|]. split.
    + intros i [p Hi]. simpl in *. unfold set_checkpoint_limit in Hi. rewrite prune_pos in Hi. simpl in Hi.
      apply Hf. unfold in_chain. eauto.
    + intros i j a b [p Hi] [q Hj]. simpl in *. unfold set_checkpoint_limit in Hi, Hj. rewrite prune_pos in Hi, Hj. simpl in *.
      apply Hd; unfold in_chain; eauto.
Qed.
Definition one_txout (o : OutPoint) (x : TxOut) : TxGraph := mkGraph {[ op_txid o := Partial {[ op_vout o := x ]} ]} ∅.
Lemma one_txout_keyed o x : keyed (one_txout o x).
Proof. intros i t Hi. simpl in Hi. apply lookup_singleton_Some in Hi as [_ Hi]. done. Qed.
Lemma one_txout_get o x i : get_tx (one_txout o x) i = None.
Proof.
  unfold get_tx. simpl. destruct (decide (i = op_txid o)) as [->|Hne].
  - by rewrite lookup_singleton.
  - by rewrite lookup_singleton_ne.
Qed.
Lemma apply_default_chain c : apply_changeset c cs_default = prune_checkpoints c.
Proof.
  unfold apply_changeset. simpl. rewrite !bmap_list_empty. simpl. by destruct c.
Qed.
Lemma prune_chain_ok c : chain_ok c → chain_ok (prune_checkpoints c).
Proof. intros Hc. rewrite <- apply_default_chain. apply apply_changeset_ok; [done|]. split; intros ? ?; set_solver. Qed.

Lemma cg_step_ok W cg op :
  cg_ok cg → inputs_by_txid W (cg_graph cg) → cg_op_ok W op →
  (∀ ho u ord, op = CgUpdate ho u ord → cg_ok u ∧ inputs_by_txid W (cg_graph u)) →
  ∃ cg', cg_step cg op = Ret cg' ∧ cg_ok cg' ∧ inputs_by_txid W (cg_graph cg').
Proof.
  intros Hok HW Hop Hu. destruct (Hok) as (Hc & Hg & Hf & Hd). destruct op as [ho t p|o x|b|h|ho u ord|l]; cbn [cg_step] in *.
  - destruct Hop as (Hho & Ht & Hp & Hin).
    unfold cg_insert_tx, cg_insert_tx_preview.
    destruct (insert_tx_preview (cg_chain cg) (txid t) p) as [[ccs|e]|] eqn:E; [|by eauto|by apply insert_tx_preview_no_panic in E].
    pose proof (insert_tx_backed cg t p ccs Hc E) as Hb.
    pose proof (fix_conflicts_spec (ho (cg_graph cg)) cg _ Hg (Hho _) Hb) as Hs.
    destruct (fix_conflicts (ho (cg_graph cg)) cg (mkCGS ccs (tg_insert_tx_preview (cg_graph cg) t))) as [[cs|e]|] eqn:E'; [|by eauto|done].
    eexists. split; [done|]. eapply (merge_ok W (ho (cg_graph cg)) cg (one_tx t) ccs cs); [done|done|apply Hho|apply one_tx_keyed| | | | |done].
    + intros i t' Ht'. apply one_tx_get in Ht' as [-> ->]. done.
    + by eapply insert_tx_vals.
    + intros n q Hn Hni. apply not_in_chain in Hni.
      destruct (insert_tx_new _ _ _ _ _ _ Hc E Hn Hni) as [-> _]. exists t. by apply one_tx_get.
    + intros i j q q' a b' _ _ _ _ Hi Hj _. apply one_tx_get in Hi as [-> _]. apply one_tx_get in Hj as [-> _]. done.
  - eexists. split; [done|]. cbn [cg_insert_txout fst cg_insert_txout_preview cg_apply_changeset cgs_chain cgs_graph].
    assert (cg_apply_changeset cg (cg_insert_txout_preview cg o x) =
      mkCG (apply_changeset (cg_chain cg) cs_default) (tg_apply_update (cg_graph cg) (one_txout o x)).1) as -> by done.
    assert (∀ i, get_tx (tg_apply_update (cg_graph cg) (one_txout o x)).1 i = get_tx (cg_graph cg) i) as He.
    { intros i. rewrite update_get_tx by apply one_txout_keyed. rewrite one_txout_get. by destruct (get_tx _ i). }
    cbn [cg_chain cg_graph]. split.
    + rewrite apply_default_chain.
      apply (txs_same_ok (mkCG (prune_checkpoints (cg_chain cg)) (cg_graph cg))); [|apply update_ok; [done|apply one_txout_keyed]|done].
      split; [by apply prune_chain_ok|]. split; [done|]. split.
      * intros i [q Hi]. simpl in *. rewrite prune_pos in Hi. apply Hf. unfold in_chain. eauto.
      * intros i j a b [q Hi] [q' Hj]. simpl in *. rewrite prune_pos in Hi, Hj. apply Hd; unfold in_chain; eauto.
    + intros i t. rewrite He. apply HW.
  - unfold cg_insert_checkpoint, cg_insert_checkpoint_preview.
    pose proof (c02_insert_checkpoint (cg_chain cg) b Hc) as Hx. unfold insert_checkpoint in Hx.
    destruct (insert_checkpoint_preview (cg_chain cg) b) as [[ccs|e]|] eqn:E; [|by eauto|done].
    eexists. split; [done|]. unfold cg_apply_changeset. cbn [cgs_chain cgs_graph cg_graph]. rewrite apply_additions_default.
    split; [|done]. apply (no_new_ok W); [done|done| |].
    + assert (insert_checkpoint (cg_chain cg) b = Ret (Ok (apply_changeset (cg_chain cg) ccs, ccs))) as E'.
      { unfold insert_checkpoint. by rewrite E. }
      apply insert_checkpoint_as_update in E'. unfold apply_update in E'.
      destruct (determine_changeset _ _ _) as [[ccs'|]|] eqn:E2; simplify_eq/=.
      eapply determine_vals_ok in E2; [done|done| |cbn [sc_pos]; by rewrite map_to_list_empty].
      split; [intros t q Hq; cbn in Hq; by rewrite lookup_empty in Hq|].
      cbn [sc_cps]. intros h [y Hy]. apply lookup_insert_Some in Hy as [[<- _]|[_ Hy]]; [done|].
      eapply values_ok_tip; [apply Hc|eauto].
    + intros n q Hn. destruct (decide (in_chain cg n)) as [|Hni]; [done|]. apply not_in_chain in Hni.
      assert (insert_checkpoint (cg_chain cg) b = Ret (Ok (apply_changeset (cg_chain cg) ccs, ccs))) as E'.
      { unfold insert_checkpoint. by rewrite E. }
      apply insert_checkpoint_as_update in E'. unfold apply_update in E'.
      destruct (determine_changeset _ _ _) as [[ccs'|]|] eqn:E2; simplify_eq/=.
      eapply determine_new in E2; [|done|cbn [sc_pos]; by rewrite map_to_list_empty|done|done].
      cbn in E2. by rewrite lookup_empty in E2.
  - unfold cg_invalidate, cg_invalidate_preview.
    destruct (invalidate_preview_spec (cg_chain cg) h Hc Hop) as (ccs & E & Hcp & Htx). rewrite E.
    eexists. split; [done|]. unfold cg_apply_changeset. cbn [cgs_chain cgs_graph cg_graph]. rewrite apply_additions_default.
    split; [|done]. apply (no_new_ok W); [done|done| |].
    + split.
      * intros k y Hk. rewrite Hcp in Hk. by case_bool_decide.
      * intros i q Hi. rewrite Htx in Hi. destruct (sc_pos (cg_chain cg) !! i) as [q'|] eqn:Eq; [|done].
        split; [by eapply Hc|]. destruct (pos_height q'); [|done]. case_bool_decide; simplify_eq/=. apply unconf_ok.
    + intros n q Hn. rewrite Htx in Hn. unfold in_chain. destruct (sc_pos (cg_chain cg) !! n); [eauto|done].
  - destruct Hop as [Hho Hord]. destruct (Hu ho u ord eq_refl) as [(Huc & Hug & Huf & Hud) HWu].
    unfold cg_apply_update, cg_determine_changeset.
    destruct (determine_changeset (cg_chain cg) (cg_chain u) ord) as [[ccs|e]|] eqn:E; [|by eauto|by apply determine_no_panic in E].
    assert (∀ n q, cs_txids ccs !! n = Some (Some q) → ¬ in_chain cg n → in_chain u n) as Hnew.
    { intros n q Hn Hni. apply not_in_chain in Hni. eapply determine_new in E; [|done..]. unfold in_chain. eauto. }
    assert (backed cg (mkCGS ccs (determine_additions (cg_graph cg) (cg_graph u)))) as Hb.
    { apply backed_update; [apply Hug|]. intros n q Hn Hni. by eapply Huf, Hnew. }
    pose proof (fix_conflicts_spec (ho (cg_graph cg)) cg _ Hg (Hho _) Hb) as Hs.
    destruct (fix_conflicts _ _ _) as [[cs|e]|] eqn:E'; [|by eauto|done].
    eexists. split; [done|]. eapply (merge_ok W (ho (cg_graph cg)) cg (cg_graph u) ccs cs); [done|done|apply Hho|apply Hug|done| | | |done].
    + eapply determine_vals_ok in E; [done|done|apply Huc|done].
    + intros n q Hn Hni. by eapply Huf, Hnew.
    + intros i j q q' a b Hi Hj Hni Hnj. apply Hud; by eapply Hnew.
  - eexists. split; [done|]. split; [by apply limit_ok|]. done.
Qed.

Lemma built_ok W cg : built W cg → cg_ok cg ∧ inputs_by_txid W (cg_graph cg).
Proof.
  induction 1 as [|ho c g cg Hc Hg HW Hho E|ho cg c txs cg' Hb [IH IHW] Hc Ht Hho E|cg op cg' Hb [IH IHW] Hop Hu IHu E].
  - split; [apply cg_ok_default|]. intros i t Hi. apply get_tx_Some in Hi. simpl in Hi. by rewrite lookup_empty in Hi.
  - destruct (cg_new_ok _ _ _ _ Hc Hg Hho E) as [Hok He]. split; [done|]. by rewrite He.
  - destruct (cg_new_ok _ _ _ _ Hc (inflate_graph_ok cg c txs) Hho E) as [Hok He]. split; [done|]. rewrite He.
    apply inflate_inputs; [done|apply IH|apply Hc|done].
  - destruct (cg_step_ok W cg op IH IHW Hop) as (cg1 & E1 & Hok & HW1); [|assert (cg1 = cg') as <- by congruence; done].
    intros ho u ord Hop'. by eapply IHu.
Qed.
(** Nothing a client can do panics. *)
Lemma built_no_panic W cg op :
  built W cg → cg_op_ok W op → (∀ ho u ord, op = CgUpdate ho u ord → built W u) →
  ∃ cg', cg_step cg op = Ret cg' ∧ built W cg'.
Proof.
  intros Hb Hop Hu. destruct (built_ok W cg Hb) as [Hok HW].
  destruct (cg_step_ok W cg op Hok HW Hop) as (cg' & E & _).
  - intros ho u ord E. by apply built_ok, (Hu ho u ord).
  - exists cg'. split; [done|]. by eapply built_step.
Qed.
Lemma get_in_chain_ok cg i :
  cg_ok cg → get_tx_in_chain cg i =
    Ret (p ← sc_pos (cg_chain cg) !! i; t ← get_tx (cg_graph cg) i; Some (p, t)).
Proof.
  intros (Hc & Hg & Hf & Hd). unfold get_tx_in_chain, tx_position.
  destruct (sc_pos (cg_chain cg) !! i) as [p|] eqn:E; [|done].
  destruct (Hf i) as [t ->]; [unfold in_chain; eauto|]. done.
Qed.
Lemma transactions_in_chain_ok cg :
  cg_ok cg → ∃ l, transactions_in_chain cg = Ret l ∧
    (λ pt, (pt.1, txid pt.2)) <$> l = txids (cg_chain cg) ∧
    (∀ p t, (p, t) ∈ l ↔ sc_pos (cg_chain cg) !! txid t = Some p ∧ get_tx (cg_graph cg) (txid t) = Some t).
Proof.
  intros (Hc & Hg & Hf & Hd). unfold transactions_in_chain.
  assert (∀ l : list (P * Txid), (∀ p i, (p, i) ∈ l → in_chain cg i) → ∃ r, with_full_txs (cg_graph cg) l = Ret r ∧
    (λ pt : P * Tx, (pt.1, txid pt.2)) <$> r = l ∧ ∀ p t, (p, t) ∈ r ↔ (p, txid t) ∈ l ∧ get_tx (cg_graph cg) (txid t) = Some t) as Hx.
  { induction l as [|[p i] l IH]; intros Hl; [exists []; set_solver|].
    destruct (Hf i) as [t Ht]; [eapply Hl, elem_of_list_here|].
    assert (txid t = i) as Hti by (apply Hg; by apply get_tx_Some).
    destruct IH as (r & E & Hr & Hm); [intros q j Hin; by eapply Hl, elem_of_list_further|].
    exists ((p, t) :: r). cbn [with_full_txs]. rewrite Ht, E. split; [done|].
    split; [rewrite fmap_cons, Hr; simpl; by rewrite Hti|]. intros q t'. rewrite !elem_of_cons, Hm. split.
    - intros [[= -> ->]|[Hin Ht']]; [|naive_solver]. rewrite Hti. naive_solver.
    - intros [[[= -> Hi]|Hin] Ht']; [|naive_solver]. left. congruence. }
  destruct (Hx (txids (cg_chain cg))) as (r & E & Hr & Hm).
  { intros p i Hin. apply txids_elem in Hin; [|apply Hc]. unfold in_chain. eauto. }
  exists r. split; [done|]. split; [done|]. intros p t. rewrite Hm, txids_elem by apply Hc. done.
Qed.

(** ** C28 for the two operations *)
Lemma update_conflicts ho cg u ord :
  cg_ok cg → cg_ok u → hash_order (cg_graph cg) ho → ord ≡ₚ map_to_list (sc_pos (cg_chain u)) →
  match determine_changeset (cg_chain cg) (cg_chain u) ord with
  | Panic => False
  | Ret (Err e) => cg_determine_changeset ho cg u ord = Ret (Err (CgUpdChain e))
  | Ret (Ok ccs) =>
      let ad := determine_additions (cg_graph cg) (cg_graph u) in
      (∃ e, cg_determine_changeset ho cg u ord = Ret (Err (CgUpdConflict e)) ∧ real_conflict cg (mkCGS ccs ad) e) ∨
      (∃ cs, cg_determine_changeset ho cg u ord = Ret (Ok cs) ∧ resolved cg ccs ad cs)
  end.
Proof.
  intros (Hc & Hg & Hf & Hd) (Huc & Hug & Huf & Hud) Hho Hord. unfold cg_determine_changeset.
  destruct (determine_changeset (cg_chain cg) (cg_chain u) ord) as [[ccs|e]|] eqn:E; [|done|by apply determine_no_panic in E].
  cbn zeta.
  assert (backed cg (mkCGS ccs (determine_additions (cg_graph cg) (cg_graph u)))) as Hb.
  { apply backed_update; [apply Hug|]. intros n q Hn Hni. apply not_in_chain in Hni.
    eapply determine_new in E; [|done..]. apply Huf. unfold in_chain. eauto. }
  pose proof (fix_conflicts_spec ho cg _ Hg Hho Hb) as Hs.
  destruct (fix_conflicts _ _ _) as [[cs|e]|] eqn:E'; [|by left; eauto|done].
  right. exists cs. split; [done|]. done.
Qed.
Lemma insert_conflicts ho cg t p :
  cg_ok cg → hash_order (cg_graph cg) ho →
  match insert_tx_preview (cg_chain cg) (txid t) p with
  | Panic => False
  | Ret (Err e) => cg_insert_tx_preview ho cg t p = Ret (Err (CgTxChain e))
  | Ret (Ok ccs) =>
      let ad := tg_insert_tx_preview (cg_graph cg) t in
      (∃ e, cg_insert_tx_preview ho cg t p = Ret (Err (CgTxConflict e)) ∧ real_conflict cg (mkCGS ccs ad) e) ∨
      (∃ cs, cg_insert_tx_preview ho cg t p = Ret (Ok cs) ∧ resolved cg ccs ad cs)
  end.
Proof.
  intros (Hc & Hg & Hf & Hd) Hho. unfold cg_insert_tx_preview.
  destruct (insert_tx_preview (cg_chain cg) (txid t) p) as [[ccs|e]|] eqn:E; [|done|by apply insert_tx_preview_no_panic in E].
  cbn zeta.
  pose proof (fix_conflicts_spec ho cg _ Hg Hho (insert_tx_backed cg t p ccs Hc E)) as Hs.
  destruct (fix_conflicts _ _ _) as [[cs|e]|] eqn:E'; [|by left; eauto|done].
  right. exists cs. split; [done|]. done.
Qed.
Lemma eviction_iff cs : contains_eviction cs = true ↔ ∃ i, cs_txids (cgs_chain cs) !! i = Some None.
Proof.
  unfold contains_eviction. rewrite existsb_exists. split.
  - intros ([i [p|]] & Hin & Hb); [done|]. apply elem_of_list_In, elem_of_bmap_list in Hin. eauto.
  - intros [i Hi]. exists (i, None). split; [|done]. by apply elem_of_list_In, elem_of_bmap_list.
Qed.

(** ** C30 *)
Lemma inflate_spec ho cg c txs :
  cg_ok cg → chain_ok c → hash_order (inflate_graph cg c txs) ho →
  let supplied i := is_Some (get_tx (cg_graph cg) i) ∨ ∃ t, t ∈ txs ∧ txid t = i in
  match inflate_update ho cg c txs with
  | Panic => False
  | Ret (Ok u) =>
      cg_chain u = c ∧ cg_ok u ∧ (∀ i, in_chain u i → supplied i) ∧
      (∀ i, in_chain u i → ∃ t, get_tx (cg_graph u) i = Some t ∧ (get_tx (cg_graph cg) i = Some t ∨ t ∈ txs))
  | Ret (Err (NewMissing m)) =>
      (∀ i, i ∈ m ↔ is_Some (sc_pos c !! i) ∧ ¬ supplied i) ∧ m ≠ ∅
  | Ret (Err (NewConflict (p, i) (q, j))) =>
      i ≠ j ∧ sc_pos c !! i = Some p ∧ sc_pos c !! j = Some q ∧
      ∃ a b, (get_tx (cg_graph cg) i = Some a ∨ a ∈ txs) ∧ (get_tx (cg_graph cg) j = Some b ∨ b ∈ txs) ∧
             txid a = i ∧ txid b = j ∧ double_spend a b
  end.
Proof.
  intros Hok Hc Hho. cbn zeta. unfold inflate_update.
  pose proof (inflate_graph_ok cg c txs) as Hg.
  pose proof (cg_new_spec ho c _ Hc Hg Hho) as Hs.
  destruct (Hok) as (Hcc & [Hk Hsp] & Hf & Hd).
  assert (∀ i t, is_Some (sc_pos c !! i) → get_tx (inflate_graph cg c txs) i = Some t →
     (get_tx (cg_graph cg) i = Some t ∨ t ∈ txs) ∧ txid t = i) as Hfrom.
  { intros i t Hi Ht. split; [|apply Hg; by apply get_tx_Some].
    rewrite inflate_get_tx in Ht by (done || apply Hc). apply in_chainb_iff in Hi. rewrite Hi in Ht.
    destruct (get_tx (cg_graph cg) i); [by left|]. right. by apply head_filter_Some in Ht as [? _]. }
  destruct (cg_new ho c (inflate_graph cg c txs)) as [[u|[[p i] [q j]|m]]|] eqn:E; [|..|done].
  - destruct Hs as (-> & Huf & Hud). split; [done|]. split; [done|]. split.
    + intros i Hi. destruct (Huf i Hi) as [t Ht]. destruct (Hfrom i t Hi Ht) as [[?|?] ?]; [left; eauto|right; eauto].
    + intros i Hi. destruct (Huf i Hi) as [t Ht]. exists t. split; [done|]. by apply Hfrom.
  - destruct Hs as (Hne & Hi & Hj & a & b & Ha & Hb & Hdd). split; [done|]. split; [done|]. split; [done|].
    destruct (Hfrom i a) as [? ?]; [eauto|done|]. destruct (Hfrom j b) as [? ?]; [eauto|done|]. exists a, b. done.
  - destruct Hs as (Hne & Hm & Hud). split; [|done]. intros i. rewrite Hm. split.
    + intros [Hi Ht]. split; [done|]. rewrite inflate_get_tx in Ht by (done || apply Hc).
      apply in_chainb_iff in Hi. rewrite Hi in Ht. destruct (get_tx (cg_graph cg) i) eqn:Eg; [done|].
      rewrite head_filter_None in Ht. intros [[? ?]|(t & Hin & Hti)]; [done|]. by eapply Ht.
    + intros [Hi Hns]. split; [done|]. rewrite inflate_get_tx by (done || apply Hc).
      pose proof Hi as Hi'. apply in_chainb_iff in Hi'. rewrite Hi'.
      destruct (get_tx (cg_graph cg) i) eqn:Eg; [destruct Hns; left; eauto|].
      apply head_filter_None. intros t Hin Hti. apply Hns. right. eauto.
Qed.

(** ** Append *)
Lemma cgs_append_apply cg A B :
  views_agree (cg_chain cg) → sc_limit (cg_chain cg) = None →
  ad_inj (ad_tx (cgs_graph A) ∪ ad_tx (cgs_graph B)) →
  cg_apply_changeset cg (cgs_append A B) = cg_apply_changeset (cg_apply_changeset cg A) B.
Proof.
  intros Hv Hl Hi. unfold cg_apply_changeset. cbn [cgs_append cgs_chain cgs_graph cg_chain cg_graph].
  by rewrite append_apply, ad_append_apply.
Qed.
End proofs.
