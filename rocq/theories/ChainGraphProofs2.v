(** Proofs about the chain graph: the invariants, construction, the spent view. *)
From Verif Require Export ChainGraphProofs.

Section proofs.
Context `{ChainPositionLaws P}.
Implicit Types (cg u : ChainGraph P) (cs : CgChangeSet P) (c : SparseChain P) (g : TxGraph).

Lemma backed_update cg ug ccs :
  keyed ug →
  (∀ n p, cs_txids ccs !! n = Some (Some p) → ¬ in_chain cg n → is_Some (get_tx ug n)) →
  backed cg (mkCGS ccs (determine_additions (cg_graph cg) ug)).
Proof.
  intros Hk Hn. split.
  - intros n p Hp Hi. cbn [cgs_chain] in Hp.
    destruct (get_tx (cg_graph cg) n) as [t|] eqn:E.
    + exists t. split; [done|]. split; [done|]. by left.
    + destruct (Hn n p Hp Hi) as [t Ht]. exists t. split; [done|]. split; [done|]. right. split; [done|].
      apply get_tx_Some in Ht. split; [|by apply Hk]. apply determine_tx. eauto.
  - intros n t t' p (_ & _ & Ht) (_ & _ & Ht'). cbn [cgs_graph] in *.
    destruct Ht as [Ht|(Hx & Ht & Hi)], Ht' as [Ht'|(Hx' & Ht' & Hi')]; try congruence.
    eapply (determine_inj (cg_graph cg) ug); [done..|congruence].
Qed.
Lemma newly_added_txid cg cs n t p : keyed (cg_graph cg) → newly_added cg cs n t p → txid t = n.
Proof. intros Hk (_ & _ & [Ht|(_ & _ & Ht)]); [|done]. apply get_tx_Some in Ht. by apply Hk. Qed.
Lemma newly_added_inputs W cg ug ccs n t p :
  inputs_by_txid W (cg_graph cg) → inputs_by_txid W ug → keyed ug →
  newly_added cg (mkCGS ccs (determine_additions (cg_graph cg) ug)) n t p → tx_in t = W n.
Proof.
  intros Hw Hw' Hk (_ & _ & [Ht|(_ & Ht & <-)]); [by apply Hw|].
  apply determine_tx in Ht as (i & Hi & _). pose proof (Hk _ _ Hi) as <-. apply Hw'. by apply get_tx_Some.
Qed.

Lemma update_inputs W g ug :
  inputs_by_txid W g → inputs_by_txid W ug → keyed ug → inputs_by_txid W (tg_apply_update g ug).1.
Proof.
  intros Hg Hu Hk i t. rewrite update_get_tx by done. destruct (get_tx g i) eqn:E.
  - intros [= <-]. by apply Hg.
  - apply Hu.
Qed.

(** Merging a graph and placing its transactions keeps the invariants. *)
Lemma merge_ok W ho cg ug ccs cs' :
  cg_ok cg → inputs_by_txid W (cg_graph cg) → hash_order (cg_graph cg) ho →
  keyed ug → inputs_by_txid W ug → cs_vals_ok ccs →
  (∀ n p, cs_txids ccs !! n = Some (Some p) → ¬ in_chain cg n → is_Some (get_tx ug n)) →
  (∀ i j p q a b, cs_txids ccs !! i = Some (Some p) → cs_txids ccs !! j = Some (Some q) →
     ¬ in_chain cg i → ¬ in_chain cg j → get_tx ug i = Some a → get_tx ug j = Some b → double_spend a b → i = j) →
  fix_conflicts ho cg (mkCGS ccs (determine_additions (cg_graph cg) ug)) = Ret (Ok cs') →
  cg_ok (cg_apply_changeset cg cs') ∧ inputs_by_txid W (cg_graph (cg_apply_changeset cg cs')).
Proof.
  intros (Hc & Hg & Hf & Hds) HW Hho Hk HWu Hv Hnew Hnewds E.
  pose proof (backed_update cg ug ccs Hk Hnew) as Hb.
  pose proof (fix_conflicts_spec ho cg _ Hg Hho Hb) as Hs. rewrite E in Hs.
  destruct Hs as (_ & Hgr & Hcp & Hev & Hke). cbn [cgs_chain cgs_graph] in *.
  set (cs := mkCGS ccs (determine_additions (cg_graph cg) ug)) in *.
  assert (cg_graph (cg_apply_changeset cg cs') = (tg_apply_update (cg_graph cg) ug).1) as Hgraph.
  { cbn [cg_apply_changeset cg_graph]. rewrite Hgr. done. }
  assert (∀ i o, cs_txids (cgs_chain cs') !! i = Some (Some o) → cs_txids ccs !! i = Some (Some o)) as Hsub.
  { intros i o Hi. rewrite <- Hi. symmetry. apply Hke. intros Hx. apply Hev in Hx. congruence. }
  (* what being in the new chain means *)
  assert (∀ i, in_chain (cg_apply_changeset cg cs') i → ¬ conflicting cg cs i ∧
            (in_chain cg i ∨ ¬ in_chain cg i ∧ ∃ p, cs_txids ccs !! i = Some (Some p))) as Hin.
  { intros i [p Hp]. cbn [cg_apply_changeset cg_chain] in Hp. rewrite apply_changeset_pos in Hp. split.
    - intros Hx%Hev. by rewrite Hx in Hp.
    - destruct (sc_pos (cg_chain cg) !! i) as [q|] eqn:Eq; [left; unfold in_chain; rewrite Eq; eauto|]. right.
      split; [unfold in_chain; rewrite Eq; by intros [? ?]|].
      destruct (cs_txids (cgs_chain cs') !! i) as [o|] eqn:Eo; [|congruence]. subst o. eauto. }
  assert (keyed (cg_graph cg)) as Hkg by apply Hg.
  split; [|rewrite Hgraph; by apply update_inputs].
  split; [|split; [|split]].
  - cbn [cg_apply_changeset cg_chain]. apply apply_changeset_ok; [done|].
    destruct Hv as [Hv1 Hv2]. split.
    + intros h x. rewrite Hcp. apply Hv1.
    + intros t p Ht%Hsub. by eapply Hv2.
  - rewrite Hgraph. by apply update_ok.
  - intros i Hi. rewrite Hgraph, update_get_tx by done.
    destruct (get_tx (cg_graph cg) i) as [t|] eqn:Et; [eauto|].
    destruct (Hin i Hi) as [_ [Hold|[Hn [p Hp]]]].
    + apply Hf in Hold as [? ?]. congruence.
    + by eapply Hnew.
  - intros i j a b Hi Hj Ha Hbb Hd. rewrite Hgraph in Ha, Hbb.
    assert (∀ i a, get_tx (tg_apply_update (cg_graph cg) ug).1 i = Some a → tx_in a = W i) as HWa.
    { intros k t. by apply update_inputs. }
    assert (∀ i a, in_chain cg i → get_tx (tg_apply_update (cg_graph cg) ug).1 i = Some a → get_tx (cg_graph cg) i = Some a) as Hold.
    { intros k t Hko Ht. rewrite update_get_tx in Ht by done. apply Hf in Hko as [t' Ht']. by rewrite Ht' in *. }
    destruct (Hin i Hi) as [Hci [Hio|[Hin' [p Hp]]]], (Hin j Hj) as [Hcj [Hjo|[Hjn [q Hq]]]].
    + exact (Hds i j a b Hio Hjo (Hold i a Hio Ha) (Hold j b Hjo Hbb) Hd).
    + destruct (decide (i = j)) as [|Hne]; [done|]. exfalso. apply Hci.
      destruct (proj1 Hb j q Hq Hjn) as [t Ht]. exists j, t, q. split; [done|]. split; [done|].
      apply rf_root. destruct Hd as (o & Ho & Hoa & Hob).
      assert (o ∈ tx_in t) as Hot.
      { rewrite (newly_added_inputs W cg ug ccs j t q) by done. rewrite <- (HWa j b Hbb). done. }
      apply elem_of_list_lookup in Hot as [vin Hvin]. exists vin.
      split; [rewrite (newly_added_txid cg cs j t q); done|]. exists o, a. eauto.
    + destruct (decide (i = j)) as [|Hne]; [done|]. exfalso. apply Hcj.
      destruct (proj1 Hb i p Hp Hin') as [t Ht]. exists i, t, p. split; [done|]. split; [done|].
      apply rf_root. destruct Hd as (o & Ho & Hoa & Hob).
      assert (o ∈ tx_in t) as Hot.
      { rewrite (newly_added_inputs W cg ug ccs i t p) by done. rewrite <- (HWa i a Ha). done. }
      apply elem_of_list_lookup in Hot as [vin Hvin]. exists vin.
      split; [rewrite (newly_added_txid cg cs i t p); done|]. exists o, b. eauto.
    + destruct (Hnew i p Hp Hin') as [a' Ha']. destruct (Hnew j q Hq Hjn) as [b' Hb'].
      eapply Hnewds; [done..|]. destruct Hd as (o & Ho & Hoa & Hob). exists o. split; [done|].
      rewrite (HWu i a') by done. rewrite (HWu j b') by done. rewrite (HWa i a) in Hoa by done.
      rewrite (HWa j b) in Hob by done. done.
Qed.

Lemma cg_ok_default : cg_ok (cg_default (P:=P)).
Proof.
  split; [apply chain_ok_default|]. split; [apply graph_ok_default|]. split.
  - intros i [? Hi]. simpl in Hi. by rewrite lookup_empty in Hi.
  - intros i j a b [? Hi]. simpl in Hi. by rewrite lookup_empty in Hi.
Qed.

(** ** Construction *)
(** The first reported conflict is a direct one. *)
Lemma descend_head {R} ho g (f : nat → Txid → option R) fuel V st x l :
  descend ho g f fuel V st = Some (x :: l) → ∃ d i, (d, i) ∈ st ∧ f d i = Some x.
Proof.
  revert V st. induction fuel as [|fuel IH]; intros V st; [by destruct st|].
  destruct st as [|[d i] st]; [done|]. simpl. case_bool_decide.
  { intros E%IH. destruct E as (d' & i' & Hin & E). exists d', i'. split; [by apply elem_of_list_further|done]. }
  destruct (f d i) as [r|] eqn:Ef.
  - intros E. apply fmap_Some in E as (l' & _ & [= <- <-]). exists d, i. split; [apply elem_of_list_here|done].
  - intros E%IH. destruct E as (d' & i' & Hin & E). exists d', i'. split; [by apply elem_of_list_further|done].
Qed.
Lemma first_conflict ho c g t p i l :
  graph_ok g → hash_order g ho → tx_conflicts_in_chain ho c g t = Ret ((p, i) :: l) →
  sc_pos c !! i = Some p ∧ i ≠ txid t ∧ ∃ ti, get_tx g i = Some ti ∧ double_spend t ti.
Proof.
  intros Hg Hho. unfold tx_conflicts_in_chain, walk_conflicts, descend_all.
  destruct (descend _ _ _ _ _ _) as [l'|] eqn:E; [|done]. intros [= ->].
  apply descend_head in E as (d & j & Hin & Hj). unfold tx_position in Hj.
  destruct (sc_pos c !! j) as [q|] eqn:Eq; [|done]. simplify_eq/=.
  apply elem_of_reverse, elem_of_list_fmap in Hin as ([vin s] & [= -> ->] & Hin).
  apply direct_conflicts_exact in Hin as (Hne & o & ts & Ho & Hnn & Hts & Hi); [|done..].
  split; [done|]. split; [done|]. exists ts. split; [done|]. exists o. split; [done|].
  split; [|done]. by eapply elem_of_list_lookup_2.
Qed.
Lemma no_conflicts ho c g t :
  graph_ok g → hash_order g ho → tx_conflicts_in_chain ho c g t = Ret [] →
  ∀ i ti, is_Some (sc_pos c !! i) → get_tx g i = Some ti → double_spend t ti → i = txid t.
Proof.
  intros Hg Hho E i ti [p Hp] Hti (o & Hnn & Ho & Hoi).
  destruct (conflicts_in_chain_spec ho c g t Hg Hho) as (l & E' & Hl).
  assert (l = []) as -> by congruence.
  destruct (decide (i = txid t)) as [|Hne]; [done|].
  apply elem_of_list_lookup in Ho as [vin Hvin].
  assert ((p, i) ∈ []) as Hin; [|by apply elem_of_nil in Hin].
  apply Hl. split; [done|]. apply rf_root. exists vin. split; [done|]. exists o, ti. done.
Qed.

Lemma new_loop_spec ho c g l missing :
  graph_ok g → hash_order g ho →
  match cg_new_loop ho c g l missing with
  | Panic => False
  | Ret (Ok m) =>
      (∀ i, i ∈ m ↔ i ∈ missing ∨ i ∈ l.*2 ∧ get_tx g i = None) ∧
      (∀ i j a b, i ∈ l.*2 → is_Some (sc_pos c !! j) → get_tx g i = Some a → get_tx g j = Some b → double_spend a b → i = j)
  | Ret (Err (NewConflict (p, i) (q, j))) =>
      (p, i) ∈ l ∧ sc_pos c !! j = Some q ∧ i ≠ j ∧
      ∃ a b, get_tx g i = Some a ∧ get_tx g j = Some b ∧ double_spend a b
  | Ret (Err (NewMissing _)) => False
  end.
Proof.
  intros Hg Hho. revert missing. induction l as [|[p i] l IH]; intros missing.
  { simpl. split; [intros; set_solver|]. set_solver. }
  cbn [cg_new_loop]. destruct (get_tx g i) as [t|] eqn:Et.
  - assert (txid t = i) as Hti by (apply Hg; by apply get_tx_Some).
    destruct (conflicts_in_chain_spec ho c g t Hg Hho) as (l' & E & _).
    destruct l' as [|[q j] l']; rewrite E.
    + specialize (IH missing). destruct (cg_new_loop ho c g l missing) as [[m|[[p' i'] [q' j']|m]]|]; [|..|done].
      * destruct IH as [Hm Hd]. split.
        -- intros k. rewrite Hm. rewrite fmap_cons, elem_of_cons. simpl. split; [naive_solver|].
           intros [?|[[-> | ?] ?]]; [by left|congruence|by right].
        -- intros k j a b Hk Hj Ha Hb Hdd. rewrite fmap_cons, elem_of_cons in Hk. simpl in Hk.
           destruct Hk as [->|Hk]; [|by eapply Hd]. assert (a = t) as -> by congruence.
           symmetry. rewrite <- Hti. by eapply no_conflicts.
      * destruct IH as (Hin & ? & ? & ?). split; [by apply elem_of_list_further|done].
      * done.
    + apply first_conflict in E as (Hq & Hne & tj & Htj & Hd); [|done..].
      split; [apply elem_of_list_here|]. split; [done|]. split; [congruence|]. exists t, tj. done.
  - specialize (IH ({[ i ]} ∪ missing)).
    destruct (cg_new_loop ho c g l ({[ i ]} ∪ missing)) as [[m|[[p' i'] [q' j']|m]]|]; [|..|done].
    + destruct IH as [Hm Hd]. split.
      * intros k. rewrite Hm, fmap_cons, elem_of_cons, elem_of_union, elem_of_singleton. simpl. naive_solver.
      * intros k j a b Hk Hj Ha Hb Hdd. rewrite fmap_cons, elem_of_cons in Hk. simpl in Hk.
        destruct Hk as [->|Hk]; [congruence|by eapply Hd].
    + destruct IH as (Hin & ? & ? & ?). split; [by apply elem_of_list_further|done].
    + done.
Qed.
Lemma cg_new_spec ho c g :
  chain_ok c → graph_ok g → hash_order g ho →
  match cg_new ho c g with
  | Panic => False
  | Ret (Ok cg) => cg = mkCG c g ∧ txs_full cg ∧ no_double_spend cg
  | Ret (Err (NewConflict (p, i) (q, j))) =>
      i ≠ j ∧ sc_pos c !! i = Some p ∧ sc_pos c !! j = Some q ∧
      ∃ a b, get_tx g i = Some a ∧ get_tx g j = Some b ∧ double_spend a b
  | Ret (Err (NewMissing m)) =>
      m ≠ ∅ ∧ (∀ i, i ∈ m ↔ is_Some (sc_pos c !! i) ∧ get_tx g i = None) ∧ no_double_spend (mkCG c g)
  end.
Proof.
  intros Hc Hg Hho. unfold cg_new. pose proof (new_loop_spec ho c g (txids c) ∅ Hg Hho) as Hl.
  assert (∀ i, i ∈ (txids c).*2 ↔ is_Some (sc_pos c !! i)) as Hin.
  { intros i. rewrite elem_of_list_fmap. split.
    - intros ([p j] & -> & Hin). apply txids_elem in Hin; [|apply Hc]. simpl. eauto.
    - intros [p Hp]. exists (p, i). split; [done|]. apply txids_elem; [apply Hc|done]. }
  destruct (cg_new_loop ho c g (txids c) ∅) as [[m|[[p i] [q j]|m]]|]; [|..|done].
  - destruct Hl as [Hm Hd]. assert (no_double_spend (mkCG c g)) as Hn.
    { intros i j a b Hi Hj. apply Hd; [|done]. by apply Hin. }
    case_bool_decide as Hb.
    + split; [done|]. split; [|done]. intros i Hi. simpl. destruct (get_tx g i) eqn:E; [eauto|].
      exfalso. assert (i ∈ m); [|set_solver]. apply Hm. right. split; [|done]. by apply Hin.
    + split; [done|]. split; [|done]. intros i. rewrite Hm, Hin. set_solver.
  - destruct Hl as (Hi & Hj & Hne & Hx). apply txids_elem in Hi; [|apply Hc]. eauto.
  - done.
Qed.
Lemma cg_new_ok ho c g cg :
  chain_ok c → graph_ok g → hash_order g ho → cg_new ho c g = Ret (Ok cg) → cg_ok cg ∧ cg_graph cg = g.
Proof.
  intros Hc Hg Hho E. pose proof (cg_new_spec ho c g Hc Hg Hho) as Hs. rewrite E in Hs.
  destruct Hs as (-> & Hf & Hn). done.
Qed.

(** ** inflate_update *)
Lemma inflate_run cg c txs :
  inflate_graph cg c txs = g_run (GTx <$> (omap (λ pt, get_tx (cg_graph cg) pt.2) (txids c) ++ txs)).
Proof. apply tg_new_run. Qed.
Lemma all_tx_ok (l : list Tx) : Forall g_op_ok (GTx <$> l).
Proof. induction l; constructor; done. Qed.
Lemma inflate_graph_ok cg c txs : graph_ok (inflate_graph cg c txs).
Proof. rewrite inflate_run. apply g_run_ok, all_tx_ok. Qed.
Lemma offered_all (l : list Tx) : (GTx <$> l) ≫= offered_txs = l.
Proof. induction l as [|t l IH]; [done|]. cbn. by rewrite IH. Qed.
Lemma inflate_get_tx cg c txs i :
  keyed (cg_graph cg) → views_agree c →
  get_tx (inflate_graph cg c txs) i =
  match (if in_chainb c i then get_tx (cg_graph cg) i else None) with
  | Some t => Some t
  | None => head (filter (λ t, txid t = i) txs)
  end.
Proof.
  intros Hk Hv. rewrite inflate_run, run_get_tx by apply all_tx_ok. rewrite offered_all, filter_app, head_app'.
  set (l := omap (λ pt : P * Txid, get_tx (cg_graph cg) pt.2) (txids c)).
  assert (∀ t, t ∈ filter (λ t, txid t = i) l ↔ is_Some (sc_pos c !! i) ∧ get_tx (cg_graph cg) i = Some t) as Hl.
  { intros t. rewrite elem_of_list_filter. unfold l. rewrite elem_of_list_omap. split.
    - intros [<- ([p j] & Hin & Ht)]. simpl in Ht. apply txids_elem in Hin; [|done].
      assert (txid t = j) as -> by (apply Hk; by apply get_tx_Some). eauto.
    - intros [[p Hp] Ht]. split; [apply Hk; by apply get_tx_Some|]. exists (p, i). split; [by apply txids_elem|done]. }
  destruct (head (filter (λ t, txid t = i) l)) as [t|] eqn:E.
  - assert (t ∈ filter (λ t, txid t = i) l) as Hin.
    { destruct (filter _ l); simplify_eq/=. apply elem_of_list_here. }
    apply Hl in Hin as [Hs Ht]. apply in_chainb_iff in Hs. rewrite Hs, Ht. done.
  - destruct (filter (λ t, txid t = i) l) eqn:El; [|done].
    destruct (in_chainb c i) eqn:Eb; [|done]. apply in_chainb_iff in Eb.
    destruct (get_tx (cg_graph cg) i) as [t|] eqn:Et; [|done].
    assert (t ∈ []) as Hin by (apply Hl; done). by apply elem_of_nil in Hin.
Qed.
Lemma head_filter_Some (Q : Tx → Prop) `{∀ x, Decision (Q x)} l t :
  head (filter Q l) = Some t → t ∈ l ∧ Q t.
Proof.
  intros E. assert (t ∈ filter Q l) as Hin by (destruct (filter Q l); simplify_eq/=; apply elem_of_list_here).
  apply elem_of_list_filter in Hin. naive_solver.
Qed.
Lemma inflate_inputs W cg c txs :
  inputs_by_txid W (cg_graph cg) → keyed (cg_graph cg) → views_agree c →
  Forall (λ t, tx_in t = W (txid t)) txs → inputs_by_txid W (inflate_graph cg c txs).
Proof.
  intros HW Hk Hv Ht i t. rewrite inflate_get_tx by done.
  destruct (if in_chainb c i then get_tx (cg_graph cg) i else None) as [t'|] eqn:E.
  - intros [= <-]. apply HW. by destruct (in_chainb c i).
  - intros [Hin <-]%head_filter_Some. rewrite Forall_forall in Ht. by apply Ht.
Qed.
Lemma head_filter_None (Q : Tx → Prop) `{∀ x, Decision (Q x)} l :
  head (filter Q l) = None ↔ ∀ t, t ∈ l → ¬ Q t.
Proof.
  split.
  - intros E t Ht HQ. assert (t ∈ filter Q l) as Hin by (apply elem_of_list_filter; done).
    destruct (filter Q l); [by apply elem_of_nil in Hin|done].
  - intros Hn. destruct (filter Q l) as [|t l'] eqn:E; [done|].
    assert (t ∈ filter Q l) as Hin by (rewrite E; apply elem_of_list_here).
    apply elem_of_list_filter in Hin as [HQ Hin]. exfalso. by eapply Hn.
Qed.

(** ** The spent view (C29) *)
Lemma spent_by_exact ho cg o p s :
  cg_ok cg → hash_order (cg_graph cg) ho →
  cg_spent_by ho cg o = Some (p, s) ↔
  sc_pos (cg_chain cg) !! s = Some p ∧
  o ≠ null_outpoint ∧ ∃ t, get_tx (cg_graph cg) s = Some t ∧ o ∈ tx_in t.
Proof.
  intros (Hc & [Hk Hs] & Hf & Hd) Hho. unfold cg_spent_by, sc_spent_by, tx_position.
  set (l := omap (λ s, (λ p, (p, s)) <$> sc_pos (cg_chain cg) !! s)
              match tg_spends (cg_graph cg) !! o with Some _ => ho o | None => [] end).
  assert (∀ p s, (p, s) ∈ l ↔ sc_pos (cg_chain cg) !! s = Some p ∧
    o ≠ null_outpoint ∧ ∃ t, get_tx (cg_graph cg) s = Some t ∧ o ∈ tx_in t) as Hl.
  { intros p' s'. unfold l. rewrite elem_of_list_omap, <- (Hs o s'). split.
    - intros (x & Hx & E). destruct (sc_pos (cg_chain cg) !! x) as [q|] eqn:Eq; simplify_eq/=.
      split; [done|]. destruct (tg_spends (cg_graph cg) !! o) eqn:Eo; [|by apply elem_of_nil in Hx].
      by apply (elem_of_ho _ _ Hho) in Hx.
    - intros [Hp Hin]. exists s'. rewrite Hp. split; [|done].
      destruct (tg_spends (cg_graph cg) !! o) eqn:Eo.
      + by apply (elem_of_ho _ _ Hho).
      + unfold outspends in Hin. rewrite Eo in Hin. simpl in Hin. set_solver. }
  destruct l as [|[p' s'] l'].
  - simpl. split; [done|]. intros Hx. apply Hl in Hx. by apply elem_of_nil in Hx.
  - simpl. assert ((p', s') ∈ (p', s') :: l') as Hin by apply elem_of_list_here. apply Hl in Hin.
    split; [by intros [= <- <-]|]. intros Hx.
    destruct Hin as (Hp' & Hn & t' & Ht' & Ho'). destruct Hx as (Hp & _ & t & Ht & Ho).
    assert (s' = s) as <-.
    { eapply (Hd s' s t' t); [unfold in_chain; eauto..|done|done|]. exists o. done. }
    congruence.
Qed.
Lemma full_txout_exact ho cg o f :
  cg_ok cg → hash_order (cg_graph cg) ho →
  cg_full_txout ho cg o = Some f ↔
  ∃ t, get_tx (cg_graph cg) (op_txid o) = Some t ∧
    fto_outpoint f = o ∧ sc_pos (cg_chain cg) !! op_txid o = Some (fto_pos f) ∧
    tx_out t !! N.to_nat (op_vout o) = Some (fto_txout f) ∧
    fto_spent_by f = cg_spent_by ho cg o ∧ fto_on_coinbase f = is_coin_base t.
Proof.
  intros Hok Hho. unfold cg_full_txout, sc_full_txout, tx_position.
  destruct (sc_pos (cg_chain cg) !! op_txid o) as [p|] eqn:Ep; [|naive_solver].
  destruct (get_tx (cg_graph cg) (op_txid o)) as [t|] eqn:Et; [|naive_solver].
  destruct (tx_out t !! N.to_nat (op_vout o)) as [x|] eqn:Ex; [|naive_solver].
  split.
  - intros [= <-]. exists t. done.
  - intros (t' & [= <-] & E1 & [= E2] & E3 & E4 & E5). destruct f; simpl in *.
    unfold cg_spent_by in E4. rewrite Ex in E3. congruence.
Qed.
End proofs.
