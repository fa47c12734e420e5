(** Proofs about the chain graph: conflicts in the chain and their resolution. *)
From Verif Require Export ChainGraphSpec SparseChainProofs3 TxGraphProofs3.

Lemma descend_ext {R} g ho (f f' : nat → Txid → option R) fuel V st :
  (∀ d i, f d i = f' d i) → descend ho g f fuel V st = descend ho g f' fuel V st.
Proof.
  intros Hf. revert V st. induction fuel as [|fuel IH]; intros V st; [done|].
  destruct st as [|[d j] st]; [done|]. simpl. rewrite Hf, !IH. case_bool_decide; [done|].
  by destruct (f' d j).
Qed.

Section proofs.
Context `{ChainPositionLaws P}.
Implicit Types (cg u : ChainGraph P) (cs : CgChangeSet P) (c : SparseChain P) (g : TxGraph).

Lemma in_chainb_iff c i : in_chainb c i = true ↔ is_Some (sc_pos c !! i).
Proof. unfold in_chainb. destruct (sc_pos c !! i); split; eauto; try done. by intros [? ?]. Qed.

(** The walk of a transaction's conflicts, restricted to the chain. *)
Lemma conflicts_in_chain_spec ho c g t :
  graph_ok g → hash_order g ho →
  ∃ l, tx_conflicts_in_chain ho c g t = Ret l ∧
    ∀ p i, (p, i) ∈ l ↔ sc_pos c !! i = Some p ∧
      reach_from g (in_chainb c) (λ s, ∃ vin, conflicts_at g t vin s) i.
Proof.
  intros Hg Hho.
  destruct (walk_conflicts_exact g ho (in_chainb c) t Hg Hho) as (l & E & _ & Hl).
  exists ((λ di : nat * Txid, (default (pos_max_of Unconfirmed) (sc_pos c !! di.2), di.2)) <$> l).
  unfold tx_conflicts_in_chain, walk_conflicts, descend_all in *. split.
  - rewrite (descend_ext g ho _ (λ d i, fmap (M:=option) (λ di : nat * Txid, (default (pos_max_of Unconfirmed) (sc_pos c !! di.2), di.2))
      (if in_chainb c i then Some (d, i) else None))).
    + rewrite descend_map, E. done.
    + intros d i. unfold in_chainb, tx_position. destruct (sc_pos c !! i) eqn:Ei; simpl; [|done]. by rewrite Ei.
  - intros p i. rewrite elem_of_list_fmap. split.
    + intros ([d j] & [= -> ->] & Hin).
      assert (j ∈ l.*2) as Hj by (apply elem_of_list_fmap; by exists (d, j)).
      apply Hl in Hj as [Hk Hr]. split; [|done]. simpl. apply in_chainb_iff in Hk as [q ->]. done.
    + intros [Hp Hr]. assert (i ∈ l.*2) as Hi by (apply Hl; split; [apply in_chainb_iff; eauto|done]).
      apply elem_of_list_fmap in Hi as ([d j] & -> & Hin). exists (d, j). split; [|done]. simpl in *. by rewrite Hp.
Qed.

(** [find_full] finds the transaction of a newly added txid. *)
Lemma find_full_Some cg cs n t :
  find_full cg cs n = Some t →
  get_tx (cg_graph cg) n = Some t ∨ get_tx (cg_graph cg) n = None ∧ t ∈ ad_tx (cgs_graph cs) ∧ txid t = n.
Proof.
  unfold find_full. destruct (get_tx (cg_graph cg) n) as [t'|]; [intros [= ->]; by left|].
  intros E. apply find_some_elem in E as [Hin Hb]. apply bool_decide_eq_true in Hb.
  right. split; [done|]. split; [by apply elem_of_bset_list|done].
Qed.
Lemma find_full_exists cg cs n t p : newly_added cg cs n t p → is_Some (find_full cg cs n).
Proof.
  intros (_ & _ & [E|(E & Hin & Ht)]); unfold find_full; rewrite E; [eauto|].
  destruct (List.find _ _) eqn:F; [eauto|]. rewrite find_none_elem in F.
  apply elem_of_bset_list in Hin. apply F in Hin. rewrite bool_decide_eq_false in Hin. done.
Qed.

Lemma collect_spec ho cg cs l :
  graph_ok (cg_graph cg) → hash_order (cg_graph cg) ho → backed cg cs →
  (∀ n p, (n, Some p) ∈ l → cs_txids (cgs_chain cs) !! n = Some (Some p)) →
  ∃ r, collect_conflicts ho cg cs l = Ret r ∧
    ∀ up ui cp ci, (up, ui, cp, ci) ∈ r ↔
      (ui, Some up) ∈ l ∧ ∃ t, newly_added cg cs ui t up ∧ sc_pos (cg_chain cg) !! ci = Some cp ∧ conflicts_with cg t ci.
Proof.
  intros Hg Hho [Hb Hu]. induction l as [|[n [p|]] l IH]; intros Hl.
  - exists []. split; [done|]. set_solver.
  - destruct IH as (r & E & Hr); [set_solver|]. cbn [collect_conflicts].
    destruct (tx_position (cg_chain cg) n) as [q|] eqn:Ep.
    { exists r. split; [done|]. intros. rewrite Hr. split; [set_solver|].
      intros [Hin (t & Hn & Hx)]. split; [|eauto]. apply elem_of_cons in Hin as [[= -> ->]|Hin]; [|done].
      destruct Hn as (_ & Hn & _). destruct Hn. unfold in_chain, tx_position in *. eauto. }
    assert (¬ in_chain cg n) as Hni by (unfold in_chain, tx_position in *; rewrite Ep; by intros [? ?]).
    destruct (Hb n p) as [t Ht]; [set_solver|done|].
    destruct (find_full_exists _ _ _ _ _ Ht) as [t' Ef]. rewrite Ef.
    assert (newly_added cg cs n t' p) as Ht'.
    { split; [apply Ht|]. split; [done|]. by apply find_full_Some. }
    assert (t' = t) as -> by (by eapply Hu).
    destruct (conflicts_in_chain_spec ho (cg_chain cg) (cg_graph cg) t Hg Hho) as (l' & E' & Hl').
    rewrite E', E. exists (((λ pc, (p, n, pc.1, pc.2)) <$> l') ++ r). split; [done|].
    intros up ui cp ci. rewrite elem_of_app, elem_of_list_fmap, Hr, elem_of_cons. split.
    + intros [([q j] & [= -> -> -> ->] & Hin)|(Hin & Hx)]; [|naive_solver].
      apply Hl' in Hin as [Hq Hrf]. split; [by left|]. exists t. split; [done|]. split; [done|]. split; [|done].
      unfold in_chain. eauto.
    + intros [[[= -> ->]|Hin] (t2 & Hn & Hq & Hc)]; [|right; split; eauto].
      left. exists (cp, ci). split; [done|]. apply Hl'. split; [done|].
      assert (t2 = t) as -> by (by eapply Hu). apply Hc.
  - destruct IH as (r & E & Hr); [set_solver|]. exists r. split; [done|].
    intros. rewrite Hr. set_solver.
Qed.

Lemma resolve_spec (c : SparseChain P) (m : gmap Txid (option P)) l :
  (∀ up ui cp ci, (up, ui, cp, ci) ∈ l → sc_pos c !! ci = Some cp) →
  let after i := match m !! i with Some o => o | None => sc_pos c !! i end in
  match resolve m l with
  | Ok m' =>
      (∀ up ui cp ci, (up, ui, cp, ci) ∈ l → m' !! ci = Some None) ∧
      (∀ i, i ∉ (λ x, x.2) <$> l → m' !! i = m !! i) ∧
      (∀ up ui cp ci q k, (up, ui, cp, ci) ∈ l → after ci = Some q → pos_height q = Confirmed k → False)
  | Err e => ((uc_update e).1, (uc_update e).2, (uc_confirmed e).1, (uc_confirmed e).2) ∈ l ∧
             ∃ q k, after (uc_confirmed e).2 = Some q ∧ pos_height q = Confirmed k
  end.
Proof.
  revert m. induction l as [|[[[up ui] cp] ci] l IH]; intros m Hl; cbn zeta.
  { simpl. split; [set_solver|]. split; [done|]. set_solver. }
  cbn [resolve].
  assert (sc_pos c !! ci = Some cp) as Hcp by (eapply Hl, elem_of_list_here).
  assert (∀ up ui cp ci, (up, ui, cp, ci) ∈ l → sc_pos c !! ci = Some cp) as Hl'.
  { intros a b d e Hin. eapply Hl. by apply elem_of_list_further. }
  assert (default (Some cp) (m !! ci) = match m !! ci with Some o => o | None => sc_pos c !! ci end) as Ed.
  { rewrite Hcp. by destruct (m !! ci). }
  destruct (default (Some cp) (m !! ci)) as [q|] eqn:Eq.
  - destruct (pos_height q) as [k|] eqn:Ek.
    + simpl. split; [apply elem_of_list_here|]. exists q, k. split; [by rewrite <- Ed|done].
    + specialize (IH (<[ci := None]> m) Hl'). cbn zeta in IH.
      destruct (resolve (<[ci := None]> m) l) as [m'|e].
      * destruct IH as (Ha & Hb & Hc).
        assert (m' !! ci = Some None) as Hci.
        { destruct (decide (ci ∈ (λ x : P * Txid * P * Txid, x.2) <$> l)) as [Hin|Hni].
          - apply elem_of_list_fmap in Hin as ([[[a b] d] e] & He & Hin). simpl in He. subst e. by eapply Ha.
          - rewrite Hb by done. by rewrite lookup_insert. }
        split; [|split].
        -- intros a b d e. rewrite elem_of_cons. intros [[= -> -> -> ->]|Hin]; [done|by eapply Ha].
        -- intros i Hi. rewrite fmap_cons, not_elem_of_cons in Hi. destruct Hi as [Hne Hi].
           rewrite Hb by done. by rewrite lookup_insert_ne.
        -- intros a b d e q' k'. rewrite elem_of_cons. intros [[= -> -> -> ->]|Hin] Ha' Hk'.
           ++ congruence.
           ++ destruct (decide (e = ci)) as [->|Hne]; [congruence|].
              eapply Hc; [done| |done]. by rewrite lookup_insert_ne.
      * destruct IH as (Hin & q' & k' & Ha & Hk). split; [by apply elem_of_list_further|].
        exists q', k'. split; [|done].
        destruct (decide ((uc_confirmed e).2 = ci)) as [Ee|Hne].
        -- rewrite Ee, lookup_insert in Ha. done.
        -- by rewrite lookup_insert_ne in Ha.
  - specialize (IH m Hl'). cbn zeta in IH.
    assert (m !! ci = Some None) as Hm by (destruct (m !! ci) as [[?|]|]; by simplify_eq/=).
    destruct (resolve m l) as [m'|e].
    + destruct IH as (Ha & Hb & Hc).
      assert (m' !! ci = Some None) as Hci.
      { destruct (decide (ci ∈ (λ x : P * Txid * P * Txid, x.2) <$> l)) as [Hin|Hni].
        - apply elem_of_list_fmap in Hin as ([[[a b] d] e] & He & Hin). simpl in He. subst e. by eapply Ha.
        - by rewrite Hb. }
      split; [|split].
      * intros a b d e. rewrite elem_of_cons. intros [[= -> -> -> ->]|Hin]; [done|by eapply Ha].
      * intros i Hi. rewrite fmap_cons, not_elem_of_cons in Hi. apply Hb, Hi.
      * intros a b d e q' k'. rewrite elem_of_cons. intros [[= -> -> -> ->]|Hin] Ha' Hk'; [congruence|by eapply Hc].
    + destruct IH as (Hin & Hx). split; [by apply elem_of_list_further|done].
Qed.

(** C28, on the level of changesets. *)
Lemma fix_conflicts_spec ho cg cs :
  graph_ok (cg_graph cg) → hash_order (cg_graph cg) ho → backed cg cs →
  match fix_conflicts ho cg cs with
  | Ret (Ok cs') =>
      (∀ i, conflicting cg cs i → ¬ confirmed_after (cg_chain cg) (cgs_chain cs) i) ∧
      cgs_graph cs' = cgs_graph cs ∧ cs_cps (cgs_chain cs') = cs_cps (cgs_chain cs) ∧
      (∀ i, conflicting cg cs i → cs_txids (cgs_chain cs') !! i = Some None) ∧
      (∀ i, ¬ conflicting cg cs i → cs_txids (cgs_chain cs') !! i = cs_txids (cgs_chain cs) !! i)
  | Ret (Err e) => real_conflict cg cs e
  | Panic => False
  end.
Proof.
  intros Hg Hho Hb. unfold fix_conflicts.
  destruct (collect_spec ho cg cs (bmap_list (cs_txids (cgs_chain cs))) Hg Hho Hb) as (l & E & Hl).
  { intros n p Hin. by apply elem_of_bmap_list in Hin. }
  rewrite E.
  pose proof (resolve_spec (cg_chain cg) (cs_txids (cgs_chain cs)) l) as Hr. cbn zeta in Hr.
  feed specialize Hr. { intros up ui cp ci Hin. apply Hl in Hin. naive_solver. }
  assert (∀ i, conflicting cg cs i ↔ ∃ up ui cp, (up, ui, cp, i) ∈ l) as Hci.
  { intros i. split.
    - intros (n & t & p & Hn & Hc). destruct (Hc) as [[q Hq] _]. exists p, n, q. apply Hl.
      split; [apply elem_of_bmap_list, Hn|]. eauto.
    - intros (p & n & q & Hin). apply Hl in Hin as (_ & t & Hn & _ & Hc). exists n, t, p. done. }
  destruct (resolve _ l) as [m'|e].
  - destruct Hr as (Ha & Hr & Hc). split; [|split; [done|split; [done|split]]].
    + intros i (up & ui & cp & Hin)%Hci (q & k & Hq & Hk). by eapply Hc.
    + intros i (up & ui & cp & Hin)%Hci. by eapply Ha.
    + intros i Hi. apply Hr. intros Hin. apply Hi, Hci.
      apply elem_of_list_fmap in Hin as ([[[a b] d] e] & -> & Hin). eauto.
  - destruct Hr as [Hin Ha]. apply Hl in Hin as (_ & t & Hn & Hq & Hc). exists t. done.
Qed.
End proofs.
