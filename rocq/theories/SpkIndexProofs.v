(** Proofs about the script index. *)
From Verif Require Export SpkIndexSpec BaseProofs MapProofs.


Section proofs.
Context `{Countable Ix, !Ord Ix, !OrdLaws Ix}.
Implicit Types (i : Ix) (x : SpkIndex Ix) (h : list (si_op Ix)).

(** ** Histories *)
Lemma si_run_snoc h op : si_run (h ++ [op]) = match si_run h with Ret x => si_step x op | Panic => Panic end.
Proof. unfold si_run. by rewrite foldl_app. Qed.
Lemma head_app {A} (l l' : list A) : head (l ++ l') = match head l with Some a => Some a | None => head l' end.
Proof. by destruct l. Qed.
Lemma tracked_snoc h op s :
  tracked (h ++ [op]) s = match tracked h s with
    | Some i => Some i
    | None => match op with SiSpk i s' => if decide (s' = s) then Some i else None | _ => None end
    end.
Proof.
  unfold tracked. rewrite omap_app, head_app. destruct (head (omap _ h)); [done|].
  destruct op; try done. simpl. by destruct (decide (s0 = s)).
Qed.
Lemma hit_snoc h op i o u :
  hit (h ++ [op]) i o u ↔ hit h i o u ∨ ∃ l, op = SiScan l ∧ (o, u) ∈ l ∧ tracked h (txo_spk u) = Some i.
Proof.
  split.
  - intros (h1 & l & h2 & E & Hin & Ht). destruct h2 as [|op' h2 _] using rev_ind.
    + apply app_inj_tail in E as [-> ->]. right. eauto.
    + left. exists h1, l, h2. rewrite app_comm_cons, app_assoc in E. apply app_inj_tail in E as [-> _]. done.
  - intros [(h1 & l & h2 & -> & Hin & Ht)|(l & -> & Hin & Ht)].
    + exists h1, l, (h2 ++ [op]). split; [|done]. by rewrite <- app_assoc.
    + exists h, l, []. done.
Qed.
Lemma marked_snoc h op i :
  marked (h ++ [op]) i = match op with
    | SiSpk j _ | SiUnmark j => if decide (j = i) then false else marked h i
    | SiMark j => if decide (j = i) then true else marked h i
    | SiScan _ => marked h i end.
Proof. unfold marked. by rewrite foldl_app. Qed.

(** ** One scan *)
Definition si_scan' x (l : list (OutPoint * TxOut)) : SpkIndex Ix := foldl (λ x ot, (si_scan_txout x ot.1 ot.2).1) x l.
Lemma si_scan_fst x l : (si_scan x l).1 = si_scan' x l.
Proof.
  unfold si_scan, si_scan'. generalize (∅ : gset Ix). revert x.
  induction l as [|[o u] l IH]; intros x X; [done|]. cbn [foldl]. apply IH.
Qed.
Lemma scan_txout_indices x o u : si_indices (si_scan_txout x o u).1 = si_indices x.
Proof. unfold si_scan_txout. by destruct (si_indices x !! txo_spk u). Qed.
Lemma scan_spec l : ∀ x,
  let x' := si_scan' x l in
  si_spks x' = si_spks x ∧ si_indices x' = si_indices x ∧
  (∀ i, i ∈ si_unused x' ↔ i ∈ si_unused x ∧ ¬ ∃ o u, (o, u) ∈ l ∧ si_indices x !! txo_spk u = Some i) ∧
  (∀ i o, (i, o) ∈ si_spk_txouts x' ↔
     (i, o) ∈ si_spk_txouts x ∨ ∃ u, (o, u) ∈ l ∧ si_indices x !! txo_spk u = Some i) ∧
  (∀ i o u, si_txouts x' !! o = Some (i, u) →
     si_txouts x !! o = Some (i, u) ∨ (o, u) ∈ l ∧ si_indices x !! txo_spk u = Some i) ∧
  (∀ o, is_Some (si_txouts x' !! o) ↔
     is_Some (si_txouts x !! o) ∨ ∃ i u, (o, u) ∈ l ∧ si_indices x !! txo_spk u = Some i).
Proof.
  induction l as [|[o u] l IH]; intros x.
  - cbn. setoid_rewrite elem_of_nil. naive_solver.
  - cbn zeta. unfold si_scan'. cbn [foldl fst snd]. change (foldl _ ?y l) with (si_scan' y l).
    specialize (IH (si_scan_txout x o u).1). cbn zeta in IH.
    rewrite scan_txout_indices in IH. destruct IH as (E1 & E2 & E3 & E4 & E5 & E6).
    unfold si_scan_txout in E1, E2, E3, E4, E5, E6 |- *.
    destruct (si_indices x !! txo_spk u) as [j|] eqn:Ej; cbn [fst si_spks si_indices si_unused si_txouts si_spk_txouts] in *.
    + split; [done|]. split; [done|]. split; [|split; [|split]].
      * intros i. rewrite E3. rewrite elem_of_difference, elem_of_singleton. split.
        -- intros [[Hu Hne] Hn]. split; [done|]. intros (o' & u' & Hin & Hi).
           apply elem_of_cons in Hin as [[= -> ->]|Hin]; [congruence|]. apply Hn. eauto.
        -- intros [Hu Hn]. split; [split; [done|]|].
           ++ intros ->. apply Hn. exists o, u. split; [by left|done].
           ++ intros (o' & u' & Hin & Hi). apply Hn. exists o', u'. split; [by right|done].
      * intros i o'. rewrite E4, elem_of_union, elem_of_singleton. setoid_rewrite elem_of_cons. split.
        -- intros [[[= -> ->]|?]|(u' & ? & ?)]; [right|left|right]; eauto.
        -- intros [?|(u' & [[= -> ->]|?] & ?)]; [eauto| |eauto]. left; left. congruence.
      * intros i o' u' Ht. setoid_rewrite elem_of_cons. apply E5 in Ht as [Ht|[Ht ?]]; [|eauto].
        destruct (decide (o' = o)) as [->|Hne].
        -- rewrite lookup_insert in Ht. simplify_eq. eauto.
        -- rewrite lookup_insert_ne in Ht by done. eauto.
      * intros o'. rewrite E6. setoid_rewrite elem_of_cons. destruct (decide (o' = o)) as [->|Hne].
        -- rewrite lookup_insert. split; intros _; [right|left]; eauto 10.
        -- rewrite lookup_insert_ne by done. naive_solver.
    + split; [done|]. split; [done|]. setoid_rewrite elem_of_cons.
      split; [|split; [|split]].
      * intros i. rewrite E3. split; intros [Hu Hn]; (split; [done|]).
        -- intros (o' & u' & [[= -> ->]|Hin] & Hi); [congruence|]. eauto.
        -- intros (o' & u' & Hin & Hi). eauto 10.
      * intros i o'. rewrite E4. split; [naive_solver|]. intros [?|(u' & [[= -> ->]|?] & ?)]; [eauto|congruence|eauto].
      * intros i o' u' Ht. apply E5 in Ht. naive_solver.
      * intros o'. rewrite E6. split; [naive_solver|]. intros [?|(i & u' & [[= -> ->]|?] & ?)]; [eauto|congruence|eauto].
Qed.
(** What a scan returns. *)
Lemma scan_result l x i :
  i ∈ (si_scan x l).2 ↔ ∃ o u, (o, u) ∈ l ∧ si_indices x !! txo_spk u = Some i.
Proof.
  unfold si_scan.
  assert (∀ l x X, i ∈ (foldl (λ s ot, let r := si_scan_txout s.1 ot.1 ot.2 in
           (r.1, match r.2 with Some i => {[ i ]} ∪ s.2 | None => s.2 end)) (x, X) l).2 ↔
     i ∈ (X : gset Ix) ∨ ∃ o u, (o, u) ∈ l ∧ si_indices x !! txo_spk u = Some i) as Hx; [|rewrite Hx; set_solver].
  clear. induction l as [|[o u] l IH]; intros x X.
  - cbn. setoid_rewrite elem_of_nil. naive_solver.
  - cbn [foldl fst snd]. cbn zeta. rewrite IH, scan_txout_indices. setoid_rewrite elem_of_cons.
    unfold si_scan_txout. destruct (si_indices x !! txo_spk u) as [j|] eqn:Ej; cbn [snd].
    + rewrite elem_of_union, elem_of_singleton. split.
      * intros [[->|?]|(o' & u' & ? & ?)]; eauto 10.
      * intros [?|(o' & u' & [[= -> ->]|?] & ?)]; [eauto| |eauto]. left; left. congruence.
    + split; [naive_solver|]. intros [?|(o' & u' & [[= -> ->]|?] & ?)]; [eauto|congruence|eauto].
Qed.
(** Batch order. *)
Lemma scan_perm l l' x :
  l ≡ₚ l' → (∀ o u u', (o, u) ∈ l → (o, u') ∈ l → u = u') → si_scan x l = si_scan x l'.
Proof.
  unfold si_scan. generalize (∅ : gset Ix). intros X Hp. revert x X.
  induction Hp as [|[o u] l l' Hp IH|[o u] [o' u'] l|l l2 l3 Hp1 IH1 Hp2 IH2]; intros x X Hc.
  - done.
  - cbn [foldl]. apply IH. intros. eapply Hc; by right.
  - cbn [foldl]. f_equal. cbn [fst snd]. cbn zeta.
    unfold si_scan_txout. cbn [fst snd].
    destruct (si_indices x !! txo_spk u') as [j'|] eqn:Ej', (si_indices x !! txo_spk u) as [j|] eqn:Ej;
      cbn [fst snd si_spks si_indices si_unused si_txouts si_spk_txouts]; rewrite ?Ej, ?Ej'; cbn [fst snd]; try done.
    f_equal; [|set_solver]. f_equal; [set_solver| |set_solver].
    destruct (decide (o = o')) as [->|Hne].
    + assert (u = u') as -> by (eapply Hc; [right; by left|by left]). congruence.
    + by apply insert_commute.
  - rewrite IH1 by done. apply IH2. intros o u u'. rewrite <- Hp1. apply Hc.
Qed.

(** ** Ranges *)
Lemma op_bounds (o : OutPoint) : SpkIndexSpec.op_ok o → ord_le min_op o ∧ ord_le o max_op.
Proof.
  destruct o as [t v]. intros [Ht Hv]. cbn [op_txid op_vout] in *. unfold ord_le. rewrite !OutPoint_cmp. cbn [op_txid op_vout min_op max_op].
  split; apply prod_ord_le; cbn [fst snd].
  - destruct (decide (t = 0)) as [->|]; [right|left; apply N_ord_lt; lia]. split; [done|]. apply N_ord_le. lia.
  - destruct (decide (t = max_txid)) as [->|]; [right|left; apply N_ord_lt; lia]. split; [done|]. by apply N_ord_le.
Qed.
Lemma op_lo_above lo i o : SpkIndexSpec.op_ok o → above_lo (op_lo lo) (i, o) ↔ above_lo lo i.
Proof.
  intros [Hmin Hmax]%op_bounds. destruct lo as [a|a|]; simpl; [| |done].
  - rewrite prod_ord_le. simpl. rewrite (ord_le_lteq a i). tauto.
  - rewrite prod_ord_lt. simpl. split; [|auto]. intros [?|[-> Hlt]]; [done|]. apply ord_not_le in Hlt. done.
Qed.
Lemma op_hi_below hi i o : SpkIndexSpec.op_ok o → below_hi (op_hi hi) (i, o) ↔ below_hi hi i.
Proof.
  intros [Hmin Hmax]%op_bounds. destruct hi as [a|a|]; simpl; [| |done].
  - rewrite prod_ord_le. simpl. rewrite (ord_le_lteq i a). tauto.
  - rewrite prod_ord_lt. simpl. split; [|auto]. intros [?|[-> Hlt]]; [done|]. apply ord_not_le in Hlt. done.
Qed.
Lemma min_max_lt : ord_lt min_op max_op.
Proof. vm_compute. done. Qed.
Lemma op_range_bad (lo hi : bound Ix) : range_bad (op_lo lo) (op_hi hi) = range_bad lo hi.
Proof.
  destruct lo as [a|a|], hi as [b|b|]; cbn [op_lo op_hi range_bad]; try done; apply bool_decide_ext;
    rewrite ?prod_ord_lt, ?prod_ord_le; cbn [fst snd].
  - split; [|auto]. intros [?|[_ Hx]]; [done|]. by destruct (ord_lt_irrefl min_op (ord_lt_trans _ _ _ min_max_lt Hx)).
  - split; [|auto]. intros [?|[_ Hx]]; [done|]. by apply ord_lt_irrefl in Hx.
  - split; [|auto]. intros [?|[_ Hx]]; [done|]. by apply ord_lt_irrefl in Hx.
  - rewrite (ord_le_lteq b a). split; [tauto|]. intros [?|?]; [auto|]. right. split; [done|]. apply ord_lt_le, min_max_lt.
Qed.
Lemma outputs_in_range_spec x (lo hi : bound Ix) :
  (∀ i o, (i, o) ∈ si_spk_txouts x → SpkIndexSpec.op_ok o) →
  match si_outputs_in_range x lo hi with
  | Panic => range_bad lo hi = true
  | Ret l => range_bad lo hi = false ∧ StronglySorted ord_lt l ∧
      ∀ i o, (i, o) ∈ l ↔ (i, o) ∈ si_spk_txouts x ∧ above_lo lo i ∧ below_hi hi i
  end.
Proof.
  intros Hok. unfold si_outputs_in_range, bset_range. rewrite op_range_bad.
  destruct (range_bad lo hi) eqn:E; [done|]. split; [done|]. split.
  - apply StronglySorted_filter, StronglySorted_le_lt; [apply bset_list_sorted|apply NoDup_bset_list].
  - intros i o. rewrite elem_of_list_filter, elem_of_bset_list. split.
    + intros [[Hl Hh] Hin]. rewrite op_lo_above in Hl by eauto. rewrite op_hi_below in Hh by eauto. done.
    + intros (Hin & Hl & Hh). rewrite op_lo_above, op_hi_below by eauto. done.
Qed.
Lemma outputs_at x i :
  (∀ i o, (i, o) ∈ si_spk_txouts x → SpkIndexSpec.op_ok o) →
  ∃ l, si_outputs_in_range x (Incl i) (Incl i) = Ret l ∧ (l = [] ↔ ∀ o, (i, o) ∉ si_spk_txouts x).
Proof.
  intros Hok. pose proof (outputs_in_range_spec x (Incl i) (Incl i) Hok) as Hs.
  destruct (si_outputs_in_range x (Incl i) (Incl i)) as [l|].
  - exists l. split; [done|]. destruct Hs as (_ & _ & Hl). split.
    + intros -> o Hin. assert ((i, o) ∈ ([] : list (Ix * OutPoint))) as Hx; [|by apply elem_of_nil in Hx].
      apply Hl. split; [done|]. split; apply ord_le_refl.
    + intros Hn. destruct l as [|[j o] l]; [done|]. exfalso.
      destruct (proj1 (Hl j o)) as (Hin & Ha & Hb); [by left|].
      assert (i = j) as -> by (apply ord_le_antisym; [exact Ha|exact Hb]). by apply (Hn o).
  - simpl in Hs. apply bool_decide_eq_true in Hs. by apply ord_lt_irrefl in Hs.
Qed.

(** ** Histories: the state *)
Definition si_inv h x : Prop :=
  (∀ s, si_indices x !! s = tracked h s) ∧
  (∀ i o, (i, o) ∈ si_spk_txouts x ↔ ∃ u, hit h i o u) ∧
  (∀ i o u, si_txouts x !! o = Some (i, u) → hit h i o u) ∧
  (∀ i o u, hit h i o u → is_Some (si_txouts x !! o)) ∧
  (indices_once h → ∀ i s, si_spks x !! i = Some s ↔ tracked h s = Some i) ∧
  (indices_once h → ∀ i, i ∈ si_unused x ↔
     (∃ s, tracked h s = Some i) ∧ (¬ ∃ o u, hit h i o u) ∧ marked h i = false).
Lemma indices_once_snoc h op :
  indices_once (h ++ [op]) → indices_once h ∧
  ∀ i s, op = SiSpk i s → ∀ s', SiSpk i s' ∉ h.
Proof.
  unfold indices_once. rewrite omap_app, NoDup_app. intros (Hn & Hd & _). split; [done|].
  intros i s -> s' Hin. apply (Hd i); [|simpl; by left].
  apply elem_of_list_omap. by exists (SiSpk i s').
Qed.
Lemma tracked_in h s i : tracked h s = Some i → SiSpk i s ∈ h.
Proof.
  unfold tracked. intros Hh. assert (i ∈ omap (λ op, match op with SiSpk i s' => if decide (s' = s) then Some i else None | _ => None end) h) as Hin.
  { destruct (omap _ h); simplify_eq/=. by left. }
  apply elem_of_list_omap in Hin as (op & Hin & E). destruct op; try done. case_decide; simplify_eq/=. done.
Qed.
Lemma hit_tracked h i o u : hit h i o u → ∃ s, tracked h s = Some i ∧ s = txo_spk u.
Proof.
  intros (h1 & l & h2 & -> & _ & Ht). exists (txo_spk u). split; [|done]. unfold tracked in *. by rewrite omap_app, head_app, Ht.
Qed.
Lemma tracked_once h s s' i :
  indices_once h → tracked h s = Some i → tracked h s' = Some i → s = s'.
Proof.
  intros Hn Hs Hs'. apply tracked_in in Hs, Hs'.
  apply elem_of_list_lookup in Hs as [a Ha], Hs' as [b Hb].
  unfold indices_once in Hn. clear -Hn Ha Hb H. revert a b Ha Hb.
  induction h as [|op h IH]; intros a b Ha Hb; [done|].
  assert (NoDup (omap (λ op, match op with SiSpk i _ => Some i | _ => None end) h)) as Hn'.
  { destruct op; simpl in Hn; try done. by apply NoDup_cons in Hn as [_ ?]. }
  destruct a as [|a], b as [|b]; simpl in Ha, Hb.
  - congruence.
  - simplify_eq. exfalso. simpl in Hn. apply NoDup_cons in Hn as [Hn _]. apply Hn.
    apply elem_of_list_omap. exists (SiSpk i s'). split; [by eapply elem_of_list_lookup_2|done].
  - simplify_eq. exfalso. simpl in Hn. apply NoDup_cons in Hn as [Hn _]. apply Hn.
    apply elem_of_list_omap. exists (SiSpk i s). split; [by eapply elem_of_list_lookup_2|done].
  - by eapply IH.
Qed.
Lemma si_run_inv h : scans_ok h → ∃ x, si_run h = Ret x ∧ si_inv h x.
Proof.
  induction h as [|op h IH] using rev_ind; intros Hok.
  - exists si_default. split; [done|].
    assert (∀ i o u, ¬ hit [] i o u) as Hh by (intros i o u (h1 & l & h2 & E & _); by destruct h1).
    split; [by intros s|]. split; [|split; [|split; [|split]]].
    + intros i o. simpl. rewrite elem_of_empty. split; [done|]. intros [u Hu]. by apply Hh in Hu.
    + intros i o u. simpl. by rewrite lookup_empty.
    + intros i o u Hu. by apply Hh in Hu.
    + intros _ i s. simpl. by rewrite lookup_empty.
    + intros _ i. simpl. rewrite elem_of_empty. split; [done|]. intros [[s Hs] _]. done.
  - destruct IH as (x & E & I1 & I2 & I3 & I4 & I5 & I6).
    { intros l o u Hl. apply Hok. apply elem_of_app. by left. }
    assert (∀ i o, (i, o) ∈ si_spk_txouts x → SpkIndexSpec.op_ok o) as Hrange.
    { intros i o Hin. apply I2 in Hin as (u & h1 & l' & h2 & -> & Hin & _). eapply Hok; [|exact Hin]. set_solver. }
    rewrite si_run_snoc, E. destruct op as [i s|l|i|i]; cbn [si_step].
    + eexists. split; [done|]. unfold si_insert_spk. rewrite I1.
      assert (∀ j o u, hit (h ++ [SiSpk i s]) j o u ↔ hit h j o u) as Hh.
      { intros j o u. rewrite hit_snoc. split; [|auto]. intros [?|(l' & ? & _)]; done. }
      destruct (tracked h s) as [j|] eqn:Ej; cbn [fst].
      * assert (∀ s', tracked (h ++ [SiSpk i s]) s' = tracked h s') as Ht.
        { intros s'. rewrite tracked_snoc. destruct (tracked h s') eqn:E'; [done|]. case_decide; [congruence|done]. }
        split; [intros s'; by rewrite Ht|]. setoid_rewrite Hh. split; [done|]. split; [done|]. split; [done|]. split.
        -- intros [Ho _]%indices_once_snoc i' s'. rewrite Ht. by apply I5.
        -- intros [Ho Hnew]%indices_once_snoc i'. setoid_rewrite Ht. rewrite marked_snoc, I6 by done.
           case_decide as Hd; [subst i'|done]. split; [naive_solver|]. intros ([s' Hs'] & _).
           apply tracked_in in Hs'. by destruct (Hnew i s eq_refl s').
      * assert (∀ s', tracked (h ++ [SiSpk i s]) s' = if decide (s = s') then Some i else tracked h s') as Ht.
        { intros s'. rewrite tracked_snoc. destruct (tracked h s') eqn:E'; [|done]. case_decide; [congruence|done]. }
        unfold si_inv. cbn [si_indices si_spk_txouts si_txouts si_spks si_unused].
        split; [|setoid_rewrite Hh; split; [done|]; split; [done|]; split; [done|]; split].
        -- intros s'. rewrite Ht. case_decide as Hd; [subst; by rewrite lookup_insert|].
           by rewrite lookup_insert_ne.
        -- intros [Ho Hnew]%indices_once_snoc i' s'. rewrite Ht. destruct (decide (i = i')) as [<-|Hne].
           ++ rewrite lookup_insert. case_decide as Hd; [naive_solver|]. split; [naive_solver|].
              intros Hs'%tracked_in. by destruct (Hnew i s eq_refl s').
           ++ rewrite lookup_insert_ne by done. rewrite I5 by done. case_decide as Hd; [subst s'|done].
              rewrite Ej. naive_solver.
        -- intros [Ho Hnew]%indices_once_snoc i'. rewrite elem_of_union, elem_of_singleton, I6, marked_snoc by done.
           setoid_rewrite Ht. destruct (decide (i = i')) as [<-|Hne].
           ++ split; [|auto]. intros _. split; [exists s; by rewrite decide_True by done|].
              split; [|done]. intros (o & u & Hu). apply hit_tracked in Hu as (s' & Hs' & _).
              apply tracked_in in Hs'. by destruct (Hnew i s eq_refl s').
           ++ split.
              ** intros [->|([s' Hs'] & Hr)]; [done|]. split; [|done]. exists s'.
                 case_decide as Hd; [congruence|done].
              ** intros ([s' Hs'] & Hr). right. split; [|done]. exists s'. case_decide; [congruence|done].
    + eexists. split; [done|]. rewrite si_scan_fst. pose proof (scan_spec l x) as Hs. cbn zeta in Hs.
      destruct Hs as (E1 & E2 & E3 & E4 & E5 & E6).
      assert (∀ s', tracked (h ++ [SiScan l]) s' = tracked h s') as Ht.
      { intros s'. rewrite tracked_snoc. by destruct (tracked h s'). }
      assert (∀ j o u, hit (h ++ [SiScan l]) j o u ↔ hit h j o u ∨ (o, u) ∈ l ∧ tracked h (txo_spk u) = Some j) as Hh.
      { intros j o u. rewrite hit_snoc. naive_solver. }
      split; [intros s'; by rewrite E2, Ht|]. split; [|split; [|split; [|split]]].
      * intros i o. rewrite E4, I2. setoid_rewrite Hh. setoid_rewrite I1. naive_solver.
      * intros i o u Hu. rewrite Hh. apply E5 in Hu as [Hu|[Hu Hi]]; [left; eauto|right]. by rewrite <- I1.
      * intros i o u Hu. rewrite E6. apply Hh in Hu as [Hu|[Hu Hi]]; [left; eauto|right]. rewrite <- I1 in Hi. eauto.
      * intros [Ho _]%indices_once_snoc i s. by rewrite E1, Ht, I5.
      * intros [Ho _]%indices_once_snoc i. rewrite E3, I6, marked_snoc by done. setoid_rewrite Ht. setoid_rewrite Hh. setoid_rewrite I1.
        naive_solver.
    + eexists. split; [done|]. unfold si_mark_used. cbn [fst].
      assert (∀ s', tracked (h ++ [SiMark i]) s' = tracked h s') as Ht.
      { intros s'. rewrite tracked_snoc. by destruct (tracked h s'). }
      assert (∀ j o u, hit (h ++ [SiMark i]) j o u ↔ hit h j o u) as Hh.
      { intros j o u. rewrite hit_snoc. split; [|auto]. intros [?|(l & ? & _)]; done. }
      split; [intros s'; by rewrite Ht|]. setoid_rewrite Hh. split; [done|]. split; [done|]. split; [done|].
      split; (intros [Ho _]%indices_once_snoc).
      * intros j s. by rewrite Ht, <- I5 by done.
      * intros j. cbn [si_unused]. rewrite elem_of_difference, elem_of_singleton, I6, marked_snoc by done. setoid_rewrite Ht.
        case_decide; naive_solver.
    + unfold si_unmark_used.
      assert (∀ s', tracked (h ++ [SiUnmark i]) s' = tracked h s') as Ht.
      { intros s'. rewrite tracked_snoc. by destruct (tracked h s'). }
      assert (∀ j o u, hit (h ++ [SiUnmark i]) j o u ↔ hit h j o u) as Hh.
      { intros j o u. rewrite hit_snoc. split; [|auto]. intros [?|(l & ? & _)]; done. }
      assert (∀ x', si_indices x' = si_indices x → si_spk_txouts x' = si_spk_txouts x → si_txouts x' = si_txouts x →
        si_spks x' = si_spks x →
        (indices_once h → ∀ j, j ∈ si_unused x' ↔ if decide (i = j) then (∃ s, tracked h s = Some j) ∧ ¬ ∃ o u, hit h j o u else j ∈ si_unused x) →
        si_inv (h ++ [SiUnmark i]) x') as Hx.
      { intros x' X1 X2 X3 X4 X5. split; [intros s'; by rewrite X1, Ht|]. rewrite X2, X3, X4. setoid_rewrite Hh.
        split; [done|]. split; [done|]. split; [done|].
        split; (intros [Ho _]%indices_once_snoc).
        - intros j s. by rewrite Ht, <- I5 by done.
        - intros j. rewrite X5, marked_snoc by done. setoid_rewrite Ht. case_decide; [naive_solver|]. by apply I6. }
      destruct (si_spks x !! i) as [s|] eqn:Es.
      * destruct (outputs_at x i Hrange) as (l & El & Hl). rewrite El. destruct l as [|a l].
        -- eexists. split; [done|]. apply Hx; try done. intros Ho j. cbn [fst si_unused].
           rewrite elem_of_union, elem_of_singleton. case_decide as Hd; [subst j|naive_solver].
           split; [|auto]. intros _. split; [exists s; by apply I5|]. intros (o & u & Hu).
           apply (proj1 Hl eq_refl o). apply I2. eauto.
        -- eexists. split; [done|]. apply Hx; try done. intros Ho j. cbn [fst].
           case_decide as Hd; [subst j|done]. rewrite I6 by done. split; [naive_solver|].
           intros [_ Hn]. exfalso. assert (a :: l = []) as Hz; [|done]. apply Hl. intros o Hin.
           apply I2 in Hin as [u Hu]. apply Hn. eauto.
      * eexists. split; [done|]. apply Hx; try done. intros Ho j. cbn [fst].
        case_decide as Hd; [subst j|done]. rewrite I6 by done. split; [naive_solver|].
        intros [[s Hs] _]. apply I5 in Hs; [congruence|done].
Qed.

(** ** Views (C31) *)
Lemma txouts_exact W h x i o u :
  scans_ok h → consistent W h → si_run h = Ret x →
  si_txout x o = Some (i, u) ↔ hit h i o u.
Proof.
  intros Hok Hc E. destruct (si_run_inv h Hok) as (x' & E' & I1 & I2 & I3 & I4 & _). assert (x' = x) as -> by congruence.
  unfold si_txout. split; [apply I3|]. intros Hu. destruct (I4 _ _ _ Hu) as [[j v] Hv].
  assert (∀ i u, hit h i o u → u = W o) as HW.
  { intros i' u' (h1 & l & h2 & -> & Hin & _). eapply Hc; [|exact Hin]. set_solver. }
  pose proof (I3 _ _ _ Hv) as Hv'. assert (u = v) as -> by (rewrite (HW _ _ Hu), (HW _ _ Hv'); done).
  apply hit_tracked in Hu as (s & Hs & ->). apply hit_tracked in Hv' as (s' & Hs' & ->). congruence.
Qed.
Lemma tracked_exact h x s : scans_ok h → si_run h = Ret x → si_index_of_spk x s = tracked h s.
Proof. intros Hok E. destruct (si_run_inv h Hok) as (x' & E' & I1 & _). replace x with x' by congruence. apply I1. Qed.
Lemma spk_at_exact h x i s :
  scans_ok h → indices_once h → si_run h = Ret x → si_spk_at x i = Some s ↔ tracked h s = Some i.
Proof. intros Hok Ho E. destruct (si_run_inv h Hok) as (x' & E' & _ & _ & _ & _ & I5 & _). replace x with x' by congruence. by apply I5. Qed.
Lemma by_index_exact h x lo hi :
  scans_ok h → si_run h = Ret x →
  match si_outputs_in_range x lo hi with
  | Panic => range_bad lo hi = true
  | Ret l => range_bad lo hi = false ∧ StronglySorted ord_lt l ∧
      ∀ i o, (i, o) ∈ l ↔ (∃ u, hit h i o u) ∧ above_lo lo i ∧ below_hi hi i
  end.
Proof.
  intros Hok E. destruct (si_run_inv h Hok) as (x' & E' & I1 & I2 & _). replace x with x' by congruence.
  assert (∀ i o, (i, o) ∈ si_spk_txouts x' → SpkIndexSpec.op_ok o) as Hr.
  { intros i o Hin. apply I2 in Hin as (u & h1 & l' & h2 & -> & Hin & _). eapply Hok; [|exact Hin]. set_solver. }
  pose proof (outputs_in_range_spec x' lo hi Hr) as Hs.
  destruct (si_outputs_in_range x' lo hi); [|done]. destruct Hs as (? & ? & Hs). split; [done|]. split; [done|].
  intros i o. by rewrite Hs, I2.
Qed.
Lemma views_agree_si W h x i o :
  scans_ok h → consistent W h → si_run h = Ret x →
  (i, o) ∈ si_spk_txouts x ↔ ∃ u, si_txout x o = Some (i, u).
Proof.
  intros Hok Hc E. destruct (si_run_inv h Hok) as (x' & E' & I1 & I2 & _). replace x' with x in * by congruence.
  rewrite I2. split; intros [u Hu]; exists u; by apply (txouts_exact W h x i o u Hok Hc E).
Qed.
Lemma txouts_list_exact x : 
  StronglySorted ord_lt ((λ r : Ix * OutPoint * TxOut, r.1.2) <$> si_txouts_list x) ∧
  ∀ i o u, (i, o, u) ∈ si_txouts_list x ↔ si_txout x o = Some (i, u).
Proof.
  unfold si_txouts_list, si_txout. split.
  - rewrite <- list_fmap_compose. apply (bmap_list_sorted (si_txouts x)).
  - intros i o u. rewrite elem_of_list_fmap. split.
    + intros ([o' [i' u']] & [= -> -> ->] & Hin). by apply elem_of_bmap_list.
    + intros Hin. exists (o, (i, u)). split; [done|]. by apply elem_of_bmap_list.
Qed.
Lemma txouts_in_tx_exact x t i o u :
  (∀ o, is_Some (si_txouts x !! o) → SpkIndexSpec.op_ok o) →
  (i, o, u) ∈ si_txouts_in_tx x t ↔ op_txid o = t ∧ si_txout x o = Some (i, u).
Proof.
  intros Hok. unfold si_txouts_in_tx, si_txout. rewrite elem_of_list_fmap.
  assert (∀ o, SpkIndexSpec.op_ok o → ord_le (mkOutPoint t 0) o ∧ ord_le o (mkOutPoint t u32_max) ↔ op_txid o = t) as Hr.
  { intros [t' v] [Ht Hv]. cbn [op_txid op_vout] in *. unfold ord_le. rewrite !OutPoint_cmp. cbn [op_txid op_vout].
    change (ord_cmp ?a ?b ≠ Gt) with (ord_le a b). rewrite !prod_ord_le. cbn [fst snd].
    rewrite !N_ord_lt. split.
    - intros [[?|[? _]] [?|[? _]]]; lia.
    - intros ->. split; right; (split; [done|]); apply N_ord_le; lia. }
  split.
  - intros ([o' [i' u']] & [= -> -> ->] & Hin). apply elem_of_list_filter in Hin as [Hb Hin]. cbn [fst] in Hb.
    apply elem_of_bmap_list in Hin. rewrite Hr in Hb by eauto. done.
  - intros [Ht Hin]. exists (o, (i, u)). split; [done|]. apply elem_of_list_filter. cbn [fst].
    rewrite Hr by eauto. split; [done|]. by apply elem_of_bmap_list.
Qed.

Lemma run_in_tx_exact h x t i o u :
  scans_ok h → si_run h = Ret x →
  (i, o, u) ∈ si_txouts_in_tx x t ↔ op_txid o = t ∧ si_txout x o = Some (i, u).
Proof.
  intros Hok E. destruct (si_run_inv h Hok) as (x' & E' & _ & _ & I3 & _). replace x' with x in * by congruence.
  apply txouts_in_tx_exact. intros o' [[j v] Hv]. apply I3 in Hv as (h1 & l' & h2 & -> & Hin & _).
  eapply Hok; [|exact Hin]. set_solver.
Qed.
Lemma si_run_ok h : scans_ok h → ∃ x, si_run h = Ret x.
Proof. intros Hok. destruct (si_run_inv h Hok) as (x & E & _). eauto. Qed.
Lemma scan_found h x l i :
  scans_ok h → si_run h = Ret x →
  i ∈ (si_scan x l).2 ↔ ∃ o u, (o, u) ∈ l ∧ tracked h (txo_spk u) = Some i.
Proof.
  intros Hok E. rewrite scan_result. pose proof (λ s, tracked_exact h x s Hok E) as Ht. unfold si_index_of_spk in Ht.
  by setoid_rewrite Ht.
Qed.

(** ** Unused (C32) *)
Lemma is_used_exact h x i :
  scans_ok h → indices_once h → si_run h = Ret x →
  si_is_used x i = false ↔ (∃ s, tracked h s = Some i) ∧ (¬ ∃ o u, hit h i o u) ∧ marked h i = false.
Proof.
  intros Hok Ho E. destruct (si_run_inv h Hok) as (x' & E' & _ & _ & _ & _ & _ & I6). replace x with x' by congruence.
  unfold si_is_used. rewrite bool_decide_eq_false, <- I6 by done. split; [|naive_solver]. intros Hn.
  destruct (decide (i ∈ si_unused x')); [done|]. by destruct Hn.
Qed.
Lemma with_spks_ok x l : (∀ i, i ∈ l → is_Some (si_spk_at x i)) →
  ∃ r, with_spks x l = Ret r ∧ r.*1 = l ∧ ∀ i s, (i, s) ∈ r → si_spk_at x i = Some s.
Proof.
  induction l as [|i l IH]; intros Hl; [exists []; set_solver|].
  destruct (Hl i) as [s Hs]; [by left|]. destruct IH as (r & Er & Hr & Hr').
  { intros j Hj. apply Hl. by right. }
  exists ((i, s) :: r). cbn [with_spks]. rewrite Hs, Er. split; [done|]. split; [cbn; by rewrite Hr|].
  intros j s' [[= -> ->]|Hin]%elem_of_cons; [done|]. by apply Hr'.
Qed.
Lemma unused_spks_exact h x lo hi :
  scans_ok h → indices_once h → si_run h = Ret x →
  match si_unused_spks x lo hi with
  | Panic => range_bad lo hi = true
  | Ret l => range_bad lo hi = false ∧ StronglySorted ord_lt l.*1 ∧
      ∀ i s, (i, s) ∈ l ↔ tracked h s = Some i ∧ si_is_used x i = false ∧ above_lo lo i ∧ below_hi hi i
  end.
Proof.
  intros Hok Ho E. pose proof (is_used_exact h x) as Hu. pose proof (spk_at_exact h x) as Ha.
  unfold si_unused_spks, bset_range. destruct (range_bad lo hi) eqn:Eb; [done|].
  destruct (with_spks_ok x (filter (λ i, above_lo lo i ∧ below_hi hi i) (bset_list (si_unused x)))) as (r & Er & Hr & Hr').
  { intros i Hi. apply elem_of_list_filter in Hi as [_ Hi]. apply elem_of_bset_list in Hi.
    destruct (proj1 (Hu i Hok Ho E)) as ([s Hs] & _).
    - unfold si_is_used. by apply bool_decide_eq_false; auto.
    - exists s. by apply Ha. }
  rewrite Er. split; [done|]. split.
  - rewrite Hr. apply StronglySorted_filter, StronglySorted_le_lt; [apply bset_list_sorted|apply NoDup_bset_list].
  - intros i s. unfold si_is_used. rewrite bool_decide_eq_false.
    assert (i ∈ r.*1 ↔ (above_lo lo i ∧ below_hi hi i) ∧ i ∈ si_unused x) as Hi.
    { rewrite Hr, elem_of_list_filter, elem_of_bset_list. done. }
    rewrite <- (Ha i s Hok Ho E). split.
    + intros Hin. assert (i ∈ r.*1) as Hin' by (apply elem_of_list_fmap; by exists (i, s)).
      apply Hi in Hin' as [[? ?] ?]. split; [by apply Hr'|]. auto.
    + intros (Hs & Hn & Hlo & Hhi). assert (i ∈ r.*1) as Hin'.
      { apply Hi. split; [done|]. destruct (decide (i ∈ si_unused x)); [done|]. by destruct Hn. }
      apply elem_of_list_fmap in Hin' as ([i' s'] & -> & Hin). cbn [fst] in *. apply Hr' in Hin as Hs'. simplify_eq. congruence.
Qed.
(** The result of marking. *)
Lemma mark_result x i : (si_mark_used x i).2 = negb (si_is_used x i).
Proof. unfold si_mark_used, si_is_used. simpl. destruct (decide (i ∈ si_unused x)); [rewrite bool_decide_true, bool_decide_false; auto|rewrite bool_decide_false, bool_decide_true; auto]. Qed.

(** Unmarking reports whether it changed anything, and does so exactly when the only
    thing making the index used was a mark. *)
Lemma unmark_result h x i :
  scans_ok h → indices_once h → si_run h = Ret x →
  ∃ x' b, si_unmark_used x i = Ret (x', b) ∧
    (b = true ↔ (∃ s, tracked h s = Some i) ∧ (¬ ∃ o u, hit h i o u) ∧ marked h i = true).
Proof.
  intros Hok Ho E. destruct (si_run_inv h Hok) as (x' & E' & I1 & I2 & I3 & I4 & I5 & I6). replace x' with x in * by congruence.
  clear x' E'. specialize (I5 Ho). specialize (I6 Ho).
  assert (∀ i o, (i, o) ∈ si_spk_txouts x → SpkIndexSpec.op_ok o) as Hrange.
  { intros j o Hin. apply I2 in Hin as (u & h1 & l' & h2 & -> & Hin & _). eapply Hok; [|exact Hin]. set_solver. }
  unfold si_unmark_used. destruct (si_spks x !! i) as [s|] eqn:Es.
  - destruct (outputs_at x i Hrange) as (l & El & Hl). rewrite El. apply I5 in Es. destruct l as [|a l].
    + eexists _, _. split; [done|]. rewrite bool_decide_eq_true, I6.
      assert (¬ ∃ o u, hit h i o u) as Hn.
      { intros (o & u & Hu). apply (proj1 Hl eq_refl o). apply I2. eauto. }
      split.
      * intros Hx. split; [eauto|]. split; [done|]. destruct (marked h i); [done|]. destruct Hx. eauto.
      * intros (_ & _ & Hm) (_ & _ & Hm'). congruence.
    + eexists _, _. split; [done|]. split; [done|]. intros (_ & Hn & _). exfalso.
      assert (a :: l = []) as Hz; [|done]. apply Hl. intros o Hin. apply I2 in Hin as [u Hu]. apply Hn. eauto.
  - eexists _, _. split; [done|]. split; [done|]. intros ([s Hs] & _). apply I5 in Hs. congruence.
Qed.
(** ** Values (C33) *)(** ** Values (C33) *)
Lemma sum_u64_spec l : ∀ a, a + sumN l ≤ u64_max → sum_u64 a l = Ret (a + sumN l).
Proof.
  induction l as [|v l IH]; intros a Ha; cbn [sum_u64 sumN foldr] in *; [by rewrite N.add_0_r|].
  change (foldr N.add 0 l) with (sumN l) in *. unfold add_u64. rewrite bool_decide_true by lia.
  rewrite IH by lia. f_equal. lia.
Qed.
Lemma sum_u64_panic l : ∀ a, u64_max < a + sumN l → a ≤ u64_max → sum_u64 a l = Panic.
Proof.
  induction l as [|v l IH]; intros a Ha Ha'; cbn [sum_u64 sumN foldr] in *; [lia|].
  change (foldr N.add 0 l) with (sumN l) in *. unfold add_u64. case_bool_decide; [|done].
  apply IH; lia.
Qed.
Lemma sent_received_exact x t :
  let sent := sumN (omap (λ o, (λ iu, txo_value iu.2) <$> si_txout x o) (tx_in t)) in
  let received := sumN (txo_value <$> filter (λ u, is_Some (si_index_of_spk x (txo_spk u))) (tx_out t)) in
  si_sent_and_received x t =
    if bool_decide (sent ≤ u64_max ∧ received ≤ u64_max) then Ret (sent, received) else Panic.
Proof.
  cbn zeta. unfold si_sent_and_received.
  assert (omap (λ u, match si_index_of_spk x (txo_spk u) with Some _ => Some (txo_value u) | None => None end) (tx_out t) =
          txo_value <$> filter (λ u, is_Some (si_index_of_spk x (txo_spk u))) (tx_out t)) as ->.
  { induction (tx_out t) as [|u l IH]; [done|]. cbn [omap list_omap]. rewrite filter_cons.
    destruct (si_index_of_spk x (txo_spk u)) as [j|].
    - rewrite decide_True by eauto. cbn. f_equal. exact IH.
    - rewrite decide_False by (intros [? ?]; done). exact IH. }
  set (S := omap _ _). set (R := txo_value <$> _).
  destruct (decide (sumN S ≤ u64_max)) as [Hs|Hs].
  - rewrite sum_u64_spec by done. rewrite N.add_0_l. destruct (decide (sumN R ≤ u64_max)) as [Hr|Hr].
    + rewrite sum_u64_spec by done. by rewrite bool_decide_true.
    + rewrite sum_u64_panic by lia. by rewrite bool_decide_false by tauto.
  - rewrite sum_u64_panic by lia. by rewrite bool_decide_false by tauto.
Qed.
Lemma net_value_exact x t s r :
  si_sent_and_received x t = Ret (s, r) → s < 9223372036854775808 → r < 9223372036854775808 →
  si_net_value x t = Ret (Z.of_N r - Z.of_N s)%Z.
Proof.
  intros E Hs Hr. unfold si_net_value, as_i64, add_i64. rewrite E.
  apply N.ltb_lt in Hs as Hs', Hr as Hr'. rewrite Hs', Hr'. cbn zeta. rewrite bool_decide_true by lia. f_equal; lia.
Qed.
Lemma relevant_exact x t :
  si_is_relevant x t = true ↔
  (∃ o, o ∈ tx_in t ∧ is_Some (si_txout x o)) ∨ (∃ u, u ∈ tx_out t ∧ is_Some (si_index_of_spk x (txo_spk u))).
Proof.
  unfold si_is_relevant, si_txout, si_index_of_spk. rewrite orb_true_iff, !existsb_exists. setoid_rewrite <- elem_of_list_In.
  split; (intros [(a & Ha & Hb)|(a & Ha & Hb)]; [left|right]; exists a; (split; [done|])).
  - destruct (si_txouts x !! a); [eauto|done].
  - destruct (si_indices x !! txo_spk a); [eauto|done].
  - by destruct Hb as [? ->].
  - by destruct Hb as [? ->].
Qed.
End proofs.
