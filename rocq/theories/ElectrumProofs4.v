(** Electrum scans against an honest server that does not change: the whole scan (C60, C69). *)
From Verif Require Export ElectrumProofs3 KeychainIndexProofs.

(** ** Maps filled from lists *)
Lemma foldl_insert_lookup {A V} `{Countable J} (f : A → J) (g : A → V) (l : list A) (m : gmap J V) k v :
  NoDup (f <$> l) →
  foldl (λ m e, <[f e := g e]> m) m l !! k = Some v ↔
  (∃ e, e ∈ l ∧ f e = k ∧ g e = v) ∨ (k ∉ f <$> l ∧ m !! k = Some v).
Proof.
  revert m. induction l as [|e l IH]; intros m Hnd.
  { simpl. split; [right; split; [apply not_elem_of_nil|done]|]. intros [(e & []%elem_of_nil & _)|[_ ?]]; done. }
  rewrite fmap_cons in Hnd. apply NoDup_cons in Hnd as [Hni Hnd].
  cbn [foldl]. rewrite IH by done. split.
  - intros [(e' & Hin & Hf & Hg)|[Hk Hm]].
    + left. exists e'. split; [by right|done].
    + destruct (decide (f e = k)) as [<- |Hne].
      * rewrite lookup_insert in Hm. injection Hm as <-. left. exists e. split; [by left|done].
      * rewrite lookup_insert_ne in Hm by done. right. split; [|done].
        rewrite fmap_cons, not_elem_of_cons. done.
  - intros [(e' & [-> |Hin]%elem_of_cons & <- & <-)|[Hk Hm]].
    + right. split; [done|]. by rewrite lookup_insert.
    + left. by exists e'.
    + rewrite fmap_cons, not_elem_of_cons in Hk. destruct Hk as [Hk1 Hk2]. right. split; [done|].
      by rewrite lookup_insert_ne.
Qed.

Lemma filter_sorted_fst `{OrdLaws A} {V} (Q : A * V → Prop) `{∀ a, Decision (Q a)} (l : list (A * V)) :
  StronglySorted ord_lt l.*1 → StronglySorted ord_lt (filter Q l).*1.
Proof.
  induction l as [|e l IH]; intros Hs; [done|]. rewrite filter_cons. rewrite fmap_cons in Hs.
  apply StronglySorted_inv in Hs as [Hs Hall]. destruct (decide (Q e)); [|by apply IH].
  rewrite fmap_cons. constructor; [by apply IH|]. rewrite Forall_forall in *. intros x Hx. apply Hall.
  apply elem_of_list_fmap in Hx as (e' & -> & Hin). apply elem_of_list_filter in Hin as [_ Hin].
  apply elem_of_list_fmap. eauto.
Qed.

Section last_active.
Context `{Countable K, !Ord K, !OrdLaws K}.
Implicit Types (scanned : gmap (K * N) (Script * bool)).
Lemma last_active_range (k k' : K) (i : N) :
  (above_lo (Incl (k, 0)) (k', i) ∧ below_hi (Incl (k, u32_max)) (k', i)) ↔ k' = k ∧ i ≤ u32_max.
Proof.
  unfold above_lo, below_hi. rewrite !prod_ord_le. cbn [fst snd]. split.
  - intros [[H1|[-> H1]] [H2|[H3 H2]]].
    + exfalso. apply (ord_lt_irrefl k). by eapply ord_lt_trans.
    + subst. by apply ord_lt_irrefl in H1.
    + by apply ord_lt_irrefl in H2.
    + split; [done|]. by apply N_ord_le.
  - intros [-> Hi]. split; right; (split; [done|]); apply N_ord_le; lia.
Qed.
Lemma last_active_spec (k : K) scanned j :
  last_active k scanned = Some j ↔
    j ≤ u32_max ∧ (∃ s, scanned !! (k, j) = Some (s, true)) ∧
    ∀ i s, i ≤ u32_max → scanned !! (k, i) = Some (s, true) → i ≤ j.
Proof.
  unfold last_active. set (L := filter _ (bmap_list scanned)).
  assert (HL: ∀ k' i s b, (k', i, (s, b)) ∈ L ↔ k' = k ∧ i ≤ u32_max ∧ b = true ∧ scanned !! (k', i) = Some (s, b)).
  { intros k' i s b. unfold L. rewrite elem_of_list_filter, elem_of_bmap_list. cbn [fst snd].
    rewrite last_active_range. tauto. }
  assert (Hs: StronglySorted ord_lt L.*1) by (apply filter_sorted_fst, bmap_list_sorted).
  assert (Hfwd: ∀ k' i s b, last L = Some (k', i, (s, b)) →
    k' = k ∧ i ≤ u32_max ∧ scanned !! (k, i) = Some (s, true) ∧
    ∀ i' s', i' ≤ u32_max → scanned !! (k, i') = Some (s', true) → i' ≤ i).
  { intros k' i s b El. pose proof (last_Some_elem_of _ _ El) as Hin. apply HL in Hin as (-> & Hi & -> & Hm).
    split; [done|]. split; [done|]. split; [done|]. intros i' s' Hi' Hm'.
    destruct (last_sorted_max L.*1 (k, i) Hs) as [_ Hmax]; [by rewrite last_fst, El|].
    specialize (Hmax (k, i')). rewrite prod_ord_le in Hmax. cbn [fst snd] in Hmax.
    destruct Hmax as [Hlt|[_ Hle]].
    - apply elem_of_list_fmap. exists (k, i', (s', true)). split; [done|]. by apply HL.
    - by apply ord_lt_irrefl in Hlt.
    - by apply N_ord_le in Hle. }
  split.
  - intros (e & El & ->)%fmap_Some. destruct e as [[k' i] [s b]].
    destruct (Hfwd _ _ _ _ El) as (-> & Hi & Hm & Hmax). cbn [fst snd]. eauto.
  - intros (Hj & (s & Hm) & Hmax).
    destruct (last L) as [[[k' i] [s' b]]|] eqn:El.
    + destruct (Hfwd _ _ _ _ eq_refl) as (-> & Hi & Hm' & Hmax'). simpl. f_equal.
      pose proof (Hmax _ _ Hi Hm'). pose proof (Hmax' _ _ Hj Hm). lia.
    + apply last_None in El. assert ((k, j, (s, true)) ∈ L) as Hin by (by apply HL).
      rewrite El in Hin. by apply elem_of_nil in Hin.
Qed.
Lemma last_active_indices_lookup (ks : list K) scanned k j :
  NoDup ks → last_active_indices ks scanned !! k = Some j ↔ k ∈ ks ∧ last_active k scanned = Some j.
Proof.
  intros Hnd. unfold last_active_indices.
  assert (Hel: ∀ k j, (k, j) ∈ omap (λ k, pair k <$> last_active k scanned) ks ↔ k ∈ ks ∧ last_active k scanned = Some j).
  { intros k' j'. rewrite elem_of_list_omap. split.
    - intros (k2 & Hin & E). apply fmap_Some in E as (j2 & E & [= -> ->]). done.
    - intros [Hin E]. exists k'. by rewrite E. }
  rewrite <- Hel. symmetry. apply elem_of_list_to_map. clear Hel.
  induction Hnd as [|k' ks Hni Hnd IH]; [constructor|]. simpl.
  destruct (last_active k' scanned); simpl; [|done]. constructor; [|done].
  intros Hin. apply elem_of_list_fmap in Hin as ([k2 j2] & -> & Hin). apply elem_of_list_omap in Hin as (k3 & Hk3 & E).
  apply fmap_Some in E as (j3 & _ & [= -> ->]). done.
Qed.
End last_active.

Section honest.
Context (w : World) (Hw : world_ok w) (dbg : bool).
Context (srv : nat → ESnap) (Hhonest : ∀ n, electrum_honest w (srv n)).
Implicit Types (u : SparseChain TxHeight) (t : Txid).

Lemma record_lookup `{Countable J} (l : list (J * Script)) i s b :
  NoDup l.*1 → record w l ∅ !! i = Some (s, b) ↔ (i, s) ∈ l ∧ b = active w s.
Proof using.
  intros Hnd. unfold record. rewrite (foldl_insert_lookup fst (λ e, (e.2, active w e.2))) by done. split.
  - intros [([i' s'] & Hin & <- & [= -> <-])|[_ Hm]]; [done|]. by rewrite lookup_empty in Hm.
  - intros [Hin ->]. left. by exists (i, s).
Qed.
Lemma processed_NoDup {J} (gap unused : N) (l : list (J * Script)) :
  NoDup l.*1 → NoDup (processed w gap unused l).1.*1.
Proof using.
  destruct (processed_prefix w gap unused l) as [r Hr]. rewrite Hr at 1. rewrite fmap_app. intros Hnd.
  by apply NoDup_app in Hnd as [? _].
Qed.
Lemma processed_found (gap : N) (l : list (N * Script)) i s :
  (i, s) ∈ (processed w gap 0 l).1 ∧ active w s = true ↔
  ∃ p, l !! p = Some (i, s) ∧ within_gap gap (activity w l) p.
Proof using.
  pose proof (processed_length w gap 0 l) as Hlen. cbn [replicate app plus] in Hlen.
  destruct (processed_prefix w gap 0 l) as [r Hr].
  split.
  - intros [Hin Ha]. apply elem_of_list_lookup in Hin as [p Hp].
    assert (Hl: l !! p = Some (i, s)). { rewrite Hr. apply lookup_app_l_Some. done. }
    exists p. split; [done|]. split.
    + unfold activity. rewrite list_lookup_fmap, Hl. simpl. by f_equal.
    + apply (Hlen p); [lia| |]; by eapply lookup_lt_Some.
  - intros (p & Hl & Hact & Hgap). unfold activity in Hact. rewrite list_lookup_fmap, Hl in Hact. simpl in Hact.
    split; [|by injection Hact]. apply elem_of_list_lookup. exists p.
    apply (Hlen p) in Hgap; [|lia|by eapply lookup_lt_Some].
    rewrite Hr in Hl. by rewrite lookup_app_l in Hl.
Qed.

Section scan.
Context `{Countable K, !Ord K, !OrdLaws K}.
Implicit Types (scanned : gmap (K * N) (Script * bool)) (requests : list (K * list (N * Script))).

Definition scanned_of (gap : N) requests scanned : gmap (K * N) (Script * bool) :=
  foldl (λ m (ks : K * list (N * Script)),
    add_keychain_spks ks.1 (record w (processed w gap 0 ks.2).1 ∅) m) scanned requests.
Definition histories_of (gap : N) requests : list Txid :=
  requests ≫= λ ks : K * list (N * Script), histories w (processed w gap 0 ks.2).1.

Lemma scan_keychains_true cps (gap : N) (batch : nat) requests u scanned :
  true_upd w cps u → (0 < batch)%nat →
  ends (scan_keychains dbg srv gap batch requests u scanned)
    (λ r, grows w cps u r.1.2 (histories_of gap requests) ∧ r.2 = scanned_of gap requests scanned).
Proof using Hw Hhonest.
  intros Hu Hb. revert u scanned Hu. induction requests as [|[k l] requests IH]; intros u scanned Hu; cbn [scan_keychains].
  { apply ends_ret. split; [by apply grows_refl|done]. }
  eapply ends_bnd; [by apply (populate_with_spks_true w Hw dbg srv Hhonest cps)|].
  intros [[u1 rest] new] (rest' & Heq & Hg1). simpl in Heq, Hg1. injection Heq as -> ->.
  eapply ends_bnd; [apply IH; apply Hg1|]. intros [[rq u2] sc2] [Hg2 Hsc2]. simpl in *. apply ends_ret. simpl.
  split; [|done]. unfold histories_of. cbn [mbind list_bind]. by eapply grows_trans.
Qed.

Lemma add_keychain_spks_lookup (k : K) (new : gmap N (Script * bool)) scanned k' i v :
  add_keychain_spks k new scanned !! (k', i) = Some v ↔
  (k' = k ∧ new !! i = Some v) ∨ ((k' ≠ k ∨ new !! i = None) ∧ scanned !! (k', i) = Some v).
Proof using.
  unfold add_keychain_spks.
  rewrite (foldl_insert_lookup (λ e : N * (Script * bool), (k, e.1)) snd).
  2: { replace ((λ e : N * (Script * bool), (k, e.1)) <$> bmap_list new) with (pair k <$> (bmap_list new).*1)
         by (by rewrite <- list_fmap_compose).
       apply NoDup_fmap_2; [intros ?? [=]; done|]. apply NoDup_fst_bmap_list. }
  split.
  - intros [([j x] & Hin & [= -> ->] & <-)|[Hni Hm]].
    + left. split; [done|]. by apply elem_of_bmap_list.
    + right. split; [|done]. destruct (decide (k' = k)) as [-> |?]; [|by left]. right.
      destruct (new !! i) as [x|] eqn:E; [|done]. destruct Hni. apply elem_of_list_fmap. exists (i, x).
      split; [done|]. by apply elem_of_bmap_list.
  - intros [[-> Hn]|[Hor Hm]].
    + left. exists (i, v). split; [by apply elem_of_bmap_list|done].
    + right. split; [|done]. intros ([j x] & [= -> ->] & Hin)%elem_of_list_fmap.
      apply elem_of_bmap_list in Hin. destruct Hor as [|Hor]; [done|]. simpl in *. congruence.
Qed.
Lemma scanned_of_lookup (gap : N) requests scanned k i s b :
  NoDup requests.*1 → (∀ k l, (k, l) ∈ requests → NoDup l.*1) → (∀ k i, k ∈ requests.*1 → scanned !! (k, i) = None) →
  scanned_of gap requests scanned !! (k, i) = Some (s, b) ↔
  (∃ l, (k, l) ∈ requests ∧ (i, s) ∈ (processed w gap 0 l).1 ∧ b = active w s) ∨ scanned !! (k, i) = Some (s, b).
Proof using.
  revert scanned. induction requests as [|[k0 l0] requests IH]; intros scanned Hnd Hl Hsc.
  { unfold scanned_of. simpl. split; [by right|]. intros [(l & []%elem_of_nil & _)|?]; done. }
  rewrite fmap_cons in Hnd. apply NoDup_cons in Hnd as [Hni Hnd]. simpl in Hni.
  change (scanned_of gap ((k0, l0) :: requests) scanned) with
    (scanned_of gap requests (add_keychain_spks k0 (record w (processed w gap 0 l0).1 ∅) scanned)).
  rewrite IH; [|done|intros k' l' Hin; apply (Hl k'); by right|].
  2: { intros k' i' Hk'. destruct (add_keychain_spks _ _ _ !! _) as [v|] eqn:E; [|done].
       apply add_keychain_spks_lookup in E as [[-> _]|[_ E]]; [done|]. rewrite Hsc in E; [done|]. by right. }
  rewrite add_keychain_spks_lookup.
  assert (Hnd0: NoDup (processed w gap 0 l0).1.*1) by (apply processed_NoDup, (Hl k0); by left).
  rewrite record_lookup by done. split.
  - intros [(l & Hin & Hp)|[[-> Hp]|[_ Hm]]].
    + left. exists l. split; [by right|done].
    + left. exists l0. split; [by left|done].
    + by right.
  - intros [(l & [[= -> ->]|Hin]%elem_of_cons & Hp)|Hm].
    + right. left. done.
    + left. by exists l.
    + right. right. split; [|done]. destruct (decide (k = k0)) as [-> |?]; [|by left].
      rewrite Hsc in Hm; [done|]. by left.
Qed.

Lemma scan_ends (fuel : nat) (local : gmap N BlockHash) (kspks : gmap K (list (N * Script)))
  (txids : list Txid) (outpoints : list OutPoint) (gap : N) (batch : nat) :
  (∀ h, is_Some (local !! h) → h ≤ w_tip w) → (0 < batch)%nat →
  Forall (λ t, t ≤ max_txid) txids → Forall (λ o, is_Some (w_tx w (op_txid o))) outpoints →
  ends (scan dbg srv (S fuel) local kspks txids outpoints gap batch)
    (scan_complete w local kspks txids outpoints gap).
Proof using Hw Hhonest OrdLaws0.
  intros Hlocal Hb Htx Hops. unfold scan. eapply ends_bnd.
  { cbn [scan_loop]. eapply ends_bnd; [by apply (prepare_update_ends w Hw srv Hhonest)|].
    intros u0 (Hu0 & Hpos0 & Hcon). set (cps := sc_cps u0).
    assert (Htrue0: true_upd w cps u0).
    { split; [by split|]. split.
      - pose proof (proj1 (connects_iff w local cps) Hcon) as Hc. split.
        + exists (w_block w (w_tip w)). apply Hc. split; [by left|done].
        + intros h [y Hh]. apply Hc in Hh as [[-> |[Hh _]] _]; [done|]. by apply Hlocal.
      - intros t p. by rewrite Hpos0, lookup_empty. }
    apply (ends_bnd _ _ (λ r, r = (u0, Some ∅))).
    { destruct (bmap_list kspks); [by apply ends_ret|]. unfold rescan. by apply ends_ret. }
    intros ? ->. eapply ends_bnd; [by apply (scan_keychains_true cps)|]. intros [[rq u1] sc1] [Hg1 Hsc1].
    cbn [fst snd] in *. eapply ends_bnd; [apply (populate_with_txids_true w Hw dbg srv Hhonest cps); [apply Hg1|done]|].
    intros [u2 ok2] [Hok2 Hg2]. cbn [fst snd] in *. rewrite Hok2. cbn [negb].
    eapply ends_bnd; [apply (populate_with_outpoints_true w Hw dbg srv Hhonest cps); [apply Hg2|done]|].
    intros [u3 [ok3|]] (Hm3 & Hok3 & Hf3 & Har3); [|done]. cbn [fst snd] in *.
    pose proof (proj1 Hm3) as Htrue3. destruct (true_latest w cps u3 Htrue3) as (x & Hx). rewrite Hx.
    apply (ends_bnd _ _ (λ y, y = x)).
    { apply ends_req. intros n. rewrite (eh_header w _ (Hhonest n)) by (cbn; lia). eexists. split; [done|].
      apply latest_tip in Hx as [_ Hx]. cbn in Hx. destruct Htrue3 as ((_ & Hc3) & _). rewrite Hc3 in Hx.
      pose proof (proj1 (connects_iff w local cps) Hcon) as Hc. apply Hc in Hx as [_ ->]. done. }
    intros y ->. cbn [bi_hash]. rewrite N.eqb_refl.
    apply (ends_ret (u3, sc1) (λ r, connects w local (sc_cps r.1) ∧ true_upd w (sc_cps r.1) r.1 ∧
       (∀ t, t ∈ histories_of gap (bmap_list kspks) → is_Some (sc_pos r.1 !! t)) ∧
       (∀ t, t ∈ txids → is_Some (w_tx w t) → is_Some (sc_pos r.1 !! t)) ∧
       (∀ o, o ∈ outpoints → outpoint_found w r.1 o) ∧
       (∀ t, is_Some (sc_pos r.1 !! t) → t ∈ histories_of gap (bmap_list kspks) ∨
          t ∈ txids ∧ is_Some (w_tx w t) ∨ ∃ o, o ∈ outpoints ∧ w_output w o ∧ around w o t) ∧
       r.2 = scanned_of gap (bmap_list kspks) ∅)). cbn [fst snd].
    destruct Htrue3 as ((Hu3 & Hc3) & Htip3 & Hp3). rewrite Hc3. split; [done|]. split; [by split; [split|split]|].
    split; [intros t Ht; apply Hm3, Hg2; left; apply Hg1; by right|].
    split; [intros t Ht Hk; apply Hm3, Hg2; right; by apply elem_of_list_filter|]. split; [done|]. split; [|done].
    intros t Ht. apply Har3 in Ht as [Ht|Ht]; [|by right; right].
    apply Hg2 in Ht as [Ht|Ht]; [|apply elem_of_list_filter in Ht as [? Ht]; by right; left].
    apply Hg1 in Ht as [Ht|Ht]; [|by left]. rewrite Hpos0, lookup_empty in Ht. by destruct Ht. }
  intros [u sc] (Hcon & Htrue & Hhist & Htxs & Hout & Honly & Hsc). cbn [fst snd] in *. apply ends_ret. cbn [eu_chain eu_active].
  split; cbn [eu_chain eu_active]; [|done|apply Htrue| |done|done| |].
  - destruct Htrue as ((Hu & _) & _). split; [apply Hu|]. split; apply Hu.
  - intros k l p i s t Hk Hl Hgap Ht. apply Hhist. unfold histories_of. apply elem_of_list_bind. exists (k, l).
    split; [|by apply elem_of_bmap_list]. apply elem_of_list_bind. exists (i, s). split; [done|].
    cbn [snd]. by apply (processed_found gap l i s); eauto.
  - intros t Ht. apply Honly in Ht as [Ht|Ht]; [left|by right].
    unfold histories_of in Ht. apply elem_of_list_bind in Ht as ([k l] & Ht & Hk).
    apply elem_of_bmap_list in Hk. apply elem_of_list_bind in Ht as ([i s] & Ht & Hin). cbn [snd] in *.
    destruct (proj1 (processed_found gap l i s)) as (p & Hp & Hgap).
    { split; [done|]. unfold active. destruct (w_history w s); [by apply elem_of_nil in Ht|done]. }
    by exists k, l, p, i, s.
  - intros Hwf k j. rewrite map_Forall_lookup in Hwf. rewrite last_active_indices_lookup by apply NoDup_fst_bmap_list. rewrite Hsc.
    assert (Hlook: ∀ k i s b, scanned_of gap (bmap_list kspks) ∅ !! (k, i) = Some (s, b) ↔
        ∃ l, kspks !! k = Some l ∧ (i, s) ∈ (processed w gap 0 l).1 ∧ b = active w s).
    { intros k' i s b. rewrite scanned_of_lookup.
      - rewrite lookup_empty. split.
        + intros [(l & Hin & Hp)|?]; [|done]. apply elem_of_bmap_list in Hin. eauto.
        + intros (l & Hin & Hp). left. exists l. by rewrite elem_of_bmap_list.
      - apply NoDup_fst_bmap_list.
      - intros k2 l Hin. apply elem_of_bmap_list in Hin. apply (Hwf k2 l Hin).
      - intros. apply lookup_empty. }
    rewrite last_active_spec.
    assert (Hact: ∀ k i, (∃ s, scanned_of gap (bmap_list kspks) ∅ !! (k, i) = Some (s, true)) ↔
       ∃ l, kspks !! k = Some l ∧ found_index w gap l i).
    { intros k' i. split.
      - intros (s & Hs). apply Hlook in Hs as (l & Hl & Hin & Ha). exists l. split; [done|].
        destruct (proj1 (processed_found gap l i s)) as (p & Hp1 & Hp2); [done|]. by exists p, s.
      - intros (l & Hl & p & s & Hp1 & Hp2). exists s. apply Hlook. exists l. split; [done|].
        destruct (proj2 (processed_found gap l i s)) as [Hin Ha]; [eauto|done]. }
    split.
    + intros (Hin & Hj & Hs & Hmax). apply Hact in Hs as (l & Hl & Hfi). exists l. split; [done|]. split; [done|].
      intros i Hi. destruct (proj2 (Hact k i)) as (s & Hs); [eauto|]. apply (Hmax i s); [|done].
      destruct Hi as (p & s' & Hp & _). apply elem_of_list_lookup_2 in Hp.
      destruct (Hwf k l Hl) as [_ Hle]. rewrite Forall_forall in Hle. apply Hle. apply elem_of_list_fmap.
      by exists (i, s').
    + intros (l & Hl & Hfi & Hmax). split; [|split; [|split]].
      * apply elem_of_list_fmap. exists (k, l). split; [done|]. by apply elem_of_bmap_list.
      * destruct Hfi as (p & s' & Hp & _). apply elem_of_list_lookup_2 in Hp.
        destruct (Hwf k l Hl) as [_ Hle]. rewrite Forall_forall in Hle. apply Hle. apply elem_of_list_fmap.
        by exists (j, s').
      * apply Hact. eauto.
      * intros i s _ Hs. apply Hmax. destruct (proj1 (Hact k i)) as (l' & Hl' & Hfi'); [eauto|].
        rewrite Hl in Hl'. by injection Hl' as <-.
Qed.
End scan.
End honest.
