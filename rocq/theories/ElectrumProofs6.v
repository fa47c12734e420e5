(** From what an electrum scan found to an update of the wallet: full transactions (C70) and
    confirmation times (C71). *)
From Verif Require Export ElectrumProofs3.
From Verif Require Export ChainGraphProofs3.

(** ** C70 *)
Section missing.
Context `{ChainPositionLaws P, Countable K, !Ord K}.
Implicit Types (e : ElectrumUpdate K P).
Lemma missing_elem e g i :
  chain_ok (eu_chain e) →
  i ∈ missing_full_txs e g ↔ is_Some (sc_pos (eu_chain e) !! i) ∧ get_tx g i = None.
Proof.
  intros [Hv _]. unfold missing_full_txs. rewrite elem_of_list_fmap. split.
  - intros ([p j] & -> & [Hg Hin]%elem_of_list_filter). apply txids_elem in Hin; [|done]. simpl in *. eauto.
  - intros [[p Hp] Hg]. exists (p, i). split; [done|]. apply elem_of_list_filter. split; [done|].
    by apply txids_elem.
Qed.
Lemma NoDup_fmap_filter {A B} (f : A → B) (Q : A → Prop) `{∀ x, Decision (Q x)} (l : list A) :
  NoDup (f <$> l) → NoDup (f <$> filter Q l).
Proof.
  induction l as [|a l IH]; [done|]. simpl. intros [Ha Hl]%NoDup_cons. rewrite filter_cons.
  destruct (decide (Q a)); [|auto]. simpl. apply NoDup_cons. split; [|auto]. intros Hin. apply Ha.
  apply elem_of_list_fmap in Hin as (x & -> & [_ Hx]%elem_of_list_filter). apply elem_of_list_fmap. eauto.
Qed.
Lemma missing_NoDup e g : chain_ok (eu_chain e) → NoDup (missing_full_txs e g).
Proof. intros [Hv _]. apply NoDup_fmap_filter. by apply txids_NoDup_snd. Qed.
Lemma into_scan_spec ho e (new_txs : list Tx) (cg : ChainGraph P) :
  cg_ok cg → chain_ok (eu_chain e) → hash_order (inflate_graph cg (eu_chain e) new_txs) ho →
  (∀ i, i ∈ missing_full_txs e (cg_graph cg) → ∃ t, t ∈ new_txs ∧ txid t = i) →
  match into_keychain_scan ho e new_txs cg with
  | Panic => False
  | Ret (Ok s) =>
      cg_chain (ks_update s) = eu_chain e ∧ ks_active s = eu_active e ∧ cg_ok (ks_update s) ∧
      ∀ i, is_Some (sc_pos (eu_chain e) !! i) →
        ∃ t, get_tx (cg_graph (ks_update s)) i = Some t ∧ txid t = i ∧
             (get_tx (cg_graph cg) i = Some t ∨ t ∈ new_txs)
  | Ret (Err (NewMissing _)) => False
  | Ret (Err (NewConflict (p, i) (q, j))) =>
      i ≠ j ∧ sc_pos (eu_chain e) !! i = Some p ∧ sc_pos (eu_chain e) !! j = Some q ∧
      ∃ a b, (get_tx (cg_graph cg) i = Some a ∨ a ∈ new_txs) ∧ (get_tx (cg_graph cg) j = Some b ∨ b ∈ new_txs) ∧
             txid a = i ∧ txid b = j ∧ double_spend a b
  end.
Proof.
  intros Hcg Hc Hho Hall. unfold into_keychain_scan.
  pose proof (inflate_spec ho cg (eu_chain e) new_txs Hcg Hc Hho) as Hs. cbn zeta in Hs.
  destruct (inflate_update ho cg (eu_chain e) new_txs) as [[u|[[p i] [q j]|m]]|]; [| |exfalso|done].
  - destruct Hs as (Hch & Hok & _ & Hfull). cbn [ks_update ks_active]. split; [done|]. split; [done|]. split; [done|].
    intros i Hi. destruct (Hfull i) as (t & Ht & Hor).
    { unfold in_chain. by rewrite Hch. }
    exists t. split; [done|]. split; [|done]. destruct Hok as (_ & [Hk _] & _). apply Hk. by apply get_tx_Some.
  - done.
  - destruct Hs as [Hm Hne]. apply set_choose_L in Hne as [i Hi]. apply Hm in Hi as [Hi Hns]. apply Hns.
    destruct (get_tx (cg_graph cg) i) as [t|] eqn:E; [left; eauto|]. right. apply Hall. by apply missing_elem.
Qed.
End missing.

(** ** C71 *)
(** A position with the time its block has. *)
Definition timed (time : N → N) (p : TxHeight) : ConfirmationTime :=
  match p with Confirmed h => CtConfirmed h (time h) | Unconfirmed => CtUnconfirmed end.

Lemma height_times_lookup time (l : list N) h : h ∈ l → height_times l (time <$> l) !! h = Some (time h).
Proof.
  unfold height_times. assert (Hg : ∀ m : gmap N N, (h ∈ l ∨ m !! h = Some (time h)) →
    foldl (λ m (e : N * N), <[e.1 := e.2]> m) m (zip l (time <$> l)) !! h = Some (time h)); [|by intros; apply Hg; left].
  induction l as [|a l IH]; intros m; simpl; [by intros [?%elem_of_nil|?]|]. intros Hor. apply IH.
  destruct Hor as [[->|Hin]%elem_of_cons|Hm]; [right|by left|right].
  - by rewrite lookup_insert.
  - destruct (decide (a = h)) as [->|Hne]; [by rewrite lookup_insert|by rewrite lookup_insert_ne].
Qed.

Section times.
Context (time : N → N) (Htime : ∀ h, time h ≤ u64_max).
Lemma timed_height p : pos_height (timed time p) = p.
Proof. by destruct p. Qed.
Lemma convert_loop_ends (times : gmap N N) (l : list (TxHeight * Txid)) (u : SparseChain ConfirmationTime) :
  upd_ok u → NoDup l.*2 →
  (∀ h i, (Confirmed h, i) ∈ l → times !! h = Some (time h) ∧ ∃ k, is_Some (sc_cps u !! k) ∧ h ≤ k) →
  (∀ p i, (p, i) ∈ l → i ≤ max_txid ∧ sc_pos u !! i = None) →
  ∃ u', convert_loop times l u = Ret u' ∧ upd_ok u' ∧ sc_cps u' = sc_cps u ∧
    ∀ i q, sc_pos u' !! i = Some q ↔ sc_pos u !! i = Some q ∨ ∃ p, (p, i) ∈ l ∧ q = timed time p.
Proof using Htime.
  revert u. induction l as [|[p i] l IH]; intros u Hu Hnd Hc Hp.
  { exists u. split; [done|]. split; [done|]. split; [done|]. intros i q. split; [by left|].
    intros [?|(p & []%elem_of_nil & _)]; done. }
  apply NoDup_cons in Hnd as [Hni Hnd]. destruct (Hp p i) as [Hi Hnone]; [left|].
  assert (Hct : match p with
           | Confirmed h => match times !! h with Some t => Ret (CtConfirmed h t) | None => Panic end
           | Unconfirmed => Ret CtUnconfirmed
           end = Ret (timed time p)).
  { destruct p as [h|]; [|done]. destruct (Hc h i) as [-> _]; [left|done]. }
  assert (Hk : ∀ h, p = Confirmed h → ∃ k, is_Some (sc_cps u !! k) ∧ h ≤ k).
  { intros h ->. apply (Hc h i). left. }
  destruct (upd_ok_insert_pos u i (timed time p)) as (u1 & cs & Hins & Hu1 & Hcps & Hpos); [done|done| | |].
  { destruct p as [h|]; simpl; [|done]. destruct (Hk h eq_refl) as (k & Hk' & Hle). destruct Hu as (_ & [Hb _] & _).
    specialize (Hb k Hk'). split; [lia|]. apply Htime. }
  { split; [|by rewrite Hnone]. intros h. rewrite timed_height. apply Hk. }
  destruct (IH u1) as (u2 & Hl & Hu2 & Hcps2 & Hpos2); [done|done| | |].
  { intros h j Hj. rewrite Hcps. apply (Hc h j). by right. }
  { intros q j Hj. destruct (Hp q j) as [? ?]; [by right|]. split; [done|]. rewrite Hpos, lookup_insert_ne; [done|].
    intros ->. apply Hni. apply elem_of_list_fmap. by exists (q, j). }
  exists u2. split; [|split; [done|split; [by rewrite Hcps2|]]].
  - cbn [convert_loop]. cbn [mbind outcome_bind] in *. rewrite Hct. cbn [mbind outcome_bind]. by rewrite Hins.
  - intros j q. rewrite Hpos2, Hpos. destruct (decide (i = j)) as [<-|Hne].
    + rewrite lookup_insert. split.
      * intros [[= <-]|(p' & Hin & _)]; [right; exists p; split; [left|done]|]. exfalso. apply Hni.
        apply elem_of_list_fmap. by exists (p', i).
      * intros [Hq|(p' & [[= ->]|Hin]%elem_of_cons & ->)]; [congruence|by left|]. exfalso. apply Hni.
        apply elem_of_list_fmap. by exists (p', i).
    + rewrite lookup_insert_ne by done. split.
      * intros [Hq|(p' & Hin & ->)]; [by left|]. right. exists p'. split; [by right|done].
      * intros [Hq|(p' & [[= -> ->]|Hin]%elem_of_cons & ->)]; [by left|done|]. right. eauto.
Qed.

Lemma from_cps_foldl (l : list (N * BlockHash)) (m : gmap N BlockHash) :
  foldl (λ m b, <[bi_height b := bi_hash b]> m) m ((λ kv : N * BlockHash, mkBlockId kv.1 kv.2) <$> l) =
  foldl (λ m (e : N * BlockHash), <[e.1 := e.2]> m) m l.
Proof. revert m. induction l as [|a l IH]; intros m; [done|]. simpl. apply IH. Qed.
Lemma from_checkpoints_same (m : gmap N BlockHash) :
  from_checkpoints (P:=ConfirmationTime) ((λ kv : N * BlockHash, mkBlockId kv.1 kv.2) <$> bmap_list m) = mkChain m ∅ ∅ None.
Proof.
  unfold from_checkpoints. f_equal. rewrite from_cps_foldl. apply map_eq. intros h.
  assert (Hg : ∀ (l : list (N * BlockHash)) (m0 : gmap N BlockHash), NoDup l.*1 →
    foldl (λ m (e : N * BlockHash), <[e.1 := e.2]> m) m0 l !! h =
    match list_to_map (M:=gmap N BlockHash) l !! h with Some x => Some x | None => m0 !! h end).
  { induction l as [|[k x] l IH]; intros m0 Hnd; [by simpl; rewrite lookup_empty|].
    simpl in Hnd. apply NoDup_cons in Hnd as [Hk Hnd]. simpl. rewrite IH by done.
    destruct (decide (k = h)) as [->|Hne].
    - rewrite !lookup_insert. rewrite (not_elem_of_list_to_map_1 l h); done.
    - rewrite !lookup_insert_ne by done. done. }
  assert (Hp : (bmap_list m).*1 ≡ₚ (map_to_list m).*1) by (apply fmap_Permutation, bmap_list_perm).
  rewrite Hg; [|rewrite Hp; apply NoDup_fst_map_to_list].
  rewrite lookup_empty. rewrite (list_to_map_proper _ (map_to_list m)); [|rewrite Hp; apply NoDup_fst_map_to_list|apply bmap_list_perm].
  rewrite list_to_map_to_list. by destruct (m !! h).
Qed.

Lemma confirmation_times_ends `{Countable K, !Ord K} (srv : nat → ESnap) (e : ElectrumUpdate K TxHeight) :
  chain_ok (eu_chain e) → below_max (eu_chain e) → confirmed_below_tip (eu_chain e) →
  (∀ n l, es_times (srv n) l = Ok (time <$> l)) →
  ends (into_confirmation_time_update srv e) (λ e',
    chain_ok (eu_chain e') ∧ sc_cps (eu_chain e') = sc_cps (eu_chain e) ∧ eu_active e' = eu_active e ∧
    ∀ i, sc_pos (eu_chain e') !! i = timed time <$> sc_pos (eu_chain e) !! i).
Proof using Htime.
  intros Hok Hbm Hcbt Hsrv. unfold into_confirmation_time_update.
  rewrite range_by_height_spec by done. unfold range_bad.
  set (l := filter _ (txids (eu_chain e))).
  assert (Hl : ∀ p i, (p, i) ∈ l ↔ sc_pos (eu_chain e) !! i = Some p ∧ ∃ h, p = Confirmed h).
  { intros p i. unfold l. rewrite elem_of_list_filter. rewrite txids_elem by apply Hok. simpl.
    split; intros [A B].
    - split; [done|]. destruct p as [h|]; [by eauto|]. exfalso. destruct A as [_ A]. by vm_compute in A.
    - destruct B as [h ->]. split; [by split|done]. }
  clearbody l. cbn iota.
  eapply ends_bnd; [apply (ends_lift _ (λ x, x = l)); by exists l|]. intros l' ->.
  cbv beta zeta. set (heights := omap _ l).
  destruct (existsb _ l) eqn:Ex.
  { exfalso. apply existsb_exists in Ex as ([p i] & Hin & Hb). apply elem_of_list_In, Hl in Hin as [_ [h ->]]. done. }
  eapply ends_bnd.
  { apply (ends_req _ _ (λ ts, ts = time <$> heights)). intros n. exists (time <$> heights). by rewrite Hsrv. }
  intros ts ->. rewrite from_checkpoints_same.
  set (u0 := mkChain (P:=ConfirmationTime) (sc_cps (eu_chain e)) ∅ ∅ None).
  assert (Hu0 : upd_ok u0).
  { destruct Hok as (Hv & Hv1 & Hv2), Hbm as [Hb1 Hb2]. split; [|split; [|split; [done|]]].
    - split; [|split]; unfold u0; simpl.
      + intros p t. simpl. rewrite lookup_empty. split; [by intros ?%elem_of_empty|done].
      + intros t p. by rewrite lookup_empty.
      + done.
    - split; unfold u0; simpl; [done|]. intros t p h. by rewrite lookup_empty.
    - intros t p h. unfold u0; simpl. by rewrite lookup_empty. }
  destruct (convert_loop_ends (height_times heights (time <$> heights)) (txids (eu_chain e)) u0)
    as (u' & Hc & Hu' & Hcps & Hpos).
  { done. }
  { apply txids_NoDup_snd, Hok. }
  { intros h i Hin. split.
    - apply height_times_lookup. unfold heights. apply elem_of_list_omap. exists (Confirmed h, i). split; [|done].
      apply Hl. split; [|eauto]. apply txids_elem in Hin; [done|apply Hok].
    - apply txids_elem in Hin; [|apply Hok]. by apply (Hcbt i (Confirmed h) h). }
  { intros p i Hin. apply txids_elem in Hin; [|apply Hok]. split; [|by unfold u0; simpl; rewrite lookup_empty].
    apply (proj1 (proj2 Hok) i p Hin). }
  eapply ends_bnd; [apply (ends_lift _ (λ x, x = u')); by exists u'|]. intros x ->.
  apply ends_ret. cbn [eu_chain eu_active]. split; [apply Hu'|]. split; [done|]. split; [done|].
  intros i. apply option_eq. intros q. rewrite Hpos. unfold u0 at 1. cbn [sc_pos]. rewrite lookup_empty.
  rewrite fmap_Some. split.
  - intros [[=]|(p & Hin & ->)]. exists p. split; [|done]. by apply txids_elem in Hin; [|apply Hok].
  - intros (p & Hp & ->). right. exists p. split; [|done]. apply txids_elem; [apply Hok|done].
Qed.
End times.
