(** Electrum scans for wallets, new and old (C90, C91). *)
From Verif Require Export RestoreProofs.

(** Graphs made of transactions hold nothing but transactions. *)
Lemma run_whole (l : list Tx) : ∀ i m, tg_txs (g_run (GTx <$> l)) !! i ≠ Some (Partial m).
Proof.
  induction l as [|t l IH] using rev_ind; intros i m.
  - cbn. by rewrite lookup_empty.
  - rewrite fmap_app. cbn [fmap list_fmap]. rewrite run_snoc, step_update, update_lookup by (by apply op_graph_keyed).
    cbn [op_graph tg_txs]. unfold merge_node. destruct (tg_txs (g_run (GTx <$> l)) !! i) as [[a|m']|] eqn:E; [done| |].
    + by apply IH in E.
    + destruct (decide (i = txid t)) as [->|Hne]; [by rewrite lookup_singleton|by rewrite lookup_singleton_ne].
Qed.
Lemma inflate_whole `{ChainPositionLaws P} (cg : ChainGraph P) c txs i m : tg_txs (inflate_graph cg c txs) !! i ≠ Some (Partial m).
Proof. rewrite inflate_run. apply run_whole. Qed.

Lemma gap_before_mono m act p q : (p ≤ q)%nat → gap_before m act p → gap_before m act q.
Proof. intros Hpq (s & Hs & Hi). exists s. split; [lia|done]. Qed.

Section scripts.
Context `{!DescEnv} `{Countable K, !Ord K}.
Implicit Types (i : KIndex K) (kspks : gmap K (list (N * Script))).
Lemma scripts_index i kspks k l p j s : scripts_of i kspks → kspks !! k = Some l → l !! p = Some (j, s) → j = N.of_nat p.
Proof. intros Hs Hk Hp. destruct (Hs k l Hk) as (d & Hd & Hl). by destruct (Hl p j s Hp) as [Hj Hr]. Qed.
Lemma scripts_paid i kspks k l p j s u : scripts_of i kspks → kspks !! k = Some l → l !! p = Some (j, s) → paid i k j u → s = txo_spk u.
Proof.
  intros Hs Hk Hp (d & Hd & _ & E). destruct (Hs k l Hk) as (d' & Hd' & Hl). apply Hl in Hp as (_ & _ & E').
  assert (d' = d) as -> by congruence. congruence.
Qed.
Lemma scripts_fit i kspks : scripts_of i kspks → map_Forall (λ _ l, NoDup l.*1 ∧ Forall (λ i : N, i ≤ u32_max) l.*1) kspks.
Proof.
  intros Hs k l Hk. destruct (Hs k l Hk) as (d & Hd & Hl). split.
  - apply NoDup_alt. intros a b j Ha Hb. apply list_lookup_fmap_Some in Ha as ([j1 s1] & Ha & ->), Hb as ([j2 s2] & Hb & Hj).
    apply Hl in Ha as [-> _], Hb as [-> _]. cbn in Hj. lia.
  - apply Forall_fmap, Forall_lookup. intros p [j s] Hp. apply Hl in Hp as (_ & Hj & _). cbn. pose proof (cap_bound d).
    apply N.le_trans with 1073741825; [lia|done].
Qed.
Lemma within_max i kspks w gap (active : gmap K N) :
  scripts_of i kspks →
  (∀ k j, active !! k = Some j ↔ ∃ l, kspks !! k = Some l ∧ found_index w gap l j ∧ ∀ j2, found_index w gap l j2 → j2 ≤ j) →
  ∀ k j, within w gap kspks k j → ∃ j', active !! k = Some j' ∧ j ≤ j'.
Proof.
  intros Hs Ha k j (l & Hk & Hf). destruct (active !! k) as [j'|] eqn:E.
  - exists j'. split; [done|]. apply Ha in E as (l' & Hk' & _ & Hm). apply Hm. congruence.
  - exfalso. remember (length l - N.to_nat j)%nat as n eqn:Hn. revert j Hf Hn.
    induction (lt_wf n) as [n _ IH]. intros j Hf ->.
    assert (active !! k = Some j) as Ej; [|congruence]. apply Ha. exists l. split; [done|]. split; [done|].
    intros j' Hf'. destruct (decide (j' ≤ j)) as [Hle|Hgt]; [done|]. exfalso.
    eapply (IH (length l - N.to_nat j')%nat); [|exact Hf'|done].
    destruct Hf as (p & s & Hp & _), Hf' as (p' & s' & Hp' & _).
    pose proof (scripts_index _ _ _ _ _ _ _ Hs Hk Hp). pose proof (scripts_index _ _ _ _ _ _ _ Hs Hk Hp').
    apply lookup_lt_Some in Hp, Hp'. lia.
Qed.
Lemma within_back i kspks w gap k j j' u :
  scripts_of i kspks → within w gap kspks k j' → j ≤ j' → paid i k j u → w_history w (txo_spk u) ≠ [] → within w gap kspks k j.
Proof.
  intros Hs (l & Hk & p & s & Hp & _ & Hg) Hle Hpd Hh. exists l. split; [done|].
  pose proof (scripts_index _ _ _ _ _ _ _ Hs Hk Hp) as ->. destruct (l !! N.to_nat j) as [[j2 s2]|] eqn:E.
  2:{ apply lookup_ge_None in E. apply lookup_lt_Some in Hp. lia. }
  pose proof (scripts_index _ _ _ _ _ _ _ Hs Hk E) as Hj. rewrite N2Nat.id in Hj. subst j2.
  exists (N.to_nat j), s2. split; [done|]. split.
  - unfold activity. rewrite list_lookup_fmap, E. cbn. rewrite (scripts_paid _ _ _ _ _ _ _ _ Hs Hk E Hpd).
    f_equal. apply negb_true_iff. by apply bool_decide_eq_false.
  - intros Hg'. apply Hg. eapply gap_before_mono; [|exact Hg']. lia.
Qed.
End scripts.

Section inflated.
Context `{!DescEnv} `{Countable K, !Ord K, !OrdLaws K} `{ChainPositionLaws P}.
Context (W : Txid → list OutPoint) (w : World) (wpos : Txid → P).
Context (Hsane : world_sane W w).
(** A scan that is complete, brought together with the transactions it found. *)
Lemma inflated_ok (x : Tracker K P) kspks (gap : N) (e : ElectrumUpdate K P) (new_txs : list Tx) ho1 :
  cg_ok (tr_cg x) → inputs_by_txid W (cg_graph (tr_cg x)) → agrees w x → scripts_of (tr_index x) kspks →
  chain_ok (eu_chain e) → connects w (sc_cps (cg_chain (tr_cg x))) (sc_cps (eu_chain e)) →
  (∀ t p, sc_pos (eu_chain e) !! t = Some p → p = wpos t ∧ is_Some (w_tx w t)) →
  (∀ k l p i s t, kspks !! k = Some l → l !! p = Some (i, s) → within_gap gap (activity w l) p →
    t ∈ w_history w s → is_Some (sc_pos (eu_chain e) !! t)) →
  (∀ k j, eu_active e !! k = Some j ↔
      ∃ l, kspks !! k = Some l ∧ found_index w gap l j ∧ ∀ j2, found_index w gap l j2 → j2 ≤ j) →
  Forall (λ t, w_tx w (txid t) = Some t) new_txs →
  (∀ i, i ∈ missing_full_txs e (cg_graph (tr_cg x)) → ∃ t, t ∈ new_txs ∧ txid t = i) →
  hash_order (inflate_graph (tr_cg x) (eu_chain e) new_txs) ho1 →
  ∃ sc, into_keychain_scan ho1 e new_txs (tr_cg x) = Ret (Ok sc) ∧ cg_chain (ks_update sc) = eu_chain e ∧
    scan_ok w wpos x (within w gap kspks) sc.
Proof using H4 Hsane.
  intros Hcg Hin Hag Hsp Hc Hcon Hpos Hfound Hact Hnew Hall Hho1.
  assert (Hcgk : keyed (cg_graph (tr_cg x))) by apply Hcg.
  pose proof (into_scan_spec ho1 e new_txs (tr_cg x) Hcg Hc Hho1 Hall) as Hs.
  assert (∀ t a, is_Some (sc_pos (eu_chain e) !! t) → get_tx (cg_graph (tr_cg x)) t = Some a → w_tx w t = Some a) as Hold.
  { intros t a [p Hp] Ha. apply Hpos in Hp as [_ [b Hb]]. rewrite Hb. f_equal. symmetry. by apply (proj1 Hag t). }
  assert (∀ t a, t ∈ new_txs → w_tx w (txid t) = Some a → t = a) as Hnew'.
  { intros t a Ht Ha. rewrite Forall_forall in Hnew. specialize (Hnew t Ht). congruence. }
  destruct (into_keychain_scan ho1 e new_txs (tr_cg x)) as [[s|[[p i] [q j]|m]]|] eqn:E; [| |done|done].
  - destruct Hs as (Hch & Hact' & Hok & _). exists s. split; [done|]. split; [done|].
    assert (Hg : cg_graph (ks_update s) = inflate_graph (tr_cg x) (eu_chain e) new_txs).
    { unfold into_keychain_scan, inflate_update in E.
      destruct (cg_new ho1 (eu_chain e) (inflate_graph (tr_cg x) (eu_chain e) new_txs)) as [[u|?]|] eqn:E1; [|done..].
      injection E as <-. cbn [ks_update].
      destruct (cg_new_ok _ _ _ _ Hc (inflate_graph_ok (tr_cg x) (eu_chain e) new_txs) Hho1 E1) as [_ ->]. done. }
    constructor.
    + done.
    + by rewrite Hch.
    + by rewrite Hch.
    + intros t a. rewrite Hg, inflate_get_tx by (done || apply Hc).
      unfold in_chainb. destruct (sc_pos (eu_chain e) !! t) as [p|] eqn:Eb.
      * destruct (get_tx (cg_graph (tr_cg x)) t) as [b|] eqn:Eg.
        -- intros [= ->]. apply Hold; [by exists p|done].
        -- intros Ht. apply head_Some_elem_of in Ht. apply elem_of_list_filter in Ht as [<- Ht]. rewrite Forall_forall in Hnew. by apply Hnew.
      * intros Ht. apply head_Some_elem_of in Ht. apply elem_of_list_filter in Ht as [<- Ht]. rewrite Forall_forall in Hnew. by apply Hnew.
    + intros t m. rewrite Hg. apply inflate_whole.
    + intros k i u t (l & Hk & p & sp & Hp & Hg') Hpd Ht. unfold in_chain. rewrite Hch.
      pose proof (scripts_paid _ _ _ _ _ _ _ _ Hsp Hk Hp Hpd) as ->. by eapply Hfound.
    + rewrite Hact'. by eapply within_max.
    + rewrite Hact'. intros k i j u Hj Hle Hpd Hh. apply Hact in Hj as (l & Hk & Hf & _).
      eapply within_back; [done| |done|done|done]. by exists l.
    + rewrite Hact'. intros k j Hj. apply Hact in Hj as (l & Hk & (p & sp & Hp & _) & _).
      destruct (Hsp k l Hk) as (d & Hd & Hl). destruct (Hl _ _ _ Hp) as (Hj0 & Hj & Hj1). split; [by exists d|].
      pose proof (cap_bound d). apply N.le_trans with 1073741824; [lia|done].
  - exfalso. destruct Hs as (Hne & Hi & Hj & a & b & Ha & Hb & Hia & Hjb & Hds).
    apply Hne. assert (w_tx w i = Some a) as Hwa.
    { destruct Ha as [Ha|Ha]; [apply Hold; [by exists p|done]|]. rewrite <- Hia. rewrite Forall_forall in Hnew. by apply Hnew. }
    assert (w_tx w j = Some b) as Hwb.
    { destruct Hb as [Hb|Hb]; [apply Hold; [by exists q|done]|]. rewrite <- Hjb. rewrite Forall_forall in Hnew. by apply Hnew. }
    by eapply (ws_conflict W w Hsane).
Qed.
End inflated.

Section chain.
Context `{ChainPositionLaws P}.
Context (W : Txid → list OutPoint) (w : World) (wpos : Txid → P).
Context (Hw : world_ok w) (Hsane : world_sane W w) (Hwpos : ∀ t, pos_height (wpos t) = w_position w t).
(** The checkpoints of an update before those beyond the limit are dropped. *)
Lemma update_raw_cps (c u : SparseChain P) ord cs h : chain_ok c → ord ≡ₚ map_to_list (sc_pos u) →
  determine_changeset c u ord = Ret (Ok cs) →
  raw_cps c cs !! h =
    match sc_cps u !! h with
    | Some x => Some x
    | None => match invalid_from c u with
              | Some f => if bool_decide (f ≤ h) then None else sc_cps c !! h
              | None => sc_cps c !! h
              end
    end.
Proof using All.
  intros Hok Hord E. destruct c as [cps os ps l].
  pose proof (update_result_cps (mkChain cps os ps None) u ord (apply_changeset (mkChain cps os ps None) cs) cs h Hok eq_refl Hord) as Hc.
  unfold apply_update in Hc. replace (determine_changeset (mkChain cps os ps None) u ord) with (determine_changeset (mkChain cps os ps l) u ord) in Hc by reflexivity.
  rewrite E in Hc. specialize (Hc eq_refl). rewrite apply_changeset_cps_nolimit in Hc by done. exact Hc.
Qed.
(** A wallet that has synchronised has the server's blocks, with the same tip. *)
Lemma synced_blocks (cg u cg' : ChainGraph P) cs ho ord :
  cg_ok cg → inputs_by_txid W (cg_graph cg) → below_max (cg_chain cg) → confirmed_below_tip (cg_chain cg) →
  local_seen w wpos (in_chain u) (cg_chain cg) → cg_ok u → inputs_by_txid W (cg_graph u) →
  connects w (sc_cps (cg_chain cg)) (sc_cps (cg_chain u)) →
  (∀ t p, sc_pos (cg_chain u) !! t = Some p → p = wpos t ∧ is_Some (w_tx w t)) →
  hash_order (cg_graph cg) ho → ord ≡ₚ map_to_list (sc_pos (cg_chain u)) → sc_limit (cg_chain cg) ≠ Some 0%nat →
  cg_apply_update ho cg u ord = Ret (Ok (cg', cs)) →
  sc_limit (cg_chain cg') = sc_limit (cg_chain cg) ∧
  (∀ h b, sc_cps (cg_chain cg') !! h = Some b → h ≤ w_tip w ∧ b = w_block w h) ∧
  sc_cps (cg_chain cg') !! w_tip w = Some (w_block w (w_tip w)).
Proof using All.
  intros Hcg Hin Hbm Hcbt Htrue Hu Huin Hcon Hupos Hho Hord Hl E.
  pose proof (update_conflicts ho cg u ord Hcg Hu Hho Hord) as Hc.
  unfold cg_apply_update in E. destruct (cg_determine_changeset _ _ _ _) as [[cs1|]|] eqn:Ed; [|done..]. injection E as <- <-.
  destruct (determine_changeset (cg_chain cg) (cg_chain u) ord) as [[ccs|e]|] eqn:Edc; [|done|done].
  destruct Hc as [(e & Hc & _)|(cs' & Hc & Hres)]; [congruence|]. injection Hc as <-. pose proof Hres as (_ & _ & Ecp & _).
  pose proof (λ h, update_raw_cps _ _ _ _ h (proj1 Hcg) Hord Edc) as Hcps.
  assert (∀ h, raw_cps (cg_chain cg) (cgs_chain cs1) !! h = raw_cps (cg_chain cg) ccs !! h) as Heq by (intros h; unfold raw_cps; by rewrite Ecp).
  pose proof Hcon as Hcon'. rewrite connects_iff in Hcon'.
  assert (∀ h b, raw_cps (cg_chain cg) ccs !! h = Some b → h ≤ w_tip w ∧ b = w_block w h) as Hraw.
  { intros h b. rewrite Hcps. destruct (sc_cps (cg_chain u) !! h) as [b'|] eqn:Eu.
    + intros [= <-]. apply Hcon' in Eu as [[->|[Hh _]] ->]; [done|]. split; [by apply (ls_low w wpos _ _ Htrue)|done].
    + intros Hb. assert (sc_cps (cg_chain cg) !! h = Some b) as Hc.
      { destruct (invalid_from _ _); [|done]. by destruct (bool_decide _). }
      split; [apply (ls_low w wpos _ _ Htrue); by exists b|]. destruct (decide (b = w_block w h)) as [|Hne]; [done|]. exfalso.
      destruct (disagree_beyond W w wpos Hsane Hwpos cg u Hcg Hin Hbm Hcbt Htrue Hu Huin Hcon Hupos h h b) as [Hab Hbe]; [done|by exists h; split; [exists b|]|done|done|].
      destruct (invalid_exists _ _ h Hbe ltac:(by exists b) Hab) as (f & Hf & Hle). rewrite Hf, bool_decide_true in Hb by done. done. }
  cbn [cg_apply_changeset cg_chain]. split; [apply apply_changeset_limit|]. split.
  - intros h b Hb%apply_changeset_cps_sub. rewrite Heq in Hb. by apply Hraw.
  - assert (raw_cps (cg_chain cg) ccs !! w_tip w = Some (w_block w (w_tip w))) as Ht.
    { rewrite Hcps. assert (sc_cps (cg_chain u) !! w_tip w = Some (w_block w (w_tip w))) as ->; [|done]. apply Hcon'. split; [by left|done]. }
    unfold apply_changeset. rewrite prune_cps. cbn [sc_limit sc_cps]. fold (raw_cps (cg_chain cg) (cgs_chain cs1)). rewrite Heq.
    destruct (sc_limit (cg_chain cg)) as [n|]; [|done]. rewrite bool_decide_true; [done|].
    assert (n ≠ 0%nat) as Hn by congruence. match goal with |- (cps_above ?c _ < _)%nat => assert (cps_above c (w_tip w) = 0%nat) as ->; [|lia] end.
    unfold cps_above. cbn [sc_cps]. fold (raw_cps (cg_chain cg) (cgs_chain cs1)). apply map_size_empty_iff. apply map_filter_empty_iff. intros h b Hb Hh. cbn [fst] in Hh.
    rewrite Heq in Hb. apply Hraw in Hb as [Hb _]. lia.
Qed.
Lemma blocks_tip (c : SparseChain P) :
  (∀ h b, sc_cps c !! h = Some b → h ≤ w_tip w ∧ b = w_block w h) → sc_cps c !! w_tip w = Some (w_block w (w_tip w)) →
  (∀ t p h, sc_pos c !! t = Some p → pos_height p = Confirmed h → p = wpos t) →
  is_tip c (w_tip w) ∧ confirmed_below_tip c ∧ below_max c ∧ local_true w wpos c.
Proof using Hw Hwpos.
  intros Hb Ht Hp. pose proof (wo_tip w Hw) as Hmax.
  assert (∀ t p h, sc_pos c !! t = Some p → pos_height p = Confirmed h → h ≤ w_tip w) as Hh.
  { intros t p h Hpos Hph. rewrite (Hp t p h Hpos Hph), Hwpos in Hph. unfold w_position in Hph.
    destruct (w_height w t) as [h'|] eqn:Eh; [|done]. injection Hph as ->. by apply (wo_height w Hw t). }
  split_and!.
  - split; [by eexists|]. intros h [b Hhb]. by apply Hb in Hhb as [? _].
  - intros t p h Hpos Hph. exists (w_tip w). split; [by eexists|]. by eapply Hh.
  - split.
    + intros h [b [Hle _]%Hb]. lia.
    + intros t p h Hpos Hph. specialize (Hh t p h Hpos Hph). lia.
  - constructor.
    + intros h [b [Hle _]%Hb]. done.
    + intros a b y _ _ Ha. by apply Hb in Ha as [_ ?].
    + intros t p h Hpos Hph _. by eapply Hp.
Qed.
End chain.
