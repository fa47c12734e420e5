(** A second scan brings nothing new (C98). *)
From Verif Require Export RestoreProofs6.

Lemma no_txs : bset_list (∅ : gset Tx) = [].
Proof. apply Permutation_nil. rewrite bset_list_perm. by rewrite elements_empty. Qed.

Section again.
Context `{!DescEnv} `{Countable K, !Ord K, !OrdLaws K} `{ChainPositionLaws P}.
Implicit Types (x : Tracker K P) (sc : KScan K P).

Lemma no_additions (g u : TxGraph) :
  determine_additions g u = ad_default ↔
  (∀ t, is_Some (get_tx u t) → is_Some (get_tx g t)) ∧
  (∀ o y, get_txout u o = Some y → is_Some (get_tx g (op_txid o)) ∨ get_txout g o = Some y).
Proof.
  split.
  - intros E. assert (∀ t, is_Some (get_tx u t) → is_Some (get_tx g t)) as H1'.
    { intros t [a Ha]. destruct (get_tx g t) as [b|] eqn:Eb; [done|]. exfalso.
      assert (a ∈ ad_tx (determine_additions g u)) as Hin by (apply determine_tx; exists t; split; [by apply get_tx_Some|done]).
      rewrite E in Hin. cbn in Hin. set_solver. }
    split; [done|]. intros o y Hy. destruct (get_tx g (op_txid o)) as [b|] eqn:Eb; [by left|]. right.
    pose proof (determine_txout g u o) as Hd. rewrite E, Eb in Hd. cbn [ad_default ad_txout] in Hd. rewrite lookup_empty in Hd.
    unfold get_txout in Hy. destruct (tg_txs u !! op_txid o) as [[t|outs]|] eqn:Eu; [| |done].
    + destruct (H1' (op_txid o)) as [b Hb]; [|congruence]. exists t. by apply get_tx_Some.
    + rewrite Hy in Hd. by destruct (decide _).
  - intros [H1' H2']. destruct (determine_additions g u) as [T M] eqn:E. assert (T = ∅) as ->.
    { apply set_eq. intros t. split; [|set_solver]. intros Ht. change (t ∈ ad_tx (mkAdditions T M)) in Ht. rewrite <- E, determine_tx in Ht.
      destruct Ht as (i & Hi & Hn). destruct (H1' i) as [b Hb]; [|congruence]. exists t. by apply get_tx_Some. }
    unfold ad_default. f_equal. apply map_eq. intros o. rewrite lookup_empty.
    change (ad_txout (mkAdditions ∅ M) !! o = None). rewrite <- E, determine_txout.
    destruct (get_tx g (op_txid o)) as [b|] eqn:Eg; [done|].
    destruct (tg_txs u !! op_txid o) as [[|outs]|] eqn:Ei; [done| |done].
    destruct (outs !! op_vout o) as [y|] eqn:Ey; [|done]. rewrite decide_True; [done|].
    destruct (H2' o y) as [[b Hb]|Hg]; [|congruence|done]. unfold get_txout. by rewrite Ei.
Qed.
Lemma no_indices x (m : gmap K N) :
  new_indices x m = ∅ ↔ ∀ k j, m !! k = Some j → ∃ r, last_revealed_index (tr_index x) k = Some r ∧ j ≤ r.
Proof.
  unfold new_indices. rewrite map_filter_empty_iff. split.
  - intros He k j Hj. specialize (He k j Hj). cbn [fst snd] in He. destruct (last_revealed_index (tr_index x) k) as [r|]; [|done].
    exists r. split; [done|]. rewrite N.ltb_lt in He. lia.
  - intros Hm k j Hj. destruct (Hm k j Hj) as (r & Hr & Hle). cbn [fst snd]. rewrite Hr, N.ltb_lt. lia.
Qed.
(** Applying an empty changeset changes nothing. *)
Lemma apply_default x : within_limit (cg_chain (tr_cg x)) → tr_apply_changeset x kcs_default = Ret x.
Proof.
  intros Hl. unfold tr_apply_changeset, kcs_default, ki_apply_additions, reveal_to_target_multi.
  cbn [kcs_indices kcs_cg cgs_graph cgs_default]. rewrite bmap_list_empty. cbn [foldl mbind outcome_bind].
  assert (ad_txouts ad_default = []) as -> by (unfold ad_txouts, ad_default; cbn; by rewrite no_txs, bmap_list_empty).
  unfold ki_scan. cbn [foldl mbind outcome_bind fst]. f_equal. destruct x as [i [c g]]. cbn [tr_index tr_cg cg_chain cg_graph] in *. f_equal.
  unfold cg_apply_changeset. cbn [cgs_default cgs_chain cgs_graph cg_chain cg_graph]. f_equal.
  - unfold apply_changeset, cs_default. cbn [cs_cps cs_txids]. rewrite !bmap_list_empty. cbn [foldl]. destruct c. by apply prune_within.
  - unfold apply_additions, ad_default. cbn [ad_tx ad_txout]. rewrite no_txs, bmap_list_empty. by destruct g.
Qed.
Lemma empty_iff ho x sc ord :
  cg_ok (tr_cg x) → cg_ok (ks_update sc) → below_max (cg_chain (tr_cg x)) → hash_order (cg_graph (tr_cg x)) ho →
  ord ≡ₚ map_to_list (sc_pos (cg_chain (ks_update sc))) →
  tr_determine_changeset ho x sc ord = Ret (Ok kcs_default) ↔ nothing_new x sc.
Proof.
  intros Hcg Hu Hbm Hho Hord. unfold tr_determine_changeset. split.
  - pose proof (update_conflicts ho (tr_cg x) (ks_update sc) ord Hcg Hu Hho Hord) as Hc.
    destruct (cg_determine_changeset _ _ _ _) as [[cs|]|] eqn:Ed; [|done..]. unfold kcs_default. intros [= Ei ->].
    destruct (determine_changeset (cg_chain (tr_cg x)) (cg_chain (ks_update sc)) ord) as [[ccs|e]|] eqn:Edc; [|done|done].
    destruct Hc as [(e & Hc & _)|(cs' & Hc & Hr1 & Hr2 & Hr3 & Hr4 & Hr5)]; [congruence|]. injection Hc as <-.
    cbn [cgs_default cgs_chain cgs_graph cs_default cs_cps cs_txids] in *.
    destruct (determine_cases (cg_chain (tr_cg x)) (cg_chain (ks_update sc)) ord (proj1 Hcg) Hord)
      as [(f' & Ef & Hn & E)|[(Hconn & t' & p' & q & Hp & Hq & Hinc & E)|(Hconn & Hi & cs & E & [Hs1 Hs2])]]; [congruence..|].
    rewrite Edc in E. injection E as <-.
    assert (∀ i, ¬ conflicting (tr_cg x) (mkCGS ccs (determine_additions (cg_graph (tr_cg x)) (cg_graph (ks_update sc)))) i) as Hnc.
    { intros i Hci. specialize (Hr4 i Hci). by rewrite lookup_empty in Hr4. }
    symmetry in Hr2. apply no_additions in Hr2 as [Hg1 Hg2]. constructor.
    + intros h b Hb. specialize (Hs1 h). rewrite <- Hr3, Hb, lookup_empty in Hs1. by case_bool_decide.
    + intros t p Hp. specialize (Hs2 t). rewrite <- (Hr5 t (Hnc t)), Hp, lookup_empty in Hs2. by case_bool_decide.
    + done.
    + done.
    + by apply no_indices.
  - intros [N1 N2 N3 N4 N5]. unfold cg_determine_changeset.
    rewrite (covering_update_noop (cg_chain (tr_cg x)) (cg_chain (ks_update sc)) ord (proj1 Hcg) Hbm Hord N1 N2).
    assert (determine_additions (cg_graph (tr_cg x)) (cg_graph (ks_update sc)) = ad_default) as -> by (by apply no_additions).
    unfold fix_conflicts. cbn [cgs_chain cs_default cs_txids cs_cps cgs_graph]. rewrite bmap_list_empty.
    cbn [collect_conflicts]. cbn. by rewrite (proj2 (no_indices x (ks_active sc)) N5).
Qed.
Lemma nothing_changes ho x sc ord :
  cg_ok (tr_cg x) → cg_ok (ks_update sc) → below_max (cg_chain (tr_cg x)) → within_limit (cg_chain (tr_cg x)) → hash_order (cg_graph (tr_cg x)) ho →
  ord ≡ₚ map_to_list (sc_pos (cg_chain (ks_update sc))) → nothing_new x sc → tr_apply_update ho x sc ord = Ret (Ok (x, kcs_default)).
Proof.
  intros Hcg Hu Hbm Hl Hho Hord Hn. unfold tr_apply_update. rewrite (proj2 (empty_iff ho x sc ord Hcg Hu Hbm Hho Hord) Hn).
  by rewrite apply_default.
Qed.
(** What is revealed when a scan is applied. *)
Lemma apply_revealed A hs x (m : gmap K N) (cs : CgChangeSet P) x' k j d :
  good_env A → ki_inv A hs (tr_index x) →
  (∀ k j, m !! k = Some j → is_Some (ki_keychains (tr_index x) !! k) ∧ j ≤ bip32_max) →
  (∀ o u, (o, u) ∈ ad_txouts (cgs_graph cs) → SpkIndexSpec.op_ok o) →
  tr_apply_changeset x (mkKCS (new_indices x m) cs) = Ret x' →
  m !! k = Some j → ki_keychains (tr_index x) !! k = Some d → j < cap d →
  ∃ r, last_revealed_index (tr_index x') k = Some r ∧ j ≤ r.
Proof.
  intros HA Hi Hm Hok Ea Hj Hd Hc.
  assert (∀ k j, new_indices x m !! k = Some j ↔ m !! k = Some j ∧ n_revealed (tr_index x) k ≤ j) as Hnew.
  { clear. intros k j. unfold new_indices, last_revealed_index, n_revealed. rewrite map_filter_lookup_Some. cbn [fst snd].
    destruct (ki_revealed (tr_index x) !! k) as [v|]; [rewrite N.ltb_lt|]; split; intros [? ?]; split; try done; lia. }
  destruct (apply_grows A hs (tr_index x) (new_indices x m) HA Hi) as (i1 & hs1 & ad1 & E1 & G1 & _ & N1).
  { intros k' j' [Hk _]%Hnew. by apply Hm. }
  destruct (grows_scan A (ad_txouts (cgs_graph cs)) _ i1 ∅ HA (proj1 (proj1 G1)) Hok) as (i2 & hs2 & ad2 & E2 & G2).
  destruct (kept_grows _ _ _ _ _ _ _ G2) as [Hk2 _]. specialize (Hk2 k). specialize (N1 k). rewrite Hd in N1.
  unfold tr_apply_changeset in Ea. cbn [kcs_indices kcs_cg] in Ea. rewrite E1 in Ea. cbn [mbind outcome_bind] in Ea. unfold ki_scan in Ea. rewrite E2 in Ea.
  cbn [mbind outcome_bind fst] in Ea. injection Ea as <-. cbn [tr_index].
  assert (j < n_revealed i2 k) as Hlt.
  { apply N.lt_le_trans with (n_revealed i1 k); [|done]. rewrite N1. destruct (new_indices x m !! k) as [j'|] eqn:En.
    - apply Hnew in En as [En Hn]. assert (j' = j) as -> by congruence. unfold target_of. unfold cap in Hc. destruct (has_wildcard d); lia.
    - destruct (N.le_gt_cases (n_revealed (tr_index x) k) j) as [Hn|Hn]; [|done]. assert (new_indices x m !! k = Some j) by (by apply Hnew). congruence. }
  unfold n_revealed in Hlt. unfold last_revealed_index. destruct (ki_revealed i2 !! k) as [r|]; [|lia]. exists r. split; [done|lia].
Qed.
End again.

Section resync.
Context `{!DescEnv} `{Countable K, !Ord K, !OrdLaws K} `{ChainPositionLaws P}.
Context (A : K → option Desc) (HA : good_env A).
Context (W : Txid → list OutPoint) (w : World) (wpos : Txid → P).
Context (Hw : world_ok w) (Hsane : world_sane W w) (Hwpos : ∀ t, pos_height (wpos t) = w_position w t).
Context (Htx : ∀ t a, w_tx w t = Some a → tx_ok a).
Context (x x' : Tracker K P) (cs : KChangeSet K P) (hs : list (si_op (K * N))) (F : K → N → Prop) (sc : KScan K P).
Context (Hso : scan_ok w wpos x F sc) (Hi : ki_inv A hs (tr_index x)) (Hcg : cg_ok (tr_cg x)) (Hin : inputs_by_txid W (cg_graph (tr_cg x))).
Context (Hfit : fit_seen w wpos (in_chain (ks_update sc)) x).
Context (ho : TxGraph → OutPoint → list Txid) (ord : list (Txid * P)).
Context (Hho : hash_fun_ok ho) (Hord : ord ≡ₚ map_to_list (sc_pos (cg_chain (ks_update sc)))).
Context (Ea : tr_apply_update (ho (cg_graph (tr_cg x))) x sc ord = Ret (Ok (x', cs))).

(** A wallet that has synchronised. *)
Lemma synced_fit :
  cg_ok (tr_cg x') ∧ inputs_by_txid W (cg_graph (tr_cg x')) ∧ fit_for w wpos x' ∧ within_limit (cg_chain (tr_cg x')) ∧
  ki_keychains (tr_index x') = ki_keychains (tr_index x) ∧
  sc_cps (cg_chain (tr_cg x')) !! w_tip w = Some (w_block w (w_tip w)) ∧
  (∀ h b, sc_cps (cg_chain (tr_cg x')) !! h = Some b → h ≤ w_tip w ∧ b = w_block w h) ∧
  (∀ t p, sc_pos (cg_chain (ks_update sc)) !! t = Some p → sc_pos (cg_chain (tr_cg x')) !! t = Some p).
Proof using All.
  destruct Hfit as (Hlim & Hbm & Hcbt & Htrue & Hag).
  destruct (synced A HA W w wpos Hw Hsane Hwpos Htx x hs F sc Hso Hi Hcg Hin Hbm Hcbt Htrue Hag ho ord Hho Hord)
    as (x2 & cs2 & hs' & E & E1 & Hok & Hi' & Hk & P1 & P2 & G & I1 & I2 & _ & I3 & _). rewrite Ea in E. injection E as <- <-.
  assert (inputs_by_txid W (cg_graph (ks_update sc))) as Huin.
  { intros t a Hta. apply (ws_inputs W w Hsane). by apply (so_tx w wpos x F sc Hso). }
  destruct (synced_blocks W w wpos Hw Hsane Hwpos (tr_cg x) (ks_update sc) (tr_cg x') (kcs_cg cs) (ho (cg_graph (tr_cg x))) ord
    Hcg Hin Hbm Hcbt Htrue (so_ok _ _ _ _ _ Hso) Huin (so_con _ _ _ _ _ Hso) (so_pos _ _ _ _ _ Hso) (Hho _) Hord Hlim E1) as (B0 & B1 & B2).
  destruct (blocks_tip w wpos Hw Hwpos (cg_chain (tr_cg x')) B1 B2 P2) as (T1 & T2 & T3 & T4).
  assert (∀ s b, get_tx (cg_graph (tr_cg x')) s = Some b → w_tx w s = None ∨ w_tx w s = Some b) as Hsame.
  { intros s b. rewrite G. destruct (get_tx (cg_graph (tr_cg x)) s) as [a|] eqn:Ea'.
    - intros [= <-]. destruct (w_tx w s) as [b|] eqn:Eb; [right|by left]. f_equal. symmetry. by apply (proj1 Hag s).
    - intros Hb%(so_tx _ _ _ _ _ Hso). by right. }
  split; [done|]. split; [|split; [|split; [|done]]].
  - intros t a. rewrite G. destruct (get_tx (cg_graph (tr_cg x)) t) as [b|] eqn:Eb.
    + intros [= <-]. by apply Hin.
    + intros Ha%(so_tx _ _ _ _ _ Hso). by apply (ws_inputs W w Hsane).
  - unfold fit_for. rewrite B0. split_and!; [done..|]. split.
    + intros t a b Ha Hb. destruct (Hsame t a Ha); congruence.
    + intros o [k i] u t [Ho|[Ho _]]%I2 Ht; [by eapply (proj2 Hag)|].
      apply (update_txout w wpos x F sc Hso) in Ho as (t' & _ & Ht' & Hu). congruence.
  - intros n Hn. rewrite B0 in Hn. unfold cg_apply_update in E1. destruct (cg_determine_changeset _ _ _ _) as [[cs1|]|]; [|done..].
    injection E1 as <- _. by apply apply_changeset_size.
Qed.
(** A scan that asks for no more has nothing new. *)
Lemma resync_nothing_new F2 sc2 :
  scan_ok w wpos x' F2 sc2 →
  (∀ t, is_Some (sc_pos (cg_chain (ks_update sc2)) !! t) → is_Some (sc_pos (cg_chain (ks_update sc)) !! t)) →
  (∀ t, is_Some (get_tx (cg_graph (ks_update sc2)) t) → is_Some (get_tx (cg_graph (tr_cg x')) t)) →
  (∀ k j2, ks_active sc2 !! k = Some j2 → ∃ d j, ks_active sc !! k = Some j ∧ j2 ≤ j ∧ ki_keychains (tr_index x) !! k = Some d ∧ j < cap d) →
  nothing_new x' sc2.
Proof using All.
  intros Hso2 Hpos Hgr Hact. destruct synced_fit as (Hok & _ & _ & _ & _ & B2 & B1 & P1).
  pose proof (so_con _ _ _ _ _ Hso2) as Hcon. rewrite connects_iff in Hcon. constructor.
  - intros h b Hb. apply Hcon in Hb as [[->|[[b' Hb'] _]] ->]; [done|]. rewrite Hb'. f_equal. by apply B1.
  - intros t p Hp. destruct (Hpos t) as [q Hq]; [by exists p|]. rewrite (P1 t q Hq). f_equal.
    apply (so_pos _ _ _ _ _ Hso2) in Hp as [-> _]. by apply (so_pos _ _ _ _ _ Hso) in Hq as [-> _].
  - done.
  - intros o u Ho. left. apply (update_txout w wpos x' F2 sc2 Hso2) in Ho as (t & Ht & _). apply Hgr. by exists t.
  - intros k j2 Hj2. destruct (Hact k j2 Hj2) as (d & j & Hj & Hle & Hd & Hc).
    unfold tr_apply_update, tr_determine_changeset in Ea.
    pose proof (update_conflicts (ho (cg_graph (tr_cg x))) (tr_cg x) (ks_update sc) ord Hcg (so_ok _ _ _ _ _ Hso) (Hho _) Hord) as Hcf.
    destruct (cg_determine_changeset _ _ _ _) as [[cs1|]|] eqn:Ed; [|done..].
    assert (cgs_graph cs1 = determine_additions (cg_graph (tr_cg x)) (cg_graph (ks_update sc))) as Had.
    { destruct (determine_changeset _ _ _) as [[ccs|e]|]; [|done|done].
      destruct Hcf as [(e & Hcf & _)|(cs' & Hcf & Hres)]; [congruence|]. injection Hcf as <-. by destruct Hres as (_ & -> & _). }
    destruct (tr_apply_changeset x (mkKCS (new_indices x (ks_active sc)) cs1)) as [x2|] eqn:Ex2; [|done]. cbn [mbind outcome_bind] in Ea. injection Ea as -> _.
    destruct (apply_revealed A hs x (ks_active sc) cs1 x' k j d HA Hi (so_active _ _ _ _ _ Hso)) as (r & Hr & Hle2); [|done..|].
    { rewrite Had. apply additions_in_range; [apply (so_ok _ _ _ _ _ Hso)|by apply (update_range w wpos Hw Htx x F sc Hso)]. }
    exists r. split; [done|lia].
Qed.
End resync.

(** Lists of scripts that are beginnings of others. *)
Lemma activity_prefix w l2 l : l2 `prefix_of` l → activity w l2 `prefix_of` activity w l.
Proof. intros [l' ->]. unfold activity. rewrite fmap_app. by eexists. Qed.
Lemma within_gap_prefix (gap2 gap : N) act2 act p : gap2 ≤ gap → act2 `prefix_of` act → within_gap gap2 act2 p → within_gap gap act p.
Proof.
  intros Hg Hp [H1' H2']. split; [by eapply prefix_lookup|]. intros (s & Hs & Ha). apply H2'. exists s. split; [lia|].
  intros i Hi Hlt. specialize (Ha i Hi ltac:(lia)). destruct Hp as [l' ->]. rewrite lookup_app_l in Ha; [done|].
  apply lookup_lt_Some in H1'. lia.
Qed.
Lemma found_prefix w (gap2 gap : N) l2 l i : gap2 ≤ gap → l2 `prefix_of` l → found_index w gap2 l2 i → found_index w gap l i.
Proof.
  intros Hg Hp (p & s & Hl & Hw'). exists p, s. split; [by eapply prefix_lookup|]. eapply within_gap_prefix; [done| |done]. by apply activity_prefix.
Qed.

Section electrum.
Context `{!DescEnv} `{Countable K, !Ord K, !OrdLaws K}.
Context (A : K → option Desc) (HA : good_env A).
Context (W : Txid → list OutPoint) (w : World) (Hw : world_ok w) (Hsane : world_sane W w).
Context (Htx : ∀ t a, w_tx w t = Some a → tx_ok a).

(** What is in the second scan is in the first. *)
Lemma no_more_found local local2 (gap gap2 : N) (kspks kspks2 : gmap K (list (N * Script))) txids txids2 outpoints outpoints2 e e2 :
  asks_no_more gap gap2 kspks kspks2 txids txids2 outpoints outpoints2 →
  scan_complete w local kspks txids outpoints gap e → scan_complete w local2 kspks2 txids2 outpoints2 gap2 e2 →
  ∀ t, is_Some (sc_pos (eu_chain e2) !! t) → is_Some (sc_pos (eu_chain e) !! t).
Proof using Hsane Htx.
  intros (Hg & Hk & Ht & Ho) He He2 t Hp.
  destruct (sf_only _ _ _ _ _ _ _ He2 t Hp) as [(k & l2 & p & i & s & Hl2 & Hs & Hw' & Hh)|[[Hin Hs]|(o & Hin & (y & z & Hy & Hz) & Har)]].
  - destruct (Hk k l2 Hl2) as (l & Hl & Hpre). eapply (sf_scripts _ _ _ _ _ _ _ He); [done|by eapply prefix_lookup| |done].
    eapply within_gap_prefix; [done| |done]. by apply activity_prefix.
  - apply (sf_txids _ _ _ _ _ _ _ He); [by apply Ht|done].
  - destruct (sf_outpoints _ _ _ _ _ _ _ He o (Ho _ Hin) y z Hy Hz) as [H1' H2'].
    destruct (decide (t = op_txid o)) as [->|Hne]; [done|]. destruct Har as [->|(a & Ha & Hoa)]; [done|].
    apply H2'; [done|]. split; [by exists a|]. intros t' b Hb Hob. apply (ws_conflict W w Hsane t' t b a Hb Ha). exists o.
    split; [|done]. intros ->. apply Htx in Hy as [_ Hl]. apply lookup_lt_Some in Hz. cbn [null_outpoint op_vout] in Hz. lia.
Qed.
Lemma active_no_more (gap gap2 : N) (kspks kspks2 : gmap K (list (N * Script))) i i2 (active active2 : gmap K N) :
  gap2 ≤ gap → (∀ k l2, kspks2 !! k = Some l2 → ∃ l, kspks !! k = Some l ∧ l2 `prefix_of` l) →
  scripts_of i kspks → scripts_of i2 kspks2 →
  (∀ k j, active !! k = Some j ↔ ∃ l, kspks !! k = Some l ∧ found_index w gap l j ∧ ∀ j2, found_index w gap l j2 → j2 ≤ j) →
  (∀ k j, active2 !! k = Some j ↔ ∃ l, kspks2 !! k = Some l ∧ found_index w gap2 l j ∧ ∀ j2, found_index w gap2 l j2 → j2 ≤ j) →
  ∀ k j2, active2 !! k = Some j2 → ∃ d j, active !! k = Some j ∧ j2 ≤ j ∧ ki_keychains i !! k = Some d ∧ j < cap d.
Proof.
  intros Hg Hk Hs Hs2 Ha Ha2 k j2 Hj2. apply Ha2 in Hj2 as (l2 & Hl2 & Hf2 & _). destruct (Hk k l2 Hl2) as (l & Hl & Hpre).
  destruct (within_max i kspks w gap active Hs Ha k j2) as (j & Hj & Hle).
  { exists l. split; [done|]. by eapply found_prefix. }
  pose proof Hj as Hj'. apply Ha in Hj' as (l' & Hl' & (p & s & Hp & _) & _).
  destruct (Hs k l' Hl') as (d & Hd & Hds). destruct (Hds _ _ _ Hp) as (Hj1 & Hc & Hd1). by exists d, j.
Qed.
Lemma sync_again hs (gap gap2 : N) kspks kspks2 txids txids2 outpoints outpoints2 (x x' : Tracker K TxHeight) srv2 dbg2 fuel2 batch2 :
  ki_inv A hs (tr_index x) → cg_ok (tr_cg x) → inputs_by_txid W (cg_graph (tr_cg x)) → fit_seen w (w_position w) (sought w kspks txids outpoints gap) x →
  scripts_of (tr_index x) kspks → wallet_asks w gap kspks txids outpoints x x' →
  asks_no_more gap gap2 kspks kspks2 txids txids2 outpoints outpoints2 → scripts_of (tr_index x') kspks2 →
  (∀ n, electrum_honest w (srv2 n)) → (0 < batch2)%nat →
  ends (scan dbg2 srv2 (S fuel2) (sc_cps (cg_chain (tr_cg x'))) kspks2 txids2 outpoints2 gap2 batch2)
    (λ e, missing_full_txs e (cg_graph (tr_cg x')) = [] ∧
      ∀ ho1 ho ord, hash_order (inflate_graph (tr_cg x') (eu_chain e) []) ho1 → hash_fun_ok ho → ord ≡ₚ map_to_list (sc_pos (eu_chain e)) →
      ∃ sc, into_keychain_scan ho1 e [] (tr_cg x') = Ret (Ok sc) ∧
        tr_apply_update (ho (cg_graph (tr_cg x'))) x' sc ord = Ret (Ok (x', kcs_default))).
Proof using All.
  intros Hi Hcg Hin Hfit Hsp (srv & dbg & fuel & n & n' & batch & e & new_txs & ho1 & ho & sc & ord & cs &
    Hsrv & Hb & Htxids & Hops & Es & Hnew & Hall & Hho1 & Hho & Hord & Ei & Ea) Hno Hsp2 Hsrv2 Hb2.
  pose proof Hno as (Hg & Hk & Ht & Ho).
  pose proof Hfit as (_ & _ & _ & Htrue & Hag).
  destruct (scan_ends w Hw dbg srv Hsrv fuel _ kspks txids outpoints gap batch (ls_low _ _ _ _ Htrue) Hb Htxids Hops n) as (n3 & e3 & Es3 & Hc).
  rewrite Es in Es3. injection Es3 as <- <-.
  destruct (electrum_ok W w Hw Hsane srv Hsrv dbg fuel x kspks txids outpoints gap batch Hcg Hin Hag (ls_low _ _ _ _ Htrue) Hsp Hb Htxids Hops n) as (n2 & e2 & Es2 & He).
  rewrite Es in Es2. injection Es2 as <- <-. destruct (He new_txs ho1 Hnew Hall Hho1) as (sc2 & Ei2 & Hch & Hso & Hfound).
  rewrite Ei in Ei2. injection Ei2 as <-. apply (fit_seen_mono w (w_position w) _ _ x Hfound) in Hfit. rewrite <- Hch in Hord.
  destruct (synced_fit A HA W w (w_position w) Hw Hsane ltac:(done) Htx x x' cs hs _ sc Hso Hi Hcg Hin Hfit ho ord Hho Hord Ea)
    as (Hok' & Hin' & Hfit' & Hlim' & Hkey & B2 & B1 & P1).
  pose proof Hfit' as (_ & Hbm' & _ & Htrue' & Hag').
  assert (Forall (λ t, t ≤ max_txid) txids2) as Htxids2 by (apply Forall_forall; intros t Ht2; rewrite Forall_forall in Htxids; by apply Htxids, Ht).
  assert (Forall (λ o, is_Some (w_tx w (op_txid o))) outpoints2) as Hops2 by (apply Forall_forall; intros o Ho2; rewrite Forall_forall in Hops; by apply Hops, Ho).
  intros m. destruct (scan_ends w Hw dbg2 srv2 Hsrv2 fuel2 _ kspks2 txids2 outpoints2 gap2 batch2 (lt_low _ _ _ Htrue') Hb2 Htxids2 Hops2 m) as (m' & e' & Es' & Hc').
  destruct (electrum_ok W w Hw Hsane srv2 Hsrv2 dbg2 fuel2 x' kspks2 txids2 outpoints2 gap2 batch2 Hok' Hin' Hag' (lt_low _ _ _ Htrue') Hsp2 Hb2 Htxids2 Hops2 m)
    as (m2 & e2 & Es2' & He').
  rewrite Es' in Es2'. injection Es2' as <- <-. exists m', e'. split; [done|].
  assert (∀ t, is_Some (sc_pos (eu_chain e') !! t) → is_Some (get_tx (cg_graph (tr_cg x')) t)) as Hfull.
  { intros t Hp. apply Hok'. destruct (no_more_found _ _ _ _ _ _ _ _ _ _ _ _ Hno Hc Hc' t Hp) as [q Hq]. rewrite <- Hch in Hq. exists q. by apply P1. }
  assert (missing_full_txs e' (cg_graph (tr_cg x')) = []) as Hmiss.
  { apply elem_of_nil_inv. unfold missing_full_txs. intros t ([p t'] & -> & Hpt)%elem_of_list_fmap. apply elem_of_list_filter in Hpt as [Hn Hpt]. cbn [snd] in Hn.
    destruct (Hfull t') as [b Hb']; [|congruence]. exists p. apply txids_elem in Hpt; [done|]. apply (sf_usable _ _ _ _ _ _ _ Hc'). }
  split; [done|]. intros ho1' ho' ord' Hho1' Hho' Hord'.
  destruct (He' [] ho1') as (sc' & Ei' & Hch' & Hso' & _); [done|rewrite Hmiss; intros i Hin2; by apply elem_of_nil in Hin2|done|]. exists sc'. split; [done|].
  apply nothing_changes; [done|apply Hso'|done|done|done|by rewrite Hch'|].
  apply (resync_nothing_new A HA W w (w_position w) Hw Hsane ltac:(done) Htx x x' cs hs _ sc Hso Hi Hcg Hin Hfit ho ord Hho Hord Ea _ sc' Hso').
  - rewrite Hch, Hch'. by eapply no_more_found.
  - intros t [a Hta]. pose proof Hta as Hta'. 
    unfold into_keychain_scan, inflate_update in Ei'.
    destruct (cg_new ho1' (eu_chain e') (inflate_graph (tr_cg x') (eu_chain e') [])) as [[u|?]|] eqn:E1; [|done..]. injection Ei' as <-. cbn [ks_update] in *.
    destruct (cg_new_ok _ _ _ _ (proj1 (sf_usable _ _ _ _ _ _ _ Hc')) (inflate_graph_ok (tr_cg x') (eu_chain e') []) Hho1' E1) as [_ Eg]. rewrite Eg in Hta.
    rewrite inflate_get_tx in Hta; [|apply Hok'|apply (sf_usable _ _ _ _ _ _ _ Hc')].
    unfold in_chainb in Hta. destruct (sc_pos (eu_chain e') !! t) as [p|] eqn:Ep; [|done]. apply Hfull. by exists p.
  - assert (ks_active sc = eu_active e) as Ha.
    { unfold into_keychain_scan in Ei. destruct (inflate_update _ _ _ _) as [[?|?]|]; [|done..]. by injection Ei as <-. }
    assert (ks_active sc' = eu_active e') as Ha'.
    { unfold into_keychain_scan in Ei'. destruct (inflate_update _ _ _ _) as [[?|?]|]; [|done..]. by injection Ei' as <-. }
    rewrite Ha, Ha'. eapply (active_no_more gap gap2 kspks kspks2); [done|done|done|done| |].
    + apply (sf_active _ _ _ _ _ _ _ Hc). by eapply scripts_fit.
    + apply (sf_active _ _ _ _ _ _ _ Hc'). by eapply scripts_fit.
Qed.
End electrum.
