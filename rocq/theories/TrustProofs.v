(** Proofs for C111: what is secure stays. *)
From Verif Require Export TrustSpec RestoreProofs.
From Verif Require Import SparseChainProofs3 MoveProofs ChainGraphProofs4 TrackerProofs4.

Section chain.
Context `{ChainPositionLaws P}.
Implicit Types (c u : SparseChain P).
(** Without a reorganisation nothing is invalidated, and the tip does not go back. *)
Lemma quiet_no_invalid c u ord cs : chain_ok c → below_max c → ord ≡ₚ map_to_list (sc_pos u) → determine_changeset c u ord = Ret (Ok cs) →
  (∀ h, ¬ reorg_at c u h) → invalid_from c u = None.
Proof.
  intros Hok Hbm Hord Hd Hno. destruct (invalid_from c u) as [f|] eqn:E; [|done]. exfalso.
  pose proof E as E'. apply invalid_from_Some in E; [|done]. apply (Hno f), reorg_at_first; [done|].
  apply determine_Ok in Hd as (Hconn & _); [|done..]. by apply Hconn.
Qed.
Lemma prune_tip c h : sc_limit c ≠ Some 0%nat → is_Some (sc_cps c !! h) → ∃ k, is_Some (sc_cps (prune_checkpoints c) !! k) ∧ h ≤ k.
Proof.
  intros Hl Hk. destruct (tip_height c) as [m|] eqn:Em.
  2: { apply tip_None in Em. rewrite Em, lookup_empty in Hk. by destruct Hk. }
  apply tip_Some in Em as [Hm Hmax]. exists m. split; [|by apply Hmax].
  rewrite prune_cps. destruct (sc_limit c) as [n|]; [|done]. rewrite bool_decide_true; [done|].
  unfold cps_above. assert (filter (λ kv : N * N, m < kv.1) (sc_cps c) = ∅) as ->.
  { apply map_eq. intros j. rewrite lookup_empty. apply map_filter_lookup_None. right. intros x Hx. simpl.
    assert (j ≤ m) by (apply Hmax; eauto). lia. }
  rewrite map_size_empty. destruct n; [done|lia].
Qed.
Lemma quiet_tip c u ord cs cs' h : chain_ok c → below_max c → ord ≡ₚ map_to_list (sc_pos u) → determine_changeset c u ord = Ret (Ok cs) →
  (∀ h, ¬ reorg_at c u h) → sc_limit c ≠ Some 0%nat → cs_cps cs' = cs_cps cs → is_Some (sc_cps c !! h) →
  ∃ k, is_Some (sc_cps (apply_changeset c cs') !! k) ∧ h ≤ k.
Proof.
  intros Hok Hbm Hord Hd Hno Hl Ecps Hh. pose proof (quiet_no_invalid _ _ _ _ Hok Hbm Hord Hd Hno) as Hi.
  unfold apply_changeset. apply prune_tip; [done|]. cbn [sc_cps].
  change (is_Some (raw_cps c cs' !! h)). rewrite raw_cps_lookup, Ecps.
  apply determine_Ok in Hd as (_ & _ & [Hs1 _]); [|done..]. rewrite Hi in Hs1. rewrite Hs1.
  destruct (sc_cps u !! h) as [x|]; [|done]. by case_bool_decide.
Qed.
End chain.

Section trust.
Context `{!DescEnv} `{Countable K, !Ord K, !OrdLaws K} `{ChainPositionLaws P}.
Implicit Types (x y : Tracker K P) (k : K) (sc : KScan K P).
Context (A : K → option Desc) (HA : good_env A).
Context (x : Tracker K P) (hs : list (si_op (K * N))) (sc : KScan K P) (ho : OutPoint → list Txid) (ord : list (Txid * P)).
Context (x' : Tracker K P) (cs : KChangeSet K P).
Context (Hcg : cg_ok (tr_cg x)) (Hi : ki_inv A hs (tr_index x)) (Hbm : below_max (cg_chain (tr_cg x))) (Hcbt : confirmed_below_tip (cg_chain (tr_cg x)))
  (Hu : cg_ok (ks_update sc)) (Hrange : graph_in_range (cg_graph (ks_update sc)))
  (Hact : ∀ k j, ks_active sc !! k = Some j → is_Some (ki_keychains (tr_index x) !! k) ∧ j ≤ bip32_max)
  (Hho : hash_order (cg_graph (tr_cg x)) ho) (Hord : ord ≡ₚ map_to_list (sc_pos (cg_chain (ks_update sc))))
  (E : tr_apply_update ho x sc ord = Ret (Ok (x', cs))).

(** The parts of an accepted update. *)
Lemma update_parts : ∃ ccs cs1, determine_changeset (cg_chain (tr_cg x)) (cg_chain (ks_update sc)) ord = Ret (Ok ccs) ∧
  cg_determine_changeset ho (tr_cg x) (ks_update sc) ord = Ret (Ok cs1) ∧
  resolved (tr_cg x) ccs (determine_additions (cg_graph (tr_cg x)) (cg_graph (ks_update sc))) cs1 ∧
  tr_cg x' = cg_apply_changeset (tr_cg x) cs1 ∧
  (∀ t, get_tx (cg_graph (tr_cg x')) t = match get_tx (cg_graph (tr_cg x)) t with Some a => Some a | None => get_tx (cg_graph (ks_update sc)) t end) ∧
  (∀ o t, get_tx (cg_graph (tr_cg x)) (op_txid o) = Some t → si_txout (ki_inner (tr_index x')) o = si_txout (ki_inner (tr_index x)) o).
Proof using All.
  pose proof E as E0. unfold tr_apply_update, tr_determine_changeset in E0.
  pose proof (update_conflicts ho (tr_cg x) (ks_update sc) ord Hcg Hu Hho Hord) as Hc.
  destruct (cg_determine_changeset ho (tr_cg x) (ks_update sc) ord) as [[cs1|]|] eqn:Ed; [|done..].
  destruct (determine_changeset (cg_chain (tr_cg x)) (cg_chain (ks_update sc)) ord) as [[ccs|e]|] eqn:Edc; [|done|done].
  destruct Hc as [(e & Hc & _)|(cs' & Hc & Hres)]; [congruence|]. injection Hc as <-.
  exists ccs, cs1. split; [done|]. split; [done|]. split; [done|]. pose proof Hres as (_ & Had & _).
  assert (keyed (cg_graph (ks_update sc))) as Hku by apply Hu.
  destruct (apply_index A hs x (ks_active sc) cs1 HA Hi Hact) as (x1 & hs' & Ea & Ecg & I1 & I2 & I3 & _).
  { rewrite Had. by apply additions_in_range. }
  { rewrite Had. intros o u u' [E1 _]%additions_from [E2 _]%additions_from; [congruence|done|done]. }
  rewrite Ea in E0. cbn [mbind outcome_bind] in E0. injection E0 as -> _. split; [done|]. split.
  - intros t. rewrite Ecg. cbn [cg_apply_changeset cg_graph]. rewrite Had.
    change (apply_additions (cg_graph (tr_cg x)) (determine_additions (cg_graph (tr_cg x)) (cg_graph (ks_update sc))))
      with (tg_apply_update (cg_graph (tr_cg x)) (cg_graph (ks_update sc))).1. by apply update_get_tx.
  - intros o t Ht. apply I3. rewrite Had. intros v [_ Hn]%additions_from; [congruence|done].
Qed.

Context (Hno : no_reorg x (ks_update sc)) (Hoth : others_only x x').

Lemma secure_stays i : secure x i → in_chain (tr_cg x') i ∧
  ∀ p n, sc_pos (cg_chain (tr_cg x)) !! i = Some p → pos_height p = Confirmed n → sc_pos (cg_chain (tr_cg x')) !! i = Some p.
Proof using All.
  destruct update_parts as (ccs & cs1 & Edc & Ed & Hres & Ecg & Hget & _). pose proof Hres as (R1 & R2 & R3 & R4 & R5).
  set (ad := determine_additions (cg_graph (tr_cg x)) (cg_graph (ks_update sc))) in *.
  assert (apply_update (cg_chain (tr_cg x)) (cg_chain (ks_update sc)) ord = Ret (Ok (apply_changeset (cg_chain (tr_cg x)) ccs, ccs))) as Ea
    by (unfold apply_update; by rewrite Edc).
  assert (∀ j p n, sc_pos (cg_chain (tr_cg x)) !! j = Some p → pos_height p = Confirmed n → pos_after (cg_chain (tr_cg x)) ccs j = Some p) as Hconf.
  { intros j p n Hp Hn. destruct (decide (pos_after (cg_chain (tr_cg x)) ccs j = Some p)) as [|Hne]; [done|]. exfalso.
    destruct (moves_only_in_reorg _ _ _ _ _ j p n (proj1 Hcg) Hbm Hcbt Hord Ea Hp Hn) as [[h Hh] _]; [|by apply (Hno h)].
    by rewrite apply_changeset_pos. }
  (* nothing secure conflicts *)
  assert (∀ j, secure x j → ¬ conflicting (tr_cg x) (mkCGS ccs ad) j) as Hnc.
  { intros j Hj. induction Hj as [j p n Hp Hn|j t Hin Ht Hnn Hm Hs IH].
    - intros Hc. apply (R1 j Hc). exists p, n. split; [by eapply Hconf|done].
    - intros (m & tn & q & Hnew & Hc). pose proof Hnew as (Hq & Hni & Htn). destruct Hc as [_ Hr].
      assert (in_chain (tr_cg x') m ∧ get_tx (cg_graph (tr_cg x')) m = Some tn) as [Hm' Ht'].
      { split.
        - rewrite Ecg. unfold in_chain. cbn [cg_apply_changeset cg_chain]. rewrite apply_changeset_pos, R5; [|by intros (? & ? & ? & _ & Hin' & _)].
          cbn [cgs_chain] in Hq. by rewrite Hq.
        - rewrite Hget. destruct Htn as [->|(-> & Ha & <-)]; [done|]. cbn [cgs_graph] in Ha. apply determine_tx in Ha as (i' & Ha & _).
          pose proof (proj1 (proj2 Hu)) as Hgu. assert (keyed (cg_graph (ks_update sc))) as Hku by apply Hu. pose proof (Hku _ _ Ha) as <-. by apply get_tx_Some. }
      inversion Hr as [j' (vin & _ & o & ts & Ho & Hon & Hts & Hin') Ej|a j' Ha Hka Hch Ej]; subst j'.
      + rewrite Ht in Hts. injection Hts as <-. apply (Hoth m tn o Hni Hm' Ht'); [by eapply elem_of_list_lookup_2|by apply Hm].
      + destruct Hch as (t2 & o & Ht2 & Ho & Hon & Eo). rewrite Ht in Ht2. injection Ht2 as <-. subst a. apply (IH o Ho).
        exists m, tn, q. split; [done|]. split; [|done]. unfold in_chainb in Hka. unfold in_chain. by destruct (sc_pos _ !! _). }
  intros Hs. pose proof (Hnc i Hs) as Hni.
  assert (in_chain (tr_cg x) i) as Hin by (destruct Hs; [by eexists|done]).
  assert (cg_apply_update ho (tr_cg x) (ks_update sc) ord = Ret (Ok (tr_cg x', cs1))) as Eu by (unfold cg_apply_update; by rewrite Ed, Ecg).
  destruct (update_evicts ho _ _ _ _ _ i Hcg Hu Hho Hord Eu Hin) as (ccs' & Edc' & Hev & _). rewrite Edc in Edc'. injection Edc' as <-. split.
  - destruct (decide (in_chain (tr_cg x') i)) as [|Hn]; [done|]. by apply Hev in Hn.
  - intros p n Hp Hn. rewrite Ecg. cbn [cg_apply_changeset cg_chain]. rewrite apply_changeset_pos, R5 by done. by apply (Hconf i p n).
Qed.

(** An unspent output of a secure transaction stays the wallet's and unspent. *)
Lemma coin_survives ki f : owned x ki f → fto_spent_by f = None → secure x (op_txid (fto_outpoint f)) →
  ∃ f', owned x' ki f' ∧ fto_outpoint f' = fto_outpoint f ∧ fto_txout f' = fto_txout f ∧ fto_spent_by f' = None ∧
    fto_on_coinbase f' = fto_on_coinbase f ∧ (∀ n, pos_height (fto_pos f) = Confirmed n → fto_pos f' = fto_pos f).
Proof using All.
  intros Hf Hsp Hsec. pose proof (secure_stays _ Hsec) as [[p Hp] Hconf].
  destruct update_parts as (ccs & cs1 & _ & _ & _ & _ & Hget & Hix).
  pose proof Hf as ((u & Hou) & t & Ht & Hpos & Hout & Hcb & Hun). rewrite Hsp in Hun.
  exists (mkFullTxOut (fto_outpoint f) (fto_txout f) p None (fto_on_coinbase f)).
  split; [|split; [done|split; [done|split; [done|split; [done|]]]]].
  2:{ intros n Hn. cbn. rewrite (Hconf _ n Hpos Hn) in Hp. by injection Hp. }
  split; cbn [fto_outpoint fto_txout fto_pos fto_spent_by fto_on_coinbase].
  - exists u. by rewrite (Hix _ t Ht).
  - exists t. split; [by rewrite Hget, Ht|]. split; [done|]. split; [done|]. split; [done|].
    intros s t' Hs Ht' Hin. destruct (decide (in_chain (tr_cg x) s)) as [Hs0|Hs0].
    + destruct (proj1 (proj2 (proj2 Hcg)) s Hs0) as [t0 Ht0]. rewrite Hget, Ht0 in Ht'. injection Ht' as <-. by apply (Hun s t0).
    + destruct (Hoth s t' (fto_outpoint f) Hs0 Hs Ht' Hin). by exists ki, f.
Qed.

(** The tip does not go back. *)
Lemma tip_stays tip tip' : sc_limit (cg_chain (tr_cg x)) ≠ Some 0%nat → tip_is x tip → tip_is x' tip' → tip ≤ tip'.
Proof using All.
  intros Hl Ht Ht'. destruct Ht as [[Ht _]|[-> _]]; [|apply N.le_0_l].
  destruct update_parts as (ccs & cs1 & Edc & Ed & Hres & Ecg & _). pose proof Hres as (_ & _ & R3 & _).
  destruct (quiet_tip _ _ _ _ (cgs_chain cs1) tip (proj1 Hcg) Hbm Hord Edc Hno Hl R3 Ht) as (k & Hk & Hle).
  destruct Ht' as [[_ Hmax]|[_ Hnone]]; rewrite Ecg in *.
  - apply Hmax in Hk. lia.
  - cbn [cg_apply_changeset cg_chain] in Hnone. rewrite Hnone in Hk. by destruct Hk.
Qed.

(** Nor is it counted differently. *)
Lemma trusted_survives trust tip tip' ki f : sc_limit (cg_chain (tr_cg x)) ≠ Some 0%nat → tip_is x tip → tip_is x' tip' →
  owned x ki f → fto_spent_by f = None → trusted trust tip (ki, f) → secure x (op_txid (fto_outpoint f)) →
  ∃ f', owned x' ki f' ∧ fto_outpoint f' = fto_outpoint f ∧ fto_txout f' = fto_txout f ∧ fto_spent_by f' = None ∧ trusted trust tip' (ki, f').
Proof using All.
  intros Hl Ht Ht' Hf Hsp Htr Hsec. pose proof (tip_stays tip tip' Hl Ht Ht') as Hle.
  destruct (coin_survives ki f Hf Hsp Hsec) as (f' & F1 & F2 & F3 & F4 & F5 & F6). exists f'.
  split; [done|]. split; [done|]. split; [done|]. split; [done|]. unfold trusted, categorize in *. cbn [fst snd] in *. rewrite F5.
  destruct (pos_height (fto_pos f)) as [n|] eqn:En.
  - rewrite (F6 n eq_refl), En. left. destruct (fto_on_coinbase f); [|done]. cbn [andb] in *. rewrite bool_decide_false; [done|].
    intros Hlt. rewrite bool_decide_true in Htr by lia. by destruct Htr.
  - destruct (trust ki.1) eqn:Et; [|by destruct Htr].
    destruct (pos_height (fto_pos f')); [|by right]. left.
    assert (fto_on_coinbase f = false) as ->; [|done].
    destruct Hf as (_ & t & Gt & Gp & _ & -> & _). inversion Hsec as [i p n Hp Hn Ei|i t0 Hin Hgt Hnn _ _ Ei]; subst i.
    { rewrite Hp in Gp. injection Gp as ->. congruence. }
    rewrite Gt in Hgt. injection Hgt as <-. unfold is_coin_base. destruct (tx_in t) as [|o [|]]; [done| |done].
    specialize (Hnn o (elem_of_list_here _ _)). unfold op_is_null. by rewrite bool_decide_false.
Qed.
End trust.

Lemma sumN_submseteq (l k : list N) : l ⊆+ k → sumN l ≤ sumN k.
Proof. induction 1; unfold sumN in *; cbn [foldr] in *; lia. Qed.

Section reachable.
Context `{!DescEnv} `{Countable K, !Ord K, !OrdLaws K} `{ChainPositionLaws P}.
Implicit Types (x y : Tracker K P) (k : K) (s : list (ki_op K)) (h : list (tr_op K P)) (A : K → option Desc) (W : Txid → list OutPoint).

Lemma trusted_stays A W s l h x0 x l1 (ho : TxGraph → OutPoint → list Txid) (sc : KScan K P) ord x' cs trust tip tip' ki f :
  good_env A → ki_hist_ok A s → tr_setup s l = Ret x0 → Forall (tr_op_ok A W s) h → Forall tr_cbt_op h → l ≠ Some 0%nat →
  tr_run x0 h = Ret (x, l1) → below_max (cg_chain (tr_cg x)) → tr_op_ok A W s (TrUpdate ho sc ord) →
  tr_apply_update (ho (cg_graph (tr_cg x))) x sc ord = Ret (Ok (x', cs)) → no_reorg x (ks_update sc) → others_only x x' →
  tip_is x tip → tip_is x' tip' →
  owned x ki f → fto_spent_by f = None → trusted trust tip (ki, f) → secure x (op_txid (fto_outpoint f)) →
  ∃ f', owned x' ki f' ∧ fto_outpoint f' = fto_outpoint f ∧ fto_txout f' = fto_txout f ∧ fto_spent_by f' = None ∧ trusted trust tip' (ki, f').
Proof.
  intros HA Hs Ex Hh Hcb Hl E Hbm (Hho & Hord & Hb & Hr & Hact) Eu. destruct (setup_twins A W s l l x0 x0 HA Hs Ex Ex) as (Ht & _).
  destruct (twins_run A W s h x0 x0 HA Ht Hh) as (x2 & cs' & y & E1 & _ & Ht' & _). rewrite E in E1. injection E1 as <- <-.
  destruct Ht' as ((hs & Hi) & _ & _ & Hkn & Hbx & _).
  assert (cbt x) as [Hcbt Hlim].
  { eapply (run_tr_cbt A W s h x0 x l1); try done.
    unfold tr_setup in Ex. destruct (ki_run s) as [[[i outs] acc]|]; [|done]. injection Ex as <-. split.
    - cbn [tr_cg cg_set_checkpoint_limit cg_chain]. unfold set_checkpoint_limit. intros t p n. rewrite prune_pos. cbn. by rewrite lookup_empty.
    - cbn [tr_cg cg_set_checkpoint_limit cg_chain]. unfold set_checkpoint_limit. by rewrite prune_limit. }
  intros Hno Ho T1 T2 Hf Hsp Htr Hsec.
  eapply (trusted_survives A HA x hs sc (ho (cg_graph (tr_cg x))) ord x' cs); try done.
  - by apply (built_ok W).
  - by apply (built_ok W).
  - intros k j Hj. destruct (Hact k j Hj). split; [by apply Hkn|done].
Qed.

Lemma tr_run_snoc x0 h x l1 (op : tr_op K P) x' l2 : tr_run x0 h = Ret (x, l1) → tr_step x op = Ret (x', l2) → tr_run x0 (h ++ [op]) = Ret (x', l1 ++ l2).
Proof.
  intros E Eu. revert l1 x0 E. induction h as [|op' h IH]; intros l1 x0 E; cbn [tr_run app] in *.
  - injection E as -> <-. rewrite Eu. by rewrite app_nil_r.
  - destruct (tr_step x0 op') as [[x1 c1]|]; [|done]. destruct (tr_run x1 h) as [[x2 c2]|] eqn:E2; [|done]. injection E as -> <-.
    rewrite (IH c2 x1 E2). by rewrite <- app_assoc.
Qed.
Lemma trusted_sum A W s l h x0 x l1 (ho : TxGraph → OutPoint → list Txid) (sc : KScan K P) ord x' cs trust tip tip' lst lst' :
  good_env A → ki_hist_ok A s → tr_setup s l = Ret x0 → Forall (tr_op_ok A W s) h → Forall tr_cbt_op h → l ≠ Some 0%nat →
  tr_run x0 h = Ret (x, l1) → below_max (cg_chain (tr_cg x)) → tr_op_ok A W s (TrUpdate ho sc ord) → tr_cbt_op (TrUpdate ho sc ord) →
  tr_apply_update (ho (cg_graph (tr_cg x))) x sc ord = Ret (Ok (x', cs)) → no_reorg x (ks_update sc) → others_only x x' →
  tip_is x tip → tip_is x' tip' → tip' < u32_max →
  (∀ ki f, owned x ki f → fto_spent_by f = None → trusted trust tip (ki, f) → secure x (op_txid (fto_outpoint f))) →
  NoDup lst → (∀ ki f, (ki, f) ∈ lst ↔ owned x ki f ∧ fto_spent_by f = None) → sumN (value_of <$> lst) ≤ u64_max →
  NoDup lst' → (∀ ki f, (ki, f) ∈ lst' ↔ owned x' ki f ∧ fto_spent_by f = None) → sumN (value_of <$> lst') ≤ u64_max →
  ∃ b b' a a', balance (ho (cg_graph (tr_cg x))) x trust = Ret b ∧ balance (ho (cg_graph (tr_cg x'))) x' trust = Ret b' ∧
    trusted_spendable b = Ret a ∧ trusted_spendable b' = Ret a' ∧ a ≤ a'.
Proof.
  intros HA Hs Ex Hh Hcb Hl E Hbm Hop Hco Eu Hno Ho T1 T2 Hlt Hsec N1 L1 S1 N2 L2 S2.
  assert (tr_run x0 (h ++ [TrUpdate ho sc ord]) = Ret (x', l1 ++ [cs])) as E2.
  { apply (tr_run_snoc _ _ x); [done|]. cbn [tr_step]. by rewrite Eu. }
  assert (hash_fun_ok ho) as Hho by apply Hop.
  assert (tip < u32_max) as Hlt0.
  { destruct T1 as [[Ht _]|[-> _]]; [by apply (proj1 Hbm)|done]. }
  destruct (balance_reachable A W s l h x0 x l1 (ho (cg_graph (tr_cg x))) trust tip lst) as (b & B1 & _ & _ & B2); try done.
  destruct (balance_reachable A W s l (h ++ [TrUpdate ho sc ord]) x0 x' (l1 ++ [cs]) (ho (cg_graph (tr_cg x'))) trust tip' lst') as (b' & B3 & _ & _ & B4); try done.
  { apply Forall_app. by split; [|apply Forall_singleton]. }
  { apply Forall_app. by split; [|apply Forall_singleton]. }
  exists b, b'. do 2 eexists. split; [done|]. split; [done|]. split; [done|]. split; [done|].
  set (pv := λ kf : K * N * FullTxOut P, (fto_outpoint kf.2, txo_value (fto_txout kf.2))).
  assert (∀ m : list (K * N * FullTxOut P), value_of <$> m = snd <$> (pv <$> m)) as Hv.
  { intros m. rewrite <- list_fmap_compose. done. }
  rewrite !Hv. apply sumN_submseteq, fmap_submseteq, NoDup_submseteq.
  - apply NoDup_fmap_2_strong; [|by apply NoDup_filter]. intros [ki f] [ki' f'] [_ H1']%elem_of_list_filter [_ H2']%elem_of_list_filter [= Eo Ev].
    apply L1 in H1' as (((u & O1) & t & O2 & O3 & O4 & O5 & _) & O6). apply L1 in H2' as (((u' & Q1) & t' & Q2 & Q3 & Q4 & Q5 & _) & Q6).
    rewrite <- Eo in *. destruct f, f'; cbn in *. simplify_eq. done.
  - intros [o v] ([ki f] & [= -> ->] & [Htr Hin]%elem_of_list_filter)%elem_of_list_fmap. apply L1 in Hin as [Hf Hsp].
    destruct (trusted_stays A W s l h x0 x l1 ho sc ord x' cs trust tip tip' ki f) as (f' & F1 & F2 & F3 & F4 & F5); try done.
    { by apply (Hsec ki). }
    apply elem_of_list_fmap. exists (ki, f'). split; [unfold pv; cbn [snd]; by rewrite F2, F3|]. apply elem_of_list_filter. split; [done|]. by apply L2.
Qed.
End reachable.
