(** New wallets, and wallets that scan again (C90, C91). *)
From Verif Require Export RestoreProofs2.

Section setup.
Context `{!DescEnv} `{Countable K, !Ord K, !OrdLaws K} `{ChainPositionLaws P}.
Lemma adds_run (s : list (ki_op K)) i outs acc : only_adds s → ki_run s = Ret (i, outs, acc) →
  ki_inner i = ki_inner ki_default ∧ ki_revealed i = ∅ ∧ ki_lookahead i = ∅.
Proof.
  revert i outs acc. induction s as [|op s IH] using rev_ind; intros i outs acc Hs E; [by injection E as <- <- <-|].
  apply Forall_app in Hs as [Hs Hop]. apply Forall_inv in Hop as (k & d & ->). rewrite ki_run_snoc in E.
  destruct (ki_run s) as [[[i1 outs1] acc1]|]; [|done]. destruct (IH i1 outs1 acc1 Hs eq_refl) as (I1 & I2 & I3).
  cbn [ki_step] in E. unfold add_keychain in E. destruct (ki_keychains i1 !! k) as [d'|].
  - destruct (bool_decide (d = d')); [|done]. cbn in E. by injection E as <- _ _.
  - cbn in E. by injection E as <- _ _.
Qed.
Lemma limit_fresh lim : let cg := cg_set_checkpoint_limit (cg_default : ChainGraph P) lim in
  sc_cps (cg_chain cg) = ∅ ∧ sc_pos (cg_chain cg) = ∅ ∧ sc_limit (cg_chain cg) = lim ∧ cg_graph cg = tg_default.
Proof.
  cbn [cg_set_checkpoint_limit cg_chain cg_graph]. unfold set_checkpoint_limit. rewrite prune_pos, prune_limit. split; [|done].
  apply map_eq. intros h. rewrite prune_cps. cbn. rewrite lookup_empty. repeat case_match; done.
Qed.
Lemma setup_fresh A W w (wpos : Txid → P) s lim (x : Tracker K P) :
  good_env A → ki_hist_ok A s → only_adds s → lim ≠ Some 0%nat → tr_setup s lim = Ret x →
  (∃ hs, ki_inv A hs (tr_index x)) ∧ cg_ok (tr_cg x) ∧ inputs_by_txid W (cg_graph (tr_cg x)) ∧
  (∀ t, get_tx (cg_graph (tr_cg x)) t = None) ∧ (∀ o, si_txout (ki_inner (tr_index x)) o = None) ∧
  (∀ k, n_revealed (tr_index x) k = 0) ∧ tight (tr_index x) ∧ ki_lookahead (tr_index x) = ∅ ∧
  below_max (cg_chain (tr_cg x)) ∧ confirmed_below_tip (cg_chain (tr_cg x)) ∧ local_true w wpos (cg_chain (tr_cg x)) ∧
  agrees w x ∧ sc_limit (cg_chain (tr_cg x)) ≠ Some 0%nat ∧ sc_cps (cg_chain (tr_cg x)) = ∅.
Proof.
  intros HA Hs Ha Hlim Ex. destruct (run_reachable A W s lim [] x x [] HA Hs Ex (Forall_nil_2 _) eq_refl) as [Hok [hs Hi]].
  unfold tr_setup in Ex. destruct (ki_run s) as [[[i outs] acc]|] eqn:Er; [|done]. injection Ex as <-.
  destruct (adds_run s i outs acc Ha Er) as (E1 & E2 & E3).
  cbn [tr_index tr_cg] in *. destruct (limit_fresh lim) as (Hc & Hp0 & Hl & Hg0). cbn zeta in Hc, Hp0, Hl, Hg0.
  set (cg := cg_set_checkpoint_limit (cg_default : ChainGraph P) lim) in *.
  assert (∀ t, get_tx (cg_graph cg) t = None) as Hg.
  { intros t. rewrite Hg0. unfold get_tx. cbn. by rewrite lookup_empty. }
  assert (∀ o, si_txout (ki_inner i) o = None) as Ht. { intros o. rewrite E1. cbn. unfold si_txout. cbn. by rewrite lookup_empty. }
  assert (∀ t : Txid, sc_pos (cg_chain cg) !! t = None) as Hp by (intros t; by rewrite Hp0, lookup_empty).
  split_and!; try done.
  - by exists hs.
  - intros k. unfold n_revealed. by rewrite E2, lookup_empty.
  - intros k d n Hd Hn. destruct (N.eq_0_gt_0_cases n) as [->|Hpos]; [lia|]. specialize (Hn 0). rewrite E1 in Hn.
    destruct (proj2 Hn Hpos) as [sp Hsp]. unfold si_spk_at in Hsp. cbn in Hsp. by rewrite lookup_empty in Hsp.
  - split; [intros h; rewrite Hc, lookup_empty; by intros []|intros t p h; by rewrite Hp].
  - intros t p h. by rewrite Hp.
  - constructor.
    + intros h. rewrite Hc, lookup_empty. by intros [].
    + intros a b y _. rewrite Hc, lookup_empty. done.
    + intros t p h. by rewrite Hp.
  - split; [intros t a b; by rewrite Hg|intros o ki u t; by rewrite Ht].
  - congruence.
Qed.
End setup.

Section restored.
Context `{!DescEnv} `{Countable K, !Ord K, !OrdLaws K} `{ChainPositionLaws P}.
Context (A : K → option Desc) (HA : good_env A).
Context (W : Txid → list OutPoint) (w : World) (wpos : Txid → P).
Context (Hw : world_ok w) (Hsane : world_sane W w) (Hwpos : ∀ t, pos_height (wpos t) = w_position w t).
Context (Htx : ∀ t a, w_tx w t = Some a → tx_ok a).

Lemma fit_for_seen found (x : Tracker K P) : fit_for w wpos x → fit_seen w wpos found x.
Proof using. intros (H1' & H2' & H3' & H4' & H5'). split_and!; try done. by apply true_seen. Qed.
Lemma fit_seen_mono (F G : Txid → Prop) (x : Tracker K P) : (∀ t, F t → G t) → fit_seen w wpos F x → fit_seen w wpos G x.
Proof using. intros HFG (H1' & H2' & H3' & H4' & H5'). split_and!; try done. by eapply seen_mono. Qed.
Lemma fresh_restored s lim x F sc ho ord :
  ki_hist_ok A s → only_adds s → lim ≠ Some 0%nat → tr_setup s lim = Ret x → scan_ok w wpos x F sc →
  hash_fun_ok ho → ord ≡ₚ map_to_list (sc_pos (cg_chain (ks_update sc))) →
  ∃ x' cs, tr_apply_update (ho (cg_graph (tr_cg x))) x sc ord = Ret (Ok (x', cs)) ∧ restored w wpos x x' F.
Proof using All.
  intros Hs Ha Hlim0 Ex Hso Hho Hord.
  destruct (setup_fresh A W w wpos s lim x HA Hs Ha Hlim0 Ex) as ([hs Hi] & Hcg & Hin & F1 & F2 & F3 & F4 & F5 & Hbm & Hcbt & Htrue & Hag & Hlim & Hcps).
  pose proof (true_seen w wpos (in_chain (ks_update sc)) _ Htrue) as Hseen.
  destruct (synced A HA W w wpos Hw Hsane Hwpos Htx x hs F sc Hso Hi Hcg Hin Hbm Hcbt Hseen Hag ho ord Hho Hord)
    as (x' & cs & hs' & E & E1 & Hok & _ & _ & P1 & P2 & _).
  exists x', cs. split; [done|].
  assert (inputs_by_txid W (cg_graph (ks_update sc))) as Huin.
  { intros t a Hta. apply (ws_inputs W w Hsane). by apply (so_tx w wpos x F sc Hso). }
  destruct (synced_blocks W w wpos Hw Hsane Hwpos (tr_cg x) (ks_update sc) (tr_cg x') (kcs_cg cs) (ho (cg_graph (tr_cg x))) ord
    Hcg Hin Hbm Hcbt Hseen (so_ok _ _ _ _ _ Hso) Huin (so_con _ _ _ _ _ Hso) (so_pos _ _ _ _ _ Hso) (Hho _) Hord Hlim E1) as (_ & B1 & B2).
  destruct (blocks_tip w wpos Hw Hwpos (cg_chain (tr_cg x')) B1 B2 P2) as (T1 & T2 & T3 & T4).
  assert (∀ ki f, owned x' ki f ↔ F ki.1 ki.2 ∧ paid (tr_index x) ki.1 ki.2 (fto_txout f) ∧ true_output w wpos f ∧ true_spend w wpos f) as Hown.
  { intros ki f. by eapply (synced_fresh A HA W w wpos Hw Hsane Hwpos Htx x hs F sc Hso Hi Hcg Hin Hbm Hcbt Hseen Hag ho ord x' cs ki f). }
  split; [by left|]. split; [done|].
  intros ho' trust l Hho' Hn Hl Hsum.
  destruct (balance_ok ho' x' trust (w_tip w) l Hok Hho' T2 ltac:(by left) (wo_tip w Hw) Hn) as (b & Hb & Hb1 & Hb2 & _); [|done|].
  - intros ki f. rewrite Hl, Hown. unfold true_spend. split.
    + intros (H1' & H2' & H3' & H4' & H5'). rewrite H4'. done.
    + intros ((H1' & H2' & H3' & H4') & H5'). rewrite H5' in H4'. done.
  - exists b. done.
Qed.

Lemma rescanned hs x F sc ho ord :
  ki_inv A hs (tr_index x) → cg_ok (tr_cg x) → inputs_by_txid W (cg_graph (tr_cg x)) → fit_seen w wpos (in_chain (ks_update sc)) x →
  scan_ok w wpos x F sc → hash_fun_ok ho → ord ≡ₚ map_to_list (sc_pos (cg_chain (ks_update sc))) →
  ∃ x' cs, tr_apply_update (ho (cg_graph (tr_cg x))) x sc ord = Ret (Ok (x', cs)) ∧ caught_up w wpos x x' F.
Proof using All.
  intros Hi Hcg Hin (Hlim & Hbm & Hcbt & Htrue & Hag) Hso Hho Hord.
  destruct (synced A HA W w wpos Hw Hsane Hwpos Htx x hs F sc Hso Hi Hcg Hin Hbm Hcbt Htrue Hag ho ord Hho Hord)
    as (x' & cs & hs' & E & E1 & Hok & Hi' & Hk & P1 & P2 & G & I1 & I2 & _ & I3 & _).
  exists x', cs. split; [done|].
  assert (inputs_by_txid W (cg_graph (ks_update sc))) as Huin.
  { intros t a Hta. apply (ws_inputs W w Hsane). by apply (so_tx w wpos x F sc Hso). }
  destruct (synced_blocks W w wpos Hw Hsane Hwpos (tr_cg x) (ks_update sc) (tr_cg x') (kcs_cg cs) (ho (cg_graph (tr_cg x))) ord
    Hcg Hin Hbm Hcbt Htrue (so_ok _ _ _ _ _ Hso) Huin (so_con _ _ _ _ _ Hso) (so_pos _ _ _ _ _ Hso) (Hho _) Hord Hlim E1) as (B0 & B1 & B2).
  destruct (blocks_tip w wpos Hw Hwpos (cg_chain (tr_cg x')) B1 B2 P2) as (T1 & T2 & T3 & T4).
  assert (∀ s b, get_tx (cg_graph (tr_cg x')) s = Some b → w_tx w s = None ∨ w_tx w s = Some b) as Hsame.
  { intros s b. rewrite G. destruct (get_tx (cg_graph (tr_cg x)) s) as [a|] eqn:Ea.
    - intros [= <-]. destruct (w_tx w s) as [b|] eqn:Eb; [right|by left]. f_equal. symmetry. by apply (proj1 Hag s).
    - intros Hb%(so_tx _ _ _ _ _ Hso). by right. }
  assert (∀ t p h a, sc_pos (cg_chain (tr_cg x')) !! t = Some p → pos_height p = Confirmed h → get_tx (cg_graph (tr_cg x')) t = Some a →
    p = wpos t ∧ w_tx w t = Some a) as Hconf.
  { intros t p h a Hp Hh Ha. pose proof (P2 t p h Hp Hh) as ->. split; [done|].
    rewrite Hwpos in Hh. unfold w_position in Hh. destruct (w_height w t) as [h'|] eqn:Eh; [|done].
    destruct (ws_block W w Hsane t h' Eh) as [b Hb]. destruct (Hsame t a Ha); congruence. }
  assert (agrees w x') as Hag'.
  { split.
    - intros t a b Ha Hb. destruct (Hsame t a Ha); congruence.
    - intros o [k i] u t [Ho|[Ho _]]%I2 Ht; [by eapply (proj2 Hag)|].
      apply (update_txout w wpos x F sc Hso) in Ho as (t' & _ & Ht' & Hu). congruence. }
  split_and!.
  - by left.
  - unfold fit_for. rewrite B0. done.
  - intros o t u k i Ht Hu HF Hp [_ Hn].
    rewrite G in Ht. destruct (get_tx (cg_graph (tr_cg x)) (op_txid o)) as [a|] eqn:Ea.
    + rewrite (I3 o a Ea) in Hn. split; [by exists a|done].
    + apply (so_tx _ _ _ _ _ Hso) in Ht. erewrite I1 in Hn; try done. intros [[a Ha] _]. congruence.
  - intros o t u k i. intros. by eapply (synced_finds A HA W w wpos Hw Hsane Hwpos Htx x hs F sc Hso Hi Hcg Hin Hbm Hcbt Htrue Hag ho ord).
  - intros ki f h (_ & t & Ht & Hp & Hu & Hc & _) Hh. destruct (Hconf _ _ _ _ Hp Hh Ht) as [Hp' Hwt]. by exists t.
  - intros ki f p s h (_ & t & Ht & Hp & Hu & Hc & Hs) Hsp Hh. unfold true_spend. rewrite Hsp in *. destruct Hs as (Hps & t' & Ht' & Hin' & _).
    destruct (Hconf _ _ _ _ Hps Hh Ht') as [Hp' Hwt]. split; [done|]. by exists t'.
Qed.
End restored.

Section electrum.
Context `{!DescEnv} `{Countable K, !Ord K, !OrdLaws K}.
Context (A : K → option Desc) (HA : good_env A).
Context (W : Txid → list OutPoint) (w : World) (Hw : world_ok w) (Hsane : world_sane W w).
Context (Htx : ∀ t a, w_tx w t = Some a → tx_ok a).
Context (srv : nat → ESnap) (Hhonest : ∀ n, electrum_honest w (srv n)).

(** One scan, for a wallet fit for the world. *)
Lemma electrum_ok dbg fuel (x : Tracker K TxHeight) kspks txids outpoints (gap : N) batch :
  cg_ok (tr_cg x) → inputs_by_txid W (cg_graph (tr_cg x)) → agrees w x → (∀ h, is_Some (sc_cps (cg_chain (tr_cg x)) !! h) → h ≤ w_tip w) →
  scripts_of (tr_index x) kspks → (0 < batch)%nat →
  Forall (λ t, t ≤ max_txid) txids → Forall (λ o, is_Some (w_tx w (op_txid o))) outpoints →
  ends (scan dbg srv (S fuel) (sc_cps (cg_chain (tr_cg x))) kspks txids outpoints gap batch)
    (λ e, ∀ new_txs ho1,
      Forall (λ t, w_tx w (txid t) = Some t) new_txs →
      (∀ i, i ∈ missing_full_txs e (cg_graph (tr_cg x)) → ∃ t, t ∈ new_txs ∧ txid t = i) →
      hash_order (inflate_graph (tr_cg x) (eu_chain e) new_txs) ho1 →
      ∃ sc, into_keychain_scan ho1 e new_txs (tr_cg x) = Ret (Ok sc) ∧ cg_chain (ks_update sc) = eu_chain e ∧
        scan_ok w (w_position w) x (within w gap kspks) sc ∧ ∀ t, sought w kspks txids outpoints gap t → in_chain (ks_update sc) t).
Proof using Hw Hsane Hhonest OrdLaws0.
  intros Hcg Hin Hag Hlow Hsp Hb Htxids Hops.
  eapply ends_weaken; [apply (scan_ends w Hw dbg srv Hhonest); [exact Hlow|done..]|].
  intros e He new_txs ho1 Hnew Hall Hho1.
  destruct (inflated_ok W w (w_position w) Hsane x kspks gap e new_txs ho1) as (sc & E & Hch & Hso);
    [done|done|done|done|apply He|apply He|by eapply (scan_known w Hw)|apply He| |done|done|done|].
  { apply (sf_active _ _ _ _ _ _ _ He). by eapply scripts_fit. }
  exists sc. split_and!; try done. intros t Ht. unfold in_chain. rewrite Hch. by eapply (scan_sought w).
Qed.
(** The same with the times of blocks. *)
Lemma electrum_times_ok (time : N → N) dbg fuel (x : Tracker K ConfirmationTime) kspks txids outpoints (gap : N) batch :
  (∀ h, time h ≤ u64_max) → (∀ n l, es_times (srv n) l = Ok (time <$> l)) →
  cg_ok (tr_cg x) → inputs_by_txid W (cg_graph (tr_cg x)) → agrees w x → (∀ h, is_Some (sc_cps (cg_chain (tr_cg x)) !! h) → h ≤ w_tip w) →
  scripts_of (tr_index x) kspks → (0 < batch)%nat →
  Forall (λ t, t ≤ max_txid) txids → Forall (λ o, is_Some (w_tx w (op_txid o))) outpoints →
  ends (bnd (scan dbg srv (S fuel) (sc_cps (cg_chain (tr_cg x))) kspks txids outpoints gap batch) (into_confirmation_time_update srv))
    (λ e, ∀ new_txs ho1,
      Forall (λ t, w_tx w (txid t) = Some t) new_txs →
      (∀ i, i ∈ missing_full_txs e (cg_graph (tr_cg x)) → ∃ t, t ∈ new_txs ∧ txid t = i) →
      hash_order (inflate_graph (tr_cg x) (eu_chain e) new_txs) ho1 →
      ∃ sc, into_keychain_scan ho1 e new_txs (tr_cg x) = Ret (Ok sc) ∧ cg_chain (ks_update sc) = eu_chain e ∧
        scan_ok w (timed time ∘ w_position w) x (within w gap kspks) sc ∧ ∀ t, sought w kspks txids outpoints gap t → in_chain (ks_update sc) t).
Proof using Hw Hsane Hhonest OrdLaws0.
  intros Htime Hts Hcg Hin Hag Hlow Hsp Hb Htxids Hops.
  eapply ends_bnd; [apply (scan_ends w Hw dbg srv Hhonest); [exact Hlow|done..]|].
  intros e He. destruct (sf_usable _ _ _ _ _ _ _ He) as (He1 & He2 & He3).
  eapply ends_weaken; [by apply (confirmation_times_ends time Htime srv e)|].
  intros e' (Hok' & Hcps' & Hact' & Hpos') new_txs ho1 Hnew Hall Hho1.
  destruct (inflated_ok W w (timed time ∘ w_position w) Hsane x kspks gap e' new_txs ho1) as (sc & E & Hch & Hso);
    [done|done|done|done|done|rewrite Hcps'; apply He| | | |done|done|done|].
  - intros t p. rewrite Hpos', fmap_Some. intros (q & Hq & ->).
    destruct (scan_known w Hw _ _ _ _ _ _ Hops He t q Hq) as [-> ?]. done.
  - intros k l p i sp t Hk Hl Hg Ht. rewrite Hpos', fmap_is_Some. by eapply (sf_scripts _ _ _ _ _ _ _ He).
  - rewrite Hact'. apply (sf_active _ _ _ _ _ _ _ He). by eapply scripts_fit.
  - exists sc. split_and!; try done. intros t Ht. unfold in_chain. rewrite Hch, Hpos', fmap_is_Some. by eapply (scan_sought w).
Qed.

Lemma electrum_restores dbg fuel s lim (x : Tracker K TxHeight) kspks txids outpoints (gap : N) batch :
  ki_hist_ok A s → only_adds s → lim ≠ Some 0%nat → tr_setup s lim = Ret x → scripts_of (tr_index x) kspks → (0 < batch)%nat →
  Forall (λ t, t ≤ max_txid) txids → Forall (λ o, is_Some (w_tx w (op_txid o))) outpoints →
  ends (scan dbg srv (S fuel) (sc_cps (cg_chain (tr_cg x))) kspks txids outpoints gap batch)
    (λ e, ∀ new_txs ho1 ho ord,
      Forall (λ t, w_tx w (txid t) = Some t) new_txs →
      (∀ i, i ∈ missing_full_txs e (cg_graph (tr_cg x)) → ∃ t, t ∈ new_txs ∧ txid t = i) →
      hash_order (inflate_graph (tr_cg x) (eu_chain e) new_txs) ho1 → hash_fun_ok ho →
      ord ≡ₚ map_to_list (sc_pos (eu_chain e)) →
      ∃ sc x' cs, into_keychain_scan ho1 e new_txs (tr_cg x) = Ret (Ok sc) ∧
        tr_apply_update (ho (cg_graph (tr_cg x))) x sc ord = Ret (Ok (x', cs)) ∧ restored w (w_position w) x x' (within w gap kspks)).
Proof using All.
  intros Hs Ha Hlim Ex Hsp Hb Htxids Hops.
  destruct (setup_fresh A W w (w_position w) s lim x HA Hs Ha Hlim Ex) as (_ & Hcg & Hin & _ & _ & _ & _ & _ & _ & _ & Htrue & Hag & _).
  eapply ends_weaken; [apply electrum_ok; try done; apply Htrue|]. intros e He new_txs ho1 ho ord Hnew Hall Hho1 Hho Hord.
  destruct (He new_txs ho1 Hnew Hall Hho1) as (sc & E & Hch & Hso & Hfound).
  destruct (fresh_restored A HA W w (w_position w) Hw Hsane ltac:(done) Htx s lim x (within w gap kspks) sc ho ord) as (x' & cs & E' & Hr); [done..|by rewrite Hch|].
  by exists sc, x', cs.
Qed.
Lemma electrum_restores_times (time : N → N) dbg fuel s lim (x : Tracker K ConfirmationTime) kspks txids outpoints (gap : N) batch :
  (∀ h, time h ≤ u64_max) → (∀ n l, es_times (srv n) l = Ok (time <$> l)) →
  ki_hist_ok A s → only_adds s → lim ≠ Some 0%nat → tr_setup s lim = Ret x → scripts_of (tr_index x) kspks → (0 < batch)%nat →
  Forall (λ t, t ≤ max_txid) txids → Forall (λ o, is_Some (w_tx w (op_txid o))) outpoints →
  ends (bnd (scan dbg srv (S fuel) (sc_cps (cg_chain (tr_cg x))) kspks txids outpoints gap batch) (into_confirmation_time_update srv))
    (λ e, ∀ new_txs ho1 ho ord,
      Forall (λ t, w_tx w (txid t) = Some t) new_txs →
      (∀ i, i ∈ missing_full_txs e (cg_graph (tr_cg x)) → ∃ t, t ∈ new_txs ∧ txid t = i) →
      hash_order (inflate_graph (tr_cg x) (eu_chain e) new_txs) ho1 → hash_fun_ok ho →
      ord ≡ₚ map_to_list (sc_pos (eu_chain e)) →
      ∃ sc x' cs, into_keychain_scan ho1 e new_txs (tr_cg x) = Ret (Ok sc) ∧
        tr_apply_update (ho (cg_graph (tr_cg x))) x sc ord = Ret (Ok (x', cs)) ∧ restored w (timed time ∘ w_position w) x x' (within w gap kspks)).
Proof using All.
  intros Htime Hts Hs Ha Hlim Ex Hsp Hb Htxids Hops.
  destruct (setup_fresh A W w (timed time ∘ w_position w) s lim x HA Hs Ha Hlim Ex) as (_ & Hcg & Hin & _ & _ & _ & _ & _ & _ & _ & Htrue & Hag & _).
  eapply ends_weaken; [apply electrum_times_ok; try done; apply Htrue|]. intros e He new_txs ho1 ho ord Hnew Hall Hho1 Hho Hord.
  destruct (He new_txs ho1 Hnew Hall Hho1) as (sc & E & Hch & Hso & Hfound).
  destruct (fresh_restored A HA W w (timed time ∘ w_position w) Hw Hsane ltac:(intros t; apply timed_height) Htx s lim x (within w gap kspks) sc ho ord) as (x' & cs & E' & Hr); [done..|by rewrite Hch|].
  by exists sc, x', cs.
Qed.
Lemma electrum_rescans dbg fuel hs (x : Tracker K TxHeight) kspks txids outpoints (gap : N) batch :
  ki_inv A hs (tr_index x) → cg_ok (tr_cg x) → inputs_by_txid W (cg_graph (tr_cg x)) → fit_seen w (w_position w) (sought w kspks txids outpoints gap) x →
  scripts_of (tr_index x) kspks → (0 < batch)%nat →
  Forall (λ t, t ≤ max_txid) txids → Forall (λ o, is_Some (w_tx w (op_txid o))) outpoints →
  ends (scan dbg srv (S fuel) (sc_cps (cg_chain (tr_cg x))) kspks txids outpoints gap batch)
    (λ e, ∀ new_txs ho1 ho ord,
      Forall (λ t, w_tx w (txid t) = Some t) new_txs →
      (∀ i, i ∈ missing_full_txs e (cg_graph (tr_cg x)) → ∃ t, t ∈ new_txs ∧ txid t = i) →
      hash_order (inflate_graph (tr_cg x) (eu_chain e) new_txs) ho1 → hash_fun_ok ho →
      ord ≡ₚ map_to_list (sc_pos (eu_chain e)) →
      ∃ sc x' cs, into_keychain_scan ho1 e new_txs (tr_cg x) = Ret (Ok sc) ∧
        tr_apply_update (ho (cg_graph (tr_cg x))) x sc ord = Ret (Ok (x', cs)) ∧ caught_up w (w_position w) x x' (within w gap kspks)).
Proof using All.
  intros Hi Hcg Hin Hfit Hsp Hb Htxids Hops. pose proof Hfit as (_ & _ & _ & Htrue & Hag).
  eapply ends_weaken; [apply electrum_ok; try done; apply Htrue|]. intros e He new_txs ho1 ho ord Hnew Hall Hho1 Hho Hord.
  destruct (He new_txs ho1 Hnew Hall Hho1) as (sc & E & Hch & Hso & Hfound).
  destruct (rescanned A HA W w (w_position w) Hw Hsane ltac:(done) Htx hs x (within w gap kspks) sc ho ord) as (x' & cs & E' & Hr);
    [done..|by eapply fit_seen_mono|done|done|by rewrite Hch|].
  by exists sc, x', cs.
Qed.
Lemma electrum_rescans_times (time : N → N) dbg fuel hs (x : Tracker K ConfirmationTime) kspks txids outpoints (gap : N) batch :
  (∀ h, time h ≤ u64_max) → (∀ n l, es_times (srv n) l = Ok (time <$> l)) →
  ki_inv A hs (tr_index x) → cg_ok (tr_cg x) → inputs_by_txid W (cg_graph (tr_cg x)) → fit_seen w (timed time ∘ w_position w) (sought w kspks txids outpoints gap) x →
  scripts_of (tr_index x) kspks → (0 < batch)%nat →
  Forall (λ t, t ≤ max_txid) txids → Forall (λ o, is_Some (w_tx w (op_txid o))) outpoints →
  ends (bnd (scan dbg srv (S fuel) (sc_cps (cg_chain (tr_cg x))) kspks txids outpoints gap batch) (into_confirmation_time_update srv))
    (λ e, ∀ new_txs ho1 ho ord,
      Forall (λ t, w_tx w (txid t) = Some t) new_txs →
      (∀ i, i ∈ missing_full_txs e (cg_graph (tr_cg x)) → ∃ t, t ∈ new_txs ∧ txid t = i) →
      hash_order (inflate_graph (tr_cg x) (eu_chain e) new_txs) ho1 → hash_fun_ok ho →
      ord ≡ₚ map_to_list (sc_pos (eu_chain e)) →
      ∃ sc x' cs, into_keychain_scan ho1 e new_txs (tr_cg x) = Ret (Ok sc) ∧
        tr_apply_update (ho (cg_graph (tr_cg x))) x sc ord = Ret (Ok (x', cs)) ∧ caught_up w (timed time ∘ w_position w) x x' (within w gap kspks)).
Proof using All.
  intros Htime Hts Hi Hcg Hin Hfit Hsp Hb Htxids Hops. pose proof Hfit as (_ & _ & _ & Htrue & Hag).
  eapply ends_weaken; [apply electrum_times_ok; try done; apply Htrue|]. intros e He new_txs ho1 ho ord Hnew Hall Hho1 Hho Hord.
  destruct (He new_txs ho1 Hnew Hall Hho1) as (sc & E & Hch & Hso & Hfound).
  destruct (rescanned A HA W w (timed time ∘ w_position w) Hw Hsane ltac:(intros t; apply timed_height) Htx hs x (within w gap kspks) sc ho ord) as (x' & cs & E' & Hr);
    [done..|by eapply fit_seen_mono|done|done|by rewrite Hch|].
  by exists sc, x', cs.
Qed.
End electrum.
