(** The life of a wallet: what every scan can rely on (C92). *)
From Verif Require Export RestoreProofs5.

Section life.
Context `{!DescEnv} `{Countable K, !Ord K, !OrdLaws K} `{ChainPositionLaws P}.
Context (A : K → option Desc) (HA : good_env A) (W : Txid → list OutPoint) (Fam : World → Prop) (HF : coherent W Fam).
Context (s : list (ki_op K)) (Hs : ki_hist_ok A s) (Hq : Forall (λ op, ∀ l, op ≠ KiScan l) s).
Context (lim : option nat) (Hlim : lim ≠ Some 0%nat) (x0 : Tracker K P) (Ex0 : tr_setup s lim = Ret x0).
Context (wpos : World → Txid → P) (Hwpos : ∀ w t, pos_height (wpos w t) = w_position w t).
Implicit Types (v w : World) (x : Tracker K P).

Record alive w x : Prop := {
  al_fam : Fam w;
  al_index : ∃ hs, ki_inv A hs (tr_index x);
  al_known : ∀ k, known s k → is_Some (ki_keychains (tr_index x) !! k);
  al_cg : cg_ok (tr_cg x);
  al_inputs : inputs_by_txid W (cg_graph (tr_cg x));
  al_limit : sc_limit (cg_chain (tr_cg x)) ≠ Some 0%nat;
  al_chain : ∃ v, Fam v ∧ w_tip v ≤ w_tip w ∧ (∀ h b, sc_cps (cg_chain (tr_cg x)) !! h = Some b → h ≤ w_tip v ∧ b = w_block v h) ∧
    ∀ t p h, sc_pos (cg_chain (tr_cg x)) !! t = Some p → pos_height p = Confirmed h → p = wpos v t ∧ ∃ k, is_Some (sc_cps (cg_chain (tr_cg x)) !! k) ∧ h ≤ k;
  al_agrees : ∀ v, Fam v → agrees v x;
  al_watch : ∀ sp ki, si_index_of_spk (ki_inner (tr_index x0)) sp = Some ki → si_index_of_spk (ki_inner (tr_index x)) sp = Some ki;
  al_indexed : ∀ o t u ki, get_tx (cg_graph (tr_cg x)) (op_txid o) = Some t → tx_out t !! N.to_nat (op_vout o) = Some u →
    si_index_of_spk (ki_inner (tr_index x0)) (txo_spk u) = Some ki → is_Some (si_txout (ki_inner (tr_index x)) o)
}.

Lemma wpos_confirmed v t h : pos_height (wpos v t) = Confirmed h → w_height v t = Some h.
Proof using Hwpos. rewrite Hwpos. unfold w_position. destruct (w_height v t); congruence. Qed.
Lemma alive_max w x : alive w x → below_max (cg_chain (tr_cg x)).
Proof using HF Hwpos.
  intros Ha. destruct (al_chain _ _ Ha) as (v & Hv & Hvt & Hb & Hp). destruct (co_ok _ _ HF v Hv) as (Hvo & _).
  pose proof (wo_tip v Hvo) as Hmax. split; [intros h [b [Hle _]%Hb]; lia|].
  intros t p h Hpos E. destruct (Hp t p h Hpos E) as [-> _]. apply wpos_confirmed, (wo_height v Hvo) in E. lia.
Qed.
Lemma alive_fit w x : alive w x → no_hidden_reorg wpos w x → fit_for w (wpos w) x.
Proof using HF Hwpos.
  intros Ha Hn. destruct (al_chain _ _ Ha) as (v & Hv & Hvt & Hb & Hp).
  split; [apply Ha|]. split; [by eapply alive_max|]. split; [|split; [split|by apply Ha, Ha]].
  - intros t p h Hpos E. by destruct (Hp t p h Hpos E) as [_ ?].
  - intros h [b [Hle _]%Hb]. lia.
  - intros a b y Hab Hbb Hy. apply Hb in Hbb as [Hle Hbb], Hy as [Hle' ->]. symmetry in Hbb.
    eapply (co_block _ _ HF v w a b); [done|apply Ha|done|done|lia|done].
  - intros t p h Hpos E Hall. destruct (Hn t p h Hpos E) as [->|(k & b & Hk & Hkb & Hne)]; [done|]. by apply Hall in Hkb.
Qed.

Lemma alive_new w : Fam w → alive w x0.
Proof using HA Hs Hq Hlim Ex0 OrdLaws0 H4.
  intros Hw. destruct (setup_twins A W s lim lim x0 x0 HA Hs Ex0 Ex0) as ((Hi & _ & _ & Hkn & Hb & _) & _).
  destruct (built_ok W _ Hb) as [Hok Hin].
  assert (tr_cg x0 = cg_set_checkpoint_limit cg_default lim) as Ecg.
  { unfold tr_setup in Ex0. destruct (ki_run s) as [[[i outs] acc]|]; [|done]. injection Ex0 as <-. done. }
  destruct (limit_fresh (P:=P) lim) as (Hc & Hp & Hl & Hg0). cbn zeta in Hc, Hp, Hl, Hg0. rewrite <- Ecg in Hc, Hp, Hl, Hg0.
  assert (∀ t, get_tx (cg_graph (tr_cg x0)) t = None) as Hg. { intros t. rewrite Hg0. unfold get_tx. cbn. by rewrite lookup_empty. }
  assert (∀ o, si_txout (ki_inner (tr_index x0)) o = None) as Ht.
  { intros o. destruct (si_txout (ki_inner (tr_index x0)) o) as [[ki u]|] eqn:E; [|done]. exfalso. pose proof Ex0 as E0.
    unfold tr_setup in E0. destruct (ki_run s) as [[[i outs] acc]|] eqn:Er; [|done]. injection E0 as <-. cbn [tr_index] in E.
    assert (∀ o' u', (o', u') ∈ hist_outs s → False) as Hno.
    { intros o' u' Hin'. unfold hist_outs in Hin'. apply elem_of_list_bind in Hin' as (op & Ho & Hop). rewrite Forall_forall in Hq.
      specialize (Hq op Hop). destruct op; cbn in Ho; try by apply elem_of_nil in Ho. by eapply Hq. }
    destruct ki as [k j]. destruct (hist_run' A s i outs acc HA Hs Er) as [hs Hhi]. pose proof Hhi as (I1 & _ & _ & _ & I5 & _).
    pose proof (si_good_inv hs _ (proj1 (proj2 (proj1 I1)))) as (_ & _ & J3 & _).
    assert (hit hs (k, j) o u) as (h1 & l & h2 & Eh & Hin' & _) by (by apply J3).
    apply (Hno o u). rewrite <- I5, Eh. unfold scans. apply elem_of_list_bind. exists (SiScan l). split; [done|]. apply elem_of_app. right. by left. }
  constructor; try done.
  - by rewrite Hl.
  - exists w. split; [done|]. split; [done|]. rewrite Hc, Hp. split; [intros h b|intros t p h]; by rewrite lookup_empty.
  - intros v _. split; [intros t a b; by rewrite Hg|intros o ki u t; by rewrite Ht].
  - intros o t u ki. by rewrite Hg.
Qed.
Lemma alive_world v w x : alive v x → Fam w → w_tip v ≤ w_tip w → alive w x.
Proof using.
  intros Ha Hw Ht. destruct (al_chain _ _ Ha) as (v' & Hv & Hvt & Hr). destruct Ha. constructor; try done. exists v'. split; [done|]. split; [lia|done].
Qed.
Lemma alive_index w x op x' l : alive w x → (∀ l, op ≠ KiScan l) → tr_op_ok A W s (TrIndex op : tr_op K P) → tr_step x (TrIndex op) = Ret (x', l) → alive w x'.
Proof using HA OrdLaws0.
  intros Ha Hop [Hrun Hok] E. destruct (al_index _ _ Ha) as [hs Hi].
  destruct (step_grows A s hs (tr_index x) op HA Hi (al_known _ _ Ha) Hok Hrun) as (i' & o & ad & hs' & Es & G & So). specialize (So Hop) as [So _].
  cbn [tr_step] in E. rewrite Es in E. injection E as <- <-. pose proof (proj1 (proj2 (proj1 G))) as Ek.
  destruct (kept_grows _ _ _ _ _ _ _ G) as [_ Hkept].
  assert (∀ o, si_txout (ki_inner i') o = si_txout (ki_inner (tr_index x)) o) as Ho. { intros o'. unfold si_txout. by rewrite So. }
  destruct Ha as [a1 a2 a3 a4 a5 a6 a7 a8 a9 a10]. constructor; cbn [tr_index tr_cg]; try done.
  - eexists. apply G.
  - intros k Hk. rewrite Ek. auto.
  - intros v Hv. destruct (a8 v Hv) as [b1 b2]. split; [done|]. cbn [tr_index]. intros o' ki u t. rewrite Ho. apply b2.
  - intros sp ki Hsp. apply a9 in Hsp. unfold si_index_of_spk in *.
    apply (si_good_inverse _ _ ki sp (proj1 (proj2 (proj1 (proj1 (proj1 G)))))). apply Hkept.
    by apply (si_good_inverse hs _ ki sp (proj1 (proj2 (proj1 Hi)))).
  - intros o' t u ki. rewrite Ho. apply a10.
Qed.
Lemma alive_tx w x ho t p x' l : alive w x → own_call Fam (TrTx (K:=K) ho t p) → tr_op_ok A W s (TrTx ho t p) →
  tr_step x (TrTx ho t p) = Ret (x', l) → alive w x' ∧
  (∀ t' q h, sc_pos (cg_chain (tr_cg x')) !! t' = Some q → pos_height q = Confirmed h → sc_pos (cg_chain (tr_cg x)) !! t' = Some q).
Proof using HA HF Hwpos OrdLaws0 H4.
  intros Ha [Hun Hag] (Hho & Htok & Hpos & HW) E. cbn [tr_step] in E.
  destruct (al_index _ _ Ha) as [hs Hi]. pose proof (al_cg _ _ Ha) as Hcg.
  destruct (al_chain _ _ Ha) as (v & Hv & Hvt & Hb & Hp). pose proof (alive_max _ _ Ha) as Hbm.
  pose proof (insert_conflicts (ho (cg_graph (tr_cg x))) (tr_cg x) t p Hcg (Hho _)) as Hc.
  unfold tr_insert_tx, tr_insert_tx_preview in E.
  destruct (insert_tx_preview (cg_chain (tr_cg x)) (txid t) p) as [[ccs|e]|] eqn:Ei; [| |done].
  2:{ rewrite Hc in E. injection E as <- <-. done. }
  cbn zeta in Hc. destruct Hc as [(e & Ec & _)|(cs & Ec & Hr)]; rewrite Ec in E; [by injection E as <- <-|].
  destruct Hr as (_ & Hgr & Hcp & Hev & Hke).
  assert (insert_tx (cg_chain (tr_cg x)) (txid t) p = Ret (Ok (apply_changeset (cg_chain (tr_cg x)) ccs, ccs))) as Einx.
  { unfold insert_tx. by rewrite Ei. }
  assert (tx_allowed (cg_chain (tr_cg x)) (txid t) p) as Hal.
  { split; [congruence|]. intros q Hqt Hne. destruct (decide (q = p)) as [|Hnq]; [done|]. exfalso.
    destruct (insert_tx_denied (cg_chain (tr_cg x)) (txid t) p (proj1 Hcg) Hbm) as [e He]; [|congruence].
    intros [_ Hal]. by apply Hal in Hqt. }
  destruct (insert_tx_allowed _ _ _ (proj1 Hcg) Hbm Hal) as (ccs' & Einx' & Hc0 & Hpos'). rewrite Einx in Einx'. injection Einx' as _ <-.
  assert (∀ t' q h, sc_pos (cg_chain (cg_apply_changeset (tr_cg x) cs)) !! t' = Some q → pos_height q = Confirmed h →
    sc_pos (cg_chain (tr_cg x)) !! t' = Some q) as Hconf.
  { intros t' q0 h Hq0 Hh0. revert Hq0. cbn [cg_apply_changeset cg_chain]. rewrite apply_changeset_pos.
    destruct (cs_txids (cgs_chain cs) !! t') as [q|] eqn:Eq; [|done]. intros ->.
    assert (¬ conflicting (tr_cg x) (mkCGS ccs (tg_insert_tx_preview (cg_graph (tr_cg x)) t)) t') as Hnc.
    { intros Hcf. apply Hev in Hcf. congruence. }
    apply Hke in Hnc. rewrite Hnc in Eq.
    assert (sc_pos (apply_changeset (cg_chain (tr_cg x)) ccs) !! t' = Some q0) as Hx by (by rewrite apply_changeset_pos, Eq).
    rewrite Hpos' in Hx. apply lookup_insert_Some in Hx as [[_ ?]|[_ ?]]; [congruence|done]. }
  assert (∀ h, raw_cps (cg_chain (tr_cg x)) (cgs_chain cs) !! h = sc_cps (cg_chain (tr_cg x)) !! h) as Eraw.
  { intros h. by rewrite raw_cps_lookup, Hcp, Hc0, lookup_empty. }
  assert (∀ h b, sc_cps (cg_chain (cg_apply_changeset (tr_cg x) cs)) !! h = Some b → sc_cps (cg_chain (tr_cg x)) !! h = Some b) as Ecps.
  { intros h b Hh%apply_changeset_cps_sub. by rewrite <- Eraw. }
  assert (confirmed_below_tip (cg_chain (cg_apply_changeset (tr_cg x) cs))) as Ecbt.
  { cbn [cg_apply_changeset cg_chain]. apply apply_cbt; [apply Ha|]. intros t' q h. cbn [sc_pos sc_cps]. intros Ht' Ep.
    destruct (Hp t' q h (Hconf t' q h Ht' Ep) Ep) as (_ & k & Hk & Hle). exists k. by rewrite Eraw. }
  fold (one_tx t) in Hgr. unfold tg_insert_tx_preview in Hgr. fold (one_tx t) in Hgr.
  destruct (apply_index A hs x ∅ cs HA Hi) as (x2 & hs2 & E2 & Ecg & Hi2 & Ek & I1 & I2 & I3 & _ & I5 & I6).
  { intros k j. by rewrite lookup_empty. }
  { intros o u Ho. rewrite Hgr in Ho. apply (additions_from _ _ _ _ (one_tx_keyed t)) in Ho as [Ho _].
    unfold get_txout in Ho. cbn in Ho. destruct ({[txid t := Whole t]} !! op_txid o) as [[t'|]|] eqn:El; [| |done].
    - apply lookup_singleton_Some in El as [Eid [= <-]]. destruct Htok as [T1 T2]. apply lookup_lt_Some in Ho. split; [by rewrite <- Eid|].
      rewrite <- (N2Nat.id (op_vout o)), <- (N2Nat.id u32_max). lia.
    - by apply lookup_singleton_Some in El as [_ ?]. }
  { intros o u u' Ho Ho'. rewrite Hgr in Ho, Ho'. apply (additions_from _ _ _ _ (one_tx_keyed t)) in Ho as [Ho _], Ho' as [Ho' _]. congruence. }
  assert (kcs_of_cg cs = mkKCS (new_indices x ∅) cs) as Ekc. { unfold kcs_of_cg, new_indices. by rewrite map_filter_empty. }
  rewrite Ekc, E2 in E. cbn [mbind outcome_bind] in E. injection E as <- <-. rewrite Ecg.
  assert (∀ i, get_tx (cg_graph (cg_apply_changeset (tr_cg x) cs)) i =
    match get_tx (cg_graph (tr_cg x)) i with Some a => Some a | None => get_tx (one_tx t) i end) as G.
  { intros i. cbn [cg_apply_changeset cg_graph]. rewrite Hgr.
    change (apply_additions (cg_graph (tr_cg x)) (determine_additions (cg_graph (tr_cg x)) (one_tx t)))
      with (tg_apply_update (cg_graph (tr_cg x)) (one_tx t)).1. apply update_get_tx, one_tx_keyed. }
  destruct (cg_step_ok W (tr_cg x) (CgTx ho t p) Hcg (al_inputs _ _ Ha)) as (cg1 & E1 & Hok1 & Hin1); [by destruct Htok|done|].
  cbn [cg_step] in E1. unfold cg_insert_tx in E1. rewrite Ec in E1. injection E1 as <-.
  split; [|done]. rewrite Hgr in I1, I2, I3, I6.
  destruct Ha as [a1 a2 a3 a4 a5 a6 a7 a8 a9 a10]. constructor; rewrite ?Ecg; try done.
  - by exists hs2.
  - intros k Hk. rewrite Ek. auto.
  - cbn [cg_apply_changeset cg_chain]. by rewrite apply_changeset_limit.
  - exists v. split; [done|]. split; [done|]. split; [intros h b Hh; by apply Hb, Ecps|].
    intros t' q h Hx Eh. split; [by eapply Hp; [eapply Hconf|]|]. by apply (Ecbt t' q).
  - intros v' Hv'. destruct (a8 v' Hv') as [b1 b2]. split.
    + intros i a b. rewrite Ecg, G. destruct (get_tx (cg_graph (tr_cg x)) i) as [a'|] eqn:Ea'.
      * intros [= <-]. by apply b1.
      * intros [-> ->]%one_tx_get Hb'. symmetry. by eapply Hag.
    + intros o [k j] u a [Ho|[Ho _]]%I3 Ha'; [by eapply b2|].
      apply (additions_from _ _ _ _ (one_tx_keyed t)) in Ho as [Ho _]. unfold get_txout in Ho. cbn in Ho.
      destruct ({[txid t := Whole t]} !! op_txid o) as [[t'|]|] eqn:El; [| |done].
      * apply lookup_singleton_Some in El as [Eid [= <-]]. rewrite <- Eid in Ha'. by rewrite (Hag v' a Hv' Ha').
      * by apply lookup_singleton_Some in El as [_ ?].
  - intros sp ki Hsp. by apply I5, a9.
  - intros o a u ki. rewrite G. destruct (get_tx (cg_graph (tr_cg x)) (op_txid o)) as [a'|] eqn:Ea'.
    + intros [= <-] Hu Hsp. rewrite I1; [by eapply a10|]. intros u' [_ Hn]%additions_from; [congruence|apply one_tx_keyed].
    + intros Ho Hu Hsp. erewrite (I6 o u); [done| |by apply a9]. eapply additions_full; [apply one_tx_keyed|done|done|done].
Qed.
Lemma alive_limit w x l : alive w x → l ≠ Some 0%nat → alive w (tr_set_checkpoint_limit x l).
Proof using HF H4.
  intros Ha Hl. destruct (al_chain _ _ Ha) as (v & Hv & Hvt & Hb & Hp). pose proof (al_cg _ _ Ha) as Hcg.
  destruct Ha as [a1 a2 a3 a4 a5 a6 a7 a8 a9 a10].
  constructor; cbn [tr_set_checkpoint_limit tr_cg tr_index cg_set_checkpoint_limit cg_chain cg_graph]; try done; unfold set_checkpoint_limit.
  - by apply limit_ok.
  - by rewrite prune_limit.
  - exists v. split; [done|]. split; [done|]. split; [intros h b Hh%prune_subset; by apply Hb|]. rewrite prune_pos. intros t p h Ht Eh.
    destruct (Hp t p h Ht Eh) as [Hh _]. split; [done|].
    refine (prune_cbt (mkChain (sc_cps (cg_chain (tr_cg x))) (sc_ordered (cg_chain (tr_cg x))) (sc_pos (cg_chain (tr_cg x))) l) Hl _ t p h _ Eh);
      [|by rewrite prune_pos]. intros t' p' h' Ht' E. by destruct (Hp t' p' h' Ht' E) as [_ ?].
Qed.
Lemma alive_scan w x F sc ho ord x' cs : alive w x → fit_seen w (wpos w) (in_chain (ks_update sc)) x → scan_ok w (wpos w) x F sc → hash_fun_ok ho →
  ord ≡ₚ map_to_list (sc_pos (cg_chain (ks_update sc))) → tr_apply_update (ho (cg_graph (tr_cg x))) x sc ord = Ret (Ok (x', cs)) →
  alive w x' ∧ ∀ t p h, sc_pos (cg_chain (tr_cg x')) !! t = Some p → pos_height p = Confirmed h → p = wpos w t.
Proof using HA HF Hwpos OrdLaws0 H4.
  intros Ha Hfit Hso Hho Hord Ea. destruct (co_ok _ _ HF w (al_fam _ _ Ha)) as (Hw & Hsane & Htx).
  destruct (al_index _ _ Ha) as [hs Hi]. pose proof (al_cg _ _ Ha) as Hcg. pose proof (al_inputs _ _ Ha) as Hin.
  destruct Hfit as (Hl1 & Hbm & Hcbt & Htrue & Hag).
  destruct (synced A HA W w (wpos w) Hw Hsane (Hwpos w) Htx x hs _ sc Hso Hi Hcg Hin Hbm Hcbt Htrue Hag ho ord Hho Hord)
    as (x2 & cs2 & hs' & E & E1 & Hok & Hi' & Hk & P1 & P2 & G & I1 & I2 & _ & I3 & I7 & I8). rewrite Ea in E. injection E as <- <-.
  assert (inputs_by_txid W (cg_graph (ks_update sc))) as Huin.
  { intros t a Hta. apply (ws_inputs W w Hsane). by apply (so_tx _ _ _ _ _ Hso). }
  destruct (synced_blocks W w (wpos w) Hw Hsane (Hwpos w) (tr_cg x) (ks_update sc) (tr_cg x') (kcs_cg cs) (ho (cg_graph (tr_cg x))) ord
    Hcg Hin Hbm Hcbt Htrue (so_ok _ _ _ _ _ Hso) Huin (so_con _ _ _ _ _ Hso) (so_pos _ _ _ _ _ Hso) (Hho _) Hord Hl1 E1) as (B0 & B1 & B2).
  split; [|done]. destruct Ha as [a1 a2 a3 a4 a5 a6 a7 a8 a9 a10]. constructor; try done.
  - by exists hs'.
  - intros k. rewrite Hk. apply a3.
  - intros t a. rewrite G. destruct (get_tx (cg_graph (tr_cg x)) t) as [b|] eqn:Eb.
    + intros [= <-]. by apply Hin.
    + intros Ht%(so_tx _ _ _ _ _ Hso). by apply (ws_inputs W w Hsane).
  - by rewrite B0.
  - exists w. split; [done|]. split; [done|]. split; [done|]. intros t p h Hp Eh. pose proof (P2 t p h Hp Eh) as ->. split; [done|]. exists (w_tip w).
    split; [by rewrite B2|]. by eapply (wo_height w Hw), wpos_confirmed.
  - intros v Hv. destruct (a8 v Hv) as [b1 b2]. split.
    + intros t a b. rewrite G. destruct (get_tx (cg_graph (tr_cg x)) t) as [a'|] eqn:Ea'.
      * intros [= <-]. by apply b1.
      * intros Ht%(so_tx _ _ _ _ _ Hso) Hb. by apply (co_tx _ _ HF w v t).
    + intros o [k j] u t [Ho|[Ho _]]%I2 Ht; [by eapply b2|].
      apply (update_txout w (wpos w) x _ sc Hso) in Ho as (t' & _ & Ht' & Hu). by rewrite <- (co_tx _ _ HF w v _ _ _ a1 Hv Ht' Ht).
  - intros sp ki Hi0. by apply I7, a9.
  - intros o t u ki Ht Hu Hi0. destruct (get_tx (cg_graph (tr_cg x)) (op_txid o)) as [a|] eqn:Ea'.
    + rewrite (I3 o a Ea'). rewrite G, Ea' in Ht. injection Ht as ->. by eapply a10.
    + by erewrite (I8 o t u ki Ea' Ht Hu (a9 _ _ Hi0)).
Qed.

(** Blocks commit to their transactions: what is hidden of a reorganisation is elsewhere only if no later block of the wallet's is the world's. *)
Lemma alive_fit_seen w x (found : Txid → Prop) : blocks_commit wpos Fam → alive w x → seen_again wpos w found x → fit_seen w (wpos w) found x.
Proof using HF Hwpos.
  intros Hcom Ha Hn. destruct (al_chain _ _ Ha) as (v & Hv & Hvt & Hb & Hp).
  split; [apply Ha|]. split; [by eapply alive_max|]. split; [|split; [split|by apply Ha, Ha]].
  - intros t p h Hpos E. by destruct (Hp t p h Hpos E) as [_ ?].
  - intros h [b [Hle _]%Hb]. lia.
  - intros a b y Hab Hbb Hy. apply Hb in Hbb as [Hle Hbb], Hy as [Hle' ->]. symmetry in Hbb.
    eapply (co_block _ _ HF v w a b); [done|apply Ha|done|done|lia|done].
  - intros t p h Hpos E Hall. destruct (decide (p = wpos w t)) as [|Hne]; [by left|right].
    destruct (Hn t p h Hpos E) as [->|[(k & b & Hk & Hkb & Hd)|Hf]]; [done|by apply Hall in Hkb|]. split; [done|].
    intros k b Hk Hkb ->. apply Hb in Hkb as [Hle Hkb]. destruct (Hp t p h Hpos E) as [-> _]. apply Hne. symmetry.
    apply (Hcom v w t h Hv (al_fam _ _ Ha)); [by apply wpos_confirmed|lia|].
    apply (co_block _ _ HF v w h k Hv (al_fam _ _ Ha)); [done|done|lia|done].
Qed.

Section any.
Context (Cd : World → Tracker K P → Prop) (Sy : World → Tracker K P → Tracker K P → Prop).
Context (HSy : ∀ w x x', alive w x → Cd w x → Sy w x x' →
  ∃ F sc ho ord cs, fit_seen w (wpos w) (in_chain (ks_update sc)) x ∧ scan_ok w (wpos w) x F sc ∧ hash_fun_ok ho ∧
    ord ≡ₚ map_to_list (sc_pos (cg_chain (ks_update sc))) ∧ tr_apply_update (ho (cg_graph (tr_cg x))) x sc ord = Ret (Ok (x', cs))).
Lemma alive_syncs w x x' : alive w x → Cd w x → Sy w x x' →
  alive w x' ∧ ∀ t p h, sc_pos (cg_chain (tr_cg x')) !! t = Some p → pos_height p = Confirmed h → p = wpos w t.
Proof using HA HF Hwpos HSy OrdLaws0 H4.
  intros Ha Hn Hsy. destruct (HSy w x x' Ha Hn Hsy) as (F & sc & ho & ord & cs & Hfit & Hso & Hho & Hord & E).
  by eapply alive_scan.
Qed.
Lemma lives_alive w x : life A W Fam higher Cd Sy s lim w x → alive w x.
Proof using All.
  induction 1 as [w x Hw Ex|v w x _ IH Hw Hvw|w x op x' l _ IH Hop Hok E|w x x' _ IH Hn Hsy].
  - rewrite Ex0 in Ex. injection Ex as <-. by apply alive_new.
  - by eapply alive_world.
  - destruct op as [op|ho sc ord|ho t p|b|lim']; try done.
    + by eapply alive_index.
    + by eapply alive_tx.
    + injection E as <- <-. by apply alive_limit.
  - by eapply alive_syncs.
Qed.
End any.

Context (Sy : World → Tracker K P → Tracker K P → Prop).
Context (HSy : ∀ w x x', Fam w → cg_ok (tr_cg x) → inputs_by_txid W (cg_graph (tr_cg x)) → fit_for w (wpos w) x → Sy w x x' →
  ∃ F sc ho ord cs, scan_ok w (wpos w) x F sc ∧ hash_fun_ok ho ∧ ord ≡ₚ map_to_list (sc_pos (cg_chain (ks_update sc))) ∧
    tr_apply_update (ho (cg_graph (tr_cg x))) x sc ord = Ret (Ok (x', cs))).
Lemma plain_sync w x x' : alive w x → no_hidden_reorg wpos w x → Sy w x x' →
  ∃ F sc ho ord cs, fit_seen w (wpos w) (in_chain (ks_update sc)) x ∧ scan_ok w (wpos w) x F sc ∧ hash_fun_ok ho ∧
    ord ≡ₚ map_to_list (sc_pos (cg_chain (ks_update sc))) ∧ tr_apply_update (ho (cg_graph (tr_cg x))) x sc ord = Ret (Ok (x', cs)).
Proof using HF Hwpos HSy.
  intros Ha Hn Hsy. pose proof (alive_fit w x Ha Hn) as Hfit.
  destruct (HSy w x x' (al_fam _ _ Ha) (al_cg _ _ Ha) (al_inputs _ _ Ha) Hfit Hsy) as (F & sc & ho & ord & cs & Hr).
  exists F, sc, ho, ord, cs. split; [by apply fit_for_seen|done].
Qed.
Lemma alive_sync w x x' : alive w x → no_hidden_reorg wpos w x → Sy w x x' →
  alive w x' ∧ ∀ t p h, sc_pos (cg_chain (tr_cg x')) !! t = Some p → pos_height p = Confirmed h → p = wpos w t.
Proof using HA HF Hwpos HSy OrdLaws0 H4. apply (alive_syncs _ Sy plain_sync). Qed.
Lemma life_alive w x : life A W Fam higher (no_hidden_reorg wpos) Sy s lim w x → alive w x.
Proof using All. apply (lives_alive _ Sy plain_sync). Qed.
(** Where the world only grows, no reorganisation is hidden. *)
Lemma growing_life w x : life A W Fam (extends wpos) (λ _ _, True) Sy s lim w x →
  life A W Fam higher (no_hidden_reorg wpos) Sy s lim w x ∧ ∀ t p h, sc_pos (cg_chain (tr_cg x)) !! t = Some p → pos_height p = Confirmed h → p = wpos w t.
Proof using All.
  induction 1 as [w x Hw Ex|v w x _ [IH IH2] Hw Hvw|w x op x' l _ [IH IH2] Hop Hok E|w x x' _ [IH IH2] _ Hsy].
  - split; [by constructor|]. unfold tr_setup in Ex. destruct (ki_run s) as [[[i outs] acc]|]; [|done]. injection Ex as <-.
    intros t p h. destruct (limit_fresh (P:=P) lim) as (_ & Hp & _). cbn zeta in Hp. cbn [tr_cg]. by rewrite Hp, lookup_empty.
  - split; [eapply life_world; [done|done|apply Hvw]|]. intros t p h Hp Eh. pose proof (IH2 t p h Hp Eh) as ->.
    symmetry. eapply Hvw. by apply wpos_confirmed.
  - split; [by eapply life_call|]. pose proof (life_alive w x IH) as Ha. destruct op as [op|ho sc ord|ho t p|b|lim']; try done.
    + cbn [tr_step] in E. destruct (ki_step _ _) as [[[i o] ad]|]; [|done]. by injection E as <- <-.
    + destruct (alive_tx w x ho t p x' l Ha Hop Hok E) as [_ Hc]. intros t' q h Hp Eh. eapply IH2; [by eapply Hc|done].
    + injection E as <- <-. intros t p h. cbn [tr_set_checkpoint_limit tr_cg cg_set_checkpoint_limit cg_chain]. unfold set_checkpoint_limit. rewrite prune_pos. apply IH2.
  - pose proof (life_alive w x IH) as Ha. assert (no_hidden_reorg wpos w x) as Hn by (intros t p h Hp Eh; left; by eapply IH2).
    split; [by eapply life_sync|]. by eapply alive_sync.
Qed.
(** What the next scan can rely on. *)
Lemma alive_seen w x (F : K → N → Prop) : alive w x →
  (∀ k i u, F k i → paid (tr_index x) k i u → is_Some (si_index_of_spk (ki_inner (tr_index x0)) (txo_spk u))) → none_overlooked w F x.
Proof using.
  intros Ha Hwin o t u k i Ht Hu HFk Hp [[a Hx] Hno]. destruct (Hwin k i u HFk Hp) as [ki Hki].
  destruct (al_agrees _ _ Ha w (al_fam _ _ Ha)) as [Hag _]. rewrite (Hag _ _ _ Hx Ht) in Hx.
  destruct (al_indexed _ _ Ha o t u ki Hx Hu Hki) as [y Hy]. congruence.
Qed.
Lemma life_ready w x (F : K → N → Prop) : life A W Fam higher (no_hidden_reorg wpos) Sy s lim w x → no_hidden_reorg wpos w x →
  (∀ k i u, F k i → paid (tr_index x) k i u → is_Some (si_index_of_spk (ki_inner (tr_index x0)) (txo_spk u))) →
  (world_ok w ∧ world_sane W w ∧ ∀ t a, w_tx w t = Some a → tx_ok a) ∧ (∃ hs, ki_inv A hs (tr_index x)) ∧ cg_ok (tr_cg x) ∧ inputs_by_txid W (cg_graph (tr_cg x)) ∧
  fit_for w (wpos w) x ∧ none_overlooked w F x.
Proof using All.
  intros Hl Hn Hwin. pose proof (life_alive w x Hl) as Ha. split; [apply (co_ok _ _ HF), Ha|]. split; [apply Ha|]. split; [apply Ha|]. split; [apply Ha|].
  split; [by apply alive_fit|by eapply alive_seen].
Qed.
End life.

(** The two servers. *)
Section servers.
Context `{!DescEnv} `{Countable K, !Ord K, !OrdLaws K}.
Context (A : K → option Desc) (HA : good_env A) (W : Txid → list OutPoint) (Fam : World → Prop) (HF : coherent W Fam).
Context (s : list (ki_op K)) (Hs : ki_hist_ok A s) (Hq : Forall (λ op, ∀ l, op ≠ KiScan l) s).
Context (lim : option nat) (Hlim : lim ≠ Some 0%nat).

Lemma electrum_sync_scan w (x x' : Tracker K TxHeight) : Fam w → cg_ok (tr_cg x) → inputs_by_txid W (cg_graph (tr_cg x)) →
  fit_for w (w_position w) x → electrum_syncs w x x' →
  ∃ F sc ho ord cs, scan_ok w (w_position w) x F sc ∧ hash_fun_ok ho ∧ ord ≡ₚ map_to_list (sc_pos (cg_chain (ks_update sc))) ∧
    tr_apply_update (ho (cg_graph (tr_cg x))) x sc ord = Ret (Ok (x', cs)).
Proof using HF OrdLaws0.
  intros Hw Hcg Hin Hfit (gap & kspks & Hsp & Hsy). destruct (co_ok _ _ HF w Hw) as (Hwo & Hsane & _).
  destruct (sync_scan W w Hwo Hsane gap kspks x x' Hcg Hin Hfit Hsp Hsy) as (sc & ho & ord & cs & Hr). by exists (within w gap kspks), sc, ho, ord, cs.
Qed.
Lemma esplora_sync_scan time w (x x' : Tracker K ConfirmationTime) : (∀ w h, time w h ≤ u64_max) → Fam w →
  fit_for w (w_time_position w (time w)) x → esplora_syncs time w x x' →
  ∃ F sc ho ord cs, scan_ok w (w_time_position w (time w)) x F sc ∧ hash_fun_ok ho ∧ ord ≡ₚ map_to_list (sc_pos (cg_chain (ks_update sc))) ∧
    tr_apply_update (ho (cg_graph (tr_cg x))) x sc ord = Ret (Ok (x', cs)).
Proof using HF OrdLaws0.
  intros Htime Hw (_ & _ & _ & Htrue & _) (srv & ho & fuel & kspks & txids & ops & gap & par & n & n' & sc & ho' & ord & cs & Hsrv & Hho & Hsp & Hpage & Es & Hho' & Hord & E).
  destruct (co_ok _ _ HF w Hw) as (Hwo & Hsane & _).
  destruct (ps_scan_true W w (time w) Hwo Hsane (Htime w) ho Hho srv Hsrv fuel (sc_cps (cg_chain (tr_cg x))) kspks txids ops gap par) with (n:=n)
    as (n2 & sc2 & Es2 & Hc & _); [apply Htrue|exact Hpage|]. rewrite Es in Es2. injection Es2 as <- <-.
  destruct (complete_ok w (time w) Hwo x _ _ _ _ _ _ Hsp Hc) as (Hso & _). eexists _, sc, ho', ord, cs. done.
Qed.

Lemma life_scans (x0 : Tracker K TxHeight) w x srv dbg fuel kspks txids outpoints (gap : N) batch :
  tr_setup s lim = Ret x0 → life A W Fam higher (no_hidden_reorg w_position) electrum_syncs s lim w x → no_hidden_reorg w_position w x →
  (∀ n, electrum_honest w (srv n)) → scripts_of (tr_index x) kspks →
  (∀ k i u, within w gap kspks k i → paid (tr_index x) k i u → is_Some (si_index_of_spk (ki_inner (tr_index x0)) (txo_spk u))) →
  (0 < batch)%nat → Forall (λ t, t ≤ max_txid) txids → Forall (λ o, is_Some (w_tx w (op_txid o))) outpoints →
  none_overlooked w (within w gap kspks) x ∧
  ends (scan dbg srv (S fuel) (sc_cps (cg_chain (tr_cg x))) kspks txids outpoints gap batch)
    (λ e, ∀ new_txs ho1 ho ord,
      Forall (λ t, w_tx w (txid t) = Some t) new_txs →
      (∀ i, i ∈ missing_full_txs e (cg_graph (tr_cg x)) → ∃ t, t ∈ new_txs ∧ txid t = i) →
      hash_order (inflate_graph (tr_cg x) (eu_chain e) new_txs) ho1 → hash_fun_ok ho →
      ord ≡ₚ map_to_list (sc_pos (eu_chain e)) →
      ∃ sc x' cs, into_keychain_scan ho1 e new_txs (tr_cg x) = Ret (Ok sc) ∧
        tr_apply_update (ho (cg_graph (tr_cg x))) x sc ord = Ret (Ok (x', cs)) ∧ caught_up w (w_position w) x x' (within w gap kspks)).
Proof using All.
  intros Ex0 Hl Hn Hsrv Hsp Hwin Hb Htxids Hops.
  destruct (life_ready A HA W Fam HF s Hs Hq lim Hlim x0 Ex0 w_position ltac:(done) electrum_syncs electrum_sync_scan w x _ Hl Hn Hwin)
    as ((Hw & Hsane & Htx) & (hs & Hi) & Hcg & Hin & Hfit & Hno).
  split; [done|]. apply (electrum_rescans A HA W w Hw Hsane Htx srv Hsrv dbg fuel hs); try done. by apply fit_for_seen.
Qed.
(** Synchronisations that find what a hidden reorganisation has moved. *)
Lemma seen_sync_scan (x0 : Tracker K TxHeight) w (x x' : Tracker K TxHeight) : blocks_commit w_position Fam →
  alive A W Fam s x0 w_position w x → True → electrum_seen w x x' →
  ∃ F sc ho ord cs, fit_seen w (w_position w) (in_chain (ks_update sc)) x ∧ scan_ok w (w_position w) x F sc ∧ hash_fun_ok ho ∧
    ord ≡ₚ map_to_list (sc_pos (cg_chain (ks_update sc))) ∧ tr_apply_update (ho (cg_graph (tr_cg x))) x sc ord = Ret (Ok (x', cs)).
Proof using HF OrdLaws0.
  intros Hcom Ha _ (gap & kspks & txids & ops & Hsp & Hseen & Hsy). destruct (co_ok _ _ HF w (al_fam _ _ _ _ _ _ _ _ Ha)) as (Hwo & Hsane & _).
  pose proof (alive_fit_seen A W Fam HF s x0 w_position ltac:(done) w x _ Hcom Ha Hseen) as Hfit.
  destruct (asked_scan W w Hwo Hsane gap kspks txids ops x x' (al_cg _ _ _ _ _ _ _ _ Ha) (al_inputs _ _ _ _ _ _ _ _ Ha) Hfit Hsp Hsy) as (sc & ho & ord & cs & Hr).
  by exists (within w gap kspks), sc, ho, ord, cs.
Qed.
Lemma life_seen (x0 : Tracker K TxHeight) w x srv dbg fuel kspks txids outpoints (gap : N) batch :
  blocks_commit w_position Fam →
  tr_setup s lim = Ret x0 → life A W Fam higher (λ _ _, True) electrum_seen s lim w x → seen_again w_position w (sought w kspks txids outpoints gap) x →
  (∀ n, electrum_honest w (srv n)) → scripts_of (tr_index x) kspks →
  (∀ k i u, within w gap kspks k i → paid (tr_index x) k i u → is_Some (si_index_of_spk (ki_inner (tr_index x0)) (txo_spk u))) →
  (0 < batch)%nat → Forall (λ t, t ≤ max_txid) txids → Forall (λ o, is_Some (w_tx w (op_txid o))) outpoints →
  none_overlooked w (within w gap kspks) x ∧
  ends (scan dbg srv (S fuel) (sc_cps (cg_chain (tr_cg x))) kspks txids outpoints gap batch)
    (λ e, ∀ new_txs ho1 ho ord,
      Forall (λ t, w_tx w (txid t) = Some t) new_txs →
      (∀ i, i ∈ missing_full_txs e (cg_graph (tr_cg x)) → ∃ t, t ∈ new_txs ∧ txid t = i) →
      hash_order (inflate_graph (tr_cg x) (eu_chain e) new_txs) ho1 → hash_fun_ok ho →
      ord ≡ₚ map_to_list (sc_pos (eu_chain e)) →
      ∃ sc x' cs, into_keychain_scan ho1 e new_txs (tr_cg x) = Ret (Ok sc) ∧
        tr_apply_update (ho (cg_graph (tr_cg x))) x sc ord = Ret (Ok (x', cs)) ∧ caught_up w (w_position w) x x' (within w gap kspks)).
Proof using All.
  intros Hcom Ex0 Hl Hn Hsrv Hsp Hwin Hb Htxids Hops.
  pose proof (lives_alive A HA W Fam HF s Hs Hq lim Hlim x0 Ex0 w_position ltac:(done) (λ _ _, True) electrum_seen (λ w x x', seen_sync_scan x0 w x x' Hcom) w x Hl) as Ha.
  destruct (co_ok _ _ HF w (al_fam _ _ _ _ _ _ _ _ Ha)) as (Hw & Hsane & Htx). destruct (al_index _ _ _ _ _ _ _ _ Ha) as [hs Hi].
  split; [by eapply alive_seen|].
  apply (electrum_rescans A HA W w Hw Hsane Htx srv Hsrv dbg fuel hs); try done; [apply Ha|apply Ha|].
  by eapply (alive_fit_seen A W Fam HF s x0 w_position ltac:(done)).
Qed.
Lemma life_scans_growing (x0 : Tracker K TxHeight) w x : tr_setup s lim = Ret x0 →
  life A W Fam (extends w_position) (λ _ _, True) electrum_syncs s lim w x →
  life A W Fam higher (no_hidden_reorg w_position) electrum_syncs s lim w x ∧ no_hidden_reorg w_position w x.
Proof using All.
  intros Ex0 Hl. destruct (growing_life A HA W Fam HF s Hs Hq lim Hlim x0 Ex0 w_position ltac:(done) electrum_syncs electrum_sync_scan w x Hl) as [Hl' Hc].
  split; [done|]. intros t p h Hp Eh. left. by eapply Hc.
Qed.

Context (time : World → N → N) (Htime : ∀ w h, time w h ≤ u64_max).
Notation tpos := (λ w, w_time_position w (time w)).
Lemma life_esplora (x0 : Tracker K ConfirmationTime) w x srv ho fuel kspks txids outpoints (gap : N) (par : nat) :
  tr_setup s lim = Ret x0 → life A W Fam higher (no_hidden_reorg tpos) (esplora_syncs time) s lim w x → no_hidden_reorg tpos w x →
  (∀ n, esplora_honest w (time w) (srv n)) → hash_fun_ok ho → scripts_of (tr_index x) kspks →
  (∀ k l i sp, kspks !! k = Some l → (i, sp) ∈ l → (length (w_mempool w sp) ≤ 50)%nat ∧ (length (w_confirmed w sp) < 25 * S fuel)%nat) →
  (∀ k i u, stop_reach w gap (Nat.max par 1) kspks k i → paid (tr_index x) k i u → is_Some (si_index_of_spk (ki_inner (tr_index x0)) (txo_spk u))) →
  none_overlooked w (stop_reach w gap (Nat.max par 1) kspks) x ∧
  ends (ps_scan srv ho (S fuel) (sc_cps (cg_chain (tr_cg x))) kspks txids outpoints gap par)
    (λ sc, ∃ F : K → N → Prop, (∀ k i, stop_within w gap kspks k i → F k i) ∧ (∀ k i, F k i → stop_reach w gap (Nat.max par 1) kspks k i) ∧
      ∀ ho' ord, hash_fun_ok ho' → ord ≡ₚ map_to_list (sc_pos (cg_chain (ks_update sc))) →
      ∃ x' cs, tr_apply_update (ho' (cg_graph (tr_cg x))) x sc ord = Ret (Ok (x', cs)) ∧ caught_up w (tpos w) x x' F).
Proof using All.
  intros Ex0 Hl Hn Hsrv Hho Hsp Hpage Hwin.
  destruct (life_ready A HA W Fam HF s Hs Hq lim Hlim x0 Ex0 tpos (λ w, time_height w (time w)) (esplora_syncs time) (λ w x x' Hw _ _, esplora_sync_scan time w x x' Htime Hw) w x _ Hl Hn Hwin)
    as ((Hw & Hsane & Htx) & (hs & Hi) & Hcg & Hin & Hfit & Hno).
  split; [done|]. apply (esplora_rescans A HA W w (time w) Hw Hsane Htx (Htime w) ho Hho srv Hsrv fuel hs); try done. by apply fit_for_seen.
Qed.
Lemma esplora_seen_scan (x0 : Tracker K ConfirmationTime) w (x x' : Tracker K ConfirmationTime) : blocks_commit tpos Fam →
  alive A W Fam s x0 tpos w x → True → esplora_seen time w x x' →
  ∃ F sc ho ord cs, fit_seen w (tpos w) (in_chain (ks_update sc)) x ∧ scan_ok w (tpos w) x F sc ∧ hash_fun_ok ho ∧
    ord ≡ₚ map_to_list (sc_pos (cg_chain (ks_update sc))) ∧ tr_apply_update (ho (cg_graph (tr_cg x))) x sc ord = Ret (Ok (x', cs)).
Proof using HF OrdLaws0 Htime.
  intros Hcom Ha _ (srv & ho & fuel & kspks & txids & ops & gap & par & n & n' & sc & ho' & ord & cs & Hseen & Hsrv & Hho & Hsp & Hpage & Es & Hho' & Hord & E).
  destruct (co_ok _ _ HF w (al_fam _ _ _ _ _ _ _ _ Ha)) as (Hwo & Hsane & _).
  pose proof (alive_fit_seen A W Fam HF s x0 tpos (λ w, time_height w (time w)) w x _ Hcom Ha Hseen) as Hfit. pose proof Hfit as (_ & _ & _ & Htrue & _).
  destruct (ps_scan_true W w (time w) Hwo Hsane (Htime w) ho Hho srv Hsrv fuel (sc_cps (cg_chain (tr_cg x))) kspks txids ops gap par) with (n:=n)
    as (n2 & sc2 & Es2 & Hc & _); [apply Htrue|exact Hpage|]. rewrite Es in Es2. injection Es2 as <- <-.
  destruct (complete_ok w (time w) Hwo x _ _ _ _ _ _ Hsp Hc) as (Hso & _). eexists _, sc, ho', ord, cs. split; [|done].
  eapply fit_seen_mono; [|exact Hfit]. intros t. by eapply stop_found.
Qed.
Lemma life_esplora_seen (x0 : Tracker K ConfirmationTime) w x srv ho fuel kspks txids outpoints (gap : N) (par : nat) :
  blocks_commit tpos Fam →
  tr_setup s lim = Ret x0 → life A W Fam higher (λ _ _, True) (esplora_seen time) s lim w x → seen_again tpos w (stop_sought w kspks txids outpoints gap) x →
  (∀ n, esplora_honest w (time w) (srv n)) → hash_fun_ok ho → scripts_of (tr_index x) kspks →
  (∀ k l i sp, kspks !! k = Some l → (i, sp) ∈ l → (length (w_mempool w sp) ≤ 50)%nat ∧ (length (w_confirmed w sp) < 25 * S fuel)%nat) →
  (∀ k i u, stop_reach w gap (Nat.max par 1) kspks k i → paid (tr_index x) k i u → is_Some (si_index_of_spk (ki_inner (tr_index x0)) (txo_spk u))) →
  none_overlooked w (stop_reach w gap (Nat.max par 1) kspks) x ∧
  ends (ps_scan srv ho (S fuel) (sc_cps (cg_chain (tr_cg x))) kspks txids outpoints gap par)
    (λ sc, ∃ F : K → N → Prop, (∀ k i, stop_within w gap kspks k i → F k i) ∧ (∀ k i, F k i → stop_reach w gap (Nat.max par 1) kspks k i) ∧
      ∀ ho' ord, hash_fun_ok ho' → ord ≡ₚ map_to_list (sc_pos (cg_chain (ks_update sc))) →
      ∃ x' cs, tr_apply_update (ho' (cg_graph (tr_cg x))) x sc ord = Ret (Ok (x', cs)) ∧ caught_up w (tpos w) x x' F).
Proof using All.
  intros Hcom Ex0 Hl Hn Hsrv Hho Hsp Hpage Hwin.
  pose proof (lives_alive A HA W Fam HF s Hs Hq lim Hlim x0 Ex0 tpos (λ w, time_height w (time w)) (λ _ _, True) (esplora_seen time) (λ w x x', esplora_seen_scan x0 w x x' Hcom) w x Hl) as Ha.
  destruct (co_ok _ _ HF w (al_fam _ _ _ _ _ _ _ _ Ha)) as (Hw & Hsane & Htx). destruct (al_index _ _ _ _ _ _ _ _ Ha) as [hs Hi].
  split; [by eapply alive_seen|].
  apply (esplora_rescans A HA W w (time w) Hw Hsane Htx (Htime w) ho Hho srv Hsrv fuel hs); try done; [apply Ha|apply Ha|].
  by eapply (alive_fit_seen A W Fam HF s x0 tpos (λ w, time_height w (time w))).
Qed.
Lemma life_esplora_growing (x0 : Tracker K ConfirmationTime) w x : tr_setup s lim = Ret x0 →
  life A W Fam (extends tpos) (λ _ _, True) (esplora_syncs time) s lim w x →
  life A W Fam higher (no_hidden_reorg tpos) (esplora_syncs time) s lim w x ∧ no_hidden_reorg tpos w x.
Proof using All.
  intros Ex0 Hl. destruct (growing_life A HA W Fam HF s Hs Hq lim Hlim x0 Ex0 tpos (λ w, time_height w (time w)) (esplora_syncs time) (λ w x x' Hw _ _, esplora_sync_scan time w x x' Htime Hw) w x Hl) as [Hl' Hc].
  split; [done|]. intros t p h Hp Eh. left. by eapply Hc.
Qed.
End servers.
