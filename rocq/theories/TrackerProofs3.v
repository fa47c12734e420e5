(** Proofs about the tracker: histories do not panic, keep the invariants, and are restored by
    applying their changesets (C43). *)
From Verif Require Export TrackerProofs2.

Section replay.
Context `{!DescEnv} `{Countable K, !Ord K, !OrdLaws K} `{ChainPositionLaws P}.
Implicit Types (x y : Tracker K P) (cs : KChangeSet K P) (k : K) (op : tr_op K P) (h : list (tr_op K P)) (s : list (ki_op K)).
Implicit Types (hs : list (si_op (K * N))) (c : SparseChain P) (g u : TxGraph).

(** ** Outputs of additions *)
Lemma additions_in_range g u : keyed u → graph_in_range u →
  ∀ o v, (o, v) ∈ ad_txouts (determine_additions g u) → op_ok o.
Proof.
  intros Hk Hr o v. unfold ad_txouts. rewrite elem_of_app, elem_of_list_bind. intros [(t & Hin & Ht)|Hin].
  - apply elem_of_list_fmap in Hin as ([j v'] & [= -> ->] & Hin). apply elem_of_enum_outs in Hin.
    apply elem_of_bset_list, determine_tx in Ht as (i & Hi & _). pose proof (Hk _ _ Hi) as <-.
    apply (Hr _ v'). apply all_txouts_exact. unfold get_txout. cbn [op_txid op_vout]. by rewrite Hi.
  - apply elem_of_bmap_list in Hin. rewrite determine_txout in Hin.
    destruct (get_tx g (op_txid o)); [done|]. destruct (tg_txs u !! op_txid o) as [[t|outs]|] eqn:Eu; try done.
    destruct (outs !! op_vout o) as [w|] eqn:Eo; [|done]. apply (Hr o w). apply all_txouts_exact. unfold get_txout. by rewrite Eu.
Qed.
Lemma one_tx_in_range t : tx_ok t → graph_in_range (one_tx t).
Proof.
  intros [Hi Hl] o v Ho. apply all_txouts_exact in Ho. unfold get_txout, one_tx in Ho. cbn [tg_txs] in Ho.
  destruct (decide (op_txid o = txid t)) as [E|Hne].
  - rewrite E, lookup_singleton in Ho. apply lookup_lt_Some in Ho. split; [by rewrite E|]. rewrite <- (N2Nat.id (op_vout o)), <- (N2Nat.id u32_max). lia.
  - by rewrite lookup_singleton_ne in Ho.
Qed.

(** ** Chains that differ in checkpoints *)
Lemma apply_txids_eq c c' (a : ChangeSet P) : sc_pos c = sc_pos c' → sc_ordered c = sc_ordered c' →
  sc_pos (apply_changeset c a) = sc_pos (apply_changeset c' a) ∧ sc_ordered (apply_changeset c a) = sc_ordered (apply_changeset c' a).
Proof. intros E1 E2. unfold apply_changeset. rewrite !prune_pos, !prune_ordered. cbn. by rewrite E1, E2. Qed.
Lemma apply_cps_eq c (a b : ChangeSet P) : cs_cps a = cs_cps b → sc_cps (apply_changeset c a) = sc_cps (apply_changeset c b).
Proof. intros E. apply map_eq. intros i. unfold apply_changeset. rewrite !prune_cps. cbn [sc_cps sc_limit]. by rewrite E. Qed.
Lemma evict_cbt c (a b : ChangeSet P) :
  cs_cps b = cs_cps a → (∀ i, cs_txids b !! i = Some None ∨ cs_txids b !! i = cs_txids a !! i) →
  confirmed_below_tip (apply_changeset c a) → confirmed_below_tip (apply_changeset c b).
Proof.
  intros Ec Hi Hc t p h Hp Hh. rewrite (apply_cps_eq c b a Ec). apply (Hc t p h); [|done].
  rewrite apply_changeset_pos in *. destruct (Hi t) as [E|E]; rewrite E in Hp; [done|]. done.
Qed.

(** ** One call *)
(** [x] ran the history and [y] applied the changesets. *)
Definition twins A W s x y : Prop :=
  (∃ hs, ki_inv A hs (tr_index x)) ∧ (∃ hs, ki_inv A hs (tr_index y)) ∧ sim (tr_index x) (tr_index y) ∧
  (∀ k, known s k → is_Some (ki_keychains (tr_index x) !! k)) ∧
  built W (tr_cg x) ∧ cg_graph (tr_cg x) = cg_graph (tr_cg y) ∧
  sc_pos (cg_chain (tr_cg x)) = sc_pos (cg_chain (tr_cg y)) ∧ sc_ordered (cg_chain (tr_cg x)) = sc_ordered (cg_chain (tr_cg y)).

(** What is revealed and stored stays so. *)
Definition kept (i j : KIndex K) : Prop := (∀ k, n_revealed i k ≤ n_revealed j k) ∧ spks_sub i j.
Lemma kept_refl i : kept i i.
Proof. split; [done|by intros ki s]. Qed.
Lemma kept_trans i j l : kept i j → kept j l → kept i l.
Proof. intros [A1 A2] [B1 B2]. split; [|intros ki s Hs; by apply B2, A2]. intros k. specialize (A1 k). specialize (B1 k). lia. Qed.
Lemma kept_grows A i hs j hs' ad l : grows A i hs j hs' ad l → kept i j.
Proof. intros ((_ & _ & Hr & _ & Hs & _) & _). split; [|done]. intros k. by eapply n_revealed_mono. Qed.

Lemma twins_apply A W s x y cs :
  good_env A → twins A W s x y → built W (cg_apply_changeset (tr_cg x) (kcs_cg cs)) →
  (∀ k t, kcs_indices cs !! k = Some t → known s k ∧ t ≤ bip32_max) →
  (∀ o v, (o, v) ∈ ad_txouts (cgs_graph (kcs_cg cs)) → op_ok o) →
  ∃ x' y', tr_apply_changeset x cs = Ret x' ∧ tr_apply_changeset y cs = Ret y' ∧ twins A W s x' y' ∧
    tr_cg x' = cg_apply_changeset (tr_cg x) (kcs_cg cs) ∧ tr_cg y' = cg_apply_changeset (tr_cg y) (kcs_cg cs) ∧
    (outs_eq (tr_index x) (tr_index y) → outs_eq (tr_index x') (tr_index y')) ∧ kept (tr_index x) (tr_index x').
Proof.
  intros HA ((hs1 & I1) & (hs2 & I2) & Hs & Hkn & Hb & Eg & Ep & Eo) Hb' Hm Ho.
  destruct (sim_apply A hs1 hs2 _ _ (kcs_indices cs) HA I1 I2 Hs) as (x1 & y1 & h1 & h2 & a1 & a2 & E1 & E2 & Hs1 & G1 & G2 & O1 & O2).
  { intros k t Hk. destruct (Hm k t Hk). auto. }
  destruct (sim_scan A (ad_txouts (cgs_graph (kcs_cg cs))) _ _ x1 y1 ∅ ∅ HA (proj1 (proj1 G1)) (proj1 (proj1 G2)) Hs1)
    as (x2 & y2 & h1' & h2' & b1 & b2 & F1 & F2 & Hs2 & G1' & G2' & Hoe).
  { intros o v Hin. by eapply Ho. }
  exists (mkTr x2 (cg_apply_changeset (tr_cg x) (kcs_cg cs))), (mkTr y2 (cg_apply_changeset (tr_cg y) (kcs_cg cs))).
  split; [|split; [|split; [|split; [done|split; [done|split]]]]].
  - unfold tr_apply_changeset. rewrite E1. cbn [mbind outcome_bind]. unfold ki_scan. by rewrite F1.
  - unfold tr_apply_changeset. rewrite E2. cbn [mbind outcome_bind]. unfold ki_scan. by rewrite F2.
  - unfold twins. cbn [tr_index tr_cg]. split; [eexists; apply G1'|]. split; [eexists; apply G2'|]. split; [done|]. split.
    { intros k Hk. rewrite (proj1 (proj2 (proj1 G1'))), (proj1 (proj2 (proj1 G1))). auto. }
    split; [done|]. cbn [cg_apply_changeset cg_graph cg_chain]. split; [by rewrite Eg|]. by apply apply_txids_eq.
  - intros [O3 O4]. cbn [tr_index]. apply Hoe. destruct O1, O2. split; congruence.
  - cbn [tr_index]. eapply kept_trans; by eapply kept_grows.
Qed.

(** The tracker's chain graph moves as a chain graph alone. *)
Definition to_cg op : option (cg_op P) :=
  match op with
  | TrIndex _ => None
  | TrUpdate ho sc ord => Some (CgUpdate ho (ks_update sc) ord)
  | TrTx ho t p => Some (CgTx ho t p)
  | TrCheckpoint b => Some (CgCheckpoint b)
  | TrLimit l => Some (CgLimit l)
  end.
Definition chain_twins x y x' y' : Prop :=
  cg_chain (tr_cg x) = cg_chain (tr_cg y) → within_limit (cg_chain (tr_cg x)) →
  cg_chain (tr_cg x') = cg_chain (tr_cg y') ∧ within_limit (cg_chain (tr_cg x')).
Lemma chain_twins_apply x y x' y' cs :
  tr_cg x' = cg_apply_changeset (tr_cg x) (kcs_cg cs) → tr_cg y' = cg_apply_changeset (tr_cg y) (kcs_cg cs) →
  chain_twins x y x' y'.
Proof.
  intros Ex Ey Ec Hw. rewrite Ex, Ey. cbn [cg_apply_changeset cg_chain]. rewrite <- Ec. split; [done|].
  intros n. rewrite apply_changeset_limit. apply apply_changeset_size.
Qed.

Lemma twins_step A W s x y op :
  good_env A → twins A W s x y → tr_op_ok A W s op →
  ∃ x' l y', tr_step x op = Ret (x', l) ∧ tr_replay y l = Ret y' ∧ twins A W s x' y' ∧
    (¬ offers_outputs op → outs_eq (tr_index x) (tr_index y) → outs_eq (tr_index x') (tr_index y')) ∧
    (¬ sets_limit op → chain_twins x y x' y') ∧ kept (tr_index x) (tr_index x').
Proof.
  intros HA Ht Hop. pose proof Ht as ((hs1 & I1) & (hs2 & I2) & Hs & Hkn & Hb & Eg & Ep & Eo).
  destruct op as [op|ho sc ord|ho t p|b|l]; cbn [tr_step tr_op_ok] in *.
  - destruct Hop as [Hrun Hop].
    destruct (sim_step A s hs1 hs2 _ _ op HA I1 I2 Hs Hkn Hop Hrun) as (x1 & o & ad & y1 & h1 & h2 & ad2 & E1 & E2 & Hs1 & G1 & G2 & Ho1).
    rewrite E1. eexists _, _, (mkTr y1 (cg_apply_changeset (tr_cg y) cgs_default)). split; [done|]. split.
    { cbn [tr_replay]. unfold tr_apply_changeset. cbn [kcs_of_indices kcs_indices kcs_cg]. by rewrite E2. }
    split; [|split; [|split]].
    + unfold twins. cbn [tr_index tr_cg]. split; [eexists; apply G1|]. split; [eexists; apply G2|]. split; [done|].
      split. { intros k Hk. rewrite (proj1 (proj2 (proj1 G1))). auto. }
      split; [done|]. cbn [cg_apply_changeset cg_graph cg_chain cgs_default cgs_chain cgs_graph]. rewrite apply_additions_default.
      split; [done|]. rewrite apply_default_chain, prune_pos, prune_ordered. done.
    + intros Hno. apply Ho1. intros l ->. apply Hno. by eexists.
    + intros _ Ec Hw. cbn [tr_cg cg_apply_changeset cg_chain cgs_default cgs_chain]. split; [|done].
      rewrite apply_default_chain, <- Ec. by rewrite prune_within.
    + cbn [tr_index]. by eapply kept_grows.
  - destruct Hop as (Hho & Hord & Hu & Hr & Hact).
    destruct (built_no_panic W (tr_cg x) (CgUpdate ho (ks_update sc) ord) Hb) as (cg' & E & Hb').
    { by split. }
    { intros ? ? ? [= <- <- <-]. done. }
    cbn [cg_step] in E. unfold cg_apply_update in E. unfold tr_apply_update, tr_determine_changeset.
    destruct (cg_determine_changeset (ho (cg_graph (tr_cg x))) (tr_cg x) (ks_update sc) ord) as [[cs|e]|] eqn:Ed; [| |done].
    + injection E as <-. set (kcs := mkKCS (new_indices x (ks_active sc)) cs).
      destruct (twins_apply A W s x y kcs HA Ht Hb') as (x' & y' & E1 & E2 & Ht' & Ex & Ey & Hoe & Hk').
      { intros k t Hk. unfold kcs, new_indices in Hk. cbn [kcs_indices] in Hk. apply map_filter_lookup_Some in Hk as [Hk _]. by apply Hact. }
      { cbn [kcs kcs_cg]. destruct (built_ok W _ Hb) as [Hok _], (built_ok W _ Hu) as [Huk _].
        pose proof (update_conflicts (ho (cg_graph (tr_cg x))) (tr_cg x) (ks_update sc) ord Hok Huk (Hho _) Hord) as Hc.
        destruct (determine_changeset _ _ _) as [[ccs|e]|]; [|congruence|done].
        destruct Hc as [(e & Hc & _)|(cs' & Hc & Hres)]; [congruence|]. rewrite Ed in Hc. injection Hc as <-.
        destruct Hres as (_ & -> & _). apply additions_in_range; [apply Huk|done]. }
      fold kcs. rewrite E1. cbn [mbind outcome_bind]. exists x', [kcs], y'. split; [done|]. split; [cbn [tr_replay]; by rewrite E2|].
      split; [done|]. split; [auto|]. split; [|done]. intros _. by eapply chain_twins_apply.
    + exists x, [], y. split; [done|]. split; [done|]. split; [done|]. split; [done|]. split; [done|]. apply kept_refl.
  - destruct Hop as (Hho & Htx & Hp & HW).
    destruct (built_no_panic W (tr_cg x) (CgTx ho t p) Hb) as (cg' & E & Hb').
    { split; [done|]. split; [apply Htx|]. done. }
    { done. }
    cbn [cg_step] in E. unfold cg_insert_tx in E. unfold tr_insert_tx, tr_insert_tx_preview.
    destruct (cg_insert_tx_preview (ho (cg_graph (tr_cg x))) (tr_cg x) t p) as [[cs|e]|] eqn:Ed; [| |done].
    + injection E as <-.
      destruct (twins_apply A W s x y (kcs_of_cg cs) HA Ht Hb') as (x' & y' & E1 & E2 & Ht' & Ex & Ey & Hoe & Hk').
      { intros k t0 Hk. cbn in Hk. by rewrite lookup_empty in Hk. }
      { cbn [kcs_of_cg kcs_cg]. destruct (built_ok W _ Hb) as [Hok _].
        pose proof (insert_conflicts (ho (cg_graph (tr_cg x))) (tr_cg x) t p Hok (Hho _)) as Hc.
        destruct (insert_tx_preview _ _ _) as [[ccs|e]|]; [|congruence|done].
        destruct Hc as [(e & Hc & _)|(cs' & Hc & Hres)]; [congruence|]. rewrite Ed in Hc. injection Hc as <-.
        destruct Hres as (_ & -> & _). apply (additions_in_range _ (one_tx t)); [apply one_tx_keyed|by apply one_tx_in_range]. }
      rewrite E1. cbn [mbind outcome_bind]. exists x', [kcs_of_cg cs], y'. split; [done|]. split; [cbn [tr_replay]; by rewrite E2|].
      split; [done|]. split; [auto|]. split; [|done]. intros _. by eapply chain_twins_apply.
    + exists x, [], y. split; [done|]. split; [done|]. split; [done|]. split; [done|]. split; [done|]. apply kept_refl.
  - destruct (built_no_panic W (tr_cg x) (CgCheckpoint b) Hb) as (cg' & E & Hb'); [done|done|].
    cbn [cg_step] in E. unfold cg_insert_checkpoint in E. unfold tr_insert_checkpoint, tr_insert_checkpoint_preview.
    destruct (cg_insert_checkpoint_preview (tr_cg x) b) as [[cs|e]|] eqn:Ed; [| |done].
    + injection E as <-.
      destruct (twins_apply A W s x y (kcs_of_cg cs) HA Ht Hb') as (x' & y' & E1 & E2 & Ht' & Ex & Ey & Hoe & Hk').
      { intros k t0 Hk. cbn in Hk. by rewrite lookup_empty in Hk. }
      { unfold cg_insert_checkpoint_preview in Ed. destruct (insert_checkpoint_preview _ _) as [[ccs|e]|]; try done.
        injection Ed as <-. cbn. intros o v Hin. by apply elem_of_nil in Hin. }
      rewrite E1. cbn [mbind outcome_bind]. exists x', [kcs_of_cg cs], y'. split; [done|]. split; [cbn [tr_replay]; by rewrite E2|].
      split; [done|]. split; [auto|]. split; [|done]. intros _. by eapply chain_twins_apply.
    + exists x, [], y. split; [done|]. split; [done|]. split; [done|]. split; [done|]. split; [done|]. apply kept_refl.
  - exists (tr_set_checkpoint_limit x l), [], y. split; [done|]. split; [done|]. split; [|split; [|split]].
    + unfold twins. cbn [tr_set_checkpoint_limit tr_index tr_cg cg_set_checkpoint_limit cg_graph cg_chain]. split; [eauto|]. split; [eauto|]. split; [done|]. split; [done|].
      split. { eapply (built_step W (tr_cg x) (CgLimit l)); [done|done|done|done]. }
      unfold set_checkpoint_limit. rewrite prune_pos, prune_ordered. done.
    + done.
    + intros Hn. destruct Hn. by eexists.
    + apply kept_refl.
Qed.
Lemma tr_replay_app y l1 l2 : tr_replay y (l1 ++ l2) = match tr_replay y l1 with Panic => Panic | Ret y1 => tr_replay y1 l2 end.
Proof. revert y. induction l1 as [|cs l1 IH]; intros y; cbn [app tr_replay]; [done|]. destruct (tr_apply_changeset y cs); [apply IH|done]. Qed.
Lemma twins_run A W s h : ∀ x y,
  good_env A → twins A W s x y → Forall (tr_op_ok A W s) h →
  ∃ x' l y', tr_run x h = Ret (x', l) ∧ tr_replay y l = Ret y' ∧ twins A W s x' y' ∧
    (Forall (λ op, ¬ offers_outputs op) h → outs_eq (tr_index x) (tr_index y) → outs_eq (tr_index x') (tr_index y')) ∧
    (Forall (λ op, ¬ sets_limit op) h → chain_twins x y x' y') ∧ kept (tr_index x) (tr_index x').
Proof.
  induction h as [|op h IH]; intros x y HA Ht Hh.
  - exists x, [], y. split; [done|]. split; [done|]. split; [done|]. split; [done|]. split; [done|]. apply kept_refl.
  - apply Forall_cons in Hh as [Hop Hh].
    destruct (twins_step A W s x y op HA Ht Hop) as (x1 & l1 & y1 & E1 & F1 & Ht1 & O1 & C1 & K1).
    destruct (IH x1 y1 HA Ht1 Hh) as (x2 & l2 & y2 & E2 & F2 & Ht2 & O2 & C2 & K2).
    exists x2, (l1 ++ l2), y2. cbn [tr_run]. rewrite E1, E2, tr_replay_app, F1. repeat (split; [done|]). split; [|split; [|by eapply kept_trans]].
    + intros HF He. apply Forall_cons in HF as [Ho HF]. auto.
    + intros HF Ec Hw. apply Forall_cons in HF as [Ho HF]. destruct (C1 Ho Ec Hw). by apply C2.
Qed.

(** ** Set-up *)
Lemma setup_twins A W s l l' x y :
  good_env A → ki_hist_ok A s → tr_setup s l = Ret x → tr_setup s l' = Ret y →
  twins A W s x y ∧ outs_eq (tr_index x) (tr_index y) ∧ (l = l' → x = y) ∧ within_limit (cg_chain (tr_cg x)).
Proof.
  intros HA Hs Ex Ey. unfold tr_setup in *. destruct (ki_run s) as [[[i outs] acc]|] eqn:E; [|done]. injection Ex as <-. injection Ey as <-.
  destruct (hist_run' A s i outs acc HA Hs E) as [hs Hi]. pose proof Hi as (I1 & _). split; [|split; [done|split; [by intros ->|]]].
  - unfold twins. cbn [tr_index tr_cg cg_set_checkpoint_limit cg_graph cg_chain]. split; [eauto|]. split; [eauto|]. split; [done|].
    split. { intros k Hk. by apply (known_keychain A s hs i outs acc k Hi). }
    split. { eapply (built_step W cg_default (CgLimit l)); [apply built_default|done|done|done]. }
    unfold set_checkpoint_limit. by rewrite !prune_pos, !prune_ordered.
  - cbn [tr_cg cg_set_checkpoint_limit cg_chain]. intros n. unfold set_checkpoint_limit. rewrite prune_limit. apply prune_size.
Qed.
Lemma setup_total A s l : good_env A → ki_hist_ok A s → ∃ x : Tracker K P, tr_setup s l = Ret x.
Proof. intros HA Hs. destruct (ki_no_panic A s HA Hs) as [[[i outs] acc] E]. unfold tr_setup. rewrite E. eauto. Qed.

Lemma twins_same A W s x y : twins A W s x y → same_index (tr_index x) (tr_index y) ∧ same_txs (tr_cg x) (tr_cg y).
Proof.
  intros ((hs1 & I1) & (hs2 & I2) & Hs & Hkn & Hb & Eg & Ep & Eo). pose proof (sim_indices A hs1 hs2 _ _ I1 I2 Hs) as Hix.
  destruct Hs as (S1 & S2 & S3 & S4). split.
  - unfold same_index, last_revealed_index, lookahead_of, si_spk_at, si_index_of_spk. rewrite S1, S2, S3, S4, Hix. done.
  - split; [done|]. rewrite Ep, Eo. done.
Qed.

Lemma replay_ok A W s l l' h x0 y0 :
  good_env A → ki_hist_ok A s → tr_setup s l = Ret x0 → tr_setup s l' = Ret y0 → Forall (tr_op_ok A W s) h →
  ∃ x l1 y, tr_run x0 h = Ret (x, l1) ∧ tr_replay y0 l1 = Ret y ∧
    same_index (tr_index x) (tr_index y) ∧ same_txs (tr_cg x) (tr_cg y) ∧
    (Forall (λ op, ¬ offers_outputs op) h → same_outputs (tr_index x) (tr_index y)) ∧
    (l = l' → Forall (λ op, ¬ sets_limit op) h → tr_cg x = tr_cg y).
Proof.
  intros HA Hs Ex Ey Hh. destruct (setup_twins A W s l l' x0 y0 HA Hs Ex Ey) as (Ht & Ho & Eq & Hw).
  destruct (twins_run A W s h x0 y0 HA Ht Hh) as (x & l1 & y & E1 & E2 & Ht' & Ho' & Hc' & _). exists x, l1, y.
  destruct (twins_same A W s x y Ht') as [H1' H2']. split; [done|]. split; [done|]. split; [done|]. split; [done|]. split.
  - intros HF. destruct (Ho' HF Ho) as [Eo _]. intros o. unfold si_txout. by rewrite Eo.
  - intros El HF. destruct (Hc' HF) as [Ec _]; [by rewrite (Eq El)|done|].
    destruct Ht' as (_ & _ & _ & _ & _ & Eg & _). destruct (tr_cg x), (tr_cg y). cbn in *. congruence.
Qed.
(** What the client sees of outputs and funds. *)
Lemma same_view ho x y : same_outputs (tr_index x) (tr_index y) → tr_cg x = tr_cg y →
  full_txouts ho x = full_txouts ho y ∧ full_utxos ho x = full_utxos ho y ∧
  (∀ trust, balance ho x trust = balance ho y trust) ∧ ∀ n, balance_at ho x n = balance_at ho y n.
Proof.
  intros Ho Ec. assert (full_txouts ho x = full_txouts ho y) as E.
  { unfold full_txouts, si_txouts_list. assert (si_txouts (ki_inner (tr_index x)) = si_txouts (ki_inner (tr_index y))) as ->.
    { apply map_eq. exact Ho. } by rewrite Ec. }
  assert (full_utxos ho x = full_utxos ho y) as E2 by (unfold full_utxos; by rewrite E).
  split; [done|]. split; [done|]. split; [intros trust; unfold balance; by rewrite E2, Ec|intros n; unfold balance_at; by rewrite E].
Qed.

(** ** Invariants of a run *)
Lemma twins_refl A W s hs x :
  ki_inv A hs (tr_index x) → (∀ k, known s k → is_Some (ki_keychains (tr_index x) !! k)) → built W (tr_cg x) → twins A W s x x.
Proof. intros. unfold twins. split; [eauto|]. split; [eauto|]. done. Qed.
Lemma run_reachable A W s l h x0 x l1 :
  good_env A → ki_hist_ok A s → tr_setup s l = Ret x0 → Forall (tr_op_ok A W s) h → tr_run x0 h = Ret (x, l1) →
  cg_ok (tr_cg x) ∧ ∃ hs, ki_inv A hs (tr_index x).
Proof.
  intros HA Hs Ex Hh E. destruct (setup_twins A W s l l x0 x0 HA Hs Ex Ex) as (Ht & _).
  destruct (twins_run A W s h x0 x0 HA Ht Hh) as (x' & cs' & y & E1 & _ & Ht' & _). rewrite E in E1. injection E1 as <- <-.
  destruct Ht' as (Hi & _ & _ & _ & Hb & _). split; [by apply (built_ok W)|done].
Qed.
Definition cbt x : Prop := confirmed_below_tip (cg_chain (tr_cg x)) ∧ sc_limit (cg_chain (tr_cg x)) ≠ Some 0%nat.
Lemma resolved_cbt (cg : ChainGraph P) ccs ad (cs : CgChangeSet P) : resolved cg ccs ad cs →
  confirmed_below_tip (apply_changeset (cg_chain cg) ccs) → confirmed_below_tip (apply_changeset (cg_chain cg) (cgs_chain cs)).
Proof.
  intros Hres. pose proof Hres as (_ & _ & Ec & R1 & R2). apply evict_cbt; [done|]. intros i.
  (* a conflict is decided by the changeset itself *)
  destruct (decide (cs_txids (cgs_chain cs) !! i = cs_txids ccs !! i)) as [E|Hne]; [by right|]. left.
  destruct (cs_txids (cgs_chain cs) !! i) as [[q|]|] eqn:Ei.
  - exfalso. apply Hne. rewrite <- (R2 i); [done|]. intros Hcf. apply R1 in Hcf. congruence.
  - done.
  - exfalso. apply Hne. rewrite <- (R2 i); [done|]. intros Hcf. apply R1 in Hcf. congruence.
Qed.
Lemma apply_tr_cg x cs x' : tr_apply_changeset x cs = Ret x' → tr_cg x' = cg_apply_changeset (tr_cg x) (kcs_cg cs).
Proof.
  unfold tr_apply_changeset. destruct (ki_apply_additions _ _); [|done]. cbn [mbind outcome_bind].
  destruct (ki_scan _ _); [|done]. cbn [mbind outcome_bind]. by intros [= <-].
Qed.
Lemma step_tr_cbt A W s x op x' l :
  cg_ok (tr_cg x) → tr_op_ok A W s op → tr_cbt_op op → cbt x → tr_step x op = Ret (x', l) → cbt x'.
Proof.
  intros Hok Hop Hcb [Hc Hl] E. pose proof Hok as (Hck & _). destruct op as [op|ho sc ord|ho t p|b|lm]; cbn [tr_step tr_op_ok tr_cbt_op] in *.
  - destruct (ki_step _ op) as [[[i o] ad]|]; [|done]. injection E as <- _. done.
  - destruct Hop as (Hho & Hord & Hu & _). destruct (built_ok W _ Hu) as [Huk _].
    pose proof (update_conflicts (ho (cg_graph (tr_cg x))) (tr_cg x) (ks_update sc) ord Hok Huk (Hho _) Hord) as Hcf.
    unfold tr_apply_update, tr_determine_changeset in E.
    destruct (determine_changeset _ _ _) as [[ccs|e]|] eqn:Ed; [| |done].
    + destruct Hcf as [(e & Hcf & _)|(cs' & Hcf & Hres)]; rewrite Hcf in E.
      * injection E as <- _. done.
      * destruct (tr_apply_changeset _ _) as [x1|] eqn:Ea; [|done]. cbn [mbind outcome_bind] in E. injection E as <- _.
        apply apply_tr_cg in Ea. cbn [kcs_cg] in Ea. unfold cbt. rewrite Ea. cbn [cg_apply_changeset cg_chain].
        rewrite apply_changeset_limit. split; [|done]. eapply resolved_cbt; [exact Hres|].
        eapply (update_cbt (cg_chain (tr_cg x)) (cg_chain (ks_update sc)) ord _ ccs); try done.
        unfold apply_update. by rewrite Ed.
    + rewrite Hcf in E. injection E as <- _. done.
  - destruct Hop as (Hho & Htx & Hp & _).
    pose proof (insert_conflicts (ho (cg_graph (tr_cg x))) (tr_cg x) t p Hok (Hho _)) as Hcf.
    unfold tr_insert_tx, tr_insert_tx_preview in E.
    destruct (insert_tx_preview _ _ _) as [[ccs|e]|] eqn:Ed; [| |done].
    + destruct Hcf as [(e & Hcf & _)|(cs' & Hcf & Hres)]; rewrite Hcf in E.
      * injection E as <- _. done.
      * destruct (tr_apply_changeset _ _) as [x1|] eqn:Ea; [|done]. cbn [mbind outcome_bind] in E. injection E as <- _.
        apply apply_tr_cg in Ea. cbn [kcs_of_cg kcs_cg] in Ea. unfold cbt. rewrite Ea. cbn [cg_apply_changeset cg_chain].
        rewrite apply_changeset_limit. split; [|done]. eapply resolved_cbt; [exact Hres|].
        eapply (step_cbt (cg_chain (tr_cg x)) (OpInsertTx (txid t) p)); try done.
        { split; [apply Htx|done]. }
        cbn [sc_step]. unfold insert_tx. rewrite Ed. done.
    + rewrite Hcf in E. injection E as <- _. done.
  - unfold tr_insert_checkpoint, tr_insert_checkpoint_preview, cg_insert_checkpoint_preview in E.
    destruct (insert_checkpoint_preview _ _) as [[ccs|e]|] eqn:Ed; [| |done].
    + destruct (tr_apply_changeset _ _) as [x1|] eqn:Ea; [|done]. cbn [mbind outcome_bind] in E. injection E as <- _.
      apply apply_tr_cg in Ea. cbn [kcs_of_cg kcs_cg] in Ea. unfold cbt. rewrite Ea. cbn [cg_apply_changeset cg_chain cgs_chain].
      eapply (step_cbt (cg_chain (tr_cg x)) (OpInsertCheckpoint b)); try done.
      cbn [sc_step]. unfold insert_checkpoint. by rewrite Ed.
    + injection E as <- _. done.
  - injection E as <- _. eapply (step_cbt (cg_chain (tr_cg x)) (OpLimit lm)); try done.
Qed.
Lemma run_tr_cbt A W s h : ∀ x x' l1,
  good_env A → twins A W s x x → Forall (tr_op_ok A W s) h → Forall tr_cbt_op h → cbt x → tr_run x h = Ret (x', l1) → cbt x'.
Proof.
  induction h as [|op h IH]; intros x x' l0 HA Ht Hh Hcb Hc E; cbn [tr_run] in E.
  - by injection E as <- _.
  - apply Forall_cons in Hh as [Hop Hh]. apply Forall_cons in Hcb as [Hco Hcb].
    destruct (twins_step A W s x x op HA Ht Hop) as (x1 & l1 & y1 & E1 & F1 & Ht1 & _). rewrite E1 in E.
    destruct (tr_run x1 h) as [[x2 l2]|] eqn:E2; [|done]. injection E as <- <-.
    destruct Ht1 as ((hs & I1) & _ & _ & Hkn & Hb & _). eapply (IH x1); try done; [by eapply twins_refl|].
    eapply (step_tr_cbt A W s x op x1 l1); try done. destruct Ht as (_ & _ & _ & _ & Hbx & _). by apply (built_ok W).
Qed.
Lemma run_below_tip A W s l h x0 x l1 :
  good_env A → ki_hist_ok A s → tr_setup s l = Ret x0 → Forall (tr_op_ok A W s) h → Forall tr_cbt_op h → l ≠ Some 0%nat →
  tr_run x0 h = Ret (x, l1) → confirmed_below_tip (cg_chain (tr_cg x)).
Proof.
  intros HA Hs Ex Hh Hcb Hl E. destruct (setup_twins A W s l l x0 x0 HA Hs Ex Ex) as (Ht & _).
  eapply (run_tr_cbt A W s h x0 x l1); try done.
  unfold tr_setup in Ex. destruct (ki_run s) as [[[i outs] acc]|]; [|done]. injection Ex as <-. split.
  - cbn [tr_cg cg_set_checkpoint_limit cg_chain]. unfold set_checkpoint_limit. intros t p n. rewrite prune_pos. cbn. by rewrite lookup_empty.
  - cbn [tr_cg cg_set_checkpoint_limit cg_chain]. unfold set_checkpoint_limit. by rewrite prune_limit.
Qed.
Lemma new_indices_ok ho (x : Tracker K P) sc ord cs k i : tr_determine_changeset ho x sc ord = Ret (Ok cs) →
  kcs_indices cs !! k = Some i ↔ ks_active sc !! k = Some i ∧ n_revealed (tr_index x) k ≤ i.
Proof.
  unfold tr_determine_changeset. destruct (cg_determine_changeset _ _ _ _) as [[c|]|]; try done. intros [= <-].
  cbn [kcs_indices]. unfold new_indices, last_revealed_index, n_revealed. rewrite map_filter_lookup_Some. cbn [fst snd].
  destruct (ki_revealed (tr_index x) !! k) as [v|]; [rewrite N.ltb_lt|]; split; intros [? ?]; split; try done; lia.
Qed.
End replay.
