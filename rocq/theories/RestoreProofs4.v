(** Esplora scans for wallets, new and old (C90, C91). *)
From Verif Require Export RestoreProofs3 EsploraProofs4.

Lemma last_kept {A} (Q : N * A → Prop) `{∀ e, Decision (Q e)} (l : list (N * A)) (n : nat) :
  (∀ p j s, l !! p = Some (j, s) → j = N.of_nat p) →
  (∀ i s, (i, s) ∈ filter Q (take n l) → ∃ j s', last (filter Q (take n l)) = Some (j, s') ∧ i ≤ j) ∧
  (∀ j s, last (filter Q (take n l)) = Some (j, s) → l !! N.to_nat j = Some (j, s) ∧ j < N.of_nat n).
Proof.
  intros Hl. induction n as [|n [IH1 IH2]].
  { split; [by intros i s ?%elem_of_nil|done]. }
  destruct (l !! n) as [[jn sn]|] eqn:En.
  - rewrite (take_S_r l n (jn, sn) En), filter_app. pose proof (Hl n jn sn En) as ->.
    destruct (decide (Q (N.of_nat n, sn))) as [HQ|HQ].
    + rewrite (filter_cons_True _ _ _ HQ), filter_nil. split.
      * intros i s Hi. exists (N.of_nat n), sn. split; [apply last_snoc|]. apply elem_of_app in Hi as [Hi|Hi%elem_of_list_singleton].
        -- apply IH1 in Hi as (j & s' & Hj & Hle). apply IH2 in Hj as [_ Hj]. lia.
        -- by injection Hi as -> ->.
      * intros j s. rewrite last_snoc. intros [= <- <-]. rewrite Nat2N.id. split; [done|lia].
    + rewrite (filter_cons_False _ _ _ HQ), filter_nil, app_nil_r. split; [done|]. intros j s [Hj Hlt]%IH2. split; [done|lia].
  - apply lookup_ge_None in En. rewrite !take_ge in * by lia. split; [done|]. intros j s [Hj Hlt]%IH2. split; [done|lia].
Qed.

Section esplora.
Context `{!DescEnv} `{Countable K, !Ord K, !OrdLaws K}.
Context (A : K → option Desc) (HA : good_env A).
Context (W : Txid → list OutPoint) (w : World) (time : N → N) (Hw : world_ok w) (Hsane : world_sane W w).
Context (Htx : ∀ t a, w_tx w t = Some a → tx_ok a).
Notation wpos := (w_time_position w time).
Lemma time_height t : pos_height (wpos t) = w_position w t.
Proof using. unfold w_time_position, w_position. by destruct (w_height w t). Qed.

(** The scripts an esplora scan has found. *)
Definition reached (kspks : gmap K (list (N * Script))) (active : gmap K N) k (i : N) : Prop :=
  ∃ l p s j, kspks !! k = Some l ∧ l !! p = Some (i, s) ∧ w_history w s ≠ [] ∧ active !! k = Some j ∧ i ≤ j.
Lemma activity_at l p i s : l !! p = Some (i, s) → activity w l !! p = Some true ↔ w_history w s ≠ [].
Proof using.
  intros Hp. unfold activity. rewrite list_lookup_fmap, Hp. cbn. destruct (bool_decide _) eqn:E; cbn.
  - apply bool_decide_eq_true in E. split; [done|]. by intros [].
  - apply bool_decide_eq_false in E. done.
Qed.
Lemma complete_ok (x : Tracker K ConfirmationTime) kspks txids outpoints (gap : N) (par : nat) sc :
  scripts_of (tr_index x) kspks →
  esplora_complete w time (sc_cps (cg_chain (tr_cg x))) kspks txids outpoints gap par sc →
  scan_ok w wpos x (reached kspks (ks_active sc)) sc ∧
  (∀ k i, stop_within w gap kspks k i → reached kspks (ks_active sc) k i) ∧
  (∀ k i, reached kspks (ks_active sc) k i → stop_reach w gap par kspks k i).
Proof using Hw.
  intros Hsp He.
  assert (∀ k l j, kspks !! k = Some l → ks_active sc !! k = Some j → ∃ n s, scanned_first w gap par l n (ks_active sc !! k) ∧
    (∀ i sp t, (i, sp) ∈ take n l → t ∈ w_history w sp → in_chain (ks_update sc) t) ∧ l !! N.to_nat j = Some (j, s) ∧ j < N.of_nat n) as Hact.
  { intros k l j Hk Hj. destruct (pc_scripts _ _ _ _ _ _ _ _ _ He k l Hk) as (n & Hn & Hall).
    pose proof (sn_active _ _ _ _ _ _ Hn) as Ha. rewrite Hj in Ha. symmetry in Ha. apply fmap_Some in Ha as ([j' s] & Hlast & ->). cbn.
    destruct (last_kept (λ e, w_history w e.2 ≠ []) l n) as [_ L2]; [intros p j s2; by eapply scripts_index|].
    apply L2 in Hlast as [L3 L4]. by exists n, s. }
  split_and!.
  - constructor.
    + apply He.
    + apply He.
    + intros t p Hp. split; [by apply (pc_true _ _ _ _ _ _ _ _ _ He)|]. apply (pc_only _ _ _ _ _ _ _ _ _ He). by exists p.
    + apply He.
    + apply He.
    + intros k i u t (l & p & s & j & Hk & Hp & _ & Hj & Hle) Hpd Ht.
      destruct (Hact k l j Hk Hj) as (n & s' & _ & Hall & Hlj & Hlt).
      pose proof (scripts_paid _ _ _ _ _ _ _ _ Hsp Hk Hp Hpd) as ->. eapply Hall; [|done].
      pose proof (scripts_index _ _ _ _ _ _ _ Hsp Hk Hp) as ->. apply (elem_of_list_lookup_2 _ p). rewrite lookup_take by lia. done.
    + intros k i (l & p & s & j & _ & _ & _ & Hj & Hle). by exists j.
    + intros k i j u Hj Hle Hpd Hh. destruct (pc_keychains _ _ _ _ _ _ _ _ _ He k j Hj) as [l Hk].
      destruct (Hact k l j Hk Hj) as (n & s' & _ & _ & Hlj & _).
      destruct (l !! N.to_nat i) as [[i2 s2]|] eqn:Ei.
      2:{ apply lookup_ge_None in Ei. apply lookup_lt_Some in Hlj. lia. }
      pose proof (scripts_index _ _ _ _ _ _ _ Hsp Hk Ei) as Hi2. rewrite N2Nat.id in Hi2. subst i2.
      exists l, (N.to_nat i), s2, j. split_and!; try done. by rewrite (scripts_paid _ _ _ _ _ _ _ _ Hsp Hk Ei Hpd).
    + intros k j Hj. destruct (pc_keychains _ _ _ _ _ _ _ _ _ He k j Hj) as [l Hk].
      destruct (Hact k l j Hk Hj) as (n & s' & _ & _ & Hlj & _).
      destruct (Hsp k l Hk) as (d & Hd & Hl). destruct (Hl _ _ _ Hlj) as (_ & Hjc & _). split; [by exists d|].
      pose proof (cap_bound d). apply N.le_trans with 1073741824; [lia|done].
  - intros k i (l & p & s & Hk & Hp & Hg). destruct (pc_scripts _ _ _ _ _ _ _ _ _ He k l Hk) as (n & Hn & _).
    assert (w_history w s ≠ []) as Hh by (eapply activity_at; [exact Hp|apply Hg]).
    pose proof (sn_within _ _ _ _ _ _ Hn p Hg) as Hlt. pose proof (sn_active _ _ _ _ _ _ Hn) as Ha.
    destruct (last_kept (λ e, w_history w e.2 ≠ []) l n) as [L1 _]; [intros p' j s2; by eapply scripts_index|].
    destruct (L1 i s) as (j & s' & Hj & Hle).
    { apply elem_of_list_filter. split; [done|]. apply (elem_of_list_lookup_2 _ p). by rewrite lookup_take by lia. }
    rewrite Hj in Ha. cbn in Ha. by exists l, p, s, j.
  - intros k i (l & p & s & j & Hk & Hp & Hh & Hj & Hle). exists l, p, s. split; [done|]. split; [done|].
    split; [by eapply activity_at|]. intros Hgap Hg. destruct (Hact k l j Hk Hj) as (n & s' & Hn & _ & Hlj & Hlt).
    pose proof (sn_beyond _ _ _ _ _ _ Hn p Hgap Hg). pose proof (scripts_index _ _ _ _ _ _ _ Hsp Hk Hp). lia.
Qed.

Context (Htime : ∀ h, time h ≤ u64_max) (ho : TxGraph → OutPoint → list Txid) (Hho : hash_fun_ok ho).
Context (srv : nat → PSnap) (Hhonest : ∀ n, esplora_honest w time (srv n)).
Lemma esplora_restores fuel s lim (x : Tracker K ConfirmationTime) kspks txids outpoints (gap : N) (par : nat) :
  ki_hist_ok A s → only_adds s → lim ≠ Some 0%nat → tr_setup s lim = Ret x → scripts_of (tr_index x) kspks →
  (∀ k l i sc, kspks !! k = Some l → (i, sc) ∈ l →
     (length (w_mempool w sc) ≤ 50)%nat ∧ (length (w_confirmed w sc) < 25 * S fuel)%nat) →
  ends (ps_scan srv ho (S fuel) (sc_cps (cg_chain (tr_cg x))) kspks txids outpoints gap par)
    (λ sc, ∃ F : K → N → Prop, (∀ k i, stop_within w gap kspks k i → F k i) ∧ (∀ k i, F k i → stop_reach w gap (Nat.max par 1) kspks k i) ∧
      ∀ ho' ord, hash_fun_ok ho' → ord ≡ₚ map_to_list (sc_pos (cg_chain (ks_update sc))) →
      ∃ x' cs, tr_apply_update (ho' (cg_graph (tr_cg x))) x sc ord = Ret (Ok (x', cs)) ∧ restored w wpos x x' F).
Proof using All.
  intros Hs Ha Hlim Ex Hsp Hpage.
  destruct (setup_fresh A W w wpos s lim x HA Hs Ha Hlim Ex) as (_ & Hcg & Hin & _ & _ & _ & _ & _ & _ & _ & Htrue & Hag & _).
  eapply ends_weaken; [apply (ps_scan_true W w time Hw Hsane Htime ho Hho srv Hhonest fuel); [apply Htrue|exact Hpage]|].
  intros sc [He _]. destruct (complete_ok x _ _ _ _ _ _ Hsp He) as (Hso & F1 & F2).
  exists (reached kspks (ks_active sc)). split; [done|]. split; [done|]. intros ho' ord Hho' Hord.
  by eapply (fresh_restored A HA W w wpos Hw Hsane time_height Htx s lim).
Qed.
Lemma esplora_rescans fuel hs (x : Tracker K ConfirmationTime) kspks txids outpoints (gap : N) (par : nat) :
  ki_inv A hs (tr_index x) → cg_ok (tr_cg x) → inputs_by_txid W (cg_graph (tr_cg x)) → fit_seen w wpos (stop_sought w kspks txids outpoints gap) x →
  scripts_of (tr_index x) kspks →
  (∀ k l i sc, kspks !! k = Some l → (i, sc) ∈ l →
     (length (w_mempool w sc) ≤ 50)%nat ∧ (length (w_confirmed w sc) < 25 * S fuel)%nat) →
  ends (ps_scan srv ho (S fuel) (sc_cps (cg_chain (tr_cg x))) kspks txids outpoints gap par)
    (λ sc, ∃ F : K → N → Prop, (∀ k i, stop_within w gap kspks k i → F k i) ∧ (∀ k i, F k i → stop_reach w gap (Nat.max par 1) kspks k i) ∧
      ∀ ho' ord, hash_fun_ok ho' → ord ≡ₚ map_to_list (sc_pos (cg_chain (ks_update sc))) →
      ∃ x' cs, tr_apply_update (ho' (cg_graph (tr_cg x))) x sc ord = Ret (Ok (x', cs)) ∧ caught_up w wpos x x' F).
Proof using All.
  intros Hi Hcg Hin Hfit Hsp Hpage. pose proof Hfit as (_ & _ & _ & Htrue & Hag).
  eapply ends_weaken; [apply (ps_scan_true W w time Hw Hsane Htime ho Hho srv Hhonest fuel); [apply Htrue|exact Hpage]|].
  intros sc [He _]. destruct (complete_ok x _ _ _ _ _ _ Hsp He) as (Hso & F1 & F2).
  exists (reached kspks (ks_active sc)). split; [done|]. split; [done|]. intros ho' ord Hho' Hord.
  eapply (rescanned A HA W w wpos Hw Hsane time_height Htx); try done. eapply fit_seen_mono; [|exact Hfit]. intros t. by eapply stop_found.
Qed.
End esplora.

(** Wallets that were used. *)
Lemma used_wallet `{!DescEnv} `{Countable K, !Ord K, !OrdLaws K} `{ChainPositionLaws P} A W s l h (x0 x : Tracker K P) l1 :
  good_env A → ki_hist_ok A s → tr_setup s l = Ret x0 → Forall (tr_op_ok A W s) h → tr_run x0 h = Ret (x, l1) →
  cg_ok (tr_cg x) ∧ inputs_by_txid W (cg_graph (tr_cg x)) ∧ ∃ hs, ki_inv A hs (tr_index x).
Proof.
  intros HA Hs Ex Hh E. destruct (setup_twins A W s l l x0 x0 HA Hs Ex Ex) as (Ht & _).
  destruct (twins_run A W s h x0 x0 HA Ht Hh) as (x' & cs' & y & E1 & _ & Ht' & _). rewrite E in E1. injection E1 as <- <-.
  destruct Ht' as (Hi & _ & _ & _ & Hb & _). destruct (built_ok W _ Hb) as [Hok Hin]. done.
Qed.
