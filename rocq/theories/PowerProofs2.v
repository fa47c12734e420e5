(** Proofs about power loss: the command line wallet. *)
From Verif Require Export PowerProofs CliProofs2.
Local Open Scope N_scope.

(** ** What a wallet without lookahead reveals *)
Section bounded.
Context `{!DescEnv} `{Countable K, !Ord K}.
Implicit Types (x : KIndex K) (k : K) (v t : N).
Definition bounded x k v : Prop :=
  lookahead_of x k = 0 ∧ (∀ s i, si_indices (ki_inner x) !! s = Some (k, i) → i < v) ∧ ∀ i, ki_revealed x !! k = Some i → i < v.
Lemma range_go_lt d n : ∀ lo i s, (i, s) ∈ range_spks_go d n lo → i < lo + N.of_nat n.
Proof.
  induction n as [|n IH]; intros lo i s Hin; cbn [range_spks_go] in Hin; [by apply elem_of_nil in Hin|].
  repeat case_match; try (by apply elem_of_nil in Hin).
  apply elem_of_cons in Hin as [[= -> ->]|Hin]; [lia|]. apply IH in Hin. lia.
Qed.
Lemma range_lt d lo hi i s : (i, s) ∈ range_spks d lo hi → i < hi.
Proof.
  unfold range_spks. destruct (decide (lo ≤ hi)).
  - intros Hin%range_go_lt. lia.
  - replace (hi - lo) with 0 by lia. intros Hin. by apply elem_of_nil in Hin.
Qed.
Lemma store_bounded k k' v l : ∀ s s', store_spks s k' l = Ret s' → (k' = k → ∀ i sp, (i, sp) ∈ l → i < v) →
  (∀ sp i, si_indices s !! sp = Some (k, i) → i < v) → ∀ sp i, si_indices s' !! sp = Some (k, i) → i < v.
Proof.
  induction l as [|[j spk] l IH]; intros s s' E Hl Hs; cbn [store_spks] in E; [by injection E as <-|].
  destruct (si_insert_spk s (k', j) spk).2 eqn:Eb; [|done]. eapply (IH _ _ E); [intros; eapply Hl; [done|by right]|].
  intros sp i. unfold si_insert_spk. destruct (si_indices s !! spk); cbn [fst si_indices]; [apply Hs|].
  rewrite lookup_insert_Some. intros [[-> [= -> ->]]|[_ Hin]]; [eapply Hl; [done|by left]|by eapply Hs].
Qed.
Lemma reveal_inv x k t x' sp ad : reveal_to_target x k t = Ret (x', sp, ad) → ∃ d t' ns lo hi ri0 ri,
  t' ≤ t ∧ hi = t' + lookahead_of x k ∧ next_store_index x k = Ret ns ∧
  store_spks (ki_inner x) k (filter (λ is, ns ≤ is.1) (range_spks d lo (hi + 1))) = Ret (ki_inner x') ∧
  ki_lookahead x' = ki_lookahead x ∧ (∀ i, ri0 = Some i → i = t') ∧
  foldl (λ r (is : N * Script), if bool_decide (is.1 ≤ t') then Some is.1 else r) ri0 (range_spks d lo (hi + 1)) = ri ∧
  match ri with Some i => ki_revealed x' = <[k := i]> (ki_revealed x) ∧ (∀ old, ki_revealed x !! k = Some old → old < i) | None => ki_revealed x' = ki_revealed x end.
Proof.
  unfold reveal_to_target. intros E. destruct (ki_keychains x !! k) as [d|]; [|done].
  set (t' := if has_wildcard d then t else 0) in *.
  destruct (next_store_index x k) as [ns|]; [|done]. destruct (next_reveal x k) as [nr|]; [|done]. cbn [mbind outcome_bind] in E.
  destruct (add_u32 nr (lookahead_of x k)) as [lo|]; [|done]. destruct (add_u32 t' (lookahead_of x k)) as [hi|] eqn:Eh; [|done]. cbn [mbind outcome_bind] in E.
  assert (hi = t' + lookahead_of x k) as -> by (unfold add_u32 in Eh; destruct (bool_decide (t' + _ ≤ u32_max)); [by injection Eh|done]).
  destruct (store_spks _ _ _) as [s|] eqn:Es; [|done]. cbn [mbind outcome_bind] in E.
  set (ri0 := if bool_decide (nr ≤ t' ∧ t' < lo) then Some t' else None) in *.
  assert (∀ i, ri0 = Some i → i = t') as Hri0 by (unfold ri0; case_bool_decide; [by intros i [= <-]|done]).
  assert (t' ≤ t) as Ht' by (unfold t'; destruct (has_wildcard d); lia).
  destruct (foldl _ _ _) as [i|] eqn:Ef.
  - destruct (match ki_revealed x !! k with Some old => bool_decide (old < i) | None => true end) eqn:Eo; [|done].
    destruct (add_u32 i 1); [|done]. injection E as <- _ _. exists d, t', ns, lo, (t' + lookahead_of x k), ri0, (Some i).
    do 7 (split; [done|]). split; [done|]. intros old Hold. rewrite Hold in Eo. by apply bool_decide_eq_true in Eo.
  - injection E as <- _ _. exists d, t', ns, lo, (t' + lookahead_of x k), ri0, None. done.
Qed.
Lemma fold_le t (l : list (N * Script)) : ∀ r i, (∀ i, r = Some i → i ≤ t) →
  foldl (λ r (is : N * Script), if bool_decide (is.1 ≤ t) then Some is.1 else r) r l = Some i → i ≤ t.
Proof. induction l as [|a l IH]; intros r i Hri; cbn [foldl]; [apply Hri|]. apply IH. case_bool_decide; [|done]. by intros j [= <-]. Qed.
Lemma reveal_bounded x k v k' t x' sp ad : reveal_to_target x k' t = Ret (x', sp, ad) → (k' = k → t < v) → bounded x k v → bounded x' k v.
Proof.
  intros E Ht (Hl & Hi & Hr). destruct (reveal_inv _ _ _ _ _ _ E) as (d & t' & ns & lo & hi & ri0 & ri & Ht' & -> & _ & Es & El & Hri0 & Ef & Hri).
  split; [unfold lookahead_of in *; by rewrite El|]. split.
  - eapply (store_bounded k k' v); [exact Es| |done]. intros Hk i spk [_ Hin]%elem_of_list_filter. apply range_lt in Hin.
    subst k'. rewrite Hl in Hin. specialize (Ht eq_refl). lia.
  - destruct ri as [i|]; [|by rewrite Hri]. destruct Hri as [-> _]. apply fold_le in Ef; [|intros i' Hi'; rewrite (Hri0 _ Hi'); lia].
    intros j. rewrite lookup_insert_Some. intros [[Hk <-]|[_ Hj]]; [specialize (Ht Hk); lia|by apply Hr].
Qed.
Lemma multi_bounded k v (l : list (K * N)) : (∀ t, (k, t) ∈ l → t < v) → ∀ r x' sp' ad',
  foldl (λ s kt, '(x, spks, ad) ← s; '(x', new, ad') ← reveal_to_target x kt.1 kt.2;
      if da_is_empty ad' then Ret (x', spks, ad) else Ret (x', <[kt.1 := new]> spks, da_append ad ad')) r l = Ret (x', sp', ad') →
  (∀ x (sp : gmap K (list (N * Script))) ad, r = Ret (x, sp, ad) → bounded x k v) → bounded x' k v.
Proof.
  induction l as [|[k' t] l IH]; intros Hl r x' sp' ad' E Hr; cbn [foldl] in E; [by eapply Hr|].
  eapply (IH ltac:(intros; apply Hl; by right) _ _ _ _ E). intros x1 sp1 ad1 E1. destruct r as [[[x sp] ad]|]; [|done]. cbn [mbind outcome_bind fst snd] in E1.
  destruct (reveal_to_target x k' t) as [[[x2 sp2] ad2]|] eqn:E2; [|done]. cbn [mbind outcome_bind] in E1.
  assert (x1 = x2) as -> by (by destruct (da_is_empty ad2); injection E1). eapply reveal_bounded; [exact E2| |by eapply Hr].
  intros ->. apply Hl. by left.
Qed.
Lemma scan_bounded k v (l : list (OutPoint * TxOut)) : ∀ r x' ad',
  foldl (λ s ou, '(x, ad) ← s; '(x', ad') ← ki_scan_txout x ou.1 ou.2; Ret (x', da_append ad ad')) r l = Ret (x', ad') →
  (∀ x (ad : DerivationAdditions K), r = Ret (x, ad) → bounded x k v) → bounded x' k v.
Proof.
  induction l as [|[o u] l IH]; intros r x' ad' E Hr; cbn [foldl] in E; [by eapply Hr|].
  eapply (IH _ _ _ E). intros x1 ad1 E1. destruct r as [[x ad]|]; [|done]. cbn [mbind outcome_bind fst snd] in E1. specialize (Hr x ad eq_refl).
  destruct (ki_scan_txout x o u) as [[x2 ad2]|] eqn:E2; [|done]. injection E1 as <- _.
  unfold ki_scan_txout, si_scan_txout in E2. destruct (si_indices (ki_inner x) !! txo_spk u) as [[k' i]|] eqn:Ei; cbn [fst snd] in E2.
  - destruct (reveal_to_target _ k' i) as [[[x3 sp3] ad3]|] eqn:E3; [|done]. injection E2 as <- _.
    eapply reveal_bounded; [exact E3| |exact Hr]. intros ->. destruct Hr as (_ & Hi & _). by eapply Hi.
  - by injection E2 as <- _.
Qed.
Context `{ChainPosition P}.
Lemma replay_bounded k v (l : list (KChangeSet K P)) : ∀ (x y : Tracker K P), tr_replay x l = Ret y →
  (∀ cs t, cs ∈ l → kcs_indices cs !! k = Some t → t < v) → bounded (tr_index x) k v → bounded (tr_index y) k v.
Proof.
  induction l as [|cs l IH]; intros x y E Hl Hx; cbn [tr_replay] in E; [by injection E as <-|].
  destruct (tr_apply_changeset x cs) as [x1|] eqn:E1; [|done]. eapply (IH _ _ E); [intros; eapply Hl; [by right|done]|].
  unfold tr_apply_changeset in E1. destruct (ki_apply_additions _ _) as [i1|] eqn:E2; [|done]. cbn [mbind outcome_bind] in E1.
  destruct (ki_scan i1 _) as [[i2 ad2]|] eqn:E3; [|done]. injection E1 as <-. cbn [tr_index fst].
  unfold ki_scan in E3. eapply scan_bounded; [exact E3|]. intros ? ? [= <- _].
  unfold ki_apply_additions in E2. destruct (reveal_to_target_multi _ _) as [[[i3 sp3] ad3]|] eqn:E4; [|done]. injection E2 as <-.
  unfold reveal_to_target_multi in E4. eapply multi_bounded; [|exact E4|by intros ? ? ? [= <- _ _]].
  intros t Hin%elem_of_bmap_list. eapply Hl; [by left|done].
Qed.
(** Whatever is revealed after a replay is in one of the changesets. *)
Lemma replay_recorded_index k (l : list (KChangeSet K P)) (x y : Tracker K P) i : tr_replay x l = Ret y → bounded (tr_index x) k 0 → i < n_revealed (tr_index y) k →
  ∃ cs t, cs ∈ l ∧ kcs_indices cs !! k = Some t ∧ i ≤ t.
Proof.
  intros E Hx Hi. destruct (decide (Exists (λ cs, from_option (λ t, i <=? t) false (kcs_indices cs !! k) = true) l)) as [Hex|Hno].
  - apply Exists_exists in Hex as (cs & Hin & Hc). destruct (kcs_indices cs !! k) as [t|] eqn:Et; [|done]. apply N.leb_le in Hc. eauto.
  - exfalso. assert (bounded (tr_index x) k i) as Hx'.
    { destruct Hx as (H1' & H2' & H3'). split; [done|]. split; [intros s j Hs; specialize (H2' _ _ Hs); lia|]. intros j Hj. specialize (H3' _ Hj). lia. }
    destruct (replay_bounded k i l x y E) as (_ & _ & Hb); [|done|].
    { intros cs t Hin Ht. destruct (decide (i ≤ t)); [|lia]. destruct Hno. apply Exists_exists. exists cs. split; [done|]. rewrite Ht. by apply N.leb_le. }
    unfold n_revealed in Hi. destruct (ki_revealed (tr_index y) !! k) as [j|] eqn:Ej; [|lia]. specialize (Hb _ eq_refl). lia.
Qed.

(** What every replay preserves: what every reveal and every output found preserve. *)
Lemma replay_preserves (Q : KIndex K → Prop) :
  (∀ x k t x' sp ad, Q x → reveal_to_target x k t = Ret (x', sp, ad) → Q x') →
  (∀ x o u, Q x → Q (with_inner x (si_scan_txout (ki_inner x) o u).1)) →
  ∀ (l : list (KChangeSet K P)) (x y : Tracker K P), tr_replay x l = Ret y → Q (tr_index x) → Q (tr_index y).
Proof.
  intros HR HS. induction l as [|cs l IH]; intros x y E Hx; cbn [tr_replay] in E; [by injection E as <-|].
  destruct (tr_apply_changeset x cs) as [x1|] eqn:E1; [|done]. eapply (IH _ _ E).
  unfold tr_apply_changeset in E1. destruct (ki_apply_additions _ _) as [i1|] eqn:E2; [|done]. cbn [mbind outcome_bind] in E1.
  destruct (ki_scan i1 _) as [[i2 ad2]|] eqn:E3; [|done]. injection E1 as <-. cbn [tr_index fst].
  assert (Q i1) as H1'.
  { unfold ki_apply_additions in E2. destruct (reveal_to_target_multi _ _) as [[[i3 sp3] ad3]|] eqn:E4; [|done]. injection E2 as <-.
    unfold reveal_to_target_multi in E4.
    assert (∀ (m : list (K * N)) r i3 sp3 ad3, foldl (λ s kt, '(x, spks, ad) ← s; '(x', new, ad') ← reveal_to_target x kt.1 kt.2;
        if da_is_empty ad' then Ret (x', spks, ad) else Ret (x', <[kt.1 := new]> spks, da_append ad ad')) r m = Ret (i3, sp3, ad3) →
      (∀ x (sp : gmap K (list (N * Script))) ad, r = Ret (x, sp, ad) → Q x) → Q i3) as Hm.
    { clear -HR. induction m as [|[k' t] m IH]; intros r i3 sp3 ad3 E Hr; cbn [foldl] in E; [by eapply Hr|].
      eapply (IH _ _ _ _ E). intros x1 sp1 ad1 E1. destruct r as [[[x sp] ad]|]; [|done]. cbn [mbind outcome_bind fst snd] in E1.
      destruct (reveal_to_target x k' t) as [[[x2 sp2] ad2]|] eqn:E2; [|done]. cbn [mbind outcome_bind] in E1.
      assert (x1 = x2) as -> by (by destruct (da_is_empty ad2); injection E1). eapply HR; [|exact E2]. by eapply Hr. }
    eapply Hm; [exact E4|]. by intros ? ? ? [= <- _ _]. }
  unfold ki_scan in E3.
  assert (∀ (m : list (OutPoint * TxOut)) r i2 ad2, foldl (λ s ou, '(x, ad) ← s; '(x', ad') ← ki_scan_txout x ou.1 ou.2; Ret (x', da_append ad ad')) r m = Ret (i2, ad2) →
    (∀ x (ad : DerivationAdditions K), r = Ret (x, ad) → Q x) → Q i2) as Hm.
  { clear -HR HS. induction m as [|[o u] m IH]; intros r i2 ad2 E Hr; cbn [foldl] in E; [by eapply Hr|].
    eapply (IH _ _ _ E). intros x1 ad1 E1. destruct r as [[x ad]|]; [|done]. cbn [mbind outcome_bind fst snd] in E1. specialize (Hr x ad eq_refl).
    destruct (ki_scan_txout x o u) as [[x2 ad2']|] eqn:E2; [|done]. injection E1 as <- _. specialize (HS x o u Hr).
    unfold ki_scan_txout in E2. destruct ((si_scan_txout (ki_inner x) o u).2) as [[k' i]|].
    - destruct (reveal_to_target _ _ _) as [[[x3 sp3] ad3]|] eqn:E3; [|done]. injection E2 as <- _. exact (HR _ _ _ _ _ _ HS E3).
    - by injection E2 as <- _. }
  eapply Hm; [exact E3|]. by intros ? ? [= <- _].
Qed.

(** Without lookahead nothing is stored beyond what is revealed. *)
Definition tight x k : Prop := bounded x k (n_revealed x k).
Lemma range_go_at d n : ∀ lo p i s, range_spks_go d n lo !! p = Some (i, s) → i = lo + N.of_nat p ∧ i ≤ bip32_max.
Proof.
  induction n as [|n IH]; intros lo p i s Hp; cbn [range_spks_go] in Hp; [done|].
  destruct (has_wildcard d || bool_decide (lo = 0)); [|done]. destruct (bool_decide (lo ≤ bip32_max)) eqn:El; [|done].
  destruct (derive d lo); [|done]. destruct p as [|p]; cbn in Hp.
  - injection Hp as <- <-. split; [lia|]. by apply bool_decide_eq_true in El.
  - apply IH in Hp as [-> Hb]. split; [lia|done].
Qed.
Lemma n_revealed_reveal x k t x' sp ad k' : reveal_to_target x k t = Ret (x', sp, ad) → n_revealed x k' ≤ n_revealed x' k' ∧ (k' ≠ k → n_revealed x' k' = n_revealed x k').
Proof.
  intros E. destruct (reveal_inv _ _ _ _ _ _ E) as (d & t' & ns & lo & hi & ri0 & ri & _ & _ & _ & _ & _ & _ & _ & Hri). unfold n_revealed.
  destruct ri as [i|]; [|by rewrite Hri]. destruct Hri as [-> Ho]. destruct (decide (k' = k)) as [->|Hk].
  - rewrite lookup_insert. split; [|done]. destruct (ki_revealed x !! k) as [o|] eqn:Eo; [specialize (Ho _ eq_refl)|]; lia.
  - by rewrite lookup_insert_ne.
Qed.
Lemma bounded_le x k v v' : v ≤ v' → bounded x k v → bounded x k v'.
Proof. intros Hv (H1' & H2' & H3'). split; [done|]. split; [intros s i Hs; specialize (H2' _ _ Hs); lia|intros i Hi; specialize (H3' _ Hi); lia]. Qed.
Lemma reveal_tight x k k' t x' sp ad : tight x k → reveal_to_target x k' t = Ret (x', sp, ad) → tight x' k.
Proof.
  intros Hx E. pose proof (n_revealed_reveal _ _ _ _ _ _ k E) as [Hm Hs]. destruct (decide (k' = k)) as [->|Hk].
  2:{ unfold tight. rewrite Hs by done. by eapply reveal_bounded. }
  destruct (reveal_inv _ _ _ _ _ _ E) as (d & t' & ns & lo & hi & ri0 & ri & _ & -> & _ & Es & El & _ & Ef & Hri).
  assert (lookahead_of x k = 0) as Hl by apply Hx. rewrite Hl, N.add_0_r in Es, Ef.
  destruct (bounded_le _ _ _ _ Hm Hx) as (Hb1 & Hb2 & Hb3).
  split; [unfold lookahead_of in *; by rewrite El|]. split; [|intros i Hi; unfold n_revealed; rewrite Hi; lia].
  eapply (store_bounded k k _); [exact Es| |exact Hb2]. intros _ i spk [_ Hin]%elem_of_list_filter.
  destruct (range_spks d lo (t' + 1)) as [|a l _] eqn:Er using rev_ind; [by apply elem_of_nil in Hin|]. destruct a as [j sj].
  assert (j ≤ t') as Hj. { assert ((j, sj) ∈ range_spks d lo (t' + 1)) as Hjin by (rewrite Er; apply elem_of_app; right; by left). apply range_lt in Hjin. lia. }
  assert (i ≤ j) as Hij.
  { apply elem_of_list_lookup in Hin as [p Hp]. unfold range_spks in Er. rewrite <- Er in Hp.
    assert (range_spks_go d (N.to_nat (t' + 1 - lo)) lo !! length l = Some (j, sj)) as Hlast by (rewrite Er; by rewrite lookup_app_r, Nat.sub_diag by lia).
    pose proof (lookup_lt_Some _ _ _ Hp) as Hlt. rewrite Er, app_length in Hlt. cbn in Hlt.
    destruct (range_go_at _ _ _ _ _ _ Hp) as [-> _]. destruct (range_go_at _ _ _ _ _ _ Hlast) as [-> _]. lia. }
  rewrite foldl_app in Ef. cbn [foldl fst] in Ef. rewrite bool_decide_eq_true_2 in Ef by done. subst ri. destruct Hri as [Hr _].
  unfold n_revealed. rewrite Hr, lookup_insert. lia.
Qed.
Lemma replay_tight k (l : list (KChangeSet K P)) (x y : Tracker K P) : tr_replay x l = Ret y → tight (tr_index x) k → tight (tr_index y) k.
Proof.
  apply (replay_preserves (λ x, tight x k)).
  - intros. by eapply reveal_tight.
  - intros z o u (H1' & H2' & H3'). split; [done|]. split; [|done]. unfold si_scan_txout. by destruct (si_indices (ki_inner z) !! txo_spk u).
Qed.
(** A replay of changesets without new indices reveals nothing. *)
Lemma replay_no_index k (l : list (KChangeSet K P)) (x y : Tracker K P) : tr_replay x l = Ret y → tight (tr_index x) k →
  (∀ cs, cs ∈ l → kcs_indices cs !! k = None) → n_revealed (tr_index y) k ≤ n_revealed (tr_index x) k.
Proof.
  intros E Ht Hl. destruct (replay_bounded k (n_revealed (tr_index x) k) l x y E) as (_ & _ & Hb); [|exact Ht|].
  - intros cs t Hin Hc. rewrite (Hl cs Hin) in Hc. done.
  - unfold n_revealed at 1. destruct (ki_revealed (tr_index y) !! k) as [j|]; [|lia]. specialize (Hb _ eq_refl). lia.
Qed.

(** ** What any replay keeps *)
Context `{!OrdLaws K}.
Definition keeps x x' : Prop :=
  (∀ k, n_revealed x k ≤ n_revealed x' k) ∧ (∀ ki s, si_spks (ki_inner x) !! ki = Some s → si_spks (ki_inner x') !! ki = Some s) ∧
  ∀ s ki, si_indices (ki_inner x) !! s = Some ki → si_indices (ki_inner x') !! s = Some ki.
Lemma next_store_above x k ns i s : next_store_index x k = Ret ns → si_spks (ki_inner x) !! (k, i) = Some s → i ≤ bip32_max → i < ns.
Proof.
  intros E Hs Hi. unfold next_store_index in E.
  pose proof (last_filter_keys (si_spks (ki_inner x)) (λ kv, ord_le (k, 0) kv ∧ ord_lt kv (k, u32_max))) as Hl.
  assert (ord_le (k, 0) (k, i) ∧ ord_lt (k, i) (k, u32_max)) as Hq.
  { rewrite prod_ord_le, prod_ord_lt. cbn [fst snd]. rewrite N_ord_lt. split; right; (split; [done|]); [apply N_ord_le; lia|].
    rewrite bip32_max_val in Hi. unfold u32_max. lia. }
  destruct (last _) as [[[k' j] s']|].
  - destruct Hl as (_ & Hq' & Hmax). specialize (Hmax _ _ Hs Hq). cbn [fst snd] in E.
    assert (ns = j + 1) as -> by (unfold add_u32 in E; destruct (bool_decide (j + 1 ≤ u32_max)); [by injection E|done]).
    rewrite !prod_ord_le, !prod_ord_lt in *. cbn [fst snd] in *. destruct Hq' as [_ [Hlt|[-> _]]].
    + destruct Hmax as [Hlt'|[<- _]]; [|by apply ord_lt_irrefl in Hlt]. exfalso. apply (ord_lt_irrefl k). by eapply ord_lt_trans.
    + destruct Hmax as [Hlt'|[_ Hle]]; [by apply ord_lt_irrefl in Hlt'|]. rewrite N_ord_le in Hle. lia.
  - by destruct (Hl _ _ Hs).
Qed.
Lemma store_keeps k l : ∀ s s', store_spks s k l = Ret s' →
  (∀ ki sp, si_spks s !! ki = Some sp → (∀ i sp', (i, sp') ∈ l → ki ≠ (k, i)) → si_spks s' !! ki = Some sp) ∧
  ∀ sp ki, si_indices s !! sp = Some ki → si_indices s' !! sp = Some ki.
Proof.
  induction l as [|[j spk] l IH]; intros s s' E; cbn [store_spks] in E; [by injection E as <-|].
  destruct (si_insert_spk s (k, j) spk).2 eqn:Eb; [|done]. destruct (IH _ _ E) as [I1 I2]. unfold si_insert_spk in *.
  destruct (si_indices s !! spk) as [ki'|] eqn:Ei; cbn [fst snd si_spks si_indices] in *; [done|]. split.
  - intros ki sp Hki Hl. apply I1; [|intros; eapply Hl; by right]. rewrite lookup_insert_ne; [done|]. intros He. eapply (Hl j spk); [by left|done].
  - intros sp ki Hki. apply I2. rewrite lookup_insert_ne; [done|]. intros <-. by rewrite Ei in Hki.
Qed.
Lemma reveal_keeps x0 x k t x' sp ad : keeps x0 x → reveal_to_target x k t = Ret (x', sp, ad) → keeps x0 x'.
Proof.
  intros (K1 & K2 & K3) E. split; [|split].
  - intros k'. pose proof (n_revealed_reveal _ _ _ _ _ _ k' E) as [Hm _]. specialize (K1 k'). lia.
  - intros ki s Hs%K2. destruct (reveal_inv _ _ _ _ _ _ E) as (d & t' & ns & lo & hi & ri0 & ri & _ & -> & En & Es & _).
    apply (store_keeps _ _ _ _ Es); [done|]. intros i sp' [Hn Hin]%elem_of_list_filter ->. cbn [fst] in Hn.
    apply elem_of_list_lookup in Hin as [p Hp]. apply range_go_at in Hp as [_ Hp]. pose proof (next_store_above _ _ _ _ _ En Hs Hp). lia.
  - intros s ki Hs%K3. destruct (reveal_inv _ _ _ _ _ _ E) as (d & t' & ns & lo & hi & ri0 & ri & _ & -> & En & Es & _).
    by apply (store_keeps _ _ _ _ Es).
Qed.
Lemma replay_keeps (l : list (KChangeSet K P)) (x y : Tracker K P) : tr_replay x l = Ret y → keeps (tr_index x) (tr_index y).
Proof.
  intros E. eapply (replay_preserves (λ z, keeps (tr_index x) z)); [| |exact E|].
  - intros. by eapply reveal_keeps.
  - intros z o u (H1' & H2' & H3'). split; [done|]. unfold si_scan_txout. by destruct (si_indices (ki_inner z) !! txo_spk u).
  - split; [lia|done].
Qed.
End bounded.
