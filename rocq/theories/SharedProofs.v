(** C109: what happens to keychains that share a script. *)
From Verif Require Export SharedSpec PowerProofs2 CliModel.

Section index.
Context `{!DescEnv} `{Countable K, !Ord K, !OrdLaws K}.
Implicit Types (k : K) (x : KIndex K).

Lemma untouched_store x k : untouched x k → next_store_index x k = Ret 0.
Proof.
  intros (Hs & _). apply next_store_ok; [|done]. intros i. unfold si_spk_at. rewrite Hs. split; [intros [? ?]; done|lia].
Qed.
Lemma untouched_reveal x k : untouched x k → next_reveal x k = Ret 0.
Proof. intros (_ & Hr & _). unfold next_reveal. by rewrite Hr. Qed.
Lemma range_zero d s n : derive d 0 = Some s → ∃ l, range_spks d 0 (n + 1) = (0, s) :: l.
Proof.
  intros Hd. unfold range_spks. replace (N.to_nat (n + 1 - 0)) with (S (N.to_nat n)) by lia. cbn [range_spks_go].
  rewrite (bool_decide_eq_true_2 (0 = 0)), orb_true_r, Hd by done. rewrite bool_decide_eq_true_2 by (apply N.le_0_l). eauto.
Qed.

(** From an untouched keychain the first script is stored first. *)
Lemma reveal_first x k t s : untouched x k → first_script x k s →
  reveal_to_target x k t = Panic ∨ (si_indices (ki_inner x) !! s = None ∧
    ∃ x' sp ad, reveal_to_target x k t = Ret (x', sp, ad) ∧ watches x' s).
Proof.
  intros Hu (d & Hk & Hd). destruct (reveal_to_target x k t) as [[[x' sp] ad]|] eqn:E; [right|by left].
  assert (E' := E). unfold reveal_to_target in E. rewrite Hk, (untouched_store _ _ Hu), (untouched_reveal _ _ Hu) in E.
  cbn [mbind outcome_bind] in E. destruct Hu as (_ & _ & Hl). unfold lookahead_of in E. rewrite Hl in E.
  assert (add_u32 0 0 = Ret 0) as Ez by (by vm_compute). rewrite Ez in E. cbn [mbind outcome_bind] in E.
  destruct (add_u32 _ 0) as [hi|]; [|done]. cbn [mbind outcome_bind] in E.
  destruct (range_zero d s hi Hd) as [l El]. rewrite El in E.
  rewrite filter_cons_True in E by (apply N.le_0_l). cbn [store_spks] in E. unfold si_insert_spk in E.
  destruct (si_indices (ki_inner x) !! s) as [e|] eqn:Ei; cbn [fst snd] in E; [done|].
  split; [done|]. exists x', sp, ad. split; [done|].
  destruct (store_spks _ _ _) as [s'|] eqn:Es; [|done]. cbn [mbind outcome_bind] in E.
  assert (si_indices s' !! s = Some (k, 0)) as Hs'.
  { apply (proj2 (store_keeps _ _ _ _ Es)). cbn [fst si_indices]. by rewrite lookup_insert. }
  assert (ki_inner x' = s') as Hx.
  { destruct (foldl _ _ _); [|by injection E as <- _ _].
    destruct (match ki_revealed x !! k with Some old => _ | None => true end); [|done].
    destruct (add_u32 _ 1); [|done]. by injection E as <- _ _. }
  exists (k, 0). by rewrite Hx.
Qed.
Lemma second_user_panics x k t s : untouched x k → first_script x k s → watches x s → reveal_to_target x k t = Panic.
Proof. intros Hu Hf [e He]. destruct (reveal_first x k t s Hu Hf) as [?|[? _]]; [done|congruence]. Qed.
Lemma next_spk_panics x k s : untouched x k → first_script x k s → watches x s → reveal_next_spk x k = Panic.
Proof.
  intros Hu Hf Hw. unfold reveal_next_spk. destruct (next_index x k) as [n|]; [|done]. cbn [mbind outcome_bind].
  by rewrite (second_user_panics x k n.1 s).
Qed.
Lemma no_unused x k l : untouched x k → unused_spks_of_keychain x k = Ret l → l = [].
Proof.
  intros Hu E. unfold unused_spks_of_keychain in E. rewrite (untouched_reveal _ _ Hu) in E. cbn [mbind outcome_bind] in E.
  unfold si_unused_spks, bset_range in E. destruct (range_bad _ _); [done|].
  assert (filter (λ y : K * N, above_lo (Incl (k, 0)) y ∧ below_hi (Excl (k, 0)) y) (bset_list (si_unused (ki_inner x))) = []) as El.
  { destruct (filter _ _) as [|y l'] eqn:Ef; [done|]. exfalso.
    assert (y ∈ y :: l') as Hy by apply elem_of_list_here. rewrite <- Ef in Hy. apply elem_of_list_filter in Hy as [[Hlo Hhi] _].
    cbn [above_lo below_hi] in *. apply (ord_lt_irrefl (k, 0)). by eapply ord_le_lt_trans. }
  rewrite El in E. cbn [with_spks mbind outcome_bind] in E. by injection E as <-.
Qed.
Lemma next_unused_panics x k s : untouched x k → first_script x k s → watches x s → next_unused_spk x k = Panic.
Proof.
  intros Hu Hf Hw. unfold next_unused_spk. destruct (unused_spks_of_keychain x k) as [l|] eqn:E; [|done]. cbn [mbind outcome_bind].
  rewrite (no_unused _ _ _ Hu E). by apply (next_spk_panics x k s).
Qed.
Lemma lookahead_panics x k s la : 0 < la → untouched x k → first_script x k s → watches x s → set_lookahead x k la = Panic.
Proof.
  intros Hla Hu (d & Hk & Hd) [e He]. unfold set_lookahead, replenish_lookahead. cbn [with_lookahead ki_keychains]. rewrite Hk.
  assert (next_store_index (with_lookahead x (<[k:=la]> (ki_lookahead x))) k = Ret 0) as -> by (exact (untouched_store x k Hu)).
  assert (next_reveal (with_lookahead x (<[k:=la]> (ki_lookahead x))) k = Ret 0) as -> by (exact (untouched_reveal x k Hu)).
  cbn [mbind outcome_bind]. unfold lookahead_of. cbn [with_lookahead ki_lookahead]. rewrite lookup_insert. cbn [default].
  unfold add_u32. case_bool_decide; [|done]. cbn [mbind outcome_bind].
  destruct (range_zero d s (la - 1) Hd) as [l El]. replace (la - 1 + 1) with (0 + la) in El by lia. unfold default, id. rewrite El.
  cbn [store_spks with_lookahead ki_inner]. unfold si_insert_spk. cbn [with_lookahead ki_inner]. by rewrite He.
Qed.

(** ** Others do not interfere *)
Lemma store_other k k' l : k ≠ k' → ∀ s s', store_spks s k' l = Ret s' → ∀ i, si_spks s' !! (k, i) = si_spks s !! (k, i).
Proof.
  intros Hne. induction l as [|[j spk] l IH]; intros s s' E i; cbn [store_spks] in E; [by injection E as <-|].
  destruct (si_insert_spk s (k', j) spk).2; [|done]. rewrite (IH _ _ E). unfold si_insert_spk.
  destruct (si_indices s !! spk); cbn [fst si_spks]; [done|]. apply lookup_insert_ne. congruence.
Qed.
Lemma reveal_keychains x k t x' sp ad : reveal_to_target x k t = Ret (x', sp, ad) → ki_keychains x' = ki_keychains x.
Proof.
  unfold reveal_to_target. intros E. destruct (ki_keychains x !! k) as [d|]; [|done].
  destruct (next_store_index x k); [|done]. destruct (next_reveal x k) as [nr|]; [|done]. cbn [mbind outcome_bind] in E.
  destruct (add_u32 nr (lookahead_of x k)); [|done]. cbn [mbind outcome_bind] in E. destruct (add_u32 (if has_wildcard d then t else 0) (lookahead_of x k)); [|done]. cbn [mbind outcome_bind] in E.
  destruct (store_spks _ _ _); [|done]. cbn [mbind outcome_bind] in E. destruct (foldl _ _ _); [|by injection E as <- _ _].
  destruct (match ki_revealed x !! k with Some old => _ | None => true end); [|done].
  destruct (add_u32 _ 1); [|done]. by injection E as <- _ _.
Qed.
Lemma reveal_untouched x k k' t x' sp ad : k ≠ k' → reveal_to_target x k' t = Ret (x', sp, ad) → untouched x k → untouched x' k.
Proof.
  intros Hne E (Hs & Hr & Hl). destruct (reveal_inv _ _ _ _ _ _ E) as (d & t' & ns & lo & hi & ri0 & ri & _ & _ & _ & Es & El & _ & _ & Hri).
  split; [intros i; by rewrite (store_other k k' _ Hne _ _ Es)|]. split; [|by rewrite El].
  destruct ri; [destruct Hri as [-> _]; by rewrite lookup_insert_ne|by rewrite Hri].
Qed.
Lemma reveal_watches x k t x' sp ad s : reveal_to_target x k t = Ret (x', sp, ad) → watches x s → watches x' s.
Proof.
  intros E [e He]. destruct (reveal_inv _ _ _ _ _ _ E) as (d & t' & ns & lo & hi & ri0 & ri & _ & _ & _ & Es & _).
  exists e. by apply (store_keeps _ _ _ _ Es).
Qed.
Lemma reveal_first_script x k k' t x' sp ad s : reveal_to_target x k' t = Ret (x', sp, ad) → first_script x k s → first_script x' k s.
Proof. intros E (d & Hk & Hd). exists d. by rewrite (reveal_keychains _ _ _ _ _ _ E). Qed.

(** ** Revealing both *)
Notation reveal_all l r := (foldl (λ s kt, '(x, spks, ad) ← s; '(x', new, ad') ← reveal_to_target x kt.1 kt.2;
    if da_is_empty ad' then Ret (x', spks, ad) else Ret (x', <[kt.1 := new]> spks, da_append ad ad')) r l).
Lemma reveal_all_panic (l : list (K * N)) :
  reveal_all l (Panic : outcome (KIndex K * gmap K (list (N * Script)) * DerivationAdditions K)) = Panic.
Proof. by induction l. Qed.
Lemma reveal_all_second (l : list (K * N)) k t s : ∀ x (spks : gmap K (list (N * Script))) (ad : gmap K N),
  untouched x k → first_script x k s → watches x s → (k, t) ∈ l → reveal_all l (Ret (x, spks, ad)) = Panic.
Proof.
  induction l as [|[k' t'] l IH]; intros x spks ad Hu Hf Hw Hin; [by apply elem_of_nil in Hin|]. cbn [foldl mbind outcome_bind fst snd].
  destruct (decide (k' = k)) as [->|Hne].
  - rewrite (second_user_panics x k t' s Hu Hf Hw). apply reveal_all_panic.
  - apply elem_of_cons in Hin as [[=]|Hin]; [done|].
    destruct (reveal_to_target x k' t') as [[[x' new] ad']|] eqn:E; [|apply reveal_all_panic]. cbn [mbind outcome_bind].
    assert (untouched x' k) by (eapply reveal_untouched; [|exact E|done]; done).
    assert (first_script x' k s) by (by eapply reveal_first_script). assert (watches x' s) by (by eapply reveal_watches).
    destruct (da_is_empty ad'); by apply IH.
Qed.
Lemma reveal_all_both (l : list (K * N)) k k' t t' s : k ≠ k' → ∀ x (spks : gmap K (list (N * Script))) (ad : gmap K N),
  untouched x k → untouched x k' → first_script x k s → first_script x k' s → (k, t) ∈ l → (k', t') ∈ l →
  reveal_all l (Ret (x, spks, ad)) = Panic.
Proof.
  intros Hne. induction l as [|[q u] l IH]; intros x spks ad Hu Hu' Hf Hf' Hin Hin'; [by apply elem_of_nil in Hin|]. cbn [foldl mbind outcome_bind fst snd].
  destruct (reveal_to_target x q u) as [[[x' new] ad']|] eqn:E; [|apply reveal_all_panic]. cbn [mbind outcome_bind].
  assert (∀ p, first_script x p s → first_script x' p s) as Kf by (intros; by eapply reveal_first_script).
  assert (∀ p, p ≠ q → untouched x p → untouched x' p) as Ku by (intros; by eapply reveal_untouched).
  destruct (decide (q = k)) as [->|Hq].
  - destruct (reveal_first x k u s Hu Hf) as [?|(_ & x1 & sp1 & ad1 & E1 & Hw)]; [congruence|].
    assert (x1 = x') as -> by congruence. apply elem_of_cons in Hin' as [[=]|Hin']; [done|].
    destruct (da_is_empty ad'); apply (reveal_all_second _ k' t' s); auto.
  - destruct (decide (q = k')) as [->|Hq'].
    + destruct (reveal_first x k' u s Hu' Hf') as [?|(_ & x1 & sp1 & ad1 & E1 & Hw)]; [congruence|].
      assert (x1 = x') as -> by congruence. apply elem_of_cons in Hin as [[=]|Hin]; [done|].
      destruct (da_is_empty ad'); apply (reveal_all_second _ k t s); auto.
    + apply elem_of_cons in Hin as [[=]|Hin]; [done|]. apply elem_of_cons in Hin' as [[=]|Hin']; [done|].
      destruct (da_is_empty ad'); apply IH; auto.
Qed.
Lemma both_panic x k k' s (m : gmap K N) : k ≠ k' → untouched x k → untouched x k' → first_script x k s → first_script x k' s →
  is_Some (m !! k) → is_Some (m !! k') → ki_apply_additions x m = Panic.
Proof.
  intros Hne Hu Hu' Hf Hf' [t Ht] [t' Ht']. unfold ki_apply_additions, reveal_to_target_multi.
  rewrite (reveal_all_both _ k k' t t' s Hne); try done; by apply elem_of_bmap_list.
Qed.
End index.

Section cli.
Context `{!DescEnv, !CliEnv, !PlanModel.KeyEnv} `{ChainPosition P}.
Lemma send_panics dbg (ch : Choices P) km (x : Tracker Keychain P) s value addr algo :
  untouched (tr_index x) Internal → first_script (tr_index x) Internal s → watches (tr_index x) s →
  create_tx dbg ch km x value addr algo = Panic.
Proof.
  intros Hu Hf Hw. unfold create_tx. destruct (planned_utxos _ _ _) as [cands|]; [|done]. cbn [mbind outcome_bind].
  destruct (CoinSelectModel.all_ret _); [|done]. cbn [mbind outcome_bind].
  assert (change_keychain x = Internal) as ->. { destruct Hf as (d & Hk & _). unfold change_keychain. by rewrite Hk. }
  by rewrite (next_unused_panics _ _ s Hu Hf Hw).
Qed.
End cli.
