(** Proofs about the keychain index: transitions and histories. *)
From Verif Require Export KeychainIndexProofs.

Section proofs.
Context `{!DescEnv} `{Countable K, !Ord K, !OrdLaws K}.
Implicit Types (x : KIndex K) (k : K) (a b c : gmap K N).

(** ** Additions *)
Lemma da_append_lookup a b k :
  da_append a b !! k = match a !! k, b !! k with
    | Some i, Some j => Some (N.max i j) | Some i, None => Some i | None, r => r end.
Proof.
  unfold da_append. rewrite lookup_union, map_lookup_imap.
  destruct (a !! k) as [i|] eqn:Ea, (b !! k) as [j|] eqn:Eb.
  - rewrite (proj2 (map_filter_lookup_None _ _ _)) by (right; intros; cbn; congruence).
    cbn. by rewrite N.max_comm.
  - rewrite (proj2 (map_filter_lookup_None _ _ _)) by (by left). done.
  - rewrite (proj2 (map_filter_lookup_Some _ _ _ j)) by done. done.
  - rewrite (proj2 (map_filter_lookup_None _ _ _)) by (by left). done.
Qed.
Lemma da_append_comm a b : da_append a b = da_append b a.
Proof.
  apply map_eq. intros k. rewrite !da_append_lookup. destruct (a !! k), (b !! k); try done. by rewrite N.max_comm.
Qed.
Lemma da_append_assoc a b c : da_append a (da_append b c) = da_append (da_append a b) c.
Proof.
  apply map_eq. intros k. rewrite !da_append_lookup. destruct (a !! k), (b !! k), (c !! k); try done. by rewrite N.max_assoc.
Qed.
Lemma da_append_idemp a : da_append a a = a.
Proof. apply map_eq. intros k. rewrite !da_append_lookup. destruct (a !! k); [|done]. by rewrite N.max_id. Qed.
Lemma da_append_empty_r a : da_append a ∅ = a.
Proof. apply map_eq. intros k. rewrite !da_append_lookup, lookup_empty. by destruct (a !! k). Qed.
Lemma da_append_empty_l a : da_append ∅ a = a.
Proof. by rewrite da_append_comm, da_append_empty_r. Qed.
Lemma da_append_upper a b k i : a !! k = Some i → ∃ j, da_append a b !! k = Some j ∧ i ≤ j.
Proof. intros E. rewrite da_append_lookup, E. destruct (b !! k); eexists; (split; [done|lia]). Qed.
Lemma da_append_least a b c :
  (∀ k i, a !! k = Some i → ∃ j, c !! k = Some j ∧ i ≤ j) →
  (∀ k i, b !! k = Some i → ∃ j, c !! k = Some j ∧ i ≤ j) →
  ∀ k i, da_append a b !! k = Some i → ∃ j, c !! k = Some j ∧ i ≤ j.
Proof.
  intros Ha Hb k i. rewrite da_append_lookup. destruct (a !! k) as [i1|] eqn:Ea, (b !! k) as [i2|] eqn:Eb; intros [= <-]; eauto.
  destruct (Ha k i1 Ea) as (j & Hj & ?), (Hb k i2 Eb) as (j' & Hj' & ?). simplify_eq. exists j. split; [done|lia].
Qed.

(** ** Transitions *)
(** Outputs offered by scans. *)
Definition scans {Ix} `{Countable Ix} (hs : list (si_op Ix)) : list (OutPoint * TxOut) :=
  hs ≫= λ op, match op with SiScan l => l | _ => [] end.
Definition spks_sub x x' : Prop :=
  ∀ ki s, si_spks (ki_inner x) !! ki = Some s → si_spks (ki_inner x') !! ki = Some s.
Definition tr A x hs x' hs' (ad : gmap K N) (l : list (OutPoint * TxOut)) : Prop :=
  ki_inv A (hs ++ hs') x' ∧ ki_keychains x' = ki_keychains x ∧ ki_revealed x' = da_append (ki_revealed x) ad ∧
  (∀ k i, ad !! k = Some i → n_revealed x k ≤ i) ∧ spks_sub x x' ∧ scans hs' = l.
Lemma n_revealed_mono x x' ad k : ki_revealed x' = da_append (ki_revealed x) ad → n_revealed x k ≤ n_revealed x' k.
Proof.
  intros E. unfold n_revealed. rewrite E, da_append_lookup.
  destruct (ki_revealed x !! k), (ad !! k); lia.
Qed.
Lemma tr_refl A x hs : ki_inv A hs x → tr A x hs x [] ∅ [].
Proof.
  intros Hi. split; [by rewrite app_nil_r|]. split; [done|]. split; [by rewrite da_append_empty_r|].
  split; [intros k i; by rewrite lookup_empty|]. split; [by intros ki s|done].
Qed.
Lemma tr_trans A x hs x1 hs1 ad1 l1 x2 hs2 ad2 l2 :
  tr A x hs x1 hs1 ad1 l1 → tr A x1 (hs ++ hs1) x2 hs2 ad2 l2 →
  tr A x hs x2 (hs1 ++ hs2) (da_append ad1 ad2) (l1 ++ l2).
Proof.
  intros (A1 & A2 & A3 & A4 & A5 & A6) (B1 & B2 & B3 & B4 & B5 & B6).
  split; [by rewrite app_assoc|]. split; [congruence|]. split; [by rewrite B3, A3, da_append_assoc|].
  split; [|split].
  - intros k i. rewrite da_append_lookup. pose proof (n_revealed_mono x x1 ad1 k A3) as Hm.
    specialize (A4 k). specialize (B4 k). destruct (ad1 !! k) as [i1|], (ad2 !! k) as [i2|]; intros [= <-].
    + specialize (A4 i1 eq_refl). lia.
    + by apply A4.
    + specialize (B4 i2 eq_refl). lia.
  - intros ki s Hs. by apply B5, A5.
  - unfold scans in *. rewrite bind_app. congruence.
Qed.
Lemma only_spks_scans (h' : list (si_op (K * N))) : only_spks h' → scans h' = [].
Proof.
  unfold scans. induction h' as [|op h' IH]; intros Hh; [done|]. cbn. rewrite IH by (intros ? ?; apply Hh; by right).
  destruct (Hh op) as (ki & spk & ->); [by left|done].
Qed.
Lemma grown_sub x s' k n n' : grown x s' k n n' → spks_sub x (with_inner x s').
Proof. intros (_ & _ & Hs & _) ki s. apply Hs. Qed.

Lemma known_stored A hs x k : ki_inv A hs x → is_Some (ki_keychains x !! k) →
  ∃ d n, ki_keychains x !! k = Some d ∧ stored x k n.
Proof. intros [Hc _] [d Hd]. destruct (core_stored A hs x k d Hc Hd) as (n & Hn & _). eauto. Qed.
Lemma tr_set_lookahead A hs x k la :
  good_env A → ki_inv A hs x → is_Some (ki_keychains x !! k) → la ≤ 2147483648 →
  ∃ x' hs', set_lookahead x k la = Ret x' ∧ tr A x hs x' hs' ∅ [] ∧ ki_lookahead x' = <[k := la]> (ki_lookahead x).
Proof.
  intros HA Hi Hk Hla. destruct (known_stored A hs x k Hi Hk) as (d & n & Hd & Hn).
  destruct (set_lookahead_ok A hs x k d n la HA Hi Hd Hn Hla) as (s' & h' & E & Hh & Hi' & Hg).
  eexists _, h'. split; [exact E|]. split; [|done]. split; [done|]. split; [done|]. split; [by rewrite da_append_empty_r|].
  split; [intros k' i; by rewrite lookup_empty|]. split; [|by apply only_spks_scans].
  exact (grown_sub _ _ _ _ _ Hg).
Qed.
Lemma tr_look_to A hs x k t :
  good_env A → ki_inv A hs x → is_Some (ki_keychains x !! k) → t ≤ 2147483648 →
  ∃ x' hs', lookahead_to_target x k t = Ret x' ∧ tr A x hs x' hs' ∅ [] ∧ ki_lookahead x' = ki_lookahead x.
Proof.
  intros HA Hi Hk Hla. destruct (known_stored A hs x k Hi Hk) as (d & n & Hd & Hn).
  destruct (lookahead_to_ok A hs x k d n t HA Hi Hd Hn Hla) as (s' & h' & E & Hh & Hi' & Hg).
  eexists _, h'. split; [exact E|]. split; [|done]. split; [done|]. split; [done|]. split; [by rewrite da_append_empty_r|].
  split; [intros k' i; by rewrite lookup_empty|]. split; [|by apply only_spks_scans].
  exact (grown_sub _ _ _ _ _ Hg).
Qed.
Lemma tr_all A la l : ∀ hs x,
  good_env A → ki_inv A hs x → la ≤ 2147483648 → (∀ kd : K * Desc, kd ∈ l → is_Some (ki_keychains x !! kd.1)) →
  ∃ x' hs', foldl (λ s kd, x ← s; set_lookahead x kd.1 la) (Ret x) l = Ret x' ∧ tr A x hs x' hs' ∅ [] ∧
    (∀ k, ki_lookahead x' !! k = if bool_decide (k ∈ l.*1) then Some la else ki_lookahead x !! k).
Proof.
  induction l as [|kd l IH]; intros hs x HA Hi Hla Hl.
  - exists x, []. split; [done|]. split; [by apply tr_refl|]. intros k. rewrite bool_decide_false; [done|]. by apply not_elem_of_nil.
  - destruct (tr_set_lookahead A hs x kd.1 la HA Hi) as (x1 & hs1 & E & Ht & El); [by apply Hl; left|done|].
    cbn [foldl]. cbn [mbind outcome_bind]. rewrite E.
    destruct (IH (hs ++ hs1) x1 HA (proj1 Ht) Hla) as (x' & hs' & E' & Ht' & El').
    { intros kd' Hin. rewrite (proj1 (proj2 Ht)). apply Hl. by right. }
    exists x', (hs1 ++ hs'). split; [exact E'|]. split.
    + rewrite <- (da_append_empty_r ∅). eapply (tr_trans _ _ _ _ _ _ [] _ _ _ []); eauto.
    + intros k. rewrite El', El, fmap_cons. destruct (decide (k = kd.1)) as [->|Hne].
      * rewrite lookup_insert, (bool_decide_true (kd.1 ∈ kd.1 :: _)) by (by left). by case_bool_decide.
      * rewrite lookup_insert_ne by done. rewrite (bool_decide_ext (k ∈ kd.1 :: l.*1) (k ∈ l.*1)); [done|].
        rewrite elem_of_cons. naive_solver.
Qed.
Lemma tr_look_multi A l : ∀ hs x,
  good_env A → ki_inv A hs x → (∀ kt : K * N, kt ∈ l → is_Some (ki_keychains x !! kt.1) ∧ kt.2 ≤ 2147483648) →
  ∃ x' hs', foldl (λ s kt, x ← s; lookahead_to_target x kt.1 kt.2) (Ret x) l = Ret x' ∧ tr A x hs x' hs' ∅ [] ∧
    ki_lookahead x' = ki_lookahead x.
Proof.
  induction l as [|kt l IH]; intros hs x HA Hi Hl.
  - exists x, []. split; [done|]. split; [by apply tr_refl|]. done.
  - destruct (Hl kt) as [Hk Ht0]; [by left|].
    destruct (tr_look_to A hs x kt.1 kt.2 HA Hi Hk Ht0) as (x1 & hs1 & E & Ht & El).
    cbn [foldl]. cbn [mbind outcome_bind]. rewrite E.
    destruct (IH (hs ++ hs1) x1 HA (proj1 Ht)) as (x' & hs' & E' & Ht' & El').
    { intros kd' Hin. rewrite (proj1 (proj2 Ht)). apply Hl. by right. }
    exists x', (hs1 ++ hs'). split; [exact E'|]. split; [|congruence].
    rewrite <- (da_append_empty_r ∅). eapply (tr_trans _ _ _ _ _ _ [] _ _ _ []); eauto.
Qed.

(** Revealing within the bound. *)
Lemma reveals_bound d nr la t : t < cap d → reveals d nr la t = if bool_decide (t < nr) then None else Some t.
Proof.
  intros Ht. unfold reveals. repeat case_bool_decide; try done; [|lia]. f_equal. lia.
Qed.
Lemma target_cap d t : t ≤ bip32_max → target_of d t < cap d.
Proof. unfold target_of, cap. destruct (has_wildcard d); lia. Qed.
Definition reveal_ad x k (t : N) : gmap K N := if bool_decide (t < n_revealed x k) then ∅ else {[ k := t ]}.
Lemma tr_reveal A hs x k d t :
  good_env A → ki_inv A hs x → ki_keychains x !! k = Some d → target_of d t < cap d →
  ∃ x' hs', reveal_to_target x k t =
      Ret (x', range_spks d (n_revealed x k) (n_revealed x' k), reveal_ad x k (target_of d t)) ∧
    tr A x hs x' hs' (reveal_ad x k (target_of d t)) [] ∧ ki_lookahead x' = ki_lookahead x ∧
    n_revealed x' k = N.max (n_revealed x k) (target_of d t + 1) ∧
    (∀ k', k' ≠ k → ki_revealed x' !! k' = ki_revealed x !! k') ∧
    si_txouts (ki_inner x') = si_txouts (ki_inner x) ∧ si_spk_txouts (ki_inner x') = si_spk_txouts (ki_inner x) ∧
    (∃ n n', stored x k n ∧ grown x (ki_inner x') k n n').
Proof.
  intros HA Hi Hd Ht. destruct (core_stored A hs x k d (proj1 Hi) Hd) as (n & Hn & _).
  pose proof (cap_bound d) as [_ Hcb]. pose proof (proj2 (proj2 Hi) k) as Hla.
  destruct (reveal_ok A hs x k d n t HA Hi Hd Hn) as (s' & h' & Hh & Hsi & Hgr & Hr); [lia|].
  rewrite reveals_bound in Hr by done. unfold reveal_ad.
  assert (grown x s' k n (if bool_decide (n_revealed x k ≤ target_of d t) then N.max n (N.min (target_of d t + lookahead_of x k + 1) (cap d)) else n)) as Hgr' by done.
  destruct Hgr as (G1 & G2 & G3 & G4 & G5 & G6).
  destruct (bool_decide (target_of d t < n_revealed x k)) eqn:Hlt;
    [apply bool_decide_eq_true in Hlt|apply bool_decide_eq_false in Hlt]; cbn zeta in Hr.
  - destruct Hr as [E Hi']. exists (with_inner x s'), h'. split.
    { rewrite E. repeat f_equal. cbn. unfold range_spks. by rewrite N.sub_diag. }
    split.
    + split; [done|]. split; [done|]. split; [by rewrite da_append_empty_r|]. split; [intros k' i; by rewrite lookup_empty|].
      split; [by intros ki s; apply G3|]. by apply only_spks_scans.
    + split; [done|]. split; [change (n_revealed (with_inner x s') k) with (n_revealed x k); lia|]. split_and!; try done. eauto.
  - destruct Hr as (E & H1 & H2 & Hi'). eexists _, h'. split; [rewrite E; repeat f_equal|split].
    + unfold n_revealed. cbn [ki_revealed]. by rewrite lookup_insert.
    + split; [by apply Hi'|]. split; [done|]. cbn [ki_revealed]. split; [|split; [|split]].
      * apply map_eq. intros k'. rewrite da_append_lookup. destruct (decide (k' = k)) as [->|Hne].
        -- rewrite lookup_insert, lookup_singleton. unfold n_revealed in Hlt. destruct (ki_revealed x !! k); [|done]. f_equal. lia.
        -- rewrite lookup_insert_ne, lookup_singleton_ne by done. by destruct (ki_revealed x !! k').
      * intros k' i [<- <-]%lookup_singleton_Some. lia.
      * by intros ki s; apply G3.
      * by apply only_spks_scans.
    + split; [done|]. split.
      { unfold n_revealed at 1. cbn [ki_revealed]. rewrite lookup_insert. lia. }
      split; [|split_and!; try done; eauto]. intros k' Hne. cbn [ki_revealed]. by rewrite lookup_insert_ne.
Qed.
Lemma tr_reveal_multi A l : ∀ hs x (spks : gmap K (list (N * Script))) ad,
  good_env A → ki_inv A hs x → NoDup l.*1 → (∀ kt : K * N, kt ∈ l → is_Some (ki_keychains x !! kt.1) ∧ kt.2 ≤ bip32_max) →
  ∃ x' hs' spks' ad', foldl (λ s kt,
    '(x, spks, ad) ← s;
    '(x', new, ad') ← reveal_to_target x kt.1 kt.2;
    if da_is_empty ad' then Ret (x', spks, ad)
    else Ret (x', <[kt.1 := new]> spks, da_append ad ad')) (Ret (x, spks, ad)) l = Ret (x', spks', da_append ad ad') ∧
    tr A x hs x' hs' ad' [] ∧ ki_lookahead x' = ki_lookahead x ∧
    (∀ k, n_revealed x' k = match ki_keychains x !! k, list_find (λ kt, kt.1 = k) l with
       | Some d, Some (_, kt) => N.max (n_revealed x k) (target_of d kt.2 + 1)
       | _, _ => n_revealed x k end) ∧
    (∀ k, spks' !! k = match ki_keychains x !! k, list_find (λ kt, kt.1 = k) l with
       | Some d, Some (_, kt) => if bool_decide (target_of d kt.2 < n_revealed x k) then spks !! k
                                 else Some (range_spks d (n_revealed x k) (n_revealed x' k))
       | _, _ => spks !! k end).
Proof.
  induction l as [|[k0 t0] l IH]; intros hs x spks ad HA Hi Hnd Hl.
  - exists x, [], spks, ∅. rewrite da_append_empty_r. split; [done|]. split; [by apply tr_refl|]. split; [done|].
    split; intros k; by destruct (ki_keychains x !! k).
  - destruct (Hl (k0, t0)) as [[d Hd] Ht0]; [by left|]. cbn [fst snd] in *.
    destruct (tr_reveal A hs x k0 d t0 HA Hi Hd (target_cap d t0 Ht0)) as (x1 & hs1 & E & Ht & El & Er & Eo & _).
    rewrite fmap_cons in Hnd. apply NoDup_cons in Hnd as [Hni Hnd]. cbn [fst] in Hni.
    set (ad1 := reveal_ad x k0 (target_of d t0)) in *.
    set (spks1 := if da_is_empty ad1 then spks else <[k0 := range_spks d (n_revealed x k0) (n_revealed x1 k0)]> spks).
    destruct (IH (hs ++ hs1) x1 spks1 (da_append ad ad1) HA (proj1 Ht) Hnd) as (x' & hs' & spks' & ad' & E' & Ht' & El' & Er' & Es').
    { intros kd' Hin. rewrite (proj1 (proj2 Ht)). apply Hl. by right. }
    exists x', (hs1 ++ hs'), spks', (da_append ad1 ad'). split; [|split; [|split; [congruence|]]].
    + cbn [foldl fst snd]. cbn [mbind outcome_bind]. rewrite E. cbn [mbind outcome_bind].
      rewrite da_append_assoc, <- E'. f_equal. unfold spks1. destruct (da_is_empty ad1) eqn:Ee; [|done].
      unfold da_is_empty in Ee. apply bool_decide_eq_true in Ee. by rewrite Ee, da_append_empty_r.
    + eapply (tr_trans _ _ _ _ _ _ [] _ _ _ []); eauto.
    + assert (∀ k', k' ≠ k0 → n_revealed x1 k' = n_revealed x k') as Eo'.
      { intros k' Hne. unfold n_revealed. by rewrite Eo. }
      assert (list_find (λ kt : K * N, kt.1 = k0) l = None) as Hnone.
      { apply list_find_None. apply Forall_forall. intros kt Hkt Heq. apply Hni. rewrite <- Heq. by apply elem_of_list_fmap_1. }
      assert (∀ k', k' ≠ k0 → list_find (λ kt : K * N, kt.1 = k') ((k0, t0) :: l) = prod_map S id <$> list_find (λ kt, kt.1 = k') l) as Hsome.
      { intros k' Hne. cbn [list_find]. by rewrite decide_False by done. }
      assert (list_find (λ kt : K * N, kt.1 = k0) ((k0, t0) :: l) = Some (0%nat, (k0, t0))) as Hfst.
      { cbn [list_find]. by rewrite decide_True by done. }
      rewrite (proj1 (proj2 Ht)) in Er', Es'.
      assert (da_is_empty ad1 = bool_decide (target_of d t0 < n_revealed x k0)) as Eemp.
      { unfold ad1, reveal_ad, da_is_empty. destruct (bool_decide (target_of d t0 < n_revealed x k0)); [by apply bool_decide_eq_true|]. apply bool_decide_eq_false. intros Hz.
        apply (f_equal (λ m, m !! k0)) in Hz. by rewrite lookup_singleton, lookup_empty in Hz. }
      split; intros k.
      * rewrite Er'. destruct (decide (k = k0)) as [->|Hne].
        -- rewrite Hd, Hnone, Hfst. cbn [snd]. exact Er.
        -- rewrite Hsome, Eo' by done. destruct (ki_keychains x !! k); [|done].
           destruct (list_find (λ kt : K * N, kt.1 = k) l) as [[? [? ?]]|]; cbn; done.
      * rewrite Es'. destruct (decide (k = k0)) as [->|Hne].
        -- rewrite Hd, Hnone, Hfst. cbn [snd]. unfold spks1. rewrite Eemp.
           specialize (Er' k0). rewrite Hd, Hnone in Er'. rewrite Er'.
           case_bool_decide; [done|]. by rewrite lookup_insert.
        -- rewrite Hsome, Eo' by done.
           assert (spks1 !! k = spks !! k) as ->.
           { unfold spks1. destruct (da_is_empty ad1); [done|]. by rewrite lookup_insert_ne. }
           destruct (ki_keychains x !! k); [|done].
           destruct (list_find (λ kt : K * N, kt.1 = k) l) as [[? [? ?]]|]; cbn; done.
Qed.
End proofs.
