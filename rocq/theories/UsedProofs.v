(** Proofs about the summaries of a keychain index and of a changeset (C117). *)
From Verif Require Export SparseChainProofs KeychainExamples.
Local Open Scope N_scope.

(** ** The transactions a changeset adds *)
Section additions.
Context `{ChainPositionLaws P}.
Lemma additions_exact (c : SparseChain P) cs : NoDup (changeset_additions c cs) ∧ ∀ t, t ∈ changeset_additions c cs ↔ sc_pos c !! t = None ∧ is_Some (sc_pos (apply_changeset c cs) !! t).
Proof.
  unfold changeset_additions. split.
  - pose proof (NoDup_fst_bmap_list (cs_txids cs)) as Hn. revert Hn. induction (bmap_list (cs_txids cs)) as [|e l IH]; intros Hn; [constructor|].
    rewrite fmap_cons in Hn. apply NoDup_cons in Hn as [Hni Hn]. rewrite filter_cons. destruct (decide _); [|by apply IH]. rewrite fmap_cons. constructor; [|by apply IH].
    intros (e' & He & [_ Hin]%elem_of_list_filter)%elem_of_list_fmap. apply Hni. rewrite He. apply elem_of_list_fmap. by exists e'.
  - intros t. rewrite apply_changeset_pos, elem_of_list_fmap. split.
    + intros ([t' o] & -> & [[Hn Hp] Hin]%elem_of_list_filter). cbn [fst snd] in *. apply elem_of_bmap_list in Hin. rewrite Hin. split; [done|]. by destruct o.
    + intros [Hp [p Hs]]. destruct (cs_txids cs !! t) as [o|] eqn:Eo; [|congruence]. exists (t, o). split; [done|]. apply elem_of_list_filter. cbn [fst snd].
      split; [|by apply elem_of_bmap_list]. split; [by rewrite Hs|done].
Qed.
End additions.

Section used.
Context `{!DescEnv} `{Countable K, !Ord K, !OrdLaws K}.
Implicit Types (x : KIndex K) (k : K) (h : list (ki_op K)) (A : K → option Desc).

Lemma txout_bound A hs x k i o : ki_inv A hs x → (k, i, o) ∈ si_spk_txouts (ki_inner x) → SpkIndexSpec.op_ok o ∧ i < u32_max ∧ is_Some (ki_keychains x !! k).
Proof.
  intros Hi Hin. pose proof (proj1 (proj2 (proj1 Hi))) as Hg. destruct (si_good_inv hs (ki_inner x) Hg) as (I1 & I2 & _).
  apply I2 in Hin as (u & h1 & l & h2 & -> & Hl & Ht). split.
  { eapply (proj1 (proj2 Hg)); [|exact Hl]. apply elem_of_app. right. by left. }
  assert (si_index_of_spk (ki_inner x) (txo_spk u) = Some (k, i)) as Hs.
  { unfold si_index_of_spk. rewrite I1. destruct (hit_tracked (h1 ++ SiScan l :: h2) (k, i) o u) as (s0 & Hs0 & ->); [by exists h1, l, h2|done]. }
  destruct (tracked_paid A _ x k i _ Hi Hs) as (d & Hd & Hcap & _). pose proof (cap_bound d) as [_ Hcb]. unfold u32_max. split; [lia|eauto].
Qed.
Lemma txouts_listed A hs x k : ki_inv A hs x → ∃ l, txouts_of_keychain x k = Ret l ∧ StronglySorted ord_lt l ∧ ∀ i o, (i, o) ∈ l ↔ (k, i, o) ∈ si_spk_txouts (ki_inner x).
Proof.
  intros Hi. unfold txouts_of_keychain. pose proof (outputs_in_range_spec (ki_inner x) (Incl (k, 0)) (Excl (k, u32_max))) as Hs.
  assert (∀ k' i, ord_le (k, 0) (k', i) ∧ ord_lt (k', i) (k, u32_max) ↔ k' = k ∧ i < u32_max) as Hr.
  { intros k' i. rewrite prod_ord_le, prod_ord_lt. cbn [fst snd]. rewrite N_ord_lt. split.
    - intros [[Hlt|[E _]] [Hgt|[E' Hx]]]; [|subst; by apply ord_lt_irrefl in Hlt|subst; by apply ord_lt_irrefl in Hgt|done].
      exfalso. apply (ord_lt_irrefl k). by eapply ord_lt_trans.
    - intros [-> Hx]. split; right; (split; [done|]); [|done]. apply N_ord_le. lia. }
  destruct (si_outputs_in_range _ _ _) as [l|].
  - destruct Hs as (_ & Hsort & Hl). { intros [k' i] o Hin. by apply (txout_bound A hs x k' i o). }
    cbn [mbind outcome_bind]. eexists. split; [done|].
    assert (∀ k' i o, (k', i, o) ∈ l → k' = k) as Hk. { intros k' i o Hin. apply Hl in Hin as (_ & Ha & Hb). by apply (Hr k' i). }
    split.
    + clear Hl. induction Hsort as [|[[k1 i1] o1] l Hsort IH Hf]; [constructor|]. rewrite fmap_cons. constructor.
      * apply IH. intros k' i o Hin. apply (Hk k' i o). by right.
      * apply Forall_forall. intros [i o] Hin. apply elem_of_list_fmap in Hin as ([[k2 i2] o2] & [= -> ->] & Hin).
        pose proof (proj1 (Forall_forall _ _) Hf _ Hin) as Hlt. assert (k1 = k) as -> by (eapply Hk; by left). assert (k2 = k) as -> by (eapply Hk; by right).
        cbn [fst snd]. apply prod_ord_lt in Hlt. apply prod_ord_lt. cbn [fst snd] in *. destruct Hlt as [Hlt|[[= ->] Hlt]]; [left|by right].
        apply prod_ord_lt in Hlt as [Hlt|[_ Hlt]]; [by apply ord_lt_irrefl in Hlt|done].
    + intros i o. rewrite elem_of_list_fmap. split.
      * intros ([[k' i'] o'] & [= -> ->] & Hin). pose proof (Hk _ _ _ Hin) as ->. by apply Hl in Hin as [Hin _].
      * intros Hin. exists (k, i, o). split; [done|]. apply Hl. split; [done|]. apply (Hr k i). split; [done|]. by apply (txout_bound A hs x k i o).
  - exfalso. assert (range_bad (Incl (k, 0)) (Excl (k, u32_max)) = true) as Hb. { apply Hs. intros [k' i] o Hin. by apply (txout_bound A hs x k' i o). }
    cbn [range_bad] in Hb. apply bool_decide_eq_true in Hb. apply prod_ord_lt in Hb as [Hb|[_ Hb]]; [by apply ord_lt_irrefl in Hb|]. cbn [fst snd] in Hb. apply N_ord_lt in Hb. by apply N.nlt_0_r in Hb.
Qed.
(** The highest index with an output. *)
Definition last_used x k (i : option N) : Prop :=
  match i with
  | None => ∀ j o, (k, j, o) ∉ si_spk_txouts (ki_inner x)
  | Some i => (∃ o, (k, i, o) ∈ si_spk_txouts (ki_inner x)) ∧ ∀ j o, (k, j, o) ∈ si_spk_txouts (ki_inner x) → j ≤ i
  end.
Lemma last_used_ok A hs x k : ki_inv A hs x → ∃ i, last_used_index x k = Ret i ∧ last_used x k i.
Proof.
  intros Hi. destruct (txouts_listed A hs x k Hi) as (l & El & Hsort & Hl). unfold last_used_index. rewrite El. cbn [mbind outcome_bind].
  eexists. split; [done|]. destruct (last l) as [[i o]|] eqn:Ela.
  - cbn. apply last_Some in Ela as [l' ->]. split; [exists o; apply Hl; apply elem_of_app; right; by left|].
    intros j o' Hin. apply Hl in Hin. apply elem_of_app in Hin as [Hin|Hin%elem_of_list_singleton]; [|injection Hin as -> ->; done].
    pose proof (elem_of_StronglySorted_app _ _ _ (j, o') (i, o) Hsort Hin ltac:(by left)) as Hlt. apply prod_ord_lt in Hlt. cbn [fst snd] in Hlt. rewrite N_ord_lt in Hlt. lia.
  - apply last_None in Ela as ->. cbn. intros j o Hin. apply Hl in Hin. by apply elem_of_nil in Hin.
Qed.

(** Collecting an answer for every keychain *)
Lemma collect_ok {Y} (st : K → gmap K Y → outcome (gmap K Y)) (R : K → option Y → Prop) (l : list (K * Desc)) :
  (∀ k m, k ∈ l.*1 → m !! k = None → ∃ m', st k m = Ret m' ∧ R k (m' !! k) ∧ ∀ k', k' ≠ k → m' !! k' = m !! k') → NoDup l.*1 →
  ∀ m, (∀ k, k ∈ l.*1 → m !! k = None) → ∃ m', foldl (λ s kd, m ← s; st kd.1 m) (Ret m) l = Ret m' ∧ (∀ k, k ∈ l.*1 → R k (m' !! k)) ∧ ∀ k, k ∉ l.*1 → m' !! k = m !! k.
Proof.
  induction l as [|[k d] l IH]; intros Hst Hn m Hm; [exists m; split; [done|]; split; [by intros k Hk%elem_of_nil|done]|].
  rewrite fmap_cons in *. cbn [fst] in *. apply NoDup_cons in Hn as [Hni Hn].
  destruct (Hst k m) as (m1 & E1 & R1 & O1); [by left|apply Hm; by left|].
  destruct (IH) with (m := m1) as (m' & E & HR & HO); [intros k' m0 Hin; apply Hst; by right|done| |].
  { intros k' Hin. rewrite O1; [apply Hm; by right|]. by intros ->. }
  exists m'. cbn [foldl mbind outcome_bind fst]. rewrite E1. split; [exact E|]. split.
  - intros k' [->|Hin]%elem_of_cons; [by rewrite HO|by apply HR].
  - intros k' Hni'. apply not_elem_of_cons in Hni' as [Hne Hni']. rewrite HO by done. by apply O1.
Qed.
Lemma keychain_listed x k : k ∈ (bmap_list (ki_keychains x)).*1 ↔ is_Some (ki_keychains x !! k).
Proof.
  rewrite elem_of_list_fmap. split; [intros ([k' d] & -> & Hin%elem_of_bmap_list); by exists d|]. intros [d Hd]. exists (k, d). split; [done|]. by apply elem_of_bmap_list.
Qed.
Lemma last_all_ok A hs x : ki_inv A hs x → ∃ m, last_used_indices x = Ret m ∧ ∀ k, last_used x k (m !! k).
Proof.
  intros Hi. unfold last_used_indices.
  destruct (collect_ok (λ k m, i ← last_used_index x k; Ret (match i with Some i => <[k := i]> m | None => m end)) (last_used x) (bmap_list (ki_keychains x)))
    with (m := (∅ : gmap K N)) as (m & E & HR & HO).
  - intros k m _ Hm. destruct (last_used_ok A hs x k Hi) as (i & Ei & Hl). rewrite Ei. cbn [mbind outcome_bind]. eexists. split; [done|]. destruct i as [i|].
    + rewrite lookup_insert. split; [done|]. intros k' Hne. by rewrite lookup_insert_ne.
    + by rewrite Hm.
  - apply NoDup_fst_bmap_list.
  - intros k _. apply lookup_empty.
  - exists m. split; [exact E|]. intros k. destruct (decide (k ∈ (bmap_list (ki_keychains x)).*1)) as [Hk|Hk]; [by apply HR|].
    rewrite HO, lookup_empty by done. intros j o Hin. apply Hk, keychain_listed. by apply (txout_bound A hs x k j o).
Qed.
Lemma revealed_all_ok A hs x : good_env A → ki_inv A hs x → ∃ m, revealed_spks_of_all_keychains x = Ret m ∧
  ∀ k, match m !! k with Some l => ∃ d, ki_keychains x !! k = Some d ∧ derived d 0 (n_revealed x k) l | None => ki_keychains x !! k = None end.
Proof.
  intros HA Hi. unfold revealed_spks_of_all_keychains.
  destruct (collect_ok (λ k m, l ← revealed_spks_of_keychain x k; Ret (<[k := l]> m))
    (λ k l, match l with Some l => ∃ d, ki_keychains x !! k = Some d ∧ derived d 0 (n_revealed x k) l | None => False end) (bmap_list (ki_keychains x)))
    with (m := (∅ : gmap K (list (N * Script)))) as (m & E & HR & HO).
  - intros k m [d Hd]%keychain_listed Hm. destruct (revealed_list_ok A hs x k d HA Hi Hd) as (l & El & Hl). rewrite El. cbn [mbind outcome_bind]. eexists. split; [done|].
    rewrite lookup_insert. split; [by exists d|]. intros k' Hne. by rewrite lookup_insert_ne.
  - apply NoDup_fst_bmap_list.
  - intros k _. apply lookup_empty.
  - exists m. split; [exact E|]. intros k. destruct (decide (k ∈ (bmap_list (ki_keychains x)).*1)) as [Hk|Hk].
    + pose proof (HR k Hk) as Hr. by destruct (m !! k).
    + rewrite HO, lookup_empty by done. rewrite keychain_listed in Hk. destruct (ki_keychains x !! k); [|done]. destruct Hk. by eexists.
Qed.

(** ** For every history *)
Lemma hist_txouts A h x outs acc k : good_env A → ki_hist_ok A h → ki_run h = Ret (x, outs, acc) →
  ∃ l, txouts_of_keychain x k = Ret l ∧ StronglySorted ord_lt l ∧ ∀ i o, (i, o) ∈ l ↔ (k, i, o) ∈ si_spk_txouts (ki_inner x).
Proof. intros HA Hh E. destruct (hist_run' A h x outs acc HA Hh E) as [hs Hi]. exact (txouts_listed A hs x k (proj1 Hi)). Qed.
Lemma hist_last_used A h x outs acc : good_env A → ki_hist_ok A h → ki_run h = Ret (x, outs, acc) →
  ∃ m, last_used_indices x = Ret m ∧ ∀ k, last_used_index x k = Ret (m !! k) ∧
    match m !! k with
    | None => ∀ j o, (k, j, o) ∉ si_spk_txouts (ki_inner x)
    | Some i => (∃ o, (k, i, o) ∈ si_spk_txouts (ki_inner x)) ∧ ∀ j o, (k, j, o) ∈ si_spk_txouts (ki_inner x) → j ≤ i
    end.
Proof.
  intros HA Hh E. destruct (hist_run' A h x outs acc HA Hh E) as [hs Hi]. destruct (last_all_ok A hs x (proj1 Hi)) as (m & Em & Hm). exists m. split; [done|].
  intros k. split; [|exact (Hm k)]. destruct (last_used_ok A hs x k (proj1 Hi)) as (i & -> & Hl). f_equal. specialize (Hm k).
  destruct i as [i|], (m !! k) as [j|]; cbn in *; [| | |done].
  - destruct Hl as [[o Ho] Hmax], Hm as [[o' Ho'] Hmax']. f_equal. apply N.le_antisymm; eauto.
  - destruct Hl as [[o Ho] _]. by destruct (Hm i o).
  - destruct Hm as [[o Ho] _]. by destruct (Hl j o).
Qed.
Lemma hist_revealed_all A h x outs acc : good_env A → ki_hist_ok A h → ki_run h = Ret (x, outs, acc) →
  ∃ m, revealed_spks_of_all_keychains x = Ret m ∧
  ∀ k, match m !! k with Some l => known h k ∧ ∃ d, A k = Some d ∧ derived d 0 (n_revealed x k) l | None => ¬ known h k end.
Proof.
  intros HA Hh E. destruct (hist_run' A h x outs acc HA Hh E) as [hs Hi]. destruct (revealed_all_ok A hs x HA (proj1 Hi)) as (m & Em & Hm). exists m. split; [done|].
  intros k. specialize (Hm k). destruct (m !! k) as [l|]; rewrite (known_keychain _ _ _ _ _ _ k Hi).
  - destruct Hm as (d & Hd & Hl). split; [by exists d|]. exists d. split; [|done]. by apply (proj1 (proj1 (proj1 Hi))).
  - rewrite Hm. by intros [? ?].
Qed.
Lemma hist_spks A h x outs acc k : good_env A → ki_hist_ok A h → ki_run h = Ret (x, outs, acc) →
  match spks_of_keychain x k with Ret l => known h k ∧ ∃ d, A k = Some d ∧ derived d 0 (cap d) l | Panic => ¬ known h k end.
Proof.
  intros HA Hh E. destruct (hist_run' A h x outs acc HA Hh E) as [hs Hi]. unfold spks_of_keychain. pose proof (known_keychain _ _ _ _ _ _ k Hi) as Hk.
  destruct (ki_keychains x !! k) as [d|] eqn:Ed; rewrite Hk; [|by intros [? ?]]. split; [by eexists|]. pose proof (proj1 (proj1 (proj1 Hi)) _ _ Ed) as Ha. exists d. split; [done|].
  pose proof (range_spks_spec d 0 (bip32_max + 1) (proj1 HA _ _ Ha)) as Hr. replace (N.min (bip32_max + 1) (cap d)) with (cap d) in Hr; [done|].
  pose proof (cap_bound d). assert (bip32_max = 1073741824) as -> by reflexivity. lia.
Qed.
End used.
