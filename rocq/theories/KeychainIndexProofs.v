(** Proofs about the keychain index: ranges of scripts, storing, revealing. *)
From Verif Require Export KeychainIndexSpec SpkIndexProofs.

(** ** Lists *)
Lemma filter_fst {A B} (Q : A → Prop) `{∀ a, Decision (Q a)} (l : list (A * B)) :
  (filter (λ ab, Q ab.1) l).*1 = filter Q l.*1.
Proof.
  induction l as [|[a b] l IH]; [done|]. rewrite fmap_cons, !filter_cons. cbn [fst].
  destruct (decide (Q a)); [cbn; by rewrite <- IH|exact IH].
Qed.
Lemma last_fst {A B} (l : list (A * B)) : last l.*1 = fst <$> last l.
Proof. apply fmap_last. Qed.
Lemma last_filter_keys `{OrdLaws A, !EqDecision A, !Countable A} {V} (m : gmap A V) (Q : A → Prop) `{∀ a, Decision (Q a)} :
  match last (filter (λ kv, Q kv.1) (bmap_list m)) with
  | Some (k, v) => m !! k = Some v ∧ Q k ∧ ∀ k' v', m !! k' = Some v' → Q k' → ord_le k' k
  | None => ∀ k' v', m !! k' = Some v' → ¬ Q k'
  end.
Proof.
  set (L := filter (λ kv, Q kv.1) (bmap_list m)).
  assert (∀ k v, (k, v) ∈ L ↔ m !! k = Some v ∧ Q k) as HL.
  { intros k v. unfold L. rewrite elem_of_list_filter, elem_of_bmap_list. cbn [fst]. tauto. }
  destruct (last L) as [[k v]|] eqn:E.
  - assert ((k, v) ∈ L) as Hin by (by apply last_Some_elem_of).
    apply HL in Hin as [Hm Hq]. split; [done|]. split; [done|]. intros k' v' Hm' Hq'.
    assert (StronglySorted ord_lt L.*1) as Hs.
    { unfold L. rewrite filter_fst. apply StronglySorted_filter, bmap_list_sorted. }
    destruct (last_sorted_max _ k Hs) as [_ Hx].
    + by rewrite last_fst, E.
    + apply Hx. apply elem_of_list_fmap. exists (k', v'). split; [done|]. by apply HL.
  - intros k' v' Hm Hq. apply last_None in E. assert ((k', v') ∈ L) as Hin by (by apply HL).
    rewrite E in Hin. by apply elem_of_nil in Hin.
Qed.

Lemma sorted_lt_NoDup (l : list N) : StronglySorted N.lt l → NoDup l.
Proof.
  induction 1 as [|a l Hs IH HF]; [constructor|]. constructor; [|done]. intros Hin.
  rewrite Forall_forall in HF. apply HF in Hin. lia.
Qed.

Section proofs.
Context `{!DescEnv} `{Countable K, !Ord K, !OrdLaws K}.
Implicit Types (x : KIndex K) (k : K).

Lemma bip32_max_val : bip32_max = 1073741824. Proof. done. Qed.
Lemma cap_bound d : 1 ≤ cap d ∧ cap d ≤ 1073741825.
Proof. unfold cap. rewrite bip32_max_val. destruct (has_wildcard d); lia. Qed.
Lemma add_u32_ok a b : a + b ≤ 4294967295 → add_u32 a b = Ret (a + b).
Proof. intros. unfold add_u32, u32_max. by rewrite bool_decide_true. Qed.

(** ** Ranges of scripts *)
Lemma range_go_spec d : good_desc d → ∀ n i,
  StronglySorted N.lt (range_spks_go d n i).*1 ∧
  ∀ j s, (j, s) ∈ range_spks_go d n i ↔ i ≤ j ∧ j < i + N.of_nat n ∧ j < cap d ∧ derive d j = Some s.
Proof.
  intros Hg. induction n as [|n IH]; intros i.
  - cbn. split; [constructor|]. intros j s. rewrite elem_of_nil. split; [done|]. lia.
  - cbn [range_spks_go]. destruct (IH (i + 1)) as [IHs IHe].
    assert (i < cap d ↔ has_wildcard d || bool_decide (i = 0) = true ∧ bool_decide (i ≤ bip32_max) = true) as Hc.
    { unfold cap. rewrite orb_true_iff, !bool_decide_eq_true. destruct (has_wildcard d); lia. }
    destruct (decide (i < cap d)) as [Hi|Hi].
    + destruct (proj1 Hc Hi) as [-> ->]. destruct (Hg i Hi) as [s0 Es]. rewrite Es. split.
      * cbn. constructor; [done|]. apply Forall_forall. intros j Hj.
        apply elem_of_list_fmap in Hj as ([j' s] & -> & Hj). apply IHe in Hj. cbn. lia.
      * intros j s. rewrite elem_of_cons, IHe. split.
        -- intros [[= -> ->]|Hj]; [|split_and!; try lia; tauto]. split_and!; [lia..|done].
        -- intros (H1 & H2 & H3 & H4). destruct (decide (j = i)) as [->|]; [left; congruence|right]. split_and!; [lia..|done].
    + assert ((if has_wildcard d || bool_decide (i = 0) then
        if bool_decide (i ≤ bip32_max) then match derive d i with Some s => (i, s) :: range_spks_go d n (i + 1) | None => [] end
        else [] else []) = []) as ->.
      { destruct (has_wildcard d || bool_decide (i = 0)) eqn:E1; [|done].
        destruct (bool_decide (i ≤ bip32_max)) eqn:E2; [|done]. destruct Hi. by apply Hc. }
      split; [constructor|]. intros j s. rewrite elem_of_nil. split; [done|]. lia.
Qed.
Lemma range_spks_spec d lo hi : good_desc d →
  derived d lo (N.min hi (cap d)) (range_spks d lo hi).
Proof.
  intros Hg. unfold range_spks, derived. destruct (range_go_spec d Hg (N.to_nat (hi - lo)) lo) as [Hs He].
  split; [done|]. intros i s. rewrite He, N2Nat.id. split; intros; destruct_and?; split_and!; try lia; done.
Qed.

(** ** Storing scripts *)
(** The inner index is the result of [hs], all of whose insertions took effect. *)
Definition si_good (hs : list (si_op (K * N))) (s : SpkIndex (K * N)) : Prop :=
  si_run hs = Ret s ∧ scans_ok hs ∧ indices_once hs ∧ ∀ ki spk, SiSpk ki spk ∈ hs → si_spks s !! ki = Some spk.
Lemma si_good_inv hs s : si_good hs s → si_inv hs s.
Proof.
  intros (E & Hs & _). destruct (si_run_inv hs Hs) as (s' & E' & Hi). by replace s with s' by congruence.
Qed.
Lemma si_good_inverse hs s ki spk : si_good hs s → si_spks s !! ki = Some spk ↔ si_indices s !! spk = Some ki.
Proof.
  intros Hg. destruct (si_good_inv hs s Hg) as (I1 & _ & _ & _ & I5 & _).
  destruct Hg as (_ & _ & Ho & _). rewrite I1. by apply I5.
Qed.
Lemma si_good_spk hs s ki spk :
  si_good hs s → si_spks s !! ki = None → si_indices s !! spk = None →
  ∃ s', si_insert_spk s ki spk = (s', true) ∧ si_good (hs ++ [SiSpk ki spk]) s' ∧
    si_spks s' = <[ki := spk]> (si_spks s) ∧ si_indices s' = <[spk := ki]> (si_indices s) ∧ si_txouts s' = si_txouts s ∧ si_spk_txouts s' = si_spk_txouts s ∧
    si_unused s' = {[ ki ]} ∪ si_unused s.
Proof.
  intros (E & Hs & Ho & Hin) Hk Hi. unfold si_insert_spk. rewrite Hi. eexists. split; [done|]. split; [|done].
  split; [|split; [|split]].
  - rewrite si_run_snoc, E. cbn [si_step]. unfold si_insert_spk. by rewrite Hi.
  - intros l o u Hl. apply elem_of_app in Hl as [Hl|Hl]; [by eapply Hs|]. by apply elem_of_list_singleton in Hl.
  - unfold indices_once. rewrite omap_app, NoDup_app. split; [done|]. split; [|by apply NoDup_singleton].
    intros j Hj Hj'. apply elem_of_list_singleton in Hj' as ->.
    apply elem_of_list_omap in Hj as (op & Hop & Ej). destruct op; simplify_eq/=. apply Hin in Hop. congruence.
  - intros kj spk' Hl. cbn [si_spks]. apply elem_of_app in Hl as [Hl|Hl].
    + apply Hin in Hl. rewrite lookup_insert_ne; [done|]. congruence.
    + apply elem_of_list_singleton in Hl as [= -> ->]. apply lookup_insert.
Qed.
Lemma store_ok k l : ∀ s hs,
  si_good hs s → NoDup l.*1 → NoDup l.*2 →
  (∀ i spk, (i, spk) ∈ l → si_spks s !! (k, i) = None ∧ si_indices s !! spk = None) →
  ∃ s', store_spks s k l = Ret s' ∧ si_good (hs ++ ((λ is, SiSpk (k, is.1) is.2) <$> l)) s' ∧
    (∀ ki spk, si_spks s' !! ki = Some spk ↔ si_spks s !! ki = Some spk ∨ ∃ i, ki = (k, i) ∧ (i, spk) ∈ l) ∧
    si_txouts s' = si_txouts s ∧ si_spk_txouts s' = si_spk_txouts s ∧
    (∀ ki, ki ∈ si_unused s' ↔ ki ∈ si_unused s ∨ ∃ i, ki = (k, i) ∧ i ∈ l.*1).
Proof.
  induction l as [|[i spk] l IH]; intros s hs Hg Hn1 Hn2 Hf.
  - exists s. split; [done|]. split; [by rewrite app_nil_r|]. setoid_rewrite elem_of_nil. naive_solver.
  - destruct (Hf i spk) as [Hk Hi]; [by left|].
    destruct (si_good_spk hs s (k, i) spk Hg Hk Hi) as (s1 & E & Hg1 & Es & Ei & Et & Est & Eu).
    rewrite fmap_cons in Hn1, Hn2. apply NoDup_cons in Hn1 as [Hni Hn1], Hn2 as [Hns Hn2]. cbn [fst snd] in Hni, Hns.
    destruct (IH s1 _ Hg1 Hn1 Hn2) as (s' & E' & Hg' & Hs' & Et' & Est' & Hu').
    { intros j spk' Hj. destruct (Hf j spk') as [Hk' Hi']; [by right|].
      split.
      - rewrite Es, lookup_insert_ne; [done|]. intros [= ->]. apply Hni. apply elem_of_list_fmap. by exists (j, spk').
      - rewrite Ei, lookup_insert_ne; [done|]. intros ->. apply Hns. apply elem_of_list_fmap. by exists (j, spk'). }
    exists s'. cbn [store_spks]. rewrite E. cbn [fst snd]. split; [done|]. split.
    { rewrite fmap_cons. cbn [fst snd]. by rewrite <- app_assoc in Hg'. }
    split; [|split; [congruence|split; [congruence|]]].
    + intros ki spk'. rewrite Hs', Es. setoid_rewrite elem_of_cons. destruct (decide (ki = (k, i))) as [->|Hne].
      * rewrite lookup_insert. split.
        -- intros [[= ->]|(j & [= <-] & Hj)]; [eauto 10|]. destruct Hni. apply elem_of_list_fmap. by exists (i, spk').
        -- intros [?|(j & [= <-] & [[= ->]|Hj])]; [congruence|by left|right; eauto].
      * rewrite lookup_insert_ne by done. split; [naive_solver|].
        intros [?|(j & -> & [[= -> ->]|Hj])]; [by left|done|right; eauto].
    + intros ki. rewrite Hu', Eu, elem_of_union, elem_of_singleton, fmap_cons. setoid_rewrite elem_of_cons. cbn [fst]. naive_solver.
Qed.

(** ** The invariant *)
Definition core (A : K → option Desc) (hs : list (si_op (K * N))) x : Prop :=
  (∀ k d, ki_keychains x !! k = Some d → A k = Some d) ∧
  si_good hs (ki_inner x) ∧
  (∀ k i s, si_spks (ki_inner x) !! (k, i) = Some s → ∃ d, ki_keychains x !! k = Some d ∧ derive d i = Some s) ∧
  (∀ k d, ki_keychains x !! k = Some d → ∃ n, stored x k n ∧ n ≤ cap d ∧ n_revealed x k ≤ n) ∧
  (∀ k, is_Some (ki_revealed x !! k) → is_Some (ki_keychains x !! k)).
Definition look_ok x : Prop :=
  (∀ k d n, ki_keychains x !! k = Some d → stored x k n → N.min (cap d) (n_revealed x k + lookahead_of x k) ≤ n) ∧
  (∀ k, lookahead_of x k ≤ 2147483648).
Definition ki_inv A hs x : Prop := core A hs x ∧ look_ok x.

Lemma stored_fun x k n n' : stored x k n → stored x k n' → n = n'.
Proof.
  intros Hn Hn'. destruct (N.lt_trichotomy n n') as [Hl|[|Hl]]; [|done|].
  - assert (n < n); [|lia]. apply Hn, Hn'. done.
  - assert (n' < n'); [|lia]. apply Hn', Hn. done.
Qed.
Lemma next_store_ok x k n : stored x k n → n ≤ 1073741825 → next_store_index x k = Ret n.
Proof.
  intros Hs Hb. unfold next_store_index.
  pose proof (last_filter_keys (si_spks (ki_inner x)) (λ kv, ord_le (k, 0) kv ∧ ord_lt kv (k, u32_max))) as Hl.
  assert (∀ k' i, ord_le (k, 0) (k', i) ∧ ord_lt (k', i) (k, u32_max) ↔ k' = k ∧ i < u32_max) as Hr.
  { intros k' i. rewrite prod_ord_le, prod_ord_lt. cbn [fst snd]. rewrite N_ord_lt. split.
    - intros [[Hlt|[E _]] [Hgt|[E' Hi]]]; [|subst; by apply ord_lt_irrefl in Hlt|subst; by apply ord_lt_irrefl in Hgt|done].
      exfalso. apply (ord_lt_irrefl k). by eapply ord_lt_trans.
    - intros [-> Hi]. split; right; (split; [done|]); [|done]. apply N_ord_le. lia. }
  destruct (last _) as [[[k' i] s]|].
  - destruct Hl as (Hm & Hq & Hmax). apply Hr in Hq as [-> Hi]. cbn [fst snd].
    assert (i < n) as Hin by (apply Hs; eauto).
    assert (n - 1 ≤ i) as Hle.
    { destruct (proj2 (Hs (n - 1))) as [s' Hs']; [lia|]. apply Hmax in Hs' as Hle.
      - apply prod_ord_le in Hle as [Hx|[_ Hx]]; [by apply ord_lt_irrefl in Hx|]. by apply N_ord_le in Hx.
      - apply Hr. split; [done|]. unfold u32_max. lia. }
    rewrite add_u32_ok by lia. f_equal. lia.
  - f_equal. destruct (decide (n = 0)) as [|Hne]; [done|]. exfalso.
    destruct (proj2 (Hs 0)) as [s' Hs']; [lia|]. apply (Hl _ _ Hs'). apply Hr. done.
Qed.
Lemma next_reveal_ok x k n : n_revealed x k ≤ n → n ≤ 1073741825 → next_reveal x k = Ret (n_revealed x k).
Proof.
  unfold next_reveal, n_revealed. destruct (ki_revealed x !! k) as [v|]; [|done]. intros. apply add_u32_ok. lia.
Qed.

(** Storing the missing scripts of a keychain up to [hi]. *)
Lemma extend A hs x k d n lo hi :
  good_env A → core A hs x → ki_keychains x !! k = Some d → stored x k n → n ≤ cap d →
  lo ≤ n ∨ cap d ≤ n →
  ∃ s' h', store_spks (ki_inner x) k (filter (λ is, n ≤ is.1) (range_spks d lo hi)) = Ret s' ∧
    si_good (hs ++ h') s' ∧ (∀ op, op ∈ h' → ∃ ki spk, op = SiSpk ki spk) ∧
    (∀ ki spk, si_spks s' !! ki = Some spk ↔ si_spks (ki_inner x) !! ki = Some spk ∨
       ∃ i, ki = (k, i) ∧ n ≤ i ∧ i < N.min hi (cap d) ∧ derive d i = Some spk) ∧
    si_txouts s' = si_txouts (ki_inner x) ∧ si_spk_txouts s' = si_spk_txouts (ki_inner x) ∧
    (∀ ki, ki ∈ si_unused s' ↔ ki ∈ si_unused (ki_inner x) ∨ ∃ i, ki = (k, i) ∧ n ≤ i ∧ i < N.min hi (cap d)).
Proof.
  intros [HA1 HA2] (C1 & C2 & C3 & C4 & C5) Hk Hn Hcap Hlo.
  pose proof (C1 k d Hk) as HAk. pose proof (HA1 k d HAk) as Hg.
  destruct (range_spks_spec d lo hi Hg) as [Hsort He].
  set (l := filter (λ is : N * Script, n ≤ is.1) (range_spks d lo hi)).
  assert (∀ i s, (i, s) ∈ l ↔ n ≤ i ∧ i < N.min hi (cap d) ∧ derive d i = Some s) as Hl.
  { intros i s. unfold l. rewrite elem_of_list_filter, He. cbn [fst]. split; intros; destruct_and?; split_and!; try done; lia. }
  assert (StronglySorted N.lt l.*1) as Hsl.
  { unfold l. rewrite (filter_fst (λ i, n ≤ i)). by apply StronglySorted_filter. }
  assert (NoDup l.*1) as Hnd1.
  { by apply sorted_lt_NoDup. }
  assert (NoDup l.*2) as Hnd2.
  { assert (∀ i j s, (i, s) ∈ l → (j, s) ∈ l → i = j) as Hinj.
    { intros i j s Hi Hj. apply Hl in Hi as (? & ? & ?), Hj as (? & ? & ?).
      eapply (HA2 k k d d); try done; lia. }
    clear -Hinj Hnd1. induction l as [|[i s] l IH]; [constructor|]. rewrite fmap_cons in Hnd1.
    apply NoDup_cons in Hnd1 as [Hni Hnd]. rewrite fmap_cons. apply NoDup_cons. split.
    - intros Hin. apply elem_of_list_fmap in Hin as ([j s'] & E & Hin). cbn in E. subst s'. apply Hni.
      assert (i = j) as -> by (eapply Hinj; [by left|by right]). apply elem_of_list_fmap. by exists (j, s).
    - apply IH; [done|]. intros i1 j1 s1 Hi1 Hj1. apply (Hinj i1 j1 s1); by right. }
  destruct (store_ok k l (ki_inner x) hs C2 Hnd1 Hnd2) as (s' & E & Hg' & Hs' & Et & Est & Hu).
  { intros i spk Hi. apply Hl in Hi as (Hi & Hi' & Hd). split.
    - destruct (si_spks (ki_inner x) !! (k, i)) eqn:Es; [|done]. assert (i < n); [|lia]. apply Hn. unfold si_spk_at. eauto.
    - destruct (si_indices (ki_inner x) !! spk) as [[k' i']|] eqn:Es; [|done].
      apply (si_good_inverse hs) in Es; [|done]. destruct (C3 _ _ _ Es) as (d' & Hk' & Hd').
      destruct (C4 _ _ Hk') as (n' & Hn' & Hc' & _). assert (i' < n') by (apply Hn'; unfold si_spk_at; eauto).
      destruct (HA2 k k' d d' i i' spk) as [<- <-]; try done; [by apply C1|lia|lia|].
      rewrite (stored_fun x k n n') in * by done. lia. }
  exists s'. eexists. split; [exact E|]. split; [exact Hg'|]. split.
  { intros op Hop. apply elem_of_list_fmap in Hop as (is & -> & _). eauto. }
  split; [|split; [done|split; [done|]]].
  - intros ki spk. rewrite Hs'. setoid_rewrite Hl. done.
  - intros ki. rewrite Hu. setoid_rewrite elem_of_list_fmap. split; (intros [?|(i & -> & Hi)]; [by left|right]).
    + destruct Hi as ([j s] & -> & Hj). apply Hl in Hj. exists j. tauto.
    + exists i. split; [done|]. destruct (Hg i) as [s Es]; [lia|]. exists (i, s). split; [done|]. apply Hl. tauto.
Qed.
(** The same as a change of state, with [n'] scripts stored afterwards. *)
Lemma extend_core A hs x k d n lo hi :
  good_env A → core A hs x → ki_keychains x !! k = Some d → stored x k n → n ≤ cap d →
  lo ≤ n ∨ cap d ≤ n →
  ∃ s' h', store_spks (ki_inner x) k (filter (λ is, n ≤ is.1) (range_spks d lo hi)) = Ret s' ∧
    (∀ op, op ∈ h' → ∃ ki spk, op = SiSpk ki spk) ∧
    core A (hs ++ h') (with_inner x s') ∧
    stored (with_inner x s') k (N.max n (N.min hi (cap d))) ∧
    (∀ k' n', k' ≠ k → stored (with_inner x s') k' n' ↔ stored x k' n') ∧
    (∀ ki spk, si_spks (ki_inner x) !! ki = Some spk → si_spks s' !! ki = Some spk) ∧
    si_txouts s' = si_txouts (ki_inner x) ∧ si_spk_txouts s' = si_spk_txouts (ki_inner x) ∧
    (∀ ki, ki ∈ si_unused s' ↔ ki ∈ si_unused (ki_inner x) ∨ ∃ i, ki = (k, i) ∧ n ≤ i ∧ i < N.min hi (cap d)).
Proof.
  intros HA Hc Hk Hn Hcap Hlo. destruct (extend A hs x k d n lo hi HA Hc Hk Hn Hcap Hlo) as (s' & h' & E & Hg & Hh & Hs & Et & Est & Hu).
  exists s', h'. split; [done|]. split; [done|].
  assert (stored (with_inner x s') k (N.max n (N.min hi (cap d)))) as Hst.
  { intros i. unfold si_spk_at. cbn [ki_inner with_inner]. split.
    - intros [spk Hi]. apply Hs in Hi as [Hi|(j & [= <-] & Hj)]; [|lia].
      assert (i < n); [|lia]. apply Hn. unfold si_spk_at. eauto.
    - intros Hi. destruct (decide (i < n)) as [Hlt|Hge].
      + apply Hn in Hlt as [spk Hspk]. exists spk. apply Hs. by left.
      + destruct (proj1 HA k d (proj1 Hc k d Hk) i) as [spk Hspk]; [lia|]. exists spk. apply Hs. right.
        exists i. split_and!; try done; lia. }
  assert (∀ k' n', k' ≠ k → stored (with_inner x s') k' n' ↔ stored x k' n') as Hoth.
  { intros k' n' Hne. unfold stored, si_spk_at. cbn [ki_inner with_inner].
    assert (∀ i, is_Some (si_spks s' !! (k', i)) ↔ is_Some (si_spks (ki_inner x) !! (k', i))) as Hx; [|by setoid_rewrite Hx].
    intros i. split; intros [spk Hi].
    - apply Hs in Hi as [Hi|(j & [= -> _] & _)]; [eauto|done].
    - exists spk. apply Hs. by left. }
  split; [|split; [done|split; [done|split; [|done]]]].
  2: { intros ki spk Hi. apply Hs. by left. }
  destruct Hc as (C1 & C2 & C3 & C4 & C5). split; [done|]. split; [done|]. split; [|split; [|done]].
  - intros k' i spk Hi. cbn [ki_inner with_inner ki_keychains] in *. apply Hs in Hi as [Hi|(j & [= -> ->] & Hj)]; [eauto|].
    exists d. tauto.
  - intros k' d' Hk'. cbn [ki_keychains with_inner] in Hk'. destruct (decide (k' = k)) as [->|Hne].
    + assert (d' = d) as -> by congruence. eexists. split; [exact Hst|]. split; [lia|].
      destruct (C4 _ _ Hk) as (n0 & Hn0 & _ & Hr). rewrite (stored_fun x k n n0) by done.
      change (n_revealed (with_inner x s') k) with (n_revealed x k). lia.
    + destruct (C4 _ _ Hk') as (n' & Hn' & Hc' & Hr). exists n'. split; [by apply Hoth|]. done.
Qed.

(** [s'] holds [n'] instead of [n] scripts of [k] and nothing else has changed. *)
Definition grown x (s' : SpkIndex (K * N)) k (n n' : N) : Prop :=
  stored (with_inner x s') k n' ∧
  (∀ k' m, k' ≠ k → stored (with_inner x s') k' m ↔ stored x k' m) ∧
  (∀ ki spk, si_spks (ki_inner x) !! ki = Some spk → si_spks s' !! ki = Some spk) ∧
  si_txouts s' = si_txouts (ki_inner x) ∧ si_spk_txouts s' = si_spk_txouts (ki_inner x) ∧
  (∀ ki, ki ∈ si_unused s' ↔ ki ∈ si_unused (ki_inner x) ∨ ∃ i, ki = (k, i) ∧ n ≤ i ∧ i < n').
Definition only_spks (h' : list (si_op (K * N))) : Prop := ∀ op, op ∈ h' → ∃ ki spk, op = SiSpk ki spk.
Lemma extend_grown A hs x k d n lo hi :
  good_env A → core A hs x → ki_keychains x !! k = Some d → stored x k n → n ≤ cap d →
  lo ≤ n ∨ cap d ≤ n →
  ∃ s' h', store_spks (ki_inner x) k (filter (λ is, n ≤ is.1) (range_spks d lo hi)) = Ret s' ∧
    only_spks h' ∧ core A (hs ++ h') (with_inner x s') ∧ grown x s' k n (N.max n (N.min hi (cap d))).
Proof.
  intros HA Hc Hk Hn Hcap Hlo. destruct (extend_core A hs x k d n lo hi HA Hc Hk Hn Hcap Hlo) as (s' & h' & E & Hh & Hc' & H1 & H2 & H3 & H4 & H5 & H6).
  exists s', h'. split; [done|]. split; [done|]. split; [done|]. split_and!; try done.
  intros ki. rewrite H6. split; (intros [?|(i & -> & Hi)]; [by left|right; exists i; split; [done|lia]]).
Qed.
Lemma core_stored A hs x k d : core A hs x → ki_keychains x !! k = Some d →
  ∃ n, stored x k n ∧ n ≤ cap d ∧ n_revealed x k ≤ n.
Proof. intros (_ & _ & _ & C4 & _). apply C4. Qed.
Lemma core_not_stored A hs x k : core A hs x → ki_keychains x !! k = None → stored x k 0.
Proof.
  intros (_ & _ & C3 & _) Hk i. split; [|lia]. intros [s Hs]. destruct (C3 _ _ _ Hs) as (d & Hd & _). congruence.
Qed.
Lemma core_with_lookahead A hs x m : core A hs (with_lookahead x m) ↔ core A hs x.
Proof. done. Qed.

(** ** Lookahead *)
Lemma filter_all {B} (Q : B → Prop) `{∀ b, Decision (Q b)} (l : list B) : (∀ b, b ∈ l → Q b) → filter Q l = l.
Proof.
  induction l as [|b l IH]; intros Hl; [done|]. rewrite filter_cons_True by (apply Hl; by left).
  f_equal. apply IH. intros. apply Hl. by right.
Qed.
Lemma filter_range_self d n hi : good_desc d → filter (λ is : N * Script, n ≤ is.1) (range_spks d n hi) = range_spks d n hi.
Proof.
  intros Hg. destruct (range_spks_spec d n hi Hg) as [_ He]. apply filter_all. intros [i s] Hi. apply He in Hi. cbn [fst]. tauto.
Qed.
Lemma replenish_ok A hs x k d n :
  good_env A → core A hs x → ki_keychains x !! k = Some d → stored x k n → lookahead_of x k ≤ 2147483648 →
  ∃ s' h', replenish_lookahead x k = Ret (with_inner x s') ∧ only_spks h' ∧ core A (hs ++ h') (with_inner x s') ∧
    grown x s' k n (N.max n (N.min (n_revealed x k + lookahead_of x k) (cap d))).
Proof.
  intros HA Hc Hk Hn Hla. destruct (core_stored A hs x k d Hc Hk) as (n0 & Hn0 & Hcap & Hr).
  assert (n0 = n) as -> by (by eapply stored_fun). pose proof (cap_bound d) as [_ Hcb].
  destruct (extend_grown A hs x k d n n (n_revealed x k + lookahead_of x k) HA Hc Hk Hn Hcap) as (s' & h' & E & Hh & Hc' & Hgr); [by left|].
  exists s', h'. split; [|done]. unfold replenish_lookahead. rewrite Hk, (next_store_ok x k n) by (try done; lia).
  cbn [mbind outcome_bind]. rewrite (next_reveal_ok x k n) by lia. cbn [mbind outcome_bind].
  rewrite add_u32_ok by lia. cbn [mbind outcome_bind]. rewrite filter_range_self in E.
  - rewrite E. done.
  - apply (proj1 HA k). by apply (proj1 Hc).
Qed.
Lemma look_grown A hs x s' k d n n' (m : gmap K N) :
  core A hs x → ki_keychains x !! k = Some d → stored x k n → n ≤ n' → grown x s' k n n' → look_ok x →
  (∀ k', k' ≠ k → m !! k' = ki_lookahead x !! k') →
  N.min (cap d) (n_revealed x k + default 0 (m !! k)) ≤ n' → default 0 (m !! k) ≤ 2147483648 →
  look_ok (with_lookahead (with_inner x s') m).
Proof.
  intros Hc Hk Hn Hle Hgr [L1 L2] Hm Hmin Hb. split.
  - intros k' d' n1 Hk' Hn1. cbn in Hk'.
    change (n_revealed (with_lookahead (with_inner x s') m) k') with (n_revealed x k').
    change (stored (with_inner x s') k' n1) in Hn1.
    destruct (decide (k' = k)) as [->|Hne].
    + assert (d' = d) as -> by congruence. rewrite (stored_fun _ k n1 n' Hn1 (proj1 Hgr)). exact Hmin.
    + unfold lookahead_of. cbn [ki_lookahead with_lookahead]. rewrite Hm by done. apply (L1 k' d' n1 Hk').
      by apply Hgr.
  - intros k'. unfold lookahead_of. cbn [ki_lookahead with_lookahead]. destruct (decide (k' = k)) as [->|Hne]; [done|].
    rewrite Hm by done. apply L2.
Qed.
Lemma set_lookahead_ok A hs x k d n la :
  good_env A → ki_inv A hs x → ki_keychains x !! k = Some d → stored x k n → la ≤ 2147483648 →
  ∃ s' h', set_lookahead x k la = Ret (with_lookahead (with_inner x s') (<[k := la]> (ki_lookahead x))) ∧
    only_spks h' ∧ ki_inv A (hs ++ h') (with_lookahead (with_inner x s') (<[k := la]> (ki_lookahead x))) ∧
    grown x s' k n (N.max n (N.min (n_revealed x k + la) (cap d))).
Proof.
  intros HA [Hc Hl] Hk Hn Hla. unfold set_lookahead.
  set (x1 := with_lookahead x (<[k := la]> (ki_lookahead x))).
  assert (lookahead_of x1 k = la) as Ela by (unfold lookahead_of, x1; cbn; by rewrite lookup_insert).
  destruct (replenish_ok A hs x1 k d n HA Hc Hk Hn) as (s' & h' & E & Hh & Hc' & Hgr); [by rewrite Ela|].
  rewrite Ela in Hgr. change (n_revealed x1 k) with (n_revealed x k) in Hgr. exists s', h'. split; [done|]. split; [done|]. split; [|done].
  split; [done|]. eapply (look_grown A hs x s' k d n _ _ Hc Hk Hn); [|exact Hgr|exact Hl| | |].
  - lia.
  - intros k' Hne. by apply lookup_insert_ne.
  - rewrite lookup_insert. cbn [default from_option id]. unfold id; lia.
  - by rewrite lookup_insert.
Qed.
(** How many scripts [lookahead_to_target] leaves stored. *)
Definition look_to (d : Desc) (n nr t : N) : N := if bool_decide (n < t) then N.max n (N.min (nr + (t - n)) (cap d)) else n.
Lemma lookahead_to_ok A hs x k d n t :
  good_env A → ki_inv A hs x → ki_keychains x !! k = Some d → stored x k n → t ≤ 2147483648 →
  ∃ s' h', lookahead_to_target x k t = Ret (with_inner x s') ∧ only_spks h' ∧ ki_inv A (hs ++ h') (with_inner x s') ∧
    grown x s' k n (look_to d n (n_revealed x k) t).
Proof.
  intros HA [Hc Hl] Hk Hn Ht. unfold lookahead_to_target, look_to.
  destruct (core_stored A hs x k d Hc Hk) as (n0 & Hn0 & Hcap & Hr).
  assert (n0 = n) as -> by (by eapply stored_fun). pose proof (cap_bound d) as [_ Hcb].
  rewrite (next_store_ok x k n) by (try done; lia). cbn [mbind outcome_bind]. case_bool_decide as Hlt.
  - set (x1 := with_lookahead x (<[k := t - n]> (ki_lookahead x))).
    assert (lookahead_of x1 k = t - n) as Ela by (unfold lookahead_of, x1; cbn; by rewrite lookup_insert).
    destruct (replenish_ok A hs x1 k d n HA Hc Hk Hn) as (s' & h' & E & Hh & Hc' & Hgr); [rewrite Ela; lia|].
    rewrite Ela in Hgr. change (n_revealed x1 k) with (n_revealed x k) in Hgr.
    rewrite E. cbn [mbind outcome_bind].
    assert (match ki_lookahead x !! k with Some la => <[k := la]> (ki_lookahead (with_inner x1 s')) | None => delete k (ki_lookahead (with_inner x1 s')) end = ki_lookahead x) as Em.
    { cbn. destruct (ki_lookahead x !! k) as [la|] eqn:El.
      - by rewrite insert_insert, insert_id.
      - by rewrite delete_insert. }
    rewrite Em. exists s', h'. split; [done|]. split; [done|]. split; [|done].
    assert (look_ok (with_lookahead (with_inner x s') (ki_lookahead x))) as Hx; [|split; [exact Hc'|exact Hx]].
    eapply (look_grown A hs x s' k d n _ _ Hc Hk Hn); [|exact Hgr|exact Hl|done| |].
    + lia.
    + etransitivity; [by apply (proj1 Hl k d n)|lia].
    + apply (proj2 Hl).
  - exists (ki_inner x), []. split; [by destruct x|]. split; [by intros op ?%elem_of_nil|].
    rewrite app_nil_r. split; [by destruct x|].
    split_and!; try done. intros ki. split; [by left|]. intros [?|(i & _ & ? & ?)]; [done|lia].
Qed.

(** ** Revealing *)
Lemma reveal_fold (l : list (N * Script)) t r0 :
  foldl (λ r is, if bool_decide (is.1 ≤ t) then Some is.1 else r) r0 l =
  match last (filter (λ i, i ≤ t) l.*1) with Some i => Some i | None => r0 end.
Proof.
  revert r0. induction l as [|[i s] l IH]; intros r0; [done|]. cbn [foldl fst]. rewrite IH, fmap_cons, filter_cons. cbn [fst].
  case_bool_decide as Hi.
  - rewrite decide_True by done. rewrite last_cons. by destruct (last _).
  - by rewrite decide_False by done.
Qed.
Lemma sorted_last_max (l : list N) i : StronglySorted N.lt l → i ∈ l → (∀ j, j ∈ l → j ≤ i) → last l = Some i.
Proof.
  intros Hs Hi Hmax. destruct (last l) as [j|] eqn:E.
  - f_equal. assert (j ∈ l) as Hj by (by apply last_Some_elem_of). apply Hmax in Hj.
    assert (i ≤ j); [|lia]. clear -Hs Hi E. induction Hs as [|a l Hs IH HF]; [done|].
    rewrite last_cons in E. apply elem_of_cons in Hi as [->|Hi].
    + destruct (last l) as [b|] eqn:El; simplify_eq; [|lia].
      rewrite Forall_forall in HF. specialize (HF j). assert (a < j); [|lia]. apply HF. by apply last_Some_elem_of.
    + destruct (last l) as [b|] eqn:El; [by apply IH|]. apply last_None in El as ->. by apply elem_of_nil in Hi.
  - apply last_None in E as ->. by apply elem_of_nil in Hi.
Qed.
Lemma reveal_index d nr la t :
  good_desc d →
  foldl (λ r (is : N * Script), if bool_decide (is.1 ≤ t) then Some is.1 else r)
    (if bool_decide (nr ≤ t ∧ t < nr + la) then Some t else None) (range_spks d (nr + la) (t + la + 1)) =
  reveals d nr la t.
Proof.
  intros Hg. rewrite reveal_fold. destruct (range_spks_spec d (nr + la) (t + la + 1) Hg) as [Hs He].
  set (l := range_spks _ _ _) in *. unfold reveals.
  assert (∀ i, i ∈ l.*1 ↔ nr + la ≤ i ∧ i < N.min (t + la + 1) (cap d)) as Hl.
  { intros i. rewrite elem_of_list_fmap. split.
    - intros ([j s] & -> & Hj). apply He in Hj. cbn. tauto.
    - intros Hi. destruct (Hg i) as [s Es]; [lia|]. exists (i, s). split; [done|]. apply He. tauto. }
  assert (StronglySorted N.lt (filter (λ i, i ≤ t) l.*1)) as Hs' by (by apply StronglySorted_filter).
  destruct (decide (nr + la ≤ t ∧ nr + la < cap d)) as [Hc|Hc].
  - rewrite (sorted_last_max _ (N.min t (cap d - 1)) Hs').
    + rewrite (bool_decide_false (t < nr)), (bool_decide_false (t < nr + la)), (bool_decide_true (nr + la < cap d)) by lia. done.
    + apply elem_of_list_filter. rewrite Hl. lia.
    + intros j Hj. apply elem_of_list_filter in Hj as [Hj Hj']. apply Hl in Hj'. lia.
  - assert (filter (λ i, i ≤ t) l.*1 = []) as ->.
    { destruct (filter _ _) as [|j l'] eqn:E; [done|]. assert (j ∈ filter (λ i, i ≤ t) l.*1) as Hj by (rewrite E; by left).
      apply elem_of_list_filter in Hj as [Hj Hj']. apply Hl in Hj'. lia. }
    cbn [last]. repeat case_bool_decide; try done; try lia.
Qed.
Lemma reveal_ok A hs x k d n t :
  good_env A → ki_inv A hs x → ki_keychains x !! k = Some d → stored x k n → target_of d t + lookahead_of x k ≤ 4294967295 →
  let nr := n_revealed x k in let la := lookahead_of x k in let t' := target_of d t in
  ∃ s' h', only_spks h' ∧ si_good (hs ++ h') s' ∧
    grown x s' k n (if bool_decide (nr ≤ t') then N.max n (N.min (t' + la + 1) (cap d)) else n) ∧
    match reveals d nr la t' with
    | None => reveal_to_target x k t = Ret (with_inner x s', [], ∅) ∧ ki_inv A (hs ++ h') (with_inner x s')
    | Some i =>
        let x' := mkKI s' (ki_keychains x) (<[k := i]> (ki_revealed x)) (ki_lookahead x) in
        reveal_to_target x k t = Ret (x', range_spks d nr (i + 1), {[ k := i ]}) ∧
        nr ≤ i ∧ i ≤ t' ∧ (i < cap d → ki_inv A (hs ++ h') x')
    end.
Proof.
  intros HA [Hc Hl] Hk Hn Hu. cbn zeta.
  destruct (core_stored A hs x k d Hc Hk) as (n0 & Hn0 & Hcap & Hr).
  assert (n0 = n) as -> by (by eapply stored_fun). pose proof (cap_bound d) as [_ Hcb].
  pose proof (proj1 Hl k d n Hk Hn) as Hmin. pose proof (proj2 Hl k) as Hla.
  assert (good_desc d) as Hg by (apply (proj1 HA k); by apply (proj1 Hc)).
  set (nr := n_revealed x k) in *. set (la := lookahead_of x k) in *. set (t' := target_of d t) in *.
  destruct (extend_grown A hs x k d n (nr + la) (t' + la + 1) HA Hc Hk Hn Hcap) as (s' & h' & E & Hh & Hc' & Hgr); [lia|].
  exists s', h'. split; [done|]. split; [apply Hc'|].
  assert (N.max n (N.min (t' + la + 1) (cap d)) = if bool_decide (nr ≤ t') then N.max n (N.min (t' + la + 1) (cap d)) else n) as En.
  { case_bool_decide; [done|]. lia. }
  rewrite <- En. split; [done|]. clear En.
  assert (reveal_to_target x k t =
    match reveals d nr la t' with
    | Some i =>
        if match ki_revealed x !! k with Some old => bool_decide (old < i) | None => true end then
          i1 ← add_u32 i 1;
          Ret (mkKI s' (ki_keychains x) (<[k := i]> (ki_revealed x)) (ki_lookahead x), range_spks d nr i1, {[ k := i ]})
        else Panic
    | None => Ret (with_inner x s', [], ∅)
    end) as Er.
  { unfold reveal_to_target. rewrite Hk. change (if has_wildcard d then t else 0) with t'.
    rewrite (next_store_ok x k n) by (try done; lia). cbn [mbind outcome_bind].
    rewrite (next_reveal_ok x k n) by (unfold nr in *; lia). cbn [mbind outcome_bind].
    change (n_revealed x k) with nr. change (lookahead_of x k) with la.
    rewrite (add_u32_ok nr la) by lia. cbn [mbind outcome_bind]. rewrite (add_u32_ok t' la) by lia. cbn [mbind outcome_bind].
    rewrite E. cbn [mbind outcome_bind]. by rewrite (reveal_index d nr la t' Hg). }
  assert (reveals d nr la t' = None → look_ok (with_inner x s')) as Hnone.
  { intros _. change (look_ok (with_lookahead (with_inner x s') (ki_lookahead x))).
    eapply (look_grown A hs x s' k d n _ _ Hc Hk Hn); [|exact Hgr|exact Hl|done| |]; [lia| |exact Hla].
    change (default 0 (ki_lookahead x !! k)) with la. change (n_revealed x k) with nr. lia. }
  destruct (reveals d nr la t') as [i|] eqn:Ei.
  - assert (nr ≤ i ∧ i ≤ t' ∧ i ≤ 3221225473) as (Hi1 & Hi2 & Hi3).
    { unfold reveals in Ei. repeat case_bool_decide; simplify_eq; split_and!; lia. }
    assert (match ki_revealed x !! k with Some old => bool_decide (old < i) | None => true end = true) as Eold.
    { unfold nr, n_revealed in Hi1. destruct (ki_revealed x !! k); [|done]. apply bool_decide_eq_true. lia. }
    rewrite Eold, add_u32_ok in Er by lia. split; [exact Er|]. split; [done|]. split; [done|]. intros Hic.
    assert (∀ k', n_revealed (mkKI s' (ki_keychains x) (<[k:=i]> (ki_revealed x)) (ki_lookahead x)) k' =
      if decide (k' = k) then i + 1 else n_revealed x k') as Enr.
    { intros k'. unfold n_revealed. cbn [ki_revealed]. case_decide as Hd; [subst; by rewrite lookup_insert|].
      by rewrite lookup_insert_ne by done. }
    assert (i + 1 ≤ N.max n (N.min (t' + la + 1) (cap d))) as Hin by lia.
    split.
    + destruct Hc' as (C1 & C2 & C3 & C4 & C5). split; [exact C1|]. split; [exact C2|]. split; [exact C3|]. split.
      * intros k' d' Hk'. destruct (C4 k' d' Hk') as (m & Hm & Hmc & Hmr). exists m. split; [exact Hm|]. split; [done|].
        rewrite Enr. case_decide as Hd; [|exact Hmr]. subst k'. cbn in Hk'. assert (d' = d) as -> by congruence.
        by rewrite (stored_fun _ k m _ Hm (proj1 Hgr)).
      * intros k' Hk'. cbn [ki_revealed ki_keychains with_inner] in *. destruct (decide (k' = k)) as [->|Hne]; [eauto|].
        rewrite lookup_insert_ne in Hk' by done. by apply C5.
    + split; [|exact (proj2 Hl)]. intros k' d' m Hk' Hm. rewrite Enr. cbn [ki_keychains] in Hk'.
      change (stored (with_inner x s') k' m) in Hm.
      change (lookahead_of (mkKI s' (ki_keychains x) (<[k:=i]> (ki_revealed x)) (ki_lookahead x)) k') with (lookahead_of x k').
      case_decide as Hd.
      * subst k'. assert (d' = d) as -> by congruence. rewrite (stored_fun _ k m _ Hm (proj1 Hgr)).
        change (lookahead_of x k) with la. lia.
      * apply (proj1 Hl k' d' m Hk'). by apply Hgr.
  - split; [exact Er|]. split; [done|]. by apply Hnone.
Qed.
End proofs.
