(** Folds that write keys of a finite map: the collect/extend loops. *)
From Verif Require Export Base BaseProofs.

(** A loop over distinct keys, each iteration deciding the new entry of its key. *)
Lemma foldl_keyed_lookup `{Countable K} {V B} (f : gmap K B → K * V → gmap K B)
    (h : K → V → option B) (l : list (K * V)) (m : gmap K B) k :
  (∀ m k v, f m (k, v) !! k = h k v) →
  (∀ m k v k', k' ≠ k → f m (k, v) !! k' = m !! k') →
  NoDup l.*1 →
  foldl f m l !! k =
    match (list_to_map l : gmap K V) !! k with Some v => h k v | None => m !! k end.
Proof.
  intros Hk Hother. revert m. induction l as [|[k1 v1] l IH]; intros m Hnd; simpl.
  { by rewrite lookup_empty. }
  apply NoDup_cons in Hnd as [Hni Hnd]. rewrite IH by done.
  destruct (decide (k = k1)) as [-> |Hne].
  - rewrite lookup_insert. rewrite not_elem_of_list_to_map_1 by done. apply Hk.
  - rewrite lookup_insert_ne by done.
    destruct (list_to_map l !! k); [done|]. by apply Hother.
Qed.

Lemma list_to_map_perm `{Countable K} {V} (l : list (K * V)) (m : gmap K V) :
  l ≡ₚ map_to_list m → list_to_map l = m.
Proof.
  intros Hp. rewrite <- (list_to_map_to_list m). apply list_to_map_proper; [|done].
  rewrite Hp. apply NoDup_fst_map_to_list.
Qed.
Lemma NoDup_fst_perm `{Countable K} {V} (l : list (K * V)) (m : gmap K V) :
  l ≡ₚ map_to_list m → NoDup l.*1.
Proof. intros ->. apply NoDup_fst_map_to_list. Qed.
Lemma elem_of_perm_map `{Countable K} {V} (l : list (K * V)) (m : gmap K V) k v :
  l ≡ₚ map_to_list m → (k, v) ∈ l ↔ m !! k = Some v.
Proof. intros ->. apply elem_of_map_to_list. Qed.

(** [collect]ing a listing into a map when equal keys carry equal values. *)
Lemma foldl_insert_lookup `{Countable K} {A B} (key : A → K) (val : A → B) (l : list A) (m : gmap K B) k :
  (∀ x y, x ∈ l → y ∈ l → key x = key y → val x = val y) →
  (∀ x, x ∈ l → key x = k → foldl (λ m x, <[key x := val x]> m) m l !! k = Some (val x)) ∧
  ((∀ x, x ∈ l → key x ≠ k) → foldl (λ m x, <[key x := val x]> m) m l !! k = m !! k).
Proof.
  revert m. induction l as [|a l IH]; intros m Heq; simpl.
  { split; [intros x Hx; by apply elem_of_nil in Hx|done]. }
  destruct (IH (<[key a := val a]> m)) as [IH1 IH2].
  { intros x y Hx Hy. apply Heq; by right. }
  split.
  - intros x Hx Hkx. destruct (decide (Exists (λ y, key y = k) l)) as [Hex|Hnex].
    + apply Exists_exists in Hex as (y & Hy & Hky).
      rewrite (IH1 y) by done. f_equal. apply Heq; [by right|done|congruence].
    + rewrite IH2.
      * apply elem_of_cons in Hx as [-> |Hx].
        -- rewrite <- Hkx. apply lookup_insert.
        -- destruct Hnex. apply Exists_exists. eauto.
      * intros y Hy Hky. apply Hnex. apply Exists_exists. eauto.
  - intros Hn. rewrite IH2.
    + apply lookup_insert_ne. apply Hn. by left.
    + intros x Hx. apply Hn. by right.
Qed.

(** [List.find] over a listing. *)
Lemma find_some_elem {A} (f : A → bool) (l : list A) x : List.find f l = Some x → x ∈ l ∧ f x = true.
Proof. intros Hf. apply List.find_some in Hf as [Hin Ht]. split; [by apply elem_of_list_In|done]. Qed.
Lemma find_none_elem {A} (f : A → bool) (l : list A) :
  List.find f l = None ↔ ∀ x, x ∈ l → f x = false.
Proof.
  split.
  - intros Hf x Hx. eapply List.find_none; [done|]. by apply elem_of_list_In.
  - intros Hall. destruct (List.find f l) as [x|] eqn:E; [|done].
    apply find_some_elem in E as [Hx Ht]. rewrite Hall in Ht by done. done.
Qed.

(** [iter().rev().find(..)]: the greatest entry satisfying the test. *)
Lemma find_rev_sorted `{OrdLaws K, !EqDecision K, !Countable K} {V} (m : gmap K V) (f : K * V → bool) k v :
  List.find f (reverse (bmap_list m)) = Some (k, v) →
  m !! k = Some v ∧ f (k, v) = true ∧
  ∀ k' v', m !! k' = Some v' → f (k', v') = true → ord_le k' k.
Proof.
  intros Hf.
  pose proof (find_some_elem _ _ _ Hf) as [Hin Ht].
  rewrite elem_of_reverse, elem_of_bmap_list in Hin.
  split; [done|]. split; [done|]. intros k' v' Hk' Ht'.
  apply elem_of_bmap_list in Hk'. pose proof (bmap_list_sorted m) as HS.
  revert Hf HS Hk'. induction (bmap_list m) as [|a l IH]; intros Hf HS Hk'.
  { by apply elem_of_nil in Hk'. }
  rewrite reverse_cons in Hf.
  simpl in HS. apply StronglySorted_inv in HS as [HS Hall].
  rewrite Forall_forall in Hall.
  assert (Happ: ∀ l1 l2, List.find f (l1 ++ l2) =
     match List.find f l1 with Some x => Some x | None => List.find f l2 end).
  { clear. induction l1 as [|x l1 IH]; intros l2; simpl; [done|]. destruct (f x); auto. }
  rewrite Happ in Hf. destruct (List.find f (reverse l)) as [kv|] eqn:E.
  - injection Hf as ->.
    apply elem_of_cons in Hk' as [<- |Hk'].
    + apply ord_lt_le. apply Hall. apply find_some_elem in E as [Hx _].
      rewrite elem_of_reverse in Hx. apply (elem_of_list_fmap_1 fst) in Hx. done.
    + by apply IH.
  - apply elem_of_cons in Hk' as [<- |Hk'].
    + simpl in Hf. destruct (f (k', v')); [|done]. injection Hf as [= <- <-]. apply ord_le_refl.
    + rewrite find_none_elem in E. rewrite (E (k', v')) in Ht'; [done|]. by rewrite elem_of_reverse.
Qed.

(** Position in a strictly descending list = number of greater elements. *)
Lemma desc_rank (d : list N) (i : nat) h :
  StronglySorted (λ x y, y < x) d → d !! i = Some h →
  length (filter (λ k, h < k) d) = i.
Proof.
  intros HS. revert i. induction HS as [|a d HS IH Hall]; intros i; [done|].
  rewrite Forall_forall in Hall. destruct i as [|i]; simpl.
  - intros [= ->]. rewrite filter_cons_False by lia.
    assert (filter (λ k, h < k) d = []) as ->; [|done].
    apply elem_of_nil_inv. intros x Hx. apply elem_of_list_filter in Hx as [Hlt Hx%Hall]. lia.
  - intros Hi. rewrite filter_cons_True.
    + simpl. f_equal. by apply IH.
    + apply Hall. by eapply elem_of_list_lookup_2.
Qed.

Lemma map_filter_to_list `{Countable K} {V} (Q : K * V → Prop) `{∀ x, Decision (Q x)} (m : gmap K V) :
  map_to_list (filter Q m) ≡ₚ filter Q (map_to_list m).
Proof.
  apply NoDup_Permutation.
  - apply NoDup_map_to_list.
  - apply NoDup_filter, NoDup_map_to_list.
  - intros [k v]. rewrite elem_of_list_filter, !elem_of_map_to_list, map_filter_lookup_Some. naive_solver.
Qed.
Lemma map_size_filter_list `{Countable K} {V} (Q : K * V → Prop) `{∀ x, Decision (Q x)} (m : gmap K V) :
  size (filter Q m) = length (filter Q (map_to_list m)).
Proof. unfold size, map_size. by rewrite map_filter_to_list. Qed.
Lemma map_size_filter_le `{Countable K} {V} (Q : K * V → Prop) `{∀ x, Decision (Q x)} (m : gmap K V) :
  (size (filter Q m) ≤ size m)%nat.
Proof. rewrite map_size_filter_list. unfold size, map_size. apply filter_length. Qed.
