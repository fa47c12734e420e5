(** Lemmas about [Base]: orders, sorted iteration, folds over maps. *)
From Verif Require Import Base.

Section ord.
Context `{OrdLaws A}.
Implicit Types a b c : A.

Lemma ord_cmp_refl a : ord_cmp a a = Eq.
Proof. by apply ord_cmp_eq. Qed.
Lemma ord_le_refl a : ord_le a a.
Proof. unfold ord_le. by rewrite ord_cmp_refl. Qed.
Lemma ord_lt_irrefl a : ¬ ord_lt a a.
Proof. unfold ord_lt. by rewrite ord_cmp_refl. Qed.
Lemma ord_le_lteq a b : ord_le a b ↔ ord_lt a b ∨ a = b.
Proof.
  unfold ord_le, ord_lt. rewrite <- (ord_cmp_eq a b).
  destruct (ord_cmp a b); naive_solver.
Qed.
Lemma ord_not_lt a b : ¬ ord_lt a b ↔ ord_le b a.
Proof.
  unfold ord_le, ord_lt. rewrite (ord_cmp_opp a b).
  destruct (ord_cmp a b); naive_solver.
Qed.
Lemma ord_not_le a b : ¬ ord_le a b ↔ ord_lt b a.
Proof.
  unfold ord_le, ord_lt. rewrite (ord_cmp_opp a b).
  destruct (ord_cmp a b); naive_solver.
Qed.
Lemma ord_lt_trans a b c : ord_lt a b → ord_lt b c → ord_lt a c.
Proof. apply ord_cmp_lt_trans. Qed.
Lemma ord_lt_le a b : ord_lt a b → ord_le a b.
Proof. rewrite ord_le_lteq; auto. Qed.
Lemma ord_lt_le_trans a b c : ord_lt a b → ord_le b c → ord_lt a c.
Proof. rewrite ord_le_lteq. intros ? [?| ->]; eauto using ord_lt_trans. Qed.
Lemma ord_le_lt_trans a b c : ord_le a b → ord_lt b c → ord_lt a c.
Proof. rewrite ord_le_lteq. intros [?| ->] ?; eauto using ord_lt_trans. Qed.
Lemma ord_le_trans a b c : ord_le a b → ord_le b c → ord_le a c.
Proof. rewrite !ord_le_lteq. intros [?| ->] [?| ->]; eauto using ord_lt_trans. Qed.
Lemma ord_le_antisym a b : ord_le a b → ord_le b a → a = b.
Proof.
  rewrite !ord_le_lteq. intros [Hab| ->] [Hba|?]; auto.
  destruct (ord_lt_irrefl a). eauto using ord_lt_trans.
Qed.
Lemma ord_le_total a b : ord_le a b ∨ ord_le b a.
Proof. destruct (decide (ord_le a b)) as [|Hn]; auto. apply ord_not_le in Hn. eauto using ord_lt_le. Qed.
Lemma ord_trichotomy a b : ord_lt a b ∨ a = b ∨ ord_lt b a.
Proof.
  destruct (decide (ord_lt a b)) as [|Hn]; auto. apply ord_not_lt in Hn.
  apply ord_le_lteq in Hn as [|]; auto.
Qed.

Global Instance ord_le_preorder : PreOrder (ord_le (A:=A)).
Proof. split; [intros ?; apply ord_le_refl|intros ???; apply ord_le_trans]. Qed.
Global Instance ord_le_anti : AntiSymm (=) (ord_le (A:=A)).
Proof. intros ??. apply ord_le_antisym. Qed.
Global Instance ord_le_tot : Total (ord_le (A:=A)).
Proof. intros ??. apply ord_le_total. Qed.
Global Instance ord_lt_transitive : Transitive (ord_lt (A:=A)).
Proof. intros ???. apply ord_lt_trans. Qed.
End ord.

Global Instance N_ord_laws : OrdLaws N.
Proof.
  split; unfold ord_cmp, N_ord.
  - intros. apply N.compare_eq_iff.
  - intros. apply N.compare_antisym.
  - intros a b c. rewrite !N.compare_lt_iff. lia.
Qed.
Lemma N_ord_lt (a b : N) : ord_lt a b ↔ a < b.
Proof. apply N.compare_lt_iff. Qed.
Lemma N_ord_le (a b : N) : ord_le a b ↔ a ≤ b.
Proof. unfold ord_le, ord_cmp, N_ord. by rewrite N.compare_le_iff. Qed.

Lemma prod_cmp `{Ord A, Ord B} (x y : A * B) :
  ord_cmp x y = match ord_cmp x.1 y.1 with Eq => ord_cmp x.2 y.2 | c => c end.
Proof. done. Qed.
Global Instance prod_ord_laws `{OrdLaws A, OrdLaws B} : OrdLaws (A * B).
Proof.
  split.
  - intros [a1 b1] [a2 b2]; rewrite prod_cmp; simpl.
    destruct (ord_cmp a1 a2) eqn:E.
    + apply ord_cmp_eq in E as ->. rewrite ord_cmp_eq. naive_solver.
    + split; [done|]. intros [= -> ->]. by rewrite ord_cmp_refl in E.
    + split; [done|]. intros [= -> ->]. by rewrite ord_cmp_refl in E.
  - intros [a1 b1] [a2 b2]; rewrite !prod_cmp; simpl. rewrite (ord_cmp_opp a1 a2).
    destruct (ord_cmp a1 a2); simpl; auto. apply ord_cmp_opp.
  - intros [a1 b1] [a2 b2] [a3 b3]; rewrite !prod_cmp; simpl.
    destruct (ord_cmp a1 a2) eqn:E1; destruct (ord_cmp a2 a3) eqn:E2; simpl; try done.
    + apply ord_cmp_eq in E1 as ->. rewrite E2. apply ord_cmp_lt_trans.
    + apply ord_cmp_eq in E1 as ->. by rewrite E2.
    + apply ord_cmp_eq in E2 as ->. by rewrite E1.
    + by rewrite (ord_cmp_lt_trans _ _ _ E1 E2).
Qed.
Lemma prod_ord_lt `{OrdLaws A, OrdLaws B} (x y : A * B) :
  ord_lt x y ↔ ord_lt x.1 y.1 ∨ x.1 = y.1 ∧ ord_lt x.2 y.2.
Proof.
  unfold ord_lt. rewrite prod_cmp, <- (ord_cmp_eq x.1 y.1).
  destruct (ord_cmp x.1 y.1); naive_solver.
Qed.
Lemma prod_ord_le `{OrdLaws A, OrdLaws B} (x y : A * B) :
  ord_le x y ↔ ord_lt x.1 y.1 ∨ x.1 = y.1 ∧ ord_le x.2 y.2.
Proof.
  unfold ord_lt, ord_le. rewrite prod_cmp, <- (ord_cmp_eq x.1 y.1).
  destruct (ord_cmp x.1 y.1); naive_solver.
Qed.
Lemma OutPoint_cmp (a b : OutPoint) :
  ord_cmp a b = ord_cmp (op_txid a, op_vout a) (op_txid b, op_vout b).
Proof. done. Qed.
Global Instance OutPoint_ord_laws : OrdLaws OutPoint.
Proof.
  split.
  - intros [] []. rewrite OutPoint_cmp, ord_cmp_eq. simpl. naive_solver.
  - intros a b. rewrite !OutPoint_cmp. apply ord_cmp_opp.
  - intros a b c. rewrite !OutPoint_cmp. apply ord_cmp_lt_trans.
Qed.

(** ** Sorted iteration *)
Section bset.
Context `{OrdLaws A, !EqDecision A, !Countable A}.
Implicit Types X : gset A.

Lemma bset_list_perm X : bset_list X ≡ₚ elements X.
Proof. apply merge_sort_Permutation. Qed.
Lemma elem_of_bset_list X x : x ∈ bset_list X ↔ x ∈ X.
Proof. rewrite bset_list_perm. apply elem_of_elements. Qed.
Lemma NoDup_bset_list X : NoDup (bset_list X).
Proof. rewrite bset_list_perm. apply NoDup_elements. Qed.
Lemma bset_list_sorted X : StronglySorted ord_le (bset_list X).
Proof. apply (StronglySorted_merge_sort _). Qed.
End bset.

Lemma StronglySorted_le_lt `{OrdLaws A} (l : list A) :
  StronglySorted ord_le l → NoDup l → StronglySorted ord_lt l.
Proof.
  induction 1 as [|x l Hs IH Hall]; intros Hnd; constructor.
  - apply IH. by inversion Hnd.
  - apply Forall_forall. intros y Hy.
    assert (Hxy: ord_le x y) by (eapply Forall_forall in Hall; eauto).
    apply ord_le_lteq in Hxy as [| ->]; auto. inversion Hnd; subst. done.
Qed.
Lemma StronglySorted_filter {A} (R : A → A → Prop) (Q : A → Prop) `{∀ x, Decision (Q x)} (l : list A) :
  StronglySorted R l → StronglySorted R (filter Q l).
Proof.
  induction 1 as [|x l Hs IH Hall]; [constructor|].
  rewrite filter_cons. destruct (decide (Q x)); auto.
  constructor; auto. apply Forall_forall. intros y Hy.
  apply elem_of_list_filter in Hy as [_ Hy]. eapply Forall_forall in Hall; eauto.
Qed.

(** Two strictly sorted lists with the same elements are equal. *)
Lemma ssorted_lt_unique `{OrdLaws A} (l1 l2 : list A) :
  StronglySorted ord_lt l1 → StronglySorted ord_lt l2 →
  (∀ x, x ∈ l1 ↔ x ∈ l2) → l1 = l2.
Proof.
  intros H1. revert l2. induction H1 as [|x l1 Hs1 IH Hall1]; intros l2 H2 Hel.
  - destruct l2 as [|y l2]; auto. exfalso. destruct (Hel y) as [_ Hy].
    specialize (Hy ltac:(left)). inversion Hy.
  - destruct H2 as [|y l2 Hs2 Hall2].
    + exfalso. destruct (Hel x) as [Hx _]. specialize (Hx ltac:(left)). inversion Hx.
    + rewrite Forall_forall in Hall1, Hall2.
      assert (x = y) as ->.
      { destruct (Hel x) as [Hx _]. specialize (Hx ltac:(left)).
        destruct (Hel y) as [_ Hy]. specialize (Hy ltac:(left)).
        apply elem_of_cons in Hx as [|Hx]; auto. apply elem_of_cons in Hy as [|Hy]; auto.
        apply Hall1 in Hy. apply Hall2 in Hx. destruct (ord_lt_irrefl x). eauto using ord_lt_trans. }
      f_equal. apply IH; auto. intros z. split; intros Hz.
      * destruct (Hel z) as [Hz' _]. specialize (Hz' ltac:(by right)).
        apply elem_of_cons in Hz' as [-> |]; auto. apply Hall1 in Hz. by apply ord_lt_irrefl in Hz.
      * destruct (Hel z) as [_ Hz']. specialize (Hz' ltac:(by right)).
        apply elem_of_cons in Hz' as [-> |]; auto. apply Hall2 in Hz. by apply ord_lt_irrefl in Hz.
Qed.

Section bmap.
Context `{OrdLaws K, !EqDecision K, !Countable K} {V : Type}.
Implicit Types m : gmap K V.

Global Instance key_le_trans : Transitive (key_le (K:=K) (V:=V)).
Proof. intros ???. unfold key_le. apply ord_le_trans. Qed.
Global Instance key_le_total : Total (key_le (K:=K) (V:=V)).
Proof. intros ??. unfold key_le. apply ord_le_total. Qed.

Lemma bmap_list_perm m : bmap_list m ≡ₚ map_to_list m.
Proof. apply merge_sort_Permutation. Qed.
Lemma elem_of_bmap_list m k v : (k, v) ∈ bmap_list m ↔ m !! k = Some v.
Proof. rewrite bmap_list_perm. apply elem_of_map_to_list. Qed.
Lemma NoDup_fst_bmap_list m : NoDup (bmap_list m).*1.
Proof. rewrite bmap_list_perm. apply NoDup_fst_map_to_list. Qed.
Lemma bmap_list_sorted m : StronglySorted ord_lt (bmap_list m).*1.
Proof.
  apply StronglySorted_le_lt; [|apply NoDup_fst_bmap_list].
  assert (HS: StronglySorted key_le (bmap_list m)).
  { apply (StronglySorted_merge_sort _). }
  induction HS as [|x l Hs IH Hall]; simpl; constructor; auto.
  apply Forall_fmap. apply Hall.
Qed.
Lemma list_to_map_bmap_list m : list_to_map (bmap_list m) = m.
Proof.
  rewrite (list_to_map_proper _ (map_to_list m)).
  - apply list_to_map_to_list.
  - apply NoDup_fst_bmap_list.
  - apply bmap_list_perm.
Qed.
Lemma bmap_list_empty : bmap_list (∅ : gmap K V) = [].
Proof. unfold bmap_list. by rewrite map_to_list_empty. Qed.
Lemma bmap_list_singleton k v : bmap_list ({[k := v]} : gmap K V) = [(k, v)].
Proof. unfold bmap_list. by rewrite map_to_list_singleton. Qed.
Lemma bmap_list_nil_inv m : bmap_list m = [] → m = ∅.
Proof. intros E. apply map_to_list_empty_iff. apply Permutation_nil_r. by rewrite <- bmap_list_perm, E. Qed.
End bmap.

(** [last] of the sorted listing is the maximum key. *)
Lemma last_sorted_max `{OrdLaws A} (l : list A) x :
  StronglySorted ord_lt l → last l = Some x → x ∈ l ∧ ∀ y, y ∈ l → ord_le y x.
Proof.
  intros HS. revert x. induction HS as [|a l Hs IH Hall]; intros x; simpl; [done|].
  destruct l as [|b l].
  - intros [= ->]. split; [left|]. intros y Hy. apply elem_of_list_singleton in Hy as ->. apply ord_le_refl.
  - intros Hl. apply IH in Hl as [Hx Hmax]. split; [by right|].
    intros y Hy. apply elem_of_cons in Hy as [-> |Hy]; auto.
    rewrite Forall_forall in Hall. apply ord_lt_le. auto.
Qed.
Lemma bmap_last_spec `{OrdLaws K, !EqDecision K, !Countable K} {V} (m : gmap K V) k v :
  last (bmap_list m) = Some (k, v) ↔ m !! k = Some v ∧ ∀ k', is_Some (m !! k') → ord_le k' k.
Proof.
  assert (Hfwd: ∀ k v, last (bmap_list m) = Some (k, v) → m !! k = Some v ∧ ∀ k', is_Some (m !! k') → ord_le k' k).
  { clear k v. intros k v Hl.
    assert (Hl': last (bmap_list m).*1 = Some k) by (by rewrite fmap_last, Hl).
    apply last_sorted_max in Hl' as [_ Hmax]; [|apply bmap_list_sorted].
    split.
    - apply elem_of_bmap_list. apply last_Some_elem_of. done.
    - intros k' [v' Hk']. apply Hmax. apply elem_of_bmap_list in Hk'.
      apply elem_of_list_fmap. by exists (k', v'). }
  split; auto. intros [Hk Hmax].
  destruct (last (bmap_list m)) as [[k2 v2]|] eqn:E.
  - destruct (Hfwd _ _ eq_refl) as [Hk2 Hmax2].
    assert (k = k2) as <-.
    { apply ord_le_antisym; eauto. }
    by simplify_eq.
  - apply last_None in E. apply bmap_list_nil_inv in E as ->. by rewrite lookup_empty in Hk.
Qed.
Lemma bmap_last_None `{OrdLaws K, !EqDecision K, !Countable K} {V} (m : gmap K V) :
  last (bmap_list m) = None ↔ m = ∅.
Proof.
  rewrite last_None. split; [apply bmap_list_nil_inv|]. intros ->. apply bmap_list_empty.
Qed.

(** [head] of a filtered sorted listing is the minimum satisfying key. *)
Lemma head_sorted_min `{OrdLaws A} (l : list A) x :
  StronglySorted ord_lt l → head l = Some x → x ∈ l ∧ ∀ y, y ∈ l → ord_le x y.
Proof.
  intros HS. destruct HS as [|a l Hs Hall]; simpl; [done|]. intros [= ->].
  split; [left|]. intros y Hy. apply elem_of_cons in Hy as [-> |Hy]; [apply ord_le_refl|].
  rewrite Forall_forall in Hall. apply ord_lt_le; auto.
Qed.
