(** What planning finds. *)
From Verif Require Export PlanSpec ScriptProofs.

Section plan_proofs.
Context `{KeyEnv} {AK : Type} `{!CanDerive AK}.
Implicit Types (a : Assets AK) (tp : TermPlan AK) (t : term).

Lemma find_key_Some l k pk : find_key l k = Some pk → pk_key pk = k ∧ pk_asset pk ∈ l ∧ can_derive (pk_asset pk) (pk_key pk) = Some (pk_hint pk).
Proof.
  induction l as [|x l IH]; [done|]. simpl. destruct (can_derive x k) eqn:E.
  - intros [= <-]. simpl. split; [done|]. split; [left|done].
  - intros (? & ? & ?)%IH. split; [done|]. split; [by right|done].
Qed.
Lemma find_key_None l k : find_key l k = None → ∀ x, x ∈ l → can_derive x k = None.
Proof.
  induction l as [|x l IH]; simpl; [intros _ ? []%elem_of_nil|]. destruct (can_derive x k) eqn:E; [done|].
  intros Hl y [->|Hy]%elem_of_cons; [done|]. by apply IH.
Qed.

Lemma stack_needs_app l r : stack_needs (l ++ r) = stack_needs l ++ stack_needs r.
Proof. unfold stack_needs. induction l as [|n l IH]; [done|]. simpl. destruct (is_lock n); simpl; by rewrite IH. Qed.

Lemma same_unit_sym x y : is_same_unit x y = is_same_unit y x.
Proof. by destruct x, y. Qed.
Lemma same_unit_trans x y z : is_same_unit x y = true → is_same_unit y z = true → is_same_unit x z = true.
Proof. by destruct x, y, z. Qed.
Lemma lt_u32_from n : lt_u32 (locktime_from n) = n.
Proof. unfold locktime_from. by case_match. Qed.

Lemma latest_lock_both l r x y : latest_lock (Some x) l → latest_lock (Some y) r → is_same_unit x y = true →
  latest_lock (Some (if lt_u32 y <? lt_u32 x then x else y)) (r ++ l).
Proof.
  intros [[n [Hn ->]] Hx] [[n' [Hn' ->]] Hy] Hu. rewrite !lt_u32_from in *.
  split.
  - destruct (n' <? n); [exists n|exists n']; (split; [apply elem_of_app; by auto|done]).
  - intros i [Hi|Hi]%elem_of_app.
    + destruct (Hy i Hi) as [U1 L1]. destruct (N.ltb_spec n' n); rewrite ?lt_u32_from in *; (split; [|lia]); [|done].
      eapply same_unit_trans; [done|]. by rewrite same_unit_sym.
    + destruct (Hx i Hi) as [U1 L1]. destruct (N.ltb_spec n' n); rewrite ?lt_u32_from in *; (split; [|lia]); [done|].
      by eapply same_unit_trans.
Qed.
Lemma latest_lock_none_l l r x : latest_lock x l → latest_lock None r → latest_lock x (r ++ l).
Proof.
  destruct x as [x|]; simpl.
  - intros [[n [Hn ->]] Hx] Hr. split; [exists n; split; [apply elem_of_app; by right|done]|].
    intros i [Hi|Hi]%elem_of_app; [by destruct (Hr i)|auto].
  - intros Hl Hr n [Hi|Hi]%elem_of_app; [by eapply Hr|by eapply Hl].
Qed.
Lemma latest_lock_none_r l r x : latest_lock None l → latest_lock x r → latest_lock x (r ++ l).
Proof.
  destruct x as [x|]; simpl.
  - intros Hr [[n [Hn ->]] Hx]. split; [exists n; split; [apply elem_of_app; by left|done]|].
    intros i [Hi|Hi]%elem_of_app; [auto|by destruct (Hr i)].
  - intros Hl Hr n [Hi|Hi]%elem_of_app; [by eapply Hr|by eapply Hl].
Qed.
Lemma latest_age_both l r x y : latest_age (Some x) l → latest_age (Some y) r → is_height_locked x = is_height_locked y →
  latest_age (Some (if y <? x then x else y)) (r ++ l).
Proof.
  intros [Hn Hx] [Hn' Hy] Hu. split.
  - apply elem_of_app. destruct (y <? x); [by right|by left].
  - intros i [Hi|Hi]%elem_of_app.
    + destruct (Hy i Hi) as [U1 L1]. destruct (N.ltb_spec y x); (split; [congruence|lia]).
    + destruct (Hx i Hi) as [U1 L1]. destruct (N.ltb_spec y x); (split; [congruence|lia]).
Qed.
Lemma latest_age_none_l l r x : latest_age x l → latest_age None r → latest_age x (r ++ l).
Proof.
  destruct x as [x|]; simpl.
  - intros [Hn Hx] Hr. split; [apply elem_of_app; by right|].
    intros i [Hi|Hi]%elem_of_app; [by destruct (Hr i)|auto].
  - intros Hl Hr n [Hi|Hi]%elem_of_app; [by eapply Hr|by eapply Hl].
Qed.
Lemma latest_age_none_r l r x : latest_age None l → latest_age x r → latest_age x (r ++ l).
Proof.
  destruct x as [x|]; simpl.
  - intros Hr [Hn Hx]. split; [apply elem_of_app; by left|].
    intros i [Hi|Hi]%elem_of_app; [auto|by destruct (Hr i)].
  - intros Hl Hr n [Hi|Hi]%elem_of_app; [by eapply Hr|by eapply Hl].
Qed.

Lemma combine_Some (x y z : TermPlan AK) l r : combine x y = Some z →
  latest_lock (tp_locktime x) l → latest_age (tp_sequence x) l →
  latest_lock (tp_locktime y) r → latest_age (tp_sequence y) r →
  tp_template z = tp_template x ++ tp_template y ∧ latest_lock (tp_locktime z) (r ++ l) ∧ latest_age (tp_sequence z) (r ++ l).
Proof.
  unfold combine. intros Hc Lx Ax Ly Ay.
  destruct (match tp_locktime x, tp_locktime y with Some l, Some r => _ | _, _ => _ end) as [lk|] eqn:E1; [|done].
  destruct (match tp_sequence x, tp_sequence y with Some l, Some r => _ | _, _ => _ end) as [sq|] eqn:E2; [|done].
  simplify_eq/=. split; [done|]. split.
  - destruct (tp_locktime x) as [lx|], (tp_locktime y) as [ly|]; simplify_eq.
    + destruct (is_same_unit lx ly) eqn:U; simplify_eq. by apply latest_lock_both.
    + by apply latest_lock_none_l.
    + by apply latest_lock_none_r.
    + by apply latest_lock_none_l.
  - destruct (tp_sequence x) as [lx|], (tp_sequence y) as [ly|]; simplify_eq.
    + case_bool_decide; simplify_eq. by apply latest_age_both.
    + by apply latest_age_none_l.
    + by apply latest_age_none_r.
    + by apply latest_age_none_l.
Qed.

Lemma latest_lock_push x l n : is_lock n = false → latest_lock x l → latest_lock x (l ++ [n]).
Proof.
  intros Hn Hx. apply latest_lock_none_r; [|done]. intros i Hi%elem_of_list_singleton. by subst.
Qed.
Lemma latest_age_push x l n : is_lock n = false → latest_age x l → latest_age x (l ++ [n]).
Proof.
  intros Hn Hx. apply latest_age_none_r; [|done]. intros i Hi%elem_of_list_singleton. by subst.
Qed.

(** A term plan realises a path *)
Definition realises a t tp (l : list need) : Prop :=
  way t l ∧ item_need <$> tp_template tp ≡ₚ stack_needs l
  ∧ (one_sided t = true → item_need <$> tp_template tp = stack_needs l)
  ∧ Forall (within_but_locktime a) l
  ∧ (∀ pk, ISign pk ∈ tp_template tp → sig_within a pk)
  ∧ latest_lock (tp_locktime tp) l ∧ latest_age (tp_sequence tp) l.

Lemma way_silent t l : silent t = true → way t l → stack_needs l = [].
Proof.
  intros Hs Hw. induction Hw; simpl in Hs; try done; auto.
  - apply andb_true_iff in Hs as [? ?]. by rewrite stack_needs_app, IHHw1, IHHw2.
  - apply andb_true_iff in Hs as [? ?]. by rewrite stack_needs_app, IHHw1, IHHw2.
Qed.

Lemma realises_leaf a t tp l : way t l → item_need <$> tp_template tp = stack_needs l → Forall (within_but_locktime a) l →
  (∀ pk, ISign pk ∈ tp_template tp → sig_within a pk) → latest_lock (tp_locktime tp) l → latest_age (tp_sequence tp) l →
  realises a t tp l.
Proof. intros ? E ? ? ? ?. split; [done|]. rewrite E. done. Qed.
Lemma realises_wrap a t t' tp l : (way t l → way t' l) → one_sided t' = one_sided t → realises a t tp l → realises a t' tp l.
Proof. intros Hw Ho (? & ? & ? & ?). split; [auto|]. split; [done|]. by rewrite Ho. Qed.
Lemma realises_push a t t' tp l i : (way t l → way t' (l ++ [item_need i])) → (one_sided t' = true → one_sided t = true) →
  (∀ k, i ≠ ISign k) → within_but_locktime a (item_need i) → realises a t tp l → realises a t' (tp_push i tp) (l ++ [item_need i]).
Proof.
  intros Hw Ho Hi Hwi (W & P & E & F & S & L & A).
  assert (Hs : stack_needs (l ++ [item_need i]) = stack_needs l ++ [item_need i]) by (rewrite stack_needs_app; by destruct i).
  split; [auto|]. rewrite Hs. simpl. rewrite fmap_app. simpl. split; [by rewrite P|]. split.
  { intros ?%Ho. by rewrite E. }
  split; [apply Forall_app; by split; [|apply Forall_singleton]|]. split.
  { intros pk [?|Hk%elem_of_list_singleton]%elem_of_app; [auto|]. by destruct (Hi pk). }
  split; [apply latest_lock_push|apply latest_age_push]; try done; by destruct i.
Qed.
Lemma realises_and a x y z l r t u c : (way t l → way u r → way c (r ++ l)) →
  (one_sided c = true → (silent t = true ∨ silent u = true) ∧ one_sided t = true ∧ one_sided u = true) →
  realises a t x l → realises a u y r → combine x y = Some z → realises a c z (r ++ l).
Proof.
  intros Hw Ho (W1 & P1 & E1 & F1 & S1 & L1 & A1) (W2 & P2 & E2 & F2 & S2 & L2 & A2) Hc.
  destruct (combine_Some _ _ _ l r Hc L1 A1 L2 A2) as (Ht & L & A).
  split; [auto|]. rewrite stack_needs_app, Ht, fmap_app. split; [rewrite P1, P2; apply Permutation_app_comm|]. split.
  { intros (Hs & O1 & O2)%Ho. rewrite (E1 O1), (E2 O2).
    destruct Hs as [Hs|Hs]; [rewrite (way_silent _ _ Hs W1)|rewrite (way_silent _ _ Hs W2)]; by rewrite ?app_nil_r. }
  split; [by apply Forall_app|]. split; [|done].
  intros pk [?|?]%elem_of_app; auto.
Qed.

Lemma plan_steps_realises a t tp : plan_steps a t = Ret (Some tp) → ∃ l, realises a t tp l.
Proof.
  revert tp. induction t; intros tp Hp; simpl in Hp; try done.
  - simplify_eq. exists []. apply realises_leaf; simpl; [apply way_true|done|done|by intros ? []%elem_of_nil..].
  - destruct (find_key (a_keys a) k) as [pk|] eqn:E; simplify_eq/=. apply find_key_Some in E as (Ek & Ei & Ed).
    exists [NSig k]. apply realises_leaf; simpl; try (by constructor).
    + by rewrite Ek.
    + constructor; [|done]. exists (pk_asset pk). split; [done|]. rewrite <- Ek, Ed. done.
    + intros pk' ?%elem_of_list_singleton. by simplify_eq.
    + intros n ?%elem_of_list_singleton. done.
    + intros n ?%elem_of_list_singleton. done.
  - destruct (find_key (a_keys a) k) as [pk|] eqn:E; simplify_eq/=. apply find_key_Some in E as (Ek & Ei & Ed).
    exists [NSig k; NKey k]. apply realises_leaf; simpl; try (by constructor).
    + by rewrite Ek.
    + constructor; [|by constructor]. exists (pk_asset pk). split; [done|]. rewrite <- Ek, Ed. done.
    + intros pk' [?|?%elem_of_list_singleton]%elem_of_cons; by simplify_eq.
    + intros n [?|?%elem_of_list_singleton]%elem_of_cons; done.
    + intros n [?|?%elem_of_list_singleton]%elem_of_cons; done.
  - destruct (a_locktime a) as [mx|] eqn:E; [|done]. destruct mx as [hh|ss]; [done|]. simpl in Hp. rewrite N.leb_refl in Hp. simplify_eq/=.
    exists [NAfter n]. apply realises_leaf; simpl; try (by constructor).
    + constructor; [|done]. simpl. by rewrite E.
    + by intros ? []%elem_of_nil.
    + split; [exists n; split; [left|done]|]. intros n' ?%elem_of_list_singleton. simplify_eq. rewrite lt_u32_from.
      split; [by destruct (locktime_from n)|done].
    + intros n' ?%elem_of_list_singleton. done.
  - destruct (a_age a) as [mx|] eqn:E; [|done]. case_bool_decide as Ek; [|done]. destruct (N.leb_spec n mx); simplify_eq/=.
    exists [NOlder n]. apply realises_leaf; simpl; try (by constructor).
    + constructor; [|done]. by exists mx.
    + by intros ? []%elem_of_nil.
    + intros n' ?%elem_of_list_singleton. done.
    + split; [left|]. intros n' ?%elem_of_list_singleton. by simplify_eq.
  - case_bool_decide; simplify_eq/=. exists [NImage h i]. apply realises_leaf; simpl; try (by constructor).
    + by intros pk ?%elem_of_list_singleton.
    + intros n' ?%elem_of_list_singleton. done.
    + intros n' ?%elem_of_list_singleton. done.
  - destruct (IHt _ Hp) as [l Hl]. exists l. apply (realises_wrap a t); [by constructor|done|done].
  - destruct (IHt _ Hp) as [l Hl]. exists l. apply (realises_wrap a t); [by constructor|done|done].
  - destruct (IHt _ Hp) as [l Hl]. exists l. apply (realises_wrap a t); [by constructor|done|done].
  - destruct (plan_steps a t) as [[x|]|]; simplify_eq/=. destruct (IHt _ eq_refl) as [l Hl].
    exists (l ++ [NOne]). eapply (realises_push a t (TDupIf t) x l IOne); try done. by constructor.
  - destruct (IHt _ Hp) as [l Hl]. exists l. apply (realises_wrap a t); [by constructor|done|done].
  - destruct (IHt _ Hp) as [l Hl]. exists l. apply (realises_wrap a t); [by constructor|done|done].
  - destruct (IHt _ Hp) as [l Hl]. exists l. apply (realises_wrap a t); [by constructor|done|done].
  - destruct (plan_steps a t1) as [[x|]|]; simplify_eq/=. destruct (plan_steps a t2) as [[y|]|]; simplify_eq/=.
    destruct (IHt1 _ eq_refl) as [l Hl]. destruct (IHt2 _ eq_refl) as [r Hr]. exists (r ++ l).
    eapply realises_and; [| |done|done|done]; [by constructor|]. simpl. intros [[Hs ?]%andb_true_iff ?]%andb_true_iff.
    apply orb_true_iff in Hs. done.
  - destruct (plan_steps a t1) as [[x|]|]; simplify_eq/=. destruct (plan_steps a t2) as [[y|]|]; simplify_eq/=.
    destruct (IHt1 _ eq_refl) as [l Hl]. destruct (IHt2 _ eq_refl) as [r Hr]. exists (r ++ l).
    eapply realises_and; [| |done|done|done]; [by constructor|]. simpl. intros [[Hs ?]%andb_true_iff ?]%andb_true_iff.
    apply orb_true_iff in Hs. done.
  - destruct (plan_steps a t1) as [x|]; simplify_eq/=. destruct (plan_steps a t2) as [y|]; simplify_eq/=.
    assert (HL : ∀ x', x = Some x' → ∃ l, realises a (TOrI t1 t2) (tp_push IOne x') l).
    { intros x' ->. destruct (IHt1 _ eq_refl) as [l Hl]. exists (l ++ [NOne]).
      eapply (realises_push a t1 (TOrI t1 t2) x' l IOne); try done; [by constructor|]. simpl. by intros [? ?]%andb_true_iff. }
    assert (HR : ∀ y', y = Some y' → ∃ l, realises a (TOrI t1 t2) (tp_push IZero y') l).
    { intros y' ->. destruct (IHt2 _ eq_refl) as [l Hl]. exists (l ++ [NZero]).
      eapply (realises_push a t2 (TOrI t1 t2) y' l IZero); try done; [by constructor|]. simpl. by intros [? ?]%andb_true_iff. }
    destruct x as [x|], y as [y|]; simplify_eq/=; auto. destruct (_ <=? _); simplify_eq; auto.
Qed.

(** ** Nothing is overlooked *)
Lemma consistent_app_r l r : consistent (l ++ r) → consistent r.
Proof. intros [A B]. split; intros n n' ? ?; [apply A|apply B]; apply elem_of_app; by right. Qed.
Lemma consistent_app_l l r : consistent (l ++ r) → consistent l.
Proof. intros [A B]. split; intros n n' ? ?; [apply A|apply B]; apply elem_of_app; by left. Qed.
Lemma sum_app (l r : list N) : foldr N.add 0 (l ++ r) = foldr N.add 0 l + foldr N.add 0 r.
Proof. induction l as [|n l IH]; [done|]. simpl. rewrite IH. lia. Qed.
Lemma path_size_app l r : path_size (l ++ r) = path_size l + path_size r.
Proof. unfold path_size. rewrite fmap_app. apply sum_app. Qed.
Lemma template_size_app (l r : list (item AK)) : template_size (l ++ r) = template_size l + template_size r.
Proof. unfold template_size. rewrite fmap_app. apply sum_app. Qed.

Lemma combine_total a t u x y l r : realises a t x l → realises a u y r → consistent (r ++ l) → ∃ z, combine x y = Some z.
Proof.
  intros (_ & _ & _ & _ & _ & L1 & A1) (_ & _ & _ & _ & _ & L2 & A2) [C1 C2]. unfold combine.
  destruct (match tp_locktime x, tp_locktime y with Some l, Some r => _ | _, _ => _ end) as [lk|] eqn:E1.
  - destruct (match tp_sequence x, tp_sequence y with Some l, Some r => _ | _, _ => _ end) as [sq|] eqn:E2; [by eexists|].
    exfalso. destruct (tp_sequence x) as [sx|], (tp_sequence y) as [sy|]; simplify_eq.
    rewrite bool_decide_true in E2; [done|]. destruct A1 as [A1 _], A2 as [A2 _]. apply C2; apply elem_of_app; auto.
  - exfalso. destruct (tp_locktime x) as [sx|], (tp_locktime y) as [sy|]; simplify_eq.
    destruct L1 as [(n1 & N1 & ->) _], L2 as [(n2 & N2 & ->) _].
    rewrite (C1 n1 n2) in E1; [done|apply elem_of_app; auto..].
Qed.
Lemma combine_template (x y z : TermPlan AK) : combine x y = Some z → tp_template z = tp_template x ++ tp_template y.
Proof. unfold combine. intros Hc. repeat (case_match; simplify_eq/=; try done). Qed.

Lemma way_plan a t l o : way t l → unmixed t → Forall (within_but_locktime a) l → plan_steps a t = Ret o →
  ∃ tp, o = Some tp ∧ template_size (tp_template tp) ≤ path_size l.
Proof.
  intros Hw. revert o. induction Hw; intros o Hu Hf Hp; simpl in Hp.
  - simplify_eq. eexists. split; [done|]. done.
  - apply Forall_cons in Hf as [Hn0 _]. destruct Hn0 as (x & Hx & d & Hd). simplify_eq. destruct (find_key (a_keys a) k) eqn:E; [by eexists|].
    by rewrite (find_key_None _ _ E x Hx) in Hd.
  - apply Forall_cons in Hf as [Hn0 _]. destruct Hn0 as (x & Hx & d & Hd). simplify_eq. destruct (find_key (a_keys a) k) eqn:E; [by eexists|].
    by rewrite (find_key_None _ _ E x Hx) in Hd.
  - apply Forall_cons in Hf as [Hn0 _]. rename Hn0 into Hn. destruct Hn as [mx Hx]. rewrite Hx in Hp.
    destruct mx; [done|]. simpl in Hp. rewrite N.leb_refl in Hp. simplify_eq. by eexists.
  - apply Forall_cons in Hf as [Hn0 _]. destruct Hn0 as (mx & Hx & Hk & Hle). rewrite Hx in Hp. rewrite bool_decide_true in Hp by done.
    destruct (N.leb_spec n mx); [|lia]. simplify_eq. by eexists.
  - apply Forall_cons in Hf as [Hn0 _]. rename Hn0 into Hn. simpl in Hn. rewrite bool_decide_true in Hp by done. simplify_eq. by eexists.
  - apply IHHw; [|done..]. intros l' Hl'. apply Hu. by constructor.
  - apply IHHw; [|done..]. intros l' Hl'. apply Hu. by constructor.
  - apply IHHw; [|done..]. intros l' Hl'. apply Hu. by constructor.
  - destruct (plan_steps a t) as [x|] eqn:E; simplify_eq/=. apply Forall_app in Hf as [Hf _].
    destruct (IHHw x) as (tp & -> & Hs); [|done..|].
    { intros l' Hl'. eapply consistent_app_l, Hu. by constructor. }
    eexists. split; [done|]. simpl. rewrite template_size_app, path_size_app. cbn. lia.
  - apply IHHw; [|done..]. intros l' Hl'. apply Hu. by constructor.
  - apply IHHw; [|done..]. intros l' Hl'. apply Hu. by constructor.
  - apply IHHw; [|done..]. intros l' Hl'. apply Hu. by constructor.
  - destruct (plan_steps a a0) as [x|] eqn:E1; simplify_eq/=. apply Forall_app in Hf as [Hf2 Hf1].
    destruct (IHHw1 x) as (tp & -> & Hs); [|done..|].
    { intros l' Hl'. eapply consistent_app_r, Hu. by constructor. }
    destruct (plan_steps a b) as [y|] eqn:E2; simplify_eq/=.
    destruct (IHHw2 y) as (tp2 & -> & Hs2); [|done..|].
    { intros l' Hl'. eapply consistent_app_l, Hu. by constructor. }
    destruct (plan_steps_realises _ _ _ E1) as [l1 R1]. destruct (plan_steps_realises _ _ _ E2) as [l2 R2].
    destruct (combine_total _ _ _ _ _ _ _ R1 R2) as [z Hz].
    { apply Hu. constructor; [apply R1|apply R2]. }
    simplify_eq. exists z. split; [done|]. rewrite (combine_template _ _ _ Hz), template_size_app, path_size_app. lia.
  - destruct (plan_steps a a0) as [x|] eqn:E1; simplify_eq/=. apply Forall_app in Hf as [Hf2 Hf1].
    destruct (IHHw1 x) as (tp & -> & Hs); [|done..|].
    { intros l' Hl'. eapply consistent_app_r, Hu. by constructor. }
    destruct (plan_steps a b) as [y|] eqn:E2; simplify_eq/=.
    destruct (IHHw2 y) as (tp2 & -> & Hs2); [|done..|].
    { intros l' Hl'. eapply consistent_app_l, Hu. by constructor. }
    destruct (plan_steps_realises _ _ _ E1) as [l1 R1]. destruct (plan_steps_realises _ _ _ E2) as [l2 R2].
    destruct (combine_total _ _ _ _ _ _ _ R1 R2) as [z Hz].
    { apply Hu. constructor; [apply R1|apply R2]. }
    simplify_eq. exists z. split; [done|]. rewrite (combine_template _ _ _ Hz), template_size_app, path_size_app. lia.
  - destruct (plan_steps a a0) as [x|] eqn:E1; simplify_eq/=. destruct (plan_steps a b) as [y|] eqn:E2; simplify_eq/=.
    apply Forall_app in Hf as [Hf _].
    destruct (IHHw x) as (tp & -> & Hs); [|done..|].
    { intros l' Hl'. eapply consistent_app_l, Hu. by constructor. }
    assert (Hsz : template_size (tp_template (tp_push IOne tp)) ≤ path_size (l ++ [NOne])).
    { simpl. rewrite template_size_app, path_size_app. cbn. lia. }
    destruct y as [y|]; simpl; [|by eexists]. destruct (N.leb_spec (template_size (tp_template tp ++ [IOne])) (template_size (tp_template y ++ [IZero]))) as [Hle|Hle].
    + by eexists.
    + eexists. split; [done|]. simpl in *. lia.
  - destruct (plan_steps a a0) as [x|] eqn:E1; simplify_eq/=. destruct (plan_steps a b) as [y|] eqn:E2; simplify_eq/=.
    apply Forall_app in Hf as [Hf _].
    destruct (IHHw y) as (tp & -> & Hs); [|done..|].
    { intros l' Hl'. eapply consistent_app_l, Hu. by apply way_or_i_r. }
    assert (Hsz : template_size (tp_template (tp_push IZero tp)) ≤ path_size (r ++ [NZero])).
    { simpl. rewrite template_size_app, path_size_app. cbn. lia. }
    destruct x as [x|]; simpl; [|by eexists]. destruct (N.leb_spec (template_size (tp_template x ++ [IOne])) (template_size (tp_template tp ++ [IZero]))) as [Hle|Hle].
    + eexists. split; [done|]. simpl in *. lia.
    + by eexists.
Qed.
End plan_proofs.
