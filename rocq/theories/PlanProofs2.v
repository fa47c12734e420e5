(** Whole plans: their shape, what they require, complete to and weigh. *)
From Verif Require Export PlanProofs.

Section plans.
Context `{KeyEnv} {AK : Type} `{!CanDerive AK}.
Implicit Types (a : Assets AK) (p : Plan AK) (tp : TermPlan AK) (t : term) (tr : Tr) (m : Material).

(** ** The first smallest *)
Lemma first_min_None {A} (f : A → N) l : first_min f l = None ↔ l = [].
Proof. destruct l as [|x l]; [done|]. simpl. split; [|done]. destruct (first_min f l); [|done]. by destruct (_ <? _). Qed.
Lemma first_min_Some {A} (f : A → N) l x : first_min f l = Some x → x ∈ l ∧ ∀ y, y ∈ l → f x ≤ f y.
Proof.
  revert x. induction l as [|z l IH]; intros x Hx; [done|]. simpl in Hx. destruct (first_min f l) as [w|] eqn:E.
  - destruct (IH _ eq_refl) as [Hin Hmin]. destruct (N.ltb_spec (f w) (f z)) as [Hlt|Hge]; simplify_eq.
    + split; [by right|]. intros y [->|Hy]%elem_of_cons; [lia|auto].
    + split; [left|]. intros y [->|Hy]%elem_of_cons; [lia|]. specialize (Hmin y Hy). lia.
  - apply first_min_None in E as ->. simplify_eq. split; [left|]. intros y ->%elem_of_list_singleton. lia.
Qed.

(** ** Shape *)
Lemma plan_leaves_elem a l ps t tp : plan_leaves a l = Ret ps → (t, tp) ∈ ps ↔ t ∈ l ∧ plan_steps a t = Ret (Some tp).
Proof.
  revert ps. induction l as [|u l IH]; intros ps Hp; simpl in Hp.
  - simplify_eq. split; [intros []%elem_of_nil|intros [[]%elem_of_nil _]].
  - destruct (plan_steps a u) as [x|] eqn:E; [|done]. simpl in Hp. destruct (plan_leaves a l) as [rest|]; [|done]. simpl in Hp.
    simplify_eq. specialize (IH _ eq_refl). rewrite elem_of_cons. destruct x as [x|].
    + rewrite elem_of_cons, IH. split.
      * intros [?|[? ?]]; [simplify_eq|]; auto.
      * intros [[->|?] ?]; [|by auto]. rewrite E in *. simplify_eq. auto.
    + rewrite IH. split; [intros [? ?]; auto|]. intros [[->|?] ?]; [|done]. congruence.
Qed.
Lemma plan_leaves_steps a l ps t : plan_leaves a l = Ret ps → t ∈ l → ∃ o, plan_steps a t = Ret o.
Proof.
  revert ps. induction l as [|u l IH]; intros ps Hp Ht; [by apply elem_of_nil in Ht|]. simpl in Hp.
  destruct (plan_steps a u) as [x|] eqn:E; [|done]. simpl in Hp. destruct (plan_leaves a l) as [rest|]; [|done].
  apply elem_of_cons in Ht as [->|Ht]; [by eexists|]. by eapply IH.
Qed.

Definition key_plan a tr p : Prop :=
  ∃ pk, find_key (a_keys a) (tr_internal tr) = Some pk ∧ p = mkPlan [ISign pk] (Segwitv1 tr KeySpend) None None.
Definition leaf_plan a tr p t tp : Prop :=
  t ∈ iter_scripts tr ∧ plan_steps a t = Ret (Some tp)
  ∧ p = mkPlan (tp_template tp) (Segwitv1 tr (LeafSpend (script_bytes t))) (tp_locktime tp) (tp_sequence tp)
  ∧ ∀ t', t' ∈ iter_scripts tr → ∃ o, plan_steps a t' = Ret o ∧ ∀ tp', o = Some tp' →
      template_size (tp_template tp) ≤ template_size (tp_template tp').
Lemma plan_shape tr a p : plan_satisfaction (DTr tr) a = Ret (Some p) → key_plan a tr p ∨ ∃ t tp, leaf_plan a tr p t tp.
Proof.
  simpl. unfold plan_satisfaction_tr. destruct (find_key (a_keys a) (tr_internal tr)) as [pk|] eqn:E.
  { intros ?. simplify_eq. left. by exists pk. }
  destruct (plan_leaves a (iter_scripts tr)) as [ps|] eqn:El; [|done]. simpl.
  destruct (first_min _ ps) as [[t tp]|] eqn:Ef; [|done]. intros ?. simplify_eq. right. exists t, tp.
  apply first_min_Some in Ef as [Hin Hmin]. apply (plan_leaves_elem _ _ _ _ _ El) in Hin as [Hin Hs].
  split; [done|]. split; [done|]. split; [done|]. intros t' Ht'.
  destruct (plan_leaves_steps _ _ _ _ El Ht') as [o Ho]. exists o. split; [done|]. intros tp' ->.
  apply (Hmin (t', tp')). by apply (plan_leaves_elem _ _ _ _ _ El).
Qed.
Lemma plan_none tr a : plan_satisfaction (DTr tr) a = Ret None →
  find_key (a_keys a) (tr_internal tr) = None ∧ ∀ t, t ∈ iter_scripts tr → plan_steps a t = Ret None.
Proof.
  simpl. unfold plan_satisfaction_tr. destruct (find_key (a_keys a) (tr_internal tr)) as [pk|] eqn:E; [done|].
  destruct (plan_leaves a (iter_scripts tr)) as [ps|] eqn:El; [|done]. simpl.
  destruct (first_min _ ps) as [[t tp]|] eqn:Ef; [done|]. intros _. apply first_min_None in Ef as ->.
  split; [done|]. intros t Ht. destruct (plan_leaves_steps _ _ _ _ El Ht) as [[x|] Hx]; [|done].
  exfalso. assert (Hn : (t, x) ∈ ([] : list (term * TermPlan AK))) by (apply (plan_leaves_elem _ _ _ _ _ El); done).
  by apply elem_of_nil in Hn.
Qed.

Lemma handled_steps a t : no_block_locktime a → handled t = true → ∃ o, plan_steps a t = Ret o.
Proof.
  intros Hb. induction t; simpl; intros Ht; try done; try (by eexists); try (by apply IHt).
  - destruct (a_locktime a) as [[h|]|] eqn:E; simpl; [by destruct (Hb h)|case_match|]; by eexists.
  - repeat case_match; by eexists.
  - case_match; by eexists.
  - destruct (IHt Ht) as [o ->]. by eexists.
  - apply andb_true_iff in Ht as [H1 H2]. destruct (IHt1 H1) as [[x|] ->]; [|by eexists]. simpl.
    destruct (IHt2 H2) as [[y|] ->]; by eexists.
  - apply andb_true_iff in Ht as [H1 H2]. destruct (IHt1 H1) as [[x|] ->]; [|by eexists]. simpl.
    destruct (IHt2 H2) as [[y|] ->]; by eexists.
  - apply andb_true_iff in Ht as [H1 H2]. destruct (IHt1 H1) as [x ->]. simpl. destruct (IHt2 H2) as [y ->]. by eexists.
Qed.
Lemma handled_plan tr a : no_block_locktime a → (∀ t, t ∈ iter_scripts tr → handled t = true) → ∃ o, plan_satisfaction (DTr tr) a = Ret o.
Proof.
  intros Hb Hh. simpl. unfold plan_satisfaction_tr. case_match; [by eexists|].
  assert (Hl : ∃ ps, plan_leaves a (iter_scripts tr) = Ret ps).
  { induction (iter_scripts tr) as [|t l IH]; [by eexists|]. simpl. destruct (handled_steps a t) as [o ->]; [done|apply Hh; left|].
    simpl. destruct IH as [ps ->]; [intros; apply Hh; by right|]. by eexists. }
  destruct Hl as [ps ->]. simpl. case_match; [|by eexists]. case_match. by eexists.
Qed.

Lemma plan_complete tr a t l : plan_satisfaction (DTr tr) a = Ret None → t ∈ iter_scripts tr → unmixed t → way t l →
  ¬ Forall (within_but_locktime a) l.
Proof.
  intros [_ Hn]%plan_none Ht Hu Hw Hf. destruct (way_plan a t l None Hw Hu Hf (Hn t Ht)) as (tp & ? & _). done.
Qed.
Lemma within_weaken a n : within a n → within_but_locktime a n.
Proof. destruct n; try done. simpl. intros (max & -> & _). by eexists. Qed.
Lemma plan_minimal tr a p s t l : plan_satisfaction (DTr tr) a = Ret (Some p) → p_target p = Segwitv1 tr (LeafSpend s) →
  t ∈ iter_scripts tr → unmixed t → way t l → Forall (within_but_locktime a) l → template_size (p_template p) ≤ path_size l.
Proof.
  intros Hp Hs Ht Hu Hw Hf. destruct (plan_shape _ _ _ Hp) as [(pk & _ & ->)|(t0 & tp & Ht0 & Hs0 & -> & Hmin)]; [done|].
  simpl. destruct (Hmin _ Ht) as (o & Ho & Hle). destruct (way_plan a t l o Hw Hu Hf Ho) as (tp' & -> & Hle').
  specialize (Hle _ eq_refl). lia.
Qed.

(** ** What is required *)
Definition sign_keys (l : list (item AK)) : list (PlanKey AK) := omap (λ i, match i with ISign k => Some k | _ => None end) l.
Lemma req_add_fold (l : list (item AK)) (ks : list (PlanKey AK)) (is : gset image) : (foldl req_add (ks, is) l).1 = ks ++ sign_keys l.
Proof.
  revert ks is. induction l as [|i l IH]; intros ks is; simpl.
  { by rewrite app_nil_r. }
  destruct i; simpl; rewrite IH; simpl; [by rewrite <- app_assoc|done..].
Qed.
Lemma req_add_images (l : list (item AK)) (ks : list (PlanKey AK)) (is : gset image) (i : image) : i ∈ (foldl req_add (ks, is) l).2 ↔ i ∈ is ∨ IHash i.1 i.2 ∈ l.
Proof.
  revert ks is. induction l as [|x l IH]; intros ks is; simpl.
  { split; [auto|]. by intros [?|[]%elem_of_nil]. }
  rewrite elem_of_cons. destruct x; simpl; rewrite IH; destruct i as [hh ii]; simpl in *; [naive_solver..|].
  rewrite elem_of_union, elem_of_singleton. naive_solver.
Qed.
Lemma sign_keys_elem l k : k ∈ sign_keys l ↔ ISign k ∈ l.
Proof.
  unfold sign_keys. rewrite elem_of_list_omap. split.
  - intros (i & Hi & E). destruct i; simplify_eq. done.
  - intros Hi. by exists (ISign k).
Qed.
Lemma sign_keys_missing m (l : list (item AK)) :
  sign_keys (List.filter (unsatisfied m) l) = List.filter (λ k, bool_decide (m_sigs m !! pk_key k = None)) (sign_keys l).
Proof.
  induction l as [|i l IH]; [done|]. simpl. destruct i; simpl; rewrite <- ?IH; try done.
  - by destruct (bool_decide _).
  - by destruct (bool_decide _).
Qed.
Lemma in_missing m (l : list (item AK)) i : i ∈ List.filter (unsatisfied m) l ↔ i ∈ l ∧ unsatisfied m i = true.
Proof. rewrite !elem_of_list_In. apply filter_In. Qed.
Lemma missing_nil m (l : list (item AK)) : List.filter (unsatisfied m) l = [] ↔ ∀ i, i ∈ l → unsatisfied m i = false.
Proof.
  split.
  - intros Hn i Hi. apply not_true_iff_false. intros Hu. assert (Hin : i ∈ List.filter (unsatisfied m) l) by (by apply in_missing).
    rewrite Hn in Hin. by apply elem_of_nil in Hin.
  - intros Hl. destruct (List.filter (unsatisfied m) l) as [|x r] eqn:E; [done|]. exfalso.
    assert (Hin : x ∈ List.filter (unsatisfied m) l) by (rewrite E; left). apply in_missing in Hin as [Hx Hu].
    rewrite (Hl _ Hx) in Hu. done.
Qed.
Lemma witness_of_Ret m (l : list (item AK)) : (∀ i, i ∈ l → unsatisfied m i = false) → ∃ w, witness_of m l = Ret w.
Proof.
  induction l as [|i l IH]; intros Hl; [by eexists|]. simpl.
  assert (∃ x, item_witness m i = Ret x) as [x ->].
  { assert (Hi : unsatisfied m i = false) by (apply Hl; left). destruct i; simpl in *; try (by eexists); apply bool_decide_eq_false in Hi.
    - destruct (m_sigs m !! pk_key k); [by eexists|done].
    - destruct (m_preimages m !! _); [by eexists|done]. }
  destruct IH as [w ->]; [intros; apply Hl; by right|]. by eexists.
Qed.

(** ** Control blocks *)
Lemma tree_paths_leaves x : (tree_paths x).*1 = tree_leaves x.
Proof.
  induction x as [t|l IHl r IHr]; [done|]. simpl. rewrite fmap_app, <- !list_fmap_compose, <- IHl, <- IHr.
  f_equal; by apply list_fmap_ext.
Qed.
Lemma tree_paths_root `{!KeyLaws} x t path : (t, path) ∈ tree_paths x →
  root_from (script_bytes t) path = tree_root x ∧ Forall (λ h, length h = 32%nat) path.
Proof.
  revert path. induction x as [u|l IHl r IHr]; intros path; simpl.
  - intros ?%elem_of_list_singleton. simplify_eq. done.
  - assert (HL : ∀ y : tap_tree, length (tree_root y) = 32%nat) by (intros []; [apply leaf_hash_length|apply branch_hash_length]).
    intros [(q & E & Hq)%elem_of_list_fmap|(q & E & Hq)%elem_of_list_fmap]%elem_of_app; destruct q as [u q]; simplify_eq/=.
    + destruct (IHl _ Hq) as [E F]. unfold root_from in *. rewrite foldl_app. simpl. rewrite E. split; [done|].
      apply Forall_app. split; [done|]. by apply Forall_singleton.
    + destruct (IHr _ Hq) as [E F]. unfold root_from in *. rewrite foldl_app. simpl. rewrite E. split; [apply branch_hash_comm|].
      apply Forall_app. split; [done|]. by apply Forall_singleton.
Qed.
Lemma control_path_Some tr t : t ∈ iter_scripts tr → ∃ path, control_path tr (script_bytes t) = Some path.
Proof.
  unfold iter_scripts, control_path. destruct (tr_tree tr) as [x|]; [|by intros []%elem_of_nil].
  rewrite <- tree_paths_leaves. intros ([u path] & E & Hin)%elem_of_list_fmap. simpl in E. subst u.
  destruct (first_min _ _) as [y|] eqn:E; [by eexists|]. exfalso. apply first_min_None in E.
  assert (Hf : (t, path) ∈ filter (λ q : term * list bytes, script_bytes q.1 = script_bytes t) (tree_paths x)) by (by apply elem_of_list_filter).
  rewrite E in Hf. by apply elem_of_nil in Hf.
Qed.
Lemma control_path_commits `{!KeyLaws} tr s path : control_path tr s = Some path →
  merkle_root tr = Some (root_from s path) ∧ Forall (λ h, length h = 32%nat) path.
Proof.
  unfold control_path, merkle_root. destruct (tr_tree tr) as [x|]; [|done].
  destruct (first_min _ _) as [[t q]|] eqn:E; [|done]. simpl. intros [= <-].
  apply first_min_Some in E as [[Es Hin]%elem_of_list_filter _]. simpl in *. subst s.
  destruct (tree_paths_root _ _ _ Hin) as [-> F]. done.
Qed.

(** ** Completing *)
Lemma try_complete_shape tr a p m : plan_satisfaction (DTr tr) a = Ret (Some p) →
  (∃ w tail, try_complete p m = Ret (Complete (w ++ tail)) ∧ witness_of m (p_template p) = Ret w
     ∧ List.filter (unsatisfied m) (p_template p) = []
     ∧ ((p_target p = Segwitv1 tr KeySpend ∧ tail = [])
        ∨ ∃ s path, p_target p = Segwitv1 tr (LeafSpend s) ∧ control_path tr s = Some path ∧ tail = [s; control_block tr path]))
  ∨ (List.filter (unsatisfied m) (p_template p) ≠ []
     ∧ ((∃ pk, p_template p = [ISign pk] ∧ p_target p = Segwitv1 tr KeySpend ∧ try_complete p m = Ret (Incomplete (mkReq (ReqTapKey pk (merkle_root tr)) ∅)))
        ∨ ∃ s, p_target p = Segwitv1 tr (LeafSpend s) ∧
          let r := foldl req_add ([], ∅) (List.filter (unsatisfied m) (p_template p)) in
          try_complete p m = Ret (Incomplete (mkReq (ReqTapScript (tap_leaf_hash s) r.1) r.2)))).
Proof.
  intros Hp. unfold try_complete. destruct (List.filter (unsatisfied m) (p_template p)) as [|y r] eqn:E.
  - left. pose proof (proj1 (missing_nil _ _) E) as Hl. destruct (witness_of_Ret _ _ Hl) as [w Hw].
    destruct (plan_shape _ _ _ Hp) as [(pk & Hk & ->)|(t & tp & Ht & Hs & -> & _)].
    + exists w, []. rewrite Hw. rewrite app_nil_r. simpl. auto 6.
    + destruct (control_path_Some _ _ Ht) as [path Hpath]. exists w, [script_bytes t; control_block tr path].
      rewrite Hw. cbn. rewrite Hpath. split; [done|]. split; [done|]. split; [done|]. right. eauto.
  - right. split; [done|]. destruct (plan_shape _ _ _ Hp) as [(pk & Hk & ->)|(t & tp & Ht & Hs & -> & _)]; [left|right]; cbn; eauto.
Qed.

Lemma supplied_iff tr a p r m : plan_satisfaction (DTr tr) a = Ret (Some p) → requirements p = Ret r →
  (supplied m r ↔ List.filter (unsatisfied m) (p_template p) = []).
Proof.
  intros Hp Hr. unfold requirements in Hr. rewrite missing_nil.
  assert (Hno : ∀ i : item AK, unsatisfied no_material i = match i with ISign _ | IHash _ _ => true | _ => false end) by (by intros []).
  destruct (try_complete_shape _ _ _ no_material Hp) as [(w & tail & E & _ & Hm & _)|(Hm & [(pk & Ht & Htg & E)|(s & Htg & E)])];
    simpl in E; rewrite E in Hr; simpl in Hr.
  - simplify_eq. split.
    + intros _ i Hi. pose proof (proj1 (missing_nil _ _) Hm _ Hi) as Hu. rewrite Hno in Hu. by destruct i.
    + intros _. split; [intros k []%elem_of_nil|]. intros i []%not_elem_of_empty.
  - simplify_eq. unfold supplied. rewrite Ht. simpl. split.
    + intros [Hk _] i ->%elem_of_list_singleton. simpl. apply bool_decide_eq_false.
      destruct (Hk pk ltac:(left)) as [? ->]. done.
    + intros Hi. split; [|by intros i []%not_elem_of_empty]. intros k ->%elem_of_list_singleton.
      specialize (Hi (ISign pk) ltac:(left)). simpl in Hi. apply bool_decide_eq_false in Hi.
      destruct (m_sigs m !! pk_key pk); [by eexists|done].
  - simplify_eq. unfold supplied. cbn [r_sigs r_images req_keys].
    rewrite req_add_fold, app_nil_l. split.
    + intros [Hk Hi] i Hin. destruct i as [k| | | |h i]; try done; simpl; apply bool_decide_eq_false.
      * destruct (Hk k) as [? ->]; [|done]. apply sign_keys_elem, in_missing. by rewrite Hno.
      * destruct (Hi (h, i)) as [? ->]; [|done]. apply req_add_images. right. apply in_missing. by rewrite Hno.
    + intros Hin. split.
      * intros k [Hk _]%sign_keys_elem%in_missing. specialize (Hin _ Hk). simpl in Hin. apply bool_decide_eq_false in Hin.
        destruct (m_sigs m !! pk_key k); [by eexists|done].
      * intros [h i] [[]%not_elem_of_empty|[Hk _]%in_missing]%req_add_images. specialize (Hin _ Hk). simpl in Hin.
        apply bool_decide_eq_false in Hin. destruct (m_preimages m !! _); [by eexists|done].
Qed.

Lemma keys_unsat_none l : List.filter (λ k : PlanKey AK, bool_decide (m_sigs no_material !! pk_key k = None)) l = l.
Proof. induction l as [|x l IH]; [done|]. cbn [List.filter]. rewrite bool_decide_true by apply lookup_empty. by rewrite IH. Qed.

Lemma try_complete_exact tr a p : plan_satisfaction (DTr tr) a = Ret (Some p) →
  ∃ r, requirements p = Ret r ∧ ∀ m, ∃ st, try_complete p m = Ret st ∧
    match st with Complete _ => supplied m r | Incomplete r' => ¬ supplied m r ∧ left_over m r r' end.
Proof.
  intros Hp. assert (∃ r, requirements p = Ret r) as [r Hr].
  { unfold requirements. destruct (try_complete_shape _ _ _ no_material Hp) as [(w & tail & -> & _)|(Hm & [(pk & Ht & Htg & ->)|(s & Htg & Hc)])];
      simpl; [by eexists..|]. simpl in Hc. rewrite Hc. by eexists. }
  exists r. split; [done|]. intros m. pose proof (supplied_iff _ _ _ _ m Hp Hr) as Hs.
  destruct (try_complete_shape _ _ _ m Hp) as [(w & tail & -> & _ & Hm & _)|(Hm & Hc)].
  { eexists. split; [done|]. by apply Hs. }
  assert (Hns : ¬ supplied m r) by (by rewrite Hs).
  unfold requirements in Hr. destruct (try_complete_shape _ _ _ no_material Hp) as [(w & tail & E & _ & Hm0 & _)|(Hm0 & Hc0)].
  { exfalso. apply Hm. apply missing_nil. intros i Hi. pose proof (proj1 (missing_nil _ _) Hm0 _ Hi) as Hu. by destruct i. }
  destruct Hc as [(pk & Ht & Htg & ->)|(s & Htg & Hc)].
  - destruct Hc0 as [(pk0 & Ht0 & Htg0 & E0)|(s0 & Htg0 & _)]; [|congruence]. rewrite Ht in Ht0. simplify_eq.
    rewrite E0 in Hr. simpl in Hr. simplify_eq. eexists. split; [done|]. split; [done|]. split; [done|]. simpl. split; [|set_solver].
    rewrite bool_decide_true; [done|]. destruct (m_sigs m !! pk_key pk0) eqn:E; [|done]. exfalso. apply Hns.
    split; [|set_solver]. intros k ->%elem_of_list_singleton. by rewrite E.
  - destruct Hc0 as [(pk0 & Ht0 & Htg0 & E0)|(s0 & Htg0 & E0)]; [congruence|]. rewrite Htg in Htg0. simplify_eq. simpl in Hc, E0.
    rewrite E0 in Hr. simpl in Hr. simplify_eq. rewrite Hc. eexists. split; [done|]. split; [done|]. split; [done|].
    cbn [r_sigs r_images req_keys]. rewrite !req_add_fold, !app_nil_l. split.
    + rewrite !sign_keys_missing, keys_unsat_none. done.
    + intros [h i]. rewrite !req_add_images, !in_missing. simpl. rewrite bool_decide_eq_true.
      split; [intros [[]%not_elem_of_empty|[? ?]]|intros [[[]%not_elem_of_empty|[? _]] ?]]; auto.
Qed.
End plans.
