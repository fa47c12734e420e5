(** Planning with the keys in another order (C97). *)
From Verif Require Export PlanOrderSpec SignProofs.
Local Open Scope N_scope.

Section like.
Context `{KeyEnv}.
Context (km : KeyMap).
Implicit Types (a : Assets DescKey) (t : term) (p : Plan DescKey) (m : Material).

(** The same key of the descriptor, signed for with the same secret. *)
Definition secret_for (k : PlanKey DescKey) : option (option N) := (λ s, secret_of s (pk_hint k)) <$> km !! pk_asset k.
Definition key_like (k k' : PlanKey DescKey) : Prop := pk_key k = pk_key k' ∧ secret_for k = secret_for k'.
Definition item_like (i i' : item DescKey) : Prop :=
  match i, i' with ISign k, ISign k' => key_like k k' | ISign _, _ | _, ISign _ => False | _, _ => i = i' end.
Notation items_like := (Forall2 item_like).
Local Arguments item_like !_ !_.
Definition tp_like (x y : TermPlan DescKey) : Prop :=
  tp_locktime x = tp_locktime y ∧ tp_sequence x = tp_sequence y ∧ items_like (tp_template x) (tp_template y).
Definition plan_like p p' : Prop :=
  p_target p = p_target p' ∧ p_locktime p = p_locktime p' ∧ p_sequence p = p_sequence p' ∧ items_like (p_template p) (p_template p').
Definition both {A B} (R : A → B → Prop) (x : outcome A) (y : outcome B) : Prop :=
  match x, y with Ret x, Ret y => R x y | Panic, Panic => True | _, _ => False end.

Lemma item_like_refl i : item_like i i.
Proof. by destruct i. Qed.
Lemma item_like_size i i' : item_like i i' → item_size i = item_size i'.
Proof. destruct i, i'; cbn; try done; by intros [=]; subst. Qed.
Lemma sizes_like l l' : items_like l l' → item_size <$> l = item_size <$> l'.
Proof. induction 1 as [|i i' l l' Hi _ IH]; cbn; [done|]. by rewrite (item_like_size _ _ Hi), IH. Qed.
Lemma template_size_like l l' : items_like l l' → template_size l = template_size l'.
Proof. intros Hl. unfold template_size. by rewrite (sizes_like _ _ Hl). Qed.
Lemma tp_push_like i x y : item_like i i → tp_like x y → tp_like (tp_push i x) (tp_push i y).
Proof. intros Hi (E1 & E2 & E3). split; [done|]. split; [done|]. cbn. apply Forall2_app; [done|]. by constructor. Qed.
Lemma combine_like x x' y y' : tp_like x x' → tp_like y y' → option_Forall2 tp_like (combine x y) (combine x' y').
Proof.
  intros (E1 & E2 & E3) (F1 & F2 & F3). unfold combine. rewrite E1, E2, F1, F2.
  destruct (match tp_locktime x' with Some l => _ | None => _ end) as [lt|]; [|constructor].
  destruct (match tp_sequence x' with Some l => _ | None => _ end) as [sq|]; [|constructor].
  constructor. split; [done|]. split; [done|]. cbn. by apply Forall2_app.
Qed.

Definition finds_like a a' k : Prop := option_Forall2 key_like (find_key (a_keys a) k) (find_key (a_keys a') k).
Lemma steps_like a a' t : a_age a = a_age a' → a_locktime a = a_locktime a' → a_images a = a_images a' →
  (∀ k, names k t → finds_like a a' k) → both (option_Forall2 tp_like) (plan_steps a t) (plan_steps a' t).
Proof.
  intros Ha Hl Hi.
  induction t as [| |k|k|h|n|n|h i|t IH|t IH|t IH|t IH|t IH|t IH|t IH|l IHl r IHr|l IHl r IHr|t1 IH1 t2 IH2 t3 IH3|l IHl r IHr|l IHl r IHr|l IHl r IHr|l IHl r IHr|n l|n l|n l];
    intros Hn; cbn [plan_steps names] in *; try (by apply IH); try done.
  - cbn. constructor. repeat split; constructor.
  - cbn. constructor.
  - cbn. destruct (Hn k eq_refl) as [pk pk' Hk|]; constructor. split; [done|]. split; [done|]. cbn. repeat (apply Forall2_cons; split); try done.
  - cbn. destruct (Hn k eq_refl) as [pk pk' Hk|]; constructor. split; [done|]. split; [done|]. cbn. repeat (apply Forall2_cons; split); try done.
  - cbn. constructor.
  - rewrite <- Hl. destruct (a_locktime a) as [mx|]; [|constructor].
    destruct (match mx with Blocks _ => _ | Seconds _ => _ end) as [ht|]; [|done]. cbn [mbind outcome_bind].
    destruct (is_satisfied_by mx ht.1 ht.2); cbn; constructor. repeat split; constructor.
  - rewrite <- Ha. destruct (a_age a) as [mx|]; [|constructor]. case_bool_decide; [|constructor].
    destruct (n <=? mx); cbn; constructor. repeat split; constructor.
  - rewrite <- Hi. case_bool_decide; cbn; constructor. split; [done|]. split; [done|]. cbn. by apply Forall2_cons.
  - specialize (IH Hn). destruct (plan_steps a t) as [x|], (plan_steps a' t) as [x'|]; try done. cbn in *.
    destruct IH as [y y' Hy|]; cbn; constructor. by apply tp_push_like.
  - specialize (IHl (λ k Hk, Hn k (or_introl Hk))). specialize (IHr (λ k Hk, Hn k (or_intror Hk))).
    destruct (plan_steps a l) as [x|], (plan_steps a' l) as [x'|]; try done. cbn in *. destruct IHl as [y y' Hy|]; cbn; [|constructor].
    destruct (plan_steps a r) as [z|], (plan_steps a' r) as [z'|]; try done. cbn in *. destruct IHr as [u u' Hu|]; cbn; [|constructor].
    by apply combine_like.
  - specialize (IHl (λ k Hk, Hn k (or_introl Hk))). specialize (IHr (λ k Hk, Hn k (or_intror Hk))).
    destruct (plan_steps a l) as [x|], (plan_steps a' l) as [x'|]; try done. cbn in *. destruct IHl as [y y' Hy|]; cbn; [|constructor].
    destruct (plan_steps a r) as [z|], (plan_steps a' r) as [z'|]; try done. cbn in *. destruct IHr as [u u' Hu|]; cbn; [|constructor].
    by apply combine_like.
  - specialize (IHl (λ k Hk, Hn k (or_introl Hk))). specialize (IHr (λ k Hk, Hn k (or_intror Hk))).
    destruct (plan_steps a l) as [x|], (plan_steps a' l) as [x'|]; try done. cbn [both mbind outcome_bind] in *.
    destruct (plan_steps a r) as [z|], (plan_steps a' r) as [z'|]; try done. cbn [both mbind outcome_bind] in *.
    destruct IHl as [y y' Hy|], IHr as [u u' Hu|]; cbn [both option_map]; try constructor; try by apply tp_push_like.
    assert (tp_like (tp_push IOne y) (tp_push IOne y')) as L1 by by apply tp_push_like.
    assert (tp_like (tp_push IZero u) (tp_push IZero u')) as L2 by by apply tp_push_like.
    pose proof (template_size_like _ _ (proj2 (proj2 L1))) as S1. pose proof (template_size_like _ _ (proj2 (proj2 L2))) as S2.
    rewrite S1, S2. destruct (_ <=? _); by constructor.
Qed.
Lemma leaves_like a a' l : a_age a = a_age a' → a_locktime a = a_locktime a' → a_images a = a_images a' →
  (∀ k t, t ∈ l → names k t → finds_like a a' k) →
  both (Forall2 (λ x y, x.1 = y.1 ∧ tp_like x.2 y.2)) (plan_leaves a l) (plan_leaves a' l).
Proof.
  intros Ha Hl Hi. induction l as [|t l IH]; intros Hn; cbn [plan_leaves]; [constructor|].
  pose proof (steps_like a a' t Ha Hl Hi (λ k Hk, Hn k t ltac:(left) Hk)) as Hs. specialize (IH (λ k t Ht, Hn k t ltac:(by right))).
  destruct (plan_steps a t) as [x|], (plan_steps a' t) as [x'|]; try done. cbn in *.
  destruct (plan_leaves a l) as [r|], (plan_leaves a' l) as [r'|]; try done. cbn in *.
  destruct Hs as [y y' Hy|]; [|done]. by constructor.
Qed.
Lemma first_min_like {A B} (R : A → B → Prop) (f : A → N) (g : B → N) l l' : (∀ x y, R x y → f x = g y) → Forall2 R l l' →
  option_Forall2 R (first_min f l) (first_min g l').
Proof.
  intros Hfg. induction 1 as [|x y l l' Hx _ IH]; cbn; [constructor|]. destruct IH as [u v Hu|]; [|by constructor].
  rewrite (Hfg _ _ Hx), (Hfg _ _ Hu). destruct (_ <? _); by constructor.
Qed.
Lemma satisfaction_like a a' tr : a_age a = a_age a' → a_locktime a = a_locktime a' → a_images a = a_images a' →
  (∀ k, named_by tr k → finds_like a a' k) →
  both (option_Forall2 plan_like) (plan_satisfaction (DTr tr) a) (plan_satisfaction (DTr tr) a').
Proof.
  intros Ha Hl Hi Hn. cbn [plan_satisfaction]. unfold plan_satisfaction_tr.
  destruct (Hn (tr_internal tr) (or_introl eq_refl)) as [pk pk' Hk|].
  { cbn. constructor. split; [done|]. split; [done|]. split; [done|]. by apply Forall2_cons. }
  pose proof (leaves_like a a' (iter_scripts tr) Ha Hl Hi (λ k t Ht Hk, Hn k (or_intror (ex_intro _ t (conj Ht Hk))))) as HL.
  destruct (plan_leaves a _) as [x|], (plan_leaves a' _) as [x'|]; try done. cbn in *.
  eapply first_min_like in HL; [|intros u v [_ (_ & _ & Hu)]; exact (template_size_like _ _ Hu)].
  destruct HL as [[t y] [t' y'] [Ht (E1 & E2 & E3)]|]; cbn in *; [|constructor]. subst t'. constructor. by repeat split.
Qed.

(** What is done with such plans *)
Lemma weight_like p p' : plan_like p p' → expected_weight p = expected_weight p'.
Proof. intros (E1 & _ & _ & E4). unfold expected_weight. by rewrite E1, (sizes_like _ _ E4). Qed.
Lemma version_like p p' : plan_like p p' → witness_version p = witness_version p'.
Proof. intros (E1 & _). unfold witness_version. by rewrite E1. Qed.
Lemma unsatisfied_like m i i' : item_like i i' → unsatisfied m i = unsatisfied m i'.
Proof. destruct i, i'; cbn; try done; [intros [-> _]; done|by intros [= <- <-]]. Qed.
Lemma missing_like m l l' : items_like l l' → items_like (List.filter (unsatisfied m) l) (List.filter (unsatisfied m) l').
Proof.
  induction 1 as [|i i' l l' Hi _ IH]; cbn; [constructor|]. rewrite (unsatisfied_like _ _ _ Hi).
  destruct (unsatisfied m i'); [by constructor|done].
Qed.
Lemma witness_like m l l' : items_like l l' → witness_of m l = witness_of m l'.
Proof.
  induction 1 as [|i i' l l' Hi _ IH]; cbn; [done|]. rewrite IH. replace (item_witness m i') with (item_witness m i); [done|].
  destruct i, i'; cbn in *; try done; [by destruct Hi as [-> _]|by injection Hi as <-|by injection Hi as <- <-].
Qed.
Definition sigs_like (s s' : ReqSigs DescKey) : Prop :=
  match s, s' with
  | ReqLegacy l, ReqLegacy l' | ReqSegwitv0 l, ReqSegwitv0 l' => Forall2 key_like l l'
  | ReqTapKey k r, ReqTapKey k' r' => key_like k k' ∧ r = r'
  | ReqTapScript h l, ReqTapScript h' l' => h = h' ∧ Forall2 key_like l l'
  | _, _ => False
  end.
Definition req_like (r r' : Requirements DescKey) : Prop := sigs_like (r_sigs r) (r_sigs r') ∧ r_images r = r_images r'.
Definition state_like (s s' : PlanState DescKey) : Prop :=
  match s, s' with Complete w, Complete w' => w = w' | Incomplete r, Incomplete r' => req_like r r' | _, _ => False end.
Lemma req_add_like l l' : items_like l l' → ∀ s s', Forall2 key_like s.1 s'.1 → s.2 = s'.2 →
  Forall2 key_like (foldl req_add s l).1 (foldl req_add s' l').1 ∧ (foldl req_add s l).2 = (foldl req_add s' l').2.
Proof.
  induction 1 as [|i i' l l' Hi _ IH]; intros s s' H1' H2'; cbn; [done|]. apply IH.
  - destruct i, i'; cbn in *; try done. apply Forall2_app; [done|]. by apply Forall2_cons.
  - destruct i, i'; cbn in *; try done. injection Hi as <- <-. by rewrite H2'.
Qed.
Lemma complete_like p p' m : plan_like p p' → both state_like (try_complete p m) (try_complete p' m).
Proof.
  intros (E1 & _ & _ & E4). unfold try_complete. rewrite <- E1. pose proof (missing_like m _ _ E4) as Hm.
  destruct Hm as [|i i' l l' Hi Hl].
  - rewrite <- (witness_like m _ _ E4). destruct (witness_of m (p_template p)) as [w|]; [|done]. cbn [mbind outcome_bind].
    destruct (p_target p) as [| |tr [|script]]; cbn; try done. by destruct (control_path tr script).
  - destruct (p_target p) as [| |tr [|script]]; cbn [both]; try done.
    + destruct E4 as [|j j' r r' Hj Hr]; [done|]. destruct j as [k| | | |], j' as [k'| | | |]; cbn in Hj; try done.
      destruct Hr; cbn; [|done]. split; [split; [exact Hj|reflexivity]|reflexivity].
    + destruct (req_add_like (i :: l) (i' :: l')) with (s := (@nil (PlanKey DescKey), ∅ : gset image)) (s' := (@nil (PlanKey DescKey), ∅ : gset image)) as [F1 F2].
      { by constructor. } { constructor. } { done. } split; [split; [reflexivity|exact F1]|exact F2].
Qed.
Lemma requirements_like p p' : plan_like p p' → both req_like (requirements p) (requirements p').
Proof.
  intros Hp. unfold requirements. pose proof (complete_like p p' no_material Hp) as Hc.
  destruct (try_complete p _) as [s|], (try_complete p' _) as [s'|]; try done. cbn in *. destruct s, s'; try done. cbn. repeat split. constructor.
Qed.
Lemma sign_leaf_like ty msg l l' : Forall2 key_like l l' → ∀ m b, sign_leaf km ty msg l m b = sign_leaf km ty msg l' m b.
Proof.
  induction 1 as [|k k' l l' [E1 E2] _ IH]; intros m b; cbn; [done|]. unfold secret_for in E2. rewrite <- E1.
  destruct (km !! pk_asset k) as [s|], (km !! pk_asset k') as [s'|]; try done; cbn in E2. injection E2 as E2. rewrite <- E2.
  destruct (secret_of s (pk_hint k)); [apply IH|done].
Qed.
Lemma sign_like s s' key_msg leaf_msg ty m : sigs_like s s' →
  sign_with_keymap s km key_msg leaf_msg ty m = sign_with_keymap s' km key_msg leaf_msg ty m.
Proof.
  destruct s, s'; cbn; try done.
  - intros [[E1 E2] <-]. unfold secret_for in E2. rewrite <- E1. destruct key_msg; [|done].
    destruct (km !! pk_asset key) as [s|], (km !! pk_asset key0) as [s'|]; try done; cbn in E2. injection E2 as E2. by rewrite <- E2.
  - intros [<- Hl]. destruct (leaf_msg leaf); [|done]. by rewrite (sign_leaf_like _ _ _ _ Hl).
Qed.

(** Honest keys in another order *)
Lemma find_key_Some ks x pk : find_key ks x = Some pk → pk_asset pk ∈ ks ∧ pk_key pk = x ∧ can_derive (pk_asset pk) x = Some (pk_hint pk).
Proof.
  induction ks as [|y ks IH]; cbn; [done|]. destruct (can_derive y x) as [h|] eqn:E.
  - intros [= <-]. cbn. split; [left|done].
  - intros (? & ? & ?)%IH. split; [by right|done].
Qed.
Lemma find_key_none ks x : find_key ks x = None ↔ ∀ y, y ∈ ks → can_derive y x = None.
Proof.
  induction ks as [|y ks IH]; cbn; [split; [by intros _ y []%elem_of_nil|done]|]. destruct (can_derive y x) as [h|] eqn:E.
  - split; [done|]. intros Hn. specialize (Hn y ltac:(left)). congruence.
  - rewrite IH. split; [intros Hn z [->|Hz]%elem_of_cons; auto|]. intros Hn z Hz. apply Hn. by right.
Qed.
Lemma finds_order R a a' x : ring_laws R → honest_keymap R km → (∀ y, y ∈ a_keys a → is_Some (km !! y) ∧ honest_origin R y) →
  honest_origin R x → (match x with XPub _ _ (_ :: _) _ => x ∉ a_keys a | _ => True end) → a_keys a ≡ₚ a_keys a' → finds_like a a' x.
Proof.
  intros HR Hkm Hks Hx Hn Hp. unfold finds_like.
  assert (∀ ks pk, ks ≡ₚ a_keys a → find_key ks x = Some pk → pk_key pk = x ∧ secret_for pk = Some (key_secret R x)) as Hf.
  { intros ks pk Hks' (Hin & <- & Hc)%find_key_Some. split; [done|]. rewrite Hks' in Hin. destruct (Hks _ Hin) as [[s Es] Ho].
    unfold secret_for. rewrite Es. cbn. f_equal. apply (secret_right R km); try done. unfold not_itself_derived.
    destruct (pk_key pk) as [|o y [|z path] wc]; try done. by intros E; rewrite E in Hin. }
  destruct (find_key (a_keys a) x) as [pk|] eqn:E1, (find_key (a_keys a') x) as [pk'|] eqn:E2.
  - destruct (Hf (a_keys a) pk (Permutation_refl _) E1) as [F1 F2], (Hf (a_keys a') pk' (Permutation_sym Hp) E2) as [F3 F4]. constructor. split; congruence.
  - exfalso. apply find_key_Some in E1 as (Hin & _ & Hc). rewrite find_key_none in E2. rewrite Hp in Hin. rewrite (E2 _ Hin) in Hc. done.
  - exfalso. apply find_key_Some in E2 as (Hin & _ & Hc). rewrite find_key_none in E1. rewrite <- Hp in Hin. rewrite (E1 _ Hin) in Hc. done.
  - constructor.
Qed.
End like.
