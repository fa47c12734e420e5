(** Proofs about walking descendants and conflicts, and about fees. *)
From Verif Require Export TxGraphProofs.

Lemma filter_true {A} (Q : A → Prop) `{∀ x, Decision (Q x)} (l : list A) : (∀ x, Q x) → filter Q l = l.
Proof. intros HQ. induction l as [|x l IH]; [done|]. rewrite filter_cons_True by done. by rewrite IH. Qed.

Section walk.
Context (g : TxGraph) (ho : OutPoint → list Txid) (Hho : hash_order g ho).

Definition edge (i j : Txid) : Prop := ∃ o, op_txid o = i ∧ j ∈ outspends g o.
Lemma edge_child i j : spends_exact g → edge i j ↔ child g i j.
Proof.
  intros Hs. unfold edge, child. split.
  - intros (o & Ho & Hj). apply Hs in Hj as (Hn & t & Ht & Hin). exists t, o. done.
  - intros (t & o & Ht & Hin & Hn & Ho). exists o. split; [done|]. apply Hs. eauto.
Qed.

Lemma elem_of_ho o s : s ∈ ho o ↔ s ∈ outspends g o.
Proof. by rewrite (Hho o), elem_of_elements. Qed.

Lemma elem_of_spend_paths d i d' j : (d', j) ∈ spend_paths ho g d i ↔ d' = d ∧ edge i j.
Proof.
  unfold spend_paths. rewrite elem_of_list_bind. split.
  - intros ([o X] & Hin & Hf). apply elem_of_list_fmap in Hin as (s & [= -> ->] & Hs). simpl in *.
    apply elem_of_list_filter in Hf as [Ho _]. split; [done|]. exists o. split; [done|]. by apply elem_of_ho.
  - intros [-> (o & Ho & Hj)]. unfold outspends in Hj.
    destruct (tg_spends g !! o) as [X|] eqn:E; [|simpl in Hj; set_solver].
    exists (o, X). split.
    + apply elem_of_list_fmap. exists j. split; [done|]. apply elem_of_ho. unfold outspends. simpl. by rewrite E.
    + apply elem_of_list_filter. split; [done|]. by apply elem_of_bmap_list.
Qed.

(** ** Termination *)
Definition rest_entries (V : gset Txid) : list Txid :=
  filter (λ os, op_txid os.1 ∉ V) (bmap_list (tg_spends g)) ≫= λ os, ho os.1.
Lemma rest_visit V d i :
  i ∉ V → (length (spend_paths ho g d i) + length (rest_entries ({[ i ]} ∪ V)) = length (rest_entries V))%nat.
Proof.
  intros Hi. unfold spend_paths, rest_entries.
  induction (bmap_list (tg_spends g)) as [|[o X] l IH]; [done|].
  rewrite !filter_cons. simpl.
  destruct (decide (op_txid o = i)) as [Eo|Hne].
  - rewrite decide_False by set_solver. rewrite (decide_True (P := op_txid o ∉ V)) by (by rewrite Eo).
    rewrite !bind_cons, !app_length, fmap_length. lia.
  - destruct (decide (op_txid o ∉ V)) as [Hv|Hv].
    + rewrite decide_True by set_solver. rewrite !bind_cons, !app_length. lia.
    + rewrite decide_False by set_solver. done.
Qed.
Lemma descend_total {R} (f : nat → Txid → option R) fuel V st :
  (length st + length (rest_entries V) ≤ fuel)%nat → ∃ l, descend ho g f fuel V st = Some l.
Proof.
  revert V st. induction fuel as [|fuel IH]; intros V st Hf.
  - destruct st; simpl in *; [eauto|lia].
  - destruct st as [|[d i] st]; simpl in *; [eauto|].
    case_bool_decide as Hi; [apply IH; lia|].
    destruct (f d i) as [r|].
    + destruct (IH ({[ i ]} ∪ V) (populate_stack ho g (S d) i st)) as [l ->]; [|by eexists].
      unfold populate_stack. rewrite app_length, reverse_length.
      pose proof (rest_visit V (S d) i Hi). lia.
    + apply IH. pose proof (rest_visit V (S d) i Hi). lia.
Qed.
Lemma descend_all_total {R} (f : nat → Txid → option R) st : ∃ l, descend_all ho g f st = Some l.
Proof.
  apply descend_total. unfold walk_fuel, rest_entries.
  rewrite filter_true; [lia|]. intros x. set_solver.
Qed.

(** ** Any callback: outputs come from distinct, unvisited transactions *)
Lemma descend_map {R S'} (h : R → S') (f : nat → Txid → option R) fuel V st :
  descend ho g (λ d i, fmap (M:=option) h (f d i)) fuel V st = fmap (M:=option) (fmap (M:=list) h) (descend ho g f fuel V st).
Proof.
  revert V st. induction fuel as [|fuel IH]; intros V st; [by destruct st|].
  destruct st as [|[d i] st]; [done|]. simpl. case_bool_decide; [apply IH|].
  destruct (f d i); simpl; rewrite IH; [|done]. by destruct (descend _ _ _ _ _ _).
Qed.
Lemma descend_nodup {R} (f : nat → Txid → option R) fuel V st l :
  descend ho g (λ d i, fmap (M:=option) (λ r, (i, r)) (f d i)) fuel V st = Some l →
  NoDup l.*1 ∧ ∀ i, i ∈ l.*1 → i ∉ V.
Proof.
  revert V st l. induction fuel as [|fuel IH]; intros V st l.
  { destruct st; [|done]. intros [= <-]. simpl. split; [constructor|set_solver]. }
  destruct st as [|[d i] st]; simpl.
  { intros [= <-]. simpl. split; [constructor|set_solver]. }
  case_bool_decide as Hi; [apply IH|].
  destruct (f d i) as [r|]; simpl.
  - intros Hl. apply fmap_Some in Hl as (l' & E & ->). apply IH in E as [Hnd Hni]. simpl. split.
    + constructor; [|done]. intros Hin%Hni. set_solver.
    + intros j. rewrite elem_of_cons. intros [-> |Hin%Hni]; set_solver.
  - intros E. apply IH in E as [Hnd Hni]. split; [done|]. intros j Hin%Hni. set_solver.
Qed.

(** ** A callback keeping by txid: exactly the reachable ones *)
Section keep.
Context (keep : Txid → bool).
Definition keep_f (d : nat) (i : Txid) : option (nat * Txid) := if keep i then Some (d, i) else None.

Inductive reach_avoid (V : gset Txid) (S0 : Txid → Prop) : Txid → Prop :=
| ra_base j : S0 j → j ∉ V → reach_avoid V S0 j
| ra_step i j : reach_avoid V S0 i → keep i = true → edge i j → j ∉ V → reach_avoid V S0 j.
Definition on_stack (st : list (nat * Txid)) (j : Txid) : Prop := j ∈ st.*2.

Lemma reach_avoid_mono V (S1 S2 : Txid → Prop) j :
  (∀ j, S1 j → j ∉ V → S2 j) → reach_avoid V S1 j → reach_avoid V S2 j.
Proof.
  intros Hs. induction 1 as [j Hj HV|i j Hi IH Hk He HV]; [apply ra_base; auto|]. by eapply ra_step.
Qed.
Lemma reach_avoid_weaken V W S0 j : (W ⊆ V) → reach_avoid V S0 j → reach_avoid W S0 j.
Proof.
  intros Hs. induction 1 as [j Hj HV|i j Hi IH Hk He HV]; [apply ra_base; set_solver|].
  eapply ra_step; [done..|set_solver].
Qed.
Lemma reach_skip V d i st j : i ∈ V → reach_avoid V (on_stack ((d, i) :: st)) j ↔ reach_avoid V (on_stack st) j.
Proof.
  intros Hi. split; apply reach_avoid_mono; unfold on_stack; simpl; set_solver.
Qed.
Lemma reach_reject V d i st j :
  i ∉ V → keep i = false →
  (reach_avoid V (on_stack ((d, i) :: st)) j ∧ keep j = true ↔
   reach_avoid ({[ i ]} ∪ V) (on_stack st) j ∧ keep j = true).
Proof.
  intros Hi Hk. split; intros [Hr Hkj]; (split; [|done]).
  - assert (j = i ∨ reach_avoid ({[ i ]} ∪ V) (on_stack st) j) as [-> |]; [|congruence|done].
    clear Hkj. induction Hr as [j Hj HV|k j Hr IH Hkk He HV].
    + destruct (decide (j = i)); [by left|right]. apply ra_base; [unfold on_stack in *; set_solver|set_solver].
    + destruct (decide (j = i)); [by left|right].
      destruct IH as [-> |IH]; [congruence|]. eapply ra_step; [done..|set_solver].
  - apply (reach_avoid_weaken _ V) in Hr; [|set_solver]. eapply reach_avoid_mono; [|done].
    unfold on_stack. simpl. set_solver.
Qed.
Lemma elem_of_populate d i st j :
  j ∈ (populate_stack ho g d i st).*2 ↔ edge i j ∨ j ∈ st.*2.
Proof.
  unfold populate_stack. rewrite fmap_app, elem_of_app, fmap_reverse, elem_of_reverse.
  rewrite elem_of_list_fmap. split.
  - intros [([d' j'] & -> & Hin)|?]; [|by right]. apply elem_of_spend_paths in Hin as [_ ?]. by left.
  - intros [He|?]; [|by right]. left. exists (d, j). split; [done|]. by apply elem_of_spend_paths.
Qed.
Lemma reach_accept V d d' i st j :
  i ∉ V → keep i = true →
  (reach_avoid V (on_stack ((d, i) :: st)) j ↔
   j = i ∨ reach_avoid ({[ i ]} ∪ V) (on_stack (populate_stack ho g d' i st)) j).
Proof.
  intros Hi Hk. unfold on_stack. split.
  - induction 1 as [j Hj HV|k j Hr IH Hkk He HV].
    + destruct (decide (j = i)); [by left|right].
      apply ra_base; [|set_solver]. apply elem_of_populate. simpl in Hj. set_solver.
    + destruct (decide (j = i)); [by left|right].
      destruct IH as [-> |IH].
      * apply ra_base; [|set_solver]. apply elem_of_populate. by left.
      * eapply ra_step; [done..|set_solver].
  - intros [-> |Hr].
    + apply ra_base; [simpl; set_solver|done].
    + induction Hr as [j Hj HV|k j Hr IH Hkk He HV].
      * apply elem_of_populate in Hj as [He|Hin].
        -- eapply ra_step; [apply (ra_base _ _ i); [simpl; set_solver|done]|done..|set_solver].
        -- apply ra_base; [simpl; set_solver|set_solver].
      * eapply ra_step; [done..|set_solver].
Qed.
Lemma descend_exact fuel V st l :
  descend ho g keep_f fuel V st = Some l →
  ∀ j, j ∈ l.*2 ↔ reach_avoid V (on_stack st) j ∧ keep j = true.
Proof.
  assert (∀ V j, ¬ reach_avoid V (on_stack []) j) as Hnil.
  { intros W j. induction 1; [unfold on_stack in *; set_solver|done]. }
  revert V st l. induction fuel as [|fuel IH]; intros V st l.
  { destruct st; [|done]. intros [= <-] j. simpl. split; [set_solver|]. intros [[]%Hnil _]. }
  destruct st as [|[d i] st]; simpl.
  { intros [= <-] j. simpl. split; [set_solver|]. intros [[]%Hnil _]. }
  case_bool_decide as Hi.
  { intros E j. rewrite reach_skip by done. by apply IH. }
  unfold keep_f at 1. destruct (keep i) eqn:Hk.
  - intros Hl j. apply fmap_Some in Hl as (l' & E & ->). simpl.
    rewrite elem_of_cons. rewrite (reach_accept V d (S d) i st j) by done.
    specialize (IH _ _ _ E j). naive_solver.
  - intros E j. rewrite reach_reject by done. by apply IH.
Qed.

(** ** Depth *)
Inductive reach_at (st : list (nat * Txid)) : nat → Txid → Prop :=
| rat_base d j : (d, j) ∈ st → reach_at st d j
| rat_step d i j : reach_at st d i → keep i = true → edge i j → reach_at st (S d) j.
Lemma reach_at_mono st st' d j :
  (∀ d j, (d, j) ∈ st → reach_at st' d j) → reach_at st d j → reach_at st' d j.
Proof. intros Hm. induction 1; [auto|by eapply rat_step]. Qed.
Lemma descend_depth fuel V st l d j :
  descend ho g keep_f fuel V st = Some l → (d, j) ∈ l → reach_at st d j.
Proof.
  revert V st l. induction fuel as [|fuel IH]; intros V st l.
  { destruct st; [|done]. intros [= <-]. set_solver. }
  destruct st as [|[d0 i] st]; simpl; [intros [= <-]; set_solver|].
  assert (∀ d j, reach_at st d j → reach_at ((d0, i) :: st) d j) as Hw.
  { intros ? ?. apply reach_at_mono. intros. apply rat_base. set_solver. }
  case_bool_decide as Hi; [intros E Hin; eapply Hw, IH; done|].
  unfold keep_f at 1. destruct (keep i) eqn:Hk; [|intros E Hin; eapply Hw, IH; done].
  intros Hl Hin. apply fmap_Some in Hl as (l' & E & ->).
  apply elem_of_cons in Hin as [[= -> ->]|Hin]; [apply rat_base; set_solver|].
  specialize (IH _ _ _ E Hin). revert IH. apply reach_at_mono. intros d' j'.
  unfold populate_stack. rewrite elem_of_app, elem_of_reverse, elem_of_spend_paths.
  intros [[-> He]|Hst].
  - eapply rat_step; [apply rat_base, elem_of_list_here|done..].
  - apply rat_base. set_solver.
Qed.
End keep.
End walk.

(** ** C22, C23 *)
Lemma keep_f_nodup g ho keep fuel V st l :
  hash_order g ho → descend ho g (keep_f keep) fuel V st = Some l → NoDup l.*2.
Proof.
  intros Hho E.
  assert (descend ho g (λ d i, fmap (M:=option) (λ r, (i, r)) (keep_f keep d i)) fuel V st = Some (fmap (M:=list) (λ di, (di.2, di)) l)) as E'.
  { assert (∀ fuel V st, descend ho g (λ d i, fmap (M:=option) (λ r, (i, r)) (keep_f keep d i)) fuel V st =
              descend ho g (λ d i, fmap (M:=option) (λ di : nat * Txid, (di.2, di)) (keep_f keep d i)) fuel V st) as Hext.
    { clear. induction fuel as [|fuel IH]; intros V st; [done|]. destruct st as [|[d i] st]; [done|]. simpl.
      rewrite !IH. case_bool_decide; [done|]. unfold keep_f. by destruct (keep i). }
    rewrite Hext, descend_map, E. done. }
  apply (descend_nodup g ho Hho) in E' as [Hnd _]. rewrite <- list_fmap_compose in Hnd. simpl in Hnd.
  exact Hnd.
Qed.
Lemma walk_exact g ho (keep : Txid → bool) i :
  graph_ok g → hash_order g ho →
  ∃ l, walk_descendants ho g i (λ d j, if keep j then Some (d, j) else None) = Some l ∧
    NoDup l.*2 ∧
    (∀ j, j ∈ l.*2 ↔ keep j = true ∧ reachable g keep i j) ∧
    (∀ d j, (d, j) ∈ l → reach_in g keep i d j).
Proof.
  intros [_ Hs] Hho. unfold walk_descendants.
  destruct (descend_all_total g ho Hho (keep_f keep) (populate_stack ho g 1 i [])) as [l E].
  exists l. split; [done|]. split; [by eapply keep_f_nodup|].
  assert (∀ d j, (d, j) ∈ l → reach_in g keep i d j) as Hd.
  { intros d j Hin. eapply descend_depth in E; [|done|done]. clear Hin.
    induction E as [d j Hst|d k j Hr IH Hk He].
    - unfold populate_stack in Hst. rewrite app_nil_r, elem_of_reverse, elem_of_spend_paths in Hst by done.
      destruct Hst as [-> He]. apply reach_one. by apply edge_child.
    - eapply reach_next; [exact IH|done|]. by apply edge_child. }
  split; [|done]. intros j. split.
  - intros Hin. split.
    + eapply descend_exact in Hin; [|done..]. by destruct Hin.
    + apply elem_of_list_fmap in Hin as ([d j'] & -> & Hin). exists d. auto.
  - intros [Hk [d Hr]]. eapply descend_exact; [done..|]. split; [|done]. clear Hk.
    induction Hr as [j Hc|d k j Hr IH Hk Hc].
    + apply ra_base; [|set_solver]. unfold on_stack. apply elem_of_populate; [done|]. left. by apply edge_child.
    + eapply ra_step; [done..| |set_solver]. by apply edge_child.
Qed.
Lemma walk_order_irrelevant g ho ho' (keep : Txid → bool) i l l' :
  graph_ok g → hash_order g ho → hash_order g ho' →
  walk_descendants ho g i (λ d j, if keep j then Some (d, j) else None) = Some l →
  walk_descendants ho' g i (λ d j, if keep j then Some (d, j) else None) = Some l' →
  l.*2 ≡ₚ l'.*2.
Proof.
  intros Hok Hho Hho' E E'.
  destruct (walk_exact g ho keep i Hok Hho) as (l1 & E1 & Hnd1 & Hm1 & _).
  destruct (walk_exact g ho' keep i Hok Hho') as (l2 & E2 & Hnd2 & Hm2 & _).
  assert (l = l1) as -> by congruence. assert (l' = l2) as -> by congruence.
  apply NoDup_Permutation; [done..|]. intros j. rewrite Hm1, Hm2. done.
Qed.
(** Any callback whatsoever. *)
Lemma walk_total {R} g ho i (f : nat → Txid → option R) :
  hash_order g ho →
  ∃ l, walk_descendants ho g i f = Some l ∧
       ∃ tr, walk_descendants ho g i (λ d j, fmap (M:=option) (λ r, (j, r)) (f d j)) = Some tr ∧
             l = tr.*2 ∧ NoDup tr.*1.
Proof.
  intros Hho. unfold walk_descendants.
  destruct (descend_all_total g ho Hho f (populate_stack ho g 1 i [])) as [l E].
  destruct (descend_all_total g ho Hho (λ d j, fmap (M:=option) (λ r, (j, r)) (f d j)) (populate_stack ho g 1 i [])) as [tr E'].
  exists l. split; [done|]. exists tr. split; [done|]. split; [|by eapply descend_nodup].
  pose proof (descend_map g ho snd (λ d j, fmap (M:=option) (λ r, (j, r)) (f d j)) (walk_fuel ho g (populate_stack ho g 1 i [])) ∅
                (populate_stack ho g 1 i [])) as Hm.
  unfold descend_all in *. rewrite E' in Hm. simpl in Hm.
  assert (∀ fuel V st, descend ho g (λ d j, fmap (M:=option) snd (fmap (M:=option) (λ r, (j, r)) (f d j))) fuel V st = descend ho g f fuel V st) as Hext.
  { clear. induction fuel as [|fuel IH]; intros V st; [done|]. destruct st as [|[d j] st]; [done|]. simpl.
    rewrite !IH. case_bool_decide; [done|]. by destruct (f d j). }
  rewrite Hext, E in Hm. by injection Hm.
Qed.

(** ** C24 *)
Lemma direct_conflicts_exact g ho t vin s :
  graph_ok g → hash_order g ho →
  (vin, s) ∈ direct_conflicts_of_tx ho g t ↔ conflicts_at g t vin s.
Proof.
  intros [_ Hs] Hho. unfold direct_conflicts_of_tx, conflicts_at.
  rewrite elem_of_list_filter, elem_of_list_bind. simpl. f_equiv. split.
  - intros ([v o] & Hin & Hl). apply elem_of_lookup_imap in Hl as (v' & o' & [= <- <-] & Hl). simpl in Hin.
    destruct (tg_spends g !! o) as [X|] eqn:E; [|set_solver].
    apply elem_of_list_fmap in Hin as (s' & [= -> ->] & Hin).
    apply (elem_of_ho g ho Hho) in Hin. apply Hs in Hin as (Hn & ts & Ht & Hi). exists o, ts. done.
  - intros (o & ts & Hl & Hn & Ht & Hi). exists (vin, o). split.
    + assert (s ∈ outspends g o) as Hin by (apply Hs; eauto). simpl. unfold outspends in Hin.
      destruct (tg_spends g !! o) as [X|] eqn:E; [|simpl in Hin; set_solver].
      apply elem_of_list_fmap. exists s. split; [done|]. apply (elem_of_ho g ho Hho). unfold outspends. by rewrite E.
    + apply elem_of_lookup_imap. eauto.
Qed.
Lemma walk_conflicts_exact g ho (keep : Txid → bool) t :
  graph_ok g → hash_order g ho →
  ∃ l, walk_conflicts ho g t (λ d j, if keep j then Some (d, j) else None) = Some l ∧
    NoDup l.*2 ∧
    (∀ j, j ∈ l.*2 ↔ keep j = true ∧ reach_from g keep (λ s, ∃ vin, conflicts_at g t vin s) j).
Proof.
  intros Hok Hho. unfold walk_conflicts.
  set (st := reverse ((λ c : nat * N, (0%nat, c.2)) <$> direct_conflicts_of_tx ho g t)).
  assert (∀ j, on_stack st j ↔ ∃ vin, conflicts_at g t vin j) as Hst.
  { intros j. unfold on_stack, st. rewrite fmap_reverse, elem_of_reverse, <- list_fmap_compose.
    rewrite elem_of_list_fmap. split.
    - intros ([v j'] & -> & Hin). exists v. by apply direct_conflicts_exact in Hin.
    - intros [v Hc]. exists (v, j). split; [done|]. by apply direct_conflicts_exact. }
  destruct Hok as [Hk Hs].
  destruct (descend_all_total g ho Hho (keep_f keep) st) as [l E].
  exists l. split; [done|]. split; [by eapply keep_f_nodup|].
  intros j. pose proof (descend_exact g ho Hho keep _ _ _ _ E j) as Hx. rewrite Hx.
  split; intros [Ha Hb].
  - split; [done|]. clear Hb Hx. induction Ha as [j Hj HV|i j Hi IH Hkk He HV].
    + apply rf_root. by apply Hst.
    + eapply rf_next; [done..|]. by apply edge_child.
  - split; [|done]. clear Ha Hx. induction Hb as [j Hj|i j Hi IH Hkk He].
    + apply ra_base; [by apply Hst|set_solver].
    + eapply ra_step; [done..| |set_solver]. by apply edge_child.
Qed.

Lemma sum_i64_ok l acc :
  (0 ≤ acc)%Z → (acc + Z.of_N (sum_values l) ≤ 9223372036854775807)%Z →
  sum_i64 acc ((λ x, as_i64 (txo_value x)) <$> l) = Ret (acc + Z.of_N (sum_values l))%Z.
Proof.
  revert acc. induction l as [|x l IH]; intros acc H0 Hb; [cbn; f_equal; lia|].
  cbn [sum_values foldr] in Hb |- *. fold (sum_values l) in Hb |- *.
  change (sum_i64 acc (as_i64 (txo_value x) :: ((λ x, as_i64 (txo_value x)) <$> l)) = Ret (acc + Z.of_N (txo_value x + sum_values l))%Z).
  cbn [sum_i64]. unfold as_i64 at 1. destruct (N.ltb_spec (txo_value x) 9223372036854775808); [|lia].
  unfold add_i64. rewrite bool_decide_eq_true_2 by lia. rewrite IH by lia. f_equal. lia.
Qed.
(** The outputs of [g] spent by [l], those that are known. *)
Lemma sum_opt_ok (l : list OutPoint) (get : OutPoint → option TxOut) acc :
  (0 ≤ acc)%Z → (acc + Z.of_N (sum_values (omap get l)) ≤ 9223372036854775807)%Z →
  sum_opt acc ((λ o, (λ x, as_i64 (txo_value x)) <$> get o) <$> l) =
  Ret (if decide (Forall (λ o, is_Some (get o)) l) then Some (acc + Z.of_N (sum_values (omap get l)))%Z else None).
Proof.
  revert acc. induction l as [|o l IH]; intros acc H0 Hb.
  { rewrite decide_True by constructor. cbn. do 2 f_equal. lia. }
  change (sum_opt acc (((λ x, as_i64 (txo_value x)) <$> get o) :: ((λ o, (λ x, as_i64 (txo_value x)) <$> get o) <$> l)) =
    Ret (if decide (Forall (λ o, is_Some (get o)) (o :: l)) then Some (acc + Z.of_N (sum_values (omap get (o :: l))))%Z else None)).
  change (omap get (o :: l)) with (match get o with Some y => y :: omap get l | None => omap get l end) in *.
  destruct (get o) as [x|] eqn:E.
  - cbn [sum_values foldr] in Hb |- *. fold (sum_values (omap get l)) in Hb |- *.
    change ((λ x, as_i64 (txo_value x)) <$> Some x) with (Some (as_i64 (txo_value x))).
    cbn [sum_opt]. unfold as_i64 at 1. destruct (N.ltb_spec (txo_value x) 9223372036854775808); [|lia].
    unfold add_i64. rewrite bool_decide_eq_true_2 by lia. rewrite IH by lia.
    destruct (decide (Forall (λ o, is_Some (get o)) l)) as [Hf|Hf].
    + rewrite decide_True by (constructor; [by rewrite E|done]). do 2 f_equal. lia.
    + rewrite decide_False; [done|]. intros Hf'. by apply Forall_inv_tail in Hf'.
  - cbn. rewrite decide_False; [done|]. intros Hf%Forall_inv. rewrite E in Hf. by destruct Hf.
Qed.
Lemma fee_exact g t :
  is_coin_base t = false →
  sum_values (omap (get_txout g) (tx_in t)) < 9223372036854775808 →
  sum_values (tx_out t) < 9223372036854775808 →
  calculate_fee g t =
  Ret (if decide (Forall (λ o, is_Some (get_txout g o)) (tx_in t))
       then Some (Z.of_N (sum_values (omap (get_txout g) (tx_in t))) - Z.of_N (sum_values (tx_out t)))%Z else None).
Proof.
  intros Hc Hi Ho. unfold calculate_fee. rewrite Hc.
  rewrite sum_opt_ok by lia. destruct (decide _); [|done].
  rewrite sum_i64_ok by lia. unfold add_i64. rewrite bool_decide_eq_true_2 by lia. repeat f_equal; lia.
Qed.
