(** The satisfactions of miniscript satisfy its scripts. *)
From Verif Require Export ScriptSpec.

Lemma exec_app cx l1 l2 s : exec cx (l1 ++ l2) s = exec cx l1 s ≫= exec cx l2.
Proof. revert s. induction l1 as [|o l1 IH]; intros s; [done|]. simpl. destruct (step cx o s); [apply IH|done]. Qed.
Lemma exec_cons cx o l s : exec cx (o :: l) s = step cx o s ≫= exec cx l.
Proof. done. Qed.

Lemma truthy_of_bool b : truthy (of_bool b) = b.
Proof. by destruct b. Qed.

Lemma verify_op_exec cx o s : exec cx (verify_op o) s = exec cx [o; OVerify] s.
Proof.
  destruct o; try done; cbn [verify_op exec step]; unfold running; destruct s as [st alt c]; cbn [ms_cond ms_stack ms_alt]; destruct (forallb id c) eqn:Er; try done; try (simpl; by rewrite Er).
  - destruct st as [|x [|y st]]; try done. simpl. case_bool_decide; simpl; by rewrite ?Er.
  - destruct st as [|x [|y st]]; try done. simpl. destruct (num_value 4 x), (num_value 4 y); try done.
    case_bool_decide; simpl; by rewrite ?Er.
  - destruct st as [|x [|y st]]; try done. simpl. destruct (check_sig cx x y) as [[]|]; simpl; by rewrite ?Er.
Qed.
Lemma push_verify_exec cx l s : exec cx (push_verify l) s = exec cx (l ++ [OVerify]) s.
Proof.
  revert s. induction l as [|o [|o2 l] IH]; intros s; [done|apply verify_op_exec|].
  change (push_verify (o :: o2 :: l)) with (o :: push_verify (o2 :: l)).
  rewrite <- app_comm_cons, !exec_cons. destruct (step cx o s); [apply IH|done].
Qed.

(** ** Numbers *)
Lemma div_mod_Z a b : b ≠ 0 → Z.of_N a = (Z.of_N (a / b) * Z.of_N b + Z.of_N (a mod b))%Z.
Proof. intros Hb. rewrite (N.div_mod a b Hb) at 1. rewrite N2Z.inj_add, N2Z.inj_mul. ring. Qed.
Lemma num_bytes_value n : n < 2147483648 → le_value (num_bytes n) = Z.of_N n ∧ (length (num_bytes n) ≤ 4)%nat.
Proof.
  intros Hn. unfold num_bytes.
  destruct (N.eqb_spec n 0) as [->|Hz]; [simpl; split; [done|lia]|].
  destruct (N.leb_spec n 0x7f) as [H1|H1].
  { simpl. destruct (N.ltb_spec n 128); [split; [done|lia]|lia]. }
  assert (B : ∀ x v b y, (0 ≤ v)%Z → le_value b = v → last b = Some y → y < 128 → le_value (x :: b) = (v * 256 + Z.of_N x)%Z).
  { intros x v b y Hv He Hb Hy. destruct b as [|z b]; [done|]. change (le_value (x :: z :: b)) with
      (let v := le_value (z :: b) in
       if (v <? 0)%Z || bool_decide (last (z :: b) = Some 128 ∧ v = 0%Z) then (v * 256 - Z.of_N x)%Z else (v * 256 + Z.of_N x)%Z).
    rewrite He. cbv zeta. destruct (Z.ltb_spec v 0); [lia|]. rewrite bool_decide_false; [done|]. intros [Hl _]. simplify_eq. }
  assert (L : ∀ x, x < 128 → le_value [x] = Z.of_N x).
  { intros x Hx. simpl. by destruct (N.ltb_spec x 128); [|lia]. }
  pose proof (div_mod_Z n 256 ltac:(done)) as D1.
  destruct (N.leb_spec n 0x7fff) as [H2|H2].
  { split; [|simpl; lia].
    assert (n / 256 < 128) by (apply N.div_lt_upper_bound; lia).
    rewrite (B _ (Z.of_N (n / 256)) [n / 256] (n / 256)); [done|apply N2Z.is_nonneg|by apply L|done|done]. }
  pose proof (div_mod_Z (n / 256) 256 ltac:(done)) as D2.
  assert (E : n / 65536 = n / 256 / 256) by (rewrite N.div_div by done; done).
  destruct (N.leb_spec n 0x7fffff) as [H3|H3].
  { split; [|simpl; lia].
    assert (n / 65536 < 128) by (apply N.div_lt_upper_bound; lia).
    rewrite (B _ (Z.of_N (n / 256)) _ (n / 65536)); [done|apply N2Z.is_nonneg| |done|done].
    rewrite (B _ (Z.of_N (n / 65536)) [n / 65536] (n / 65536)); [by rewrite E|apply N2Z.is_nonneg|by apply L|done|done]. }
  split; [|simpl; lia].
  assert (E2 : n / 16777216 = n / 65536 / 256) by (rewrite N.div_div by done; done).
  assert (n / 16777216 < 128) by (apply N.div_lt_upper_bound; lia).
  pose proof (div_mod_Z (n / 65536) 256 ltac:(done)) as D3.
  rewrite (B _ (Z.of_N (n / 256)) _ (n / 16777216)); [done|apply N2Z.is_nonneg| |done|done].
  rewrite (B _ (Z.of_N (n / 65536)) _ (n / 16777216)); [by rewrite E|apply N2Z.is_nonneg| |done|done].
  rewrite (B _ (Z.of_N (n / 16777216)) [n / 16777216] (n / 16777216)); [by rewrite E2|apply N2Z.is_nonneg|by apply L|done|done].
Qed.
Lemma num_value_4 n : n < 2147483648 → num_value 4 (num_bytes n) = Some (Z.of_N n).
Proof. intros Hn. unfold num_value. destruct (num_bytes_value n Hn) as [-> ?]. by rewrite bool_decide_true. Qed.
Lemma num_value_5 n : n < 2147483648 → num_value 5 (num_bytes n) = Some (Z.of_N n).
Proof. intros Hn. unfold num_value. destruct (num_bytes_value n Hn) as [-> ?]. rewrite bool_decide_true; [done|lia]. Qed.

(** the result of a satisfied expression *)
Definition good (v : bytes) : Prop := ∃ n, v = num_bytes n ∧ 0 < n ∧ n < 2147483648.
Lemma good_1 : good [1].
Proof. by exists 1. Qed.
Lemma falsy_value b : truthy b = false → le_value b = 0%Z.
Proof.
  induction b as [|x b IH]; [done|]. destruct b as [|y b].
  - simpl. destruct (N.eqb_spec x 0) as [->|]; [done|]. destruct (N.eqb_spec x 128) as [->|]; done.
  - intros Hf. change (truthy (x :: y :: b)) with (negb (x =? 0) || truthy (y :: b)) in Hf.
    apply orb_false_iff in Hf as [Hx Hb]. specialize (IH Hb).
    change (le_value (x :: y :: b)) with
      (let v := le_value (y :: b) in
       if (v <? 0)%Z || bool_decide (last (y :: b) = Some 128 ∧ v = 0%Z) then (v * 256 - Z.of_N x)%Z else (v * 256 + Z.of_N x)%Z).
    rewrite IH. cbv zeta. destruct (N.eqb_spec x 0) as [->|]; [|done]. by destruct (_ || _).
Qed.
Lemma good_truthy v : good v → truthy v = true.
Proof.
  intros (n & -> & Hn & Hb). destruct (truthy (num_bytes n)) eqn:E; [done|].
  apply falsy_value in E. rewrite (proj1 (num_bytes_value n Hb)) in E. lia.
Qed.
Lemma good_value v : good v → ∃ z, num_value 4 v = Some z ∧ z ≠ 0%Z.
Proof. intros (n & -> & Hn & Hb). exists (Z.of_N n). split; [by apply num_value_4|lia]. Qed.

(** ** Branches that are not taken *)
Section term_ind.
  Variable P : term → Prop.
  Hypothesis HT : P TTrue. Hypothesis HF : P TFalse.
  Hypothesis Hk : ∀ k, P (TPkK k). Hypothesis Hh : ∀ k, P (TPkH k). Hypothesis Hr : ∀ h, P (TRawPkH h).
  Hypothesis Ha : ∀ n, P (TAfter n). Hypothesis Ho : ∀ n, P (TOlder n). Hypothesis Hi : ∀ h i, P (THash h i).
  Hypothesis H1 : ∀ t, P t → P (TAlt t). Hypothesis H2 : ∀ t, P t → P (TSwap t). Hypothesis H3 : ∀ t, P t → P (TCheck t).
  Hypothesis H4 : ∀ t, P t → P (TDupIf t). Hypothesis H5 : ∀ t, P t → P (TVerify t). Hypothesis H6 : ∀ t, P t → P (TNonZero t).
  Hypothesis H7 : ∀ t, P t → P (TZeroNotEqual t).
  Hypothesis B1 : ∀ l r, P l → P r → P (TAndV l r). Hypothesis B2 : ∀ l r, P l → P r → P (TAndB l r).
  Hypothesis B3 : ∀ a b c, P a → P b → P c → P (TAndOr a b c).
  Hypothesis B4 : ∀ l r, P l → P r → P (TOrB l r). Hypothesis B5 : ∀ l r, P l → P r → P (TOrD l r).
  Hypothesis B6 : ∀ l r, P l → P r → P (TOrC l r). Hypothesis B7 : ∀ l r, P l → P r → P (TOrI l r).
  Hypothesis C1 : ∀ k l, Forall P l → P (TThresh k l).
  Hypothesis C2 : ∀ k l, P (TMulti k l). Hypothesis C3 : ∀ k l, P (TMultiA k l).
  Fixpoint term_ind' (t : term) : P t :=
    match t with
    | TTrue => HT | TFalse => HF | TPkK k => Hk k | TPkH k => Hh k | TRawPkH h => Hr h | TAfter n => Ha n | TOlder n => Ho n
    | THash h i => Hi h i
    | TAlt t => H1 t (term_ind' t) | TSwap t => H2 t (term_ind' t) | TCheck t => H3 t (term_ind' t)
    | TDupIf t => H4 t (term_ind' t) | TVerify t => H5 t (term_ind' t) | TNonZero t => H6 t (term_ind' t)
    | TZeroNotEqual t => H7 t (term_ind' t)
    | TAndV l r => B1 l r (term_ind' l) (term_ind' r) | TAndB l r => B2 l r (term_ind' l) (term_ind' r)
    | TAndOr a b c => B3 a b c (term_ind' a) (term_ind' b) (term_ind' c)
    | TOrB l r => B4 l r (term_ind' l) (term_ind' r) | TOrD l r => B5 l r (term_ind' l) (term_ind' r)
    | TOrC l r => B6 l r (term_ind' l) (term_ind' r) | TOrI l r => B7 l r (term_ind' l) (term_ind' r)
    | TThresh k l => C1 k l ((fix go l := match l return Forall P l with [] => Forall_nil_2 P
                                          | t :: l => Forall_cons_2 P t l (term_ind' t) (go l) end) l)
    | TMulti k l => C2 k l | TMultiA k l => C3 k l
    end.
End term_ind.

Section sound.
Context `{KeyEnv}.
Variable cx : script_ctx.

Definition skips (l : list op) : Prop := ∀ s, running s = false → exec cx l s = Some s.
Lemma skips_app a b : skips a → skips b → skips (a ++ b).
Proof. intros Ha Hb s Hs. rewrite exec_app, (Ha s Hs). apply Hb, Hs. Qed.
Lemma skips_op o : (∀ s, running s = false → step cx o s = Some s) → skips [o].
Proof. intros Ho s Hs. simpl. by rewrite Ho. Qed.
Lemma skips_if (o : op) a : (o = OIf ∨ o = ONotIf) → skips a → skips (o :: a ++ [OEndIf]).
Proof.
  intros Ho Ha s Hs. rewrite exec_cons.
  assert (step cx o s = Some (mkM (ms_stack s) (ms_alt s) (false :: ms_cond s))) as -> by (destruct Ho as [-> | ->]; simpl; by rewrite Hs).
  simpl. rewrite exec_app, Ha by done. simpl. by destruct s.
Qed.
Lemma skips_if_else (o : op) a b : (o = OIf ∨ o = ONotIf) → skips a → skips b → skips (o :: a ++ OElse :: b ++ [OEndIf]).
Proof.
  intros Ho Ha Hb s Hs. rewrite exec_cons.
  assert (step cx o s = Some (mkM (ms_stack s) (ms_alt s) (false :: ms_cond s))) as -> by (destruct Ho as [-> | ->]; simpl; by rewrite Hs).
  simpl. rewrite exec_app, Ha by done. simpl. rewrite exec_app, Hb by done. simpl. by destruct s.
Qed.
Lemma skips_verify a : skips a → skips (push_verify a).
Proof. intros Ha s Hs. rewrite push_verify_exec. apply skips_app; [done| |done]. apply skips_op. intros s' Hs'. simpl. by rewrite Hs'. Qed.
Lemma skips_cons o a : (∀ s, running s = false → step cx o s = Some s) → skips a → skips (o :: a).
Proof. intros Ho Ha. by apply (skips_app [o] a); [apply skips_op|]. Qed.
Lemma skips_nil : skips [].
Proof. intros s Hs. done. Qed.

Lemma encode_skips t : skips (encode t).
Proof.
  assert (E : ∀ o, match o with OIf | ONotIf | OElse | OEndIf => False | _ => True end →
                   ∀ s, running s = false → step cx o s = Some s).
  { intros o Ho s Hs. destruct o; try done; simpl; by rewrite Hs. }
  induction t using term_ind'; cbn [encode];
    repeat first [ assumption
                 | apply skips_nil
                 | apply skips_verify; assumption
                 | apply skips_cons; [by apply E|] ].
  all: rewrite <- ?app_assoc; cbn [app].
  all: try (apply skips_app; [assumption|]).
  all: repeat first [ assumption | apply skips_nil | apply skips_cons; [by apply E|] ].
  - apply skips_if; [by left|done].
  - apply skips_if; [by left|done].
  - apply skips_app; [done|]. apply skips_cons; [by apply E|apply skips_nil].
  - apply skips_if_else; [by right|done..].
  - apply skips_app; [done|]. apply skips_cons; [by apply E|apply skips_nil].
  - apply skips_if; [by right|done].
  - apply skips_if; [by right|done].
  - apply skips_if_else; [by left|done..].
  - destruct l as [|t l]; repeat (apply skips_cons; [by apply E|]); [apply skips_nil|].
    inversion_clear H0 as [|?? Ht Hl]. apply skips_app; [done|]. apply skips_app.
    + induction Hl as [|t' l' Ht' _ IH]; [apply skips_nil|]. simpl. apply skips_app; [|done].
      apply skips_app; [done|]. apply skips_cons; [by apply E|apply skips_nil].
    + repeat (apply skips_cons; [by apply E|]). apply skips_nil.
  - apply skips_app.
    + induction l; [apply skips_nil|]. by apply skips_cons; [apply E|].
    + repeat (apply skips_cons; [by apply E|]). apply skips_nil.
  - destruct l as [|p l]; repeat (apply skips_cons; [by apply E|]); [apply skips_nil|].
    simpl. repeat (apply skips_cons; [by apply E|]). apply skips_app.
    + induction l; [apply skips_nil|]. simpl. by repeat (apply skips_cons; [by apply E|]).
    + repeat (apply skips_cons; [by apply E|]). apply skips_nil.
Qed.

(** ** Witnesses of paths *)
Variable m : Material.
Hypothesis Hm : material_ok cx m.
Hypothesis Hx : ∀ k, length (xonly_bytes k) = 32%nat.

Lemma needs_witness_app a b : needs_witness m (a ++ b) = x ← needs_witness m a; y ← needs_witness m b; Some (x ++ y).
Proof.
  induction a as [|n a IH]; simpl; [by destruct (needs_witness m b)|].
  destruct (need_witness m n); [|done]. simpl. rewrite IH. destruct (needs_witness m a); [|done]. simpl.
  destruct (needs_witness m b); [|done]. simpl. by rewrite app_assoc.
Qed.
Lemma needs_witness_app_Some a b w : needs_witness m (a ++ b) = Some w →
  ∃ x y, needs_witness m a = Some x ∧ needs_witness m b = Some y ∧ w = x ++ y.
Proof.
  rewrite needs_witness_app. destruct (needs_witness m a) as [x|]; [|done]. destruct (needs_witness m b) as [y|]; [|done].
  intros [= <-]. eauto.
Qed.

Lemma way_shape t l τ w : way t l → type_of t = Some τ → needs_witness m l = Some w →
  (ty_z τ = true → w = []) ∧ (ty_o τ = true → ∃ b, w = [b])
  ∧ (ty_n τ = true → ∃ b w', rev w = b :: w' ∧ b ≠ [] ∧ (length b ≤ 65)%nat).
Proof.
  intros Hw. revert τ w. induction Hw; intros τ w Ht Hl; cbn [type_of] in Ht.
  - simplify_eq/=. naive_solver.
  - simpl in Hl. destruct (m_sigs m !! k) as [s|] eqn:Es; simplify_eq/=.
    split; [done|]. split; [by eauto|]. intros _. eexists _, []. split; [done|].
    destruct (proj1 Hm _ _ Es) as [Hs _]. split; [intros He; rewrite He in Hs; by destruct Hs|lia].
  - simpl in Hl. destruct (m_sigs m !! k) as [s|] eqn:Es; simplify_eq/=. split; [done|]. split; [done|].
    intros _. eexists _, _. split; [done|]. split; [intros He; specialize (Hx k); by rewrite He in Hx|rewrite Hx; lia].
  - destruct (_ && _); simplify_eq/=. naive_solver.
  - destruct (_ && _); simplify_eq/=. naive_solver.
  - simpl in Hl. destruct (m_preimages m !! (h, i)) as [q|] eqn:Es; simplify_eq/=.
    split; [done|]. split; [by eauto|]. intros _. eexists _, []. split; [done|].
    destruct (proj2 Hm _ _ _ Es) as [Hs _]. split; [intros ->; done|lia].
  - destruct (type_of t) as [x|]; [|done]. simpl in Ht. case_bool_decide; simplify_eq/=. naive_solver.
  - destruct (type_of t) as [x|]; [|done]. simpl in Ht. destruct (_ && _); simplify_eq/=. naive_solver.
  - destruct (type_of t) as [x|]; [|done]. simpl in Ht. case_bool_decide; simplify_eq/=.
    destruct (IHHw _ _ eq_refl Hl) as (_ & Ho & Hn). split; [done|]. done.
  - destruct (type_of t) as [x|]; [|done]. simpl in Ht. case_bool_decide; [|done]. simpl in Ht. destruct (ty_z x) eqn:Ez; simplify_eq/=.
    apply needs_witness_app_Some in Hl as (x1 & y1 & H1 & H2 & ->). simplify_eq/=.
    destruct (IHHw _ _ eq_refl H1) as (Hz & _ & _). rewrite (Hz Ez). split; [done|]. split; [by eexists|].
    intros _. eexists _, []. split; [done|]. split; [done|simpl; lia].
  - destruct (type_of t) as [x|]; [|done]. simpl in Ht. case_bool_decide; simplify_eq/=. exact (IHHw _ _ eq_refl Hl).
  - destruct (type_of t) as [x|]; [|done]. simpl in Ht. destruct (bool_decide _ && ty_n x) eqn:E; simplify_eq/=.
    apply andb_true_iff in E as [_ E]. destruct (IHHw _ _ eq_refl Hl) as (_ & Ho & Hn). split; [done|]. split; [done|]. intros _. by apply Hn.
  - destruct (type_of t) as [x|]; [|done]. simpl in Ht. case_bool_decide; simplify_eq/=. exact (IHHw _ _ eq_refl Hl).
  - destruct (type_of a) as [x|]; [|done]. destruct (type_of b) as [y|]; [|done]. simpl in Ht. destruct (bool_decide _ && _); simplify_eq/=.
    apply needs_witness_app_Some in Hl as (x1 & y1 & H1 & H2 & ->).
    destruct (IHHw1 _ _ eq_refl H2) as (Hz1 & Ho1 & Hn1). destruct (IHHw2 _ _ eq_refl H1) as (Hz2 & Ho2 & Hn2).
    split; [intros [Za Zb]%andb_true_iff; by rewrite (Hz1 Za), (Hz2 Zb)|]. split.
    + intros [[Za Ob]%andb_true_iff|[Zb Oa]%andb_true_iff]%orb_true_iff.
      * rewrite (Hz1 Za), app_nil_r. auto.
      * rewrite (Hz2 Zb). auto.
    + rewrite rev_app_distr. intros [Na|[Za Nb]%andb_true_iff]%orb_true_iff.
      * destruct (Hn1 Na) as (b' & w' & -> & ? & ?). eexists _, _. split; [done|]. done.
      * rewrite (Hz1 Za). destruct (Hn2 Nb) as (b' & w' & -> & ? & ?). eexists _, _. split; [done|]. done.
  - destruct (type_of a) as [x|]; [|done]. destruct (type_of b) as [y|]; [|done]. simpl in Ht. destruct (bool_decide _ && _); simplify_eq/=.
    apply needs_witness_app_Some in Hl as (x1 & y1 & H1 & H2 & ->).
    destruct (IHHw1 _ _ eq_refl H2) as (Hz1 & Ho1 & Hn1). destruct (IHHw2 _ _ eq_refl H1) as (Hz2 & Ho2 & Hn2).
    split; [intros [Za Zb]%andb_true_iff; by rewrite (Hz1 Za), (Hz2 Zb)|]. split.
    + intros [[Za Ob]%andb_true_iff|[Zb Oa]%andb_true_iff]%orb_true_iff.
      * rewrite (Hz1 Za), app_nil_r. auto.
      * rewrite (Hz2 Zb). auto.
    + rewrite rev_app_distr. intros [Na|[Za Nb]%andb_true_iff]%orb_true_iff.
      * destruct (Hn1 Na) as (b' & w' & -> & ? & ?). eexists _, _. split; [done|]. done.
      * rewrite (Hz1 Za). destruct (Hn2 Nb) as (b' & w' & -> & ? & ?). eexists _, _. split; [done|]. done.
  - destruct (type_of a) as [x|]; [|done]. destruct (type_of b) as [y|]; [|done]. simpl in Ht. destruct (bool_decide _ && _); simplify_eq/=.
    apply needs_witness_app_Some in Hl as (x1 & y1 & H1 & H2 & ->). simplify_eq/=.
    destruct (IHHw _ _ eq_refl H1) as (Hz1 & _ & _). split; [done|]. split; [|done].
    intros [Za Zb]%andb_true_iff. rewrite (Hz1 Za). by eexists.
  - destruct (type_of a) as [x|]; [|done]. destruct (type_of b) as [y|]; [|done]. simpl in Ht. destruct (bool_decide _ && _); simplify_eq/=.
    apply needs_witness_app_Some in Hl as (x1 & y1 & H1 & H2 & ->). simplify_eq/=.
    destruct (IHHw _ _ eq_refl H1) as (Hz1 & _ & _). split; [done|]. split; [|done].
    intros [Za Zb]%andb_true_iff. rewrite (Hz1 Zb). by eexists.
Qed.

(** ** Soundness *)
Hypothesis Hhash : ∀ b, cx_hash cx HHash160 b = hash_bytes HHash160 b.

Definition all_on (c : list bool) : Prop := forallb id c = true.
Definition runs (b : base_type) (s : list op) (w : list bytes) : Prop :=
  match b with
  | TyB => ∃ v, good v ∧ ∀ st alt c, all_on c → exec cx s (mkM (rev w ++ st) alt c) = Some (mkM (v :: st) alt c)
  | TyV => ∀ st alt c, all_on c → exec cx s (mkM (rev w ++ st) alt c) = Some (mkM st alt c)
  | TyK => ∃ key sig, length key = 32%nat ∧ sig ≠ [] ∧ cx_sig cx key sig = true ∧
             ∀ st alt c, all_on c → exec cx s (mkM (rev w ++ st) alt c) = Some (mkM (key :: sig :: st) alt c)
  | TyW => ∃ v, good v ∧
             ((∀ x st alt c, all_on c → exec cx s (mkM (x :: rev w ++ st) alt c) = Some (mkM (v :: x :: st) alt c))
              ∨ (∀ x st alt c, all_on c → exec cx s (mkM (x :: rev w ++ st) alt c) = Some (mkM (x :: v :: st) alt c)))
  end.

Lemma step_on o st alt c : all_on c → match o with OIf | ONotIf | OElse | OEndIf => False | _ => True end →
  step cx o (mkM st alt c) = match step_stack cx o st alt with Some (st, alt) => Some (mkM st alt c) | None => None end.
Proof. intros Hc Ho. destruct o; try done; cbn [step]; unfold running; cbn [ms_cond]; by rewrite Hc. Qed.

Lemma step_if st alt c (x : bytes) : all_on c → (x = [] ∨ x = [1]) →
  step cx OIf (mkM (x :: st) alt c) = Some (mkM st alt (bool_decide (x ≠ []) :: c)).
Proof. intros Hc Hb. cbn [step]. unfold running. cbn [ms_cond ms_stack]. rewrite Hc. by rewrite bool_decide_true. Qed.

Lemma step_else st alt b c : step cx OElse (mkM st alt (b :: c)) = Some (mkM st alt (negb b :: c)).
Proof. done. Qed.
Local Arguments exec : simpl never.
Local Arguments step : simpl never.
Ltac go1 := cbn [mbind option_bind]; rewrite exec_cons, step_on by done; cbn [step_stack mbind option_bind].
Ltac goif := cbn [mbind option_bind]; rewrite exec_cons, step_if by auto; cbn [mbind option_bind].

Theorem way_sound t l τ w : way t l → type_of t = Some τ → needs_witness m l = Some w → Forall (lock_ok cx) l →
  runs (ty_base τ) (encode t) w.
Proof.
  intros Hw. revert τ w. induction Hw; intros τ w Ht Hl Hlk; cbn [type_of] in Ht; cbn [encode].
  - simplify_eq/=. exists [1]. split; [apply good_1|]. intros st alt c Hc. go1. done.
  - simpl in Hl. destruct (m_sigs m !! k) as [s|] eqn:Es; simplify_eq/=. destruct (proj1 Hm _ _ Es) as [Hs Hv].
    exists (xonly_bytes k), (sig_to_vec s). split; [done|]. split; [intros He; rewrite He in Hs; by destruct Hs|]. split; [done|].
    intros st alt c Hc. go1. done.
  - simpl in Hl. destruct (m_sigs m !! k) as [s|] eqn:Es; simplify_eq/=. destruct (proj1 Hm _ _ Es) as [Hs Hv].
    exists (xonly_bytes k), (sig_to_vec s). split; [done|]. split; [intros He; rewrite He in Hs; by destruct Hs|]. split; [done|].
    intros st alt c Hc. go1. go1.
    go1. go1. rewrite bool_decide_true; [done|].
    by rewrite Hhash.
  - destruct ((1 <=? n) && (n <? 2147483648)) eqn:E; simplify_eq/=. apply andb_true_iff in E as [E1%N.leb_le E2%N.ltb_lt].
    inversion_clear Hlk as [|?? Hn _]. simpl in Hn.
    exists (num_bytes n). split; [exists n; split; [done|lia]|].
    intros st alt c Hc. go1. go1.
    rewrite num_value_5 by done. by rewrite bool_decide_true.
  - destruct ((1 <=? n) && (n <? 2147483648)) eqn:E; simplify_eq/=. apply andb_true_iff in E as [E1%N.leb_le E2%N.ltb_lt].
    inversion_clear Hlk as [|?? Hn _]. simpl in Hn.
    exists (num_bytes n). split; [exists n; split; [done|lia]|].
    intros st alt c Hc. go1. go1.
    rewrite num_value_5 by done. rewrite N2Z.id. by rewrite !bool_decide_true by (done || lia).
  - simpl in Hl. destruct (m_preimages m !! (h, i)) as [q|] eqn:Es; simplify_eq/=. destruct (proj2 Hm _ _ _ Es) as [Hs Hv].
    exists [1]. split; [apply good_1|]. intros st alt c Hc. go1.
    unfold blen. rewrite Hs. go1. go1. rewrite bool_decide_true by done. cbn [mbind option_bind].
    go1. go1.
    go1. rewrite bool_decide_true; [done|congruence].
  - (* a: *) destruct (type_of t) as [x|] eqn:Et; [|done]. simpl in Ht. case_bool_decide as Eb; simplify_eq/=.
    specialize (IHHw _ _ eq_refl Hl Hlk). rewrite Eb in IHHw. destruct IHHw as (v & Hg & IH).
    exists v. split; [done|]. right. intros x0 st alt c Hc. go1.
    rewrite exec_app, IH by done. simpl. go1. done.
  - (* s: *) destruct (type_of t) as [x|] eqn:Et; [|done]. simpl in Ht. destruct (bool_decide _ && ty_o x) eqn:E; simplify_eq/=.
    apply andb_true_iff in E as [Eb%bool_decide_eq_true_1 Eo].
    destruct (way_shape _ _ _ _ Hw Et Hl) as (_ & Ho & _). destruct (Ho Eo) as [b0 ->].
    specialize (IHHw _ _ eq_refl Hl Hlk). rewrite Eb in IHHw. destruct IHHw as (v & Hg & IH).
    exists v. split; [done|]. left. intros x0 st alt c Hc. go1.
    apply (IH (x0 :: st) alt c Hc).
  - (* c: *) destruct (type_of t) as [x|] eqn:Et; [|done]. simpl in Ht. case_bool_decide as Eb; simplify_eq/=.
    specialize (IHHw _ _ eq_refl Hl Hlk). rewrite Eb in IHHw. destruct IHHw as (key & sig & Hk & Hs & Hv & IH).
    exists [1]. split; [apply good_1|]. intros st alt c Hc. rewrite exec_app, IH by done. go1.
    unfold check_sig. rewrite bool_decide_false by (intros ->; done). rewrite bool_decide_false by done.
    rewrite bool_decide_true by done. by rewrite Hv.
  - (* d: *) destruct (type_of t) as [x|] eqn:Et; [|done]. simpl in Ht. destruct (bool_decide _ && ty_z x) eqn:E; simplify_eq/=.
    apply andb_true_iff in E as [Eb%bool_decide_eq_true_1 Ez].
    apply needs_witness_app_Some in Hl as (x1 & y1 & H1 & H2 & ->). simplify_eq/=.
    apply Forall_app in Hlk as [Hlk _].
    destruct (way_shape _ _ _ _ Hw Et H1) as (Hz & _ & _). pose proof (Hz Ez) as ->.
    specialize (IHHw _ _ eq_refl H1 Hlk). rewrite Eb in IHHw. simpl in IHHw.
    exists [1]. split; [apply good_1|]. intros st alt c Hc. simpl. go1.
    goif. rewrite exec_app, IHHw by done. done.
  - (* v: *) destruct (type_of t) as [x|] eqn:Et; [|done]. simpl in Ht. case_bool_decide as Eb; simplify_eq/=.
    specialize (IHHw _ _ eq_refl Hl Hlk). rewrite Eb in IHHw. destruct IHHw as (v & Hg & IH).
    intros st alt c Hc. rewrite push_verify_exec, exec_app, IH by done. go1.
    by rewrite (good_truthy v Hg).
  - (* j: *) destruct (type_of t) as [x|] eqn:Et; [|done]. simpl in Ht. destruct (bool_decide _ && ty_n x) eqn:E; simplify_eq/=.
    apply andb_true_iff in E as [Eb%bool_decide_eq_true_1 En].
    destruct (way_shape _ _ _ _ Hw Et Hl) as (_ & _ & Hn). destruct (Hn En) as (b0 & w' & Hr & Hb & Hlen).
    specialize (IHHw _ _ eq_refl Hl Hlk). rewrite Eb in IHHw. destruct IHHw as (v & Hg & IH).
    exists v. split; [done|]. intros st alt c Hc. rewrite Hr in *. simpl.
    go1. go1.
    assert (Hpos : 0 < blen b0 ∧ blen b0 < 2147483648) by (unfold blen; destruct b0; [done|simpl in *; lia]).
    rewrite num_value_4 by lia. rewrite bool_decide_true by lia.
    goif. rewrite exec_app. simpl in IH. rewrite IH by done. done.
  - (* n: *) destruct (type_of t) as [x|] eqn:Et; [|done]. simpl in Ht. case_bool_decide as Eb; simplify_eq/=.
    specialize (IHHw _ _ eq_refl Hl Hlk). rewrite Eb in IHHw. destruct IHHw as (v & Hg & IH).
    exists [1]. split; [apply good_1|]. intros st alt c Hc. rewrite exec_app, IH by done. go1.
    destruct (good_value v Hg) as (z & -> & Hz). by rewrite bool_decide_true.
  - (* and_v *) destruct (type_of a) as [x|] eqn:Ex; [|done]. destruct (type_of b) as [y|] eqn:Ey; [|done].
    simpl in Ht. destruct (bool_decide _ && _) eqn:E; simplify_eq/=.
    apply andb_true_iff in E as [Eb%bool_decide_eq_true_1 Ek].
    apply needs_witness_app_Some in Hl as (x1 & y1 & H1 & H2 & ->). apply Forall_app in Hlk as [Hk2 Hk1].
    specialize (IHHw1 _ _ eq_refl H2 Hk1). rewrite Eb in IHHw1. simpl in IHHw1.
    specialize (IHHw2 _ _ eq_refl H1 Hk2). destruct (ty_base y); [| | |done]; simpl in *.
    + destruct IHHw2 as (v & Hg & IH). exists v. split; [done|]. intros st alt c Hc.
      rewrite rev_app_distr, <- app_assoc, exec_app, IHHw1 by done. by apply IH.
    + intros st alt c Hc. rewrite rev_app_distr, <- app_assoc, exec_app, IHHw1 by done. by apply IHHw2.
    + destruct IHHw2 as (key & sig & ? & ? & ? & IH). exists key, sig. split_and!; [done..|]. intros st alt c Hc.
      rewrite rev_app_distr, <- app_assoc, exec_app, IHHw1 by done. by apply IH.
  - (* and_b *) destruct (type_of a) as [x|] eqn:Ex; [|done]. destruct (type_of b) as [y|] eqn:Ey; [|done].
    simpl in Ht. destruct (bool_decide _ && _) eqn:E; simplify_eq/=.
    apply andb_true_iff in E as [Eb%bool_decide_eq_true_1 Ek%bool_decide_eq_true_1].
    apply needs_witness_app_Some in Hl as (x1 & y1 & H1 & H2 & ->). apply Forall_app in Hlk as [Hk2 Hk1].
    specialize (IHHw1 _ _ eq_refl H2 Hk1). rewrite Eb in IHHw1. destruct IHHw1 as (v & Hg & IH1).
    specialize (IHHw2 _ _ eq_refl H1 Hk2). rewrite Ek in IHHw2. destruct IHHw2 as (v2 & Hg2 & IH2).
    destruct (good_value v Hg) as (z & Hz & Hz0). destruct (good_value v2 Hg2) as (z2 & Hz2 & Hz20).
    exists [1]. split; [apply good_1|]. intros st alt c Hc.
    rewrite rev_app_distr, <- app_assoc, exec_app, IH1 by done. simpl. rewrite exec_app.
    destruct IH2 as [IH2|IH2]; rewrite IH2 by done; simpl; go1;
      rewrite Hz, Hz2; by rewrite bool_decide_true.
  - (* or_i, left *) destruct (type_of a) as [x|] eqn:Ex; [|done]. destruct (type_of b) as [y|] eqn:Ey; [|done].
    simpl in Ht. destruct (bool_decide _ && _) eqn:E; simplify_eq/=.
    apply andb_true_iff in E as [Eb%bool_decide_eq_true_1 Ek].
    apply needs_witness_app_Some in Hl as (x1 & y1 & H1 & H2 & ->). apply Forall_app in Hlk as [Hk1 _]. simplify_eq/=.
    specialize (IHHw _ _ eq_refl H1 Hk1).
    assert (R : ∀ st alt c s', all_on c → exec cx (encode a) (mkM (rev x1 ++ st) alt (true :: c)) = Some (mkM s' alt (true :: c)) →
      exec cx (OIf :: encode a ++ OElse :: encode b ++ [OEndIf]) (mkM (rev (x1 ++ [[1]]) ++ st) alt c) = Some (mkM s' alt c)).
    { intros st alt c s' Hc Hex. rewrite rev_app_distr. simpl. goif. rewrite exec_app.
      rewrite bool_decide_true by done. rewrite Hex. simpl. rewrite exec_cons, step_else. cbn [mbind option_bind negb]. rewrite exec_app, encode_skips by done. done. }
    destruct (ty_base x); [| | |done]; simpl in *.
    + destruct IHHw as (v & Hg & IH). exists v. split; [done|]. intros st alt c Hc. by apply R, IH.
    + intros st alt c Hc. by apply R, IHHw.
    + destruct IHHw as (key & sig & ? & ? & ? & IH). exists key, sig. split_and!; [done..|]. intros st alt c Hc. by apply R, IH.
  - (* or_i, right *) destruct (type_of a) as [x|] eqn:Ex; [|done]. destruct (type_of b) as [y|] eqn:Ey; [|done].
    simpl in Ht. destruct (bool_decide _ && _) eqn:E; simplify_eq/=.
    apply andb_true_iff in E as [Eb%bool_decide_eq_true_1 Ek]. rewrite Eb in *.
    apply needs_witness_app_Some in Hl as (x1 & y1 & H1 & H2 & ->). apply Forall_app in Hlk as [Hk1 _]. simplify_eq/=.
    specialize (IHHw _ _ eq_refl H1 Hk1).
    assert (R : ∀ st alt c s', all_on c → exec cx (encode b) (mkM (rev x1 ++ st) alt (true :: c)) = Some (mkM s' alt (true :: c)) →
      exec cx (OIf :: encode a ++ OElse :: encode b ++ [OEndIf]) (mkM (rev (x1 ++ [[]]) ++ st) alt c) = Some (mkM s' alt c)).
    { intros st alt c s' Hc Hex. rewrite rev_app_distr. simpl. goif. rewrite exec_app.
      rewrite bool_decide_false by naive_solver. rewrite encode_skips by done. simpl. rewrite exec_cons, step_else. cbn [mbind option_bind negb]. rewrite exec_app, Hex. done. }
    destruct (ty_base y); [| | |done]; simpl in *.
    + destruct IHHw as (v & Hg & IH). exists v. split; [done|]. intros st alt c Hc. by apply R, IH.
    + intros st alt c Hc. by apply R, IHHw.
    + destruct IHHw as (key & sig & ? & ? & ? & IH). exists key, sig. split_and!; [done..|]. intros st alt c Hc. by apply R, IH.
Qed.

Theorem way_satisfies t l τ w : way t l → type_of t = Some τ → ty_base τ = TyB → needs_witness m l = Some w →
  Forall (lock_ok cx) l → satisfies cx (encode t) w.
Proof.
  intros Hw Ht Hb Hl Hk. pose proof (way_sound _ _ _ _ Hw Ht Hl Hk) as Hr. rewrite Hb in Hr. destruct Hr as (v & Hg & Hr).
  exists v. split; [|by apply good_truthy]. specialize (Hr [] [] [] eq_refl). by rewrite app_nil_r in Hr.
Qed.
End sound.
