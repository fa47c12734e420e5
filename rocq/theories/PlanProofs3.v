(** Plans stay within the assets, weigh what they say, and complete to satisfying witnesses. *)
From Verif Require Export PlanProofs2.

Section plans3.
Context `{KeyEnv} {AK : Type} `{!CanDerive AK}.
Implicit Types (a : Assets AK) (p : Plan AK) (tp : TermPlan AK) (t : term) (tr : Tr) (m : Material).

(** ** Within the assets *)
Lemma requirements_keys tr a p r k : plan_satisfaction (DTr tr) a = Ret (Some p) → requirements p = Ret r →
  k ∈ req_keys (r_sigs r) → ISign k ∈ p_template p.
Proof.
  intros Hp Hr. unfold requirements in Hr.
  destruct (try_complete_shape _ _ _ no_material Hp) as [(w & tail & E & _)|(Hm & [(pk & Ht & Htg & E)|(s & Htg & E)])];
    simpl in E; rewrite E in Hr; simpl in Hr; simplify_eq; simpl.
  - intros []%elem_of_nil.
  - intros ->%elem_of_list_singleton. rewrite Ht. left.
  - rewrite req_add_fold, app_nil_l. by intros [? _]%sign_keys_elem%in_missing.
Qed.
Lemma requirements_images tr a p r i : plan_satisfaction (DTr tr) a = Ret (Some p) → requirements p = Ret r →
  i ∈ r_images r → IHash i.1 i.2 ∈ p_template p.
Proof.
  intros Hp Hr. unfold requirements in Hr.
  destruct (try_complete_shape _ _ _ no_material Hp) as [(w & tail & E & _)|(Hm & [(pk & Ht & Htg & E)|(s & Htg & E)])];
    simpl in E; rewrite E in Hr; simpl in Hr; simplify_eq; simpl.
  - by intros []%not_elem_of_empty.
  - by intros []%not_elem_of_empty.
  - by intros [[]%not_elem_of_empty|[? _]%in_missing]%req_add_images.
Qed.

Lemma template_elem tp l i : item_need <$> tp_template tp ≡ₚ stack_needs l → i ∈ tp_template tp → item_need i ∈ l.
Proof.
  intros P Hi. assert (Hin : item_need i ∈ stack_needs l).
  { rewrite <- P. apply elem_of_list_fmap. eauto. }
  unfold stack_needs in Hin. rewrite elem_of_list_In, filter_In in Hin. destruct Hin as [Hin _]. by apply elem_of_list_In.
Qed.

Lemma plan_sigs_within tr a p k : plan_satisfaction (DTr tr) a = Ret (Some p) → ISign k ∈ p_template p → sig_within a k.
Proof.
  intros Hp. destruct (plan_shape _ _ _ Hp) as [(pk & Hk & ->)|(t & tp & Ht & Hs & -> & _)]; simpl.
  - intros ?%elem_of_list_singleton. simplify_eq. apply find_key_Some in Hk as (_ & ? & ?). done.
  - destruct (plan_steps_realises _ _ _ Hs) as (l & _ & _ & _ & _ & S & _). auto.
Qed.
Lemma plan_but_locktime tr a p r : plan_satisfaction (DTr tr) a = Ret (Some p) → requirements p = Ret r →
  (∀ k, k ∈ req_keys (r_sigs r) → sig_within a k)
  ∧ (∀ i, i ∈ r_images r → i ∈ a_images a)
  ∧ (∀ s, p_sequence p = Some s → ∃ age, a_age a = Some age ∧ is_height_locked s = is_height_locked age ∧ s ≤ age)
  ∧ (∀ x, p_locktime p = Some x → is_Some (a_locktime a)).
Proof.
  intros Hp Hr. split; [intros k Hk; eapply plan_sigs_within; [done|by eapply requirements_keys]|].
  assert (Hi : ∀ i, i ∈ r_images r → IHash i.1 i.2 ∈ p_template p) by (intros; by eapply requirements_images).
  destruct (plan_shape _ _ _ Hp) as [(pk & Hk & ->)|(t & tp & Ht & Hs & -> & _)]; simpl in *.
  - split; [|done]. intros i Hin%Hi%elem_of_list_singleton. done.
  - destruct (plan_steps_realises _ _ _ Hs) as (l & _ & P & _ & F & _ & L & A). rewrite Forall_forall in F.
    split; [|split].
    + intros [h i] Hin%Hi. apply (F (NImage h i)). exact (template_elem _ _ _ P Hin).
    + intros s E. rewrite E in A. destruct A as [A _]. apply (F _ A).
    + intros x E. rewrite E in L. destruct L as [(n & L & _) _]. apply (F _ L).
Qed.
Lemma plan_within_reached tr a p r : plan_satisfaction (DTr tr) a = Ret (Some p) → requirements p = Ret r →
  reaches_locktimes a tr → plan_within a p r.
Proof.
  intros Hp Hr Ha. destruct (plan_but_locktime _ _ _ _ Hp Hr) as (H1 & H2 & H3 & _). split; [done|]. split; [done|]. split; [done|].
  destruct (plan_shape _ _ _ Hp) as [(pk & Hk & ->)|(t & tp & Ht & Hs & -> & _)]; [done|]. simpl. intros x E.
  destruct (plan_steps_realises _ _ _ Hs) as (l & W & P & _ & F & _ & L & A). rewrite E in L. destruct L as [(n & L & ->) _].
  rewrite lt_u32_from. by apply (Ha t l n).
Qed.
(** The path behind a plan *)
Lemma plan_path tr a p s : plan_satisfaction (DTr tr) a = Ret (Some p) → p_target p = Segwitv1 tr (LeafSpend s) →
  ∃ t l, t ∈ iter_scripts tr ∧ s = script_bytes t ∧ way t l ∧ item_need <$> p_template p ≡ₚ stack_needs l
    ∧ latest_lock (p_locktime p) l ∧ latest_age (p_sequence p) l.
Proof.
  intros Hp Hs. destruct (plan_shape _ _ _ Hp) as [(pk & Hk & ->)|(t & tp & Ht & Hst & -> & _)]; [done|]. simpl in *. simplify_eq.
  destruct (plan_steps_realises _ _ _ Hst) as (l & W & P & _ & F & _ & L & A). exists t, l. done.
Qed.

(** ** Weight *)
Lemma compact_length v : v < 2 ^ 64 → N.of_nat (length (compact_bytes v)) = varint_len v.
Proof.
  intros Hv. unfold compact_bytes, varint_len, u32_max.
  destruct (N.ltb_spec v 253), (N.leb_spec v 252); try lia; [done|].
  destruct (N.ltb_spec v 65536), (N.leb_spec v 65535); try lia; [done|].
  destruct (N.ltb_spec v 4294967296), (N.leb_spec v 4294967295); try lia; done.
Qed.
Lemma blen_app {A} (l r : list A) : blen (l ++ r) = blen l + blen r.
Proof. unfold blen. rewrite app_length. lia. Qed.
Lemma witness_bytes_size (w : list bytes) :
  blen (witness_bytes w) = blen (compact_bytes (blen w)) + foldr N.add 0 ((λ e : bytes, blen (compact_bytes (blen e)) + blen e) <$> w).
Proof.
  unfold witness_bytes. rewrite blen_app. f_equal. induction w as [|e w IH]; [done|].
  cbn [map concat]. rewrite !blen_app, IH. done.
Qed.
Definition pk_count (l : list (item AK)) : N := blen (List.filter (λ i, match i with IPk _ => true | _ => false end) l).

Lemma witness_of_size `{!KeyLaws} m l w : usual_sizes m → witness_of m l = Ret w →
  blen w = blen l ∧
  foldr N.add 0 ((λ e : bytes, blen (compact_bytes (blen e)) + blen e) <$> w)
  = foldr N.add 0 ((λ e, varint_len e + e) <$> (item_size <$> l)) + pk_count l.
Proof.
  intros [Hs Hi]. revert w. induction l as [|i l IH]; intros w Hw; simpl in Hw; [by simplify_eq|].
  destruct (item_witness m i) as [x|] eqn:E; [|done]. simpl in Hw. destruct (witness_of m l) as [y|]; [|done]. simpl in Hw.
  simplify_eq. destruct (IH _ eq_refl) as [E1 E2]. rewrite blen_app, fmap_app, sum_app, E1, E2.
  assert (Hx : blen x = 1 ∧ foldr N.add 0 ((λ e : bytes, blen (compact_bytes (blen e)) + blen e) <$> x)
               = varint_len (item_size i) + item_size i + match i with IPk _ => 1 | _ => 0 end).
  { destruct i; simpl in E; [destruct (m_sigs m !! pk_key k) as [s|] eqn:Ek|..|destruct (m_preimages m !! _) as [q|] eqn:Ek]; simplify_eq;
      (split; [done|]); cbn [fmap list_fmap foldr].
    - destruct (Hs _ _ Ek) as [L T]. unfold sig_to_vec. rewrite T. simpl. rewrite app_nil_r. unfold blen. rewrite L. done.
    - unfold blen. rewrite (key_length k). done.
    - done.
    - done.
    - unfold blen. rewrite (Hi _ _ Ek). done. }
  destruct Hx as [-> ->]. split; [unfold blen; simpl length; lia|].
  unfold pk_count. destruct i; cbn [fmap list_fmap foldr List.filter]; unfold blen; simpl length; lia.
Qed.

Lemma control_block_length `{!KeyLaws} tr s path : control_path tr s = Some path → blen (control_block tr path) = control_block_size path.
Proof.
  intros [_ F]%control_path_commits. unfold control_block, control_block_size, blen. cbn [length]. rewrite app_length, xonly_length.
  assert (E : length (concat path) = (32 * length path)%nat).
  { induction F as [|h q Hh F IH]; [done|]. simpl. rewrite app_length, Hh, IH. lia. }
  rewrite E. lia.
Qed.

Lemma weight_exact `{!KeyLaws} tr a p m w n : plan_satisfaction (DTr tr) a = Ret (Some p) →
  expected_weight p = Ret n → try_complete p m = Ret (Complete w) → usual_sizes m → Forall (λ e : bytes, blen e < 2 ^ 64) w → blen w < 2 ^ 64 →
  satisfaction_weight w = n + pk_count (p_template p).
Proof.
  intros Hp Hn Hc Hm Hb Hb2. destruct (try_complete_shape _ _ _ m Hp) as [(w0 & tail & E & Hw & _ & Ht)|(Hm0 & [(pk & ? & ? & E)|(s & ? & E)])];
    [|simpl in E; congruence..].
  rewrite E in Hc. simplify_eq. destruct (witness_of_size _ _ _ Hm Hw) as [E1 E2]. unfold satisfaction_weight.
  rewrite witness_bytes_size, fmap_app, sum_app, E2.
  unfold expected_weight in Hn. destruct Ht as [[Ht ->]|(s & path & Ht & Hpath & ->)]; rewrite Ht in Hn.
  - simplify_eq. rewrite app_nil_r in *. unfold witness_size. change (blen (compact_bytes (blen w0))) with (N.of_nat (length (compact_bytes (blen w0)))).
    rewrite compact_length by done. assert (El : blen (item_size <$> p_template p) = blen w0) by (rewrite E1; unfold blen; by rewrite fmap_length).
    rewrite El. cbn [fmap list_fmap foldr]. lia.
  - rewrite Hpath in Hn. simplify_eq. unfold witness_size.
    change (blen (compact_bytes (blen (w0 ++ [s; control_block tr path])))) with (N.of_nat (length (compact_bytes (blen (w0 ++ [s; control_block tr path]))))).
    rewrite compact_length by done.
    assert (El : blen ((item_size <$> p_template p) ++ [blen s; control_block_size path]) = blen (w0 ++ [s; control_block tr path])).
    { rewrite !blen_app, E1. unfold blen. rewrite fmap_length. done. }
    rewrite El, fmap_app, sum_app. apply Forall_app in Hb as [_ Hb]. apply Forall_cons in Hb as [Hb1 Hb]. apply Forall_cons in Hb as [Hb3 _].
    cbn [fmap list_fmap foldr]. unfold blen at 2 5. rewrite !compact_length by done.
    rewrite (control_block_length _ _ _ Hpath). lia.
Qed.
Lemma way_no_key t l k : no_pk_h t = true → way t l → NKey k ∉ l.
Proof.
  intros Hp W. induction W; simpl in Hp; rewrite ?elem_of_app, ?elem_of_cons, ?elem_of_nil; try (apply andb_true_iff in Hp as [? ?]);
    auto; try (by intros [?|[?|?]]; auto); try (by intros [?|?]; auto); naive_solver.
Qed.
Lemma no_pk_h_count tr a p : plan_satisfaction (DTr tr) a = Ret (Some p) → (∀ t, t ∈ iter_scripts tr → no_pk_h t = true) → pk_count (p_template p) = 0.
Proof.
  intros Hp Hn. destruct (plan_shape _ _ _ Hp) as [(pk & Hk & ->)|(t & tp & Ht & Hst & -> & _)]; [done|]. simpl.
  destruct (plan_steps_realises _ _ _ Hst) as (l & W & P & _). specialize (Hn _ Ht).
  assert (Hl : ∀ k, NKey k ∉ l) by (intros k; by eapply way_no_key).
  unfold pk_count. destruct (List.filter _ (tp_template tp)) as [|i r] eqn:E; [done|]. exfalso.
  assert (Hi : i ∈ List.filter (λ i, match i with IPk _ => true | _ => false end) (tp_template tp)) by (rewrite E; left).
  rewrite elem_of_list_In, filter_In in Hi. destruct Hi as [Hi Hik]. apply elem_of_list_In in Hi. destruct i as [|k| | |]; try done.
  eapply (Hl k). exact (template_elem _ _ _ P Hi).
Qed.

(** ** Witnesses *)
Lemma needs_witness_stack m l : needs_witness m (stack_needs l) = needs_witness m l.
Proof.
  induction l as [|n l IH]; [done|]. unfold stack_needs in *. cbn [List.filter]. destruct (is_lock n) eqn:E; cbn [negb].
  - rewrite IH. simpl. destruct n; try done; simpl; destruct (needs_witness m l); done.
  - simpl. rewrite IH. done.
Qed.
Lemma witness_of_needs m l w : (∀ k, IPk k ∉ l) → witness_of m l = Ret w → needs_witness m (item_need (AK:=AK) <$> l) = Some w.
Proof.
  revert w. induction l as [|i l IH]; intros w Hn Hw; simpl in Hw; [by simplify_eq|].
  destruct (item_witness m i) as [x|] eqn:E; [|done]. simpl in Hw. destruct (witness_of m l) as [y|]; [|done]. simpl in Hw.
  simplify_eq. assert (Hl : needs_witness m (item_need <$> l) = Some y) by (apply IH; [|done]; intros k Hk; apply (Hn k); by right).
  assert (Hi : need_witness m (item_need i) = Some x).
  { destruct i as [k|k| | |h i]; simpl in *; repeat case_match; simplify_eq; try done. by destruct (Hn k); left. }
  cbn [fmap list_fmap needs_witness]. change (list_fmap _ _ item_need l) with (item_need <$> l). rewrite Hi, Hl. done.
Qed.

Lemma land_bits n : N.land n 0x40ffff = N.land n 0xffff + (if N.testbit n 22 then 0x400000 else 0).
Proof.
  change 0x40ffff with (N.lor 0xffff 0x400000). rewrite N.land_lor_distr_r.
  assert (E : N.land n 0x400000 = if N.testbit n 22 then 0x400000 else 0).
  { change 0x400000 with (2 ^ 22). apply N.bits_inj. intros i. rewrite N.land_spec.
    destruct (N.eq_dec i 22) as [->|Hi].
    - rewrite N.pow2_bits_true. by destruct (N.testbit n 22).
    - rewrite N.pow2_bits_false by done. rewrite andb_false_r.
      destruct (N.testbit n 22); [by rewrite N.pow2_bits_false|by rewrite N.bits_0]. }
  rewrite E. rewrite N.add_nocarry_lxor.
  - symmetry. apply N.bits_inj. intros i. rewrite N.lxor_spec, N.lor_spec.
    assert (D : N.testbit (N.land n 0xffff) i && N.testbit (if N.testbit n 22 then 0x400000 else 0) i = false).
    { rewrite <- N.land_spec. destruct (N.testbit n 22); [|by rewrite N.land_0_r]. rewrite <- N.land_assoc. change (N.land 0xffff 0x400000) with 0. by rewrite N.land_0_r. }
    destruct (N.testbit (N.land n 0xffff) i), (N.testbit (if N.testbit n 22 then 0x400000 else 0) i); done.
  - destruct (N.testbit n 22); [|by rewrite N.land_0_r]. rewrite <- N.land_assoc. change (N.land 0xffff 0x400000) with 0. by rewrite N.land_0_r.
Qed.
Lemma plain_bit31 n : N.land n 0x40ffff = n → N.testbit n 31 = false.
Proof. intros E. rewrite <- E, N.land_spec. change (N.testbit 0x40ffff 31) with false. apply andb_false_r. Qed.
Lemma csv_latest cx n s : N.land n 0x40ffff = n → N.land s 0x40ffff = s → is_height_locked n = is_height_locked s → n ≤ s →
  csv_ok cx s → csv_ok cx n.
Proof.
  intros En Es Hk Hle [Hb|(Hv & Hq & Hb & Hl)].
  { rewrite (plain_bit31 s Es) in Hb. done. }
  right. split; [done|]. split; [done|]. unfold is_height_locked in Hk. rewrite (plain_bit31 n En), (plain_bit31 s Es) in Hk. simpl in Hk.
  assert (Hkk : N.testbit n 22 = N.testbit s 22) by (by destruct (N.testbit n 22), (N.testbit s 22)).
  split; [congruence|]. rewrite land_bits in En, Es. rewrite Hkk in En. destruct (N.testbit s 22); lia.
Qed.
Lemma cltv_latest cx n x : is_same_unit (locktime_from n) x = true → (∃ k, x = locktime_from k) → n ≤ lt_u32 x →
  cltv_ok cx (Z.of_N (lt_u32 x)) → cltv_ok cx (Z.of_N n).
Proof.
  intros Hu [k ->] Hle (H1 & H2 & H3 & H4). rewrite lt_u32_from in *. unfold locktime_from in Hu.
  split; [lia|]. split; [|split; [lia|done]].
  destruct (N.ltb_spec n 500000000), (N.ltb_spec k 500000000); simpl in Hu; try done; lia.
Qed.
Lemma way_plain t l : plain_older t = true → way t l → ∀ n, NOlder n ∈ l → N.land n 0x40ffff = n.
Proof.
  intros Hp W n. induction W; simpl in Hp; rewrite ?elem_of_app, ?elem_of_cons, ?elem_of_nil; try (apply andb_true_iff in Hp as [? ?]);
    auto; try (by intros [?|[?|?]]; auto); try (by intros [?|?]; auto).
  - done.
  - intros [?|[]]. simplify_eq. by apply N.eqb_eq.
Qed.

Lemma required_waits (cx : script_ctx) (p : Plan AK) : as_required cx p → tx_waits cx p.
Proof.
  intros (Hv & Hl & Hs & Hf). split.
  - intros x Hx. unfold cltv_ok. rewrite (Hl x Hx). split; [lia|]. split; [lia|]. split; [lia|done].
  - intros s Es. unfold csv_ok. rewrite (Hs s Es). destruct (N.testbit s 31) eqn:E; [by left|]. right.
    split; [|done]. apply Hv. unfold min_version. by rewrite Es.
Qed.
Lemma complete_satisfies `{!KeyLaws} cx tr a p m w :
  (∀ b, cx_hash cx HHash160 b = hash_bytes HHash160 b) → material_ok cx m →
  plan_satisfaction (DTr tr) a = Ret (Some p) → try_complete p m = Ret (Complete w) → tx_waits cx p →
  (∀ t, t ∈ iter_scripts tr → well_typed t ∧ one_sided t = true ∧ no_pk_h t = true ∧ plain_older t = true) →
  (p_target p = Segwitv1 tr KeySpend ∧ ∃ s, m_sigs m !! tr_internal tr = Some s ∧ w = [sig_to_vec s])
  ∨ ∃ t args cb, t ∈ iter_scripts tr ∧ w = args ++ [script_bytes t; cb] ∧ satisfies cx (encode t) args ∧ opens tr (script_bytes t) cb.
Proof.
  intros Hh Hm Hp Hc [Hw1 Hw2] Ht.
  destruct (try_complete_shape _ _ _ m Hp) as [(w0 & tail & E & Hw & _ & Htl)|(Hm0 & [(pk & ? & ? & E)|(s & ? & E)])];
    [|simpl in E; congruence..].
  rewrite E in Hc. simplify_eq. destruct (plan_shape _ _ _ Hp) as [(pk & Hk & ->)|(t & tp & Hti & Hst & -> & _)].
  - left. simpl in *. split; [done|]. destruct Htl as [[_ ->]|(s & path & ? & _)]; [|done]. apply find_key_Some in Hk as (Ek & _).
    rewrite Ek in Hw. destruct (m_sigs m !! tr_internal tr) as [s|] eqn:Es; [|done]. simpl in Hw. simplify_eq. by exists s.
  - right. simpl in *. destruct Htl as [[? _]|(s & path & Htg & Hpath & ->)]; [done|]. simplify_eq.
    exists t, w0, (control_block tr path). split; [done|]. split; [done|].
    split; [|by exists path; destruct (control_path_commits _ _ _ Hpath)].
    destruct (Ht _ Hti) as ((τ & Hty & Hb) & Ho & Hnk & Hpl).
    destruct (plan_steps_realises _ _ _ Hst) as (l & W & P & Eq & F & _ & L & A). specialize (Eq Ho).
    eapply (way_satisfies cx m Hm xonly_length Hh t l τ w0); try done.
    + rewrite <- needs_witness_stack, <- Eq. apply witness_of_needs; [|done]. intros k Hk.
      eapply (way_no_key t l k); [done|done|]. exact (template_elem _ _ _ P Hk).
    + apply Forall_forall. intros n Hn. destruct n as [| | | | |n|n]; try done; simpl.
      * destruct (tp_locktime tp) as [x|]; [|by destruct (L n)]. destruct L as [(n0 & _ & Ex) L]. destruct (L n Hn) as [Hu Hle].
        apply (cltv_latest cx n x); eauto.
      * destruct (tp_sequence tp) as [x|]; [|by destruct (A n)]. destruct A as [A0 A]. destruct (A n Hn) as [Hu Hle].
        apply (csv_latest cx n x); eauto using way_plain.
Qed.
End plans3.
