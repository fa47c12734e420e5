(** Proofs about the command line wallet: which coins a transaction spends (C112). *)
From stdpp Require Import sorting.
From Verif Require Export CliPayProofs CliPickSpec.
Local Open Scope N_scope.

(** ** Sorting *)
Section sort.
Context {A : Type} (le : A → A → bool) (Htot : ∀ a b, le a b = true ∨ le b a = true) (Htr : ∀ a b c, le a b = true → le b c = true → le a c = true).
Notation R := (λ a b, le a b = true).
Lemma insert_by_sorted a l : StronglySorted R l → StronglySorted R (insert_by le a l).
Proof using All.
  induction 1 as [|b l Hl IH Hb]; cbn [insert_by]; [repeat constructor|]. destruct (le a b) eqn:E.
  - constructor; [by constructor|]. constructor; [done|]. eapply Forall_impl; [exact Hb|]. intros c Hc. by eapply Htr.
  - constructor; [done|]. rewrite insert_by_perm. constructor; [|done]. destruct (Htot a b); congruence.
Qed.
Lemma stable_sort_sorted l : StronglySorted R (stable_sort le l).
Proof using All. unfold stable_sort. induction l as [|a l IH]; cbn [foldr]; [constructor|]. by apply insert_by_sorted. Qed.
End sort.

(** ** The first of a list *)
Lemma at_indices_take {A} (l : list A) k : CoinSelectSpec.at_indices l (list_to_set (take k (seq 0 (length l)))) = take k l.
Proof.
  unfold CoinSelectSpec.at_indices.
  assert (∀ (m : list A) i k (X : gset nat), (∀ j, (i ≤ j < i + length m)%nat → j ∈ X ↔ (j < i + k)%nat) →
    (filter (λ p, p.1 ∈ X) (imap (λ j a, ((i + j)%nat, a)) m)).*2 = take k m) as Hk.
  { induction m as [|a m IH]; intros i k' X HX; [by rewrite take_nil|]. cbn [imap].
    assert (imap (λ j b, ((i + S j)%nat, b)) m = imap (λ j b, ((S i + j)%nat, b)) m) as Em.
    { apply imap_ext. intros j b _. f_equal. lia. }
    unfold compose. rewrite Em. destruct k' as [|k'].
    - rewrite filter_cons_False. 2:{ cbn [fst]. rewrite HX by (cbn [length]; lia). lia. }
      rewrite (IH (S i) 0%nat X); [by rewrite take_0|]. intros j Hj. rewrite HX by (cbn [length]; lia). lia.
    - rewrite filter_cons_True. 2:{ cbn [fst]. rewrite HX by (cbn [length]; lia). lia. }
      rewrite fmap_cons. cbn [snd take]. f_equal. apply IH. intros j Hj. rewrite HX by (cbn [length]; lia). lia. }
  apply (Hk l 0%nat). intros j Hj. rewrite elem_of_list_to_set. rewrite elem_of_list_lookup. split.
  - intros (i & Hi). apply lookup_take_Some in Hi as [Hi ?]. apply lookup_seq in Hi as [-> ?]. lia.
  - intros ?. exists j. apply lookup_take_Some. split; [|lia]. apply lookup_seq. lia.
Qed.
Lemma filter_not_empty `{∀ i, Decision (i ∉ (∅ : gset nat))} (l : list nat) : filter (λ i, i ∉ (∅ : gset nat)) l = l.
Proof. induction l as [|i l IH]; [done|]. rewrite filter_cons_True by (apply not_elem_of_empty). by rewrite IH. Qed.
Lemma picked_first wvs o k : CoinSelectSpec.picked (CoinSelectSpec.with_first (CoinSelectModel.cs_new wvs o) k) = take k wvs.
Proof.
  unfold CoinSelectSpec.picked, CoinSelectSpec.with_first, CoinSelectSpec.waiting. cbn [CoinSelectModel.cs_new CoinSelectModel.cs_cands CoinSelectModel.cs_sel].
  rewrite filter_not_empty, (left_id_L ∅ (∪)). apply at_indices_take.
Qed.

(** ** The largest make the largest sum *)
Lemma top_sum (z l : list N) : StronglySorted (λ a b, b ≤ a) z → l ⊆+ z → sumN l ≤ sumN (take (length l) z).
Proof.
  intros Hz. revert l. induction Hz as [|a z Hz IH Ha]; intros l Hl.
  - apply submseteq_nil_r in Hl as ->. done.
  - apply submseteq_cons_r in Hl as [Hl|(l' & Hp & Hl)].
    + specialize (IH l Hl). destruct l as [|b l]; [done|]. cbn [length take] in *.
      etrans; [exact IH|]. unfold sumN at 2. cbn [foldr]. fold (sumN (take (length l) z)).
      clear -Ha. revert Ha. generalize (length l). intros n. revert z. induction n as [|n IHn]; intros z Ha.
      * destruct z as [|c z]; [cbn; lia|]. apply Forall_cons in Ha as [Hc _]. cbv beta in Hc. rewrite !firstn_O. unfold sumN. cbn [take foldr]. rewrite firstn_O. cbn [foldr]. lia.
      * destruct z as [|c z]; [cbn; lia|]. apply Forall_cons in Ha as [Hc Ha]. cbv beta in Hc. specialize (IHn z Ha). cbn [take]. unfold sumN in *. cbn [foldr] in *. lia.
    + rewrite (sumN_perm _ _ Hp), (Permutation_length Hp). specialize (IH l' Hl). cbn [length take]. unfold sumN in *. cbn [foldr]. lia.
Qed.

Section pick.
Context `{!DescEnv, !CliEnv, !PlanModel.KeyEnv} `{ChainPositionLaws P} {C : Codec (KChangeSet Keychain P)}.
Context (W : Txid → list OutPoint) (dbg : bool) (ext : Desc) (int : option Desc) (km : PlanModel.KeyMap).
Notation A := (keychains ext int).
Context (HA : good_env A).
Implicit Types (x y : Tracker Keychain P) (ch : Choices P).
Notation good := (good W ext int).
Notation Plan := (PlanModel.Plan PlanModel.DescKey).
Notation cand := ((Keychain * N * FullTxOut P) * Plan)%type.
Notation pf := (λ e : cand, (e.2, e.1.2)).
Notation cn := (λ e : cand, (e.1, wt e.2)).

Lemma run_selection_prefix ch algo wvs o sn : algo ≠ BranchAndBound →
  run_selection dbg ch algo (CoinSelectModel.cs_new wvs o) = Ret (Ok sn) →
  ∃ k, (k ≤ length wvs)%nat ∧ CoinSelectModel.finish dbg (CoinSelectSpec.with_first (CoinSelectModel.cs_new wvs o) k) = Ret (Ok sn) ∧
    ∀ j, (j < k)%nat → ∃ e, CoinSelectModel.finish dbg (CoinSelectSpec.with_first (CoinSelectModel.cs_new wvs o) j) = Ret (Err e).
Proof.
  intros Hal E.
  assert ((r ← CoinSelectModel.select_until_finished dbg (CoinSelectModel.cs_new wvs o); Ret r.1) = Ret (Ok sn)) as E' by (by destruct algo).
  destruct (CoinSelectModel.select_until_finished dbg (CoinSelectModel.cs_new wvs o)) as [[r s']|] eqn:Eu; [|done].
  cbn [mbind outcome_bind fst] in E'. injection E' as ->.
  destruct (CoinSelectProofs3.select_until_finished_spec dbg _ _ _ Eu) as (k & Hk & -> & Hf & Hj & _). exists k. split; [|done].
  etrans; [exact Hk|]. unfold CoinSelectSpec.waiting. etrans; [apply filter_length|]. by rewrite seq_length.
Qed.

Lemma plan_utxos_complete ks a (l : list (Keychain * N * FullTxOut P)) : ∀ r, plan_utxos ks a l = Ret r →
  ∃ z : list cand, z.*1 `sublist_of` l ∧ r = pf <$> z ∧
    (∀ e, e ∈ z → ∃ d, ks !! e.1.1.1 = Some d ∧ PlanModel.plan_satisfaction (desc_at d e.1.1.2) a = Ret (Some e.2)) ∧
    ∀ kf d p, kf ∈ l → ks !! kf.1.1 = Some d → PlanModel.plan_satisfaction (desc_at d kf.1.2) a = Ret (Some p) → (kf, p) ∈ z.
Proof.
  induction l as [|kf l IH]; intros r E; cbn [plan_utxos] in E.
  - injection E as <-. exists []. split; [constructor|]. split; [done|]. split; [by intros e ?%elem_of_nil|]. by intros ? ? ? ?%elem_of_nil.
  - destruct (ks !! kf.1.1) as [d|] eqn:Ed; [|done]. destruct (PlanModel.plan_satisfaction (desc_at d kf.1.2) a) as [p|] eqn:Ep; [|done].
    cbn [mbind outcome_bind] in E. destruct (plan_utxos ks a l) as [r'|] eqn:Er; [|done]. cbn [mbind outcome_bind] in E. injection E as <-.
    destruct (IH r' eq_refl) as (z & Hz & -> & Hp & Hall). destruct p as [p|].
    + exists ((kf, p) :: z). split; [by apply sublist_skip|]. split; [done|]. split.
      * intros e [->|He]%elem_of_cons; [|by apply Hp]. by exists d.
      * intros kf' d' p' [->|Hin]%elem_of_cons Ed' Ep'; [|right; by eapply Hall].
        rewrite Ed in Ed'. injection Ed' as <-. rewrite Ep in Ep'. injection Ep' as <-. left.
    + exists z. split; [by apply sublist_cons|]. split; [done|]. split; [done|].
      intros kf' d' p' [->|Hin]%elem_of_cons Ed' Ep'; [|by eapply Hall]. congruence.
Qed.

Lemma sort_candidates_sorted algo (l : list (Plan * FullTxOut P)) :
  StronglySorted (λ a b, spent_before algo ((External, 0), a.2) ((External, 0), b.2)) (sort_candidates algo l).
Proof.
  assert (∀ (R : relation (Plan * FullTxOut P)) (le : Plan * FullTxOut P → Plan * FullTxOut P → bool) m, (∀ a b, le a b = true → R a b) →
    StronglySorted (λ a b, le a b = true) m → StronglySorted R m) as Himp.
  { intros R le m Hi Hm. induction Hm as [|a m Hm IH Ha]; constructor; [done|]. eapply Forall_impl; [exact Ha|]. intros b. by apply Hi. }
  destruct algo; cbn [sort_candidates spent_before].
  - eapply Himp; [|apply stable_sort_sorted]; cbv beta.
    + intros a b Hab%N.leb_le. exact Hab.
    + intros a b. rewrite !N.leb_le. lia.
    + intros a b c. rewrite !N.leb_le. lia.
  - eapply Himp; [|apply stable_sort_sorted]; cbv beta.
    + intros a b Hab%N.leb_le. exact Hab.
    + intros a b. rewrite !N.leb_le. lia.
    + intros a b c. rewrite !N.leb_le. lia.
  - eapply Himp; [|apply stable_sort_sorted]; cbv beta.
    + intros a b Hab%(bool_decide_eq_true_1 _). exact Hab.
    + intros a b. rewrite !bool_decide_eq_true. apply (total ord_le).
    + intros a b c. rewrite !bool_decide_eq_true. apply transitivity.
  - eapply Himp; [|apply stable_sort_sorted]; cbv beta.
    + intros a b Hab%(bool_decide_eq_true_1 _). exact Hab.
    + intros a b. rewrite !bool_decide_eq_true. apply (total ord_le).
    + intros a b c. rewrite !bool_decide_eq_true. intros ??. by etrans.
  - induction l as [|a l IH]; constructor; [done|]. by apply Forall_forall.
Qed.

(** ** What is spent *)
Lemma create_tx_picks ch x value addr algo x' t change : good x → choices_ok ch → modest_wallet ext int ch x value addr →
  (∀ l, coins ext int ch x l → (pay_weight addr l.*2 < 2 ^ 23)%Z) → algo ≠ BranchAndBound →
  create_tx dbg ch km x value addr algo = Ret (x', Ok (t, change)) →
  ∃ l rest, coins ext int ch x (l ++ rest) ∧ (∀ kf n, coin ext int ch x kf n → (kf, n) ∈ l ++ rest) ∧
    StronglySorted (spent_before algo) (l ++ rest).*1 ∧ ci_prev <$> ct_in t = (λ p, fto_outpoint p.1.2) <$> l ∧
    pay value addr l ∧ ∀ l1 e l2, l = l1 ++ e :: l2 → ¬ pay value addr l1.
Proof using All.
  intros Hx (Hho & Hst & Hso & Hcl) (Hv & Ha & Hsum & Hdesc & M & HM & Hlen & Hwt) Hlight Halgo. unfold create_tx. intros E.
  set (a := PlanModel.mkAssets (ch_keys ch) None None [] : PlanModel.Assets PlanModel.DescKey) in *.
  bind_in E cands E1. bind_in E wvs E2. bind_in E aa E3. destruct aa as [[ix [i sp]] ad]. cbn [fst snd] in E.
  destruct (ki_keychains ix !! change_keychain x) as [d|] eqn:Ed; [|done].
  bind_in E cp E4. destruct cp as [cp|]; [|done]. bind_in E cw E5. bind_in E o E6. bind_in E r E7. destruct r as [sl|]; [|done].
  bind_in E b E8. destruct b as [k es]. bind_in E selected E9. bind_in E ws E10. destruct ws as [ws|]; [|done].
  injection E as <- <- <-.
  destruct (change_next W ext int HA x ix i sp ad Hx E3) as (d' & Hd' & Hch & Hder & _). rewrite Ed in Hd'. injection Hd' as <-.
  unfold planned_utxos in E1. set (utxos := full_utxos (ch_hash ch (cg_graph (tr_cg x))) x) in *.
  assert (∀ kf, kf ∈ utxos ↔ unspent x kf.1 kf.2) as Hutx.
  { intros kf. by apply (utxos_unspent W ext int). }
  assert (∀ kf, kf ∈ utxos → ∃ d, ki_keychains (tr_index x) !! kf.1.1 = Some d ∧ A kf.1.1 = Some d) as Hkd.
  { intros [[k0 j] f] Hkf. apply Hutx in Hkf as [((u & Hu) & _) _]. cbn [fst snd] in *. destruct Hx as [((hs & Hi) & _) _].
    destruct (tracked_entry ext int hs (tr_index x) _ k0 j u Hi Hu) as (d0 & Hd0 & _). exists d0. split; [done|]. by apply (proj1 (proj1 Hi)). }
  destruct (plan_utxos_complete _ _ _ _ E1) as (z & Hz & -> & Hp & Hall).
  destruct (Permutation_map_inv (l1 := sort_candidates algo (pf <$> z)) pf z) as (z' & Es & Hzz).
  { apply sort_candidates_perm. }
  change (map pf z') with (pf <$> z') in Es. pose proof (sort_candidates_sorted algo (pf <$> z)) as Hsorted. rewrite Es in *.
  assert (StronglySorted (spent_before algo) (z'.*1)) as Hsort.
  { clear -Hsorted. induction z' as [|e z' IH]; [constructor|]. rewrite fmap_cons in *. inversion Hsorted as [|? ? Hs1 Hs2]. constructor; [by apply IH|].
    apply Forall_fmap, Forall_forall. intros e' He'. rewrite Forall_forall in Hs2. specialize (Hs2 (pf e') ltac:(by apply (elem_of_list_fmap_1 pf))).
    cbn [compose fst snd] in *. by destruct algo. }
  clear Hsorted.
  assert (∀ e, e ∈ z' → ∃ d', A e.1.1.1 = Some d' ∧ plans ch d' e.1.1.2 e.2) as Hplan.
  { intros e He. rewrite <-Hzz in He. destruct (Hp e He) as (d' & Hd' & Hpl). exists d'. split; [by eapply (keychain_desc W)|done]. }
  assert (∀ e, e ∈ z' → PlanModel.expected_weight e.2 = Ret (wt e.2)) as Hew.
  { intros e He. destruct (Hplan e He) as (d' & _ & Hpl). by eapply wt_total. }
  assert (∀ e, e ∈ z' → wt e.2 ≤ M) as HwtM.
  { intros e He. destruct (Hplan e He) as (d' & HdA & Hpl). by eapply Hwt, Hew. }
  assert (Permutation (z'.*1) (z.*1)) as Hzz1 by (by rewrite Hzz).
  assert (NoDup ((λ e, fto_outpoint e.2) <$> z'.*1)) as Hnd.
  { rewrite Hzz1. eapply sublist_NoDup; [by apply fmap_sublist, Hz|].
    eapply sublist_NoDup; [|apply (full_txouts_nodup (ch_hash ch (cg_graph (tr_cg x))) x)]. apply fmap_sublist, filter_sublist. }
  assert (∀ e, e ∈ z' → unspent x e.1.1 e.1.2) as Hun.
  { intros e He. apply Hutx. rewrite <-Hzz in He. eapply elem_of_submseteq; [|by apply sublist_submseteq, Hz]. by apply elem_of_list_fmap_1. }
  assert (∀ k : list cand, k `sublist_of` z' → coins ext int ch x (cn <$> k)) as Hcoins.
  { intros k0 Hk. split.
    - rewrite <-list_fmap_compose. change (fst ∘ cn) with (fst (A := Keychain * N * FullTxOut P) (B := Plan)).
      eapply sublist_NoDup; [by apply fmap_sublist, Hk|]. by eapply NoDup_fmap_1.
    - intros kf n (e & [= -> ->] & He)%elem_of_list_fmap. assert (e ∈ z') as He' by (eapply elem_of_submseteq; [exact He|by apply sublist_submseteq]).
      split; [by apply Hun|]. destruct (Hplan e He') as (d' & Hd' & Hpl). exists d', e.2. split; [done|]. split; [done|]. by apply Hew. }
  assert (∀ kf n, coin ext int ch x kf n → (kf, n) ∈ cn <$> z') as Hcall.
  { intros kf n (Hu & d0 & p & Hd0 & Hpl & Hn). apply Hutx in Hu. destruct (Hkd kf Hu) as (d' & Hd' & HAd). rewrite Hd0 in HAd. injection HAd as <-.
    pose proof (Hall kf d0 p Hu Hd' Hpl) as Hin. apply elem_of_list_fmap. exists (kf, p). rewrite <-Hzz. split; [|done]. cbn. unfold wt. by rewrite Hn. }
  rewrite <-list_fmap_compose, (all_ret_total _ (CliSelectProofs.wv_of ∘ vw)), list_fmap_compose in E2.
  2:{ intros e He. destruct (Hplan e He) as (d' & _ & Hpl). cbn [compose]. unfold vw. cbn [fst snd]. rewrite (weigh_total _ _ _ _ _ _ Hpl); [done|]. etrans; [by apply HwtM|done]. }
  injection E2 as <-.
  pose proof (Hwt _ _ _ _ _ Hch E4 E5) as HcwM.
  destruct (CliPaySelectProofs.create_opts_total dbg d value addr sp cw) as (o2 & Eo2 & Hbase); try done.
  { by eapply Hdesc. } { by etrans. }
  rewrite E6 in Eo2. injection Eo2 as <-.
  destruct (CliSelectProofs.create_opts_inv dbg d value addr sp cw o) as (o' & Ho' & Ht1 & Ht2 & Hb & Hdr & Ho & Hbr & Hdrr); try done.
  { by eapply Hdesc. } { by etrans. }
  destruct (CliSelectProofs.selector_typed (vw <$> z') M o) as [Htyped Hmod]; try (rewrite Ho; done); try done.
  { apply Forall_fmap, Forall_forall. exact HwtM. }
  { rewrite <-list_fmap_compose. change (fst ∘ vw) with (value_of ∘ fst (A := Keychain * N * FullTxOut P) (B := Plan)). rewrite list_fmap_compose.
    etrans; [|exact Hsum]. change (foldr N.add 0) with sumN. rewrite (sumN_perm _ _ (fmap_Permutation value_of _ _ Hzz1)). apply sumN_sublist. by apply fmap_sublist. }
  { rewrite fmap_length, <-Hzz. apply sublist_length in Hz. rewrite fmap_length in Hz. nia. }
  { intros v Hv'. rewrite Ho in Hv'. injection Hv' as <-. lia. }
  { rewrite Ho. cbn. lia. }
  { rewrite Ho. cbn. pose proof (proj1 (Hdesc _ _ Hch)). lia. }
  assert (∀ k : list cand, snd <$> (cn <$> k) = (vw <$> k).*2) as Hsnd by (intros k0; by rewrite <-!list_fmap_compose).
  assert (∀ k : list cand, value_of <$> (cn <$> k).*1 = (vw <$> k).*1) as Hfst by (intros k0; by rewrite <-!list_fmap_compose).
  assert (∀ s (k : list cand), CoinSelectModel.cs_opts s = o → CoinSelectSpec.picked s = CliSelectProofs.wv_of <$> (vw <$> k) → k `sublist_of` z' →
    (CoinSelectSpec.needed s CoinSelectModel.TargetFee ≤ CoinSelectSpec.value_in s)%Z ↔ pay value addr (cn <$> k)) as Hneed.
  { intros s k0 Hos Hps' Hk. cbn [CoinSelectSpec.needed]. unfold CoinSelectSpec.tx_weight, CoinSelectSpec.value_in. rewrite Hos, Hps', Hbase, ins_weight_is, wv_values, Z.add_0_r.
    assert (CoinSelectModel.o_target o = Some (Z.of_N value) ∧ CoinSelectModel.o_rate o = f32_half) as [-> Er] by (rewrite Ho; done).
    pose proof (Hlight _ (Hcoins k0 Hk)) as Hl. unfold pay. rewrite Hsnd in *. rewrite Hfst. pose proof (pay_weight_range addr (vw <$> k0).*2).
    rewrite (CliSelectProofs.half_fee o _ Er) by lia. cbn [default from_option]. unfold id.
    pose proof (ceil_half (pay_weight addr (vw <$> k0).*2)). lia. }
  destruct (run_selection_prefix ch algo _ o sl Halgo E7) as (n & Hn & Hfin & Hless).
  set (S0 := CoinSelectModel.cs_new (CliSelectProofs.wv_of <$> (vw <$> z')) o) in *.
  assert (∀ j, CoinSelectSpec.picked (CoinSelectSpec.with_first S0 j) = CliSelectProofs.wv_of <$> (vw <$> take j z')) as Hpick.
  { intros j. unfold S0. rewrite picked_first. by rewrite !fmap_take. }
  assert (∀ j, CoinSelectSpec.typed (CoinSelectSpec.with_first S0 j)) as Htj by (intros; by apply CoinSelectProofs3.with_first_typed).
  assert (∀ j, CoinSelectSpec.modest (CoinSelectSpec.with_first S0 j)) as Hmj by (intros; by apply CoinSelectProofs3.with_first_modest).
  destruct (CoinSelectProofs4.finish_ok_spec dbg _ sl (Htj n) (λ _, Hmj n) Hfin) as (Hsel & _).
  rewrite CoinSelectProofs4.apply_selection_spec, Hsel, at_indices_fmap in E9.
  2:{ rewrite Hsel. intros j Hj. rewrite fmap_length. destruct (Htj n) as (_ & _ & Hs3). specialize (Hs3 j Hj).
      cbn [S0 CoinSelectSpec.with_first CoinSelectModel.cs_new CoinSelectModel.cs_cands] in Hs3. rewrite !fmap_length in Hs3. done. }
  assert (CoinSelectSpec.at_indices z' (CoinSelectModel.cs_sel (CoinSelectSpec.with_first S0 n)) = take n z') as Hat.
  { unfold S0, CoinSelectSpec.with_first, CoinSelectSpec.waiting. cbn [CoinSelectModel.cs_new CoinSelectModel.cs_cands CoinSelectModel.cs_sel].
    rewrite filter_not_empty, (left_id_L ∅ (∪)), !fmap_length. apply at_indices_take. }
  rewrite Hat in E9. injection E9 as <-.
  exists (cn <$> take n z'), (cn <$> drop n z'). rewrite <-fmap_app, take_drop.
  split; [by apply Hcoins|]. split; [exact Hcall|]. split; [by rewrite <-list_fmap_compose|]. split.
  { destruct (CliPlanProofs.sign_inputs_inv _ _ _ _ _ _ E10) as [Hlen' _].
    match goal with |- context [put_witnesses ?t ws] => destruct (put_ins t ws) as (-> & _) end.
    { cbn [unsigned_tx ct_in]. rewrite !fmap_length in *. done. }
    cbn [unsigned_tx ct_in]. by rewrite <-!list_fmap_compose. }
  split.
  - apply (Hneed (CoinSelectSpec.with_first S0 n)); [done|apply Hpick|apply sublist_take|by eapply CliPaySelectProofs.ok_needed].
  - intros l1 e l2 El Hpay. assert (l1 = cn <$> take (length l1) z') as El1.
    { assert (length l1 < n)%nat. { apply (f_equal length) in El. rewrite fmap_length, app_length in El. cbn [length] in El. pose proof (firstn_le_length n z'). lia. }
      apply (f_equal (take (length l1))) in El. rewrite take_app in El. etrans; [symmetry; exact El|]. rewrite <-fmap_take, take_take. do 2 f_equal. lia. }
    assert (length l1 < n)%nat as Hlt.
    { apply (f_equal length) in El. rewrite fmap_length, app_length in El. cbn [length] in El. pose proof (firstn_le_length n z'). lia. }
    destruct (Hless _ Hlt) as [er Her]. rewrite El1 in Hpay.
    apply (Hneed (CoinSelectSpec.with_first S0 (length l1))) in Hpay; [|done|apply Hpick|apply sublist_take].
    pose proof (CliPaySelectProofs.err_needed dbg _ er (Htj (length l1)) (Hmj _)) as Herr.
    assert (CoinSelectModel.cs_opts (CoinSelectSpec.with_first S0 (length l1)) = o) as Eoo by done. rewrite Eoo in Herr.
    specialize (Herr ltac:(rewrite Ho; by eexists) ltac:(by rewrite Ho) Her). lia.
Qed.

(** ** Largest first spends as few as possible *)
Lemma largest_fewest value addr (l rest m : list (Keychain * N * FullTxOut P * N)) n :
  StronglySorted (spent_before LargestFirst) (l ++ rest).*1 → (∀ kf k, (kf, k) ∈ l ++ rest → k = n) → m ⊆+ l ++ rest →
  (∀ l1 e l2, l = l1 ++ e :: l2 → ¬ pay value addr l1) → pay value addr m → (length l ≤ length m)%nat.
Proof using.
  intros Hs Hn Hm Hmin Hp. destruct (decide (length l ≤ length m)%nat) as [|Hlt]; [done|]. exfalso.
  destruct (lookup_lt_is_Some_2 l (length m)) as [e He]; [lia|].
  apply (Hmin (take (length m) l) e (drop (S (length m)) l)); [by rewrite take_drop_middle|].
  assert (∀ k : list (Keychain * N * FullTxOut P * N), k ⊆+ l ++ rest → k.*2 = replicate (length k) n) as Hrep.
  { intros k Hk. rewrite <-(fmap_length snd k). symmetry. apply replicate_as_elem_of. split; [done|].
    intros j ([kf j'] & -> & Hin)%elem_of_list_fmap. cbn [snd]. apply (Hn kf). by eapply elem_of_submseteq. }
  assert (take (length m) l ⊆+ l ++ rest) as Hk.
  { etrans; [apply sublist_submseteq, sublist_take|]. by apply submseteq_inserts_r. }
  unfold pay in *. rewrite (Hrep _ Hk), take_length, Nat.min_l by lia. rewrite (Hrep m Hm) in Hp.
  assert (sumN (value_of <$> m.*1) ≤ sumN (value_of <$> (take (length m) l).*1)) as Hsum; [|lia].
  etrans; [apply (top_sum (value_of <$> (l ++ rest).*1))|].
  - clear -Hs. induction Hs as [|a z Hs IH Ha]; [constructor|]. rewrite fmap_cons. constructor; [done|]. by apply Forall_fmap.
  - by do 2 apply fmap_submseteq.
  - rewrite !fmap_length, <-!fmap_take, take_app_le by lia. done.
Qed.
Lemma create_tx_fewest ch x value addr x' t change n : good x → choices_ok ch → modest_wallet ext int ch x value addr →
  (∀ l, coins ext int ch x l → (pay_weight addr l.*2 < 2 ^ 23)%Z) → (∀ kf k, coin ext int ch x kf k → k = n) →
  create_tx dbg ch km x value addr LargestFirst = Ret (x', Ok (t, change)) →
  ∀ m, coins ext int ch x m → pay value addr m → (length (ct_in t) ≤ length m)%nat.
Proof using All.
  intros Hx Hch Hm Hlight Hn E m Hc Hp. destruct (create_tx_picks ch x value addr LargestFirst x' t change Hx Hch Hm Hlight ltac:(done) E)
    as (l & rest & Hl & Hall & Hs & Hin & _ & Hmin).
  apply (f_equal length) in Hin. rewrite !fmap_length in Hin. rewrite Hin.
  apply (largest_fewest value addr l rest m n); try done.
  - intros kf k Hk. by eapply Hn, Hl.
  - apply NoDup_submseteq; [eapply NoDup_fmap_1, Hc|]. intros [kf k] Hk. apply Hall. by apply Hc.
Qed.
End pick.
