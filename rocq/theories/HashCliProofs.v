(** Proofs that what the command line wallet does is independent of the order of spender sets (C97). *)
From Verif Require Export HashCliSpec HashProofs CliProofs3.
From Verif Require PlanOrderProofs.
Local Open Scope N_scope.

Section cli.
Context `{!DescEnv, !CliEnv, !PlanModel.KeyEnv} `{ChainPositionLaws P} {C : Codec (KChangeSet Keychain P)}.
Context (wf : KChangeSet Keychain P → Prop) (HC : codec_ok C wf) (Hdef : wf kcs_default).
Context (W : Txid → list OutPoint) (dbg : bool) (limit : nat) (ext : Desc) (int : option Desc) (km : PlanModel.KeyMap).
Notation A := (keychains ext int).
Notation s := (adds ext int).
Notation good := (good W ext int).
Context (HA : good_env A).
Implicit Types (x y z : Tracker Keychain P) (w : World P) (ch : Choices P) (evs : list (event P)).

Lemma good_built y : good y → built W (tr_cg y).
Proof. intros [(_ & _ & _ & _ & Hb & _) _]. done. Qed.
Lemma utxos_order ch ch' x : good x → hash_fun_ok (ch_hash ch) → hash_fun_ok (ch_hash ch') →
  let g := cg_graph (tr_cg x) in
  full_txouts (ch_hash ch g) x = full_txouts (ch_hash ch' g) x ∧ full_utxos (ch_hash ch g) x = full_utxos (ch_hash ch' g) x.
Proof.
  intros Hx Hh Hh' g. destruct (views_order (ch_hash ch g) (ch_hash ch' g) x (proj1 (built_ok W _ (good_built x Hx))) (Hh _) (Hh' _)) as (E1 & E2 & _).
  by split.
Qed.
Lemma create_order ch ch' x value addr algo : good x → hash_fun_ok (ch_hash ch) → hash_fun_ok (ch_hash ch') → same_choices ch ch' →
  create_tx dbg ch km x value addr algo = create_tx dbg ch' km x value addr algo.
Proof.
  intros Hx Hh Hh' (E1 & E2 & E3 & E4). destruct (utxos_order ch ch' x Hx Hh Hh') as [_ Eu]. cbn zeta in Eu.
  unfold create_tx, planned_utxos, run_selection. rewrite E1, E2, E3, E4, Eu. done.
Qed.
(** ** The keys in another order *)
Notation cand := (PlanModel.Plan PlanModel.DescKey * FullTxOut P)%type.
Definition cand_like (c c' : cand) : Prop := PlanOrderProofs.plan_like km c.1 c'.1 ∧ c.2 = c'.2.
Lemma insert_like {B} (R : B → B → Prop) (le : B → B → bool) : (∀ a a' b b', R a a' → R b b' → le a b = le a' b') →
  ∀ a a' l l', R a a' → Forall2 R l l' → Forall2 R (insert_by le a l) (insert_by le a' l').
Proof.
  intros Hle a a' l l' Ha. induction 1 as [|b b' l l' Hb Hl IH]; cbn; [by repeat constructor|].
  rewrite (Hle a a' b b') by done. destruct (le a' b'); by repeat constructor.
Qed.
Lemma sort_like {B} (R : B → B → Prop) (le : B → B → bool) l l' : (∀ a a' b b', R a a' → R b b' → le a b = le a' b') →
  Forall2 R l l' → Forall2 R (stable_sort le l) (stable_sort le l').
Proof. intros Hle. induction 1 as [|b b' l l' Hb Hl IH]; cbn; [constructor|]. by apply insert_like. Qed.
Lemma candidates_like algo (l l' : list cand) : Forall2 cand_like l l' → Forall2 cand_like (sort_candidates algo l) (sort_candidates algo l').
Proof. intros Hl. destruct algo; cbn; try done; apply sort_like; try done; by intros a a' b b' [_ ->] [_ ->]. Qed.
Lemma weigh_like (l l' : list cand) : Forall2 cand_like l l' → weigh dbg <$> l = weigh dbg <$> l'.
Proof.
  induction 1 as [|c c' l l' [Hc E] _ IH]; cbn; [done|]. rewrite IH. f_equal. unfold weigh.
  by rewrite (PlanOrderProofs.weight_like km _ _ Hc), (PlanOrderProofs.version_like km _ _ Hc), E.
Qed.
Lemma plan_like_at R a a' d kc i : honest_wallet R ext int km → A kc = Some d →
  PlanModel.a_keys a ≡ₚ (map_to_list km).*1 → PlanModel.a_keys a' ≡ₚ (map_to_list km).*1 →
  PlanModel.a_age a = PlanModel.a_age a' → PlanModel.a_locktime a = PlanModel.a_locktime a' → PlanModel.a_images a = PlanModel.a_images a' →
  PlanOrderProofs.both (option_Forall2 (PlanOrderProofs.plan_like km))
    (PlanModel.plan_satisfaction (desc_at d i) a) (PlanModel.plan_satisfaction (desc_at d i) a').
Proof.
  intros (HR & Hkm & Ho & Hk) Hd Hp Hp' E1 E2 E3. destruct (desc_at d i) as [| | | | |tr] eqn:Et; try done.
  apply PlanOrderProofs.satisfaction_like; try done. intros k Hn. destruct (Hk k) as [Hok Hno]; [by exists kc, d, i, tr|].
  assert (∀ q : PlanModel.DescKey, q ∈ PlanModel.a_keys a ↔ is_Some (km !! q)) as Hin.
  { intros q. rewrite Hp, elem_of_list_fmap. split.
    - intros ([q' v] & -> & Hy%elem_of_map_to_list). cbn. by rewrite Hy.
    - intros [v Hy]. exists (q, v). split; [done|]. by apply elem_of_map_to_list. }
  apply (PlanOrderProofs.finds_order km R); try done.
  - intros y Hy%Hin. split; [done|]. by apply Ho.
  - destruct k as [|o y [|z path] wc]; try done. intros [v Hv]%Hin. congruence.
  - by rewrite Hp, Hp'.
Qed.
Lemma planned_like R a a' (l : list (Keychain * N * FullTxOut P)) (ks : gmap Keychain Desc) : honest_wallet R ext int km →
  (∀ kc d, ks !! kc = Some d → A kc = Some d) →
  PlanModel.a_keys a ≡ₚ (map_to_list km).*1 → PlanModel.a_keys a' ≡ₚ (map_to_list km).*1 →
  PlanModel.a_age a = PlanModel.a_age a' → PlanModel.a_locktime a = PlanModel.a_locktime a' → PlanModel.a_images a = PlanModel.a_images a' →
  PlanOrderProofs.both (Forall2 cand_like) (plan_utxos ks a l) (plan_utxos ks a' l).
Proof.
  intros Hw Hks Hp Hp' E1 E2 E3. induction l as [|[[kc i] f] l IH]; cbn [plan_utxos]; [constructor|]. cbn [fst snd].
  destruct (ks !! kc) as [d|] eqn:Ed; [|done].
  pose proof (plan_like_at R a a' d kc i Hw (Hks _ _ Ed) Hp Hp' E1 E2 E3) as Hpl.
  destruct (PlanModel.plan_satisfaction (desc_at d i) a) as [p|], (PlanModel.plan_satisfaction (desc_at d i) a') as [p'|]; try done.
  cbn [mbind outcome_bind PlanOrderProofs.both] in *.
  destruct (plan_utxos ks a l) as [r|], (plan_utxos ks a' l) as [r'|]; try done. cbn in *.
  destruct Hpl as [q q' Hq|]; [|done]. by constructor.
Qed.
Lemma at_like {B D} (R : B → D → Prop) l l' (is : list nat) : Forall2 R l l' →
  PlanOrderProofs.both (Forall2 R) (CoinSelectModel.all_ret ((λ i, match l !! i with Some t => Ret t | None => Panic end) <$> is))
    (CoinSelectModel.all_ret ((λ i, match l' !! i with Some t => Ret t | None => Panic end) <$> is)).
Proof.
  intros Hl. induction is as [|i is IH]; cbn; [constructor|].
  destruct (l !! i) as [b|] eqn:Eb.
  - destruct (Forall2_lookup_l R l l' i b Hl Eb) as (b' & Eb' & Hb). rewrite Eb'. cbn.
    destruct (CoinSelectModel.all_ret _) as [r|], (CoinSelectModel.all_ret _) as [r'|]; try done. cbn in *. by constructor.
  - assert (l' !! i = None) as ->; [|done]. apply lookup_ge_None. rewrite <- (Forall2_length R l l') by done. by apply lookup_ge_None.
Qed.
Lemma sign_inputs_like t pv l l' : Forall2 (PlanOrderProofs.plan_like km) l l' → ∀ i, sign_inputs km t pv i l = sign_inputs km t pv i l'.
Proof.
  induction 1 as [|p p' l l' Hp _ IH]; intros i; cbn [sign_inputs]; [done|].
  pose proof (PlanOrderProofs.requirements_like km p p' Hp) as Hr.
  destruct (PlanModel.requirements p) as [r|], (PlanModel.requirements p') as [r'|]; try done. cbn in Hr. destruct Hr as [Hr Hi].
  cbn [mbind outcome_bind]. unfold PlanModel.requires_hash_preimages. rewrite Hi. case_bool_decide; [done|].
  rewrite (PlanOrderProofs.sign_like km _ _ _ _ 0 PlanModel.no_material Hr).
  destruct (PlanModel.sign_with_keymap _ _ _ _ _ _) as [[[[]|e] m]|]; try done. cbn [mbind outcome_bind fst snd].
  pose proof (PlanOrderProofs.complete_like km p p' m Hp) as Hc.
  destruct (PlanModel.try_complete p m) as [st|], (PlanModel.try_complete p' m) as [st'|]; try done. cbn in Hc.
  destruct st as [w1|], st' as [w2|]; try done. cbn [PlanOrderProofs.state_like] in Hc. rewrite Hc. cbn [mbind outcome_bind]. rewrite IH. reflexivity.
Qed.
Lemma create_keys_order R ch ch' x value addr algo : honest_wallet R ext int km → good x → hash_fun_ok (ch_hash ch) → hash_fun_ok (ch_hash ch') →
  same_but_keys km ch ch' → create_tx dbg ch km x value addr algo = create_tx dbg ch' km x value addr algo.
Proof.
  intros Hw Hx Hh Hh' (E1 & E1' & E2 & E3 & E4). destruct (utxos_order ch ch' x Hx Hh Hh') as [_ Eu]. cbn zeta in Eu.
  unfold create_tx, planned_utxos. rewrite <- Eu.
  set (a := PlanModel.mkAssets (ch_keys ch) None None []). set (a' := PlanModel.mkAssets (ch_keys ch') None None []).
  assert (∀ y, good y → ∀ kc d, ki_keychains (tr_index y) !! kc = Some d → A kc = Some d) as Hks.
  { intros y [((hs & Hi) & _) _] kc d Hd. by apply (proj1 (proj1 Hi)). }
  pose proof (planned_like R a a' (full_utxos (ch_hash ch (cg_graph (tr_cg x))) x) (ki_keychains (tr_index x)) Hw (Hks _ Hx) E1 E1' eq_refl eq_refl eq_refl) as Hc.
  destruct (plan_utxos _ a _) as [cs|], (plan_utxos _ a' _) as [cs'|]; try done. cbn [mbind outcome_bind PlanOrderProofs.both] in *.
  apply (candidates_like algo) in Hc. rewrite (weigh_like _ _ Hc).
  destruct (CoinSelectModel.all_ret _) as [wvs|]; [|done]. cbn [mbind outcome_bind].
  destruct (next_unused_spk _ _) as [[[ix is] ad]|] eqn:En; [|done]. cbn [mbind outcome_bind].
  destruct (ki_keychains ix !! change_keychain x) as [d|] eqn:Ed; [|done].
  assert (A (change_keychain x) = Some d) as HAd.
  { destruct (good_keychain W ext int x (change_keychain x)) as (d' & hs & Hi & Hd'); [done|apply known_adds, (change_known W ext int x Hx)|].
    destruct (tr_next_unused A hs _ _ d' HA Hi Hd') as (x2 & hs' & i' & s' & ad' & E' & Ht & _).
    rewrite En in E'. injection E' as <- _ _. assert (ki_keychains ix = ki_keychains (tr_index x)) as Ek by apply Ht.
    rewrite Ek in Ed. by apply (Hks x). }
  pose proof (plan_like_at R a a' d _ (fst is) Hw HAd E1 E1' eq_refl eq_refl eq_refl) as Hpl.
  destruct (PlanModel.plan_satisfaction _ a) as [cp|], (PlanModel.plan_satisfaction _ a') as [cp'|]; try done.
  cbn [mbind outcome_bind PlanOrderProofs.both] in *. destruct Hpl as [cp cp' Hcp|]; [|done].
  rewrite (PlanOrderProofs.weight_like km _ _ Hcp). destruct (PlanModel.expected_weight cp') as [cw|]; [|done]. cbn [mbind outcome_bind].
  destruct (create_opts _ _ _ _ _ _) as [o|]; [|done]. cbn [mbind outcome_bind]. unfold run_selection. rewrite <- E2, <- E3, <- E4.
  destruct (match algo with LargestFirst => _ | _ => _ end) as [[sn|e]|]; [|done|done]. cbn [mbind outcome_bind].
  destruct (CoinSelectModel.best_strategy _) as [[? es]|]; [|done]. cbn [mbind outcome_bind].
  unfold CoinSelectModel.apply_selection. pose proof (at_like cand_like _ _ (bset_list (CoinSelectModel.sn_selected sn)) Hc) as Hsel.
  destruct (CoinSelectModel.all_ret _) as [sel|], (CoinSelectModel.all_ret _) as [sel'|]; try done. cbn [mbind outcome_bind PlanOrderProofs.both] in *.
  assert ((λ c : cand, fto_txout c.2) <$> sel = (λ c : cand, fto_txout c.2) <$> sel') as ->.
  { clear -Hsel. induction Hsel as [|c c' l l' [_ E] _ IH]; cbn; [done|]. by rewrite IH, E. }
  assert (∀ y outs, unsigned_tx y sel outs = unsigned_tx y sel' outs) as Eun.
  { intros y outs. unfold unsigned_tx. f_equal. clear -Hsel. induction Hsel as [|c c' l l' [(_ & _ & Hq & _) E] _ IH]; cbn; [done|]. by rewrite IH, E, Hq. }
  rewrite Eun. rewrite (sign_inputs_like _ _ (fst <$> sel) (fst <$> sel')); [done|].
  clear -Hsel. induction Hsel as [|c c' l l' [Hc _] _ IH]; cbn; by constructor.
Qed.
Section by_choices.
(** Choices that make no difference to the transactions *)
Context (S : Choices P → Choices P → Prop).
Context (HS : ∀ ch ch' x value addr algo, good x → hash_fun_ok (ch_hash ch) → hash_fun_ok (ch_hash ch') → S ch ch' →
  create_tx dbg ch km x value addr algo = create_tx dbg ch' km x value addr algo).
Lemma prepare_order ch ch' w value addr algo : good (w_tracker w) → hash_fun_ok (ch_hash ch) → hash_fun_ok (ch_hash ch') → S ch ch' →
  send_prepare dbg ch km w value addr algo = send_prepare dbg ch' km w value addr algo.
Proof. intros Hx Hh Hh' Hs. unfold send_prepare. by rewrite (HS ch ch'). Qed.
Lemma finish_order ch ch' w t change ok : good (w_tracker w) → hash_fun_ok (ch_hash ch) → hash_fun_ok (ch_hash ch') →
  send_finish ch w t change ok = send_finish ch' w t change ok.
Proof.
  intros Hx Hh Hh'. unfold send_finish. destruct ok; [|done]. unfold tr_insert_tx.
  pose proof (tr_insert_order (ch_hash ch (cg_graph (tr_cg (w_tracker w)))) (ch_hash ch' (cg_graph (tr_cg (w_tracker w))))
    (ctx_tx t) pos_unconfirmed (w_tracker w) (proj1 (built_ok W _ (good_built _ Hx))) (Hh _) (Hh' _)) as Ha.
  by rewrite Ha.
Qed.
Lemma handle_order ch ch' w c c' : good (w_tracker w) → command_ok A W s ch c → command_ok A W s ch' c' → S ch ch' → same_command c c' →
  (∀ evs w1 r value addr algo ok, c = CmdSend value addr algo ok → send_prepare dbg ch km w value addr algo = Ret (w1, evs, r) → good (w_tracker w1)) →
  handle_command dbg ch km w c = handle_command dbg ch' km w c'.
Proof.
  intros Hx [Hh Hc] [Hh' Hc'] Hs Hcc Hg.
  assert (∀ sc ord ord', tr_op_ok A W s (TrUpdate (ch_hash ch) sc ord) → tr_op_ok A W s (TrUpdate (ch_hash ch') sc ord') →
    agree same_update_error (tr_determine_changeset (ch_hash ch (cg_graph (tr_cg (w_tracker w)))) (w_tracker w) sc ord)
      (tr_determine_changeset (ch_hash ch' (cg_graph (tr_cg (w_tracker w)))) (w_tracker w) sc ord')) as Hd.
  { intros sc ord ord' Ho Ho'. apply (tr_update_order A W s (ch_hash ch) (ch_hash ch')); [by apply good_built|done|done]. }
  destruct (utxos_order ch ch' _ Hx Hh Hh') as [Et Eu]. cbn zeta in Et, Eu.
  destruct c as [c| |c|value addr algo ok|sc ord|sc ord], c' as [c'| |c'|value' addr' algo' ok'|sc' ord'|sc' ord']; cbn [same_command] in Hcc; try done.
  - by injection Hcc as <-.
  - cbn [handle_command]. unfold run_balance_cmd. by rewrite Eu.
  - injection Hcc as <-. cbn [handle_command]. unfold run_txo_cmd. by rewrite Et, Eu.
  - injection Hcc as <- <- <- <-. cbn [handle_command]. rewrite <- (prepare_order ch ch' w) by done.
    destruct (send_prepare dbg ch km w value addr algo) as [[[w1 evs] r]|] eqn:E; [|done]. cbn [mbind outcome_bind].
    destruct r as [[t change]|e]; [|done]. rewrite (finish_order ch ch') by (done || by eapply Hg). done.
  - subst sc'. cbn [handle_command]. unfold electrum_apply. pose proof (Hd sc ord ord' Hc Hc') as Ha.
    destruct (tr_determine_changeset _ _ _ ord) as [[cs|e]|], (tr_determine_changeset _ _ _ ord') as [[cs'|e']|]; try done; cbn in Ha.
    by subst cs'.
  - subst sc'. cbn [handle_command]. unfold esplora_apply, tr_apply_update. pose proof (Hd sc ord ord' Hc Hc') as Ha.
    destruct (tr_determine_changeset _ _ _ ord) as [[cs|e]|], (tr_determine_changeset _ _ _ ord') as [[cs'|e']|]; try done; cbn in Ha.
    by subst cs'.
Qed.
Lemma prepare_keeps ch w value addr algo w1 evs r : good (w_tracker w) → send_prepare dbg ch km w value addr algo = Ret (w1, evs, r) → good (w_tracker w1).
Proof. intros Hx E. destruct (prepare_steps W dbg ext int km ch w value addr algo w1 evs r Hx E) as [Hs _]. by eapply steps_good. Qed.
Lemma act_order ch ch' a a' st : good (w_tracker st.1) → action_ok A W s ch a → action_ok A W s ch' a' → same_action_by S (ch, a) (ch', a') →
  act dbg km st ch a = act dbg km st ch' a'.
Proof.
  intros Hx [Hh Ha] [Hh' Ha'] [Hs Hc]. cbn [fst snd] in *.
  destruct a as [c|value addr algo|n ok], a' as [c'|value' addr' algo'|n' ok']; try done.
  - cbn [act]. rewrite (handle_order ch ch' st.1 c c'); try done. intros. by eapply prepare_keeps.
  - injection Hc as <- <- <-. cbn [act]. by rewrite (prepare_order ch ch').
  - injection Hc as <- <-. cbn [act]. destruct (st.2 !! n) as [[t change]|]; [|done]. by rewrite (finish_order ch ch').
Qed.
Lemma acts_order l : ∀ l' w pr st evs, good (w_tracker w) → small pr → Forall (λ p, action_ok A W s p.1 p.2) l → Forall (λ p, action_ok A W s p.1 p.2) l' →
  Forall2 (same_action_by S) l l' → acts dbg km (w, pr) l = Ret (st, evs) → Forall (event_ok wf W) evs → acts dbg km (w, pr) l' = Ret (st, evs).
Proof.
  induction l as [|[ch a] l IH]; intros l' w pr st evs Hx Hpr Hl Hl' HF E Hev.
  - by apply Forall2_nil_inv_l in HF as ->.
  - apply Forall2_cons_inv_l in HF as ([ch' a'] & l1 & Hs & HF & ->). apply Forall_cons in Hl as [Ha Hl], Hl' as [Ha' Hl'].
    cbn [acts fst snd] in *. rewrite <- (act_order ch ch' a a' (w, pr)) by done.
    destruct (act dbg km (w, pr) ch a) as [[[w1 pr1] evs1]|] eqn:E1; [|done]. cbn [mbind outcome_bind] in *.
    destruct (acts dbg km (w1, pr1) l) as [[st2 evs2]|] eqn:E2; [|done]. cbn [mbind outcome_bind] in E. injection E as -> <-.
    apply Forall_app in Hev as [Hev1 Hev2].
    destruct (act_steps wf W dbg ext int km HA ch a w pr w1 pr1 evs1 Ha Hx Hpr Hev1 E1) as [Hst Hpr1].
    rewrite (IH l1 w1 pr1 st evs2); try done. by eapply steps_good.
Qed.
Lemma session_order w pr evs0 l l' st evs :
  in_session wf W dbg limit ext int km w pr evs0 →
  Forall (λ p, action_ok A W s p.1 p.2) l → Forall (λ p, action_ok A W s p.1 p.2) l' → Forall2 (same_action_by S) l l' →
  acts dbg km (w, pr) l = Ret (st, evs) → Forall (event_ok wf W) evs → acts dbg km (w, pr) l' = Ret (st, evs).
Proof.
  intros Hs Hl Hl' HF E Hev. destruct (session_good wf HC Hdef W dbg limit ext int km HA w pr evs0 Hs) as [Hg Hpr].
  exact (acts_order l l' w pr st evs Hg Hpr Hl Hl' HF E Hev).
Qed.
Lemma process_order d evs0 create faults ch ch' c c' :
  life wf W dbg limit ext int km d evs0 → command_ok A W s ch c → command_ok A W s ch' c' → S ch ch' → same_command c c' →
  process dbg limit ext int km d create faults ch c = process dbg limit ext int km d create faults ch' c'.
Proof.
  intros Hl Hc Hc' Hs Hcc. unfold process. destruct (init limit ext int d create faults) as [[b [w|e]]|] eqn:Ei; [|done|done].
  destruct (init_good wf HC Hdef W dbg limit ext int km HA d evs0 create faults b w Hl Ei) as (Hg & _).
  cbn [mbind outcome_bind]. rewrite (handle_order ch ch' w c c'); try done. intros. by eapply prepare_keeps.
Qed.
End by_choices.
End cli.
