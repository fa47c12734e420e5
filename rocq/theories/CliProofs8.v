(** Proofs about the command line wallet: change indices, double spends, failed broadcasts, listings and sync requests. *)
From Verif Require Export CliProofs7.
Local Open Scope N_scope.

Section used.
Context `{!DescEnv} `{OrdLaws K, Countable K}.
Implicit Types (x y : KIndex K) (A : K → option Desc).

Definition keeps_use (s s' : SpkIndex (K * N)) : Prop := ∀ ki sp, si_spks s !! ki = Some sp → si_is_used s' ki = si_is_used s ki.
Lemma store_use k l : ∀ s s', store_spks s k l = Ret s' → NoDup l.*1 → (∀ i, i ∈ l.*1 → si_spks s !! (k, i) = None) → keeps_use s s'.
Proof.
  induction l as [|[i sp] l IH]; intros s s' E Hn Hf; cbn [store_spks] in E; [by injection E as <-|].
  cbn [fmap list_fmap fst] in Hn, Hf. apply NoDup_cons in Hn as [Hni Hn]. unfold si_insert_spk in E.
  destruct (si_indices s !! sp); [done|]. cbn [fst snd] in E. specialize (IH _ _ E Hn).
  intros ki sp' Hs. assert (ki ≠ (k, i)) as Hne by (intros ->; rewrite Hf in Hs; [done|by left]).
  rewrite (IH) with (sp := sp').
  - unfold si_is_used. cbn [si_unused]. apply bool_decide_ext. set_solver.
  - intros j Hj. cbn [si_spks]. rewrite lookup_insert_ne; [apply Hf; by right|]. intros [= <-]. done.
  - cbn [si_spks]. by rewrite lookup_insert_ne.
Qed.
Lemma range_go_bounds d n : ∀ lo i sp, (i, sp) ∈ range_spks_go d n lo → lo ≤ i.
Proof.
  induction n as [|n IH]; intros lo i sp Hin; cbn [range_spks_go] in Hin; [by apply elem_of_nil in Hin|].
  repeat case_match; try (by apply elem_of_nil in Hin); apply elem_of_cons in Hin as [[= -> ->]|Hin]; try lia;
    try (by apply elem_of_nil in Hin); apply IH in Hin; lia.
Qed.
Lemma range_go_nodup d n : ∀ lo, NoDup (range_spks_go d n lo).*1.
Proof.
  induction n as [|n IH]; intros lo; cbn [range_spks_go]; [constructor|].
  repeat case_match; try constructor; [|apply IH].
  intros Hin. apply elem_of_list_fmap in Hin as ([j sp] & Ej & Hin). apply range_go_bounds in Hin. cbn in Ej. lia.
Qed.
Lemma reveal_use A hs x k t x' l ad : ki_inv A hs x → reveal_to_target x k t = Ret (x', l, ad) → keeps_use (ki_inner x) (ki_inner x').
Proof.
  intros Hi E. unfold reveal_to_target in E. destruct (ki_keychains x !! k) as [d|] eqn:Hd; [|done].
  destruct (core_stored A hs x k d (proj1 Hi) Hd) as (n & Hn & Hle & _). pose proof (cap_bound d) as [_ Hcb].
  rewrite (next_store_ok x k n Hn) in E by lia. cbn [mbind outcome_bind] in E.
  bind_in E nr E1. bind_in E lo E2. bind_in E hi E3. bind_in E s E4.
  assert (keeps_use (ki_inner x) s) as Hs.
  { eapply store_use; [exact E4| |].
    - eapply sublist_NoDup; [apply fmap_sublist, filter_sublist|apply range_go_nodup].
    - intros i Hin. apply elem_of_list_fmap in Hin as ([j sp] & -> & Hin). apply elem_of_list_filter in Hin as [Hj _]. cbn [fst] in *.
      destruct (si_spks (ki_inner x) !! (k, j)) as [sp'|] eqn:Ej; [|done]. assert (j < n); [|lia]. apply Hn. unfold si_spk_at. eauto. }
  destruct (foldl _ _ _) as [i|]; [|injection E as <- _ _; done].
  destruct (match ki_revealed x !! k with Some old => _ | None => _ end); [|done]. bind_in E i1 E5. injection E as <- _ _. done.
Qed.
Lemma next_unused_use A hs x k x' i sp ad : ki_inv A hs x → next_unused_spk x k = Ret (x', (i, sp), ad) → keeps_use (ki_inner x) (ki_inner x').
Proof.
  intros Hi E. unfold next_unused_spk in E. bind_in E l E1. destruct l as [|is l]; [|injection E as <- _ _; by intros ?].
  unfold reveal_next_spk in E. bind_in E m E2. bind_in E r E3. destruct r as [[x1 l1] ad1].
  destruct (si_spk_at _ _); [|done]. injection E as <- _ _ _. by eapply reveal_use.
Qed.
(** An index in use is handed out again only when there is no other. *)
Lemma next_unused_other A hs x k d i x' j sp ad : good_env A → ki_inv A hs x → ki_keychains x !! k = Some d →
  n_revealed x k < cap d → si_is_used (ki_inner x) (k, i) = true → i < n_revealed x k →
  next_unused_spk x k = Ret (x', (j, sp), ad) → j ≠ i.
Proof.
  intros HA Hi Hd Hc Hu Hlt E. destruct (tr_next_unused A hs x k d HA Hi Hd) as (x1 & hs' & i1 & s1 & ad1 & E1 & _ & _ & _ & _ & _ & Hor).
  rewrite E in E1. injection E1 as <- <- <- <-. destruct Hor as [(_ & _ & _ & Hf & _)|(_ & Hr)]; [by intros ->; congruence|].
  destruct (tr_next A hs x k d HA Hi Hd) as (x2 & hs2 & i2 & s2 & ad2 & E2 & _ & _ & _ & _ & _ & Hif).
  rewrite Hr in E2. injection E2 as <- <- <- <-. rewrite bool_decide_true in Hif by done. lia.
Qed.
Lemma reveal_next_other A hs x k d i x' j sp ad : good_env A → ki_inv A hs x → ki_keychains x !! k = Some d →
  n_revealed x k < cap d → i < n_revealed x k → reveal_next_spk x k = Ret (x', (j, sp), ad) → j ≠ i.
Proof.
  intros HA Hi Hd Hc Hlt Hr. destruct (tr_next A hs x k d HA Hi Hd) as (x2 & hs2 & i2 & s2 & ad2 & E2 & _ & _ & _ & _ & _ & Hif).
  rewrite Hr in E2. injection E2 as <- <- <- <-. rewrite bool_decide_true in Hif by done. lia.
Qed.
(** Marking and unmarking an index *)
Lemma unmark_use A hs x k i sp : ki_inv A hs x → si_spk_at (ki_inner x) (k, i) = Some sp →
  ∃ r, ki_unmark_used x k i = Ret r ∧ ki_revealed r.1 = ki_revealed x ∧ same_outs x r.1 ∧ si_spks (ki_inner r.1) = si_spks (ki_inner x) ∧
    (∀ ki, ki ≠ (k, i) → si_is_used (ki_inner r.1) ki = si_is_used (ki_inner x) ki) ∧
    (si_is_used (ki_inner r.1) (k, i) = true ↔ ∃ o, (k, i, o) ∈ si_spk_txouts (ki_inner x)).
Proof.
  intros Hi Hs. destruct (proj1 (proj2 (proj1 Hi))) as (Erun & Hok & Ho & _).
  destruct (si_run_inv hs Hok) as (x' & E' & I1 & I2 & I3 & I4 & I5 & I6). replace x' with (ki_inner x) in * by congruence. clear x' E'.
  assert (∀ i o, (i, o) ∈ si_spk_txouts (ki_inner x) → SpkIndexSpec.op_ok o) as Hrange.
  { intros j o Hin. apply I2 in Hin as (u & h1 & l' & h2 & -> & Hin & _). eapply Hok; [|exact Hin]. set_solver. }
  unfold ki_unmark_used, si_unmark_used. unfold si_spk_at in Hs. rewrite Hs.
  destruct (outputs_at (ki_inner x) (k, i) Hrange) as (l & El & Hl). rewrite El. destruct l as [|a l]; cbn [mbind outcome_bind].
  - eexists. split; [done|]. cbn [fst]. split; [done|]. split; [done|]. split; [done|]. split.
    + intros ki Hne. unfold si_is_used. cbn [with_inner ki_inner si_unused]. apply bool_decide_ext. set_solver.
    + unfold si_is_used. cbn [with_inner ki_inner si_unused]. rewrite bool_decide_eq_true. split; [set_solver|].
      intros [o Ho']. by destruct (proj1 Hl eq_refl o).
  - eexists. split; [done|]. cbn [fst]. split; [done|]. split; [done|]. split; [done|]. split; [done|].
    assert (∃ o, (k, i, o) ∈ si_spk_txouts (ki_inner x)) as [o Ho'].
    { destruct (decide (Exists (λ p, p.1 = (k, i)) (elements (si_spk_txouts (ki_inner x))))) as [Hex|Hex].
      - apply Exists_exists in Hex as ([ki o] & Hin & Ek). cbn in Ek. subst ki. exists o. by apply elem_of_elements in Hin.
      - assert (a :: l = []) as Hz; [|done]. apply Hl. intros o Hin. apply Hex, Exists_exists. exists (k, i, o). split; [by apply elem_of_elements|done]. }
    split; [eauto|]. intros _. cbn [with_inner ki_inner].
    destruct (si_is_used (ki_inner x) (k, i)) eqn:Eu; [done|]. by destruct (unused_no_outputs A hs x (k, i) Hi Eu o).
Qed.
End used.

Section cli.
Context `{!DescEnv, !CliEnv, !PlanModel.KeyEnv} `{ChainPositionLaws P} {C : Codec (KChangeSet Keychain P)}.
Context (wf : KChangeSet Keychain P → Prop).
Context (W : Txid → list OutPoint) (dbg : bool) (ext : Desc) (int : option Desc) (km : PlanModel.KeyMap).
Notation A := (keychains ext int).
Notation s := (adds ext int).
Context (HA : good_env A).
Implicit Types (x y : Tracker Keychain P) (ch : Choices P) (w : World P).
Notation good := (good W ext int).
Notation ix x := (tr_index x).

Lemma good_known x k d : good x → A k = Some d → ∃ hs, ki_inv A hs (ix x) ∧ ki_keychains (ix x) !! k = Some d.
Proof using Type.
  intros Hx Hd. destruct (good_keychain W ext int x k Hx) as (d' & hs & Hi & Hd'); [by eexists|].
  exists hs. split; [done|]. rewrite (proj1 (proj1 Hi) k d' Hd') in Hd. by injection Hd as ->.
Qed.
Lemma good_index x : good x → ∃ hs, ki_inv A hs (ix x).
Proof using Type. intros [((hs & Hi) & _) _]. by exists hs. Qed.

(** ** Change indices in flight (C86) *)
Lemma prepare_marks ch w value addr algo w1 evs t k i : good (w_tracker w) →
  send_prepare dbg ch km w value addr algo = Ret (w1, evs, Ok (t, Some (k, i))) →
  si_is_used (ki_inner (ix (w_tracker w1))) (k, i) = true ∧ i < n_revealed (ix (w_tracker w1)) k.
Proof using HA H5 C.
  intros Hx E. unfold send_prepare in E. bind_in E a E1. destruct a as [x rr].
  destruct (create_tx_shape dbg km ch _ value addr algo x rr E1) as (ix1 & i1 & sp & ad & En & -> & Hsh).
  destruct rr as [[t' [[ad' ki]|]]|e]; [|done|done].
  destruct (db_append _ _) as [[w2 ev] r1] eqn:Ed. apply db_append_disk in Ed as (_ & Ed & _). cbn [with_tracker w_tracker] in Ed.
  destruct r1 as [u|e]; [|done]. injection E as <- <- <- ->. destruct Hsh as (_ & [= -> ->] & _).
  cbn [with_tracker w_tracker with_index tr_index]. rewrite Ed. cbn [with_index tr_index]. cbn [fst snd ki_mark_used].
  pose proof (change_known W ext int _ Hx) as Hk. apply known_adds in Hk as [d Hd].
  destruct (good_known _ _ _ Hx Hd) as (hs & Hi & Hd').
  destruct (tr_next_unused A hs _ _ d HA Hi Hd') as (x1 & hs' & i2 & s1 & ad1 & E2 & _ & _ & _ & _ & Hlt & _).
  rewrite En in E2. injection E2 as <- <- <- <-. split; [|exact Hlt].
  unfold si_is_used. cbn. apply bool_decide_eq_true. set_solver.
Qed.
Lemma used_change ch x value addr algo x' t a k d i : good x → A k = Some d → n_revealed (ix x) k < cap d →
  si_is_used (ki_inner (ix x)) (k, i) = true → i < n_revealed (ix x) k →
  create_tx dbg ch km x value addr algo = Ret (x', Ok (t, a)) → snd <$> a ≠ Some (k, i).
Proof using HA H5 C.
  intros Hx Hd Hc Hu Hlt E. destruct (create_tx_shape dbg km ch _ value addr algo x' _ E) as (ix1 & j & sp & ad & En & -> & Hsh).
  destruct a as [[ad' ki]|]; [|done]. destruct Hsh as (_ & -> & _). cbn. intros [= Ek ->]. rewrite Ek in En.
  destruct (good_known _ _ _ Hx Hd) as (hs & Hi & Hd'). by eapply (next_unused_other A hs (ix x) k d i).
Qed.
Lemma used_address w c w' evs r k d i : good (w_tracker w) → A k = Some d → n_revealed (ix (w_tracker w)) k < cap d →
  si_is_used (ki_inner (ix (w_tracker w))) (k, i) = true → i < n_revealed (ix (w_tracker w)) k →
  run_address_cmd w c = Ret (w', evs, r) → ∀ sp, EvAddress k i sp ∉ evs.
Proof using HA H5 C.
  intros Hx Hd Hc Hu Hlt E sp Hin. destruct (good_known _ _ _ Hx Hd) as (hs & Hi & Hd').
  assert (∀ a w1 evs1 r1, hand_out w a = Ret (w1, evs1, r1) → EvAddress k i sp ∈ evs1 → k = External ∧ i = a.1.2.1) as Hho.
  { intros [[ix1 [j sp']] ad] w1 evs1 r1 Eh Hev. unfold hand_out in Eh. destruct (db_append _ _) as [[w2 ev] r2] eqn:Ed.
    assert (ev = EvAppend (kcs_of_indices ad) (default NoFault (head (w_faults (with_tracker w (with_index (w_tracker w) ix1)))))) as Eev by (by injection Ed as _ <- _).
    destruct r2; [destruct (has_address _)|]; injection Eh as _ <- _; rewrite Eev in Hev.
    - apply elem_of_cons in Hev as [|Hev]; [done|]. apply elem_of_list_singleton in Hev as [= -> -> ->]. done.
    - by apply elem_of_list_singleton in Hev.
    - by apply elem_of_list_singleton in Hev. }
  destruct c; cbn [run_address_cmd] in E; [| |bind_in E a E1; injection E as _ <- _; by apply elem_of_nil in Hin|injection E as _ <- _; by apply elem_of_nil in Hin].
  - bind_in E a E1. destruct (Hho a _ _ _ E Hin) as [-> ->]. destruct a as [[ix1 [j sp']] ad]. by eapply (next_unused_other A hs _ External d j).
  - bind_in E a E1. destruct (Hho a _ _ _ E Hin) as [-> ->]. destruct a as [[ix1 [j sp']] ad]. by eapply (reveal_next_other A hs _ External d j).
Qed.

(** ** Spent outputs (C85) *)
Lemma chain_spends ch x value addr algo x' t a t1 o : good x → choices_ok ch → modest_wallet ext int ch x value addr →
  create_tx dbg ch km x value addr algo = Ret (x', Ok (t, a)) → has_sent x t1 →
  o ∈ ci_prev <$> ct_in t → o ∈ ci_prev <$> ct_in t1 → o = null_outpoint.
Proof using HA H5 C.
  intros Hx Hch Hm E [Hc Hg] Ho Ho1. destruct (create_tx_ok W dbg ext int km HA ch _ value addr algo x' t a Hx Hch Hm E) as ((fee & sel & (Hsi & _ & Hsel) & _) & _).
  rewrite Hsi in Ho. apply elem_of_list_fmap in Ho as ([ki f] & -> & Hf). destruct (Hsel _ _ Hf) as [[_ (t0 & _ & _ & _ & _ & Hn)] Hs].
  rewrite Hs in Hn. by apply (Hn (ctx_txid t1) (ctx_tx t1)).
Qed.

(** ** A broadcast that fails (C87) *)
Lemma failed_send ch w value addr algo w' evs t change : good (w_tracker w) →
  handle_command dbg ch km w (CmdSend value addr algo false) = Ret (w', evs, Err EBroadcast) → EvBroadcast t change false ∈ evs →
  tr_cg (w_tracker w') = tr_cg (w_tracker w) ∧ (∀ ki f, owned (w_tracker w') ki f ↔ owned (w_tracker w) ki f) ∧
  (∀ k i sp, reveals_spk (w_tracker w) k i sp → change ≠ Some (k, i) →
     si_is_used (ki_inner (ix (w_tracker w'))) (k, i) = si_is_used (ki_inner (ix (w_tracker w))) (k, i)) ∧
  (∀ k i, change = Some (k, i) →
     (si_is_used (ki_inner (ix (w_tracker w'))) (k, i) = true ↔ ∃ o, (k, i, o) ∈ si_spk_txouts (ki_inner (ix (w_tracker w))))).
Proof using HA H5 C.
  intros Hx E Hin. cbn [handle_command] in E. bind_in E a E1. destruct a as [[w1 evs1] r1].
  destruct r1 as [[t' change']|e]; [|].
  2:{ exfalso. injection E as <- <- ->. pose proof (prepare_silent _ _ _ _ _ _ _ _ _ _ E1) as Hs. unfold broadcasts in Hs.
      assert (t ∈ omap (λ ev : event P, match ev with EvBroadcast t _ _ => Some t | _ => None end) evs1) as Hb; [|rewrite Hs in Hb; by apply elem_of_nil in Hb].
      apply elem_of_list_omap. by exists (EvBroadcast t change false). }
  bind_in E a E2. destruct a as [[w2 evs2] r2]. injection E as <- <- ->.
  assert (t' = t ∧ change' = change) as [-> ->].
  { apply elem_of_app in Hin as [Hin|Hin].
    - exfalso. pose proof (prepare_silent _ _ _ _ _ _ _ _ _ _ E1) as Hs. unfold broadcasts in Hs.
      assert (t ∈ omap (λ ev : event P, match ev with EvBroadcast t _ _ => Some t | _ => None end) evs1) as Hb; [|rewrite Hs in Hb; by apply elem_of_nil in Hb].
      apply elem_of_list_omap. by exists (EvBroadcast t change false).
    - unfold send_finish in E2. destruct change' as [[k i]|].
      + bind_in E2 r E3. injection E2 as _ <-. apply elem_of_list_singleton in Hin. by injection Hin as -> ->.
      + injection E2 as _ <-. apply elem_of_list_singleton in Hin. by injection Hin as -> ->. }
  clear Hin. unfold send_prepare in E1. bind_in E1 a Ec. destruct a as [x rr].
  destruct (create_tx_shape dbg km ch _ value addr algo x rr Ec) as (ix1 & i1 & sp & ad & En & -> & Hsh).
  pose proof (next_outs W ext int HA _ _ _ _ _ _ Hx (change_known W ext int _ Hx) En) as So.
  pose proof (change_known W ext int _ Hx) as Hk. apply known_adds in Hk as [d Hd].
  destruct (good_known _ _ _ Hx Hd) as (hs & Hi & Hd').
  destruct (tr_next_unused A hs _ _ d HA Hi Hd') as (x1 & hs' & i2 & s1 & ad1 & E3 & Ht & _ & _ & Hat & Hlt & _).
  rewrite En in E3. injection E3 as <- <- <- <-.
  pose proof (next_unused_use A hs _ _ _ _ _ _ Hi En) as Hu.
  destruct rr as [[t' [[ad' ki]|]]|e]; [| |done].
  - destruct (db_append _ _) as [[w3 ev] r1] eqn:Ed. apply db_append_disk in Ed as (_ & Ed & _). cbn [with_tracker w_tracker] in Ed.
    destruct r1 as [u|e]; [|done]. injection E1 as <- _ -> <-. destruct Hsh as (_ & -> & _). set (k := change_keychain (w_tracker w)) in *.
    cbn [send_finish with_tracker w_tracker with_index tr_index fst snd] in E2. rewrite Ed in E2. cbn [with_index tr_index] in E2.
    destruct (tr_mark A (hs ++ hs') ix1 k i1 (proj1 Ht)) as [Htm Esm].
    destruct (unmark_use A ((hs ++ hs') ++ [SiMark (k, i1)]) (ki_mark_used ix1 k i1).1 k i1 sp (proj1 Htm)) as (r & Er & _ & So2 & _ & Hoth & Hthis).
    { unfold si_spk_at in *. by rewrite Esm. }
    match type of E2 with context [ki_unmark_used ?a _ _] => change a with (ki_mark_used ix1 k i1).1 in E2 end. rewrite Er in E2. cbn [mbind outcome_bind] in E2. injection E2 as <- _. cbn [with_tracker w_tracker with_index tr_index tr_cg].
    assert (same_outs (ix (w_tracker w)) r.1) as So3.
    { eapply same_outs_trans; [exact So|]. eapply same_outs_trans; [|exact So2]. done. }
    split; [done|]. split; [intros; by apply owned_same|]. split.
    + intros k' i' sp' (_ & Hs' & _) Hne. rewrite Hoth by congruence. rewrite <- (Hu (k', i') sp') by done.
      unfold si_is_used. cbn [ki_mark_used si_mark_used with_inner ki_inner fst si_unused]. apply bool_decide_ext.
      assert ((k', i') ≠ (k, i1)) by congruence. set_solver.
    + intros k' i' [= <- <-]. rewrite Hthis. cbn [ki_mark_used si_mark_used with_inner ki_inner fst si_spk_txouts]. by rewrite (proj2 So).
  - injection E1 as <- _ -> <-. cbn [send_finish] in E2. injection E2 as <- _. cbn [with_tracker w_tracker with_index tr_index tr_cg].
    split; [done|]. split; [intros; by apply owned_same|]. split; [|done].
    intros k' i' sp' (_ & Hs' & _) _. by apply (Hu (k', i') sp').
Qed.

(** ** Listings (C84, C88) *)
Lemma all_ret_if {X} (Q : X → bool) (l : list X) :
  CoinSelectModel.all_ret ((λ a, if Q a then Ret a else Panic) <$> l) = if forallb Q l then Ret l else Panic.
Proof using Type.
  induction l as [|a l IH]; [done|]. cbn [fmap list_fmap CoinSelectModel.all_ret forallb]. change (list_fmap X (outcome X)) with (fmap (M := list) (A := X) (B := outcome X)). rewrite IH.
  destruct (Q a); [|done]. cbn [mbind outcome_bind andb]. by destruct (forallb Q l).
Qed.
Lemma confirmed_iff p : th_is_confirmed (pos_height p) = true ↔ ∃ h, pos_height (p : P) = Confirmed h.
Proof using Type. destruct (pos_height p) as [h|]; cbn; split; (try done); [by eexists|by intros [h [=]]]. Qed.
Lemma unconfirmed_iff p : th_is_confirmed (pos_height p) = false ↔ pos_height (p : P) = Unconfirmed.
Proof using Type. destruct (pos_height p) as [h|]; cbn; by split. Qed.
Lemma txo_list ch x c : cg_ok (tr_cg x) → hash_fun_ok (ch_hash ch) →
  ∃ l, NoDup ((λ kf, fto_outpoint kf.2) <$> l) ∧ (∀ ki f, (ki, f) ∈ l ↔ owned x ki f ∧ asked_for c f) ∧
    run_txo_cmd ch x c = if forallb (λ kf, has_address (txo_spk (fto_txout kf.2))) l then Ret l else Panic.
Proof using H5.
  intros Hok Hho. unfold run_txo_cmd. set (ho := ch_hash ch (cg_graph (tr_cg x))).
  assert (∀ ki f, (ki, f) ∈ full_txouts ho x ↔ owned x ki f) as Hl0 by (intros; apply full_txouts_owned; [done|apply Hho]).
  assert (NoDup ((λ kf, fto_outpoint kf.2) <$> full_txouts ho x)) as Hn0 by apply full_txouts_nodup.
  match goal with |- context [CoinSelectModel.all_ret (_ <$> ?l)] => exists l end.
  rewrite (all_ret_if (λ kf : Keychain * N * FullTxOut P, has_address (txo_spk (fto_txout kf.2)))). split; [|split; [|done]].
  - repeat match goal with |- context [match ?b with true => _ | false => _ end] => destruct b end; try exact Hn0;
      (eapply sublist_NoDup; [|exact Hn0]; apply fmap_sublist); unfold full_utxos;
      first [apply filter_sublist|etrans; [apply filter_sublist|]; apply filter_sublist].
  - intros ki f. unfold asked_for. rewrite <-confirmed_iff, <-unconfirmed_iff.
    repeat match goal with |- context [match ?b with true => _ | false => _ end] => destruct b end; unfold full_utxos;
      rewrite ?elem_of_list_filter, Hl0; cbn [snd]; clear; intuition congruence.
Qed.

Definition balance_step (r : outcome (N * N)) (kf : Keychain * N * FullTxOut P) : outcome (N * N) :=
    '(c, u) ← r;
    let v := txo_value (fto_txout kf.2) in
    match pos_height (fto_pos kf.2) with
    | Confirmed _ => c ← add_u64 c v; Ret (c, u)
    | Unconfirmed => u ← add_u64 u v; Ret (c, u)
    end.
Lemma balance_fold_exact (l : list (Keychain * N * FullTxOut P)) : ∀ c u, c ≤ u64_max → u ≤ u64_max →
  foldl balance_step (Ret (c, u)) l =
  let c' := c + sumN (value_of <$> filter (λ kf, confirmed_in kf = true) l) in
  let u' := u + sumN (value_of <$> filter (λ kf, confirmed_in kf = false) l) in
  if bool_decide (c' ≤ u64_max ∧ u' ≤ u64_max) then Ret (c', u') else Panic.
Proof using Type.
  assert (∀ l, foldl balance_step Panic l = Panic) as Hp by (intros l0; by induction l0).
  induction l as [|kf l IH]; intros c u Hc Hu.
  - cbn [foldl filter list_filter fmap list_fmap]. change (sumN []) with 0. cbn zeta. rewrite !N.add_0_r. by rewrite bool_decide_true.
  - assert (confirmed_in kf = th_is_confirmed (pos_height (fto_pos kf.2))) as Hcf by done. cbn [foldl]. cbn zeta.
    rewrite !filter_cons. unfold balance_step at 2. cbn [mbind outcome_bind]. cbn zeta. destruct (pos_height (fto_pos kf.2)) as [h|]; cbn [th_is_confirmed] in Hcf.
    + rewrite decide_True, decide_False by congruence. rewrite fmap_cons, sumN_cons. unfold add_u64. case_bool_decide as Hb; cbn [mbind outcome_bind].
      * rewrite IH by done. cbn zeta. by rewrite N.add_assoc.
      * rewrite Hp, bool_decide_false; [done|]. unfold value_of at 1. lia.
    + rewrite decide_False, decide_True by congruence. rewrite fmap_cons, sumN_cons. unfold add_u64. case_bool_decide as Hb; cbn [mbind outcome_bind].
      * rewrite IH by done. cbn zeta. by rewrite N.add_assoc.
      * rewrite Hp, bool_decide_false; [done|]. unfold value_of at 2. lia.
Qed.
Lemma balance_exact ch x l : cg_ok (tr_cg x) → hash_fun_ok (ch_hash ch) → NoDup l → (∀ ki f, (ki, f) ∈ l ↔ unspent x ki f) →
  let c := sumN (value_of <$> filter (λ kf, th_is_confirmed (pos_height (fto_pos kf.2)) = true) l) in
  let u := sumN (value_of <$> filter (λ kf, th_is_confirmed (pos_height (fto_pos kf.2)) = false) l) in
  run_balance_cmd ch x = if bool_decide (c ≤ u64_max ∧ u ≤ u64_max) then Ret (c, u) else Panic.
Proof using H5.
  intros Hok Hho Hn Hl. pose proof (owned_unspent_perm (ch_hash ch (cg_graph (tr_cg x))) x l Hok (Hho _) Hn Hl) as Hp.
  unfold run_balance_cmd. change (foldl _ _ ?l) with (foldl balance_step (Ret (0, 0)) l). rewrite balance_fold_exact by done. cbn zeta. rewrite !N.add_0_l.
  rewrite (sumN_perm _ _ (fmap_Permutation value_of _ _ (filter_Permutation (λ kf, confirmed_in kf = true) _ _ Hp))),
      (sumN_perm _ _ (fmap_Permutation value_of _ _ (filter_Permutation (λ kf, confirmed_in kf = false) _ _ Hp))). done.
Qed.

(** ** What a sync asks for (C89) *)
Lemma sync_ok ch x f : cg_ok (tr_cg x) → hash_fun_ok (ch_hash ch) → good x →
  (∀ k d i sp, A k = Some d → derive d i = Some sp → has_address sp = true) →
  ∃ spks txids outs, sync_request ch x f = Ret (spks, txids, outs) ∧
    (∀ sp, sp ∈ spks ↔ ∃ ki, si_spk_at (ki_inner (ix x)) ki = Some sp ∧
       (sf_all (sync_flags f) = true ∨ sf_unused (sync_flags f) = true ∧ si_is_used (ki_inner (ix x)) ki = false)) ∧
    (∀ t, t ∈ txids ↔ sf_unconfirmed (sync_flags f) = true ∧ ∃ p, sc_pos (cg_chain (tr_cg x)) !! t = Some p ∧ pos_height p = Unconfirmed) ∧
    (∀ o, o ∈ outs ↔ sf_utxos (sync_flags f) = true ∧ ∃ ki g, unspent x ki g ∧ fto_outpoint g = o).
Proof using H5.
  intros Hok Hho Hx Haddr. destruct (good_index _ Hx) as (hs & Hi). destruct (proj1 (proj2 (proj1 Hi))) as (Erun & Hsok & Ho & _).
  unfold sync_request. set (g := sync_flags f).
  pose proof (unused_spks_exact hs (ki_inner (ix x)) Unb Unb Hsok Ho Erun) as Hu.
  assert (∃ l, si_unused_spks (ki_inner (ix x)) Unb Unb = Ret l ∧ ∀ ki sp, (ki, sp) ∈ l ↔ si_spk_at (ki_inner (ix x)) ki = Some sp ∧ si_is_used (ki_inner (ix x)) ki = false) as (l & El & Hl).
  { destruct (si_unused_spks _ _ _) as [l|]; [|done]. exists l. split; [done|]. destruct Hu as (_ & _ & Hl). intros ki sp. rewrite Hl.
    rewrite (spk_at_exact hs (ki_inner (ix x)) ki sp) by done. cbn. clear. tauto. }
  rewrite El. cbn [mbind outcome_bind].
  rewrite (all_ret_if has_address (l.*2)).
  assert (forallb has_address l.*2 = true) as ->.
  { apply forallb_forall. intros sp Hin%elem_of_list_In. apply elem_of_list_fmap in Hin as ([[k i] sp'] & -> & Hin). apply Hl in Hin as [Hs _].
    destruct (proj1 Hi) as (C1 & _ & C3 & _). destruct (C3 _ _ _ Hs) as (d & Hd & Hder). by eapply (Haddr k d i); [apply C1|]. }
  rewrite (range_by_height_spec (cg_chain (tr_cg x)) (Incl Unconfirmed) Unb (proj1 Hok)) by done.
  cbn [range_bad].
  set (all := if sf_all g then snd <$> bmap_list (si_spks (ki_inner (ix x))) else []).
  assert (∀ sp, sp ∈ all ↔ ∃ ki, si_spk_at (ki_inner (ix x)) ki = Some sp ∧ sf_all g = true) as Hall.
  { intros sp. unfold all. destruct (sf_all g).
    - rewrite elem_of_list_fmap. split.
      + intros ([ki sp'] & -> & Hin). apply elem_of_bmap_list in Hin. by exists ki.
      + intros (ki & Hs & _). exists (ki, sp). split; [done|]. by apply elem_of_bmap_list.
    - rewrite elem_of_nil. split; [done|]. by intros (ki & _ & ?). }
  assert (∀ sp, sp ∈ l.*2 ↔ ∃ ki, si_spk_at (ki_inner (ix x)) ki = Some sp ∧ si_is_used (ki_inner (ix x)) ki = false) as Hun.
  { intros sp. rewrite elem_of_list_fmap. split.
    - intros ([ki sp'] & -> & Hin). apply Hl in Hin. by exists ki.
    - intros (ki & Hs & Hf). exists (ki, sp). split; [done|]. by apply Hl. }
  set (un := filter _ (txids (cg_chain (tr_cg x)))).
  assert (∀ t, t ∈ un.*2 ↔ ∃ p, sc_pos (cg_chain (tr_cg x)) !! t = Some p ∧ pos_height p = Unconfirmed) as Htx.
  { intros t. unfold un. rewrite elem_of_list_fmap. split.
    - intros ([p t'] & -> & [[Ha _] Hin]%elem_of_list_filter). apply txids_elem in Hin; [|apply (proj1 Hok)]. exists p. split; [done|].
      cbn in Ha. destruct (pos_height p) as [h|]; [by destruct Ha|done].
    - intros (p & Hp & Hh). exists (p, t). split; [done|]. apply elem_of_list_filter. cbn [fst]. rewrite Hh. split; [by split|].
      apply txids_elem; [apply (proj1 Hok)|done]. }
  set (outs := if sf_utxos g then _ else _).
  assert (∀ o, o ∈ outs ↔ sf_utxos g = true ∧ ∃ ki g, unspent x ki g ∧ fto_outpoint g = o) as Hout.
  { intros o. unfold outs, unspent. destruct (sf_utxos g).
    - rewrite elem_of_list_fmap. split.
      + intros ([ki f'] & -> & [Hs Hin]%elem_of_list_filter). split; [done|]. exists ki, f'. split; [|done]. split; [|done]. eapply full_txouts_owned; [done| |exact Hin]. apply Hho.
      + intros (_ & ki & f' & [Ho1 Hs] & <-). exists (ki, f'). split; [done|]. apply elem_of_list_filter. split; [done|]. apply full_txouts_owned; [done|apply Hho|done].
    - rewrite elem_of_nil. split; [done|]. by intros [? _]. }
  destruct (sf_unused g) eqn:Eu; destruct (sf_unconfirmed g) eqn:Ec; cbn [mbind outcome_bind]; (eexists _, _, _; split; [done|]);
    (split; [intros sp; rewrite elem_of_app, Hall, ?Hun, ?elem_of_nil|split; [intros t; rewrite ?Htx; cbn [fmap list_fmap]; rewrite ?elem_of_nil|exact Hout]]).
  all: clear; firstorder; done.
Qed.
End cli.
