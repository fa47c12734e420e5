(** Proofs about the command line wallet: the change indices of transactions prepared side by side (C86). *)
From Verif Require Export CliProofs8.
Local Open Scope N_scope.

Section mono.
Context `{!DescEnv} `{OrdLaws K, Countable K}.
Implicit Types (x y : KIndex K).

(** Scripts stay, and stay in use. *)
Definition mono (s s' : SpkIndex (K * N)) : Prop :=
  ∀ ki sp, si_spks s !! ki = Some sp → si_spks s' !! ki = Some sp ∧ (si_is_used s ki = true → si_is_used s' ki = true).
Lemma mono_refl s : mono s s.
Proof. by intros ki sp. Qed.
Lemma mono_trans a b c : mono a b → mono b c → mono a c.
Proof. intros M1 M2 ki sp Hs. destruct (M1 _ _ Hs) as [Hb Hu]. destruct (M2 _ _ Hb) as [Hc Hu2]. auto. Qed.
Lemma store_mono k l : ∀ s s', store_spks s k l = Ret s' → NoDup l.*1 → (∀ i, i ∈ l.*1 → si_spks s !! (k, i) = None) → mono s s'.
Proof.
  intros s s' E Hn Hf ki sp Hs. split; [|intros Hu; by rewrite (store_use k l s s' E Hn Hf ki sp Hs)].
  revert s E Hn Hf Hs. induction l as [|[i sp'] l IH]; intros s E Hn Hf Hs; cbn [store_spks] in E; [by injection E as <-|].
  cbn [fmap list_fmap fst] in Hn, Hf. apply NoDup_cons in Hn as [Hni Hn]. unfold si_insert_spk in E.
  destruct (si_indices s !! sp'); [done|]. cbn [fst snd] in E.
  assert (ki ≠ (k, i)) as Hne by (intros ->; rewrite Hf in Hs; [done|by left]).
  apply (IH _ E Hn).
  - intros j Hj. cbn [si_spks]. rewrite lookup_insert_ne; [apply Hf; by right|]. intros [= <-]. done.
  - cbn [si_spks]. by rewrite lookup_insert_ne.
Qed.
Lemma next_store_fresh x k n j : next_store_index x k = Ret n → n ≤ j → j < u32_max → si_spks (ki_inner x) !! (k, j) = None.
Proof.
  intros E Hle Hj. unfold next_store_index in E.
  pose proof (last_filter_keys (si_spks (ki_inner x)) (λ kv, ord_le (k, 0) kv ∧ ord_lt kv (k, u32_max))) as Hl.
  assert (∀ k' i, ord_le (k, 0) (k', i) ∧ ord_lt (k', i) (k, u32_max) ↔ k' = k ∧ i < u32_max) as Hr.
  { intros k' i. rewrite prod_ord_le, prod_ord_lt. cbn [fst snd]. rewrite N_ord_lt. split.
    - intros [[Hlt|[E1 _]] [Hgt|[E' Hi]]]; [|subst; by apply ord_lt_irrefl in Hlt|subst; by apply ord_lt_irrefl in Hgt|done].
      exfalso. apply (ord_lt_irrefl k). by eapply ord_lt_trans.
    - intros [-> Hi]. split; right; (split; [done|]); [|done]. apply N_ord_le. lia. }
  destruct (si_spks (ki_inner x) !! (k, j)) as [sp|] eqn:Es; [exfalso|done].
  destruct (last _) as [[[k' i] sp']|].
  - destruct Hl as (_ & Hq & Hmax). apply Hr in Hq as [-> Hi]. apply Hmax in Es; [|by apply Hr]. cbn [fst snd] in E.
    unfold add_u32 in E. case_bool_decide; [|done]. injection E as <-.
    apply prod_ord_le in Es as [Hx|[_ Hx]]; [by apply ord_lt_irrefl in Hx|]. apply (proj1 (N_ord_le _ _)) in Hx.
    cbn [fst snd] in Hx. lia.
  - apply (Hl _ _ Es). by apply Hr.
Qed.
Lemma range_go_top d n : ∀ lo i sp, (i, sp) ∈ range_spks_go d n lo → i ≤ bip32_max.
Proof.
  induction n as [|n IH]; intros lo i sp Hin; cbn [range_spks_go] in Hin; [by apply elem_of_nil in Hin|].
  destruct (_ || _); [|by apply elem_of_nil in Hin]. case_bool_decide; [|by apply elem_of_nil in Hin].
  destruct (derive d lo); [|by apply elem_of_nil in Hin]. apply elem_of_cons in Hin as [[= -> ->]|Hin]; [done|by eapply IH].
Qed.
Lemma reveal_mono x k t x' l ad : reveal_to_target x k t = Ret (x', l, ad) → mono (ki_inner x) (ki_inner x').
Proof.
  intros E. unfold reveal_to_target in E. destruct (ki_keychains x !! k) as [d|] eqn:Hd; [|done].
  bind_in E ns E0. bind_in E nr E1. bind_in E lo E2. bind_in E hi E3. bind_in E s E4.
  assert (mono (ki_inner x) s) as Hs.
  { eapply store_mono; [exact E4| |].
    - eapply sublist_NoDup; [apply fmap_sublist, filter_sublist|apply range_go_nodup].
    - intros i Hin. apply elem_of_list_fmap in Hin as ([j sp] & -> & Hin). apply elem_of_list_filter in Hin as [Hj Hin]. cbn [fst] in *.
      eapply next_store_fresh; [exact E0|done|]. apply range_go_top in Hin. eapply N.le_lt_trans; [exact Hin|]. done. }
  destruct (foldl _ _ _) as [i|]; [|injection E as <- _ _; done].
  destruct (match ki_revealed x !! k with Some old => _ | None => _ end); [|done]. bind_in E i1 E5. injection E as <- _ _. done.
Qed.
Lemma reveal_next_mono x k x' is ad : reveal_next_spk x k = Ret (x', is, ad) → mono (ki_inner x) (ki_inner x').
Proof.
  intros E. unfold reveal_next_spk in E. bind_in E m E2. bind_in E r E3. destruct r as [[x1 l1] ad1].
  destruct (si_spk_at _ _); [|done]. injection E as <- _ _. by eapply reveal_mono.
Qed.
Lemma next_unused_mono x k x' is ad : next_unused_spk x k = Ret (x', is, ad) → mono (ki_inner x) (ki_inner x').
Proof.
  intros E. unfold next_unused_spk in E. bind_in E l E1. destruct l as [|is' l]; [|injection E as <- _ _; by intros ?].
  by eapply reveal_next_mono.
Qed.
Lemma mark_mono x k i : mono (ki_inner x) (ki_inner (ki_mark_used x k i).1).
Proof.
  intros ki sp Hs. split; [done|]. unfold si_is_used. cbn [ki_mark_used si_mark_used with_inner ki_inner fst si_unused].
  rewrite !bool_decide_eq_true. set_solver.
Qed.
Lemma fold_ret {X Y} (g : X → Y → outcome X) (R : X → X → Prop) : (∀ a, R a a) → (∀ a b c, R a b → R b c → R a c) →
  (∀ a z b, g a z = Ret b → R a b) → ∀ l a o b, foldl (λ o z, o ≫= λ a, g a z) o l = Ret b → o = Ret a → R a b.
Proof.
  intros Hr Ht Hg l. induction l as [|z l IH]; intros a o b E Ho; cbn [foldl] in E; [rewrite Ho in E; injection E as <-; apply Hr|].
  rewrite Ho in E. cbn [mbind outcome_bind] in E. destruct (g a z) as [a'|] eqn:Eg.
  - eapply Ht; [by eapply Hg|by eapply IH].
  - exfalso. clear -E. induction l; [done|by apply IHl].
Qed.
Lemma multi_mono x m x' r ad : reveal_to_target_multi x m = Ret (x', r, ad) → mono (ki_inner x) (ki_inner x').
Proof.
  intros E. unfold reveal_to_target_multi in E.
  refine (fold_ret (λ s kt, let '(x, spks, ad) := s in '(x', new, ad') ← reveal_to_target x kt.1 kt.2;
    if da_is_empty ad' then Ret (x', spks, ad) else Ret (x', <[kt.1 := new]> spks, da_append ad ad'))
    (λ a b, mono (ki_inner a.1.1) (ki_inner b.1.1)) _ _ _ _ _ _ _ E eq_refl).
  - intros a. apply mono_refl.
  - intros a b c. apply mono_trans.
  - intros [[a sp] ad0] kt b Eb. bind_in Eb q Eqq. destruct q as [[a' new] ad']. apply reveal_mono in Eqq.
    destruct (da_is_empty ad'); injection Eb as <-; exact Eqq.
Qed.
Lemma scan_txout_mono x o u x' ad : ki_scan_txout x o u = Ret (x', ad) → mono (ki_inner x) (ki_inner x').
Proof.
  intros E. unfold ki_scan_txout in E.
  assert (mono (ki_inner x) (si_scan_txout (ki_inner x) o u).1) as Hm.
  { unfold si_scan_txout. destruct (si_indices _ !! _); [|apply mono_refl]. intros ki sp Hs. split; [done|].
    unfold si_is_used. cbn [fst si_unused]. rewrite !bool_decide_eq_true. set_solver. }
  destruct (si_scan_txout _ _ _).2 as [ki|].
  - bind_in E q Eqq. destruct q as [[x1 l1] ad1]. injection E as <- _. apply reveal_mono in Eqq. by eapply mono_trans.
  - by injection E as <- _.
Qed.
Lemma scan_mono x l x' ad : ki_scan x l = Ret (x', ad) → mono (ki_inner x) (ki_inner x').
Proof.
  intros E. unfold ki_scan in E.
  refine (fold_ret (λ s ou, let '(x, ad) := s in '(x', ad') ← ki_scan_txout x ou.1 ou.2; Ret (x', da_append ad ad'))
    (λ a b, mono (ki_inner a.1) (ki_inner b.1)) _ _ _ _ _ _ _ E eq_refl).
  - intros a. apply mono_refl.
  - intros a b c. apply mono_trans.
  - intros [a ad0] ou b Eb. bind_in Eb q Eqq. destruct q as [a' ad']. apply scan_txout_mono in Eqq. by injection Eb as <-.
Qed.
Lemma apply_changeset_mono `{ChainPosition P} (x x' : Tracker K P) cs : tr_apply_changeset x cs = Ret x' →
  mono (ki_inner (tr_index x)) (ki_inner (tr_index x')).
Proof.
  intros E. unfold tr_apply_changeset in E. bind_in E i E1. bind_in E r E2. injection E as <-. cbn [tr_index].
  unfold ki_apply_additions in E1. bind_in E1 q Eqq. destruct q as [[i' sp] ad]. injection E1 as <-. apply multi_mono in Eqq.
  destruct r as [j ad2]. apply scan_mono in E2. by eapply mono_trans.
Qed.
End mono.

Section cli.
Context `{!DescEnv, !CliEnv, !PlanModel.KeyEnv} `{ChainPositionLaws P} {C : Codec (KChangeSet Keychain P)}.
Context (wf : KChangeSet Keychain P → Prop) (HC : codec_ok C wf) (Hdef : wf kcs_default).
Context (W : Txid → list OutPoint) (dbg : bool) (limit : nat) (ext : Desc) (int : option Desc) (km : PlanModel.KeyMap).
Notation A := (keychains ext int).
Notation s := (adds ext int).
Context (HA : good_env A).
Implicit Types (x y : Tracker Keychain P) (ch : Choices P) (w : World P).
Notation good := (good W ext int).
Notation ix x := (tr_index x).

Lemma prepare_mono ch w value addr algo w1 evs r : send_prepare dbg ch km w value addr algo = Ret (w1, evs, r) →
  mono (ki_inner (ix (w_tracker w))) (ki_inner (ix (w_tracker w1))).
Proof using Type.
  intros E. unfold send_prepare in E. bind_in E a E1. destruct a as [x rr].
  destruct (create_tx_shape dbg km ch _ value addr algo x rr E1) as (ix1 & i & sp & ad & En & -> & Hsh). apply next_unused_mono in En.
  destruct rr as [[t [[ad' ki]|]]|e]; [|by injection E as <- _ _..].
  destruct (db_append _ _) as [[w2 ev] r1] eqn:Ed. apply db_append_disk in Ed as (_ & Ed & _). cbn [with_tracker w_tracker] in Ed.
  destruct r1 as [u|e]; injection E as <- <- <-; [|by rewrite Ed].
  eapply mono_trans; [exact En|]. cbn [with_tracker w_tracker with_index tr_index]. rewrite Ed. apply mark_mono.
Qed.
Lemma insert_mono ho x t p x' cs : tr_insert_tx ho x t p = Ret (Ok (x', cs)) → mono (ki_inner (ix x)) (ki_inner (ix x')).
Proof using Type.
  intros E. unfold tr_insert_tx in E. destruct (tr_insert_tx_preview _ _ _ _) as [[cs'|e]|]; try done. bind_in E a E1. injection E as <- _.
  by eapply apply_changeset_mono.
Qed.
Lemma finish_use ch w t change ok w' evs r ki sp : good (w_tracker w) → send_finish ch w t change ok = Ret (w', evs, r) →
  si_spks (ki_inner (ix (w_tracker w))) !! ki = Some sp → si_is_used (ki_inner (ix (w_tracker w))) ki = true →
  si_is_used (ki_inner (ix (w_tracker w'))) ki = true ∨ EvBroadcast t (Some ki) false ∈ evs.
Proof using Type.
  intros Hx E Hs Hu. unfold send_finish in E. destruct ok.
  - left. bind_in E a E1. destruct a as [[x cs]|e].
    + destruct (db_append _ _) as [[w1 ev] r1] eqn:Ed. injection E as <- <- _. apply db_append_disk in Ed as (_ & Ed & _). rewrite Ed.
      cbn [with_tracker w_tracker]. apply insert_mono in E1. by apply (E1 ki sp).
    + destruct e as [[]|]; [done|by injection E as <- _ _..].
  - destruct change as [[k i]|]; [|injection E as <- _ _; by left]. bind_in E a E1. injection E as <- <- _.
    destruct (decide (ki = (k, i))) as [->|Hne]; [right; by left|left]. cbn [with_tracker w_tracker with_index tr_index].
    destruct (good_index W ext int _ Hx) as (hs & Hi). unfold ki_unmark_used, si_unmark_used in E1.
    destruct (si_spks (ki_inner (ix (w_tracker w))) !! (k, i)) as [sp'|] eqn:Es; [|by injection E1 as <-].
    destruct (unmark_use A hs _ k i sp' Hi Es) as (r' & Er & _ & _ & _ & Ho & _).
    unfold ki_unmark_used, si_unmark_used in Er. rewrite Es, E1 in Er. injection Er as ->. by rewrite Ho.
Qed.
Lemma hand_out_mono w (nu : bool) a w' evs r :
  (if nu then next_unused_spk else reveal_next_spk) (ix (w_tracker w)) External = Ret a → hand_out w a = Ret (w', evs, r) →
  mono (ki_inner (ix (w_tracker w))) (ki_inner (ix (w_tracker w'))).
Proof using Type.
  intros E Eh. destruct a as [[ix1 [i sp]] ad]. unfold hand_out in Eh. destruct (db_append _ _) as [[w1 ev] r1] eqn:Ed.
  apply db_append_disk in Ed as (_ & Ed & _).
  assert (w_tracker w' = with_index (w_tracker w) ix1) as ->.
  { cbn [fst snd] in Eh. destruct r1 as [[]|er]; [destruct (has_address sp)|]; injection Eh as <- _ _; by rewrite Ed. }
  cbn [with_index tr_index]. destruct nu; [by eapply next_unused_mono|by eapply reveal_next_mono].
Qed.
Lemma handle_use ch w c w' evs r ki sp : good (w_tracker w) → handle_command dbg ch km w c = Ret (w', evs, r) →
  si_spks (ki_inner (ix (w_tracker w))) !! ki = Some sp → si_is_used (ki_inner (ix (w_tracker w))) ki = true →
  si_is_used (ki_inner (ix (w_tracker w'))) ki = true ∨ ∃ t, EvBroadcast t (Some ki) false ∈ evs.
Proof using HA H5.
  intros Hx E Hs Hu. destruct c as [c| |c|value addr algo ok|sc ord|sc ord]; cbn [handle_command] in E.
  - left. destruct c; cbn [run_address_cmd] in E.
    + bind_in E a E1. by apply (hand_out_mono w true a w' evs r E1 E ki sp).
    + bind_in E a E1. by apply (hand_out_mono w false a w' evs r E1 E ki sp).
    + bind_in E a E1. by injection E as <- _ _.
    + by injection E as <- _ _.
  - left. bind_in E a E1. by injection E as <- _ _.
  - left. bind_in E a E1. by injection E as <- _ _.
  - bind_in E a E1. destruct a as [[w1 evs1] r1]. pose proof (prepare_steps W dbg ext int km ch w value addr algo w1 evs1 r1 Hx E1) as [Hst _].
    destruct (prepare_mono ch w value addr algo w1 evs1 r1 E1 ki sp Hs) as [Hs1 Hu1].
    destruct r1 as [[t change]|e]; [|left; injection E as <- _ _; by apply Hu1].
    bind_in E a E2. destruct a as [[w2 evs2] r2]. injection E as <- <- <-.
    destruct (finish_use ch w1 t change ok w2 evs2 r2 ki sp) as [Hf|Hf]; try done; [by apply (steps_good W ext int HA _ _ Hx Hst)|by apply Hu1|by left|].
    right. exists t. apply elem_of_app. by right.
  - left. unfold electrum_apply in E. bind_in E a E1. destruct a as [cs|e]; [|by injection E as <- _ _].
    destruct (db_append _ _) as [[w1 ev] r1] eqn:Ed. apply db_append_disk in Ed as (_ & Ed & _).
    destruct r1; [bind_in E a2 E2|]; injection E as <- _ _.
    + rewrite Ed in E2. cbn [with_tracker w_tracker]. apply apply_changeset_mono in E2. by apply (E2 ki sp).
    + by rewrite Ed.
  - left. unfold esplora_apply in E. bind_in E a E1. destruct a as [[x cs]|e]; [|by injection E as <- _ _].
    destruct (db_append _ _) as [[w1 ev] r1] eqn:Ed. apply db_append_disk in Ed as (_ & Ed & _). injection E as <- _ _. rewrite Ed.
    unfold tr_apply_update in E1. destruct (tr_determine_changeset _ _ _ _) as [[cs'|e]|] eqn:E2; [|done|done].
    cbn [mbind outcome_bind] in E1. bind_in E1 a3 E3. injection E1 as -> <-. cbn [with_tracker w_tracker].
    apply apply_changeset_mono in E3. by apply (E3 ki sp).
Qed.

(** In use, and revealed *)
Definition held x (ki : Keychain * N) : Prop := si_is_used (ki_inner (ix x)) ki = true ∧ ki.2 < n_revealed (ix x) ki.1 ∧ is_Some (si_spks (ki_inner (ix x)) !! ki).
Definition not_full x : Prop := ∀ k d, A k = Some d → n_revealed (ix x) k < cap d.
Lemma act_held ch a w pr w' pr' evs : action_ok A W s ch a → good (w_tracker w) → small pr → Forall (event_ok wf W) evs →
  act dbg km (w, pr) ch a = Ret (w', pr', evs) → not_full (w_tracker w') →
  (∀ ki, held (w_tracker w) ki → held (w_tracker w') ki ∨ ∃ t, EvBroadcast t (Some ki) false ∈ evs) ∧
  ∃ new, pr' = pr ++ new ∧ (length new ≤ 1)%nat ∧ ∀ t ki, (t, Some ki) ∈ new → held (w_tracker w') ki ∧ ¬ held (w_tracker w) ki.
Proof using HA H5.
  intros Hok Hy Hpr Hev E Hf. destruct (act_steps wf W dbg ext int km HA ch a w pr w' pr' evs Hok Hy Hpr Hev E) as [Hst _].
  destruct (steps_good W ext int HA _ _ Hy Hst) as [Hy' [Hk1 Hk2]].
  assert (∀ ki, held (w_tracker w) ki → si_is_used (ki_inner (ix (w_tracker w'))) ki = true → held (w_tracker w') ki) as Hh.
  { intros ki (_ & Hl & [sp Hs]) Hu. split; [done|]. split; [specialize (Hk1 ki.1); lia|]. exists sp. by apply Hk2. }
  destruct a as [c|value addr algo|n ok]; cbn [act fst snd] in E.
  - bind_in E a E1. destruct a as [[w1 evs1] r1]. injection E as <- <- <-. split.
    + intros ki Hki. destruct Hki as (Hu & Hl & [sp Hs]) eqn:Ehk. destruct (handle_use ch w c w1 evs1 r1 ki sp Hy E1 Hs Hu); [left; by apply Hh|by right].
    + exists []. rewrite app_nil_r. split; [done|]. split; [cbn; lia|]. by intros t ki ?%elem_of_nil.
  - bind_in E a E1. destruct a as [[w1 evs1] r1]. injection E as <- <- <-. split.
    + intros ki Hki. destruct Hki as (Hu & Hl & [sp Hs]) eqn:Ehk. left. apply Hh; [done|]. by apply (prepare_mono _ _ _ _ _ _ _ _ E1 ki sp Hs).
    + eexists. split; [done|]. split; [destruct r1; cbn; lia|]. intros t [k i] Hin. destruct r1 as [[t' change]|e]; [|by apply elem_of_nil in Hin].
      apply elem_of_list_singleton in Hin as [= <- <-].
      destruct (prepare_marks W dbg ext int km HA ch w value addr algo w1 evs1 t k i Hy E1) as [Hu Hl].
      assert (∃ d, A k = Some d) as [d Hd].
      { unfold send_prepare in E1. bind_in E1 a Ec. destruct a as [x rr].
        destruct (create_tx_shape dbg km ch _ value addr algo x rr Ec) as (ix1 & i1 & sp & ad & En & -> & Hsh).
        destruct rr as [[t' [[ad' ki]|]]|e]; [|done|done]. destruct Hsh as (_ & -> & _).
        destruct (db_append _ _) as [[w2 ev] [u|e]]; [|done]. injection E1 as _ _ _ <- _. apply known_adds. by eapply change_known. }
      split.
      * split; [done|]. split; [done|]. destruct (good_known W ext int _ k d Hy' Hd) as (hs & Hi & Hd').
        destruct (core_stored A hs _ k d (proj1 Hi) Hd') as (n & Hn & _ & Hle). apply Hn. cbn [fst snd] in *. lia.
      * intros (Hu0 & Hl0 & _). cbn [fst snd] in *. unfold send_prepare in E1. bind_in E1 a Ec. destruct a as [x rr].
        assert (n_revealed (ix (w_tracker w)) k < cap d) as Hc by (specialize (Hf k d Hd); specialize (Hk1 k); lia).
        destruct rr as [[t' a']|e]; [|done].
        pose proof (used_change W dbg ext int km HA ch _ value addr algo x t' a' k d i Hy Hd Hc Hu0 Hl0 Ec) as Hne.
        destruct a' as [[ad' ki]|]; [|done]. destruct (db_append _ _) as [[w2 ev] [u|e]]; [|done]. injection E1 as _ _ _ ->. done.
  - destruct (pr !! n) as [[t change]|] eqn:En.
    + bind_in E a E1. destruct a as [[w1 evs1] r1]. injection E as <- <- <-. split.
      * intros ki Hki. destruct Hki as (Hu & Hl & [sp Hs]) eqn:Ehk.
        destruct (finish_use ch w t change ok w1 evs1 r1 ki sp Hy E1 Hs Hu); [left; by apply Hh|right; eauto].
      * exists []. rewrite app_nil_r. split; [done|]. split; [cbn; lia|]. by intros t' ki ?%elem_of_nil.
    + injection E as <- <- <-. split; [by left|]. exists []. rewrite app_nil_r. split; [done|]. split; [cbn; lia|]. by intros t' ki ?%elem_of_nil.
Qed.
(** What is true of all prepared transactions *)
Definition flight x (pr : prepared) (evs : list (event P)) : Prop :=
  (∀ t ki, (t, Some ki) ∈ pr → held x ki ∨ ∃ t', EvBroadcast t' (Some ki) false ∈ evs) ∧
  (∀ n m t t' ki, n ≠ m → pr !! n = Some (t, Some ki) → pr !! m = Some (t', Some ki) → ∃ t'', EvBroadcast t'' (Some ki) false ∈ evs).
Lemma act_flight ch a w pr w' pr' evs0 evs : action_ok A W s ch a → good (w_tracker w) → small pr → Forall (event_ok wf W) evs →
  act dbg km (w, pr) ch a = Ret (w', pr', evs) → not_full (w_tracker w') →
  flight (w_tracker w) pr evs0 → flight (w_tracker w') pr' (evs0 ++ evs).
Proof using HA H5.
  intros Hok Hy Hpr Hev E Hf [F1 F2]. destruct (act_held ch a w pr w' pr' evs Hok Hy Hpr Hev E Hf) as (Hh & new & -> & Hlen & Hnew).
  assert (∀ t ki, (t, Some ki) ∈ pr → held (w_tracker w) ki ∨ ∃ t', EvBroadcast t' (Some ki) false ∈ evs0 ++ evs) as F1'.
  { intros t ki Hin. destruct (F1 t ki Hin) as [Hki|[t' Ht]]; [by left|]. right. exists t'. apply elem_of_app. by left. }
  split.
  - intros t ki [Hin|Hin]%elem_of_app; [|left; by apply (Hnew t ki)].
    destruct (F1' t ki Hin) as [Hki|Hr]; [|by right]. destruct (Hh ki Hki) as [Hl|[t' Ht]]; [by left|]. right. exists t'. apply elem_of_app. by right.
  - assert (∀ n m t t' ki, n < m → (pr ++ new) !! n = Some (t, Some ki) → (pr ++ new) !! m = Some (t', Some ki) →
      ∃ t'', EvBroadcast t'' (Some ki) false ∈ evs0 ++ evs)%nat as Hlt.
    { intros n m t t' ki Hnm Hn Hm. apply lookup_app_Some in Hm as [Hm|[Hm1 Hm]].
      - rewrite lookup_app_l in Hn by (apply lookup_lt_Some in Hm; lia). destruct (F2 n m t t' ki) as [t'' Ht]; try done; [lia|].
        exists t''. apply elem_of_app. by left.
      - apply lookup_lt_Some in Hm as Hml. apply elem_of_list_lookup_2 in Hm. destruct (Hnew _ _ Hm) as [_ Hnh].
        rewrite lookup_app_l in Hn by lia. apply elem_of_list_lookup_2 in Hn. by destruct (F1' _ _ Hn). }
    intros n m t t' ki Hne Hn Hm. destruct (Nat.lt_total n m) as [Hl|[->|Hl]]; [by eapply Hlt|done|by eapply (Hlt m n)].
Qed.
Lemma acts_flight l : ∀ w pr w' pr' evs0 evs, Forall (λ p, action_ok A W s p.1 p.2) l → good (w_tracker w) → small pr → Forall (event_ok wf W) evs →
  acts dbg km (w, pr) l = Ret (w', pr', evs) → not_full (w_tracker w') → flight (w_tracker w) pr evs0 → flight (w_tracker w') pr' (evs0 ++ evs).
Proof using HA H5.
  induction l as [|[ch a] l IH]; intros w pr w' pr' evs0 evs Hl Hy Hpr Hev E Hf Hfl; cbn [acts] in E.
  - injection E as <- <- <-. by rewrite app_nil_r.
  - apply Forall_cons in Hl as [Ha Hl]. bind_in E r E1. destruct r as [[w1 pr1] evs1]. bind_in E r E2. destruct r as [[w2 pr2] evs2].
    injection E as <- <- <-. apply Forall_app in Hev as [Hev1 Hev2]. cbn [fst snd] in Ha.
    destruct (act_steps wf W dbg ext int km HA ch a w pr w1 pr1 evs1 Ha Hy Hpr Hev1 E1) as [Hs Hpr1].
    destruct (steps_good W ext int HA _ _ Hy Hs) as [Hy1 _].
    destruct (acts_steps wf W dbg ext int km HA l w1 pr1 w2 pr2 evs2 Hl Hy1 Hpr1 Hev2 E2) as [Hs2 _].
    destruct (steps_good W ext int HA _ _ Hy1 Hs2) as [_ [Hk _]].
    assert (not_full (w_tracker w1)) as Hf1 by (intros k d Hd; specialize (Hf k d Hd); specialize (Hk k); lia).
    rewrite (assoc_L (++)). apply (IH w1 pr1 w2 pr2 (evs0 ++ evs1) evs2); try done. by apply (act_flight ch a w pr w1 pr1 evs0 evs1).
Qed.
Lemma session_flight w pr evs : in_session wf W dbg limit ext int km w pr evs → not_full (w_tracker w) → flight (w_tracker w) pr evs.
Proof using HC Hdef HA H5.
  intros (d & evs0 & create & faults & b & w0 & l & Hl & Hi & Hok & E & Hev) Hf.
  destruct (init_good wf HC Hdef W dbg limit ext int km HA d evs0 create faults b w0 Hl Hi) as [Hg _].
  apply (acts_flight l w0 [] w pr [] evs Hok Hg); try done; [constructor|]. split; [by intros t ki ?%elem_of_nil|done].
Qed.
Lemma flight_address w pr evs c w' evs' r n t k i sp : good (w_tracker w) → not_full (w_tracker w) → flight (w_tracker w) pr evs →
  pr !! n = Some (t, Some (k, i)) → (∀ t', EvBroadcast t' (Some (k, i)) false ∉ evs) →
  run_address_cmd w c = Ret (w', evs', r) → EvAddress k i sp ∉ evs'.
Proof using HA H5.
  intros Hx Hf [F1 _] Hn He E. apply elem_of_list_lookup_2 in Hn. destruct (F1 _ _ Hn) as [(Hu & Hl & [s' Hs])|[t' Ht]]; [|by destruct (He t')].
  destruct (good_index W ext int _ Hx) as (hs & Hi). cbn [fst snd] in Hl.
  assert (∃ d, A k = Some d) as [d Hd].
  { destruct (ki_keychains (ix (w_tracker w)) !! k) as [d|] eqn:Ek; [exists d; by apply (proj1 (proj1 Hi))|].
    exfalso. destruct (proj1 Hi) as (_ & _ & C3 & _). destruct (C3 _ _ _ Hs) as (d & Hd & _). congruence. }
  by apply (used_address W ext int HA w c w' evs' r k d i Hx Hd (Hf k d Hd) Hu Hl E).
Qed.
End cli.
