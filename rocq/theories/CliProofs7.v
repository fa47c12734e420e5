(** Proofs about the command line wallet: balances before and after a send. *)
From Verif Require Export CliProofs6 TrackerProofs5.
Local Open Scope N_scope.

Section balance.
Context `{!DescEnv, !CliEnv, !PlanModel.KeyEnv} `{ChainPositionLaws P} {C : Codec (KChangeSet Keychain P)}.
Implicit Types (x y : Tracker Keychain P) (ch : Choices P).

Definition confirmed_in (kf : Keychain * N * FullTxOut P) : bool := th_is_confirmed (pos_height (fto_pos kf.2)).
Lemma sumN_cons a l : sumN (a :: l) = a + sumN l.
Proof. done. Qed.
Lemma sumN_app l l' : sumN (l ++ l') = sumN l + sumN l'.
Proof. induction l as [|a l IH]; [done|]. unfold sumN in *. cbn [app foldr]. rewrite IH. lia. Qed.
Lemma filter_split {X} (Q R : X → Prop) `{!∀ a, Decision (Q a), !∀ a, Decision (R a)} (l : list X) :
  (∀ a, Q a ↔ ¬ R a) → l ≡ₚ filter Q l ++ filter R l.
Proof.
  intros Hqr. induction l as [|a l IH]; [done|]. rewrite !filter_cons. destruct (decide (Q a)) as [Hq|Hq], (decide (R a)) as [Hr|Hr].
  - by apply Hqr in Hq.
  - cbn [app]. by f_equiv.
  - rewrite <-Permutation_middle. by f_equiv.
  - destruct Hq. by apply Hqr.
Qed.
Lemma nodup_inj {X Y} (g : X → Y) (l : list X) a b : NoDup (g <$> l) → a ∈ l → b ∈ l → g a = g b → a = b.
Proof.
  intros Hn [i Hi]%elem_of_list_lookup [j Hj]%elem_of_list_lookup E. assert (i = j) as ->; [|congruence].
  eapply NoDup_lookup; [exact Hn| |]; rewrite list_lookup_fmap; [by rewrite Hi|by rewrite Hj, E].
Qed.
Lemma balance_fold (l : list (Keychain * N * FullTxOut P)) : ∀ c u, c + u + sumN (value_of <$> l) ≤ u64_max →
  foldl (λ r kf,
    '(c, u) ← r;
    let v := txo_value (fto_txout kf.2) in
    match pos_height (fto_pos kf.2) with
    | Confirmed _ => c ← add_u64 c v; Ret (c, u)
    | Unconfirmed => u ← add_u64 u v; Ret (c, u)
    end) (Ret (c, u)) l =
  Ret (c + sumN (value_of <$> filter (λ kf, confirmed_in kf = true) l), u + sumN (value_of <$> filter (λ kf, confirmed_in kf = false) l)).
Proof.
  induction l as [|kf l IH]; intros c u Hle.
  - cbn. by rewrite !N.add_0_r.
  - rewrite fmap_cons, sumN_cons in Hle.
    cbn [foldl mbind outcome_bind]. rewrite !filter_cons.
    assert (confirmed_in kf = th_is_confirmed (pos_height (fto_pos kf.2))) as Hc by done.
    change (txo_value (fto_txout kf.2)) with (value_of kf). cbv zeta.
    destruct (pos_height (fto_pos kf.2)) as [h|] eqn:Eh; cbn [th_is_confirmed] in Hc.
    + rewrite decide_True, decide_False by congruence. rewrite add_u64_ok by lia. cbn [mbind outcome_bind]. rewrite IH by lia.
      rewrite fmap_cons, sumN_cons. by rewrite N.add_assoc.
    + rewrite decide_False, decide_True by congruence. rewrite add_u64_ok by lia. cbn [mbind outcome_bind]. rewrite IH by lia.
      rewrite fmap_cons, sumN_cons. by rewrite N.add_assoc.
Qed.
Lemma balance_cmd_ok ch x l : cg_ok (tr_cg x) → hash_fun_ok (ch_hash ch) → NoDup l →
  (∀ ki f, (ki, f) ∈ l ↔ owned x ki f ∧ fto_spent_by f = None) → sumN (value_of <$> l) ≤ u64_max →
  run_balance_cmd ch x = Ret (sumN (value_of <$> filter (λ kf, confirmed_in kf = true) l),
                              sumN (value_of <$> filter (λ kf, confirmed_in kf = false) l)).
Proof.
  intros Hok Hho Hn Hl Hs. pose proof (owned_unspent_perm (ch_hash ch (cg_graph (tr_cg x))) x l Hok (Hho _) Hn Hl) as Hp.
  unfold run_balance_cmd. rewrite balance_fold.
  - rewrite !N.add_0_l. by rewrite (sumN_perm _ _ (fmap_Permutation value_of _ _ (filter_Permutation (λ kf, confirmed_in kf = true) _ _ Hp))),
      (sumN_perm _ _ (fmap_Permutation value_of _ _ (filter_Permutation (λ kf, confirmed_in kf = false) _ _ Hp))).
  - rewrite (sumN_perm _ _ (fmap_Permutation value_of _ _ Hp)). lia.
Qed.
Lemma balance_total (l : list (Keychain * N * FullTxOut P)) :
  sumN (value_of <$> filter (λ kf, confirmed_in kf = true) l) + sumN (value_of <$> filter (λ kf, confirmed_in kf = false) l) = sumN (value_of <$> l).
Proof.
  rewrite <-sumN_app, <-fmap_app. apply sumN_perm, fmap_Permutation. symmetry. apply filter_split.
  intros kf. by destruct (confirmed_in kf).
Qed.
End balance.

Section send.
Context `{!DescEnv, !CliEnv, !PlanModel.KeyEnv} `{ChainPositionLaws P} {C : Codec (KChangeSet Keychain P)}.
Context (wf : KChangeSet Keychain P → Prop).
Context (W : Txid → list OutPoint) (dbg : bool) (ext : Desc) (int : option Desc) (km : PlanModel.KeyMap).
Notation A := (keychains ext int).
Notation s := (adds ext int).
Context (HA : good_env A).
Implicit Types (x y : Tracker Keychain P) (ch : Choices P) (w : World P).
Notation good := (good W ext int).

Lemma owned_same x y ki f : tr_cg y = tr_cg x → same_outs (tr_index x) (tr_index y) → owned y ki f ↔ owned x ki f.
Proof. intros Ec [So _]. unfold owned, si_txout. by rewrite Ec, So. Qed.
Lemma next_outs x k ix i sp ad : good x → known s k → next_unused_spk (tr_index x) k = Ret (ix, (i, sp), ad) → same_outs (tr_index x) ix.
Proof.
  intros Hx Hk E. destruct Hx as [((hs & Hi) & _ & _ & Hkn & _) _].
  destruct (step_grows A s hs (tr_index x) (KiNextUnused k) HA Hi Hkn) as (x' & o & ad' & hs' & E' & _ & So); [done|done|].
  cbn [ki_step] in E'. rewrite E in E'. cbn in E'. injection E' as <- _ _. by apply So.
Qed.

(** The state in which a prepared transaction is broadcast. *)
Lemma prepare_state ch w value addr algo w1 evs t change :
  good (w_tracker w) → send_prepare dbg ch km w value addr algo = Ret (w1, evs, Ok (t, change)) →
  tr_cg (w_tracker w1) = tr_cg (w_tracker w) ∧ same_outs (tr_index (w_tracker w)) (tr_index (w_tracker w1)) ∧
  ∃ x' a, create_tx dbg ch km (w_tracker w) value addr algo = Ret (x', Ok (t, a)) ∧
    change = snd <$> a ∧ kept (tr_index x') (tr_index (w_tracker w1)).
Proof using HA.
  intros Hx E. unfold send_prepare in E. bind_in E a E1. destruct a as [x rr].
  destruct (create_tx_shape dbg km ch _ value addr algo x rr E1) as (ix & i & sp & ad & En & -> & Hsh).
  pose proof (next_outs _ _ _ _ _ _ Hx (change_known W ext int _ Hx) En) as So.
  destruct rr as [[t' [[ad' ki]|]]|e]; [| |done].
  - destruct (db_append _ _) as [[w2 ev] r1] eqn:Ed. apply db_append_disk in Ed as (_ & Ed & _). cbn [with_tracker w_tracker] in Ed.
    destruct r1 as [u|e]; [|done]. injection E as <- <- <- <-. cbn [with_tracker w_tracker with_index tr_cg tr_index]. rewrite Ed.
    cbn [with_index tr_cg tr_index]. split; [done|]. split; [exact So|]. eexists _, _. split; [exact E1|]. split; [done|].
    split; [done|]. intros ki' s' Hs'. exact Hs'.
  - injection E as <- <- <- <-. cbn [with_tracker w_tracker with_index tr_cg tr_index]. split; [done|]. split; [exact So|].
    eexists _, _. split; [exact E1|]. split; [done|]. apply kept_refl.
Qed.

Lemma broadcasts_app (evs evs' : list (event P)) : broadcasts (evs ++ evs') = broadcasts evs ++ broadcasts evs'.
Proof. apply omap_app. Qed.
Lemma db_append_silent w cs w' ev r : db_append w cs = (w', ev, r) → broadcasts [ev] = [].
Proof. unfold db_append. intros E. repeat case_match; simplify_eq; done. Qed.
Lemma prepare_silent ch w value addr algo w1 evs r : send_prepare dbg ch km w value addr algo = Ret (w1, evs, r) → broadcasts evs = [].
Proof.
  intros E. unfold send_prepare in E. bind_in E a E1. destruct a as [x rr]. destruct rr as [[t' [[ad' ki]|]]|e]; [|by injection E as _ <- _..].
  destruct (db_append _ _) as [[w2 ev] r1] eqn:Ed. apply db_append_silent in Ed. destruct r1; by injection E as _ <- _.
Qed.
Lemma send_effect ch w value addr algo w' evs :
  good (w_tracker w) → choices_ok ch → modest_wallet ext int ch (w_tracker w) value addr → below_max (cg_chain (tr_cg (w_tracker w))) →
  foreign ext int addr →
  handle_command dbg ch km w (CmdSend value addr algo true) = Ret (w', evs, Ok tt) → Forall (event_ok wf W) evs →
  ∃ t change fee sel, broadcasts evs = [t] ∧ EvBroadcast t change true ∈ evs ∧ spends (w_tracker w) t sel ∧
    sumN (value_of <$> sel) = sumN (txo_value <$> ct_out t) + fee ∧ cg_ok (tr_cg (w_tracker w')) ∧
    match change with None => ct_out t = [mkTxOut value addr] | Some _ => ∃ u, ct_out t = [mkTxOut value addr; u] end ∧
    (new_to (w_tracker w) (ctx_tx t) → null_outpoint ∉ (ci_prev <$> ct_in t) → has_sent (w_tracker w') t ∧ ∀ ki f,
      owned (w_tracker w') ki f ∧ fto_spent_by f = None ↔
      owned (w_tracker w) ki f ∧ fto_spent_by f = None ∧ fto_outpoint f ∉ (ci_prev <$> ct_in t) ∨
      change = Some ki ∧ ∃ u, ct_out t !! 1%nat = Some u ∧
        f = mkFullTxOut (mkOutPoint (ctx_txid t) 1) u pos_unconfirmed None (is_coin_base (ctx_tx t))).
Proof using All.
  intros Hx Hch Hm Hbm Hfor E Hev. cbn [handle_command] in E. bind_in E a E1. destruct a as [[w1 evs1] r1].
  destruct r1 as [[t change]|e]; [|done]. bind_in E a E2. destruct a as [[w2 evs2] r2]. injection E as <- <- ->.
  destruct (prepare_steps W dbg ext int km ch w value addr algo w1 evs1 _ Hx E1) as [Hst Hlen].
  specialize (Hlen t change eq_refl).
  destruct (prepare_state ch w value addr algo w1 evs1 t change Hx E1) as (Ecg & So & x' & a & Ec & -> & Hk).
  destruct (steps_good W ext int HA _ _ Hx Hst) as [Hx1 _].
  destruct (create_tx_ok W dbg ext int km HA ch _ value addr algo x' t a Hx Hch Hm Ec) as ((fee & sel & Hsp & Hsum) & _ & _ & _ & Hout).
  destruct Hch as (Hho & _). unfold send_finish in E2. bind_in E2 b E3. destruct b as [[x2 cs]|e]; [|by destruct e as [[]|]].
  destruct (db_append _ _) as [[w3 ev3] r3] eqn:Ed. injection E2 as <- <- ->. pose proof (db_append_silent _ _ _ _ _ Ed) as Hsil. apply db_append_disk in Ed as (_ & Ed & _).
  cbn [with_tracker w_tracker] in Ed. rewrite Ed. clear Ed w3.
  apply Forall_app in Hev as [_ Hev]. apply Forall_cons in Hev as [[Hid Hin] _].
  assert (tx_ok (ctx_tx t)) as Htx.
  { split; [done|]. cbn [ctx_tx tx_out]. assert (2 ≤ u32_max) by done. lia. }
  assert (steps W ext int (w_tracker w1) x2) as Hst2.
  { eapply (steps_one _ _ _ _ (TrTx (ch_hash ch) (ctx_tx t) pos_unconfirmed)).
      * split; [done|]. split; [done|]. split; [by apply pos_max_ok|exact Hin].
      * split; by intros [l [=]].
      * cbn [tr_step]. by rewrite E3. }
  destruct (steps_good W ext int HA _ _ Hx1 Hst2) as [Hx2 _].
  exists t, (snd <$> a), fee, sel. split.
  { rewrite broadcasts_app, (prepare_silent _ _ _ _ _ _ _ _ E1). change ([EvBroadcast t (snd <$> a) true; ev3]) with ([EvBroadcast t (snd <$> a) true] ++ [ev3]).
    by rewrite broadcasts_app, Hsil. }
  split; [apply elem_of_app; right; by left|]. split; [done|]. split; [done|].
  split; [by apply (good_ok W ext int)|]. split.
  { destruct a as [[ad [k i]]|]; [|done]. destruct Hout as (_ & d & v & sp & _ & _ & _ & _ & ->). by eexists. }
  intros Hnew Hnull.
  pose proof (good_ok W ext int _ Hx) as Hok. destruct Hx1 as [((hs & Hi) & _ & _ & Hkn & _) _].
  destruct Hsp as (Hsi & Hnd & Hsel).
  assert (∀ o, o ∈ ci_prev <$> ct_in t → ∃ ki f, o = fto_outpoint f ∧ owned (w_tracker w) ki f ∧ fto_spent_by f = None) as Hprev.
  { intros o Ho. rewrite Hsi in Ho. apply elem_of_list_fmap in Ho as ([ki f] & -> & Hf). exists ki, f. split; [done|]. by apply Hsel. }
  destruct (insert_owned A hs (ch_hash ch (cg_graph (tr_cg (w_tracker w1)))) (w_tracker w1) (ctx_tx t) pos_unconfirmed x2 cs HA Hi)
    as ([Hpos' Hget'] & Hiff & Htrk & Hpaid); try (rewrite Ecg; done); try done.
  { destruct Hnew as (N1 & N2 & N3). unfold new_to, si_txout. rewrite Ecg, (proj1 So). done. }
  { intros s0 t' o Hs Hg Ho Ho'. rewrite Ecg in Hs, Hg. destruct (Hprev o Ho) as (ki & f & -> & [_ (t0 & _ & _ & _ & _ & Hno)] & Hn).
    rewrite Hn in Hno. by eapply Hno. }
  { intros o Ho He. destruct (Hprev o Ho) as (ki & f & -> & [_ (t0 & Hg & _)] & Hn). destruct Hnew as [Hnew _]. congruence. }
  split; [by split; [eexists|]|]. intros ki f. rewrite Hiff, (owned_same (w_tracker w) (w_tracker w1) ki f Ecg So). cbn [ctx_tx tx_in tx_out txid] in *.
  split.
  - intros [(Ho & Hs & Hn)|(Ho & [u Hu] & Hl & Hp & Hc & Hs)].
    + left. split; [done|]. split; [done|]. intros Hin'. apply Hn in Hin' as Hz. rewrite Hz in Hin'. done.
    + right. destruct (Hpaid _ _ _ Ho Hu) as [Hl' (d & Hd & Hcap & Hder)]. rewrite Hl in Hl'. injection Hl' as <-.
      assert (A ki.1 = Some d) as HdA by (by apply (proj1 (proj1 Hi))).
      assert (N.to_nat (op_vout (fto_outpoint f)) ≠ 0%nat) as Hn0.
      { intros Hz. rewrite Hz in Hl. assert (fto_txout f = mkTxOut value addr) as Hft; [|by rewrite Hft in Hder; eapply Hfor].
        destruct a as [[ad [k i]]|]; [destruct Hout as (_ & d' & v & sp & _ & _ & _ & _ & Hout)|]; rewrite Hout in Hl; by injection Hl as <-. }
      destruct a as [[ad [k i]]|].
      * destruct Hout as (_ & d' & v & sp & HdA' & Hder' & Hrev & _ & Hout). rewrite Hout in Hl.
        assert (op_vout (fto_outpoint f) = 1) as Hv.
        { apply lookup_lt_Some in Hl. cbn in Hl. lia. }
        rewrite Hv in Hl. cbn in Hl. injection Hl as Hl.
        assert (ki = (k, i)) as ->.
        { assert (paid (tr_index (w_tracker w1)) k i (mkTxOut v sp)) as Hp2.
          { apply (tracked_is_paid A hs); [done|]. cbn [txo_spk]. destruct Hrev as (_ & Hat & _). apply Hk in Hat. unfold si_index_of_spk, si_spk_at in *.
            by apply (si_good_inverse hs _ (k, i) sp (proj1 (proj2 (proj1 Hi)))). }
          rewrite Hl in Hp2. destruct ki as [k2 i2].
          destruct (paid_fun A (tr_index (w_tracker w1)) k2 i2 k i (fto_txout f) HA (proj1 (proj1 Hi))) as [-> ->]; [by exists d|done|done]. }
        split; [done|]. exists (mkTxOut v sp). split; [by rewrite Hout|]. destruct f as [[fo fv] fu fp fs fc]. cbn in *. by subst.
      * rewrite Hout in Hl. apply lookup_lt_Some in Hl. cbn in Hl. lia.
  - intros [(Ho & Hs & Hn)|(Ha & u & Hu & ->)].
    + left. split; [done|]. split; [done|]. by intros.
    + right. cbn [fto_outpoint op_txid op_vout fto_txout fto_pos fto_on_coinbase fto_spent_by]. split; [done|]. split; [|done].
      destruct a as [[ad ki']|]; [|done]. cbn in Ha. injection Ha as ->. destruct ki as [k i].
      destruct Hout as (_ & d' & v & sp & HdA' & Hder' & Hrev & _ & Hout). rewrite Hout in Hu. cbn in Hu. injection Hu as <-.
      exists (mkTxOut v sp). apply Htrk; [done|by rewrite Hout|]. cbn [txo_spk].
      destruct Hrev as (_ & Hat & _). apply Hk in Hat. unfold si_index_of_spk, si_spk_at in *.
      by apply (si_good_inverse hs _ (k, i) sp (proj1 (proj2 (proj1 Hi)))).
Qed.

Definition change_list (t : Ctx) (change : option (Keychain * N)) : list (Keychain * N * FullTxOut P) :=
  match change, ct_out t !! 1%nat with
  | Some ki, Some u => [(ki, mkFullTxOut (mkOutPoint (ctx_txid t) 1) u pos_unconfirmed None (is_coin_base (ctx_tx t)))]
  | _, _ => []
  end.
Lemma send_balance ch w value addr algo w' evs :
  good (w_tracker w) → choices_ok ch → modest_wallet ext int ch (w_tracker w) value addr → below_max (cg_chain (tr_cg (w_tracker w))) →
  foreign ext int addr →
  handle_command dbg ch km w (CmdSend value addr algo true) = Ret (w', evs, Ok tt) → Forall (event_ok wf W) evs →
  ∃ t change fee, broadcasts evs = [t] ∧ EvBroadcast t change true ∈ evs ∧ pays_fee (w_tracker w) t fee ∧
    (new_to (w_tracker w) (ctx_tx t) → null_outpoint ∉ (ci_prev <$> ct_in t) → has_sent (w_tracker w') t ∧
     (∀ ki f, unspent (w_tracker w') ki f ↔
        unspent (w_tracker w) ki f ∧ fto_outpoint f ∉ (ci_prev <$> ct_in t) ∨
        change = Some ki ∧ ∃ u, ct_out t !! 1%nat = Some u ∧ f = change_output t u) ∧
     ∀ ch', hash_fun_ok (ch_hash ch') → ∃ c u c' u', run_balance_cmd ch' (w_tracker w) = Ret (c, u) ∧
       run_balance_cmd ch' (w_tracker w') = Ret (c', u') ∧ c' + u' + value + fee = c + u ∧ c' ≤ c).
Proof using All.
  intros Hx Hch Hm Hbm Hfor E Hev.
  destruct (send_effect ch w value addr algo w' evs Hx Hch Hm Hbm Hfor E Hev) as (t & change & fee & sel & Hbr & Hin & Hsp & Hsum & Hok' & Hout & Hiff).
  exists t, change, fee. split; [done|]. split; [done|]. split; [by exists sel|]. intros Hnew Hnull. destruct (Hiff Hnew Hnull) as [Hsent Hiff']. clear Hiff. rename Hiff' into Hiff. split; [done|].
  split; [intros ki f; unfold unspent, change_output; rewrite (Hiff ki f); clear; tauto|].
  intros ch' Hho'. pose proof (good_ok W ext int _ Hx) as Hok. set (x := w_tracker w) in *.
  set (l := full_utxos (ch_hash ch (cg_graph (tr_cg x))) x). set (ins := ci_prev <$> ct_in t) in *.
  assert (∀ ki f, (ki, f) ∈ l ↔ owned x ki f ∧ fto_spent_by f = None) as Hl.
  { intros ki f. unfold l, full_utxos. rewrite elem_of_list_filter, full_txouts_owned; [|done|apply Hch]. cbn [snd]. tauto. }
  assert (NoDup ((λ kf, fto_outpoint kf.2) <$> l)) as Hndo.
  { eapply sublist_NoDup; [apply fmap_sublist, filter_sublist|]. apply (full_txouts_nodup (ch_hash ch (cg_graph (tr_cg x))) x). }
  assert (NoDup l) as Hnd by (eapply NoDup_fmap_1, Hndo).
  pose proof (proj1 (proj2 (proj2 Hm))) as Hle. fold l in Hle.
  set (rest := filter (λ kf, fto_outpoint kf.2 ∉ ins) l). set (gone := filter (λ kf, fto_outpoint kf.2 ∈ ins) l).
  assert (l ≡ₚ gone ++ rest) as Hsplit.
  { apply filter_split. intros kf. split; [intros ? []; done|]. intros Hn. destruct (decide (fto_outpoint kf.2 ∈ ins)); [done|]. by destruct Hn. }
  assert (gone ≡ₚ sel) as Hgone.
  { destruct Hsp as (Hsi & Hnds & Hsel). apply NoDup_Permutation.
    - by apply NoDup_filter.
    - rewrite Hsi in Hnds. eapply NoDup_fmap_1, Hnds.
    - intros [ki f]. unfold gone. rewrite elem_of_list_filter, Hl. cbn [snd]. split.
      + intros (Hi & Ho & Hs). unfold ins in Hi. rewrite Hsi in Hi. apply elem_of_list_fmap in Hi as ([ki' f'] & Ef & Hf').
        assert ((ki', f') = (ki, f)) as Heq; [|by rewrite <-Heq].
        eapply (nodup_inj (λ kf : Keychain * N * FullTxOut P, fto_outpoint kf.2) l); [done|by apply Hl, Hsel|by apply Hl|done].
      + intros Hf. destruct (Hsel ki f Hf) as [Ho Hs]. split; [|done]. unfold ins. rewrite Hsi. by apply (elem_of_list_fmap_1 (λ kf, fto_outpoint kf.2) sel (ki, f)). }
  set (l' := rest ++ change_list t change).
  assert (∀ ki f, (ki, f) ∈ change_list t change ↔ change = Some ki ∧ ∃ u, ct_out t !! 1%nat = Some u ∧
          f = mkFullTxOut (mkOutPoint (ctx_txid t) 1) u pos_unconfirmed None (is_coin_base (ctx_tx t))) as Hcl.
  { intros ki f. unfold change_list. destruct change as [ki'|]; [|rewrite elem_of_nil; split; [done|by intros [? _]]].
    destruct (ct_out t !! 1%nat) as [u|]; [|rewrite elem_of_nil; split; [done|by intros (_ & u & ? & _)]].
    rewrite elem_of_list_singleton. split; [intros [= -> ->]; split; [done|by exists u]|]. intros ([= ->] & u' & [= <-] & ->). done. }
  assert (∀ ki f, (ki, f) ∈ l' ↔ owned (w_tracker w') ki f ∧ fto_spent_by f = None) as Hl'.
  { intros ki f. rewrite Hiff. unfold l', rest. rewrite elem_of_app, elem_of_list_filter, Hl, Hcl. cbn [snd]. tauto. }
  assert (NoDup l') as Hnd'.
  { apply NoDup_app. split; [by apply NoDup_filter|]. split.
    - intros [ki f] Hf Hf'. apply Hcl in Hf' as (_ & u & _ & ->). unfold rest in Hf. apply elem_of_list_filter in Hf as [_ Hf].
      apply Hl in Hf as [[[u' Hu] _] _]. cbn [fto_outpoint] in Hu. destruct Hnew as (_ & Hnew & _). cbn [ctx_tx txid] in Hnew. by rewrite Hnew in Hu.
    - unfold change_list. destruct change; [|constructor]. destruct (ct_out t !! 1%nat); [apply NoDup_singleton|constructor]. }
  assert (sumN (value_of <$> l) = sumN (value_of <$> sel) + sumN (value_of <$> rest)) as Hs1.
  { rewrite (sumN_perm _ _ (fmap_Permutation value_of _ _ Hsplit)), fmap_app, sumN_app. f_equal. by apply sumN_perm, fmap_Permutation. }
  assert (sumN (value_of <$> l') + value = sumN (value_of <$> rest) + sumN (txo_value <$> ct_out t)) as Hs2.
  { assert (sumN (value_of <$> change_list t change) + value = sumN (txo_value <$> ct_out t)); [|unfold l'; rewrite fmap_app, sumN_app; lia].
    unfold change_list. destruct change as [ki|]; [destruct Hout as [u Hout]|]; rewrite Hout; cbn [lookup list_lookup]; rewrite ?fmap_cons, ?fmap_nil, ?sumN_cons; unfold value_of; cbn [snd fto_txout txo_value]; unfold sumN; cbn [foldr]; lia. }
  assert (sumN (value_of <$> l) ≤ u64_max) as Hb.
  { etrans; [exact Hle|]. by vm_compute. }
  do 4 eexists. split; [by apply (balance_cmd_ok ch' x l)|]. split; [apply (balance_cmd_ok ch' (w_tracker w') l'); try done; lia|].
  rewrite !balance_total. split; [lia|].
  unfold l'. rewrite filter_app, fmap_app, sumN_app.
  assert (filter (λ kf, confirmed_in kf = true) (change_list t change) = []) as ->.
  { unfold change_list. destruct change; [|done]. destruct (ct_out t !! 1%nat); [|done]. rewrite filter_cons, decide_False; [done|].
    unfold confirmed_in. cbn [snd fto_pos]. unfold pos_unconfirmed. by rewrite pos_max_height. }
  cbn [fmap list_fmap]. rewrite N.add_0_r.
  rewrite (sumN_perm _ _ (fmap_Permutation value_of _ _ (filter_Permutation (λ kf, confirmed_in kf = true) _ _ Hsplit))).
  rewrite filter_app, fmap_app, sumN_app. fold rest. lia.
Qed.
End send.
