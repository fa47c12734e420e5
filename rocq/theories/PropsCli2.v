(** C83-C89: sending, balances, change in flight and requests of the command line wallet. *)
From Verif Require Import CliExamples2 ReportProofs.
Local Open Scope N_scope.
Local Existing Instance kcs_codec.

Section cli.
Context `{!DescEnv, !CliEnv, !PlanModel.KeyEnv} `{ChainPositionLaws P}.
Context `{!LeafCodecs Keychain P, !LeafWf Keychain P, !LeafOk Keychain P}.
Context (W : Txid → list OutPoint) (dbg : bool) (limit : nat) (ext : Desc) (int : option Desc) (km : PlanModel.KeyMap).
Notation in_session := (in_session kcs_wf W dbg limit ext int km).
Implicit Types (evs : list (event P)) (w : World P).

(** C83: when a send to someone else succeeds, one transaction was broadcast; if the wallet did not know it, the wallet now
    has it in its chain, its unspent outputs are those before without the ones the transaction spends and with its change,
    and the balance went down by exactly the amount sent and the fee. *)
Theorem C83_send_balance w pr evs0 ch value addr algo w' evs : good_env (keychains ext int) →
  in_session w pr evs0 → choices_ok ch → modest_wallet ext int ch (w_tracker w) value addr →
  below_max (cg_chain (tr_cg (w_tracker w))) → foreign ext int addr →
  handle_command dbg ch km w (CmdSend value addr algo true) = Ret (w', evs, Ok tt) → Forall (event_ok kcs_wf W) evs →
  ∃ t change fee, broadcasts evs = [t] ∧ EvBroadcast t change true ∈ evs ∧ pays_fee (w_tracker w) t fee ∧
    (new_to (w_tracker w) (ctx_tx t) → null_outpoint ∉ (ci_prev <$> ct_in t) →
     has_sent (w_tracker w') t ∧
     (∀ ki f, unspent (w_tracker w') ki f ↔
        unspent (w_tracker w) ki f ∧ fto_outpoint f ∉ (ci_prev <$> ct_in t) ∨
        change = Some ki ∧ ∃ u, ct_out t !! 1%nat = Some u ∧ f = change_output t u) ∧
     ∀ ch', hash_fun_ok (ch_hash ch') → ∃ c u c' u',
       run_balance_cmd ch' (w_tracker w) = Ret (c, u) ∧ run_balance_cmd ch' (w_tracker w') = Ret (c', u') ∧
       c' + u' + value + fee = c + u ∧ c' ≤ c).
Proof.
  intros HA Hs Hch Hm Hb Hf E Hev.
  destruct (session_good kcs_wf kcs_codec_ok kcs_range_default W dbg limit ext int km HA w pr evs0 Hs) as [Hg _].
  exact (send_balance kcs_wf W dbg ext int km HA ch w value addr algo w' evs Hg Hch Hm Hb Hf E Hev).
Qed.

(** C84: the balance command adds up the values of the unspent outputs of the wallet, those in a block and those not; it
    panics exactly when one of the sums does not fit. *)
Theorem C84_balance_exact w pr evs ch l : good_env (keychains ext int) → in_session w pr evs → hash_fun_ok (ch_hash ch) →
  NoDup l → (∀ ki f, (ki, f) ∈ l ↔ unspent (w_tracker w) ki f) →
  let c := sumN (value_of <$> filter (λ kf, th_is_confirmed (pos_height (fto_pos kf.2)) = true) l) in
  let u := sumN (value_of <$> filter (λ kf, th_is_confirmed (pos_height (fto_pos kf.2)) = false) l) in
  run_balance_cmd ch (w_tracker w) = if bool_decide (c ≤ u64_max ∧ u ≤ u64_max) then Ret (c, u) else Panic.
Proof.
  intros HA Hs. destruct (session_good kcs_wf kcs_codec_ok kcs_range_default W dbg limit ext int km HA w pr evs Hs) as [Hg _].
  exact (balance_exact ch (w_tracker w) l (good_ok W ext int _ Hg)).
Qed.

(** C85: a transaction made in any state of any session spends no output which a transaction in the wallet's chain spends. *)
Theorem C85_no_double_spend_partial w pr evs ch value addr algo x' t a t1 o : good_env (keychains ext int) → in_session w pr evs →
  choices_ok ch → modest_wallet ext int ch (w_tracker w) value addr →
  create_tx dbg ch km (w_tracker w) value addr algo = Ret (x', Ok (t, a)) → has_sent (w_tracker w) t1 →
  o ∈ ci_prev <$> ct_in t → o ∈ ci_prev <$> ct_in t1 → o = null_outpoint.
Proof.
  intros HA Hs. destruct (session_good kcs_wf kcs_codec_ok kcs_range_default W dbg limit ext int km HA w pr evs Hs) as [Hg _].
  exact (chain_spends W dbg ext int km HA ch (w_tracker w) value addr algo x' t a t1 o Hg).
Qed.

(** C86: two transactions prepared in one session have different change scripts, unless a broadcast with that change script
    failed; as long as the descriptors have scripts which are not revealed. *)
Theorem C86_change_distinct w pr evs n m t t' k i : good_env (keychains ext int) → in_session w pr evs →
  (∀ k d, keychains ext int k = Some d → n_revealed (tr_index (w_tracker w)) k < cap d) →
  n ≠ m → pr !! n = Some (t, Some (k, i)) → pr !! m = Some (t', Some (k, i)) → ∃ t'', EvBroadcast t'' (Some (k, i)) false ∈ evs.
Proof.
  intros HA Hs Hf. exact (proj2 (session_flight kcs_wf kcs_codec_ok kcs_range_default W dbg limit ext int km HA w pr evs Hs Hf) n m t t' (k, i)).
Qed.
(** Nor is the change script of a prepared transaction given to anyone afterwards. *)
Theorem C86_change_not_given w pr evs c w' evs' r n t k i s : good_env (keychains ext int) → in_session w pr evs →
  (∀ k d, keychains ext int k = Some d → n_revealed (tr_index (w_tracker w)) k < cap d) →
  pr !! n = Some (t, Some (k, i)) → (∀ t', EvBroadcast t' (Some (k, i)) false ∉ evs) →
  run_address_cmd w c = Ret (w', evs', r) → EvAddress k i s ∉ evs'.
Proof.
  intros HA Hs Hf Hn He Ha. destruct (session_good kcs_wf kcs_codec_ok kcs_range_default W dbg limit ext int km HA w pr evs Hs) as [Hg _].
  pose proof (session_flight kcs_wf kcs_codec_ok kcs_range_default W dbg limit ext int km HA w pr evs Hs Hf) as Hfl.
  exact (flight_address W ext int HA w pr evs c w' evs' r n t k i s Hg Hf Hfl Hn He Ha).
Qed.

(** C87: when the broadcast of a send fails, the outputs of the wallet are as before, no script became used or unused but the
    change script, and that is used exactly if it has outputs. *)
Theorem C87_failed_send w pr evs0 ch value addr algo w' evs t change : good_env (keychains ext int) → in_session w pr evs0 →
  handle_command dbg ch km w (CmdSend value addr algo false) = Ret (w', evs, Err EBroadcast) → EvBroadcast t change false ∈ evs →
  tr_cg (w_tracker w') = tr_cg (w_tracker w) ∧ (∀ ki f, owned (w_tracker w') ki f ↔ owned (w_tracker w) ki f) ∧
  (∀ k i sp, reveals_spk (w_tracker w) k i sp → change ≠ Some (k, i) →
     si_is_used (ki_inner (tr_index (w_tracker w'))) (k, i) = si_is_used (ki_inner (tr_index (w_tracker w))) (k, i)) ∧
  (∀ k i, change = Some (k, i) →
     (si_is_used (ki_inner (tr_index (w_tracker w'))) (k, i) = true ↔ ∃ o, (k, i, o) ∈ si_spk_txouts (ki_inner (tr_index (w_tracker w))))).
Proof.
  intros HA Hs. destruct (session_good kcs_wf kcs_codec_ok kcs_range_default W dbg limit ext int km HA w pr evs0 Hs) as [Hg _].
  exact (failed_send W dbg ext int km HA ch w value addr algo w' evs t change Hg).
Qed.

(** C88: the listing of outputs is of exactly those of the wallet which the flags ask for, each once; it panics exactly when
    one of them has a script without an address. *)
Theorem C88_txout_list w pr evs ch c : good_env (keychains ext int) → in_session w pr evs → hash_fun_ok (ch_hash ch) →
  ∃ l, NoDup ((λ kf, fto_outpoint kf.2) <$> l) ∧ (∀ ki f, (ki, f) ∈ l ↔ owned (w_tracker w) ki f ∧ asked_for c f) ∧
    run_txo_cmd ch (w_tracker w) c = if forallb (λ kf, has_address (txo_spk (fto_txout kf.2))) l then Ret l else Panic.
Proof.
  intros HA Hs. destruct (session_good kcs_wf kcs_codec_ok kcs_range_default W dbg limit ext int km HA w pr evs Hs) as [Hg _].
  exact (txo_list ch (w_tracker w) c (good_ok W ext int _ Hg)).
Qed.

(** C89: a sync asks for all scripts of the wallet if [--all] is given, for those not used if [--unused] or no flag at all is
    given, for its unconfirmed transactions if [--unconfirmed] or no flag is given and for the spenders of its unspent outputs
    if [--utxos] or no flag is given. *)
Theorem C89_sync_request w pr evs ch f : good_env (keychains ext int) → in_session w pr evs → hash_fun_ok (ch_hash ch) →
  (∀ k d i sp, keychains ext int k = Some d → derive d i = Some sp → has_address sp = true) →
  ∃ spks txids outs, sync_request ch (w_tracker w) f = Ret (spks, txids, outs) ∧
    (∀ sp, sp ∈ spks ↔ ∃ ki, si_spk_at (ki_inner (tr_index (w_tracker w))) ki = Some sp ∧
       (sf_all f = true ∨ (sf_unused f = true ∨ no_flags f) ∧ si_is_used (ki_inner (tr_index (w_tracker w))) ki = false)) ∧
    (∀ t, t ∈ txids ↔ (sf_unconfirmed f = true ∨ no_flags f) ∧ ∃ p, sc_pos (cg_chain (tr_cg (w_tracker w))) !! t = Some p ∧ pos_height p = Unconfirmed) ∧
    (∀ o, o ∈ outs ↔ (sf_utxos f = true ∨ no_flags f) ∧ ∃ ki g, unspent (w_tracker w) ki g ∧ fto_outpoint g = o).
Proof.
  intros HA Hs Hho. destruct (session_good kcs_wf kcs_codec_ok kcs_range_default W dbg limit ext int km HA w pr evs Hs) as [Hg _].
  exact (sync_asks W ext int HA ch (w_tracker w) f (good_ok W ext int _ Hg) Hho Hg).
Qed.
End cli.

Local Existing Instances ex_env cli_env PlanExamples.toy_env.
(** C83, C84: the session of C80 pays 40000 and the fee 308 from one output of 100000. *)
Example C83_example : good_env (keychains 1 (Some 3)) ∧ choices_ok cli_ch ∧
  ∃ w pr evs w' evs' t, in_session kcs_wf cliW true 10 1 (Some 3) cli_km w pr evs ∧
  modest_wallet 1 (Some 3) cli_ch (w_tracker w) 40000 7 ∧ below_max (cg_chain (tr_cg (w_tracker w))) ∧ foreign 1 (Some 3) 7 ∧
  handle_command true cli_ch cli_km w (CmdSend 40000 7 LargestFirst true) = Ret (w', evs', Ok tt) ∧ Forall (event_ok kcs_wf cliW) evs' ∧
  broadcasts evs' = [t] ∧ new_to (w_tracker w) (ctx_tx t) ∧ null_outpoint ∉ (ci_prev <$> ct_in t) ∧
  run_balance_cmd cli_ch (w_tracker w) = Ret (100000, 0) ∧ run_balance_cmd cli_ch (w_tracker w') = Ret (0, 59692).
Proof. exact (conj cli_good (conj cli_choices_ok send_example)). Qed.
(** After that send another transaction spends the change of the first. *)
Example C85_example : ∃ w pr evs t1 x' t a, in_session kcs_wf cliW true 10 1 (Some 3) cli_km w pr evs ∧
  modest_wallet 1 (Some 3) cli_ch (w_tracker w) 20000 7 ∧ has_sent (w_tracker w) t1 ∧
  create_tx true cli_ch cli_km (w_tracker w) 20000 7 LargestFirst = Ret (x', Ok (t, a)) ∧
  ci_prev <$> ct_in t1 = [mkOutPoint 21 0] ∧ ci_prev <$> ct_in t = [mkOutPoint 41000 1].
Proof. exact second_example. Qed.
(** C85 is about transactions in the chain: two which were prepared before the first is broadcast spend the same output. *)
Theorem C85_interleaved_refuted : good_env (keychains 1 (Some 3)) ∧ ∃ w pr evs, in_session kcs_wf cliW true 10 1 (Some 3) cli_km w pr evs ∧
  (λ t, (ctx_txid t, ci_prev <$> ct_in t)) <$> broadcasts evs = [(41000, [mkOutPoint 21 0]); (31000, [mkOutPoint 21 0])].
Proof. exact (conj cli_good same_coin). Qed.
(** Three transactions prepared, the first one refused before the third. *)
Example C86_example : good_env (keychains 1 (Some 3)) ∧ ∃ w pr evs, in_session kcs_wf cliW true 10 1 (Some 3) cli_km w pr evs ∧
  (∀ k d, keychains 1 (Some 3) k = Some d → n_revealed (tr_index (w_tracker w)) k < cap d) ∧
  snd <$> pr = [Some (Internal, 0); Some (Internal, 1); Some (Internal, 0)].
Proof. exact (conj cli_good changes_example). Qed.
(** C86 is false of a change descriptor without a wildcard, *)
Theorem C86_one_script_refuted : good_env (keychains 1 (Some 2)) ∧ ∃ w pr evs, in_session kcs_wf cliW true 10 1 (Some 2) cli_km w pr evs ∧
  snd <$> pr = [Some (Internal, 0); Some (Internal, 0)] ∧ broadcasts evs = [].
Proof. exact (conj cli_good2 same_change). Qed.
(** and scripts given to someone before become change scripts of a wallet without a change descriptor. *)
Theorem C86_given_before_refuted : ∃ w pr evs, in_session kcs_wf cliW true 10 1 None cli_km w pr evs ∧
  (∀ k d, keychains 1 None k = Some d → n_revealed (tr_index (w_tracker w)) k < cap d) ∧
  snd <$> pr = [Some (External, 1)] ∧ EvAddress External 1 (exs 1 1) ∈ evs.
Proof. exact given_change. Qed.
Example C87_example : ∃ w pr evs w' evs' t, in_session kcs_wf cliW true 10 1 (Some 3) cli_km w pr evs ∧
  handle_command true cli_ch cli_km w (CmdSend 40000 7 LargestFirst false) = Ret (w', evs', Err EBroadcast) ∧
  EvBroadcast t (Some (Internal, 0)) false ∈ evs' ∧ run_balance_cmd cli_ch (w_tracker w') = Ret (100000, 0) ∧
  n_revealed (tr_index (w_tracker w')) Internal = 1 ∧ si_is_used (ki_inner (tr_index (w_tracker w'))) (Internal, 0) = false.
Proof. exact fail_example. Qed.
(** C88, C89: after an address and a send with change. *)
Example C88_example : ∃ w pr evs l l', in_session kcs_wf cliW true 10 1 (Some 3) cli_km w pr evs ∧
  (∀ k d i sp, keychains 1 (Some 3) k = Some d → derive d i = Some sp → has_address sp = true) ∧
  sync_request cli_ch (w_tracker w) (mkSyncFlags false false false false) = Ret ([exs 1 1], [41000], [mkOutPoint 41000 1]) ∧
  run_txo_cmd cli_ch (w_tracker w) (mkTxOutCmd true false false false) = Ret l ∧ fto_outpoint ∘ snd <$> l = [mkOutPoint 21 0] ∧
  run_txo_cmd cli_ch (w_tracker w) (mkTxOutCmd false false false false) = Ret l' ∧ fto_outpoint ∘ snd <$> l' = [mkOutPoint 21 0; mkOutPoint 41000 1].
Proof. exact asked_example. Qed.

Print Assumptions C83_send_balance.
Print Assumptions C84_balance_exact.
Print Assumptions C85_no_double_spend_partial.
Print Assumptions C85_interleaved_refuted.
Print Assumptions C86_change_distinct.
Print Assumptions C86_change_not_given.
Print Assumptions C86_one_script_refuted.
Print Assumptions C86_given_before_refuted.
Print Assumptions C87_failed_send.
Print Assumptions C88_txout_list.
Print Assumptions C89_sync_request.
