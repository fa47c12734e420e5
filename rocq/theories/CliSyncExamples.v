(** Sessions and worlds for C99 and C100. *)
From Verif Require Export RestoreExamples CliExamples2 CliSyncProofs.
Local Open Scope N_scope.
Local Existing Instances ex_env cli_env PlanExamples.toy_env kcs_codec.

(** ** A world *)
(** Transaction 90 pays 21 and 50; 21 pays address 0 of the wallet, 50 another address of it; the wallet sends [sent]. *)
Definition cs90 : Tx := mkTx 90 [null_outpoint] [mkTxOut 100000 9; mkTxOut 7000 9] 0.
Definition cs50 (a : N) : Tx := mkTx 50 [mkOutPoint 90 1] [mkTxOut 7000 (exs 1 a)] 0.
Definition cs_sent (addr : Script) : Tx := mkTx 41000 [mkOutPoint 21 0] [mkTxOut 40000 addr; mkTxOut 59692 (exs 3 0)] 0.
Definition cs_block (h : N) : BlockHash := if h <? 111 then h else 2000 + h.
Definition cs_l (a : N) (addr : Script) : list (Tx * option N) :=
  [(cs90, Some 10); (cliA, Some 105); (cs50 a, None); (cs_sent addr, Some 115)].
Definition cs_world (l : list (Tx * option N)) : ScanSpec.World := list_world 120 cs_block l.
Definition cs_w (a : N) (addr : Script) : ScanSpec.World := cs_world (cs_l a addr).
Definition cs_po (c : SparseChain TxHeight) : list (Txid * TxHeight) := map_to_list (sc_pos c).
Lemma cs_po_ok c : cs_po c ≡ₚ map_to_list (sc_pos c). Proof. done. Qed.

(** ** What the commands do *)
Definition cs_show (x : Tracker Keychain TxHeight) :=
  (bi_height <$> latest_checkpoint (cg_chain (tr_cg x)),
   (λ kf : Keychain * N * FullTxOut TxHeight, (kf.1, (op_txid (fto_outpoint kf.2), op_vout (fto_outpoint kf.2)), txo_value (fto_txout kf.2), fto_pos kf.2, snd <$> fto_spent_by kf.2)) <$>
     full_txouts (exho (cg_graph (tr_cg x))) x).
Definition cs_does (r : run (CliModel.World TxHeight * list (event TxHeight) * result unit CliError)) :=
  match r with
  | Done _ (w', evs', Ok _) => Some (cs_show (w_tracker w'), forallb (event_okb cliW) evs')
  | _ => None
  end.
Definition cs_acts (addr : Script) : list (Choices TxHeight * action TxHeight) :=
  cli_found ++ [(cli_ch, Run (CmdAddress AddrNew)); (cli_ch, Run (CmdSend 40000 addr LargestFirst true))].
Definition cs_default : SyncFlags := mkSyncFlags false false false false.
Definition cs_all : SyncFlags := mkSyncFlags false false false true.
Definition cs_more : list (Choices TxHeight * action TxHeight) := replicate 3 (cli_ch, Run (CmdAddress AddrNew)).
Lemma cs_acts_ok addr : Forall (λ p, ch_hash p.1 = exho ∧ actb p.2) (cs_acts addr).
Proof. apply found_acts. repeat constructor. Qed.

(** The outputs of the wallet it says nobody spends are known. *)
Definition known_check v (x : Tracker Keychain TxHeight) : bool :=
  forallb (λ kf, bool_decide (is_Some (w_tx v (op_txid (fto_outpoint kf.2)))) || bool_decide (is_Some (fto_spent_by kf.2)))
    (full_txouts (exho (cg_graph (tr_cg x))) x).
Lemma known_check_ok v x : cg_ok (tr_cg x) → known_check v x = true → ∀ ki g, unspent x ki g → is_Some (w_tx v (op_txid (fto_outpoint g))).
Proof.
  intros Hok Hc ki g [Hg Hn]. unfold known_check in Hc. rewrite forallb_forall in Hc.
  apply (full_txouts_owned (exho (cg_graph (tr_cg x)))), elem_of_list_In, Hc in Hg; [|done|apply exho_ok]. cbn [snd] in Hg.
  apply orb_prop in Hg as [?%bool_decide_eq_true|[? ?]%bool_decide_eq_true]; [done|congruence].
Qed.
(** The wallet shows no such output. *)
Definition cs_lacks (x : Tracker Keychain TxHeight) (o : OutPoint) : bool :=
  forallb (λ kf, negb (bool_decide (fto_outpoint kf.2 = o))) (full_txouts (exho (cg_graph (tr_cg x))) x).
Lemma cs_lacks_ok x o ki g : cg_ok (tr_cg x) → cs_lacks x o = true → owned x ki g → fto_outpoint g ≠ o.
Proof.
  intros Hok Hc Hg. unfold cs_lacks in Hc. rewrite forallb_forall in Hc.
  apply (full_txouts_owned (exho (cg_graph (tr_cg x)))), elem_of_list_In, Hc in Hg; [|done|apply exho_ok]. by apply negb_true_iff, bool_decide_eq_false in Hg.
Qed.

(** ** The hypotheses *)
Record cs_ready v (w : CliModel.World TxHeight) : Prop := {
  cr_fit : fit_for v (w_position v) (w_tracker w);
  cr_seen : none_overlooked v (watched (w_tracker w)) (w_tracker w);
  cr_known : ∀ ki g, unspent (w_tracker w) ki g → is_Some (w_tx v (op_txid (fto_outpoint g)));
  cr_faults : w_faults w = []
}.
Definition ready_check v (w : CliModel.World TxHeight) : bool :=
  fit_check v (w_position v) (w_tracker w) && indexed_check (w_tracker w) && known_check v (w_tracker w) && match w_faults w with [] => true | _ => false end.
Lemma ready_check_ok v w : cg_ok (tr_cg (w_tracker w)) → ready_check v w = true → cs_ready v w.
Proof.
  intros Hok [[[Hc Hx1]%andb_prop Hx0]%andb_prop Hx]%andb_prop. split.
  - exact (fit_check_ok _ _ _ Hc).
  - exact (indexed_check_ok _ _ _ Hx1 (proj2 (proj2 (proj2 (proj2 (fit_check_ok _ _ _ Hc)))))).
  - by apply known_check_ok.
  - by destruct (w_faults w).
Qed.
Definition cs_sound v : Prop := world_ok v ∧ world_sane cliW v ∧ (∀ t a, w_tx v t = Some a → tx_ok a) ∧ electrum_honest v (ScanExamples.honest v).
Lemma cs_sound_ok l : list_check cliW 120 l = true → cs_sound (cs_world l).
Proof. intros Hc. split; [exact (list_ok _ _ _ _ Hc)|]. split; [exact (list_sane _ _ _ _ Hc)|]. split; [exact (list_txs _ _ _ _ Hc)|exact (list_honest _ _ _ _ Hc)]. Qed.
Lemma ran_cg_ok int w pr evs : good_env (keychains 1 int) → in_session kcs_wf cliW true 10 1 int cli_km w pr evs → cg_ok (tr_cg (w_tracker w)).
Proof.
  intros HA Hs. destruct (session_good kcs_wf kcs_codec_ok kcs_range_default cliW true 10 1 int cli_km HA w pr evs Hs) as [Hg _]. exact (good_ok cliW 1 int _ Hg).
Qed.

Definition cs_obs v (f : SyncFlags) (w : CliModel.World TxHeight) (pr : prepared) (evs : list (event TxHeight)) :=
  Some (ready_check v w, cs_show (w_tracker w), cs_does (electrum_sync true (λ _, ScanExamples.honest v) 2 cli_ch cs_po f 2 w 0%nat)).
(** ** Cases *)
Lemma cs_example : ∃ w pr evs n w' evs', in_session kcs_wf cliW true 10 1 (Some 3) cli_km w pr evs ∧ cs_ready (cs_w 1 7) w ∧
  electrum_sync true (λ _, ScanExamples.honest (cs_w 1 7)) 2 cli_ch cs_po cs_default 2 w 0%nat = Done n (w', evs', Ok tt) ∧ Forall (event_ok kcs_wf cliW) evs' ∧
  cs_show (w_tracker w) = (Some 110, [(External, 0, (21, 0), 100000, Confirmed 105, Some 41000); (Internal, 0, (41000, 1), 59692, Unconfirmed, None)]) ∧
  cs_show (w_tracker w') = (Some 120, [(External, 0, (21, 0), 100000, Confirmed 105, Some 41000); (External, 1, (50, 0), 7000, Unconfirmed, None);
    (Internal, 0, (41000, 1), 59692, Confirmed 115, None)]).
Proof.
  destruct (ran_obs (Some 3) (cs_acts 7) (cs_obs (cs_w 1 7) cs_default)
    (true, (Some 110, [(External, 0, (21, 0), 100000, Confirmed 105, Some 41000); (Internal, 0, (41000, 1), 59692, Unconfirmed, None)]),
     Some (Some 120, [(External, 0, (21, 0), 100000, Confirmed 105, Some 41000); (External, 1, (50, 0), 7000, Unconfirmed, None);
       (Internal, 0, (41000, 1), 59692, Confirmed 115, None)], true))) as (w & pr & evs & Hs & Ho).
  { apply cs_acts_ok. }
  { vm_compute. reflexivity. }
  pose proof (ran_cg_ok _ w pr evs cli_good Hs) as Hok. unfold cs_obs in Ho. apply (inj Some), pair_equal_spec in Ho as [[Hr Hw]%pair_equal_spec Hd].
  unfold cs_does in Hd. destruct (electrum_sync _ _ _ _ _ _ _ _ _) as [n [[w' evs'] [[]|]]| | |] eqn:E; try discriminate Hd.
  apply (inj Some), pair_equal_spec in Hd as [Hd He].
  exists w, pr, evs, n, w', evs'. split; [exact Hs|]. split; [by apply ready_check_ok|]. split; [exact E|]. split; [|split; [exact Hw|exact Hd]].
  eapply forallb_ok; [|exact He]. intros ev Hev. by apply event_okb_ok.
Qed.
(** Outputs to scripts of the wallet which the command does not find *)
Definition cs_misses v (f : SyncFlags) ki (o : OutPoint) (w : CliModel.World TxHeight) (pr : prepared) (evs : list (event TxHeight)) :=
  match electrum_sync true (λ _, ScanExamples.honest v) 2 cli_ch cs_po f 2 w 0%nat with
  | Done _ (w', evs', Ok _) => Some (ready_check v w, fit_check v (w_position v) (w_tracker w), match w_faults w with [] => true | _ => false end,
      si_spk_at (ki_inner (tr_index (w_tracker w))) ki, bool_decide (si_txout (ki_inner (tr_index (w_tracker w'))) o = None))
  | _ => None
  end.
Lemma cs_missed l v f ki o sp b : Forall (λ p, ch_hash p.1 = exho ∧ actb p.2) l →
  (ran (Some 3) l ≫= λ p, cs_misses v f ki o p.1.1 p.1.2 p.2) = Some (b, true, true, Some sp, true) →
  ∃ w pr evs n w' evs', in_session kcs_wf cliW true 10 1 (Some 3) cli_km w pr evs ∧ (b = true → cs_ready v w) ∧ fit_for v (w_position v) (w_tracker w) ∧
    electrum_sync true (λ _, ScanExamples.honest v) 2 cli_ch cs_po f 2 w 0%nat = Done n (w', evs', Ok tt) ∧
    si_spk_at (ki_inner (tr_index (w_tracker w))) ki = Some sp ∧ ∀ ki' g, owned (w_tracker w') ki' g → fto_outpoint g ≠ o.
Proof.
  intros Hl Hran. destruct (ran_obs (Some 3) l _ _ Hl Hran) as (w & pr & evs & Hs & Ho). unfold cs_misses in Ho.
  pose proof (ran_cg_ok _ w pr evs cli_good Hs) as Hok.
  destruct (electrum_sync _ _ _ _ _ _ _ _ _) as [n [[w' evs'] [[]|]]| | |] eqn:E; try discriminate Ho.
  apply (inj Some), pair_equal_spec in Ho as [Ho Hn]. apply pair_equal_spec in Ho as [Ho Hsp]. apply pair_equal_spec in Ho as [Ho _].
  apply pair_equal_spec in Ho as [Hr Hf]. apply bool_decide_eq_true in Hn. exists w, pr, evs, n, w', evs'. split; [exact Hs|].
  split; [intros ->; by apply ready_check_ok|]. split; [exact (fit_check_ok _ _ _ Hf)|]. split; [exact E|]. split; [exact Hsp|].
  intros ki' g [[u Hu] _] He. rewrite He, Hn in Hu. discriminate Hu.
Qed.
Lemma cs_used : ∃ w pr evs n w' evs', in_session kcs_wf cliW true 10 1 (Some 3) cli_km w pr evs ∧ cs_ready (cs_w 0 7) w ∧
    electrum_sync true (λ _, ScanExamples.honest (cs_w 0 7)) 2 cli_ch cs_po cs_default 2 w 0%nat = Done n (w', evs', Ok tt) ∧
    si_spk_at (ki_inner (tr_index (w_tracker w))) (External, 0) = Some (exs 1 0) ∧ world_pays (cs_w 0 7) (mkOutPoint 50 0) (exs 1 0) ∧
    ∀ ki' g, owned (w_tracker w') ki' g → fto_outpoint g ≠ mkOutPoint 50 0.
Proof.
  destruct (cs_missed (cs_acts 7) (cs_w 0 7) cs_default (External, 0) (mkOutPoint 50 0) (exs 1 0) true (cs_acts_ok 7)) as (w & pr & evs & n & w' & evs' & Hs & Hr & _ & E & Hsp & Hno).
  { vm_compute. reflexivity. }
  exists w, pr, evs, n, w', evs'. split; [exact Hs|]. split; [by apply Hr|]. split; [exact E|]. split; [exact Hsp|]. split; [|exact Hno].
  exists (cs50 0), (mkTxOut 7000 (exs 1 0)). by vm_compute.
Qed.
Lemma cs_unindexed : ∃ w pr evs n w' evs', in_session kcs_wf cliW true 10 1 (Some 3) cli_km w pr evs ∧ fit_for (cs_w 1 (exs 1 4)) (w_position (cs_w 1 (exs 1 4))) (w_tracker w) ∧
    electrum_sync true (λ _, ScanExamples.honest (cs_w 1 (exs 1 4))) 2 cli_ch cs_po cs_all 2 w 0%nat = Done n (w', evs', Ok tt) ∧
    si_spk_at (ki_inner (tr_index (w_tracker w))) (External, 4) = Some (exs 1 4) ∧ world_pays (cs_w 1 (exs 1 4)) (mkOutPoint 41000 0) (exs 1 4) ∧
    ∀ ki' g, owned (w_tracker w') ki' g → fto_outpoint g ≠ mkOutPoint 41000 0.
Proof.
  destruct (cs_missed (cs_acts (exs 1 4) ++ cs_more) (cs_w 1 (exs 1 4)) cs_all (External, 4) (mkOutPoint 41000 0) (exs 1 4) false) as (w & pr & evs & n & w' & evs' & Hs & _ & Hf & E & Hsp & Hno).
  { apply Forall_app. split; [apply cs_acts_ok|]. repeat constructor. }
  { vm_compute. reflexivity. }
  exists w, pr, evs, n, w', evs'. split; [exact Hs|]. split; [exact Hf|]. split; [exact E|]. split; [exact Hsp|]. split; [|exact Hno].
  exists (cs_sent (exs 1 4)), (mkTxOut 40000 (exs 1 4)). by vm_compute.
Qed.
(** The network has forgotten the transaction of the wallet. *)
Definition cs_gone : ScanSpec.World := cs_world (take 3 (cs_l 1 7)).
Definition gone_obs (w : CliModel.World TxHeight) (pr : prepared) (evs : list (event TxHeight)) :=
  Some (fit_check cs_gone (w_position cs_gone) (w_tracker w), indexed_check (w_tracker w), match w_faults w with [] => true | _ => false end,
    match electrum_sync true (λ _, ScanExamples.honest cs_gone) 2 cli_ch cs_po cs_default 2 w 0%nat with Failed _ e => Some e | _ => None end).
Lemma cs_fails : ∃ w pr evs n, in_session kcs_wf cliW true 10 1 (Some 3) cli_km w pr evs ∧ fit_for cs_gone (w_position cs_gone) (w_tracker w) ∧
    none_overlooked cs_gone (watched (w_tracker w)) (w_tracker w) ∧ w_faults w = [] ∧
    electrum_sync true (λ _, ScanExamples.honest cs_gone) 2 cli_ch cs_po cs_default 2 w 0%nat = Failed n Protocol.
Proof.
  destruct (ran_obs (Some 3) (cs_acts 7) gone_obs (true, true, true, Some Protocol)) as (w & pr & evs & Hs & Ho).
  { apply cs_acts_ok. }
  { vm_compute. reflexivity. }
  unfold gone_obs in Ho. apply (inj Some), pair_equal_spec in Ho as [Ho He]. apply pair_equal_spec in Ho as [Ho Hf]. apply pair_equal_spec in Ho as [Hx Hi].
  destruct (electrum_sync _ _ _ _ _ _ _ _ _) as [n [[w' evs'] r]|n e| |] eqn:E; try discriminate He. apply (inj Some) in He as ->.
  exists w, pr, evs, n. split; [exact Hs|]. split; [exact (fit_check_ok _ _ _ Hx)|]. split; [exact (indexed_check_ok _ _ _ Hi (proj2 (proj2 (proj2 (proj2 (fit_check_ok _ _ _ Hx))))))|]. split; [by destruct (w_faults w)|exact E].
Qed.

(** ** A scan *)
Lemma cs_scripts_known : known_script (cs_w 1 7) 1 0 ∧ known_script (cs_w 1 7) 1 1 ∧ known_script (cs_w 1 7) 3 0.
Proof. split_and!; (eexists; split; [reflexivity|by vm_compute]). Qed.
Definition cs_desc (k : Keychain) : Desc := match k with External => 1 | Internal => 3 end.
Lemma cs_in_gap k i : i ≤ 1 → known_script (cs_w 1 7) (cs_desc k) i → in_gap (cs_w 1 7) 2 (keychains 1 (Some 3)) k i.
Proof.
  intros Hi Hk. exists (cs_desc k). split; [by destruct k|]. split; [|split; [done|]].
  - assert (1 < bip32_max + 1) by (by vm_compute). unfold cap. destruct k; cbn [cs_desc has_wildcard ex_env]; change (1 =? 2) with false; change (3 =? 2) with false; cbn [negb]; lia.
  - intros (j & Hj & _). lia.
Qed.
Lemma cs_scan_ready : ∃ w pr evs, in_session kcs_wf cliW true 10 1 (Some 3) cli_km w pr evs ∧ fit_for (cs_w 1 7) (w_position (cs_w 1 7)) (w_tracker w) ∧
    none_overlooked (cs_w 1 7) (in_gap (cs_w 1 7) 2 (keychains 1 (Some 3))) (w_tracker w) ∧ w_faults w = [] ∧
    cs_show (w_tracker w) = (Some 110, [(External, 0, (21, 0), 100000, Confirmed 105, None)]).
Proof.
  destruct (ran_obs (Some 3) cli_found (λ w _ _, Some (fit_check (cs_w 1 7) (w_position (cs_w 1 7)) (w_tracker w), indexed_check (w_tracker w), match w_faults w with [] => true | _ => false end,
     cs_show (w_tracker w))) (true, true, true, (Some 110, [(External, 0, (21, 0), 100000, Confirmed 105, None)]))) as (w & pr & evs & Hs & Ho).
  { rewrite <- (app_nil_r cli_found). apply found_acts. constructor. }
  { vm_compute. reflexivity. }
  apply (inj Some), pair_equal_spec in Ho as [Ho He]. apply pair_equal_spec in Ho as [Ho Hf]. apply pair_equal_spec in Ho as [Hx Hi].
  exists w, pr, evs. split; [exact Hs|]. split; [exact (fit_check_ok _ _ _ Hx)|]. split; [exact (indexed_check_ok _ _ _ Hi (proj2 (proj2 (proj2 (proj2 (fit_check_ok _ _ _ Hx))))))|]. split; [by destruct (w_faults w)|exact He].
Qed.
Lemma cs_paid w pr evs : in_session kcs_wf cliW true 10 1 (Some 3) cli_km w pr evs →
  ∀ k i a, i ≤ 1 → paid (tr_index (w_tracker w)) k i (mkTxOut a (exs (cs_desc k) i)).
Proof.
  intros Hs k i a Hi. destruct (good_parts cliW 1 (Some 3) cli_good _ (proj1 (CliProofs3.session_good kcs_wf kcs_codec_ok kcs_range_default cliW true 10 1 (Some 3) cli_km cli_good w pr evs Hs))) as (_ & _ & _ & Hk).
  exists (cs_desc k). split; [apply Hk; by destruct k|]. split; [|by destruct k].
  assert (1 < bip32_max + 1) by (by vm_compute). unfold cap. destruct k; cbn [cs_desc has_wildcard ex_env]; change (1 =? 2) with false; change (3 =? 2) with false; cbn [negb]; lia.
Qed.
