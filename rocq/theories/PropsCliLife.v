(** C101: the commands [sync] and [scan] in the whole life of a command line wallet, while the network goes on. *)
From Verif Require Import CliLifeExamples.
Local Open Scope N_scope.
Local Existing Instance kcs_codec.

Section electrum.
Context `{!DescEnv, !CliEnv, !PlanModel.KeyEnv} `{!LeafCodecs Keychain TxHeight, !LeafWf Keychain TxHeight, !LeafOk Keychain TxHeight}.
Context (W : Txid → list OutPoint) (Fam : ScanSpec.World → Prop) (dbg : bool) (limit : nat) (ext : Desc) (int : option Desc) (km : PlanModel.KeyMap).
Notation life := (dwells kcs_wf W Fam higher (no_hidden_reorg w_position) (electrum_asks dbg) dbg limit ext int km).
Notation growing := (dwells kcs_wf W Fam (extends w_position) (λ _ _, True) (electrum_asks dbg) dbg limit ext int km).
Notation known v w f := (sf_utxos (sync_flags f) = true → ∀ ki g, unspent (w_tracker w) ki g → is_Some (w_tx v (op_txid (fto_outpoint g)))).
Implicit Types (w : CliModel.World TxHeight) (v : ScanSpec.World) (srv : nat → ESnap) (po : SparseChain TxHeight → list (Txid * TxHeight)).

(** C101: whatever processes have worked on the file, killed or not, whatever became of the network in the meantime: a
    process that opens the file and runs [sync] or [scan] with a server that tells the truth succeeds, and leaves a file with
    which life goes on — unless a reorganisation is hidden from the wallet. *)
Theorem C101_electrum v d evs create faults b w srv fuel ch po batch : good_env (keychains ext int) → coherent W Fam → limit ≠ 0%nat →
  (∀ k d i sp, keychains ext int k = Some d → derive d i = Some sp → has_address sp = true) →
  life v d evs → init limit ext int d create faults = Ret (b, Ok w) → no_hidden_reorg w_position v (w_tracker w) → default NoFault (head faults) = NoFault →
  (∀ n, electrum_honest v (srv n)) → hash_fun_ok (ch_hash ch) → (∀ c, po c ≡ₚ map_to_list (sc_pos c)) → (0 < batch)%nat →
  (∀ f, known v w f → ends (electrum_sync dbg srv (S fuel) ch po f batch w) (λ r, ∃ w' evs', r = (w', evs', Ok tt) ∧
      in_sync v (w_position v) f (w_tracker w) (w_tracker w') ∧ (Forall (event_ok kcs_wf W) evs' → life v (Some (f_bytes (w_file w'))) (evs ++ evs')))) ∧
  (∀ gap, ends (electrum_scan dbg srv (S fuel) ch po gap batch w) (λ r, ∃ w' evs', r = (w', evs', Ok tt) ∧
      caught_up v (w_position v) (w_tracker w) (w_tracker w') (in_gap v gap (keychains ext int)) ∧ (Forall (event_ok kcs_wf W) evs' → life v (Some (f_bytes (w_file w'))) (evs ++ evs')))).
Proof.
  intros HA HF Hlim Haddr. exact (electrum_life kcs_wf kcs_codec_ok kcs_range_default W dbg limit ext int km HA Fam HF Hlim Haddr v d evs create faults b w srv fuel ch po batch).
Qed.
(** In a network that only grows nothing is hidden. *)
Theorem C101_electrum_growing v d evs create faults b w srv fuel ch po batch : good_env (keychains ext int) → coherent W Fam → limit ≠ 0%nat →
  (∀ k d i sp, keychains ext int k = Some d → derive d i = Some sp → has_address sp = true) →
  growing v d evs → init limit ext int d create faults = Ret (b, Ok w) → default NoFault (head faults) = NoFault →
  (∀ n, electrum_honest v (srv n)) → hash_fun_ok (ch_hash ch) → (∀ c, po c ≡ₚ map_to_list (sc_pos c)) → (0 < batch)%nat →
  (∀ f, known v w f → ends (electrum_sync dbg srv (S fuel) ch po f batch w) (λ r, ∃ w' evs', r = (w', evs', Ok tt) ∧
      in_sync v (w_position v) f (w_tracker w) (w_tracker w') ∧ (Forall (event_ok kcs_wf W) evs' → growing v (Some (f_bytes (w_file w'))) (evs ++ evs')))) ∧
  (∀ gap, ends (electrum_scan dbg srv (S fuel) ch po gap batch w) (λ r, ∃ w' evs', r = (w', evs', Ok tt) ∧
      caught_up v (w_position v) (w_tracker w) (w_tracker w') (in_gap v gap (keychains ext int)) ∧ (Forall (event_ok kcs_wf W) evs' → growing v (Some (f_bytes (w_file w'))) (evs ++ evs')))).
Proof.
  intros HA HF Hlim Haddr. exact (electrum_growing kcs_wf kcs_codec_ok kcs_range_default W dbg limit ext int km HA Fam HF Hlim Haddr v d evs create faults b w srv fuel ch po batch).
Qed.
End electrum.

Section esplora.
Context `{!DescEnv, !CliEnv, !PlanModel.KeyEnv} `{!LeafCodecs Keychain ConfirmationTime, !LeafWf Keychain ConfirmationTime, !LeafOk Keychain ConfirmationTime}.
Context (W : Txid → list OutPoint) (Fam : ScanSpec.World → Prop) (dbg : bool) (limit : nat) (ext : Desc) (int : option Desc) (km : PlanModel.KeyMap).
Context (time : ScanSpec.World → N → N).
Notation tpos := (λ v, w_time_position v (time v)).
Notation life := (dwells kcs_wf W Fam higher (no_hidden_reorg tpos) (esplora_asks time ext int) dbg limit ext int km).
Notation growing := (dwells kcs_wf W Fam (extends tpos) (λ _ _, True) (esplora_asks time ext int) dbg limit ext int km).
Notation pages v fuel := (∀ k d i sp, keychains ext int k = Some d → derive d i = Some sp → (length (w_mempool v sp) ≤ 50)%nat ∧ (length (w_confirmed v sp) < 25 * S fuel)%nat).
Implicit Types (w : CliModel.World ConfirmationTime) (v : ScanSpec.World) (srv : nat → PSnap) (po : SparseChain ConfirmationTime → list (Txid * ConfirmationTime)).

(** C101: the same with the esplora wallet, which need not find its transactions in the network. *)
Theorem C101_esplora v d evs create faults b w srv fuel ch po par : good_env (keychains ext int) → coherent W Fam → limit ≠ 0%nat →
  (∀ k d i sp, keychains ext int k = Some d → derive d i = Some sp → has_address sp = true) → (∀ v h, time v h ≤ u64_max) →
  life v d evs → init limit ext int d create faults = Ret (b, Ok w) → no_hidden_reorg tpos v (w_tracker w) → default NoFault (head faults) = NoFault →
  (∀ n, esplora_honest v (time v) (srv n)) → hash_fun_ok (ch_hash ch) → (∀ c, po c ≡ₚ map_to_list (sc_pos c)) → pages v fuel →
  (∀ f, ends (esplora_sync_cmd srv (S fuel) ch po f par w) (λ r, ∃ w' evs', r = (w', evs', Ok tt) ∧
      in_sync v (tpos v) f (w_tracker w) (w_tracker w') ∧ (Forall (event_ok kcs_wf W) evs' → life v (Some (f_bytes (w_file w'))) (evs ++ evs')))) ∧
  (∀ gap, ends (esplora_scan_cmd srv (S fuel) ch po gap par w) (λ r, ∃ w' evs', r = (w', evs', Ok tt) ∧
      caught_up v (tpos v) (w_tracker w) (w_tracker w') (in_stop_gap v gap (keychains ext int)) ∧ (Forall (event_ok kcs_wf W) evs' → life v (Some (f_bytes (w_file w'))) (evs ++ evs')))).
Proof.
  intros HA HF Hlim Haddr Htime. exact (esplora_life kcs_wf kcs_codec_ok kcs_range_default W dbg limit ext int km HA Fam HF Hlim Haddr time Htime v d evs create faults b w srv fuel ch po par).
Qed.
Theorem C101_esplora_growing v d evs create faults b w srv fuel ch po par : good_env (keychains ext int) → coherent W Fam → limit ≠ 0%nat →
  (∀ k d i sp, keychains ext int k = Some d → derive d i = Some sp → has_address sp = true) → (∀ v h, time v h ≤ u64_max) →
  growing v d evs → init limit ext int d create faults = Ret (b, Ok w) → default NoFault (head faults) = NoFault →
  (∀ n, esplora_honest v (time v) (srv n)) → hash_fun_ok (ch_hash ch) → (∀ c, po c ≡ₚ map_to_list (sc_pos c)) → pages v fuel →
  (∀ f, ends (esplora_sync_cmd srv (S fuel) ch po f par w) (λ r, ∃ w' evs', r = (w', evs', Ok tt) ∧
      in_sync v (tpos v) f (w_tracker w) (w_tracker w') ∧ (Forall (event_ok kcs_wf W) evs' → growing v (Some (f_bytes (w_file w'))) (evs ++ evs')))) ∧
  (∀ gap, ends (esplora_scan_cmd srv (S fuel) ch po gap par w) (λ r, ∃ w' evs', r = (w', evs', Ok tt) ∧
      caught_up v (tpos v) (w_tracker w) (w_tracker w') (in_stop_gap v gap (keychains ext int)) ∧ (Forall (event_ok kcs_wf W) evs' → growing v (Some (f_bytes (w_file w'))) (evs ++ evs')))).
Proof.
  intros HA HF Hlim Haddr Htime. exact (esplora_grow kcs_wf kcs_codec_ok kcs_range_default W dbg limit ext int km HA Fam HF Hlim Haddr time Htime v d evs create faults b w srv fuel ch po par).
Qed.
End esplora.

Local Existing Instances ex_env cli_env PlanExamples.toy_env.
(** A life: the first process is stopped by a write error, then an address, a payment to it, another address, a send, the
    network mines it, and later replaces its block. *)
Example C101_example : good_env (keychains 1 (Some 3)) ∧ coherent cliW (among cns) ∧
  (∀ k d i sp, keychains 1 (Some 3) k = Some d → derive d i = Some sp → has_address sp = true) ∧ hash_fun_ok (ch_hash cli_ch) ∧ (∀ c, cs_po c ≡ₚ map_to_list (sc_pos c)) ∧
  ∃ n d evs b w k w' evs', n ∈ cns ∧ electrum_honest (net n) (ScanExamples.honest (net n)) ∧ cn_life (net n) d evs ∧ init 10 1 (Some 3) d None [] = Ret (b, Ok w) ∧
    no_hidden_reorg w_position (net n) (w_tracker w) ∧ (∀ ki g, unspent (w_tracker w) ki g → is_Some (w_tx (net n) (op_txid (fto_outpoint g)))) ∧
    cs_show (w_tracker w) = (Some 120, [cn_spent; (External, 1, (50, 0), 7000, Unconfirmed, None); (Internal, 0, (41000, 1), 59692, Confirmed 115, None)]) ∧
    electrum_sync true (λ _, ScanExamples.honest (net n)) 2 cli_ch cs_po ct_default 2 w 0%nat = Done k (w', evs', Ok tt) ∧ Forall (event_ok kcs_wf cliW) evs' ∧
    cs_show (w_tracker w') = (Some 122, [cn_spent; (External, 1, (50, 0), 7000, Confirmed 112, None); (Internal, 0, (41000, 1), 59692, Confirmed 118, None)]).
Proof.
  split; [exact cli_good|]. split; [exact cns_coherent|]. split; [exact cli_addresses|]. split; [exact exho_ok|]. split; [exact cs_po_ok|].
  destruct cn_example as (n & d & evs & b & w & k & w' & evs' & Hn & Hrest). exists n, d, evs, b, w, k, w', evs'. split; [exact Hn|]. split; [by apply cns_sound|exact Hrest].
Qed.
Example C101_growing_example : coherent cliW (among cgs) ∧ ∃ n d evs b w, n ∈ cgs ∧ cg_life (net n) d evs ∧ init 10 1 (Some 3) d None [] = Ret (b, Ok w) ∧
  (∀ ki g, unspent (w_tracker w) ki g → is_Some (w_tx (net n) (op_txid (fto_outpoint g)))) ∧
  cs_show (w_tracker w) = (Some 110, [cn_spent; (Internal, 0, (41000, 1), 59692, Unconfirmed, None)]) ∧
  cs_does (electrum_sync true (λ _, ScanExamples.honest (net n)) 2 cli_ch cs_po ct_default 2 w 0%nat) =
    Some (Some 120, [cn_spent; (External, 1, (50, 0), 7000, Unconfirmed, None); (Internal, 0, (41000, 1), 59692, Confirmed 115, None)], true).
Proof. split; [exact cgs_coherent|exact cg_example]. Qed.
(** If the replaced block is below every block the wallet remembers: [sync] succeeds, but leaves a transaction at the height at
    which it no longer is, and from then on [sync --all] fails. *)
Theorem C101_hidden_refuted : coherent cliW (among cns) ∧ ∃ n d evs b w k w1 evs1 k2 w2, n ∈ cns ∧ electrum_honest (net n) (ScanExamples.honest (net n)) ∧
  cn_life (net n) d evs ∧ init 10 1 (Some 3) d None [] = Ret (b, Ok w) ∧
  (∀ ki g, unspent (w_tracker w) ki g → is_Some (w_tx (net n) (op_txid (fto_outpoint g)))) ∧
  electrum_sync true (λ _, ScanExamples.honest (net n)) 2 cli_ch cs_po ct_default 2 w 0%nat = Done k (w1, evs1, Ok tt) ∧
  latest_checkpoint (cg_chain (tr_cg (w_tracker w1))) = Some (mkBlockId 122 4122) ∧ w_position (net n) 21 = Confirmed 108 ∧
  sc_pos (cg_chain (tr_cg (w_tracker w1))) !! 21 = Some (Confirmed 105) ∧
  electrum_sync true (λ _, ScanExamples.honest (net n)) 2 cli_ch cs_po cs_all 2 w1 0%nat = Done k2 (w2, [], Err EUpdate).
Proof.
  split; [exact cns_coherent|]. destruct cn_hidden as (n & d & evs & b & w & k & w1 & evs1 & k2 & w2 & Hn & Hrest). exists n, d, evs, b, w, k, w1, evs1, k2, w2.
  split; [exact Hn|]. split; [by apply cns_sound|exact Hrest].
Qed.

Example C101_esplora_example : coherent cliW (among tns) ∧ (∀ v h, tn_time v h ≤ u64_max) ∧ hash_fun_ok (ch_hash ct_ch) ∧
  ∃ n d evs b w k w' evs', n ∈ tns ∧ esplora_honest (net n) (tn_time (net n)) (tn_server n) ∧
    (∀ sp, (length (w_mempool (net n) sp) ≤ 50)%nat ∧ (length (w_confirmed (net n) sp) < 25 * 1)%nat) ∧
    tn_life (net n) d evs ∧ init 10 1 (Some 3) d None [] = Ret (b, Ok w) ∧ no_hidden_reorg tn_pos (net n) (w_tracker w) ∧
    ct_show (w_tracker w) = (Some 122, [(External, 0, (21, 0), 100000, CtConfirmed 111 1600066600, None); (External, 1, (50, 0), 7000, CtUnconfirmed, None)]) ∧
    esplora_sync_cmd (λ _, tn_server n) 1 ct_ch ct_po ct_default 2 w 0%nat = Done k (w', evs', Ok tt) ∧ Forall (event_ok kcs_wf cliW) evs' ∧
    ct_show (w_tracker w') = (Some 123, [(External, 0, (21, 0), 100000, CtConfirmed 119 1600071400, None); (External, 1, (50, 0), 7000, CtConfirmed 113 1600067800, None)]).
Proof.
  split; [exact tns_coherent|]. split; [intros v; exact rs_time_ok|]. split; [exact exho_ok|].
  destruct tn_example as (n & d & evs & b & w & k & w' & evs' & Hn & Hrest). exists n, d, evs, b, w, k, w', evs'. split; [exact Hn|].
  split; [by apply tns_sound|]. split; [by apply tns_sound|exact Hrest].
Qed.
Example C101_esplora_growing_example : coherent cliW (among tgs) ∧ ∃ n d evs b w k w' evs', n ∈ tgs ∧ tg_life (net n) d evs ∧ init 10 1 (Some 3) d None [] = Ret (b, Ok w) ∧
  ct_show (w_tracker w) = (Some 110, [(External, 0, (21, 0), 100000, CtUnconfirmed, None)]) ∧
  esplora_sync_cmd (λ _, tn_server n) 1 ct_ch ct_po ct_default 2 w 0%nat = Done k (w', evs', Ok tt) ∧ Forall (event_ok kcs_wf cliW) evs' ∧
  ct_show (w_tracker w') = (Some 122, [(External, 0, (21, 0), 100000, CtConfirmed 111 1600066600, None); (External, 1, (50, 0), 7000, CtUnconfirmed, None)]).
Proof. split; [exact tgs_coherent|exact tg_example]. Qed.

Print Assumptions C101_electrum.
Print Assumptions C101_electrum_growing.
Print Assumptions C101_esplora.
Print Assumptions C101_esplora_growing.
Print Assumptions C101_hidden_refuted.
