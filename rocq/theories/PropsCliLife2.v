(** C101: [sync] and [scan] in the life of a command line wallet, when a reorganisation does not show in its checkpoints. *)
From Verif Require Import CliLifeExamples2.
Local Open Scope N_scope.
Local Existing Instance kcs_codec.

Section electrum.
Context `{!DescEnv, !CliEnv, !PlanModel.KeyEnv} `{!LeafCodecs Keychain TxHeight, !LeafWf Keychain TxHeight, !LeafOk Keychain TxHeight}.
Context (W : Txid → list OutPoint) (Fam : ScanSpec.World → Prop) (dbg : bool) (limit : nat) (ext : Desc) (int : option Desc) (km : PlanModel.KeyMap).
Notation A := (keychains ext int).
Notation life := (dwells kcs_wf W Fam higher (λ _ _, True) (electrum_seeks dbg ext int) dbg limit ext int km).
Notation known v w f := (sf_utxos (sync_flags f) = true → ∀ ki g, unspent (w_tracker w) ki g → is_Some (w_tx v (op_txid (fto_outpoint g)))).
Implicit Types (w : CliModel.World TxHeight) (v : ScanSpec.World) (srv : nat → ESnap) (po : SparseChain TxHeight → list (Txid * TxHeight)).

(** C101: as before, but a reorganisation may be hidden from the wallet, if a block commits to its transactions ([blocks_commit]) and each
    command has to find whatever the wallet has at a height at which it no longer is ([seen_again]). *)
Theorem C101_electrum_seen v d evs create faults b w srv fuel ch po batch : good_env A → coherent W Fam → blocks_commit w_position Fam → limit ≠ 0%nat →
  (∀ k d i sp, A k = Some d → derive d i = Some sp → has_address sp = true) →
  life v d evs → init limit ext int d create faults = Ret (b, Ok w) → default NoFault (head faults) = NoFault →
  (∀ n, electrum_honest v (srv n)) → hash_fun_ok (ch_hash ch) → (∀ c, po c ≡ₚ map_to_list (sc_pos c)) → (0 < batch)%nat →
  (∀ f, seen_again w_position v (sync_sought v f (w_tracker w)) (w_tracker w) → known v w f →
    ends (electrum_sync dbg srv (S fuel) ch po f batch w) (λ r, ∃ w' evs', r = (w', evs', Ok tt) ∧
      in_sync v (w_position v) f (w_tracker w) (w_tracker w') ∧ (Forall (event_ok kcs_wf W) evs' → life v (Some (f_bytes (w_file w'))) (evs ++ evs')))) ∧
  (∀ gap, seen_again w_position v (of_scripts v A (in_gap v gap A)) (w_tracker w) →
    ends (electrum_scan dbg srv (S fuel) ch po gap batch w) (λ r, ∃ w' evs', r = (w', evs', Ok tt) ∧
      caught_up v (w_position v) (w_tracker w) (w_tracker w') (in_gap v gap A) ∧ (Forall (event_ok kcs_wf W) evs' → life v (Some (f_bytes (w_file w'))) (evs ++ evs')))).
Proof.
  intros HA HF Hcom Hlim Haddr Hd Ei.
  exact (electrum_seen kcs_wf kcs_codec_ok kcs_range_default W dbg limit ext int km HA Fam HF Hlim Haddr v d evs create faults b w srv fuel ch po batch Hd Ei Hcom).
Qed.
End electrum.

Section esplora.
Context `{!DescEnv, !CliEnv, !PlanModel.KeyEnv} `{!LeafCodecs Keychain ConfirmationTime, !LeafWf Keychain ConfirmationTime, !LeafOk Keychain ConfirmationTime}.
Context (W : Txid → list OutPoint) (Fam : ScanSpec.World → Prop) (dbg : bool) (limit : nat) (ext : Desc) (int : option Desc) (km : PlanModel.KeyMap).
Context (time : ScanSpec.World → N → N).
Notation A := (keychains ext int).
Notation tpos := (λ v, w_time_position v (time v)).
Notation life := (dwells kcs_wf W Fam higher (λ _ _, True) (esplora_seeks time ext int) dbg limit ext int km).
Notation pages v fuel := (∀ k d i sp, A k = Some d → derive d i = Some sp → (length (w_mempool v sp) ≤ 50)%nat ∧ (length (w_confirmed v sp) < 25 * S fuel)%nat).
Implicit Types (w : CliModel.World ConfirmationTime) (v : ScanSpec.World) (srv : nat → PSnap) (po : SparseChain ConfirmationTime → list (Txid * ConfirmationTime)).

Theorem C101_esplora_seen v d evs create faults b w srv fuel ch po par : good_env A → coherent W Fam → blocks_commit tpos Fam → limit ≠ 0%nat →
  (∀ k d i sp, A k = Some d → derive d i = Some sp → has_address sp = true) → (∀ v h, time v h ≤ u64_max) →
  life v d evs → init limit ext int d create faults = Ret (b, Ok w) → default NoFault (head faults) = NoFault →
  (∀ n, esplora_honest v (time v) (srv n)) → hash_fun_ok (ch_hash ch) → (∀ c, po c ≡ₚ map_to_list (sc_pos c)) → pages v fuel →
  (∀ f, seen_again tpos v (sync_sought v f (w_tracker w)) (w_tracker w) →
    ends (esplora_sync_cmd srv (S fuel) ch po f par w) (λ r, ∃ w' evs', r = (w', evs', Ok tt) ∧
      in_sync v (tpos v) f (w_tracker w) (w_tracker w') ∧ (Forall (event_ok kcs_wf W) evs' → life v (Some (f_bytes (w_file w'))) (evs ++ evs')))) ∧
  (∀ gap, seen_again tpos v (of_scripts v A (in_stop_gap v gap A)) (w_tracker w) →
    ends (esplora_scan_cmd srv (S fuel) ch po gap par w) (λ r, ∃ w' evs', r = (w', evs', Ok tt) ∧
      caught_up v (tpos v) (w_tracker w) (w_tracker w') (in_stop_gap v gap A) ∧ (Forall (event_ok kcs_wf W) evs' → life v (Some (f_bytes (w_file w'))) (evs ++ evs')))).
Proof.
  intros HA HF Hcom Hlim Haddr Htime Hd Ei.
  exact (esplora_seen kcs_wf kcs_codec_ok kcs_range_default W dbg limit ext int km HA Fam HF Hlim Haddr time Htime v d evs create faults b w srv fuel ch po par Hd Ei Hcom).
Qed.
End esplora.

Local Existing Instances ex_env cli_env PlanExamples.toy_env.
(** The wallet of [C101_hidden_refuted]: transaction 21 has gone from block 105 to 108.  With [--all] the first synchronisation sees it. *)
Example C101_electrum_seen_example : good_env (keychains 1 (Some 3)) ∧ coherent cliW (among cns) ∧ blocks_commit w_position (among cns) ∧
  (∀ k d i sp, keychains 1 (Some 3) k = Some d → derive d i = Some sp → has_address sp = true) ∧ hash_fun_ok (ch_hash cli_ch) ∧ (∀ c, cs_po c ≡ₚ map_to_list (sc_pos c)) ∧
  ∃ n d evs b w k w' evs', n ∈ cns ∧ electrum_honest (net n) (ScanExamples.honest (net n)) ∧ cn_seen_life (net n) d evs ∧ init 10 1 (Some 3) d None [] = Ret (b, Ok w) ∧
    ¬ no_hidden_reorg w_position (net n) (w_tracker w) ∧ seen_again w_position (net n) (sync_sought (net n) cs_all (w_tracker w)) (w_tracker w) ∧
    cs_show (w_tracker w) = (Some 110, [cn_spent; (Internal, 0, (41000, 1), 59692, Unconfirmed, None)]) ∧
    electrum_sync true (λ _, ScanExamples.honest (net n)) 2 cli_ch cs_po cs_all 2 w 0%nat = Done k (w', evs', Ok tt) ∧ Forall (event_ok kcs_wf cliW) evs' ∧
    cs_show (w_tracker w') = (Some 122, [cn_moved; (External, 1, (50, 0), 7000, Confirmed 112, None); (Internal, 0, (41000, 1), 59692, Confirmed 118, None)]).
Proof.
  split; [exact cli_good|]. split; [exact cns_coherent|]. split; [exact cns_commit|]. split; [exact cli_addresses|]. split; [exact exho_ok|]. split; [exact cs_po_ok|].
  destruct cn_seen_example as (n & d & evs & b & w & k & w' & evs' & Hn & Hrest). exists n, d, evs, b, w, k, w', evs'. split; [exact Hn|]. split; [by apply cns_sound|exact Hrest].
Qed.
(** The output of transaction 21 is unspent, so [sync] asks for it without flags. *)
Example C101_esplora_seen_example : coherent cliW (among ths) ∧ blocks_commit tn_pos (among ths) ∧ (∀ v h, tn_time v h ≤ u64_max) ∧ hash_fun_ok (ch_hash ct_ch) ∧
  ∃ n d evs b w k w' evs', n ∈ ths ∧ esplora_honest (net n) (tn_time (net n)) (tn_server n) ∧
    (∀ sp, (length (w_mempool (net n) sp) ≤ 50)%nat ∧ (length (w_confirmed (net n) sp) < 25 * 1)%nat) ∧
    th_life (net n) d evs ∧ init 10 1 (Some 3) d None [] = Ret (b, Ok w) ∧
    ¬ no_hidden_reorg tn_pos (net n) (w_tracker w) ∧ seen_again tn_pos (net n) (sync_sought (net n) ct_default (w_tracker w)) (w_tracker w) ∧
    ct_show (w_tracker w) = (Some 122, [(External, 0, (21, 0), 100000, CtConfirmed 111 1600066600, None); (External, 1, (50, 0), 7000, CtUnconfirmed, None)]) ∧
    esplora_sync_cmd (λ _, tn_server n) 1 ct_ch ct_po ct_default 2 w 0%nat = Done k (w', evs', Ok tt) ∧ Forall (event_ok kcs_wf cliW) evs' ∧
    ct_show (w_tracker w') = (Some 124, [(External, 0, (21, 0), 100000, CtConfirmed 120 1600072000, None); (External, 1, (50, 0), 7000, CtConfirmed 113 1600067800, None)]).
Proof.
  split; [exact ths_coherent|]. split; [exact ths_commit|]. split; [intros v; exact rs_time_ok|]. split; [exact exho_ok|].
  destruct th_example as (n & d & evs & b & w & k & w' & evs' & Hn & Hrest). exists n, d, evs, b, w, k, w', evs'. split; [exact Hn|].
  split; [by apply ths_sound|]. split; [by apply ths_sound|exact Hrest].
Qed.

Print Assumptions C101_electrum_seen.
Print Assumptions C101_esplora_seen.
