(** C99, C100: the commands [sync] and [scan] of the esplora wallet, from the command line to the file. *)
From Verif Require Import CliEsploraExamples.
Local Open Scope N_scope.
Local Existing Instance kcs_codec.

Section cli.
Context `{!DescEnv, !CliEnv, !PlanModel.KeyEnv} `{!LeafCodecs Keychain ConfirmationTime, !LeafWf Keychain ConfirmationTime, !LeafOk Keychain ConfirmationTime}.
Context (W : Txid → list OutPoint) (dbg : bool) (limit : nat) (ext : Desc) (int : option Desc) (km : PlanModel.KeyMap).
Notation in_session := (in_session (P := ConfirmationTime) kcs_wf W dbg limit ext int km).
Implicit Types (w : CliModel.World ConfirmationTime) (v : ScanSpec.World) (srv : nat → PSnap) (po : SparseChain ConfirmationTime → list (Txid * ConfirmationTime)).

(** C99: as for electrum, but the network may have forgotten transactions of the wallet.  A script the command asks for
    has at most 50 unconfirmed transactions. *)
Theorem C99_esplora w pr evs v time srv fuel ch po f par : good_env (keychains ext int) → in_session w pr evs →
  world_ok v → world_sane W v → (∀ t a, w_tx v t = Some a → tx_ok a) → (∀ h, time h ≤ u64_max) → (∀ n, esplora_honest v time (srv n)) →
  fit_seen v (w_time_position v time) (sync_sought v f (w_tracker w)) (w_tracker w) →
  (∀ k d i sp, keychains ext int k = Some d → derive d i = Some sp → has_address sp = true) →
  (∀ ki sp, si_spk_at (ki_inner (tr_index (w_tracker w))) ki = Some sp → (length (w_mempool v sp) ≤ 50)%nat ∧ (length (w_confirmed v sp) < 25 * S fuel)%nat) →
  hash_fun_ok (ch_hash ch) → (∀ c, po c ≡ₚ map_to_list (sc_pos c)) → default NoFault (head (w_faults w)) = NoFault →
  ends (esplora_sync_cmd srv (S fuel) ch po f par w) (λ r, ∃ w' evs', r = (w', evs', Ok tt) ∧
    in_sync v (w_time_position v time) f (w_tracker w) (w_tracker w') ∧ (Forall (event_ok kcs_wf W) evs' → in_session w' pr (evs ++ evs'))).
Proof.
  intros HA Hs Hw Hsane Htx Htime Hsrv Hfit Haddr Hpage Hho Hpo Hf.
  exact (esplora_sync_command kcs_wf kcs_codec_ok kcs_range_default W dbg limit ext int km HA v time Hw Hsane Htx Htime w pr evs srv fuel ch po f par Hs Hfit Haddr Hpage Hsrv Hho Hpo Hf).
Qed.

(** C100: likewise; the scan finds the outputs at every script the network knows, up to the first stop gap. *)
Theorem C100_esplora w pr evs v time srv fuel ch po gap par : good_env (keychains ext int) → in_session w pr evs →
  world_ok v → world_sane W v → (∀ t a, w_tx v t = Some a → tx_ok a) → (∀ h, time h ≤ u64_max) → (∀ n, esplora_honest v time (srv n)) →
  fit_seen v (w_time_position v time) (of_scripts v (keychains ext int) (in_stop_gap v gap (keychains ext int))) (w_tracker w) →
  (∀ k d i sp, keychains ext int k = Some d → derive d i = Some sp → (length (w_mempool v sp) ≤ 50)%nat ∧ (length (w_confirmed v sp) < 25 * S fuel)%nat) →
  hash_fun_ok (ch_hash ch) → (∀ c, po c ≡ₚ map_to_list (sc_pos c)) → default NoFault (head (w_faults w)) = NoFault →
  ends (esplora_scan_cmd srv (S fuel) ch po gap par w) (λ r, ∃ w' evs', r = (w', evs', Ok tt) ∧
    caught_up v (w_time_position v time) (w_tracker w) (w_tracker w') (in_stop_gap v gap (keychains ext int)) ∧
    (Forall (event_ok kcs_wf W) evs' → in_session w' pr (evs ++ evs'))).
Proof.
  intros HA Hs Hw Hsane Htx Htime Hsrv Hfit Hpage Hho Hpo Hf.
  exact (esplora_scan_command kcs_wf kcs_codec_ok kcs_range_default W dbg limit ext int km HA v time Hw Hsane Htx Htime w pr evs srv fuel ch po gap par Hs Hfit Hpage Hsrv Hho Hpo Hf).
Qed.
End cli.

Local Existing Instances ex_env cli_env PlanExamples.toy_env.
(** A new wallet has shown two addresses; the first is paid, the second later, when the first payment is in a block, or forgotten. *)
Example C99_esplora_example : good_env (keychains 1 (Some 3)) ∧ ct_sound 110 ct_l1 ∧ ct_sound 120 ct_l2 ∧ ct_sound 120 ct_l3 ∧ (∀ h, rs_time h ≤ u64_max) ∧
  hash_fun_ok (ch_hash ct_ch) ∧ (∀ c, ct_po c ≡ₚ map_to_list (sc_pos c)) ∧
  (∀ k d i sp, keychains 1 (Some 3) k = Some d → derive d i = Some sp → has_address sp = true) ∧
  ∃ w pr evs n w1 evs1, ct_session w pr evs ∧ ct_ok 110 ct_l1 w ∧ ct_run 110 ct_l1 ct_default w = Done n (w1, evs1, Ok tt) ∧
    ct_show (w_tracker w1) = (Some 110, [(External, 0, (21, 0), 100000, CtUnconfirmed, None)]) ∧ ct_session w1 pr (evs ++ evs1) ∧
    (ct_ok 120 ct_l2 w1 ∧ ∃ n2 w2 evs2, ct_run 120 ct_l2 ct_default w1 = Done n2 (w2, evs2, Ok tt) ∧ Forall (event_ok kcs_wf cliW) evs2 ∧ ct_show (w_tracker w2) =
       (Some 120, [(External, 0, (21, 0), 100000, CtConfirmed 115 1600069000, None); (External, 1, (50, 0), 7000, CtUnconfirmed, None)])) ∧
    (ct_ok 120 ct_l3 w1 ∧ ∃ n3 w3 evs3, ct_run 120 ct_l3 ct_default w1 = Done n3 (w3, evs3, Ok tt) ∧ Forall (event_ok kcs_wf cliW) evs3 ∧ ct_show (w_tracker w3) =
       (Some 120, [(External, 0, (21, 0), 100000, CtUnconfirmed, None); (External, 1, (50, 0), 7000, CtConfirmed 113 1600067800, None)])).
Proof.
  split; [exact cli_good|]. split; [apply ct_sound_ok; by vm_compute|]. split; [apply ct_sound_ok; by vm_compute|]. split; [apply ct_sound_ok; by vm_compute|].
  split; [exact rs_time_ok|]. split; [exact exho_ok|]. split; [done|]. split; [exact cli_addresses|].
  destruct ct_example as (w & pr & evs & n & w1 & evs1 & Hs & H1 & E & Hw & Hs1 & H2 & H3 & _). exists w, pr, evs, n, w1, evs1.
  split; [exact Hs|]. split; [exact H1|]. split; [exact E|]. split; [exact Hw|]. split; [exact Hs1|].
  split; [exact (ct_then_ok _ _ _ _ H2)|exact (ct_then_ok _ _ _ _ H3)].
Qed.
(** The next payment goes to an address the wallet has not shown: the scan finds it. *)
Example C100_esplora_example : ct_sound 120 ct_l4 ∧ ∃ w pr evs, ct_session w pr evs ∧ ct_ok 120 ct_l4 w ∧
  ct_show (w_tracker w) = (Some 110, [(External, 0, (21, 0), 100000, CtUnconfirmed, None)]) ∧
  ∃ n w' evs', esplora_scan_cmd (λ _, esplora ct_w4 rs_time (list_ids ct_l4)) 1 ct_ch ct_po 5 2 w 0%nat = Done n (w', evs', Ok tt) ∧
    ∃ g, owned (w_tracker w') (External, 3) g ∧ fto_outpoint g = mkOutPoint 50 0 ∧ fto_txout g = mkTxOut 7000 (exs 1 3).
Proof.
  assert (ct_sound 120 ct_l4) as Hsound by (apply ct_sound_ok; by vm_compute). split; [exact Hsound|]. destruct Hsound as (S1 & S2 & S3 & S4 & S5).
  destruct ct_example as (w0 & pr & evs & n & w & evs1 & _ & _ & _ & Hw & Hs & _ & _ & Hok). exists w, pr, (evs ++ evs1).
  split; [exact Hs|]. split; [exact Hok|]. split; [exact Hw|].
  destruct (C100_esplora cliW true 10 1 (Some 3) cli_km w pr (evs ++ evs1) ct_w4 rs_time (λ _, esplora ct_w4 rs_time (list_ids ct_l4)) 0 ct_ch ct_po 5 2 cli_good Hs
    S1 S2 S3 rs_time_ok (λ _, S4) (fit_for_seen _ _ _ _ (co_fit _ _ _ Hok)) (λ _ _ _ sp _ _, S5 sp) exho_ok ltac:(done) ltac:(by rewrite (co_faults _ _ _ Hok)) 0%nat)
    as (n' & r & E & w' & evs' & -> & Hc & _).
  exists n', w', evs'. split; [exact E|]. destruct Hc as (_ & _ & _ & Hfound & _).
  destruct (Hfound (mkOutPoint 50 0) (cs50 3) (mkTxOut 7000 (exs 1 3)) External 3) as (g & ? & ? & ? & _); try done; [exact ct_in_gap|exact (ct_paid _ _ _ Hs)| |by exists g].
  exact (co_seen _ _ _ Hok _ (mkOutPoint 50 0) (cs50 3) (mkTxOut 7000 (exs 1 3)) External 3 eq_refl eq_refl ct_in_gap (ct_paid _ _ _ Hs)).
Qed.

Print Assumptions C99_esplora.
Print Assumptions C100_esplora.
