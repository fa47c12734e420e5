(** C99, C100: the commands [sync] and [scan] of the electrum wallet, from the command line to the file. *)
From Verif Require Import CliSyncExamples.
Local Open Scope N_scope.
Local Existing Instance kcs_codec.

Section cli.
Context `{!DescEnv, !CliEnv, !PlanModel.KeyEnv} `{!LeafCodecs Keychain TxHeight, !LeafWf Keychain TxHeight, !LeafOk Keychain TxHeight}.
Context (W : Txid → list OutPoint) (dbg : bool) (limit : nat) (ext : Desc) (int : option Desc) (km : PlanModel.KeyMap).
Notation in_session := (in_session (P := TxHeight) kcs_wf W dbg limit ext int km).
Implicit Types (w : CliModel.World TxHeight) (v : ScanSpec.World) (srv : nat → ESnap) (po : SparseChain TxHeight → list (Txid * TxHeight)).

(** C99: [sync] with a server that tells the truth succeeds in every state of every session, in which the wallet does not
    contradict the network, unless it is about transactions the command has to find; afterwards the wallet has the tip, its unconfirmed transactions are where the network has
    them, it knows what became of its unspent outputs, and has every output at the scripts the flags ask for, except those it
    has overlooked before: of transactions it had before it stored the script. *)
Theorem C99_sync w pr evs v srv fuel ch po f batch : good_env (keychains ext int) → in_session w pr evs →
  world_ok v → world_sane W v → (∀ t a, w_tx v t = Some a → tx_ok a) → (∀ n, electrum_honest v (srv n)) →
  fit_seen v (w_position v) (sync_sought v f (w_tracker w)) (w_tracker w) →
  (sf_utxos (sync_flags f) = true → ∀ ki g, unspent (w_tracker w) ki g → is_Some (w_tx v (op_txid (fto_outpoint g)))) →
  (∀ k d i sp, keychains ext int k = Some d → derive d i = Some sp → has_address sp = true) →
  hash_fun_ok (ch_hash ch) → (∀ c, po c ≡ₚ map_to_list (sc_pos c)) → (0 < batch)%nat → default NoFault (head (w_faults w)) = NoFault →
  ends (electrum_sync dbg srv (S fuel) ch po f batch w) (λ r, ∃ w' evs', r = (w', evs', Ok tt) ∧
    in_sync v (w_position v) f (w_tracker w) (w_tracker w') ∧ (Forall (event_ok kcs_wf W) evs' → in_session w' pr (evs ++ evs'))).
Proof.
  intros HA Hs Hw Hsane Htx Hsrv Hfit Hknown Haddr Hho Hpo Hb Hf.
  exact (sync_command kcs_wf kcs_codec_ok kcs_range_default W dbg limit ext int km HA v Hw Hsane Htx w pr evs srv fuel ch po f batch Hs Hfit Hknown Haddr Hsrv Hho Hpo Hb Hf).
Qed.

(** C100: [scan] likewise; it looks at the scripts of both descriptors one after the other, and finds the outputs at every
    script the network knows, up to the first gap. *)
Theorem C100_scan w pr evs v srv fuel ch po gap batch : good_env (keychains ext int) → in_session w pr evs →
  world_ok v → world_sane W v → (∀ t a, w_tx v t = Some a → tx_ok a) → (∀ n, electrum_honest v (srv n)) →
  fit_seen v (w_position v) (of_scripts v (keychains ext int) (in_gap v gap (keychains ext int))) (w_tracker w) →
  hash_fun_ok (ch_hash ch) → (∀ c, po c ≡ₚ map_to_list (sc_pos c)) → (0 < batch)%nat → default NoFault (head (w_faults w)) = NoFault →
  ends (electrum_scan dbg srv (S fuel) ch po gap batch w) (λ r, ∃ w' evs', r = (w', evs', Ok tt) ∧
    caught_up v (w_position v) (w_tracker w) (w_tracker w') (in_gap v gap (keychains ext int)) ∧
    (Forall (event_ok kcs_wf W) evs' → in_session w' pr (evs ++ evs'))).
Proof.
  intros HA Hs Hw Hsane Htx Hsrv Hfit Hho Hpo Hb Hf.
  exact (scan_command kcs_wf kcs_codec_ok kcs_range_default W dbg limit ext int km HA v Hw Hsane Htx w pr evs srv fuel ch po gap batch Hs Hfit Hsrv Hho Hpo Hb Hf).
Qed.
End cli.

Local Existing Instances ex_env cli_env PlanExamples.toy_env.
(** The wallet has sent 40000 and shown a second address; the network has the transaction in a block, and a payment to the address. *)
Example C99_example : good_env (keychains 1 (Some 3)) ∧ cs_sound (cs_w 1 7) ∧ hash_fun_ok (ch_hash cli_ch) ∧ (∀ c, cs_po c ≡ₚ map_to_list (sc_pos c)) ∧
  (∀ k d i sp, keychains 1 (Some 3) k = Some d → derive d i = Some sp → has_address sp = true) ∧
  ∃ w pr evs n w' evs', in_session kcs_wf cliW true 10 1 (Some 3) cli_km w pr evs ∧ cs_ready (cs_w 1 7) w ∧
    electrum_sync true (λ _, ScanExamples.honest (cs_w 1 7)) 2 cli_ch cs_po cs_default 2 w 0%nat = Done n (w', evs', Ok tt) ∧ Forall (event_ok kcs_wf cliW) evs' ∧
    cs_show (w_tracker w) = (Some 110, [(External, 0, (21, 0), 100000, Confirmed 105, Some 41000); (Internal, 0, (41000, 1), 59692, Unconfirmed, None)]) ∧
    cs_show (w_tracker w') = (Some 120, [(External, 0, (21, 0), 100000, Confirmed 105, Some 41000); (External, 1, (50, 0), 7000, Unconfirmed, None);
      (Internal, 0, (41000, 1), 59692, Confirmed 115, None)]).
Proof.
  split; [exact cli_good|]. split; [apply cs_sound_ok; by vm_compute|]. split; [exact exho_ok|]. split; [exact cs_po_ok|]. split; [exact cli_addresses|]. exact cs_example.
Qed.
(** Without flags it misses a payment to an address which is used already; *)
Theorem C99_used_refuted : cs_sound (cs_w 0 7) ∧ ∃ w pr evs n w' evs', in_session kcs_wf cliW true 10 1 (Some 3) cli_km w pr evs ∧ cs_ready (cs_w 0 7) w ∧
  electrum_sync true (λ _, ScanExamples.honest (cs_w 0 7)) 2 cli_ch cs_po cs_default 2 w 0%nat = Done n (w', evs', Ok tt) ∧
  si_spk_at (ki_inner (tr_index (w_tracker w))) (External, 0) = Some (exs 1 0) ∧ world_pays (cs_w 0 7) (mkOutPoint 50 0) (exs 1 0) ∧
  ∀ ki' g, owned (w_tracker w') ki' g → fto_outpoint g ≠ mkOutPoint 50 0.
Proof. split; [apply cs_sound_ok; by vm_compute|exact cs_used]. Qed.
(** with [--all] it misses an output of a transaction the wallet had before it stored the script; *)
Theorem C99_indexed_refuted : cs_sound (cs_w 1 (exs 1 4)) ∧ ∃ w pr evs n w' evs', in_session kcs_wf cliW true 10 1 (Some 3) cli_km w pr evs ∧
  fit_for (cs_w 1 (exs 1 4)) (w_position (cs_w 1 (exs 1 4))) (w_tracker w) ∧
  electrum_sync true (λ _, ScanExamples.honest (cs_w 1 (exs 1 4))) 2 cli_ch cs_po cs_all 2 w 0%nat = Done n (w', evs', Ok tt) ∧
  si_spk_at (ki_inner (tr_index (w_tracker w))) (External, 4) = Some (exs 1 4) ∧ world_pays (cs_w 1 (exs 1 4)) (mkOutPoint 41000 0) (exs 1 4) ∧
  ∀ ki' g, owned (w_tracker w') ki' g → fto_outpoint g ≠ mkOutPoint 41000 0.
Proof. split; [apply cs_sound_ok; by vm_compute|exact cs_unindexed]. Qed.
(** and it fails as long as the wallet has an output of a transaction of its own which the network does not know. *)
Theorem C99_forgotten_refuted : cs_sound cs_gone ∧ ∃ w pr evs n, in_session kcs_wf cliW true 10 1 (Some 3) cli_km w pr evs ∧
  fit_for cs_gone (w_position cs_gone) (w_tracker w) ∧ none_overlooked cs_gone (watched (w_tracker w)) (w_tracker w) ∧ w_faults w = [] ∧
  electrum_sync true (λ _, ScanExamples.honest cs_gone) 2 cli_ch cs_po cs_default 2 w 0%nat = Failed n Protocol.
Proof. split; [apply cs_sound_ok; by vm_compute|exact cs_fails]. Qed.

(** Another copy of the wallet has shown an address and sent 40000: the scan finds its change and the payment to the address. *)
Example C100_example : good_env (keychains 1 (Some 3)) ∧ cs_sound (cs_w 1 7) ∧ ∃ w pr evs, in_session kcs_wf cliW true 10 1 (Some 3) cli_km w pr evs ∧
  fit_for (cs_w 1 7) (w_position (cs_w 1 7)) (w_tracker w) ∧ none_overlooked (cs_w 1 7) (in_gap (cs_w 1 7) 2 (keychains 1 (Some 3))) (w_tracker w) ∧ w_faults w = [] ∧
  cs_show (w_tracker w) = (Some 110, [(External, 0, (21, 0), 100000, Confirmed 105, None)]) ∧
  ∃ n w' evs', electrum_scan true (λ _, ScanExamples.honest (cs_w 1 7)) 1 cli_ch cs_po 2 2 w 0%nat = Done n (w', evs', Ok tt) ∧
    (∃ g, owned (w_tracker w') (External, 1) g ∧ fto_outpoint g = mkOutPoint 50 0 ∧ fto_txout g = mkTxOut 7000 (exs 1 1)) ∧
    (∃ g, owned (w_tracker w') (Internal, 0) g ∧ fto_outpoint g = mkOutPoint 41000 1 ∧ fto_txout g = mkTxOut 59692 (exs 3 0)).
Proof.
  split; [exact cli_good|]. assert (cs_sound (cs_w 1 7)) as Hs by (apply cs_sound_ok; by vm_compute). split; [exact Hs|].
  destruct Hs as (Hw & Hsane & Htx & Hsrv). destruct cs_scan_ready as (w & pr & evs & Hs & Hfit & Hix & Hf & Hshow).
  exists w, pr, evs. split; [exact Hs|]. split; [exact Hfit|]. split; [exact Hix|]. split; [exact Hf|]. split; [exact Hshow|].
  destruct (C100_scan cliW true 10 1 (Some 3) cli_km w pr evs (cs_w 1 7) (λ _, ScanExamples.honest (cs_w 1 7)) 0 cli_ch cs_po 2 2 cli_good Hs Hw Hsane Htx (λ _, Hsrv)
    (fit_for_seen _ _ _ _ Hfit) exho_ok cs_po_ok ltac:(lia) ltac:(rewrite Hf; done) 0%nat) as (n & r & E & w' & evs' & -> & Hc & _).
  exists n, w', evs'. split; [exact E|]. destruct Hc as (_ & _ & _ & Hfound & _). destruct cs_scripts_known as (_ & K1 & K2).
  assert (in_gap (cs_w 1 7) 2 (keychains 1 (Some 3)) External 1) as G1 by (apply cs_in_gap; [lia|exact K1]).
  assert (in_gap (cs_w 1 7) 2 (keychains 1 (Some 3)) Internal 0) as G2 by (apply cs_in_gap; [lia|exact K2]).
  pose proof (cs_paid w pr evs Hs External 1 7000 ltac:(lia)) as P1. pose proof (cs_paid w pr evs Hs Internal 0 59692 ltac:(lia)) as P2.
  split; [destruct (Hfound (mkOutPoint 50 0) (cs50 1) (mkTxOut 7000 (exs 1 1)) External 1) as (g & ? & ? & ? & _)|
          destruct (Hfound (mkOutPoint 41000 1) (cs_sent 7) (mkTxOut 59692 (exs 3 0)) Internal 0) as (g & ? & ? & ? & _)]; try done; try (by exists g).
  - by apply (Hix (mkOutPoint 50 0) (cs50 1) (mkTxOut 7000 (exs 1 1)) External 1).
  - by apply (Hix (mkOutPoint 41000 1) (cs_sent 7) (mkTxOut 59692 (exs 3 0)) Internal 0).
Qed.

Print Assumptions C99_sync.
Print Assumptions C99_used_refuted.
Print Assumptions C99_indexed_refuted.
Print Assumptions C99_forgotten_refuted.
Print Assumptions C100_scan.
