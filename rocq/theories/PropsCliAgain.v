(** C114: a command repeated with an unchanged network. *)
From Verif Require Import AgainCliExamples.
Local Open Scope N_scope.
Local Existing Instance kcs_codec.

Section cli.
Context `{!DescEnv, !CliEnv, !PlanModel.KeyEnv} `{!LeafCodecs Keychain TxHeight, !LeafWf Keychain TxHeight, !LeafOk Keychain TxHeight}.
Context (W : Txid → list OutPoint) (dbg : bool) (limit : nat) (ext : Desc) (int : option Desc) (km : PlanModel.KeyMap).
Notation in_session := (in_session (P := TxHeight) kcs_wf W dbg limit ext int km).
Implicit Types (w : CliModel.World TxHeight) (v : ScanSpec.World) (srv : nat → ESnap) (po : SparseChain TxHeight → list (Txid * TxHeight)).

(** C114: after a [scan] that succeeded, in any state of any session, a second [scan] of the same network with the same gap or
    a smaller one succeeds, whatever the batch size, hash orders and faults of the store, and changes nothing: neither the
    wallet nor the file. *)
Theorem C114_scan w pr evs v srv fuel ch po gap batch n n' w' evs' : good_env (keychains ext int) → in_session w pr evs →
  world_ok v → world_sane W v → (∀ t a, w_tx v t = Some a → tx_ok a) → (∀ n, electrum_honest v (srv n)) →
  fit_seen v (w_position v) (of_scripts v (keychains ext int) (in_gap v gap (keychains ext int))) (w_tracker w) →
  hash_fun_ok (ch_hash ch) → (∀ c, po c ≡ₚ map_to_list (sc_pos c)) → (0 < batch)%nat →
  electrum_scan dbg srv (S fuel) ch po gap batch w n = Done n' (w', evs', Ok tt) →
  ∀ srv2 fuel2 ch2 po2 gap2 batch2, gap2 ≤ gap → (∀ n, electrum_honest v (srv2 n)) → hash_fun_ok (ch_hash ch2) →
  (∀ c, po2 c ≡ₚ map_to_list (sc_pos c)) → (0 < batch2)%nat →
  ends (electrum_scan dbg srv2 (S fuel2) ch2 po2 gap2 batch2 w') (λ r, ∃ w2 evs2, r = (w2, evs2, Ok tt) ∧
    w_tracker w2 = w_tracker w' ∧ w_file w2 = w_file w').
Proof.
  intros HA Hs Hw Hsane Htx Hsrv Hfit Hho Hpo Hb E srv2 fuel2 ch2 po2 gap2 batch2 Hgap Hsrv2 Hho2 Hpo2 Hb2.
  destruct (session_good kcs_wf kcs_codec_ok kcs_range_default W dbg limit ext int km HA w pr evs Hs) as [Hg _].
  exact (scan_again W dbg ext int HA v Hw Hsane Htx w w' srv fuel ch po gap batch n n' evs' srv2 dbg fuel2 ch2 po2 gap2 batch2
    Hg Hfit Hsrv Hho Hpo Hb E Hgap Hsrv2 Hho2 Hpo2 Hb2).
Qed.

(** C114: [sync] may find more when repeated (below).  Once it has left the wallet as it was, the unspent outputs it asked for
    are as the network has them, and unspent there. *)
Theorem C114_settled w pr evs v srv fuel ch po f batch n n' w' evs' : good_env (keychains ext int) → in_session w pr evs →
  world_ok v → world_sane W v → (∀ t a, w_tx v t = Some a → tx_ok a) → (∀ n, electrum_honest v (srv n)) →
  fit_seen v (w_position v) (sync_sought v f (w_tracker w)) (w_tracker w) →
  (∀ ki g, unspent (w_tracker w) ki g → is_Some (w_tx v (op_txid (fto_outpoint g)))) →
  (∀ k d i sp, keychains ext int k = Some d → derive d i = Some sp → has_address sp = true) →
  hash_fun_ok (ch_hash ch) → (∀ c, po c ≡ₚ map_to_list (sc_pos c)) → (0 < batch)%nat → default NoFault (head (w_faults w)) = NoFault →
  sf_utxos (sync_flags f) = true →
  electrum_sync dbg srv (S fuel) ch po f batch w n = Done n' (w', evs', Ok tt) → w_tracker w' = w_tracker w →
  ∀ ki g, unspent (w_tracker w) ki g → true_output v (w_position v) g ∧ ¬ w_spent v (fto_outpoint g).
Proof.
  intros HA Hs Hw Hsane Htx Hsrv Hfit Hknown Haddr Hho Hpo Hb Hf Hu E Ex ki g Hg.
  destruct (sync_command kcs_wf kcs_codec_ok kcs_range_default W dbg limit ext int km HA v Hw Hsane Htx w pr evs srv fuel ch po f batch
    Hs Hfit (λ _, Hknown) Haddr Hsrv Hho Hpo Hb Hf n) as (n2 & r & E2 & w2 & evs2 & Er & Hin & _).
  rewrite E in E2. injection E2 as _ E2. rewrite Er in E2. injection E2 as Ew _. rewrite <- Ew, Ex in Hin.
  exact (sync_settled v (w_position v) f (w_tracker w) ki g Hin Hu Hg (Hknown ki g Hg)).
Qed.
End cli.
Print Assumptions C114_scan.
Print Assumptions C114_settled.

Local Existing Instances ex_env cli_env PlanExamples.toy_env.
(** The wallet of C100's example: the first scan succeeds and finds two outputs, so there is a second one. *)
Example C114_scan_ex : good_env (keychains 1 (Some 3)) ∧ cs_sound (cs_w 1 7) ∧ hash_fun_ok (ch_hash cli_ch) ∧ (∀ c, cs_po c ≡ₚ map_to_list (sc_pos c)) ∧
  ∃ w pr evs n w' evs', in_session kcs_wf cliW true 10 1 (Some 3) cli_km w pr evs ∧ fit_for (cs_w 1 7) (w_position (cs_w 1 7)) (w_tracker w) ∧
    electrum_scan true (λ _, ScanExamples.honest (cs_w 1 7)) 1 cli_ch cs_po 2 2 w 0%nat = Done n (w', evs', Ok tt) ∧
    cs_show (w_tracker w) = (Some 110, [(External, 0, (21, 0), 100000, Confirmed 105, None)]) ∧
    tip_is (w_tracker w') 120.
Proof. exact again_scanned. Qed.
(** C114 is false of [sync] without flags.  The network has spent what the wallet gets to know of only by a first sync: the balance is wrong after that, right after a
    second one, and a third one changes nothing ([C114_settled] applies to it). *)
Theorem C114_sync_refuted : good_env (keychains 1 (Some 3)) ∧ cs_sound again_w ∧
  ∃ w pr evs n w' evs' n2 w2 evs2 n3 w3 evs3, in_session kcs_wf cliW true 10 1 (Some 3) cli_km w pr evs ∧ cs_ready again_w w ∧
  again_sync w = Done n (w', evs', Ok tt) ∧
  cs_show (w_tracker w') =
    (Some 120, [(External, 0, (21, 0), 100000, Confirmed 105, Some 41000); (External, 0, (41000, 1), 59000, Confirmed 112, None)]) ∧
  in_session kcs_wf cliW true 10 1 (Some 3) cli_km w' pr (evs ++ evs') ∧ cs_ready again_w w' ∧
  again_sync w' = Done n2 (w2, evs2, Ok tt) ∧
  cs_show (w_tracker w2) =
    (Some 120, [(External, 0, (21, 0), 100000, Confirmed 105, Some 41000); (External, 0, (21000, 1), 500, Confirmed 115, None);
      (External, 0, (41000, 1), 59000, Confirmed 112, Some 21000)]) ∧
  in_session kcs_wf cliW true 10 1 (Some 3) cli_km w2 pr ((evs ++ evs') ++ evs2) ∧ cs_ready again_w w2 ∧
  again_sync w2 = Done n3 (w3, evs3, Ok tt) ∧ w_tracker w3 = w_tracker w2.
Proof. exact (conj cli_good (conj again_sound again_found)). Qed.
Print Assumptions C114_scan_ex.
Print Assumptions C114_sync_refuted.
