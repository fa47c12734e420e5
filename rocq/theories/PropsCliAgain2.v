(** C114, C115: a command of the esplora wallet repeated with an unchanged network. *)
From Verif Require Import SettleEsploraExamples.
Local Open Scope N_scope.
Local Existing Instance kcs_codec.

Section cli.
Context `{!DescEnv, !CliEnv, !PlanModel.KeyEnv} `{!LeafCodecs Keychain ConfirmationTime, !LeafWf Keychain ConfirmationTime, !LeafOk Keychain ConfirmationTime}.
Context (W : Txid → list OutPoint) (dbg : bool) (limit : nat) (ext : Desc) (int : option Desc) (km : PlanModel.KeyMap).
Notation in_session := (in_session (P := ConfirmationTime) kcs_wf W dbg limit ext int km).
Implicit Types (w : CliModel.World ConfirmationTime) (v : ScanSpec.World) (srv : nat → PSnap) (po : SparseChain ConfirmationTime → list (Txid * ConfirmationTime)).

(** C114: after a [scan] that succeeded, in any state of any session, a second [scan] of the same network that looks no further (the same gap and number of
    parallel requests, or a gap so small that the last batch stays within the first one) succeeds, whatever the hash orders and faults of the store, and changes nothing: neither
    the wallet nor the file. *)
Theorem C114_scan_esplora w pr evs v time srv fuel ch po gap par n n' w' evs' : good_env (keychains ext int) → in_session w pr evs →
  world_ok v → world_sane W v → (∀ t a, w_tx v t = Some a → tx_ok a) → (∀ h, time h ≤ u64_max) →
  (∀ n, esplora_honest v time (srv n)) → pages_fit v (keychains ext int) fuel →
  fit_seen v (w_time_position v time) (of_scripts v (keychains ext int) (in_stop_gap v gap (keychains ext int))) (w_tracker w) →
  hash_fun_ok (ch_hash ch) → (∀ c, po c ≡ₚ map_to_list (sc_pos c)) →
  esplora_scan_cmd srv (S fuel) ch po gap par w n = Done n' (w', evs', Ok tt) →
  ∀ srv2 fuel2 ch2 po2 gap2 par2, no_further gap par gap2 par2 → (∀ n, esplora_honest v time (srv2 n)) → pages_fit v (keychains ext int) fuel2 →
  hash_fun_ok (ch_hash ch2) → (∀ c, po2 c ≡ₚ map_to_list (sc_pos c)) →
  ends (esplora_scan_cmd srv2 (S fuel2) ch2 po2 gap2 par2 w') (λ r, ∃ w2 evs2, r = (w2, evs2, Ok tt) ∧
    w_tracker w2 = w_tracker w' ∧ w_file w2 = w_file w').
Proof.
  intros HA Hs Hw Hsane Htx Htime Hsrv Hpg Hfit Hho Hpo E srv2 fuel2 ch2 po2 gap2 par2 Hno Hsrv2 Hpg2 Hho2 Hpo2.
  destruct (session_good kcs_wf kcs_codec_ok kcs_range_default W dbg limit ext int km HA w pr evs Hs) as [Hg _].
  exact (esplora_scan_again W ext int HA v time Hw Hsane Htx Htime w w' srv fuel ch po gap par n n' evs' srv2 fuel2 ch2 po2 gap2 par2
    Hg Hfit Hpg Hsrv Hho Hpo E Hno Hpg2 Hsrv2 Hho2 Hpo2).
Qed.

(** C115: in any state of any session whose transactions the network all knows, however often one has synchronised, the next
    [sync] succeeds too as long as the store does not fail. *)
Theorem C115_goes_on_esplora w pr evs v time f n w' srv fuel ch po par : good_env (keychains ext int) → in_session w pr evs →
  world_ok v → world_sane W v → (∀ t a, w_tx v t = Some a → tx_ok a) → (∀ h, time h ≤ u64_max) →
  (∀ k d i sp, keychains ext int k = Some d → derive d i = Some sp → has_address sp = true) →
  fit_seen v (w_time_position v time) (sync_sought v f (w_tracker w)) (w_tracker w) → all_known v (w_tracker w) →
  esplora_again v time (keychains ext int) f n w w' →
  (∀ n, esplora_honest v time (srv n)) → pages_fit v (keychains ext int) fuel → hash_fun_ok (ch_hash ch) → (∀ c, po c ≡ₚ map_to_list (sc_pos c)) →
  default NoFault (head (w_faults w')) = NoFault →
  ends (esplora_sync_cmd srv (S fuel) ch po f par w') (λ r, ∃ w2 evs2, r = (w2, evs2, Ok tt) ∧ w_faults w2 = tail (w_faults w') ∧
    esplora_again v time (keychains ext int) f (S n) w w2).
Proof.
  intros HA Hs Hw Hsane Htx Htime Haddr Hfit Hk Hn Hsrv Hpg Hho Hpo Hf.
  destruct (session_good kcs_wf kcs_codec_ok kcs_range_default W dbg limit ext int km HA w pr evs Hs) as [Hg _].
  exact (esyncs_go_on W ext int HA v time Hw Hsane Htx Htime Haddr f n w w' srv fuel ch po par Hg Hfit Hk Hn Hsrv Hpg Hho Hpo Hf).
Qed.
(** C115: after more of them than the network has transactions, every further [sync] with these flags succeeds and changes
    neither the wallet nor the file, at any honest server, whatever the number of parallel requests, hash orders and faults of the store. *)
Theorem C115_settles_esplora w pr evs v time f (L : list Txid) n w' : good_env (keychains ext int) → in_session w pr evs →
  world_ok v → world_sane W v → (∀ t a, w_tx v t = Some a → tx_ok a) → (∀ h, time h ≤ u64_max) →
  (∀ k d i sp, keychains ext int k = Some d → derive d i = Some sp → has_address sp = true) →
  fit_seen v (w_time_position v time) (sync_sought v f (w_tracker w)) (w_tracker w) → all_known v (w_tracker w) →
  (∀ t, is_Some (w_tx v t) ↔ t ∈ L) → esplora_again v time (keychains ext int) f n w w' → (length L < n)%nat →
  ∀ srv fuel ch po par, (∀ n, esplora_honest v time (srv n)) → pages_fit v (keychains ext int) fuel → hash_fun_ok (ch_hash ch) → (∀ c, po c ≡ₚ map_to_list (sc_pos c)) →
  ends (esplora_sync_cmd srv (S fuel) ch po f par w') (λ r, ∃ w2 evs2, r = (w2, evs2, Ok tt) ∧
    w_tracker w2 = w_tracker w' ∧ w_file w2 = w_file w').
Proof.
  intros HA Hs Hw Hsane Htx Htime Haddr Hfit Hk HL Hn Hlen srv fuel ch po par Hsrv Hpg Hho Hpo.
  destruct (session_good kcs_wf kcs_codec_ok kcs_range_default W dbg limit ext int km HA w pr evs Hs) as [Hg _].
  destruct (esyncs_settle W ext int HA v time Hw Hsane Htx Htime Haddr f L n w w' Hg Hfit Hk HL Hn Hlen) as [Hc Ha].
  exact (esync_nothing W ext int HA v time Hw Hsane Htx Htime Haddr w' srv fuel ch po f par Hc Ha Hsrv Hpg Hho Hpo).
Qed.
(** C115: the wallet then has what a [sync] promises (C99) of the wallet before it: if unspent outputs are asked for, every
    output it takes for unspent is where the network has it, and unspent there. *)
Theorem C115_right_esplora w pr evs v time f (L : list Txid) n w' : good_env (keychains ext int) → in_session w pr evs →
  world_ok v → world_sane W v → (∀ t a, w_tx v t = Some a → tx_ok a) → (∀ h, time h ≤ u64_max) →
  (∀ k d i sp, keychains ext int k = Some d → derive d i = Some sp → has_address sp = true) →
  fit_seen v (w_time_position v time) (sync_sought v f (w_tracker w)) (w_tracker w) → all_known v (w_tracker w) →
  (∀ t, is_Some (w_tx v t) ↔ t ∈ L) → esplora_again v time (keychains ext int) f n w w' → (length L < n)%nat →
  in_sync v (w_time_position v time) f (w_tracker w') (w_tracker w') ∧
  (sf_utxos (sync_flags f) = true → ∀ ki g, unspent (w_tracker w') ki g → true_output v (w_time_position v time) g ∧ ¬ w_spent v (fto_outpoint g)).
Proof.
  intros HA Hs Hw Hsane Htx Htime Haddr Hfit Hk HL Hn Hlen.
  destruct (session_good kcs_wf kcs_codec_ok kcs_range_default W dbg limit ext int km HA w pr evs Hs) as [Hg _].
  destruct (esyncs_right W ext int HA v time Hw Hsane Htx Htime Haddr f L n w w' Hg Hfit Hk HL Hn Hlen) as [Hk' Hin].
  exact (conj Hin (λ Hu ki g Hun, sync_settled v (w_time_position v time) f (w_tracker w') ki g Hin Hu Hun (esplora_known_unspent v (w_tracker w') ki g Hk' Hun))).
Qed.
End cli.
Print Assumptions C114_scan_esplora.
Print Assumptions C115_goes_on_esplora.
Print Assumptions C115_settles_esplora.
Print Assumptions C115_right_esplora.

Local Existing Instances ex_env cli_env PlanExamples.toy_env.
(** The wallet of C100's example: its scan with gap 5 and two requests at a time succeeds, so a second one changes nothing, be it the same or with gap 3. *)
Example C114_scan_esplora_ex : ct_sound 120 ct_l4 ∧ pages_fit ct_w4 (keychains 1 (Some 3)) 0 ∧ no_further 5 2 3 2 ∧
  ∃ w pr evs n w' evs', ct_session w pr evs ∧ ct_ok 120 ct_l4 w ∧
    esplora_scan_cmd (λ _, esplora ct_w4 rs_time (list_ids ct_l4)) 1 ct_ch ct_po 5 2 w 0%nat = Done n (w', evs', Ok tt) ∧
    ct_show (w_tracker w) = (Some 110, [(External, 0, (21, 0), 100000, CtUnconfirmed, None)]) ∧ tip_is (w_tracker w') 120.
Proof. exact et_scanned. Qed.
(** A network of four transactions: the balance is right after five synchronisations, and was not after the first. *)
Example C115_esplora_ex : good_env (keychains 1 (Some 3)) ∧ ct_sound 120 again_l ∧ (∀ t, is_Some (w_tx et_w t) ↔ t ∈ settle_L) ∧
  (∀ k d i sp, keychains 1 (Some 3) k = Some d → derive d i = Some sp → has_address sp = true) ∧ sf_utxos (sync_flags ct_default) = true ∧
  ∃ w pr evs w1 w5, ct_session w pr evs ∧ ct_ok 120 again_l w ∧ all_known et_w (w_tracker w) ∧
  esplora_again et_w rs_time (keychains 1 (Some 3)) ct_default 1 w w1 ∧ esplora_again et_w rs_time (keychains 1 (Some 3)) ct_default 5 w w5 ∧
  ct_show (w_tracker w) = (Some 110, [(External, 0, (21, 0), 100000, CtUnconfirmed, None)]) ∧
  ct_show (w_tracker w1) = (Some 120, [(External, 0, (21, 0), 100000, CtConfirmed 105 1600063000, Some 41000); (External, 0, (41000, 1), 59000, CtConfirmed 112 1600067200, None)]) ∧
  ct_show (w_tracker w5) = (Some 120, [(External, 0, (21, 0), 100000, CtConfirmed 105 1600063000, Some 41000); (External, 0, (21000, 1), 500, CtConfirmed 115 1600069000, None);
    (External, 0, (41000, 1), 59000, CtConfirmed 112 1600067200, Some 21000)]).
Proof. exact (conj cli_good (conj et_sound (conj settle_L_all (conj cli_addresses (conj eq_refl et_found))))). Qed.
Print Assumptions C114_scan_esplora_ex.
Print Assumptions C115_esplora_ex.
