(** C115: synchronisations repeated with an unchanged network. *)
From Verif Require Import SettleExamples.
Local Open Scope N_scope.
Local Existing Instance kcs_codec.

Section cli.
Context `{!DescEnv, !CliEnv, !PlanModel.KeyEnv} `{!LeafCodecs Keychain TxHeight, !LeafWf Keychain TxHeight, !LeafOk Keychain TxHeight}.
Context (W : Txid → list OutPoint) (dbg : bool) (limit : nat) (ext : Desc) (int : option Desc) (km : PlanModel.KeyMap).
Notation in_session := (in_session (P := TxHeight) kcs_wf W dbg limit ext int km).
Implicit Types (w : CliModel.World TxHeight) (v : ScanSpec.World) (srv : nat → ESnap) (po : SparseChain TxHeight → list (Txid * TxHeight)).

(** C115: in any state of any session whose transactions the network all knows, however often one has synchronised, the next
    [sync] succeeds too as long as the store does not fail. *)
Theorem C115_goes_on w pr evs v f n w' srv fuel ch po batch : good_env (keychains ext int) → in_session w pr evs →
  world_ok v → world_sane W v → (∀ t a, w_tx v t = Some a → tx_ok a) →
  (∀ k d i sp, keychains ext int k = Some d → derive d i = Some sp → has_address sp = true) →
  fit_seen v (w_position v) (sync_sought v f (w_tracker w)) (w_tracker w) → all_known v (w_tracker w) → syncs dbg v f n w w' →
  (∀ n, electrum_honest v (srv n)) → hash_fun_ok (ch_hash ch) → (∀ c, po c ≡ₚ map_to_list (sc_pos c)) → (0 < batch)%nat →
  default NoFault (head (w_faults w')) = NoFault →
  ends (electrum_sync dbg srv (S fuel) ch po f batch w') (λ r, ∃ w2 evs2, r = (w2, evs2, Ok tt) ∧ w_faults w2 = tail (w_faults w') ∧ syncs dbg v f (S n) w w2).
Proof.
  intros HA Hs Hw Hsane Htx Haddr Hfit Hk Hn Hsrv Hho Hpo Hb Hf.
  destruct (session_good kcs_wf kcs_codec_ok kcs_range_default W dbg limit ext int km HA w pr evs Hs) as [Hg _].
  exact (syncs_go_on W dbg ext int HA v Hw Hsane Htx Haddr f n w w' srv fuel ch po batch Hg Hfit Hk Hn Hsrv Hho Hpo Hb Hf).
Qed.
(** C115: after more of them than the network has transactions, every further [sync] with these flags succeeds and changes
    neither the wallet nor the file, at any honest server, whatever the batch size, hash orders and faults of the store. *)
Theorem C115_settles w pr evs v f (L : list Txid) n w' : good_env (keychains ext int) → in_session w pr evs →
  world_ok v → world_sane W v → (∀ t a, w_tx v t = Some a → tx_ok a) →
  (∀ k d i sp, keychains ext int k = Some d → derive d i = Some sp → has_address sp = true) →
  fit_seen v (w_position v) (sync_sought v f (w_tracker w)) (w_tracker w) → all_known v (w_tracker w) →
  (∀ t, is_Some (w_tx v t) ↔ t ∈ L) → syncs dbg v f n w w' → (length L < n)%nat →
  ∀ srv fuel ch po batch, (∀ n, electrum_honest v (srv n)) → hash_fun_ok (ch_hash ch) → (∀ c, po c ≡ₚ map_to_list (sc_pos c)) → (0 < batch)%nat →
  ends (electrum_sync dbg srv (S fuel) ch po f batch w') (λ r, ∃ w2 evs2, r = (w2, evs2, Ok tt) ∧
    w_tracker w2 = w_tracker w' ∧ w_file w2 = w_file w').
Proof.
  intros HA Hs Hw Hsane Htx Haddr Hfit Hk HL Hn Hlen srv fuel ch po batch Hsrv Hho Hpo Hb.
  destruct (session_good kcs_wf kcs_codec_ok kcs_range_default W dbg limit ext int km HA w pr evs Hs) as [Hg _].
  destruct (syncs_settle W dbg ext int HA v Hw Hsane Htx Haddr f L n w w' Hg Hfit Hk HL Hn Hlen) as [Hc Ha].
  exact (sync_nothing W dbg ext int HA v Hw Hsane Htx Haddr w' srv fuel ch po f batch Hc Ha Hsrv Hho Hpo Hb).
Qed.
(** C115: the wallet then has what a [sync] promises (C99) of the wallet before it: if unspent outputs are asked for, every
    output it takes for unspent is where the network has it, and unspent there. *)
Theorem C115_right w pr evs v f (L : list Txid) n w' : good_env (keychains ext int) → in_session w pr evs →
  world_ok v → world_sane W v → (∀ t a, w_tx v t = Some a → tx_ok a) →
  (∀ k d i sp, keychains ext int k = Some d → derive d i = Some sp → has_address sp = true) →
  fit_seen v (w_position v) (sync_sought v f (w_tracker w)) (w_tracker w) → all_known v (w_tracker w) →
  (∀ t, is_Some (w_tx v t) ↔ t ∈ L) → syncs dbg v f n w w' → (length L < n)%nat →
  in_sync v (w_position v) f (w_tracker w') (w_tracker w') ∧
  (sf_utxos (sync_flags f) = true → ∀ ki g, unspent (w_tracker w') ki g → true_output v (w_position v) g ∧ ¬ w_spent v (fto_outpoint g)).
Proof.
  intros HA Hs Hw Hsane Htx Haddr Hfit Hk HL Hn Hlen.
  destruct (session_good kcs_wf kcs_codec_ok kcs_range_default W dbg limit ext int km HA w pr evs Hs) as [Hg _].
  destruct (syncs_right W dbg ext int HA v Hw Hsane Htx Haddr f L n w w' Hg Hfit Hk HL Hn Hlen) as [Hk' Hin].
  exact (conj Hin (λ Hu ki g Hun, sync_settled v (w_position v) f (w_tracker w') ki g Hin Hu Hun (known_unspent v (w_tracker w') ki g Hk' Hun))).
Qed.
End cli.
Print Assumptions C115_goes_on.
Print Assumptions C115_settles.
Print Assumptions C115_right.

Local Existing Instances ex_env cli_env PlanExamples.toy_env.
(** The wallet of [C114_sync_refuted] and its network of four transactions: the balance is right after five synchronisations, and was not after the first. *)
Example C115_ex : good_env (keychains 1 (Some 3)) ∧ cs_sound again_w ∧ (∀ t, is_Some (w_tx again_w t) ↔ t ∈ settle_L) ∧
  (∀ k d i sp, keychains 1 (Some 3) k = Some d → derive d i = Some sp → has_address sp = true) ∧ sf_utxos (sync_flags CliSyncExamples.cs_default) = true ∧
  ∃ w pr evs w', in_session kcs_wf cliW true 10 1 (Some 3) cli_km w pr evs ∧ cs_ready again_w w ∧ all_known again_w (w_tracker w) ∧
  syncs true again_w CliSyncExamples.cs_default 5 w w' ∧ (length settle_L < 5)%nat ∧
  cs_show (w_tracker w) = (Some 110, [(External, 0, (21, 0), 100000, Confirmed 105, None)]) ∧
  cs_show (w_tracker w') =
    (Some 120, [(External, 0, (21, 0), 100000, Confirmed 105, Some 41000); (External, 0, (21000, 1), 500, Confirmed 115, None);
      (External, 0, (41000, 1), 59000, Confirmed 112, Some 21000)]).
Proof.
  destruct settle_found as (w & pr & evs & w' & H1 & H2 & H3 & H4 & H5 & H6).
  exact (conj cli_good (conj again_sound (conj settle_L_all (conj cli_addresses (conj eq_refl
    (ex_intro _ w (ex_intro _ pr (ex_intro _ evs (ex_intro _ w' (conj H1 (conj H2 (conj H3 (conj H4 (conj (le_n 5) (conj H5 H6))))))))))))))).
Qed.
Print Assumptions C115_ex.
