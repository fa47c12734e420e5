(** C105: what the wallet makes can go into the next block. *)
From Verif Require Import CliMineExamples.
Local Open Scope N_scope.
Local Existing Instance kcs_codec.

Section cli.
Context `{!DescEnv, !CliEnv, !PlanModel.KeyEnv} `{ChainPositionLaws P}.
Context `{!LeafCodecs Keychain P, !LeafWf Keychain P, !LeafOk Keychain P}.
Context (W : Txid → list OutPoint) (dbg : bool) (limit : nat) (ext : Desc) (int : option Desc) (km : PlanModel.KeyMap).
Notation in_session := (in_session kcs_wf W dbg limit ext int km).
Implicit Types (evs : list (event P)) (w : World P).

(** C105: a transaction made in any state of any session may go into any block above the wallet's tip in which the coinbase
    outputs the wallet has not spent are mature. *)
Theorem C105_minable w pr evs ch value addr algo x' t change tip h : good_env (keychains ext int) →
  in_session w pr evs → choices_ok ch → modest_wallet ext int ch (w_tracker w) value addr →
  create_tx dbg ch km (w_tracker w) value addr algo = Ret (x', Ok (t, change)) →
  tip_is (w_tracker w) tip → tip < 500000000 → tip < h →
  (∀ ki f, unspent (w_tracker w) ki f → mature_at h f) → minable (w_tracker w) t h.
Proof.
  intros HA Hs. destruct (session_good kcs_wf kcs_codec_ok kcs_range_default W dbg limit ext int km HA w pr evs Hs) as [Hg _].
  exact (create_tx_minable W dbg ext int km HA ch (w_tracker w) value addr algo x' t change tip h Hg).
Qed.
End cli.
Print Assumptions C105_minable.

Local Existing Instances ex_env cli_env PlanExamples.toy_env.
(** A wallet at tip 110 that pays 40000 with change. *)
Example C105_ex : good_env (keychains 1 (Some 3)) ∧ choices_ok cli_ch ∧
  ∃ w pr evs x' t change, in_session kcs_wf cliW true 10 1 (Some 3) cli_km w pr evs ∧
  modest_wallet 1 (Some 3) cli_ch (w_tracker w) 40000 7 ∧ tip_is (w_tracker w) 110 ∧
  (∀ ki f h, unspent (w_tracker w) ki f → mature_at h f) ∧
  create_tx true cli_ch cli_km (w_tracker w) 40000 7 LargestFirst = Ret (x', Ok (t, change)) ∧ length (ct_out t) = 2%nat.
Proof. split; [exact cli_good|]. split; [exact cli_choices_ok|]. exact mine_both. Qed.

(** C105 fails with a coinbase that is not mature: the wallet spends it, and no block below height 205 may have the
    transaction. *)
Theorem C105_coinbase_refuted : good_env (keychains 1 (Some 3)) ∧ choices_ok cli_ch ∧
  ∃ w pr evs x' t change, in_session kcs_wf cliW true 10 1 (Some 3) cli_km w pr evs ∧
  modest_wallet 1 (Some 3) cli_ch (w_tracker w) 40000 7 ∧ tip_is (w_tracker w) 110 ∧
  create_tx true cli_ch cli_km (w_tracker w) 40000 7 LargestFirst = Ret (x', Ok (t, change)) ∧
  ∀ h, h < 205 → ¬ minable (w_tracker w) t h.
Proof. split; [exact cli_good|]. split; [exact cli_choices_ok|]. exact mine_young. Qed.
Print Assumptions C105_coinbase_refuted.
