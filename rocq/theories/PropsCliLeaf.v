(** C81 and C82 beyond the leaves they are proved for. *)
From Verif Require Import CliLeafExamples.
Local Open Scope N_scope.
Local Existing Instances ex_env PlanExamples.toy_env kcs_codec.

(** C81 fails for a leaf with [pk_h]: the transaction weighs one more than estimated and pays less than half a satoshi for
    each weight unit. *)
Theorem C81_pk_h_refuted : good_env (keychains 1 (Some 3)) ∧ choices_ok cli_ch ∧ ScriptSpec.KeyLaws ∧
  (∀ sk m, length (PlanModel.schnorr_sign sk m) = 64%nat) ∧
  ∃ w pr evs x' t change, in_session (H0 := odd_env pkh_leaf) kcs_wf cliW true 10 1 (Some 3) cli_km w pr evs ∧
  modest_wallet (H0 := odd_env pkh_leaf) 1 (Some 3) cli_ch (w_tracker w) 40000 7 ∧
  create_tx (H0 := odd_env pkh_leaf) true cli_ch cli_km (w_tracker w) 40000 7 LargestFirst = Ret (x', Ok (t, change)) ∧
  (ctx_weight (H0 := odd_env pkh_leaf) t ≤ 4000000)%Z ∧
  ∀ fee, pays_fee (w_tracker w) t fee → (2 * Z.of_N fee < ctx_weight (H0 := odd_env pkh_leaf) t)%Z.
Proof.
  split; [exact cli_good|]. split; [exact cli_choices_ok|]. split; [exact PlanExamples.toy_laws|]. split; [exact cli_sig_length|]. exact pkh_cheap.
Qed.
Print Assumptions C81_pk_h_refuted.

(** C82 fails for a leaf with [pk_h], and for one that joins two keys: the wallet makes a transaction, without an error,
    whose witness does not satisfy the leaf. *)
Theorem C82_pk_h_refuted : good_env (keychains 1 (Some 3)) ∧ choices_ok cli_ch ∧ ScriptSpec.KeyLaws ∧
  PlanSpec.ring_laws PlanExamples.toy_ring ∧ PlanSpec.honest_keymap PlanExamples.toy_ring cli_km ∧
  honest_keys (H0 := odd_env pkh_leaf) PlanExamples.toy_ring 1 (Some 3) cli_ch ∧ PlanSpec.well_typed (pkh_leaf 1) ∧
  PlanSpec.one_sided (pkh_leaf 1) = true ∧
  ∃ w pr evs x' t change, in_session (H0 := odd_env pkh_leaf) kcs_wf cliW true 10 1 (Some 3) cli_km w pr evs ∧
  modest_wallet (H0 := odd_env pkh_leaf) 1 (Some 3) cli_ch (w_tracker w) 40000 7 ∧
  create_tx (H0 := odd_env pkh_leaf) true cli_ch cli_km (w_tracker w) 40000 7 LargestFirst = Ret (x', Ok (t, change)) ∧
  ∀ sel, spends (w_tracker w) t sel → ∃ i ki f, ct_in t = [i] ∧ sel = [(ki, f)] ∧
    ∀ d tr, keychains 1 (Some 3) ki.1 = Some d → desc_at (CliEnv := odd_env pkh_leaf) d ki.2 = PlanModel.DTr tr →
      ¬ input_signed (H0 := odd_env pkh_leaf) PlanExamples.toy_ring cli_valid t ((λ kf, fto_txout kf.2) <$> sel) 0 tr i.
Proof.
  split; [exact cli_good|]. split; [exact cli_choices_ok|]. split; [exact PlanExamples.toy_laws|]. split; [exact PlanExamples.toy_ring_laws|].
  split; [exact cli_km_honest|]. split; [exact (odd_keys_honest _ (or_introl eq_refl))|].
  split; [by eexists; split; [vm_compute; reflexivity|]|]. split; [reflexivity|]. exact pkh_unsigned.
Qed.
Print Assumptions C82_pk_h_refuted.
Theorem C82_two_keys_refuted : good_env (keychains 1 (Some 3)) ∧ choices_ok cli_ch ∧ ScriptSpec.KeyLaws ∧
  PlanSpec.ring_laws PlanExamples.toy_ring ∧ PlanSpec.honest_keymap PlanExamples.toy_ring cli_km ∧
  honest_keys (H0 := odd_env both_leaf) PlanExamples.toy_ring 1 (Some 3) cli_ch ∧ PlanSpec.well_typed (both_leaf 1) ∧
  PlanSpec.no_pk_h (both_leaf 1) = true ∧
  ∃ w pr evs x' t change, in_session (H0 := odd_env both_leaf) kcs_wf cliW true 10 1 (Some 3) cli_km w pr evs ∧
  modest_wallet (H0 := odd_env both_leaf) 1 (Some 3) cli_ch (w_tracker w) 40000 7 ∧
  create_tx (H0 := odd_env both_leaf) true cli_ch cli_km (w_tracker w) 40000 7 LargestFirst = Ret (x', Ok (t, change)) ∧
  ∀ sel, spends (w_tracker w) t sel → ∃ i ki f, ct_in t = [i] ∧ sel = [(ki, f)] ∧
    ∀ d tr, keychains 1 (Some 3) ki.1 = Some d → desc_at (CliEnv := odd_env both_leaf) d ki.2 = PlanModel.DTr tr →
      ¬ input_signed (H0 := odd_env both_leaf) PlanExamples.toy_ring cli_valid t ((λ kf, fto_txout kf.2) <$> sel) 0 tr i.
Proof.
  split; [exact cli_good|]. split; [exact cli_choices_ok|]. split; [exact PlanExamples.toy_laws|]. split; [exact PlanExamples.toy_ring_laws|].
  split; [exact cli_km_honest|]. split; [exact (odd_keys_honest _ (or_intror eq_refl))|].
  split; [by eexists; split; [vm_compute; reflexivity|]|]. split; [reflexivity|]. exact both_unsigned.
Qed.
Print Assumptions C82_two_keys_refuted.
