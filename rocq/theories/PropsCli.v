(** C62, C78-: the command line wallet. *)
From Verif Require Import CliExamples.
Local Open Scope N_scope.
Local Existing Instance kcs_codec.

(** C49: the names of the two keychains are read back as they were written. *)
Theorem C49_keychains : codec_ok keychain_codec (λ _, True).
Proof. exact keychain_codec_ok. Qed.
Print Assumptions C49_keychains.
Example C49_keychains_ex : @enc _ keychain_codec Internal = ["001"%byte] ∧ @dec _ keychain_codec ["001"%byte; "005"%byte] = DOk Internal ["005"%byte].
Proof. vm_compute. done. Qed.

Section cli.
Context `{!DescEnv, !CliEnv, !PlanModel.KeyEnv} `{ChainPositionLaws P}.
Context `{!LeafCodecs Keychain P, !LeafWf Keychain P, !LeafOk Keychain P}.
Context (W : Txid → list OutPoint) (dbg : bool) (limit : nat) (ext : Desc) (int : option Desc) (km : PlanModel.KeyMap).
Notation lives := (life kcs_wf W dbg limit ext int km).
Notation opens := (opens limit ext int).
Implicit Types (evs : list (event P)) (y : Tracker Keychain P).

(** C62: in a life of one command per process, whatever processes were killed and whatever writes failed,
    when a transaction with a change output is broadcast the file at that moment opens to a wallet which
    has revealed and recognizes the change script. *)
Theorem C62_change_on_disk_partial d e1 t k i ok e2 : good_env (keychains ext int) →
  lives d (e1 ++ EvBroadcast t (Some (k, i)) ok :: e2) →
  ∃ b y r v s, lives (Some b) e1 ∧ opens b y ∧ ct_out t = [r; mkTxOut v s] ∧ reveals_spk y k i s.
Proof.
  intros HA Hl. destruct (on_disk_ok kcs_wf kcs_codec_ok kcs_range_default W dbg limit ext int km HA d e1 _ e2 Hl) as (b & y & Hb & Hy & r & v & s & Ho & Hr).
  exists b, y, r, v, s. done.
Qed.
(** C78: so does an address when it is shown. *)
Theorem C78_address_on_disk_partial d e1 k i s e2 : good_env (keychains ext int) →
  lives d (e1 ++ EvAddress k i s :: e2) →
  ∃ b y, lives (Some b) e1 ∧ opens b y ∧ reveals_spk y k i s.
Proof. exact (λ HA, on_disk_ok kcs_wf kcs_codec_ok kcs_range_default W dbg limit ext int km HA d e1 (EvAddress k i s) e2). Qed.
(** C79: every script ever given away is revealed and recognized by every later process. *)
Theorem C79_durable b evs k i s : good_env (keychains ext int) →
  lives (Some b) evs → given_away evs k i s →
  ∃ y, opens b y ∧ reveals_spk y k i s.
Proof. exact (λ HA, durable_ok kcs_wf kcs_codec_ok kcs_range_default W dbg limit ext int km HA b evs k i s). Qed.
Notation in_session := (in_session kcs_wf W dbg limit ext int km).

(** C80: a transaction made in any state of any session spends different unspent outputs of the wallet, balances, pays the
    recipient what was asked for and the rest, if anything, to a script the wallet has revealed on its change keychain. It
    has version 2, is locked to the tip and signals replaceability. *)
Theorem C80_transaction_balances w pr evs ch value addr algo x' t change : good_env (keychains ext int) →
  in_session w pr evs → choices_ok ch → modest_wallet ext int ch (w_tracker w) value addr →
  create_tx dbg ch km (w_tracker w) value addr algo = Ret (x', Ok (t, change)) →
  (∃ fee, pays_fee (w_tracker w) t fee) ∧ ct_version t = 2 ∧
  (∀ tip, tip_is (w_tracker w) tip → tip < 500000000 → ct_lock_time t = tip) ∧
  (∀ i, i ∈ ct_in t → ci_sequence i = 4294967293) ∧
  match change with
  | None => ct_out t = [mkTxOut value addr]
  | Some (_, (k, i)) => k = match int with Some _ => Internal | None => External end ∧
      ∃ d v s, keychains ext int k = Some d ∧ derive d i = Some s ∧ reveals_spk x' k i s ∧ dust_value d ≤ v ∧
        ct_out t = [mkTxOut value addr; mkTxOut v s]
  end.
Proof.
  intros HA Hs Hch Hm E. destruct (session_good kcs_wf kcs_codec_ok kcs_range_default W dbg limit ext int km HA w pr evs Hs) as [Hg _].
  exact (create_tx_ok W dbg ext int km HA ch (w_tracker w) value addr algo x' t change Hg Hch Hm E).
Qed.

(** C81: its fee is at least half a satoshi for each weight unit. With change it is that rounded up; without it is not above
    that by more than what a change output would have cost. For signatures of 64 bytes and leaves without [pk_h]. *)
Theorem C81_fee_rate_partial `{!ScriptSpec.KeyLaws} w pr evs ch value addr algo x' t change : good_env (keychains ext int) →
  (∀ sk m, length (PlanModel.schnorr_sign sk m) = 64%nat) →
  (∀ k d i tr leaf, keychains ext int k = Some d → desc_at d i = PlanModel.DTr tr → leaf ∈ PlanModel.iter_scripts tr → PlanSpec.no_pk_h leaf = true) →
  in_session w pr evs → choices_ok ch → modest_wallet ext int ch (w_tracker w) value addr →
  create_tx dbg ch km (w_tracker w) value addr algo = Ret (x', Ok (t, change)) → (ctx_weight t ≤ 4000000)%Z →
  ∃ fee, pays_fee (w_tracker w) t fee ∧ (ctx_weight t ≤ 2 * Z.of_N fee)%Z ∧
    match change with
    | Some _ => (2 * Z.of_N fee ≤ ctx_weight t + 1)%Z
    | None => ∃ k d i s p n, k = match int with Some _ => Internal | None => External end ∧ keychains ext int k = Some d ∧
        derive d i = Some s ∧ plans ch d i p ∧ PlanModel.expected_weight p = Ret n ∧
        (2 * Z.of_N fee ≤ ctx_weight (mkCtx (ct_version t) (ct_lock_time t) (ct_in t) (ct_out t ++ [mkTxOut 0 s])) + 1
           + Z.max (160 + Z.of_N n) (2 * Z.of_N (dust_value d)))%Z
    end.
Proof.
  intros HA Hsig Hpk Hs Hch Hm E Hw. destruct (session_good kcs_wf kcs_codec_ok kcs_range_default W dbg limit ext int km HA w pr evs Hs) as [Hg _].
  exact (create_tx_fee W dbg ext int km HA Hsig Hpk ch (w_tracker w) value addr algo x' t change Hg Hch Hm E Hw).
Qed.

(** C82: each of its inputs is signed with the key of the output it spends, for this transaction, or satisfies a leaf which
    that output commits to. For the leaves of C73 and the keys of C74. *)
Theorem C82_inputs_signed_partial `{!ScriptSpec.KeyLaws} R valid w pr evs ch value addr algo x' t change : good_env (keychains ext int) →
  (∀ sk m, length (PlanModel.schnorr_sign sk m) = 64%nat) →
  (∀ k sk msg, PlanSpec.key_secret R k = Some sk → valid msg (PlanModel.xonly_bytes k) (PlanModel.schnorr_sign sk msg) = true) →
  PlanSpec.ring_laws R → PlanSpec.honest_keymap R km → honest_keys R ext int ch → simple_leaves ext int →
  in_session w pr evs → choices_ok ch → modest_wallet ext int ch (w_tracker w) value addr →
  create_tx dbg ch km (w_tracker w) value addr algo = Ret (x', Ok (t, change)) →
  ∃ sel, spends (w_tracker w) t sel ∧ ∀ j i ki f, ct_in t !! j = Some i → sel !! j = Some (ki, f) →
    ∃ d tr, keychains ext int ki.1 = Some d ∧ desc_at d ki.2 = PlanModel.DTr tr ∧
      input_signed R valid t ((λ kf, fto_txout kf.2) <$> sel) j tr i.
Proof.
  intros HA Hsig Hv HR Hkm Hk Hl Hs Hch Hm E.
  destruct (session_good kcs_wf kcs_codec_ok kcs_range_default W dbg limit ext int km HA w pr evs Hs) as [Hg _].
  exact (create_tx_signed W dbg ext int km HA Hsig R valid ch (w_tracker w) value addr algo x' t change Hg Hch Hm HR Hkm Hk Hl Hv E).
Qed.
End cli.

Local Existing Instances ex_env cli_env PlanExamples.toy_env.
(** C62, C78, C79: a life of four processes: a torn write, an address, a scan and a send with change. *)
Example C62_example : good_env (keychains 1 (Some 3)) ∧
  ∃ b evs, life kcs_wf cliW true 10 1 (Some 3) cli_km (Some b) evs ∧
    given_away evs External 0 (exs 1 0) ∧ given_away evs Internal 0 (exs 3 0) ∧
    ∃ e1 t e2, evs = e1 ++ EvBroadcast t (Some (Internal, 0)) true :: e2.
Proof. exact (conj cli_good cli_life_gives). Qed.
(** C62 is false of a process which runs more than one command: a send which fails leaves the change
    address revealed in memory only, the next send uses it and writes nothing, and after a restart the
    change is not seen as the wallet's. *)
Theorem C62_session_refuted : ∃ b evs0 w w' pr e1 t e2 y y',
    life kcs_wf cliW true 10 1 (Some 3) cli_km (Some b) evs0 ∧
    init 10 1 (Some 3) (Some b) None [] = Ret (b, Ok w) ∧
    acts true cli_km (w, []) cli_session = Ret (w', pr, e1 ++ EvBroadcast t (Some (Internal, 0)) true :: e2) ∧
    opens 10 1 (Some 3) (f_bytes (disk (w_file w) e1)) y ∧ n_revealed (tr_index y) Internal = 0 ∧
    opens 10 1 (Some 3) (f_bytes (w_file w')) y' ∧
    run_balance_cmd cli_ch (w_tracker w') = Ret (0, 59692) ∧ run_balance_cmd cli_ch y' = Ret (0, 0).
Proof. exact cli_session_loses. Qed.
(** So is C78: without a change keychain, a send which fails makes the next address one that is not written. *)
Theorem C78_session_refuted : ∃ b evs0 w w' pr e1 s e2 y,
    life kcs_wf cliW true 10 1 None cli_km (Some b) evs0 ∧
    init 10 1 None (Some b) None [] = Ret (b, Ok w) ∧
    acts true cli_km (w, []) cli_session2 = Ret (w', pr, e1 ++ EvAddress External 0 s :: e2) ∧
    opens 10 1 None (f_bytes (disk (w_file w) e1)) y ∧ n_revealed (tr_index y) External = 0.
Proof. exact cli_session_forgets. Qed.

(** A session which finds a payment of 100000 and then pays 40000, with change, by a key path and by a leaf. *)
Example C80_example : good_env (keychains 1 (Some 3)) ∧ choices_ok cli_ch ∧
  ∃ w pr evs x' t a, in_session kcs_wf cliW true 10 1 (Some 3) cli_km w pr evs ∧
    modest_wallet 1 (Some 3) cli_ch (w_tracker w) 40000 7 ∧
    create_tx true cli_ch cli_km (w_tracker w) 40000 7 LargestFirst = Ret (x', Ok (t, Some (a, (Internal, 0)))) ∧
    ct_in t ≠ [] ∧ ct_out t = [mkTxOut 40000 7; mkTxOut 59692 (exs 3 0)] ∧ (ctx_weight t ≤ 4000000)%Z.
Proof. exact (conj cli_good (conj cli_choices_ok cli_found_ok)). Qed.
Example C81_example : ScriptSpec.KeyLaws ∧ (∀ sk m, length (PlanModel.schnorr_sign sk m) = 64%nat) ∧
  (∀ k d i tr leaf, keychains 1 (Some 3) k = Some d → desc_at d i = PlanModel.DTr tr → leaf ∈ PlanModel.iter_scripts tr → PlanSpec.no_pk_h leaf = true).
Proof. exact (conj PlanExamples.toy_laws (conj cli_sig_length (λ k d i tr leaf Hd Ht Hl, proj1 (proj2 (proj2 (cli_leaves_simple k d i tr leaf Hd Ht Hl)))))). Qed.
Example C82_example :
  (∀ k sk msg, PlanSpec.key_secret PlanExamples.toy_ring k = Some sk → cli_valid msg (PlanModel.xonly_bytes k) (PlanModel.schnorr_sign sk msg) = true) ∧
  PlanSpec.ring_laws PlanExamples.toy_ring ∧ PlanSpec.honest_keymap PlanExamples.toy_ring cli_km ∧
  honest_keys PlanExamples.toy_ring 1 (Some 3) cli_ch ∧ simple_leaves 1 (Some 3) ∧
  honest_keys (H0 := leaf_env) PlanExamples.toy_ring 1 (Some 3) cli_ch ∧ simple_leaves (H0 := leaf_env) 1 (Some 3) ∧
  ∃ w pr evs x' t a, in_session (H0 := leaf_env) kcs_wf cliW true 10 1 (Some 3) cli_km w pr evs ∧
    modest_wallet (H0 := leaf_env) 1 (Some 3) cli_ch (w_tracker w) 40000 7 ∧
    create_tx (H0 := leaf_env) true cli_ch cli_km (w_tracker w) 40000 7 LargestFirst = Ret (x', Ok (t, Some (a, (Internal, 0)))) ∧
    ct_in t ≠ [] ∧ length (concat (ci_witness <$> ct_in t)) = 3%nat.
Proof.
  exact (conj cli_valid_ok (conj PlanExamples.toy_ring_laws (conj cli_km_honest (conj cli_keys_honest (conj cli_leaves_simple
    (conj leaf_keys_honest (conj leaf_leaves_simple leaf_found_ok))))))).
Qed.

Print Assumptions C62_change_on_disk_partial.
Print Assumptions C78_address_on_disk_partial.
Print Assumptions C79_durable.
Print Assumptions C62_session_refuted.
Print Assumptions C78_session_refuted.
Print Assumptions C80_transaction_balances.
Print Assumptions C81_fee_rate_partial.
Print Assumptions C82_inputs_signed_partial.
