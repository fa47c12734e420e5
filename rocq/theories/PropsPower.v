(** C93-C95: power loss. *)
From Verif Require Import PowerExamples.
Local Open Scope N_scope.
Local Existing Instance kcs_codec.

Section store.
Context `{!DescEnv} `{Countable K, !Ord K, !OrdLaws K} `{ChainPosition P}.
Context `{!LeafCodecs K P, !LeafWf K P, !LeafOk K P, !LeafStreams K P}.
Implicit Types (d : Disk) (cs : KChangeSet K P) (acc l : list (KChangeSet K P)).

(** C93: however often a store was opened, appended to, interrupted and hit by power losses, what is on the disk after the next
    one can be opened, and reading it yields every changeset with derivation indices whose append returned [Ok]. *)
Theorem C93_indices_survive d h acc b : store_life kcs_wf d h acc → survives d b → acc ≠ [] →
  ∃ f l f' r, fs_new (mkFile b 0) = Ok f ∧ yields b l ∧ acc ⊆ l ∧
    aggregate_changeset f = Some (Ret (fold_changes l, f', r)) ∧
    ∀ cs k i, cs ∈ acc → kcs_indices cs !! k = Some i → ∃ j, kcs_indices (fold_changes l) !! k = Some j ∧ i ≤ j.
Proof. exact (power_loss_ok kcs_wf kcs_codec_ok streams_kcs d h acc b). Qed.
(** C94: a power loss right after an append of derivation indices that returned [Ok] leaves the file as it is. *)
Theorem C94_after_sync_partial d f acc cs f' b : store_life kcs_wf d (Some f) acc → da_is_empty (kcs_indices cs) = false →
  append_changeset f cs NoFault = (f', Ok tt) → survives (dk_append d f cs NoFault) b → b = f_bytes f'.
Proof. exact (append_synced_ok kcs_wf kcs_codec_ok streams_kcs d f acc cs f' b). Qed.
End store.

Section cli.
Context `{!DescEnv, !CliEnv, !PlanModel.KeyEnv} `{ChainPositionLaws P}.
Context `{!LeafCodecs Keychain P, !LeafWf Keychain P, !LeafOk Keychain P, !LeafStreams Keychain P}.
Context (W : Txid → list OutPoint) (dbg : bool) (limit : nat) (ext : Desc) (int : option Desc) (km : PlanModel.KeyMap).
Implicit Types (d : Disk) (evs : list (event P)) (y : Tracker Keychain P).

(** C95: a script the wallet gave away, in whatever life of processes that were killed at any point and whose writes failed at
    any point, is revealed and recognized by a process that starts after a power loss, which may also come during an append,
    if it gets as far as to load the file; as long as no process before stopped between writing an entry and syncing it. *)
Theorem C95_given_away_survive_partial d evs evs' k i s b : good_env (keychains ext int) →
  power_life kcs_wf W dbg limit ext int km (Some d) (evs ++ evs') → (length evs' ≤ 1)%nat → synced evs →
  given_away evs k i s → survives d b →
  ∀ create faults, init limit ext int (Some b) create faults = Panic ∨
    ∃ y f, init limit ext int (Some b) create faults = Ret (b, Ok (mkWorld y f faults)) ∧ reveals_spk y k i s.
Proof. exact (λ HA, power_cli_ok kcs_wf kcs_codec_ok kcs_range_default streams_kcs W dbg limit ext int km HA d evs evs' k i s b). Qed.
End cli.

Local Existing Instances ex_env cli_env PlanExamples.toy_env.
(** Two power losses, each with something not synced; bytes of it are missing. *)
Example C93_example : store_life kcs_wf pw_d4 (Some (append_changeset pw_f4 fs3 NoFault).1) [fs1; fs2] ∧ survives pw_d4 pw_b4 ∧ pw_b4 ≠ dk_view pw_d4 ∧
  kcs_indices fs2 !! (0 : N) = Some 4000000000.
Proof. exact (conj pw_life4 (conj (proj1 pw_survives4) (conj (proj2 pw_survives4) eq_refl))). Qed.
Example C94_example : store_life kcs_wf pw_d2 (Some pw_f2) [fs1] ∧ da_is_empty (kcs_indices fs2) = false ∧
  append_changeset pw_f2 fs2 NoFault = ((append_changeset pw_f2 fs2 NoFault).1, Ok tt) ∧ dk_pending pw_d2 ≠ [].
Proof. split; [exact pw_life2|]. split; [reflexivity|]. split; [vm_compute; reflexivity|]. vm_compute. discriminate. Qed.
(** C94 in full, "what is read after a power loss was appended", is false: a store is given an entry with an index and then one
    which removes the checkpoint at height 700000. Power is lost and one byte of the second is not on the disk. Reading the file
    reports no error and removes the checkpoint at height 44640. *)
Theorem C94_only_appended_refuted : ∃ f0 f1 f2 b f (l : list (KChangeSet N TxHeight)) (a : KChangeSet N TxHeight) f' (cs : KChangeSet N TxHeight),
  fs_new_from_path None None = (magic, Ok f0) ∧ append_changeset f0 fs1 NoFault = (f1, Ok tt) ∧ append_changeset f1 fs3 NoFault = (f2, Ok tt) ∧
  survives (dk_append (dk_append dk_new f0 fs1 NoFault) f1 fs3 NoFault) b ∧
  fs_new (mkFile b 0) = Ok f ∧ yields b l ∧ aggregate_changeset f = Some (Ret (a, f', Ok tt)) ∧
  cs ∈ l ∧ cs_cps (cgs_chain (kcs_cg cs)) !! 44640 = Some None ∧ cs ≠ fs1 ∧ cs ≠ fs3.
Proof.
  destruct pw_foreign as (f & l & a & f' & cs & E1 & E2 & E3 & E4 & E5). exists fs_f0, pw_f1, pw_f2, pw_b2, f, l, a, f', cs.
  split; [reflexivity|]. split; [vm_compute; reflexivity|]. split; [vm_compute; reflexivity|]. split; [exact pw_survives2|].
  repeat (split; [assumption|]). split; intros ->; revert E5; vm_compute; discriminate.
Qed.
(** The new file is not synced: a power loss may leave one that no process can open. *)
Theorem C94_opens_refuted : ∃ f b, fs_new_from_path None None = (magic, Ok f) ∧ survives dk_new b ∧
  ∀ fault, fs_new_from_path (Some b) fault = (b, Err FeIo).
Proof. exact (ex_intro _ fs_f0 (ex_intro _ [] (conj eq_refl (conj pw_empty (λ _, eq_refl))))). Qed.

(** An address is shown, a payment to it is found, and power is lost while the next address is being revealed. *)
Example C95_example : good_env (keychains 1 (Some 3)) ∧
  ∃ d evs evs' b, power_life kcs_wf cliW true 10 1 (Some 3) cli_km (Some d) (evs ++ evs') ∧ (length evs' ≤ 1)%nat ∧
    synced evs ∧ given_away evs External 0 (exs 1 0) ∧ survives d b ∧ b ≠ dk_view d ∧ ¬ synced (evs ++ evs').
Proof. exact (conj cli_good pw_wallet). Qed.
(** C95 is false of a process that is stopped between writing an entry and syncing it: the next one shows the address without
    writing anything, and a power loss takes the index away. *)
Theorem C95_unsynced_refuted : ∃ d evs b y, power_life kcs_wf cliW true 10 1 (Some 3) cli_km (Some d) evs ∧
  given_away evs External 0 (exs 1 0) ∧ survives d b ∧ opens 10 1 (Some 3) b y ∧ n_revealed (tr_index y) External = 0.
Proof. exact pw_forgets. Qed.
(** And after a power loss the wallet may panic whenever it is started. *)
Theorem C95_starts_refuted : ∃ d evs b, power_life kcs_wf cliW true 10 1 None cli_km (Some d) evs ∧ synced evs ∧
  survives d b ∧ ∀ create faults, init (P := TxHeight) 10 1 None (Some b) create faults = Panic.
Proof. exact pw_panics. Qed.

Print Assumptions C93_indices_survive.
Print Assumptions C94_after_sync_partial.
Print Assumptions C94_only_appended_refuted.
Print Assumptions C94_opens_refuted.
Print Assumptions C95_given_away_survive_partial.
Print Assumptions C95_unsynced_refuted.
Print Assumptions C95_starts_refuted.
