(** Specification vocabulary for the life of the command line wallet in a changing network (C101). *)
From Verif Require Export CliSyncSpec.

Section life.
Context `{!DescEnv, !CliEnv, !PlanModel.KeyEnv} `{ChainPosition P} {C : Codec (KChangeSet Keychain P)}.
Implicit Types (v : ScanSpec.World) (w : CliModel.World P) (evs : list (event P)) (Fam : ScanSpec.World → Prop).

(** A command that does not ask a server what it knows. *)
Definition own_command (c : Command P) : Prop := match c with CmdElectrum _ _ | CmdEsplora _ _ => False | _ => True end.
(** No world of [Fam] has another transaction under the txid of one that was sent. *)
Definition own_sent Fam evs : Prop :=
  ∀ t change ok, EvBroadcast t change ok ∈ evs → ∀ v a, Fam v → w_tx v (ctx_txid t) = Some a → a = ctx_tx t.
(** The life of a wallet: as in [CliSpec.life] one process after another works on one file, while the network goes on by [R].
    Each process runs a command of the wallet's own, or [sync] or [scan] under the condition [Ready]: then [Asks] says what the process did.
    It may be killed between two events.  A process that fails to synchronise leaves what [CmdBalance] leaves. *)
Inductive dwells (wf : KChangeSet Keychain P → Prop) (W : Txid → list OutPoint) Fam (R : ScanSpec.World → ScanSpec.World → Prop)
    (Ready : ScanSpec.World → Tracker Keychain P → Prop) (Asks : ScanSpec.World → CliModel.World P → CliModel.World P * list (event P) * result unit CliError → Prop)
    (dbg : bool) (limit : nat) (ext : Desc) (int : option Desc) (km : PlanModel.KeyMap) : ScanSpec.World → option bytes → list (event P) → Prop :=
| dwells_new v : Fam v → dwells wf W Fam R Ready Asks dbg limit ext int km v None []
| dwells_world v v' d evs : dwells wf W Fam R Ready Asks dbg limit ext int km v d evs → Fam v' → R v v' →
    dwells wf W Fam R Ready Asks dbg limit ext int km v' d evs
| dwells_command v d evs p b evs1 evs2 r :
    dwells wf W Fam R Ready Asks dbg limit ext int km v d evs →
    own_command (pr_cmd p) → hash_fun_ok (ch_hash (pr_ch p)) →
    process dbg limit ext int km d (pr_create p) (pr_faults p) (pr_ch p) (pr_cmd p) = Ret (b, evs1 ++ evs2, r) →
    Forall (event_ok wf W) (evs1 ++ evs2) → own_sent Fam (evs1 ++ evs2) →
    (reads d ∨ ∀ cs e, EvAppend cs e ∈ evs1 ++ evs2 → whole e) →
    dwells wf W Fam R Ready Asks dbg limit ext int km v (Some (left_behind limit ext int d p evs1)) (evs ++ evs1)
| dwells_sync v d evs create faults b w w' evs1 evs2 r :
    dwells wf W Fam R Ready Asks dbg limit ext int km v d evs →
    init limit ext int d create faults = Ret (b, Ok w) → Ready v (w_tracker w) → Asks v w (w', evs1 ++ evs2, r) →
    Forall (event_ok wf W) (evs1 ++ evs2) →
    (reads d ∨ ∀ cs e, EvAppend cs e ∈ evs1 ++ evs2 → whole e) →
    dwells wf W Fam R Ready Asks dbg limit ext int km v (Some (f_bytes (disk (w_file w) evs1))) (evs ++ evs1).
End life.

Section servers.
Context `{!DescEnv, !CliEnv}.
(** What [sync] or [scan] of the electrum wallet did, with an honest server that sees the world [v]. *)
Definition electrum_asks {C : Codec (KChangeSet Keychain TxHeight)} (dbg : bool) (v : ScanSpec.World) (w : CliModel.World TxHeight)
    (r : CliModel.World TxHeight * list (event TxHeight) * result unit CliError) : Prop :=
  ∃ srv fuel ch po batch n n', (∀ m, electrum_honest v (srv m)) ∧ hash_fun_ok (ch_hash ch) ∧ (∀ c, po c ≡ₚ map_to_list (sc_pos c)) ∧ (0 < batch)%nat ∧
    ((∃ f, (sf_utxos (sync_flags f) = true → ∀ ki g, unspent (w_tracker w) ki g → is_Some (w_tx v (op_txid (fto_outpoint g)))) ∧
        electrum_sync dbg srv (S fuel) ch po f batch w n = Done n' r) ∨
     (∃ gap, electrum_scan dbg srv (S fuel) ch po gap batch w n = Done n' r)).
(** Likewise with the esplora wallet, whose server shows 25 confirmed transactions per page and at most 50 others. *)
Definition esplora_asks {C : Codec (KChangeSet Keychain ConfirmationTime)} (time : ScanSpec.World → N → N) (ext : Desc) (int : option Desc)
    (v : ScanSpec.World) (w : CliModel.World ConfirmationTime) (r : CliModel.World ConfirmationTime * list (event ConfirmationTime) * result unit CliError) : Prop :=
  ∃ srv fuel ch po par n n', (∀ m, esplora_honest v (time v) (srv m)) ∧ hash_fun_ok (ch_hash ch) ∧ (∀ c, po c ≡ₚ map_to_list (sc_pos c)) ∧
    (∀ k d i sp, keychains ext int k = Some d → derive d i = Some sp → (length (w_mempool v sp) ≤ 50)%nat ∧ (length (w_confirmed v sp) < 25 * S fuel)%nat) ∧
    ((∃ f, esplora_sync_cmd srv (S fuel) ch po f par w n = Done n' r) ∨ (∃ gap, esplora_scan_cmd srv (S fuel) ch po gap par w n = Done n' r)).
(** The same when whatever the wallet has at a height at which it no longer is, and no checkpoint at or below tells so, is what the command has to find. *)
Definition electrum_seeks {C : Codec (KChangeSet Keychain TxHeight)} (dbg : bool) (ext : Desc) (int : option Desc) (v : ScanSpec.World) (w : CliModel.World TxHeight)
    (r : CliModel.World TxHeight * list (event TxHeight) * result unit CliError) : Prop :=
  ∃ srv fuel ch po batch n n', (∀ m, electrum_honest v (srv m)) ∧ hash_fun_ok (ch_hash ch) ∧ (∀ c, po c ≡ₚ map_to_list (sc_pos c)) ∧ (0 < batch)%nat ∧
    ((∃ f, seen_again w_position v (sync_sought v f (w_tracker w)) (w_tracker w) ∧
        (sf_utxos (sync_flags f) = true → ∀ ki g, unspent (w_tracker w) ki g → is_Some (w_tx v (op_txid (fto_outpoint g)))) ∧
        electrum_sync dbg srv (S fuel) ch po f batch w n = Done n' r) ∨
     (∃ gap, seen_again w_position v (of_scripts v (keychains ext int) (in_gap v gap (keychains ext int))) (w_tracker w) ∧
        electrum_scan dbg srv (S fuel) ch po gap batch w n = Done n' r)).
Definition esplora_seeks {C : Codec (KChangeSet Keychain ConfirmationTime)} (time : ScanSpec.World → N → N) (ext : Desc) (int : option Desc)
    (v : ScanSpec.World) (w : CliModel.World ConfirmationTime) (r : CliModel.World ConfirmationTime * list (event ConfirmationTime) * result unit CliError) : Prop :=
  ∃ srv fuel ch po par n n', (∀ m, esplora_honest v (time v) (srv m)) ∧ hash_fun_ok (ch_hash ch) ∧ (∀ c, po c ≡ₚ map_to_list (sc_pos c)) ∧
    (∀ k d i sp, keychains ext int k = Some d → derive d i = Some sp → (length (w_mempool v sp) ≤ 50)%nat ∧ (length (w_confirmed v sp) < 25 * S fuel)%nat) ∧
    ((∃ f, seen_again (λ v, w_time_position v (time v)) v (sync_sought v f (w_tracker w)) (w_tracker w) ∧ esplora_sync_cmd srv (S fuel) ch po f par w n = Done n' r) ∨
     (∃ gap, seen_again (λ v, w_time_position v (time v)) v (of_scripts v (keychains ext int) (in_stop_gap v gap (keychains ext int))) (w_tracker w) ∧
        esplora_scan_cmd srv (S fuel) ch po gap par w n = Done n' r)).
End servers.
