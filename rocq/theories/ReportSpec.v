(** What a command of the command line wallet reports about what it did (C116), and the flags of a sync in the words of
    its help text (C89). *)
From Verif Require Export CliSpec.
Local Open Scope N_scope.

(** No flag was given (bdk_electrum_example/src/main.rs:135, bdk_esplora_example/src/main.rs:140). *)
Definition no_flags (f : SyncFlags) : Prop := sf_all f = false ∧ sf_unused f = false ∧ sf_utxos f = false ∧ sf_unconfirmed f = false.

Section report.
Context `{!DescEnv} `{ChainPosition P}.
(** A changeset is written unless it is empty, and forced to the disk only if it has addresses (file_store.rs:138-169). *)
Definition store_fails (cs : KChangeSet Keychain P) (e : fault) : Prop :=
  cs ≠ kcs_default ∧ match e with NoFault => False | SyncFails => kcs_indices cs ≠ ∅ | _ => True end.
End report.
