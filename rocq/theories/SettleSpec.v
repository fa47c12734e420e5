(** Specification vocabulary for repeated synchronisations (C115). *)
From Verif Require Export CliSyncSpec.

Section spec.
Context `{!DescEnv} `{ChainPosition P}.
Implicit Types (v : ScanSpec.World) (wpos : Txid → P) (x : Tracker Keychain P) (f : SyncFlags).
(** The wallet has [t] where the network has it. *)
Definition placed wpos x (t : Txid) : Prop := sc_pos (cg_chain (tr_cg x)) !! t = Some (wpos t).
(** What a synchronisation with these flags asks for: what it has to find, and the transactions that are not in a block. *)
Definition sync_finds v f x (t : Txid) : Prop :=
  sync_sought v f x t ∨ sf_unconfirmed (sync_flags f) = true ∧ is_Some (w_tx v t) ∧
    ∃ p, sc_pos (cg_chain (tr_cg x)) !! t = Some p ∧ pos_height p = Unconfirmed.
(** The network knows all transactions of the wallet. *)
Definition all_known v x : Prop := ∀ t, is_Some (sc_pos (cg_chain (tr_cg x)) !! t) → is_Some (w_tx v t).
End spec.

Section times.
Context `{!DescEnv, !CliEnv} {C : Codec (KChangeSet Keychain TxHeight)}.
(** [n] synchronisations one after the other that succeeded, each at some honest server that sees the network [v]. *)
Inductive syncs (dbg : bool) (v : ScanSpec.World) (f : SyncFlags) : nat → CliModel.World TxHeight → CliModel.World TxHeight → Prop :=
| syncs_none w : syncs dbg v f 0 w w
| syncs_more n w w1 w2 srv fuel ch po batch i j evs :
    (∀ n, electrum_honest v (srv n)) → hash_fun_ok (ch_hash ch) → (∀ c, po c ≡ₚ map_to_list (sc_pos c)) → (0 < batch)%nat →
    electrum_sync dbg srv (S fuel) ch po f batch w i = Done j (w1, evs, Ok tt) →
    syncs dbg v f n w1 w2 → syncs dbg v f (S n) w w2.
End times.
