(** Specification vocabulary for the commands that synchronise the wallet (C99, C100). *)
From Verif Require Export CliSpec CliSyncModel RestoreSpec.

Section spec.
Context `{!DescEnv} `{ChainPosition P}.
(** The network [v] has transaction [t] at [wpos t]. *)
Implicit Types (v : ScanSpec.World) (wpos : Txid → P) (x : Tracker Keychain P) (f : SyncFlags) (g : FullTxOut P).

(** [o] is an output of [v] to the script [sp]. *)
Definition world_pays v (o : OutPoint) (sp : Script) : Prop :=
  ∃ t u, w_tx v (op_txid o) = Some t ∧ tx_out t !! N.to_nat (op_vout o) = Some u ∧ txo_spk u = sp.
(** The wallet has [o], as an output at [ki], with its value, position and coinbase flag, and says who spends it. *)
Definition has_right v wpos x (ki : Keychain * N) (o : OutPoint) : Prop :=
  ∃ g, owned x ki g ∧ fto_outpoint g = o ∧ true_output v wpos g ∧ known_spend v wpos g.
(** The scripts the flags ask for: all, or those without an output that are not marked as used. *)
Definition asked_script f x (ki : Keychain * N) : Prop :=
  sf_all (sync_flags f) = true ∨ sf_unused (sync_flags f) = true ∧ si_is_used (ki_inner (tr_index x)) ki = false.
(** [t] is what a synchronisation with these flags has to find: it has to do with a script asked for, or makes or spends an unspent output that
    is asked for. *)
Definition sync_sought v f x (t : Txid) : Prop :=
  (∃ ki sp, si_spk_at (ki_inner (tr_index x)) ki = Some sp ∧ asked_script f x ki ∧ t ∈ w_history v sp) ∨
  sf_utxos (sync_flags f) = true ∧ ∃ ki g, unspent x ki g ∧ is_Some (w_tx v (op_txid (fto_outpoint g))) ∧ (t = op_txid (fto_outpoint g) ∨ w_spends v (fto_outpoint g) t).
(** What the wallet [x] should be after a synchronisation with these flags. *)
Record in_sync v wpos f x x' : Prop := {
  (** it has the tip, and nothing that keeps the next one from succeeding *)
  is_tip : tip_is x' (w_tip v);
  is_fit : fit_for v wpos x';
  (** what it says is confirmed is *)
  is_confirmed : ∀ ki g h, owned x' ki g → pos_height (fto_pos g) = Confirmed h → true_output v wpos g;
  is_spent : ∀ ki g p s h, owned x' ki g → fto_spent_by g = Some (p, s) → pos_height p = Confirmed h → true_spend v wpos g;
  (** its transactions that were not in a block are where the network has them *)
  is_unconfirmed : sf_unconfirmed (sync_flags f) = true →
    ∀ t p, sc_pos (cg_chain (tr_cg x)) !! t = Some p → pos_height p = Unconfirmed → is_Some (w_tx v t) → sc_pos (cg_chain (tr_cg x')) !! t = Some (wpos t);
  (** it knows what became of its unspent outputs the network knows *)
  is_utxos : sf_utxos (sync_flags f) = true → ∀ ki g, unspent x ki g → is_Some (w_tx v (op_txid (fto_outpoint g))) → has_right v wpos x' ki (fto_outpoint g);
  (** it has the outputs at the scripts asked for that it had not overlooked *)
  is_scripts : ∀ ki sp, si_spk_at (ki_inner (tr_index x)) ki = Some sp → asked_script f x ki → ∀ o, world_pays v o sp → ¬ overlooked x o → has_right v wpos x' ki o
}.
(** The scripts the wallet has stored. *)
Definition watched x (k : Keychain) (i : N) : Prop := is_Some (si_spk_at (ki_inner (tr_index x)) (k, i)).

(** The network knows transactions of script [i] of the descriptor. *)
Definition known_script v (d : Desc) (i : N) : Prop := ∃ sp, derive d i = Some sp ∧ w_history v sp ≠ [].
(** Script [i] of keychain [k] is one of these, and no more than [gap] scripts in a row before it are none. *)
Definition in_gap v (gap : N) (A : Keychain → option Desc) (k : Keychain) (i : N) : Prop :=
  ∃ d, A k = Some d ∧ i < cap d ∧ known_script v d i ∧
    ¬ ∃ j, j + gap < i ∧ ∀ m, j ≤ m → m ≤ j + gap → ¬ known_script v d m.
(** Fewer than [gap] scripts in a row before it are none. *)
Definition in_stop_gap v (gap : N) (A : Keychain → option Desc) (k : Keychain) (i : N) : Prop :=
  ∃ d, A k = Some d ∧ i < cap d ∧ known_script v d i ∧
    ¬ ∃ j, j + gap ≤ i ∧ ∀ m, j ≤ m → m < j + gap → ¬ known_script v d m.
(** [t] has to do with one of the scripts [F]. *)
Definition of_scripts v (A : Keychain → option Desc) (F : Keychain → N → Prop) (t : Txid) : Prop :=
  ∃ k i d sp, F k i ∧ A k = Some d ∧ derive d i = Some sp ∧ t ∈ w_history v sp.
End spec.
