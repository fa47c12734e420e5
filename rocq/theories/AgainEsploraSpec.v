(** Specification vocabulary for esplora commands repeated (C114, C115). *)
From Verif Require Export SettleSpec.
Local Open Scope N_scope.

(** A second scan looks no further: it is as the first, or with its batches keeps within the gap of the first. *)
Definition no_further (gap : N) (par : nat) (gap2 : N) (par2 : nat) : Prop :=
  gap2 = gap ∧ Nat.max par2 1 = Nat.max par 1 ∨ 0 < gap2 ∧ gap2 + N.of_nat (Nat.max par2 1) - 1 ≤ gap.
(** The transactions of each script of the wallet fit on the pages: esplora shows up to 50 unconfirmed ones, and the confirmed ones on pages of 25, of which
    [S fuel] are asked for. *)
Definition pages_fit `{!DescEnv} (v : ScanSpec.World) (A : Keychain → option Desc) (fuel : nat) : Prop :=
  ∀ k d i sp, A k = Some d → derive d i = Some sp → (length (w_mempool v sp) ≤ 50)%nat ∧ (length (w_confirmed v sp) < 25 * S fuel)%nat.

Section times.
Context `{!DescEnv, !CliEnv} {C : Codec (KChangeSet Keychain ConfirmationTime)}.
(** [n] synchronisations one after the other that succeeded, each at some honest esplora server that sees the network [v], where block [h] has the time [time h]. *)
Inductive esplora_again (v : ScanSpec.World) (time : N → N) (A : Keychain → option Desc) (f : SyncFlags) : nat → CliModel.World ConfirmationTime → CliModel.World ConfirmationTime → Prop :=
| esyncs_none w : esplora_again v time A f 0 w w
| esyncs_more n w w1 w2 srv fuel ch po par i j evs :
    (∀ n, esplora_honest v time (srv n)) → pages_fit v A fuel → hash_fun_ok (ch_hash ch) → (∀ c, po c ≡ₚ map_to_list (sc_pos c)) →
    esplora_sync_cmd srv (S fuel) ch po f par w i = Done j (w1, evs, Ok tt) →
    esplora_again v time A f n w1 w2 → esplora_again v time A f (S n) w w2.
End times.
