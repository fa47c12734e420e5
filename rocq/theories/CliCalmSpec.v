(** Specification: when the commands of the wallet do not panic (C113). *)
From Verif Require Export CliPaySpec.
Local Open Scope N_scope.

Section calm.
Context `{!DescEnv, !CliEnv, !PlanModel.KeyEnv} `{ChainPosition P}.
Implicit Types (x : Tracker Keychain P) (ch : Choices P).

(** The scripts of the wallet have addresses, and so have those of its outputs. *)
Definition addressable ext int x : Prop :=
  (∀ k d i sp, keychains ext int k = Some d → derive d i = Some sp → has_address sp = true) ∧
  ∀ ki f, owned x ki f → has_address (txo_spk (fto_txout f)) = true.
(** The unspent outputs are worth no more than a [u64] can tell. *)
Definition countable_funds x : Prop :=
  ∃ l, NoDup l ∧ (∀ ki f, (ki, f) ∈ l ↔ unspent x ki f) ∧ sumN (value_of <$> l) ≤ u64_max.
(** The wallet has the secrets to sign, amounts and weights are moderate. *)
Definition may_pay ext int (km : PlanModel.KeyMap) ch x (value : N) (addr : Script) : Prop :=
  choices_ok ch ∧ modest_wallet ext int ch x value addr ∧ signer ext int ch km ∧
  ∀ l, coins ext int ch x l → (pay_weight addr l.*2 < 2 ^ 23)%Z.
(** No other transaction has the txid of this one. *)
Definition own_txid (W : Txid → list OutPoint) (t : Ctx) : Prop :=
  ctx_txid t ≤ max_txid ∧ ci_prev <$> ct_in t = W (ctx_txid t).
(** What each step needs. *)
Definition fair (W : Txid → list OutPoint) (dbg : bool) ext int (km : PlanModel.KeyMap) x (pr : prepared) ch (a : action P) : Prop :=
  match a with
  | Run CmdBalance => countable_funds x
  | Run (CmdSend value addr algo _) =>
      may_pay ext int km ch x value addr ∧
      ∀ x' t change, create_tx dbg ch km x value addr algo = Ret (x', Ok (t, change)) → own_txid W t
  | Run _ => True
  | PrepareSend value addr _ => may_pay ext int km ch x value addr
  | FinishSend n _ => ∀ t change, pr !! n = Some (t, change) → own_txid W t
  end.
End calm.
