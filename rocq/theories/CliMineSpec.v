(** Specification: what the next block asks of a transaction, besides its witnesses (C105). *)
From Verif Require Export CliSpec.
Local Open Scope N_scope.

Section mine.
Context `{!DescEnv, !CliEnv} `{ChainPosition P}.
Implicit Types (x : Tracker Keychain P) (f : FullTxOut P).

(** The rule for [nLockTime] in the block at height [h]: none, a height below [h], or every input opts out. *)
Definition final_at (h : N) (t : Ctx) : Prop :=
  ct_lock_time t = 0 ∨ ct_lock_time t < 500000000 ∧ ct_lock_time t < h ∨ ∀ i, i ∈ ct_in t → ci_sequence i = 4294967295.
(** BIP 68: bit 31 opts out; otherwise, with bit 22 clear, the low 16 bits count blocks since that of the output. *)
Definition old_enough (h : N) f (sequence : N) : Prop :=
  N.testbit sequence 31 = true ∨
  N.testbit sequence 22 = false ∧ ∃ c, pos_height (fto_pos f) = Confirmed c ∧ c + sequence mod 2 ^ 16 ≤ h.
(** A hundred blocks on top of that of a coinbase, the spending one included. *)
Definition mature_at (h : N) f : Prop :=
  fto_on_coinbase f = true → ∃ c, pos_height (fto_pos f) = Confirmed c ∧ c + 100 ≤ h.
(** The block at height [h] may have [t], as far as the wallet knows: its inputs are there and not spent, mature and
    old enough, they are worth what the outputs are or more, and [t] is final. *)
Definition minable x (t : Ctx) (h : N) : Prop :=
  ∃ sel, spends x t sel ∧ sumN (txo_value <$> ct_out t) ≤ sumN (value_of <$> sel) ∧ final_at h t ∧
    Forall2 (λ i kf, old_enough h kf.2 (ci_sequence i) ∧ mature_at h kf.2) (ct_in t) sel.
End mine.
