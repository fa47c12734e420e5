(** What branch and bound looks for, independent of how it searches. *)
From Verif Require Import MachineSpec CoinSelectModel BnbModel CoinSelectSpec.

(** Effective value: the value less the fee of spending it at the target rate, as the
    code computes it in [f32]. *)
Definition spend_fee (o : CoinSelectorOpt) (c : WeightedValue) : Z := f32_as I64 (weight_fee (wv_weight c) (o_rate o)).
Definition worth (o : CoinSelectorOpt) (c : WeightedValue) : Z := wv_value c - spend_fee o c.
Definition worth_in (s : CoinSelector) : Z := Zsum (worth (cs_opts s) <$> picked s).
Definition weight_in (s : CoinSelector) : Z := Zsum (wv_weight <$> picked s).

(** What the selection must be worth: the target and the fee of the template, with the
    segwit marker and the length of the input count if every candidate were used. *)
Definition template_weight (s : CoinSelector) : Z :=
  o_base (cs_opts s) + (if existsb wv_segwit (cs_cands s) then 2 else 0)
  + 4 * (compact_len (Zsum (wv_count <$> cs_cands s)) - 1).
Definition worth_target (s : CoinSelector) : Z :=
  default 0 (o_target (cs_opts s)) + f32_as I64 (weight_fee (template_weight s) (o_rate (cs_opts s))).
Definition value_target (s : CoinSelector) : Z := default 0 (o_target (cs_opts s)) + o_min_fee (cs_opts s).
(** Beyond both of these a change output would be cheaper. *)
Definition worth_limit (s : CoinSelector) : Z := worth_target s + drain_waste (cs_opts s).
Definition value_limit (s : CoinSelector) : Z :=
  value_target s + f32_as U64 (f32_mul (f32_of (o_drain (cs_opts s))) (o_rate (cs_opts s))).

Definition fits (s : CoinSelector) : Prop :=
  value_target s ≤ value_in s ∧ worth_target s ≤ worth_in s ∧
  (value_in s ≤ value_limit s ∨ worth_in s ≤ worth_limit s).

(** The waste of a changeless transaction: spending the inputs now instead of later, and
    the excess. *)
Definition waste_of (o : CoinSelectorOpt) (w : Z) : Z :=
  f32_as I64 (f32_mul (f32_of w) (f32_sub (o_rate o) (long_term_feerate o))).
Definition score (s : CoinSelector) : Z := waste_of (cs_opts s) (weight_in s) + (worth_in s - worth_target s).

Definition with_sel (s : CoinSelector) (T : gset nat) : CoinSelector := mkCS (cs_opts s) (cs_cands s) T.
(** What the search may choose from: the selection so far and candidates worth something. *)
Definition choosable (s : CoinSelector) (T : gset nat) : Prop :=
  cs_sel s ⊆ T ∧
  ∀ i, i ∈ T → i ∈ cs_sel s ∨ ∃ c, cs_cands s !! i = Some c ∧ 0 < worth (cs_opts s) c.

(** The clock never runs backwards. *)
Definition clock_ok (l : BnbLimit) : Prop :=
  match l with Rounds _ => True | Duration c => ClockBack ∉ c end.
