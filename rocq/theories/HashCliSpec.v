(** Specification vocabulary for the command line wallet's independence of hash iteration orders (C97). *)
From Verif Require Export HashSpec CliSpec.
From Verif Require PlanOrderSpec.

Section spec.
Context `{ChainPosition P}.
(** The same but for the iteration order of the spender sets. *)
Definition same_choices (a b : Choices P) : Prop :=
  ch_keys a = ch_keys b ∧ ch_strategies a = ch_strategies b ∧ ch_sort a = ch_sort b ∧ ch_clock a = ch_clock b.
(** The same but for the iteration order of the position map of a scan. *)
Definition same_command (a b : Command P) : Prop :=
  match a, b with
  | CmdElectrum sc _, CmdElectrum sc' _ | CmdEsplora sc _, CmdEsplora sc' _ => sc = sc'
  | _, _ => a = b
  end.
Definition same_action_by (S : Choices P → Choices P → Prop) (a b : Choices P * action P) : Prop :=
  S a.1 b.1 ∧
  match a.2, b.2 with
  | Run c, Run c' => same_command c c'
  | _, _ => a.2 = b.2
  end.
Definition same_action : Choices P * action P → Choices P * action P → Prop := same_action_by same_choices.

(** The same but for that order and the order of the key map. *)
Definition same_but_keys (km : PlanModel.KeyMap) (a b : Choices P) : Prop :=
  ch_keys a ≡ₚ (map_to_list km).*1 ∧ ch_keys b ≡ₚ (map_to_list km).*1 ∧
  ch_strategies a = ch_strategies b ∧ ch_sort a = ch_sort b ∧ ch_clock a = ch_clock b.
End spec.

(** The keys of the wallet's outputs. *)
Definition wallet_key `{!DescEnv, !CliEnv} (ext : Desc) (int : option Desc) (k : PlanModel.DescKey) : Prop :=
  ∃ kc d i tr, keychains ext int kc = Some d ∧ desc_at d i = PlanModel.DTr tr ∧ PlanOrderSpec.named_by tr k.
(** The key map holds the secrets of its keys, all keys are where they say they are, and no extended key with steps to derive
    is in the map itself: descriptors have wildcards. *)
Definition honest_wallet `{!DescEnv, !CliEnv, !PlanModel.KeyEnv} (R : PlanSpec.Keyring) (ext : Desc) (int : option Desc) (km : PlanModel.KeyMap) : Prop :=
  PlanSpec.ring_laws R ∧ PlanSpec.honest_keymap R km ∧ (∀ k, is_Some (km !! k) → PlanSpec.honest_origin R k) ∧
  ∀ k, wallet_key ext int k → PlanSpec.honest_origin R k ∧
    match k with PlanModel.XPub _ _ (_ :: _) _ => km !! k = None | _ => True end.
