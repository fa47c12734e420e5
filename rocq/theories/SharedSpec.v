(** Specification vocabulary for keychains that share a script (C109). *)
From Verif Require Export KeychainIndexSpec.

Section spec.
Context `{!DescEnv} `{Countable K, !Ord K}.
Implicit Types (k : K) (x : KIndex K).

(** Nothing of the keychain is stored, revealed or looked ahead to. *)
Definition untouched x k : Prop :=
  (∀ i, si_spks (ki_inner x) !! (k, i) = None) ∧ ki_revealed x !! k = None ∧ default 0 (ki_lookahead x !! k) = 0.
(** The first script of the keychain. *)
Definition first_script x k (s : Script) : Prop := ∃ d, ki_keychains x !! k = Some d ∧ derive d 0 = Some s.
(** The index watches the script, under whatever keychain. *)
Definition watches x (s : Script) : Prop := is_Some (si_indices (ki_inner x) !! s).
End spec.
