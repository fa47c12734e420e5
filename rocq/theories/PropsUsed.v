(** C117: the summaries of a keychain index and of a changeset say what is there. *)
From Verif Require Import UsedProofs.
Local Open Scope N_scope.

(** C117: the transactions a changeset is said to add to a chain are, once each, those which are not in the chain before it is
    applied and are in it afterwards. *)
Theorem C117_additions `{ChainPositionLaws P} (c : SparseChain P) cs :
  NoDup (changeset_additions c cs) ∧ ∀ t, t ∈ changeset_additions c cs ↔ sc_pos c !! t = None ∧ is_Some (sc_pos (apply_changeset c cs) !! t).
Proof. exact (additions_exact c cs). Qed.

Section props.
Context `{!DescEnv} `{Countable K, !Ord K, !OrdLaws K}.
Implicit Types (x : KIndex K) (k : K) (h : list (ki_op K)) (A : K → option Desc) (outs : list (K * N * Script)) (acc : gmap K N).

(** C117: after any history the outputs of a keychain are listed completely and in order... *)
Theorem C117_txouts A h x outs acc k : good_env A → ki_hist_ok A h → ki_run h = Ret (x, outs, acc) →
  ∃ l, txouts_of_keychain x k = Ret l ∧ StronglySorted ord_lt l ∧ ∀ i o, (i, o) ∈ l ↔ (k, i, o) ∈ si_spk_txouts (ki_inner x).
Proof. exact (hist_txouts A h x outs acc k). Qed.
(** ...the last used index, of one keychain or of all, is the highest one with an output... *)
Theorem C117_last_used A h x outs acc : good_env A → ki_hist_ok A h → ki_run h = Ret (x, outs, acc) →
  ∃ m, last_used_indices x = Ret m ∧ ∀ k, last_used_index x k = Ret (m !! k) ∧
    match m !! k with
    | None => ∀ j o, (k, j, o) ∉ si_spk_txouts (ki_inner x)
    | Some i => (∃ o, (k, i, o) ∈ si_spk_txouts (ki_inner x)) ∧ ∀ j o, (k, j, o) ∈ si_spk_txouts (ki_inner x) → j ≤ i
    end.
Proof. exact (hist_last_used A h x outs acc). Qed.
(** ...the revealed scripts of all keychains are, for every keychain added, its first scripts as far as revealed... *)
Theorem C117_revealed_all A h x outs acc : good_env A → ki_hist_ok A h → ki_run h = Ret (x, outs, acc) →
  ∃ m, revealed_spks_of_all_keychains x = Ret m ∧
  ∀ k, match m !! k with Some l => known h k ∧ ∃ d, A k = Some d ∧ derived d 0 (n_revealed x k) l | None => ¬ known h k end.
Proof. exact (hist_revealed_all A h x outs acc). Qed.
(** ...and all scripts of a keychain are those of the whole range of its descriptor; a keychain that was not added panics. *)
Theorem C117_spks A h x outs acc k : good_env A → ki_hist_ok A h → ki_run h = Ret (x, outs, acc) →
  match spks_of_keychain x k with Ret l => known h k ∧ ∃ d, A k = Some d ∧ derived d 0 (cap d) l | Panic => ¬ known h k end.
Proof. exact (hist_spks A h x outs acc k). Qed.
End props.

Local Existing Instance ex_env.
(** C117: one transaction stays, one is new, one goes and one that is not there is taken out. *)
Example C117_additions_ex :
  let c := apply_changeset sc_default (mkChangeSet {[ 10 := Some 10 ]} {[ 5 := Some (Confirmed 7); 8 := Some Unconfirmed ]}) in
  changeset_additions c (mkChangeSet ∅ {[ 5 := Some (Confirmed 8); 6 := Some Unconfirmed; 8 := None; 9 := None ]}) = [6].
Proof. vm_compute. reflexivity. Qed.
(** C117: the history of C34 with three keychains; an output at index 4 of the first and one at 5. *)
Example C117_ex : good_env exA ∧ ki_hist_ok exA ex_h ∧ (∃ x outs acc, ki_run ex_h = Ret (x, outs, acc)) ∧
  ex_obs (λ x _ _, txouts_of_keychain x 0) = Some (Ret [(4, mkOutPoint 50 1); (5, mkOutPoint 50 2)]) ∧
  ex_obs (λ x _ _, match last_used_indices x with Ret m => Some (m !! 0, m !! 1, m !! 2) | Panic => None end) = Some (Some (Some 5, None, None)) ∧
  ex_obs (λ x _ _, match revealed_spks_of_all_keychains x with Ret m => Some (m !! 1, m !! 2, m !! 3) | Panic => None end) =
    Some (Some (Some [(0, exs 3 0); (1, exs 3 1); (2, exs 3 2); (3, exs 3 3); (4, exs 3 4)], Some [(0, exs 2 0)], None)) ∧
  ex_obs (λ x _ _, match spks_of_keychain x 3 with Ret _ => true | Panic => false end) = Some false.
Proof. split; [exact exA_good|]. split; [exact ex_h_ok|]. split; [exact ex_run|]. vm_compute. split_and!; reflexivity. Qed.

Print Assumptions C117_additions.
Print Assumptions C117_txouts.
Print Assumptions C117_last_used.
Print Assumptions C117_revealed_all.
Print Assumptions C117_spks.
