(** C109: keychains that share a script, as those in the documentation of
    keychain/txout_index.rs (30-56) do.  The index is that of a debug build; in a release
    build [reveal_next_spk] and [next_unused_spk] panic just so, at the [expect]. *)
From Verif Require Import SharedExamples.
Local Open Scope N_scope.

Section index.
Context `{!DescEnv} `{Countable K, !Ord K, !OrdLaws K}.
(** Once another keychain has the first script of a keychain, nothing can be got out of it. *)
Theorem C109_second_user_panics (x : KIndex K) (k : K) s : untouched x k → first_script x k s → watches x s →
  (∀ t, reveal_to_target x k t = Panic) ∧ (∀ la, 0 < la → set_lookahead x k la = Panic) ∧
  reveal_next_spk x k = Panic ∧ next_unused_spk x k = Panic.
Proof.
  intros Hu Hf Hw. split; [intros t; exact (second_user_panics x k t s Hu Hf Hw)|]. split; [intros la Hla; exact (lookahead_panics x k s la Hla Hu Hf Hw)|].
  split; [exact (next_spk_panics x k s Hu Hf Hw)|exact (next_unused_panics x k s Hu Hf Hw)].
Qed.
(** Additions that have an index for both, as a scan finds them, cannot be applied. *)
Theorem C109_both_panic (x : KIndex K) (k k' : K) s (m : gmap K N) : k ≠ k' → untouched x k → untouched x k' →
  first_script x k s → first_script x k' s → is_Some (m !! k) → is_Some (m !! k') → ki_apply_additions x m = Panic.
Proof. exact (both_panic x k k' s m). Qed.
End index.

(** A command line wallet whose change descriptor is its descriptor can never send after it has shown an address: *)
Theorem C109_send_panics `{!DescEnv, !CliEnv, !PlanModel.KeyEnv} `{ChainPosition P} dbg (ch : Choices P) km (x : Tracker Keychain P) s value addr algo :
  untouched (tr_index x) Internal → first_script (tr_index x) Internal s → watches (tr_index x) s →
  create_tx dbg ch km x value addr algo = Panic.
Proof. exact (send_panics dbg ch km x s value addr algo). Qed.

Local Existing Instances ex_env cli_env PlanExamples.toy_env kcs_codec.
(** and a scan which finds the script used writes a changeset into its file that makes every later start panic. *)
Theorem C109_file_refuted : ∃ b w cs w' ev,
  init 10 1 (Some 1) None None [] = Ret (b, Ok w) ∧
  tr_determine_changeset (exho (cg_graph (tr_cg (w_tracker w)))) (w_tracker w) shared_scan cli_ord = Ret (Ok cs) ∧
  db_append w cs = (w', ev, Ok tt) ∧ electrum_apply cli_ch w shared_scan cli_ord = Panic ∧
  ∀ cf faults, init 10 1 (Some 1) (Some (f_bytes (w_file w'))) cf faults = Panic.
Proof. exact shared_file. Qed.

(** In the documentation user 42 has the descriptor of the external keychain. *)
Example C109_documentation : ∃ x, ki_run shared_ops = Ret (x, [(42, 0, exs 1 0)], {[ 42 := 0 ]}) ∧
  untouched x 0 ∧ first_script x 0 (exs 1 0) ∧ watches x (exs 1 0) ∧ reveal_next_spk x 0 = Panic.
Proof.
  destruct shared_state as (x & E & Hu & Hf & Hw). exists x. split; [exact E|]. split; [exact Hu|]. split; [exact Hf|]. split; [exact Hw|].
  apply (C109_second_user_panics x 0 (exs 1 0) Hu Hf Hw).
Qed.
Example C109_wallet : ∃ b w w' evs, init 10 1 (Some 1) None None [] = Ret (b, Ok w) ∧ run_address_cmd w AddrNext = Ret (w', evs, Ok tt) ∧
  untouched (tr_index (w_tracker w')) Internal ∧ first_script (tr_index (w_tracker w')) Internal (exs 1 0) ∧ watches (tr_index (w_tracker w')) (exs 1 0).
Proof. exact shared_shown. Qed.

Print Assumptions C109_second_user_panics.
Print Assumptions C109_both_panic.
Print Assumptions C109_send_panics.
Print Assumptions C109_file_refuted.
