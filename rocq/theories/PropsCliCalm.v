(** C113: no command makes the program panic. *)
From Verif Require Import CliCalmExamples.
Local Open Scope N_scope.
Local Existing Instance kcs_codec.

Section cli.
Context `{!DescEnv, !CliEnv, !PlanModel.KeyEnv} `{ChainPositionLaws P}.
Context `{!LeafCodecs Keychain P, !LeafWf Keychain P, !LeafOk Keychain P}.
Context (W : Txid → list OutPoint) (dbg : bool) (limit : nat) (ext : Desc) (int : option Desc) (km : PlanModel.KeyMap).
Notation A := (keychains ext int).
Notation s := (adds ext int).
Implicit Types (evs : list (event P)) (w : World P).

(** C113: whatever the wallet went through, processes killed and writes failing included, a process starts without a panic. *)
Theorem C113_starts d evs create faults : good_env A → life kcs_wf W dbg limit ext int km d evs →
  ∃ r, init (P := P) limit ext int d create faults = Ret r.
Proof. exact (λ HA, init_total kcs_wf kcs_codec_ok kcs_range_default W dbg limit ext int km HA d evs create faults). Qed.

(** C113: in every session, with any failing writes, no command and no half of a send panics: if scripts have addresses; for
    a balance, if the funds fit a [u64]; for a send, if the wallet can sign and amounts and weights are moderate.  The
    result [ENoAddress] stands for a panic after the file was written. *)
Theorem C113_session_partial w pr evs ch a : good_env A → in_session kcs_wf W dbg limit ext int km w pr evs →
  action_ok A W s ch a → addressable ext int (w_tracker w) → fair W dbg ext int km (w_tracker w) pr ch a →
  (∃ r, act dbg km (w, pr) ch a = Ret r) ∧
  ∀ c w' evs', a = Run c → handle_command dbg ch km w c ≠ Ret (w', evs', Err ENoAddress).
Proof.
  intros HA Hs. destruct (session_good kcs_wf kcs_codec_ok kcs_range_default W dbg limit ext int km HA w pr evs Hs) as [Hg Hpr].
  exact (act_total kcs_wf kcs_codec_ok kcs_range_default W dbg limit ext int km HA ch a w pr Hg Hpr).
Qed.

(** C113: a process run on the file of any life ends without a panic, if the command is such for the wallet it loads. *)
Theorem C113_process_partial d evs create faults ch c : good_env A → life kcs_wf W dbg limit ext int km d evs →
  command_ok A W s ch c →
  (∀ b w, init limit ext int d create faults = Ret (b, Ok w) →
     addressable ext int (w_tracker w) ∧ fair W dbg ext int km (w_tracker w) [] ch (Run c)) →
  ∃ b evs' r, process dbg limit ext int km d create faults ch c = Ret (b, evs', r) ∧ r ≠ Err ENoAddress.
Proof.
  exact (λ HA, process_total kcs_wf kcs_codec_ok kcs_range_default W dbg limit ext int km HA d evs create faults ch c).
Qed.
End cli.
Print Assumptions C113_starts.
Print Assumptions C113_session_partial.
Print Assumptions C113_process_partial.

Local Existing Instances ex_env cli_env PlanExamples.toy_env.
(** A wallet with coins of 100000 and 60000, and commands of every kind. *)
Example C113_ex : good_env (keychains 1 (Some 3)) ∧
  ∃ w pr evs, in_session kcs_wf cliW true 10 1 (Some 3) cli_km w pr evs ∧ addressable 1 (Some 3) (w_tracker w) ∧
  ∀ c, c ∈ [CmdAddress AddrNext; CmdAddress (AddrList true); CmdBalance; CmdTxOut (mkTxOutCmd true false false false);
            CmdSend 40000 7 LargestFirst true; CmdSend 40000 7 LargestFirst false;
            CmdElectrum (pay_scan 60000) cli_ord; CmdEsplora (pay_scan 60000) cli_ord] →
    action_ok (keychains 1 (Some 3)) cliW (adds 1 (Some 3)) cli_ch (Run c) ∧ fair cliW true 1 (Some 3) cli_km (w_tracker w) pr cli_ch (Run c).
Proof. exact (conj cli_good calm_example). Qed.
(** A life and a process on its file: the first one, asked for an address while no file is there. *)
Example C113_process_ex : life (P := TxHeight) kcs_wf cliW true 10 1 (Some 3) cli_km None [] ∧
  command_ok (P := TxHeight) (keychains 1 (Some 3)) cliW (adds 1 (Some 3)) cli_ch (CmdAddress AddrNext) ∧
  (∃ b w, init (P := TxHeight) 10 1 (Some 3) None None [] = Ret (b, Ok w)) ∧
  ∀ b (w : World TxHeight), init 10 1 (Some 3) None None [] = Ret (b, Ok w) →
     addressable 1 (Some 3) (w_tracker w) ∧ fair cliW true 1 (Some 3) cli_km (w_tracker w) [] cli_ch (Run (CmdAddress AddrNext)).
Proof. exact calm_process. Qed.

(** C113 fails without these conditions. A server which reports an output worth 2^64 - 1 beside another one makes every
    later balance command panic (in a build with overflow checks), *)
Theorem C113_balance_refuted : good_env (keychains 1 (Some 3)) ∧ choices_ok cli_ch ∧ ∃ w pr evs,
  in_session kcs_wf cliW true 10 1 (Some 3) cli_km w pr evs ∧ addressable 1 (Some 3) (w_tracker w) ∧
  handle_command true cli_ch cli_km w CmdBalance = Panic.
Proof. exact (conj cli_good (conj cli_choices_ok rich_panics)). Qed.
(** and sends panic for an amount of 2^64 - 1 and for a wallet without secrets, instead of reporting it. *)
Theorem C113_send_refuted : good_env (keychains 1 (Some 3)) ∧ choices_ok cli_ch ∧ choices_ok watch_ch ∧ ∃ w pr evs,
  in_session kcs_wf cliW true 10 1 (Some 3) cli_km w pr evs ∧ addressable 1 (Some 3) (w_tracker w) ∧
  handle_command true cli_ch cli_km w (CmdSend 18446744073709551615 7 LargestFirst true) = Panic ∧
  handle_command true watch_ch ∅ w (CmdSend 40000 7 LargestFirst true) = Panic.
Proof. exact (conj cli_good (conj cli_choices_ok (conj watch_choices_ok poor_panics))). Qed.
Print Assumptions C113_ex.
Print Assumptions C113_process_ex.
Print Assumptions C113_balance_refuted.
Print Assumptions C113_send_refuted.
