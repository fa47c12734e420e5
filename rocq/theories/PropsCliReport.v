(** C116: a command of the command line wallet reports what it did. *)
From Verif Require Import ReportExamples.
Local Open Scope N_scope.
Local Existing Instance kcs_codec.

Section cli.
Context `{!DescEnv, !CliEnv, !PlanModel.KeyEnv} `{ChainPositionLaws P}.
Context `{!LeafCodecs Keychain P, !LeafWf Keychain P, !LeafOk Keychain P}.
Context (W : Txid → list OutPoint) (dbg : bool) (limit : nat) (ext : Desc) (int : option Desc) (km : PlanModel.KeyMap).
Implicit Types (evs : list (event P)) (w : World P).

(** C116: a command returns the error of the store exactly if one of the changesets it handed over could not be stored, and the
    error of the broadcast exactly if the broadcast failed: when it returns success everything it handed over is stored. *)
Theorem C116_failures ch w c w' evs r : handle_command dbg ch km w c = Ret (w', evs, r) →
  (r = Err EStore ↔ ∃ cs e, EvAppend cs e ∈ evs ∧ store_fails cs e) ∧ (r = Err EBroadcast ↔ ∃ t change, EvBroadcast t change false ∈ evs).
Proof. exact (reported dbg km ch w c w' evs r). Qed.

(** C116: the list of addresses shows, in order, exactly the scripts of the keychain which have been revealed, each with whether
    it is used, as is every script with an output; it panics if one has no address. *)
Theorem C116_address_list w pr evs (change : bool) : good_env (keychains ext int) → in_session kcs_wf W dbg limit ext int km w pr evs →
  let k := if change then Internal else External in
  let ix := tr_index (w_tracker w) in
  ∃ l : list (N * Script), (match keychains ext int k with Some d => derived d 0 (n_revealed ix k) l | None => l = [] end) ∧
    address_list (w_tracker w) change = (if forallb (λ e, has_address e.2) l then Ret ((λ e, (e, si_is_used (ki_inner ix) (k, e.1))) <$> l) else Panic) ∧
    ∀ i o u, si_txout (ki_inner ix) o = Some ((k, i), u) → si_is_used (ki_inner ix) (k, i) = true.
Proof.
  intros HA Hs. exact (list_shows W ext int HA (w_tracker w) change
    (proj1 (session_good kcs_wf kcs_codec_ok kcs_range_default W dbg limit ext int km HA w pr evs Hs))).
Qed.
End cli.

Local Existing Instances ex_env cli_env PlanExamples.toy_env.
(** C116: a write, a sync for an address and a truncation fail; a failed sync for a transaction and a failed write of an empty
    changeset do not matter, as both are not attempted; a broadcast fails. *)
Example C116_failures_ex :
  fails [WriteFails 1] (CmdAddress AddrNew) (Err EStore) [Some (false, WriteFails 1)] ∧
  fails [SyncFails] (CmdSend 40000 7 LargestFirst true) (Err EStore) [Some (false, SyncFails)] ∧
  fails [NoFault; TruncFails] (CmdSend 40000 7 LargestFirst true) (Err EStore) [Some (false, NoFault); None; Some (false, TruncFails)] ∧
  fails [NoFault; SyncFails] (CmdSend 40000 7 LargestFirst true) (Ok tt) [Some (false, NoFault); None; Some (false, SyncFails)] ∧
  fails [WriteFails 1] (CmdElectrum cli_scan cli_ord) (Ok tt) [Some (true, WriteFails 1)] ∧
  fails [] (CmdSend 40000 7 LargestFirst false) (Err EBroadcast) [Some (false, NoFault); None].
Proof. exact fails_examples. Qed.
(** C116: after a payment to the first address, a second address and a send with change. *)
Example C116_address_list_ex : good_env (keychains 1 (Some 3)) ∧ ∃ w pr evs, in_session kcs_wf cliW true 10 1 (Some 3) cli_km w pr evs ∧
  address_list (w_tracker w) false = Ret [(0, exs 1 0, true); (1, exs 1 1, false)] ∧ address_list (w_tracker w) true = Ret [(0, exs 3 0, true)] ∧
  si_txout (ki_inner (tr_index (w_tracker w))) (mkOutPoint 21 0) = Some ((External, 0), mkTxOut 100000 (exs 1 0)).
Proof. exact (conj cli_good list_example). Qed.

Print Assumptions C116_failures.
Print Assumptions C116_address_list.
