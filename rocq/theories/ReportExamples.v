(** A list of addresses, and commands whose store or broadcast fails (C116). *)
From Verif Require Export ReportProofs CliExamples2.
Local Open Scope N_scope.
Local Existing Instances ex_env cli_env PlanExamples.toy_env kcs_codec.

(** ** A list of addresses after a scan which found a payment, an address and a send with change *)
Definition list_obs (w : World TxHeight) (_ : prepared) (_ : list (event TxHeight)) :=
  Some (address_list (w_tracker w) false, address_list (w_tracker w) true,
        bool_decide (si_txout (ki_inner (tr_index (w_tracker w))) (mkOutPoint 21 0) = Some ((External, 0), mkTxOut 100000 (exs 1 0)))).
Lemma list_example : ∃ w pr evs, in_session kcs_wf cliW true 10 1 (Some 3) cli_km w pr evs ∧
  address_list (w_tracker w) false = Ret [(0, exs 1 0, true); (1, exs 1 1, false)] ∧ address_list (w_tracker w) true = Ret [(0, exs 3 0, true)] ∧
  si_txout (ki_inner (tr_index (w_tracker w))) (mkOutPoint 21 0) = Some ((External, 0), mkTxOut 100000 (exs 1 0)).
Proof.
  destruct (ran_obs (Some 3) (cli_found ++ [(cli_ch, Run (CmdAddress AddrNew)); (cli_ch, Run (CmdSend 40000 7 LargestFirst true))]) list_obs
    (Ret [(0, exs 1 0, true); (1, exs 1 1, false)], Ret [(0, exs 3 0, true)], true)) as (w & pr & evs & Hs & Ho).
  { apply found_acts. repeat constructor. }
  { vm_compute. reflexivity. }
  unfold list_obs in Ho. exists w, pr, evs. split; [exact Hs|]. apply (inj Some) in Ho.
  apply pair_equal_spec in Ho as [Ho H3]. apply pair_equal_spec in Ho as [H1 H2]. split; [exact H1|]. split; [exact H2|]. exact (bool_decide_eq_true_1 _ H3).
Qed.

(** ** Commands which fail *)
(** The results of the commands of a session, with the faults [fs] of its store *)
Definition with_faults (w : World TxHeight) (fs : list fault) : World TxHeight := mkWorld (w_tracker w) (w_file w) fs.
Definition fails_obs (fs : list fault) (c : Command TxHeight) (w : World TxHeight) (_ : prepared) (_ : list (event TxHeight)) :=
  match handle_command true cli_ch cli_km (with_faults w fs) c with
  | Ret (_, evs, r) => Some ((λ ev, match ev with EvAppend cs e => Some (kcs_is_empty cs, e) | _ => None end) <$> evs, r)
  | Panic => None
  end.
Definition fails fs c r l : Prop := ∃ w pr evs0 w' evs, in_session kcs_wf cliW true 10 1 (Some 3) cli_km w pr evs0 ∧
  handle_command true cli_ch cli_km (with_faults w fs) c = Ret (w', evs, r) ∧
  (λ ev, match ev with EvAppend cs e => Some (kcs_is_empty cs, e) | _ => None end) <$> evs = l.
Lemma fails_ok fs c r l : (ran (Some 3) cli_found ≫= λ p, fails_obs fs c p.1.1 p.1.2 p.2) = Some (l, r) → fails fs c r l.
Proof.
  intros E. destruct (ran_obs (Some 3) cli_found (fails_obs fs c) (l, r)) as (w & pr & evs & Hs & Ho); [|exact E|].
  { rewrite <- (app_nil_r cli_found). apply found_acts. constructor. }
  unfold fails_obs in Ho. destruct (handle_command _ _ _ _ _) as [[[w' evs'] r']|] eqn:Eh; [|discriminate Ho]. injection Ho as <- <-.
  exists w, pr, evs, w', evs'. split; [exact Hs|]. split; [exact Eh|reflexivity].
Qed.
Lemma fails_examples :
  fails [WriteFails 1] (CmdAddress AddrNew) (Err EStore) [Some (false, WriteFails 1)] ∧
  fails [SyncFails] (CmdSend 40000 7 LargestFirst true) (Err EStore) [Some (false, SyncFails)] ∧
  fails [NoFault; TruncFails] (CmdSend 40000 7 LargestFirst true) (Err EStore) [Some (false, NoFault); None; Some (false, TruncFails)] ∧
  fails [NoFault; SyncFails] (CmdSend 40000 7 LargestFirst true) (Ok tt) [Some (false, NoFault); None; Some (false, SyncFails)] ∧
  fails [WriteFails 1] (CmdElectrum cli_scan cli_ord) (Ok tt) [Some (true, WriteFails 1)] ∧
  fails [] (CmdSend 40000 7 LargestFirst false) (Err EBroadcast) [Some (false, NoFault); None].
Proof. split_and!; apply fails_ok; vm_compute; reflexivity. Qed.
