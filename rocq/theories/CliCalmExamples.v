(** Wallets for the properties of PropsCliCalm.v. *)
From Verif Require PlanExamples.
From Verif Require Export CliPayExamples CliCalmProofs.
Local Open Scope N_scope.
Local Existing Instances ex_env cli_env PlanExamples.toy_env kcs_codec.

(** ** The wallet with coins of 100000 and 60000 *)
Definition calm_txid (w : World TxHeight) : option bool :=
  match create_tx true cli_ch cli_km (w_tracker w) 40000 7 LargestFirst with
  | Ret (_, Ok (t, _)) => Some (bool_decide (ctx_txid t ≤ max_txid ∧ ci_prev <$> ct_in t = cliW (ctx_txid t)))
  | _ => None
  end.
Lemma calm_txid_ok w : calm_txid w = Some true → ∀ x' t change,
  create_tx true cli_ch cli_km (w_tracker w) 40000 7 LargestFirst = Ret (x', Ok (t, change)) → own_txid cliW t.
Proof. unfold calm_txid. intros H x' t change E. rewrite E in H. injection H as H. by apply bool_decide_eq_true in H. Qed.
Lemma calm_address (x : Tracker Keychain TxHeight) : addressable 1 (Some 3) x.
Proof. by split. Qed.
Lemma calm_nodup ho (x : Tracker Keychain TxHeight) : NoDup (full_utxos ho x).
Proof. unfold full_utxos. apply NoDup_filter. eapply NoDup_fmap_1, full_txouts_nodup. Qed.
Definition calm_obs : option (list N * option bool) :=
  match pay_world 60000 with
  | Some (w, _, _) => Some (value_of <$> full_utxos (exho (cg_graph (tr_cg (w_tracker w)))) (w_tracker w), calm_txid w)
  | None => None
  end.
Definition calm_commands : list (Command TxHeight) :=
  [CmdAddress AddrNext; CmdAddress (AddrList true); CmdBalance; CmdTxOut (mkTxOutCmd true false false false);
   CmdSend 40000 7 LargestFirst true; CmdSend 40000 7 LargestFirst false; CmdElectrum (pay_scan 60000) cli_ord; CmdEsplora (pay_scan 60000) cli_ord].
Lemma calm_all W (x : Tracker Keychain TxHeight) pr sc ord txo :
  hash_fun_ok (ch_hash cli_ch) → tr_op_ok (keychains 1 (Some 3)) W (adds 1 (Some 3)) (TrUpdate (ch_hash cli_ch) sc ord) →
  countable_funds x → may_pay 1 (Some 3) cli_km cli_ch x 40000 7 →
  (∀ x' t change, create_tx true cli_ch cli_km x 40000 7 LargestFirst = Ret (x', Ok (t, change)) → own_txid W t) →
  ∀ c, c ∈ [CmdAddress AddrNext; CmdAddress (AddrList true); CmdBalance; CmdTxOut txo;
    CmdSend 40000 7 LargestFirst true; CmdSend 40000 7 LargestFirst false; CmdElectrum sc ord; CmdEsplora sc ord] →
    action_ok (keychains 1 (Some 3)) W (adds 1 (Some 3)) cli_ch (Run c) ∧
    fair W true 1 (Some 3) cli_km x pr cli_ch (Run c).
Proof.
  intros Hho Hsc Hf Hp Hown. apply Forall_forall.
  repeat (apply Forall_cons; split); [..|constructor]; (split; [split; [exact Hho|]; split; [exact Hho|]|]).
  all: first [exact I|exact Hsc|exact Hf|exact (conj Hp Hown)].
Qed.
Lemma calm_example : ∃ w pr evs, in_session kcs_wf cliW true 10 1 (Some 3) cli_km w pr evs ∧ addressable 1 (Some 3) (w_tracker w) ∧
  ∀ c, c ∈ calm_commands → action_ok (keychains 1 (Some 3)) cliW (adds 1 (Some 3)) cli_ch (Run c) ∧
    fair cliW true 1 (Some 3) cli_km (w_tracker w) pr cli_ch (Run c).
Proof.
  assert (calm_obs = Some ([100000; 60000], Some true)) as Ho by (vm_compute; reflexivity). unfold calm_obs in Ho.
  destruct (pay_world 60000) as [[[w pr] evs]|] eqn:E; [|done]. injection Ho as Hc Ht.
  assert (in_session kcs_wf cliW true 10 1 (Some 3) cli_km w pr evs) as Hs by (eapply pay_session; [|exact E]; by left).
  exists w, pr, evs. split; [exact Hs|]. split; [apply calm_address|].
  assert (hash_fun_ok (ch_hash cli_ch)) as Hho by (intros g; apply exho_ok).
  assert (may_pay 1 (Some 3) cli_km cli_ch (w_tracker w) 40000 7) as Hp.
  { split; [exact cli_choices_ok|]. split; [by apply (pay_modest w 60000)|]. split; [exact pay_signer|]. intros l Hl. by eapply pay_light. }
  destruct (session_good kcs_wf kcs_codec_ok kcs_range_default cliW true 10 1 (Some 3) cli_km cli_good w pr evs Hs) as [Hg _].
  assert (countable_funds (w_tracker w)) as Hf.
  { exists (full_utxos (ch_hash cli_ch (cg_graph (tr_cg (w_tracker w)))) (w_tracker w)). split.
    - apply calm_nodup.
    - split; [intros ki f; by apply (utxos_unspent cliW 1 (Some 3) cli_ch (w_tracker w) (ki, f))|]. unfold two_coins in Hc. cbn [ch_hash cli_ch]. rewrite Hc. by vm_compute. }
  pose proof (pay_scans 60000 (or_introl eq_refl)) as Hsc. pose proof (calm_txid_ok w Ht) as Hown.
  apply calm_all; [exact Hho|exact Hsc|exact Hf|exact Hp|exact Hown].
Qed.
Lemma calm_process : life (P := TxHeight) kcs_wf cliW true 10 1 (Some 3) cli_km None [] ∧
  command_ok (P := TxHeight) (keychains 1 (Some 3)) cliW (adds 1 (Some 3)) cli_ch (CmdAddress AddrNext) ∧
  (∃ b w, init (P := TxHeight) 10 1 (Some 3) None None [] = Ret (b, Ok w)) ∧
  ∀ b (w : World TxHeight), init 10 1 (Some 3) None None [] = Ret (b, Ok w) →
     addressable 1 (Some 3) (w_tracker w) ∧ fair cliW true 1 (Some 3) cli_km (w_tracker w) [] cli_ch (Run (CmdAddress AddrNext)).
Proof.
  split; [apply life_new|]. split; [split; [intros g; apply exho_ok|exact I]|]. split.
  - destruct (init (P := TxHeight) 10 1 (Some 3) None None []) as [[b [w|e]]|] eqn:E; [by eexists _, _| |].
    all: exfalso; revert E; vm_compute; discriminate.
  - intros b w _. split; [apply calm_address|exact I].
Qed.

(** ** A server that reports more money than there is *)
Definition rich : N := 18446744073709551615.
Lemma rich_scan_ok : pay_scan_ok rich.
Proof.
  assert (built cliW (pay_upd rich)) as Hb.
  { apply after_built; [apply built_default|]. repeat (apply Forall_cons; split; [split; [|done]|]); [| |constructor]; try done.
    split; [apply exho_ok|]. split; vm_compute; done. }
  split; [apply exho_ok|]. split; [apply (bool_decide_unpack _); vm_compute; done|]. split; [exact Hb|].
  split; [apply in_rangeb_ok; vm_compute; reflexivity|]. cbn [ks_active pay_scan]. intros k t Hk.
  apply lookup_singleton_Some in Hk as [<- <-]. split; [|vm_compute; discriminate]. apply known_adds. by eexists.
Qed.
Lemma rich_session w pr evs : pay_world rich = Some (w, pr, evs) → in_session kcs_wf cliW true 10 1 (Some 3) cli_km w pr evs.
Proof.
  unfold pay_world. destruct (init _ _ _ _ _ _) as [[b [w0|]]|] eqn:Ei; try done. destruct (acts _ _ _ _) as [[[w1 pr1] evs1]|] eqn:Ea; [|done].
  destruct (forallb _ _) eqn:Ef; [|done]. intros [= -> -> ->].
  exists None, [], None, [], b, w0, (pay_found rich). split; [apply life_new|]. split; [exact Ei|]. split; [|split; [exact Ea|]].
  - repeat (apply Forall_cons; split; [|]); [| |constructor]; (split; [apply exho_ok|]); (split; [apply exho_ok|]); [done|]. exact rich_scan_ok.
  - eapply forallb_ok; [|exact Ef]. intros [] Hev; cbn in *; [by apply ckcsb_ok|done|done].
Qed.
Definition rich_obs : option bool :=
  match pay_world rich with
  | Some (w, _, _) => Some (match run_balance_cmd cli_ch (w_tracker w) with Panic => true | _ => false end)
  | None => None
  end.
Lemma rich_panics : ∃ w pr evs, in_session kcs_wf cliW true 10 1 (Some 3) cli_km w pr evs ∧ addressable 1 (Some 3) (w_tracker w) ∧
  handle_command true cli_ch cli_km w CmdBalance = Panic.
Proof.
  assert (rich_obs = Some true) as Ho by (vm_compute; reflexivity). unfold rich_obs in Ho.
  destruct (pay_world rich) as [[[w pr] evs]|] eqn:E; [|done]. exists w, pr, evs. split; [by apply rich_session|]. split; [apply calm_address|].
  cbn [handle_command]. injection Ho as Ho. by destruct (run_balance_cmd cli_ch (w_tracker w)).
Qed.
Lemma poor_panics : ∃ w pr evs, in_session kcs_wf cliW true 10 1 (Some 3) cli_km w pr evs ∧ addressable 1 (Some 3) (w_tracker w) ∧
  handle_command true cli_ch cli_km w (CmdSend rich 7 LargestFirst true) = Panic ∧
  handle_command true watch_ch ∅ w (CmdSend 40000 7 LargestFirst true) = Panic.
Proof.
  destruct pay_panics as (w & pr & evs & Hs & E1 & E2 & _). exists w, pr, evs. split; [exact Hs|]. split; [apply calm_address|].
  cbn [handle_command]. unfold send_prepare. rewrite E2. change 18446744073709551615 with rich in E1. rewrite E1. done.
Qed.
