(** C102, C103: what a command line wallet sends and shows in its whole life. *)
From Verif Require Import CliSendExamples.
Local Open Scope N_scope.
Local Existing Instance kcs_codec.

Section cli.
Context `{!DescEnv, !CliEnv, !PlanModel.KeyEnv} `{ChainPositionLaws P}.
Context `{!LeafCodecs Keychain P, !LeafWf Keychain P, !LeafOk Keychain P}.
Context (W : Txid → list OutPoint) (dbg : bool) (limit : nat) (ext : Desc) (int : option Desc) (km : PlanModel.KeyMap).
Notation life := (life kcs_wf W dbg limit ext int km).
Implicit Types (evs : list (event P)) (y : Tracker Keychain P) (cs : KChangeSet Keychain P).

(** C102: what a send that succeeds has broadcast is in the chain of the wallet its file opens to. *)
Theorem C102_noted d evs create faults ch value addr algo b evs' : good_env (keychains ext int) → life d evs → hash_fun_ok (ch_hash ch) →
  process dbg limit ext int km d create faults ch (CmdSend value addr algo true) = Ret (b, evs', Ok tt) → Forall (event_ok kcs_wf W) evs' →
  (reads d ∨ ∀ cs e, EvAppend cs e ∈ evs' → whole e) →
  ∃ t change y, broadcasts evs' = [t] ∧ EvBroadcast t change true ∈ evs' ∧ life (Some b) (evs ++ evs') ∧ opens limit ext int b y ∧
    in_chain (tr_cg y) (ctx_txid t).
Proof.
  intros HA F1 F2 F3 F4 F5. destruct (sent_noted kcs_wf kcs_codec_ok kcs_range_default W dbg limit ext int km HA d evs create faults ch value addr algo b evs' F1 F2 F3 F4 F5)
    as (t & change & y & G1 & G2 & G3 & G4 & G5 & _). by exists t, change, y.
Qed.
(** And whatever processes follow, killed or not, none of them broadcasts a transaction that spends an output which that
    transaction spends, unless an entry has taken it out of the chain. *)
Theorem C102_never_again d b y e1 e2 e3 t1 c1 ok1 t2 c2 ok2 : good_env (keychains ext int) →
  life (Some b) e1 → opens limit ext int b y → EvBroadcast t1 c1 ok1 ∈ e1 → in_chain (tr_cg y) (ctx_txid t1) →
  life d (e1 ++ e2 ++ EvBroadcast t2 c2 ok2 :: e3) → (∀ cs, cs ∈ logged e2 → ¬ drops cs (ctx_txid t1)) → ¬ double_spends t1 t2.
Proof. intros HA. exact (never_again kcs_wf kcs_codec_ok kcs_range_default W dbg limit ext int km HA d b y e1 e2 e3 t1 c1 ok1 t2 c2 ok2). Qed.

(** C103: the change of what a send that succeeds has broadcast is, for the wallet its file opens to, a script which has
    been revealed and is in use, if the wallet did not know the transaction before. *)
Theorem C103_change_used d evs create faults ch value addr algo b evs' : good_env (keychains ext int) → life d evs → hash_fun_ok (ch_hash ch) →
  process dbg limit ext int km d create faults ch (CmdSend value addr algo true) = Ret (b, evs', Ok tt) → Forall (event_ok kcs_wf W) evs' →
  (reads d ∨ ∀ cs e, EvAppend cs e ∈ evs' → whole e) →
  ∃ t change y, broadcasts evs' = [t] ∧ EvBroadcast t change true ∈ evs' ∧ life (Some b) (evs ++ evs') ∧ opens limit ext int b y ∧
    ∀ b0 w k i, init limit ext int d create faults = Ret (b0, Ok w) → get_tx (cg_graph (tr_cg (w_tracker w))) (ctx_txid t) = None → change = Some (k, i) →
      ∃ sp, reveals_spk y k i sp ∧ si_is_used (ki_inner (tr_index y)) (k, i) = true.
Proof.
  intros HA F1 F2 F3 F4 F5. destruct (sent_noted kcs_wf kcs_codec_ok kcs_range_default W dbg limit ext int km HA d evs create faults ch value addr algo b evs' F1 F2 F3 F4 F5)
    as (t & change & y & G1 & G2 & G3 & G4 & _ & G6). by exists t, change, y.
Qed.
(** And no process after it, whatever happens between, uses that script as change again or shows it as an address to
    receive on: not any script which is revealed and in use, as long as the keychains have scripts left. *)
Theorem C103_not_again b y e1 d e2 create faults b2 w ch c b' evs r k i sp : good_env (keychains ext int) →
  life (Some b) e1 → opens limit ext int b y → reveals_spk y k i sp → si_is_used (ki_inner (tr_index y)) (k, i) = true → life d (e1 ++ e2) →
  init limit ext int d create faults = Ret (b2, Ok w) → (∀ k d, keychains ext int k = Some d → n_revealed (tr_index (w_tracker w)) k < cap d) →
  process dbg limit ext int km d create faults ch c = Ret (b', evs, r) → hash_fun_ok (ch_hash ch) →
  (∀ t ok, EvBroadcast t (Some (k, i)) ok ∉ evs) ∧ ∀ sp, EvAddress k i sp ∉ evs.
Proof. intros HA. exact (not_again kcs_wf kcs_codec_ok kcs_range_default W dbg limit ext int km HA b y e1 d e2 create faults b2 w ch c b' evs r k i sp). Qed.
(** [address new] shows a script that lies above every one of its keychain that was ever shown or broadcast as change. *)
Theorem C103_new_above d evs create faults b2 w ch b' evs' r k i sp : good_env (keychains ext int) → life d evs →
  init limit ext int d create faults = Ret (b2, Ok w) → n_revealed (tr_index (w_tracker w)) External < cap ext →
  process dbg limit ext int km d create faults ch (CmdAddress AddrNew) = Ret (b', evs', r) →
  EvAddress k i sp ∈ evs' → k = External ∧ ∀ j sp', given_away evs External j sp' → j < i.
Proof. intros HA. exact (new_above kcs_wf kcs_codec_ok kcs_range_default W dbg limit ext int km HA d evs create faults b2 w ch b' evs' r k i sp). Qed.
End cli.

Local Existing Instances ex_env cli_env PlanExamples.toy_env.
(** A send after a scan, *)
Example C102_noted_example : good_env (keychains 1 (Some 3)) ∧ ∃ b e1 b' evs, CliSpec.life kcs_wf cliW true 10 1 (Some 3) cli_km (Some b) e1 ∧
  hash_fun_ok (ch_hash cli_ch) ∧
  process true 10 1 (Some 3) cli_km (Some b) None [] cli_ch (CmdSend 40000 7 LargestFirst true) = Ret (b', evs, Ok tt) ∧
  Forall (event_ok kcs_wf cliW) evs ∧ reads (Some b) ∧ (λ t, (ctx_txid t, ci_prev <$> ct_in t)) <$> broadcasts evs = [(41000, [mkOutPoint 21 0])].
Proof. split; [exact cli_good|exact noted_example]. Qed.
(** and one more, which spends the change of the first. *)
Example C102_example : good_env (keychains 1 (Some 3)) ∧
  ∃ d b y e1 e2 e3 t1 c1 t2 c2, CliSpec.life kcs_wf cliW true 10 1 (Some 3) cli_km (Some b) e1 ∧ opens 10 1 (Some 3) b y ∧
  EvBroadcast t1 c1 true ∈ e1 ∧ in_chain (tr_cg y) (ctx_txid t1) ∧
  CliSpec.life kcs_wf cliW true 10 1 (Some 3) cli_km d (e1 ++ e2 ++ EvBroadcast t2 c2 true :: e3) ∧ (∀ cs, cs ∈ logged e2 → ¬ drops cs (ctx_txid t1)) ∧
  ci_prev <$> ct_in t1 = [mkOutPoint 21 0] ∧ ci_prev <$> ct_in t2 = [mkOutPoint (ctx_txid t1) 1].
Proof. split; [exact cli_good|exact sends_example]. Qed.
(** Without the entry, because the process is killed between broadcasting and writing it, the next process spends the same
    output in another transaction. *)
Theorem C102_killed_refuted : good_env (keychains 1 (Some 3)) ∧
  ∃ d evs t1 c1 t2 c2, CliSpec.life kcs_wf cliW true 10 1 (Some 3) cli_km d evs ∧ EvBroadcast t1 c1 true ∈ evs ∧ EvBroadcast t2 c2 true ∈ evs ∧
    ctx_txid t1 ≠ ctx_txid t2 ∧ double_spends t1 t2.
Proof. split; [exact cli_good|exact killed_twice]. Qed.

(** A send which makes change, of a transaction the wallet did not know. *)
Example C103_change_used_example : good_env (keychains 1 (Some 3)) ∧
  ∃ b0 e0 b t e1 e2 w, CliSpec.life kcs_wf cliW true 10 1 (Some 3) cli_km (Some b0) e0 ∧ hash_fun_ok (ch_hash cli_ch) ∧
  process true 10 1 (Some 3) cli_km (Some b0) None [] cli_ch (CmdSend 40000 7 LargestFirst true) =
    Ret (b, [e1; EvBroadcast t (Some (Internal, 0)) true; e2], Ok tt) ∧
  Forall (event_ok kcs_wf cliW) [e1; EvBroadcast t (Some (Internal, 0)) true; e2] ∧ reads (Some b0) ∧
  init 10 1 (Some 3) (Some b0) None [] = Ret (b0, Ok w) ∧ get_tx (cg_graph (tr_cg (w_tracker w))) (ctx_txid t) = None.
Proof. split; [exact cli_good|exact change_example]. Qed.
(** After it another one uses the next script. *)
Example C103_not_again_example : good_env (keychains 1 (Some 3)) ∧
  ∃ b y e1 w b' t a a' sp, CliSpec.life kcs_wf cliW true 10 1 (Some 3) cli_km (Some b) e1 ∧ opens 10 1 (Some 3) b y ∧
  reveals_spk y Internal 0 sp ∧ si_is_used (ki_inner (tr_index y)) (Internal, 0) = true ∧
  init 10 1 (Some 3) (Some b) None [] = Ret (b, Ok w) ∧ (∀ k d, keychains 1 (Some 3) k = Some d → n_revealed (tr_index (w_tracker w)) k < cap d) ∧
  process true 10 1 (Some 3) cli_km (Some b) None [] cli_ch (CmdSend 20000 7 LargestFirst true) =
    Ret (b', [a; EvBroadcast t (Some (Internal, 1)) true; a'], Ok tt) ∧ hash_fun_ok (ch_hash cli_ch).
Proof. split; [exact cli_good|exact fresh_example]. Qed.
(** Two addresses shown, then a third. *)
Example C103_new_above_example : good_env (keychains 1 (Some 3)) ∧
  ∃ b e1 w b' evs, CliSpec.life kcs_wf cliW true 10 1 (Some 3) cli_km (Some b) e1 ∧ init 10 1 (Some 3) (Some b) None [] = Ret (b, Ok w) ∧
  n_revealed (tr_index (w_tracker w)) External < cap 1 ∧
  process true 10 1 (Some 3) cli_km (Some b) None [] cli_ch (CmdAddress AddrNew) = Ret (b', evs, Ok tt) ∧
  EvAddress External 1 (exs 1 1) ∈ e1 ∧ EvAddress External 2 (exs 1 2) ∈ e1 ∧ EvAddress External 3 (exs 1 3) ∈ evs.
Proof. split; [exact cli_good|exact new_example]. Qed.
(** When the process is killed between broadcasting and writing, the next one makes the same script its change, *)
Theorem C103_killed_refuted : good_env (keychains 1 (Some 3)) ∧
  ∃ d evs t1 t2, CliSpec.life kcs_wf cliW true 10 1 (Some 3) cli_km d evs ∧ EvBroadcast t1 (Some (Internal, 0)) true ∈ evs ∧
  EvBroadcast t2 (Some (Internal, 0)) true ∈ evs ∧ ctx_txid t1 ≠ ctx_txid t2.
Proof. split; [exact cli_good|exact killed_change]. Qed.
(** and a wallet of one descriptor shows it to others as an address to pay to. *)
Theorem C103_shown_refuted : good_env (keychains 1 None) ∧
  ∃ d e1 e2 t r v s, CliSpec.life kcs_wf cliW true 10 1 None cli_km d (e1 ++ e2) ∧ EvBroadcast t (Some (External, 1)) true ∈ e1 ∧
  ct_out t = [r; mkTxOut v s] ∧ EvAddress External 1 s ∈ e2.
Proof. split; [exact good_one|exact killed_address]. Qed.

Print Assumptions C102_noted.
Print Assumptions C102_never_again.
Print Assumptions C102_noted_example.
Print Assumptions C102_example.
Print Assumptions C102_killed_refuted.
Print Assumptions C103_change_used.
Print Assumptions C103_not_again.
Print Assumptions C103_new_above.
Print Assumptions C103_change_used_example.
Print Assumptions C103_not_again_example.
Print Assumptions C103_new_above_example.
Print Assumptions C103_killed_refuted.
Print Assumptions C103_shown_refuted.
