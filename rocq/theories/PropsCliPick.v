(** C112: which coins a transaction spends. *)
From Verif Require Import CliPickExamples.
Local Open Scope N_scope.
Local Existing Instance kcs_codec.

Section cli.
Context `{!DescEnv, !CliEnv, !PlanModel.KeyEnv} `{ChainPositionLaws P}.
Context `{!LeafCodecs Keychain P, !LeafWf Keychain P, !LeafOk Keychain P}.
Context (W : Txid → list OutPoint) (dbg : bool) (limit : nat) (ext : Desc) (int : option Desc) (km : PlanModel.KeyMap).
Notation in_session := (in_session kcs_wf W dbg limit ext int km).
Implicit Types (evs : list (event P)) (w : World P).

(** C112: for every algorithm with an order in its name, a transaction made in any session spends coins which in that order
    come before all coins left over. They pay for it, and without the last one or more of them they would not. *)
Theorem C112_in_order w pr evs ch value addr algo x' t change : good_env (keychains ext int) → in_session w pr evs →
  choices_ok ch → modest_wallet ext int ch (w_tracker w) value addr →
  (∀ l, coins ext int ch (w_tracker w) l → (pay_weight addr l.*2 < 2 ^ 23)%Z) → algo ≠ BranchAndBound →
  create_tx dbg ch km (w_tracker w) value addr algo = Ret (x', Ok (t, change)) →
  ∃ l rest, coins ext int ch (w_tracker w) (l ++ rest) ∧ (∀ kf n, coin ext int ch (w_tracker w) kf n → (kf, n) ∈ l ++ rest) ∧
    StronglySorted (spent_before algo) (l ++ rest).*1 ∧ ci_prev <$> ct_in t = (λ p, fto_outpoint p.1.2) <$> l ∧
    pay value addr l ∧ ∀ l1 e l2, l = l1 ++ e :: l2 → ¬ pay value addr l1.
Proof.
  intros HA Hs. destruct (session_good kcs_wf kcs_codec_ok kcs_range_default W dbg limit ext int km HA w pr evs Hs) as [Hg _].
  exact (create_tx_picks W dbg ext int km HA ch (w_tracker w) value addr algo x' t change Hg).
Qed.

(** C112: if all coins cost the same to spend, no choice of coins that pays has fewer of them than largest first takes. *)
Theorem C112_fewest_partial w pr evs ch value addr x' t change n : good_env (keychains ext int) → in_session w pr evs →
  choices_ok ch → modest_wallet ext int ch (w_tracker w) value addr →
  (∀ l, coins ext int ch (w_tracker w) l → (pay_weight addr l.*2 < 2 ^ 23)%Z) → (∀ kf k, coin ext int ch (w_tracker w) kf k → k = n) →
  create_tx dbg ch km (w_tracker w) value addr LargestFirst = Ret (x', Ok (t, change)) →
  ∀ m, coins ext int ch (w_tracker w) m → pay value addr m → (length (ct_in t) ≤ length m)%nat.
Proof.
  intros HA Hs. destruct (session_good kcs_wf kcs_codec_ok kcs_range_default W dbg limit ext int km HA w pr evs Hs) as [Hg _].
  exact (create_tx_fewest W dbg ext int km HA ch (w_tracker w) value addr x' t change n Hg).
Qed.
End cli.
Print Assumptions C112_in_order.
Print Assumptions C112_fewest_partial.

Local Existing Instances ex_env PlanExamples.toy_env.
(** A wallet with a coin of 100000 in block 105 and one of 60000 in block 108, which cost the same to spend. *)
Example C112_ex : good_env (keychains 1 (Some 3)) ∧ choices_ok cli_ch ∧ ∃ w pr evs, picks_ok cli_env w pr evs ∧
  (∀ kf n, coin (H0 := cli_env) 1 (Some 3) cli_ch (w_tracker w) kf n → n = 70) ∧
  makes cli_env w 40000 LargestFirst [mkOutPoint 21 0] ∧ makes cli_env w 40000 SmallestFirst [mkOutPoint 50 0] ∧
  makes cli_env w 40000 OldestFirst [mkOutPoint 21 0] ∧ makes cli_env w 40000 NewestFirst [mkOutPoint 50 0] ∧
  makes cli_env w 120000 SmallestFirst [mkOutPoint 50 0; mkOutPoint 21 0].
Proof. split; [exact cli_good|]. split; [exact cli_choices_ok|]. exact picks_example. Qed.

(** With coins that cost different amounts to spend, one that is 10 satoshis larger and takes a leaf to spend, largest first
    spends both where the smaller one would have paid alone. *)
Theorem C112_fewest_refuted : good_env (keychains 1 (Some 3)) ∧ choices_ok cli_ch ∧ ∃ w pr evs, picks_ok mix_env w pr evs ∧
  makes mix_env w 59765 LargestFirst [mkOutPoint 50 0; mkOutPoint 21 0] ∧
  ∃ m, coins (H0 := mix_env) 1 (Some 3) cli_ch (w_tracker w) m ∧ pay (H0 := mix_env) 59765 7 m ∧ length m = 1%nat.
Proof. split; [exact cli_good|]. split; [exact cli_choices_ok|]. exact picks_refuted. Qed.
Print Assumptions C112_ex.
Print Assumptions C112_fewest_refuted.
