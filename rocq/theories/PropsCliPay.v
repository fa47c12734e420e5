(** C104: when a payment can be made. *)
From Verif Require Import CliPayExamples.
Local Open Scope N_scope.
Local Existing Instance kcs_codec.

Section cli.
Context `{!DescEnv, !CliEnv, !PlanModel.KeyEnv} `{ChainPositionLaws P}.
Context `{!LeafCodecs Keychain P, !LeafWf Keychain P, !LeafOk Keychain P}.
Context (W : Txid → list OutPoint) (dbg : bool) (limit : nat) (ext : Desc) (int : option Desc) (km : PlanModel.KeyMap).
Notation in_session := (in_session kcs_wf W dbg limit ext int km).
Implicit Types (evs : list (event P)) (w : World P).

(** C104: in any session of a wallet that can sign, making a payment never panics, and the only error is that of the
    selection. If a transaction is made, the coins it spends pay for the output and the fee; if not, then all the coins of
    the wallet together do not. *)
Theorem C104_pays_or_says_why w pr evs ch value addr algo : good_env (keychains ext int) → in_session w pr evs →
  choices_ok ch → modest_wallet ext int ch (w_tracker w) value addr → signer ext int ch km →
  (∀ l, coins ext int ch (w_tracker w) l → (pay_weight addr l.*2 < 2 ^ 23)%Z) →
  ∃ x' r z, create_tx dbg ch km (w_tracker w) value addr algo = Ret (x', r) ∧
    coins ext int ch (w_tracker w) z ∧ (∀ kf n, coin ext int ch (w_tracker w) kf n → (kf, n) ∈ z) ∧
    match r with
    | Ok (t, _) => ∃ l, coins ext int ch (w_tracker w) l ∧ pay value addr l ∧ ci_prev <$> ct_in t = (λ p, fto_outpoint p.1.2) <$> l
    | Err e => (∃ se, e = ESelection se) ∧ ¬ pay value addr z
    end.
Proof.
  intros HA Hs. destruct (session_good kcs_wf kcs_codec_ok kcs_range_default W dbg limit ext int km HA w pr evs Hs) as [Hg _].
  exact (create_tx_exact W dbg ext int km HA ch (w_tracker w) value addr algo Hg).
Qed.

(** C104: if no coin costs more than it brings, then every algorithm makes the payment exactly when some coins of the wallet
    pay for it. *)
Theorem C104_sends_iff_affordable w pr evs ch value addr algo : good_env (keychains ext int) → in_session w pr evs →
  choices_ok ch → modest_wallet ext int ch (w_tracker w) value addr → signer ext int ch km →
  (∀ l, coins ext int ch (w_tracker w) l → (pay_weight addr l.*2 < 2 ^ 23)%Z) →
  (∀ kf n, coin ext int ch (w_tracker w) kf n → worthwhile kf n) →
  (∃ x' t change, create_tx dbg ch km (w_tracker w) value addr algo = Ret (x', Ok (t, change))) ↔
  ∃ l, coins ext int ch (w_tracker w) l ∧ pay value addr l.
Proof.
  intros HA Hs. destruct (session_good kcs_wf kcs_codec_ok kcs_range_default W dbg limit ext int km HA w pr evs Hs) as [Hg _].
  exact (create_tx_iff W dbg ext int km HA ch (w_tracker w) value addr algo Hg).
Qed.
End cli.
Print Assumptions C104_pays_or_says_why.
Print Assumptions C104_sends_iff_affordable.

Local Existing Instances ex_env cli_env PlanExamples.toy_env.
(** A wallet with coins of 100000 and 60000, both worth spending, which pays 120000 with both and cannot pay 159900. *)
Example C104_ex : good_env (keychains 1 (Some 3)) ∧ choices_ok cli_ch ∧ signer 1 (Some 3) cli_ch cli_km ∧
  ∃ w pr evs x1 t change x2 se, in_session kcs_wf cliW true 10 1 (Some 3) cli_km w pr evs ∧
  (∀ value, value ≤ 200000 → modest_wallet 1 (Some 3) cli_ch (w_tracker w) value 7) ∧
  (∀ l, coins 1 (Some 3) cli_ch (w_tracker w) l → (pay_weight 7 l.*2 < 2 ^ 23)%Z) ∧
  (∀ kf n, coin 1 (Some 3) cli_ch (w_tracker w) kf n → worthwhile kf n) ∧
  create_tx true cli_ch cli_km (w_tracker w) 120000 7 BranchAndBound = Ret (x1, Ok (t, change)) ∧ length (ct_in t) = 2%nat ∧
  create_tx true cli_ch cli_km (w_tracker w) 159900 7 BranchAndBound = Ret (x2, Err (ESelection se)).
Proof. split; [exact cli_good|]. split; [exact cli_choices_ok|]. split; [exact pay_signer|]. exact pay_both. Qed.

(** C104 fails for a wallet with a coin of 50 satoshis: there are coins which pay 99770, largest first finds them, and
    smallest first reports that the funds do not suffice. *)
Theorem C104_dust_refuted : good_env (keychains 1 (Some 3)) ∧ choices_ok cli_ch ∧ signer 1 (Some 3) cli_ch cli_km ∧
  ∃ w pr evs, in_session kcs_wf cliW true 10 1 (Some 3) cli_km w pr evs ∧
  modest_wallet 1 (Some 3) cli_ch (w_tracker w) 99770 7 ∧
  (∀ l, coins 1 (Some 3) cli_ch (w_tracker w) l → (pay_weight 7 l.*2 < 2 ^ 23)%Z) ∧
  (∃ l, coins 1 (Some 3) cli_ch (w_tracker w) l ∧ pay 99770 7 l) ∧
  (∃ x1 t change, create_tx true cli_ch cli_km (w_tracker w) 99770 7 LargestFirst = Ret (x1, Ok (t, change))) ∧
  ∃ x2 se, create_tx true cli_ch cli_km (w_tracker w) 99770 7 SmallestFirst = Ret (x2, Err (ESelection se)).
Proof. split; [exact cli_good|]. split; [exact cli_choices_ok|]. split; [exact pay_signer|]. exact pay_dust. Qed.
Print Assumptions C104_dust_refuted.

(** C104 fails for an amount at the end of the range, which makes a debug build panic, and for a wallet without secrets,
    which panics at any payment it could make otherwise. *)
Theorem C104_panics_refuted : good_env (keychains 1 (Some 3)) ∧ choices_ok cli_ch ∧ choices_ok watch_ch ∧
  ∃ w pr evs, in_session kcs_wf cliW true 10 1 (Some 3) cli_km w pr evs ∧
  create_tx true cli_ch cli_km (w_tracker w) 18446744073709551615 7 LargestFirst = Panic ∧
  create_tx true watch_ch ∅ (w_tracker w) 40000 7 LargestFirst = Panic ∧
  ∃ x' t change, create_tx true cli_ch cli_km (w_tracker w) 40000 7 LargestFirst = Ret (x', Ok (t, change)).
Proof. split; [exact cli_good|]. split; [exact cli_choices_ok|]. split; [exact watch_choices_ok|]. exact pay_panics. Qed.
Print Assumptions C104_panics_refuted.
