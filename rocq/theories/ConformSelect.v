(** The tests of bdk_coin_select run on the model: those of
    bdk_coin_select/src/coin_selector.rs, and those of bdk_coin_select/src/bnb.rs.
    The latter are behind a feature the crate does not have and refer to modules it
    does not have ([evaluate_cs], [tester]); here a candidate of the tester is a
    taproot key spend and its options pay to and drain to taproot outputs. *)
From Verif Require Import BnbModel BnbExamples.

(** bdk_coin_select/src/coin_selector.rs:533-574 *)
Definition tv_opts : CoinSelectorOpt := mkOpt (Some 1000) 0 (f32_of 0) None 0 10 10 10 10.
(** bdk_coin_select/src/coin_selector.rs:533-574; the values 500..1500 *)
Definition tv_cands : list WeightedValue := (λ i, mkWV (500 + Z.of_nat i) 100 1 false) <$> seq 0 1000.
(** What the loop of the test asserts of the candidate at [i]. *)
Definition tv_ok (i : nat) : bool :=
  match cs_select (cs_new tv_cands tv_opts) i with
  | Ret (s, true) =>
      let v := 500 + Z.of_nat i in
      match finish true s with
      | Ret (Err e) => bool_decide (v < 1000 ∧ se_selected e = v ∧ se_missing e = 1000 - v
                                    ∧ se_constraint e = MinAbsoluteFee)
      | Ret (Ok sn) => bool_decide (1000 <= v ∧ sn_excess sn = v - 1000)
      | Panic => false
      end
  | _ => false
  end.
(** bdk_coin_select/src/coin_selector.rs:533-574 *)
Example target_value_respected : forallb tv_ok (seq 0 1000) = true.
Proof. vm_compute. reflexivity. Qed.

(** bdk_coin_select/src/coin_selector.rs:576-610 *)
Definition da_run : outcome (result Selection SelectionError) :=
  r ← select_until_finished true
    (cs_new (replicate 100 (mkWV 666 166 1 false)) (mkOpt None 0 f32_quarter None 0 10 100 66 1000));
  Ret r.1.
(** bdk_coin_select/src/coin_selector.rs:576-610 *)
Example drain_all :
  match da_run with
  | Ret (Ok sn) =>
      bool_decide (1 < size (sn_selected sn))%nat &&
      match sn_strategies sn, best_strategy (sn_strategies sn) with
      | [_], Ret (ToDrain, mkES None (Some _) _ _ _) => true
      | _, _ => false
      end
  | _ => false
  end = true.
Proof. vm_compute. reflexivity. Qed.

(** bdk_coin_select/src/bnb.rs:327-330, the tester: a candidate, and the options for a
    target; a taproot script has 34 bytes, its key spend a witness of 66 *)
Definition gen_candidate (v : Z) : WeightedValue :=
  match wv_new true v 66 true with Ret c => c | Panic => mkWV 0 0 0 false end.
(** bdk_coin_select/src/bnb.rs:327-330 *)
Definition gen_opts (v : Z) : CoinSelectorOpt :=
  match opt_fund_outputs true [(v, 34)] (0, 34) 66 with Ret o => o | Panic => tv_opts end.
(** Other options (the struct updates of the tests). *)
Definition with_rates (o : CoinSelectorOpt) (r : f32) (l : option f32) : CoinSelectorOpt :=
  mkOpt (o_target o) (o_extra o) r l (o_min_fee o) (o_base o) (o_drain o) (o_spend_drain o) (o_min_drain o).
(** bdk_coin_select/src/bnb.rs:406-419 *)
Definition with_target (o : CoinSelectorOpt) (v : Z) : CoinSelectorOpt :=
  mkOpt (Some v) (o_extra o) (o_rate o) (o_long_rate o) (o_min_fee o) (o_base o) (o_drain o)
        (o_spend_drain o) (o_min_drain o).
(** bdk_coin_select/src/bnb.rs:573-579 *)
Definition with_min_fee (o : CoinSelectorOpt) (f : Z) : CoinSelectorOpt :=
  mkOpt (o_target o) (o_extra o) (o_rate o) (o_long_rate o) f (o_base o) (o_drain o)
        (o_spend_drain o) (o_min_drain o).
(** bdk_coin_select/src/bnb.rs:332-342 [evaluate_bnb]: the selection found, finished *)
Definition evaluate_bnb (s : CoinSelector) (tries : nat) : option Selection :=
  match coin_select_bnb true sort_by (Rounds tries) s with
  | Ret (Some s') => match finish true s' with Ret (Ok sn) => Some sn | _ => None end
  | _ => None
  end.
(** What the tests look at: the number selected, the kinds of strategy, and by how much
    the first strategy's fee exceeds that of the feerate. *)
Definition eval_obs (o : CoinSelectorOpt) (m : option Selection) : option (nat * list ExcessStrategyKind * Z) :=
  sn ← m;
  '(k, e) ← head (sn_strategies sn);
  Some (size (sn_selected sn), (sn_strategies sn).*1, es_fee e - f32_as U64 (weight_fee (es_weight e) (o_rate o))).
(** The selected candidates. *)
Definition sel_of (m : option Selection) : option (list nat) := (λ sn, bset_list (sn_selected sn)) <$> m.

(** bdk_coin_select/src/bnb.rs:344-354 *)
Example not_enough_coins :
  coin_select_bnb true sort_by (Rounds (Z.to_nat 10000)) (cs_new (replicate 2 (gen_candidate 100000)) (gen_opts 200000))
  = Ret None.
Proof. vm_compute. reflexivity. Qed.

(** bdk_coin_select/src/bnb.rs:356-383 *)
Definition ee_opts : CoinSelectorOpt := with_rates (gen_opts 200000) (f32_of 0) None.
(** bdk_coin_select/src/bnb.rs:356-383 *)
Definition ee_run : option Selection :=
  evaluate_bnb (mkCS ee_opts (replicate 3 (gen_candidate 100000)) {[0; 1]}%nat) (Z.to_nat 10000).
(** bdk_coin_select/src/bnb.rs:356-383 *)
Example exactly_enough_coins_preselected :
  sel_of ee_run = Some [0; 1]%nat ∧ eval_obs ee_opts ee_run = Some (2%nat, [ToFee], 0).
Proof. split; vm_compute; reflexivity. Qed.

(** bdk_coin_select/src/bnb.rs:385-466: the fees, and a run for a target *)
Definition cc_fees : Z :=
  let o := gen_opts 0 in
  2 * f32_as U64 (weight_fee (wv_weight (gen_candidate 200000)) (o_rate o))
  + f32_as U64 (weight_fee (o_base o + 2) (o_rate o)).
(** bdk_coin_select/src/bnb.rs:385-466 *)
Definition cc_run (t : Z) : option (nat * list ExcessStrategyKind * Z) :=
  let o := with_target (gen_opts 0) t in
  eval_obs o (evaluate_bnb (cs_new (replicate 3 (gen_candidate 200000)) o) (Z.to_nat 10000)).
(** bdk_coin_select/src/bnb.rs:385-466; what is paid above the feerate is
    less than one satoshi per weight unit *)
Example cost_of_change :
  let highest := 400000 - cc_fees in
  let lowest := highest - drain_waste (gen_opts 0) in
  cc_run lowest = Some (2%nat, [ToFee], 100) ∧ cc_run highest = Some (2%nat, [ToFee], 1) ∧
  cc_run (lowest - 1) = None ∧ cc_run (highest + 1) = None.
Proof. vm_compute. repeat split; reflexivity. Qed.

(** bdk_coin_select/src/bnb.rs:468-509 *)
Definition ts_run (v : Z) : option (nat * list ExcessStrategyKind * Z) :=
  let o := with_rates (gen_opts v) (f32_of 0) None in
  eval_obs o (evaluate_bnb (cs_new (gen_candidate <$> [300000; 300000; 300000; 200000; 200000]) o) (Z.to_nat 10000)).
(** bdk_coin_select/src/bnb.rs:468-509 *)
Example try_select :
  ts_run <$> [100000; 200000; 300000; 500000; 1000000; 1200000; 1300000; 1400000]
  = [None; Some (1%nat, [ToFee], 0); Some (1%nat, [ToFee], 0); Some (2%nat, [ToFee], 0);
     Some (4%nat, [ToFee], 0); None; Some (5%nat, [ToFee], 0); None].
Proof. vm_compute. reflexivity. Qed.

(** bdk_coin_select/src/bnb.rs:511-540, with 100 equal candidates
    instead of 1000 and 200 rounds instead of 1100 *)
Example early_bailout_optimization :
  let o := with_rates (gen_opts 300000) (f32_of 0) None in
  sel_of (evaluate_bnb (cs_new ((gen_candidate <$> [125000; 125000; 50000]) ++ replicate 100 (gen_candidate 100000)) o) 200)
  = Some [0; 1; 2]%nat.
Proof. vm_compute. reflexivity. Qed.

(** bdk_coin_select/src/bnb.rs:542-553, with 100 instead of 1000 tries *)
Example should_exhaust_iteration :
  evaluate_bnb (cs_new (replicate 101 (gen_candidate 10000)) (gen_opts (10001 * 100))) 100 = None.
Proof. vm_compute. reflexivity. Qed.

(** bdk_coin_select/src/bnb.rs:555-594 *)
Definition mf_cands : list WeightedValue :=
  gen_candidate <$> (replicate 5 10000 ++ replicate 5 20000 ++ replicate 5 30000 ++ replicate 10 10300
    ++ replicate 10 10500 ++ replicate 10 10700 ++ replicate 10 10900 ++ replicate 10 11000
    ++ replicate 10 12000 ++ replicate 10 13000).
(** bdk_coin_select/src/bnb.rs:555-594; the minimum asked for and the fee found *)
Definition mf_run (factor : Z) : option (Z * (nat * Z)) :=
  let o := with_min_fee (gen_opts 100000) (factor * 31) in
  sn ← evaluate_bnb (cs_new mf_cands o) (Z.to_nat 2000);
  '(_, e) ← head (sn_strategies sn);
  Some (factor * 31, (length (sn_strategies sn), es_fee e)).
(** bdk_coin_select/src/bnb.rs:555-594, for three of the 120 minima and with
    2000 rounds instead of 21000 *)
Example min_absolute_fee :
  forallb (λ f, match mf_run f with
                | Some (m, (n, fee)) => bool_decide (m <= fee ∧ n = 1%nat)
                | None => true
                end) [1; 20; 120] = true.
Proof. vm_compute. reflexivity. Qed.

(** bdk_coin_select/src/bnb.rs:596-639; the rate 1.25 *)
Definition f32_five_quarters : f32 := S754_finite false 10485760 (-23).
(** bdk_coin_select/src/bnb.rs:596-639 *)
Definition fd_run (rate long : f32) : option nat :=
  let o := with_rates (gen_opts 100000) rate (Some long) in
  let cands := gen_candidate <$> (replicate 10 2000 ++ replicate 10 5000 ++ replicate 10 20000) in
  (λ sn, size (sn_selected sn)) <$> evaluate_bnb (cs_new cands o) (Z.to_nat 21000).
(** bdk_coin_select/src/bnb.rs:596-639: fewer inputs while fees are high *)
Example feerate_difference :
  fd_run f32_five_quarters f32_quarter = Some 6%nat ∧ fd_run f32_quarter f32_five_quarters = Some 16%nat.
Proof. split; vm_compute; reflexivity. Qed.
