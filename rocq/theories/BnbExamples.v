(** Concrete searches. *)
From Verif Require Export BnbModel BnbSpec CoinSelectExamples.
From Verif Require Import BaseProofs F32Proofs CoinSelectProofs CoinSelectProofs2 CoinSelectProofs3 BnbProofs BnbProofs2 BnbProofs3.

(** A sort. *)
Fixpoint insert_by {A : Type} (cmp : A → A → comparison) (x : A) (l : list A) : list A :=
  match l with
  | [] => [x]
  | y :: l' => match cmp y x with Gt => x :: l | _ => y :: insert_by cmp x l' end
  end.
Definition sort_by {A : Type} (cmp : A → A → comparison) (l : list A) : list A :=
  foldr (insert_by cmp) [] l.
Lemma insert_by_perm {A : Type} (cmp : A → A → comparison) x l : insert_by cmp x l ≡ₚ x :: l.
Proof.
  induction l as [|y l IH]; [done|]. cbn. destruct (cmp y x); [| |done]; rewrite IH; apply Permutation_swap.
Qed.
Lemma sort_by_perm {A : Type} (cmp : A → A → comparison) l : sort_by cmp l ≡ₚ l.
Proof. induction l as [|x l IH]; [done|]. cbn. by rewrite insert_by_perm, IH. Qed.

(** 2.5 sat/vB now, 1 sat/vB later, a payment of 50000. *)
Definition ex_bnb : CoinSelector :=
  mkCS ex_opts [mkWV 30170 272 1 true; mkWV 20300 272 1 true; mkWV 25230 272 1 true; mkWV 25230 272 1 true;
                mkWV 90000 272 1 true; mkWV 300 592 1 false] ∅.
(** The indices a search returns. *)
Definition found (r : outcome (option CoinSelector)) : outcome (option (list nat)) :=
  m ← r; Ret ((λ s, bset_list (cs_sel s)) <$> (m : option CoinSelector)).
Lemma ex_bnb_ok : typed ex_bnb ∧ modest ex_bnb.
Proof. split; [by apply typedb_ok; vm_compute|by apply modestb_ok; vm_compute]. Qed.
Lemma ex_bnb_found : found (coin_select_bnb true sort_by (Rounds 7) ex_bnb) = Ret None ∧
  found (coin_select_bnb true sort_by (Rounds 8) ex_bnb) = Ret (Some [0; 1]%nat) ∧
  found (coin_select_bnb true sort_by (Rounds 12) ex_bnb) = Ret (Some [2; 3]%nat) ∧
  found (coin_select_bnb true sort_by (Duration (replicate 8 InTime ++ [TimeUp])) ex_bnb) = Ret (Some [0; 1]%nat).
Proof. vm_compute. done. Qed.
Lemma ex_bnb_enough : (2 ^ S (length (cs_cands ex_bnb)) ≤ 128)%nat ∧
  found (coin_select_bnb true sort_by (Rounds 128) ex_bnb) = Ret (Some [2; 3]%nat) ∧
  score (with_sel ex_bnb {[ 2%nat; 3%nat ]}) = 220 ∧ score (with_sel ex_bnb {[ 0%nat; 1%nat ]}) = 230.
Proof. split; [apply Nat.leb_le; by vm_compute|]. vm_compute. done. Qed.
Lemma ex_bnb_rates : f32_is (o_rate (cs_opts ex_bnb)) (5 * 2 ^ 397) ∧
  f32_is (long_term_feerate (cs_opts ex_bnb)) (1 * 2 ^ 398) ∧ 1 * 2 ^ 398 ≤ 5 * 2 ^ 397.
Proof.
  change (o_rate (cs_opts ex_bnb)) with (ratio 5 8). change (long_term_feerate (cs_opts ex_bnb)) with f32_quarter.
  assert (ratio 5 8 = S754_finite false 10485760 (-24)) as -> by (vm_compute; reflexivity).
  assert (f32_quarter = S754_finite false 8388608 (-25)) as -> by (vm_compute; reflexivity).
  cbn [f32_is]. lia.
Qed.
Lemma ex_bnb_finish : ∃ sn, template_weight ex_bnb + weight_in (with_sel ex_bnb {[ 2%nat; 3%nat ]}) = 710 ∧
  finish true (with_sel ex_bnb {[ 2%nat; 3%nat ]}) = Ret (Ok sn) ∧ sn_excess sn = 16.
Proof. eexists. split; [by vm_compute|]. split; [vm_compute; reflexivity|]. done. Qed.

(** Values beyond all bitcoins: four candidates of 2^62 are selected already. *)
Definition ex_bnb_huge : CoinSelector :=
  mkCS (mkOpt (Some 100) 0 f32_quarter None 0 40 124 272 297)
    (replicate 4 (mkWV (2 ^ 62) 0 1 true) ++ [mkWV 200 272 1 true]) {[ 0%nat; 1%nat; 2%nat; 3%nat ]}.
Lemma ex_bnb_huge_found : typed ex_bnb_huge ∧ coin_select_bnb true sort_by (Rounds 100) ex_bnb_huge = Panic ∧
  ∃ s', coin_select_bnb false sort_by (Rounds 100) ex_bnb_huge = Ret (Some s') ∧ ¬ fits s'.
Proof.
  split; [by apply typedb_ok; vm_compute|]. split; [by vm_compute|].
  eexists. split; [vm_compute; reflexivity|].
  intros (_ & _ & [Hx|Hx]); vm_compute in Hx; done.
Qed.

(** The minimum fee can only be reached with the candidate that is worth nothing. *)
Definition ex_bnb_miss : CoinSelector :=
  mkCS (mkOpt (Some 900) 0 f32_quarter None 200 0 124 272 297) [mkWV 1000 400 1 false; mkWV 100 400 1 false] ∅.
Lemma ex_bnb_miss_found : typed ex_bnb_miss ∧ modest ex_bnb_miss ∧
  (∀ N sort, (8 ≤ N)%nat → (∀ cmp l, sort cmp l ≡ₚ l) → coin_select_bnb true sort (Rounds N) ex_bnb_miss = Ret None) ∧
  fits (with_sel ex_bnb_miss {[ 0%nat; 1%nat ]}).
Proof.
  assert (Ht : typed ex_bnb_miss) by (by apply typedb_ok; vm_compute).
  assert (Hm : modest ex_bnb_miss) by (by apply modestb_ok; vm_compute).
  split; [done|]. split; [done|]. split.
  - intros N sort HN Hsort. rewrite (coin_select_bnb_eq true _ Ht Hm sort Hsort).
    assert (Hp : pool_of ex_bnb_miss sort = [(0%nat, mkWV 1000 400 1 false)]).
    { unfold pool_of. assert (filter (λ p, 0 < worth (cs_opts ex_bnb_miss) p.2) (cs_unselected ex_bnb_miss)
        = [(0%nat, mkWV 1000 400 1 false)]) as -> by (by vm_compute).
      apply Permutation_singleton_r. apply Hsort. }
    rewrite Hp. by vm_compute.
  - unfold fits. rewrite <-!Z.leb_le. split; [by vm_compute|]. split; [by vm_compute|]. left. by vm_compute.
Qed.

(** Without a target the minimum drain is not reached. *)
Definition ex_bnb_drain : CoinSelector :=
  mkCS (mkOpt None 0 f32_quarter None 0 40 124 272 500) [mkWV 150 272 1 true] ∅.
Lemma ex_bnb_drain_fails : ∃ s s' e, typed s ∧ modest s ∧ coin_select_bnb true sort_by (Rounds 100) s = Ret (Some s') ∧
  finish true s' = Ret (Err e) ∧ o_target (cs_opts s) = None ∧ se_constraint e = MinDrainValue.
Proof.
  exists ex_bnb_drain. do 2 eexists.
  split; [by apply typedb_ok; vm_compute|]. split; [by apply modestb_ok; vm_compute|].
  split; [vm_compute; reflexivity|]. split; [vm_compute; reflexivity|]. done.
Qed.

(** Fifteen inputs of seven weight units at 1/7: each costs 1, together they cost 16. *)
Definition ex_bnb_round : CoinSelector :=
  mkCS (mkOpt (Some 990) 0 (ratio 1 7) None 0 0 124 272 500) (replicate 15 (mkWV 67 7 1 false)) ∅.
Definition all_fifteen : gset nat := list_to_set (seq 0 15).
Lemma ex_bnb_round_ok : typed ex_bnb_round ∧ modest ex_bnb_round.
Proof. split; [by apply typedb_ok; vm_compute|by apply modestb_ok; vm_compute]. Qed.
Lemma ex_bnb_round_found : found (coin_select_bnb true sort_by (Rounds 100) ex_bnb_round) = Ret (Some (seq 0 15)) ∧
  ∃ e, finish true (with_sel ex_bnb_round all_fifteen) = Ret (Err e) ∧ se_constraint e = TargetFee ∧ se_missing e = 1.
Proof. split; [by vm_compute|]. eexists. split; [vm_compute; reflexivity|]. done. Qed.
Lemma ex_bnb_round_fails : ∃ s s' e, typed s ∧ modest s ∧ coin_select_bnb true sort_by (Rounds 100) s = Ret (Some s') ∧
  finish true s' = Ret (Err e) ∧ o_target (cs_opts s) = Some 990 ∧ se_constraint e = TargetFee ∧ se_missing e = 1.
Proof.
  exists ex_bnb_round. destruct ex_bnb_round_ok as [Ht Hm]. do 2 eexists.
  split; [done|]. split; [done|]. split; [vm_compute; reflexivity|]. split; [vm_compute; reflexivity|]. done.
Qed.
Lemma ex_bnb_round_rate : f32_is (o_rate (cs_opts ex_bnb_round)) (9586981 * 2 ^ 374) ∧ 2 ^ 274 ≤ 9586981 * 2 ^ 374 ∧
  template_weight ex_bnb_round + weight_in (with_sel ex_bnb_round all_fifteen) = 105 ∧
  105 * (9586981 * 2 ^ 374) ≤ 2 ^ 423.
Proof.
  change (o_rate (cs_opts ex_bnb_round)) with (ratio 1 7).
  assert (ratio 1 7 = S754_finite false 9586981 (-26)) as -> by (vm_compute; reflexivity).
  split; [cbn [f32_is]; lia|]. split; [lia|]. split; [by vm_compute|lia].
Qed.
