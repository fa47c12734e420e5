(** C55-C57: branch and bound. *)
From Verif Require Import BaseProofs F32Proofs BnbProofs BnbProofs2 BnbProofs3 BnbExamples.

(** C55: the search never panics, and a returned selection keeps what was selected before, adds only candidates
    worth more than their fee, meets both targets and does not exceed both limits.  [sort] is any sort. *)
Theorem C55_found dbg sort limit s : typed s → modest s → (∀ cmp l, sort cmp l ≡ₚ l) → clock_ok limit →
  ∃ res, coin_select_bnb dbg sort limit s = Ret res ∧
    ∀ s', res = Some s' → ∃ T, s' = with_sel s T ∧ choosable s T ∧ fits s'.
Proof. exact (λ Ht Hm Hs, bnb_found dbg s Ht Hm sort Hs limit). Qed.
Print Assumptions C55_found.
Example C55_found_ex : (typed ex_bnb ∧ modest ex_bnb) ∧
  found (coin_select_bnb true sort_by (Rounds 7) ex_bnb) = Ret None ∧
  found (coin_select_bnb true sort_by (Rounds 8) ex_bnb) = Ret (Some [0; 1]%nat) ∧
  found (coin_select_bnb true sort_by (Rounds 12) ex_bnb) = Ret (Some [2; 3]%nat) ∧
  found (coin_select_bnb true sort_by (Duration (replicate 8 InTime ++ [TimeUp])) ex_bnb) = Ret (Some [0; 1]%nat).
Proof. exact (conj ex_bnb_ok ex_bnb_found). Qed.
(** The search ends by itself: [2^(n+1)] rounds are enough for [n] candidates. *)
Theorem C55_enough dbg sort s N N' : typed s → modest s → (∀ cmp l, sort cmp l ≡ₚ l) →
  (2 ^ S (length (cs_cands s)) ≤ N)%nat → (2 ^ S (length (cs_cands s)) ≤ N')%nat →
  coin_select_bnb dbg sort (Rounds N) s = coin_select_bnb dbg sort (Rounds N') s.
Proof. exact (λ Ht Hm Hs, bnb_enough dbg s Ht Hm sort Hs N N'). Qed.
Print Assumptions C55_enough.
(** With a time limit as well. *)
Theorem C55_clock dbg sort s N rest : typed s → modest s → (∀ cmp l, sort cmp l ≡ₚ l) →
  (2 ^ S (length (cs_cands s)) ≤ N)%nat →
  coin_select_bnb dbg sort (Duration (replicate N InTime ++ rest)) s = coin_select_bnb dbg sort (Rounds N) s.
Proof. exact (λ Ht Hm Hs, bnb_clock_enough dbg s Ht Hm sort Hs N rest). Qed.
Print Assumptions C55_clock.
Example C55_enough_ex : (2 ^ S (length (cs_cands ex_bnb)) ≤ 128)%nat ∧
  found (coin_select_bnb true sort_by (Rounds 128) ex_bnb) = Ret (Some [2; 3]%nat) ∧
  score (with_sel ex_bnb {[ 2%nat; 3%nat ]}) = 220 ∧ score (with_sel ex_bnb {[ 0%nat; 1%nat ]}) = 230.
Proof. exact ex_bnb_enough. Qed.
(** Without the bound on amounts a checked build panics and an unchecked one returns a selection beyond both
    limits. *)
Theorem C55_unbounded_refuted : ∃ s, typed s ∧ coin_select_bnb true sort_by (Rounds 100) s = Panic ∧
  ∃ s', coin_select_bnb false sort_by (Rounds 100) s = Ret (Some s') ∧ ¬ fits s'.
Proof. exact (ex_intro _ ex_bnb_huge ex_bnb_huge_found). Qed.
Print Assumptions C55_unbounded_refuted.

(** C56: without a target the solution may leave too little for the drain. *)
Theorem C56_drain_refuted : ∃ s s' e, typed s ∧ modest s ∧
  coin_select_bnb true sort_by (Rounds 100) s = Ret (Some s') ∧ finish true s' = Ret (Err e) ∧
  o_target (cs_opts s) = None ∧ se_constraint e = MinDrainValue.
Proof. exact ex_bnb_drain_fails. Qed.
Print Assumptions C56_drain_refuted.
(** With one, the fee of the whole may be rounded to more than the fees of the parts. *)
Theorem C56_rounding_refuted : ∃ s s' e, typed s ∧ modest s ∧
  coin_select_bnb true sort_by (Rounds 100) s = Ret (Some s') ∧ finish true s' = Ret (Err e) ∧
  o_target (cs_opts s) = Some 990 ∧ se_constraint e = TargetFee ∧ se_missing e = 1.
Proof. exact ex_bnb_round_fails. Qed.
Print Assumptions C56_rounding_refuted.
(** Missing: rates such that the products need more than 24 bits.  At a rate of [r * 2^(a-400)] satoshi per weight
    unit, with [r] times the weight below 2^24, a solution with a target can be finished. *)
Theorem C56_exact_partial dbg sort limit s s' r a : typed s → modest s → (∀ cmp l, sort cmp l ≡ₚ l) → clock_ok limit →
  coin_select_bnb dbg sort limit s = Ret (Some s') → is_Some (o_target (cs_opts s)) →
  f32_is (o_rate (cs_opts s)) (r * 2 ^ a) → 251 ≤ a → 0 ≤ r →
  template_weight s + weight_in s' < 2 ^ 24 → (template_weight s + weight_in s') * r < 2 ^ 24 →
  ∃ sn, finish dbg s' = Ret (Ok sn).
Proof. exact (bnb_finish dbg sort limit s s' r a). Qed.
Print Assumptions C56_exact_partial.
Example C56_exact_partial_ex : (typed ex_bnb ∧ modest ex_bnb) ∧
  f32_is (o_rate (cs_opts ex_bnb)) (5 * 2 ^ 397) ∧
  ∃ sn, template_weight ex_bnb + weight_in (with_sel ex_bnb {[ 2%nat; 3%nat ]}) = 710 ∧
    finish true (with_sel ex_bnb {[ 2%nat; 3%nat ]}) = Ret (Ok sn) ∧ sn_excess sn = 16.
Proof. exact (conj ex_bnb_ok (conj (proj1 ex_bnb_rates) ex_bnb_finish)). Qed.
(** Without a target, at such rates only the drain can be missing. *)
Theorem C56_drain_only_partial dbg sort limit s s' r a e : typed s → modest s → (∀ cmp l, sort cmp l ≡ₚ l) → clock_ok limit →
  coin_select_bnb dbg sort limit s = Ret (Some s') → finish dbg s' = Ret (Err e) →
  f32_is (o_rate (cs_opts s)) (r * 2 ^ a) → 251 ≤ a → 0 ≤ r →
  template_weight s + weight_in s' < 2 ^ 24 → (template_weight s + weight_in s') * r < 2 ^ 24 →
  o_target (cs_opts s) = None ∧ se_constraint e = MinDrainValue.
Proof. exact (bnb_finish_none dbg sort limit s s' r a e). Qed.
Print Assumptions C56_drain_only_partial.
(** At any rate, as long as the fee is at most 2^23, one satoshi is missing at most. *)
Theorem C56_by_one_partial dbg sort limit s s' R : typed s → modest s → (∀ cmp l, sort cmp l ≡ₚ l) → clock_ok limit →
  coin_select_bnb dbg sort limit s = Ret (Some s') → is_Some (o_target (cs_opts s)) →
  f32_is (o_rate (cs_opts s)) R → (R = 0 ∨ 2 ^ 274 ≤ R) →
  template_weight s + weight_in s' < 2 ^ 24 → (template_weight s + weight_in s') * R ≤ 2 ^ 423 →
  ∃ res, finish dbg s' = Ret res ∧ ∀ e, res = Err e → se_constraint e = TargetFee ∧ se_missing e = 1.
Proof. exact (bnb_finish_round dbg sort limit s s' R). Qed.
Print Assumptions C56_by_one_partial.
Example C56_by_one_partial_ex : (typed ex_bnb_round ∧ modest ex_bnb_round) ∧
  (f32_is (o_rate (cs_opts ex_bnb_round)) (9586981 * 2 ^ 374) ∧ 2 ^ 274 ≤ 9586981 * 2 ^ 374 ∧
   template_weight ex_bnb_round + weight_in (with_sel ex_bnb_round all_fifteen) = 105 ∧
   105 * (9586981 * 2 ^ 374) ≤ 2 ^ 423) ∧
  found (coin_select_bnb true sort_by (Rounds 100) ex_bnb_round) = Ret (Some (seq 0 15)) ∧
  ∃ e, finish true (with_sel ex_bnb_round all_fifteen) = Ret (Err e) ∧ se_constraint e = TargetFee ∧ se_missing e = 1.
Proof. exact (conj ex_bnb_round_ok (conj ex_bnb_round_rate ex_bnb_round_found)). Qed.

(** C57: with enough rounds and a target rate not below the long-term rate, the returned selection has the least
    score among those that add candidates worth more than their fee; if none of them fits, nothing is returned.
    Missing: selections with other candidates. *)
Theorem C57_optimal_partial dbg sort s N R L : typed s → modest s → (∀ cmp l, sort cmp l ≡ₚ l) →
  f32_is (o_rate (cs_opts s)) R → f32_is (long_term_feerate (cs_opts s)) L → L ≤ R →
  (2 ^ S (length (cs_cands s)) ≤ N)%nat →
  ∃ res, coin_select_bnb dbg sort (Rounds N) s = Ret res ∧
    match res with
    | Some s' => (∃ T, s' = with_sel s T ∧ choosable s T) ∧ fits s' ∧
        ∀ T, choosable s T → fits (with_sel s T) → score s' ≤ score (with_sel s T)
    | None => ∀ T, choosable s T → ¬ fits (with_sel s T)
    end.
Proof. exact (λ Ht Hm Hs Hr Hl Hle, bnb_optimal dbg s Ht Hm sort Hs N (rates_mono s Hm R L Hr Hl Hle)). Qed.
Print Assumptions C57_optimal_partial.
Example C57_optimal_partial_ex : (typed ex_bnb ∧ modest ex_bnb) ∧
  (f32_is (o_rate (cs_opts ex_bnb)) (5 * 2 ^ 397) ∧ f32_is (long_term_feerate (cs_opts ex_bnb)) (1 * 2 ^ 398) ∧
   1 * 2 ^ 398 ≤ 5 * 2 ^ 397) ∧
  (2 ^ S (length (cs_cands ex_bnb)) ≤ 128)%nat ∧
  found (coin_select_bnb true sort_by (Rounds 128) ex_bnb) = Ret (Some [2; 3]%nat) ∧
  score (with_sel ex_bnb {[ 2%nat; 3%nat ]}) = 220 ∧ score (with_sel ex_bnb {[ 0%nat; 1%nat ]}) = 230.
Proof. exact (conj ex_bnb_ok (conj ex_bnb_rates ex_bnb_enough)). Qed.
(** With other candidates a selection may fit although the search finds nothing. *)
Theorem C57_all_refuted : ∃ s T, typed s ∧ modest s ∧
  (∀ N sort, (8 ≤ N)%nat → (∀ cmp l, sort cmp l ≡ₚ l) → coin_select_bnb true sort (Rounds N) s = Ret None) ∧
  fits (with_sel s T).
Proof. exact (ex_intro _ ex_bnb_miss (ex_intro _ {[ 0%nat; 1%nat ]} ex_bnb_miss_found)). Qed.
Print Assumptions C57_all_refuted.
