(** Properties C34-C40: keychain index.
    Statements only; every proof is a lemma of the *Proofs files. *)
From Verif Require Import KeychainExamples.

Section props.
Context `{!DescEnv} `{Countable K, !Ord K, !OrdLaws K}.
Implicit Types (x y : KIndex K) (k : K) (h : list (ki_op K)) (A : K → option Desc)
  (outs : list (K * N * Script)) (acc ad m : gmap K N).

(** C34: no history of calls panics... *)
Theorem C34_no_panic A h : good_env A → ki_hist_ok A h → ∃ r, ki_run h = Ret r.
Proof. exact (ki_no_panic A h). Qed.
(** ...the stored scripts of a keychain are the first [n] of its descriptor, all of them watched,
    where [n] covers the revealed ones and the lookahead... *)
Theorem C34_stored A h x outs acc k d :
  good_env A → ki_hist_ok A h → ki_run h = Ret (x, outs, acc) → A k = Some d → known h k →
  ∃ n, n_revealed x k ≤ n ∧ n ≤ cap d ∧ N.min (cap d) (n_revealed x k + look_after h k) ≤ n ∧
    (∀ i s, si_spk_at (ki_inner x) (k, i) = Some s ↔ i < n ∧ derive d i = Some s) ∧
    (∀ i s, si_index_of_spk (ki_inner x) s = Some (k, i) ↔ i < n ∧ derive d i = Some s).
Proof. exact (ki_stored_exact A h x outs acc k d). Qed.
Theorem C34_nothing_else A h x outs acc k i s :
  good_env A → ki_hist_ok A h → ki_run h = Ret (x, outs, acc) →
  si_index_of_spk (ki_inner x) s = Some (k, i) → known h k ∧ ∃ d, A k = Some d ∧ i < cap d ∧ derive d i = Some s.
Proof. exact (ki_nothing_else A h x outs acc k i s). Qed.
(** ...the listing of revealed scripts is exact and in order... *)
Theorem C34_listing A h x outs acc k d :
  good_env A → ki_hist_ok A h → ki_run h = Ret (x, outs, acc) → A k = Some d → known h k →
  ∃ l, revealed_spks_of_keychain x k = Ret l ∧ derived d 0 (n_revealed x k) l.
Proof. exact (ki_revealed_list A h x outs acc k d). Qed.
(** ...and neither the last revealed index nor what is stored ever goes back. *)
Theorem C34_monotone A h h2 x outs acc x2 outs2 acc2 :
  good_env A → ki_hist_ok A (h ++ h2) → ki_run h = Ret (x, outs, acc) → ki_run (h ++ h2) = Ret (x2, outs2, acc2) →
  (∀ k i, last_revealed_index x k = Some i → ∃ j, last_revealed_index x2 k = Some j ∧ i ≤ j) ∧
  (∀ ki s, si_spk_at (ki_inner x) ki = Some s → si_spk_at (ki_inner x2) ki = Some s).
Proof. exact (ki_monotone A h h2 x outs acc x2 outs2 acc2). Qed.

(** C35: the next address was never handed out before nor otherwise revealed, and is recorded;
    when all have been revealed the last one is returned and nothing is recorded. *)
Theorem C35_fresh A h x outs acc k d :
  good_env A → ki_hist_ok A h → ki_run h = Ret (x, outs, acc) → A k = Some d → known h k →
  ∃ x' i s ad, reveal_next_spk x k = Ret (x', (i, s), ad) ∧ derive d i = Some s ∧
    si_index_of_spk (ki_inner x') s = Some (k, i) ∧
    (n_revealed x k < cap d → i = n_revealed x k ∧ ad = {[ k := i ]} ∧ ki_revealed x' = <[k := i]> (ki_revealed x) ∧
       (∀ k' i' s', (k', i', s') ∈ outs → s' ≠ s) ∧
       (∀ k' i', i' < n_revealed x k' → si_spk_at (ki_inner x) (k', i') ≠ Some s)) ∧
    (cap d ≤ n_revealed x k → i = cap d - 1 ∧ ad = ∅ ∧ ki_revealed x' = ki_revealed x).
Proof. exact (ki_fresh A h x outs acc k d). Qed.
(** Addresses handed out count as revealed. *)
Theorem C35_handed_out A h x outs acc k i s :
  good_env A → ki_hist_ok A h → ki_run h = Ret (x, outs, acc) → (k, i, s) ∈ outs →
  i < n_revealed x k ∧ ∃ d, A k = Some d ∧ derive d i = Some s.
Proof. exact (ki_outs_bounded A h x outs acc k i s). Qed.
(** The next unused address is the lowest revealed unused one, which has no outputs; otherwise a new one. *)
Theorem C35_next_unused A h x outs acc k d :
  good_env A → ki_hist_ok A h → ki_run h = Ret (x, outs, acc) → A k = Some d → known h k →
  ∃ x' i s ad, next_unused_spk x k = Ret (x', (i, s), ad) ∧ derive d i = Some s ∧
    ((x' = x ∧ ad = ∅ ∧ i < n_revealed x k ∧ si_is_used (ki_inner x) (k, i) = false ∧
        (∀ o, (k, i, o) ∉ si_spk_txouts (ki_inner x)) ∧
        ∀ j, j < i → si_is_used (ki_inner x) (k, j) = true) ∨
     ((∀ j, j < n_revealed x k → si_is_used (ki_inner x) (k, j) = true) ∧
        reveal_next_spk x k = Ret (x', (i, s), ad))).
Proof. exact (ki_next_unused A h x outs acc k d). Qed.
(** Reserving gives the same address and leaves it marked used. *)
Theorem C35_reserve A h x outs acc k d :
  good_env A → ki_hist_ok A h → ki_run h = Ret (x, outs, acc) → A k = Some d → known h k →
  (∃ x1 is ad x2, reveal_next_spk x k = Ret (x1, is, ad) ∧ reveal_and_reserve_next_spk x k = Ret (x2, is, ad) ∧
     si_is_used (ki_inner x2) (k, is.1) = true ∧ ki_revealed x2 = ki_revealed x1) ∧
  (∃ x1 is ad x2, next_unused_spk x k = Ret (x1, is, ad) ∧ reserve_next_unused_spk x k = Ret (x2, is, ad) ∧
     si_is_used (ki_inner x2) (k, is.1) = true ∧ ki_revealed x2 = ki_revealed x1).
Proof. exact (ki_reserve A h x outs acc k d). Qed.

(** C36: a target among the revealed indices changes nothing... *)
Theorem C36_within A h x outs acc k d t :
  good_env A → ki_hist_ok A h → ki_run h = Ret (x, outs, acc) → A k = Some d → known h k →
  target_of d t < n_revealed x k → reveal_to_target x k t = Ret (x, [], ∅).
Proof. exact (ki_reveal_within A h x outs acc k d t). Qed.
(** ...one beyond them, up to the bound, is reached exactly... *)
Theorem C36_beyond_partial A h x outs acc k d t :
  good_env A → ki_hist_ok A h → ki_run h = Ret (x, outs, acc) → A k = Some d → known h k →
  t ≤ bip32_max → n_revealed x k ≤ target_of d t →
  ∃ x' l, reveal_to_target x k t = Ret (x', l, {[ k := target_of d t ]}) ∧
    ki_revealed x' = <[k := target_of d t]> (ki_revealed x) ∧ derived d (n_revealed x k) (target_of d t + 1) l ∧
    si_txouts (ki_inner x') = si_txouts (ki_inner x) ∧
    (∀ k' i, k' ≠ k → si_spk_at (ki_inner x') (k', i) = si_spk_at (ki_inner x) (k', i)).
Proof. exact (ki_reveal_beyond A h x outs acc k d t). Qed.
(** ...and one beyond the bound leads to the bound, as long as the lookahead has not reached it. *)
Theorem C36_max_partial A h x outs acc k d t :
  good_env A → ki_hist_ok A h → ki_run h = Ret (x, outs, acc) → A k = Some d → known h k →
  has_wildcard d = true → bip32_max < t → t ≤ 2147483647 → n_revealed x k + look_after h k ≤ bip32_max →
  ∃ x' l, reveal_to_target x k t = Ret (x', l, {[ k := bip32_max ]}) ∧
    ki_revealed x' = <[k := bip32_max]> (ki_revealed x) ∧ derived d (n_revealed x k) (bip32_max + 1) l.
Proof. exact (ki_reveal_max A h x outs acc k d t). Qed.

(** C37: what can be revealed ends at 2^30. *)
Theorem C37_bound A h x outs acc k i :
  good_env A → ki_hist_ok A h → ki_run h = Ret (x, outs, acc) → last_revealed_index x k = Some i → i ≤ 1073741824.
Proof. exact (ki_bound A h x outs acc k i). Qed.

(** C38: what lookahead_to_target stores... *)
Theorem C38_exact A h x outs acc k d n t :
  good_env A → ki_hist_ok A h → ki_run h = Ret (x, outs, acc) → A k = Some d → known h k → t ≤ 2147483648 → stored x k n →
  ∃ x', lookahead_to_target x k t = Ret x' ∧ ki_revealed x' = ki_revealed x ∧ ki_lookahead x' = ki_lookahead x ∧
    stored x' k (if bool_decide (n < t) then N.max n (N.min (n_revealed x k + (t - n)) (cap d)) else n) ∧
    ∀ ki s, si_spk_at (ki_inner x) ki = Some s → si_spk_at (ki_inner x') ki = Some s.
Proof. exact (ki_look_exact A h x outs acc k d n t). Qed.
(** ...which is everything below the target if nothing past the revealed indices was stored. *)
Theorem C38_target_partial A h x outs acc k d t :
  good_env A → ki_hist_ok A h → ki_run h = Ret (x, outs, acc) → A k = Some d → known h k → t ≤ 2147483648 →
  stored x k (n_revealed x k) →
  ∃ x', lookahead_to_target x k t = Ret x' ∧ ki_revealed x' = ki_revealed x ∧ ki_lookahead x' = ki_lookahead x ∧
    ∀ i, i < t → i < cap d → ∃ s, derive d i = Some s ∧ si_index_of_spk (ki_inner x') s = Some (k, i).
Proof. exact (ki_look_target A h x outs acc k d t). Qed.

(** C39: scanning discovers a history with gaps of up to the lookahead. *)
Theorem C39_gapped A pays W h l x outs acc :
  good_env A → ki_hist_ok A h → ki_run h = Ret (x, outs, acc) → (∀ k d, A k = Some d → known h k) →
  (∀ o u, (o, u) ∈ l → SpkIndexSpec.op_ok o) → pays_to A pays →
  (∀ o u, (o, u) ∈ hist_outs h ++ l → u = W o) →
  gap_ok pays (look_after h) (n_revealed x) l →
  ∃ x' ad, ki_scan x l = Ret (x', ad) ∧
    ∀ o u k i, (o, u) ∈ l → pays (txo_spk u) = Some (k, i) →
      si_txout (ki_inner x') o = Some (k, i, u) ∧ ∃ j, last_revealed_index x' k = Some j ∧ i ≤ j.
Proof. exact (ki_gapped A pays W h l x outs acc). Qed.

(** C40: appending additions takes the maximum: commutative, associative, idempotent, the empty
    one neutral, the result the least upper bound. *)
Theorem C40_comm ad m : da_append ad m = da_append m ad.
Proof. exact (da_append_comm ad m). Qed.
Theorem C40_assoc (a b c : gmap K N) : da_append a (da_append b c) = da_append (da_append a b) c.
Proof. exact (da_append_assoc a b c). Qed.
Theorem C40_idemp ad : da_append ad ad = ad.
Proof. exact (da_append_idemp ad). Qed.
Theorem C40_empty ad : da_append ad ∅ = ad.
Proof. exact (da_append_empty_r ad). Qed.
Theorem C40_least (a b c : gmap K N) :
  (∀ k i, a !! k = Some i → ∃ j, c !! k = Some j ∧ i ≤ j) →
  (∀ k i, b !! k = Some i → ∃ j, c !! k = Some j ∧ i ≤ j) →
  ∀ k i, da_append a b !! k = Some i → ∃ j, c !! k = Some j ∧ i ≤ j.
Proof. exact (da_append_least a b c). Qed.
Theorem C40_upper ad m k i : ad !! k = Some i → ∃ j, da_append ad m !! k = Some j ∧ i ≤ j.
Proof. exact (da_append_upper ad m k i). Qed.
(** Applying additions takes the maximum with what is revealed, in any order and however often. *)
Theorem C40_apply A h x outs acc m :
  good_env A → ki_hist_ok A h → ki_run h = Ret (x, outs, acc) →
  (∀ k t, m !! k = Some t → known h k ∧ ∃ d, A k = Some d ∧ t < cap d) →
  ∃ x', ki_apply_additions x m = Ret x' ∧ ki_revealed x' = da_append (ki_revealed x) m.
Proof. exact (ki_apply A h x outs acc m). Qed.
Theorem C40_apply_order A h x outs acc m1 m2 :
  good_env A → ki_hist_ok A h → ki_run h = Ret (x, outs, acc) →
  (∀ k t, m1 !! k = Some t → known h k ∧ ∃ d, A k = Some d ∧ t < cap d) →
  (∀ k t, m2 !! k = Some t → known h k ∧ ∃ d, A k = Some d ∧ t < cap d) →
  ∃ x1 x12 y1 y12 z w, ki_apply_additions x m1 = Ret x1 ∧ ki_apply_additions x1 m2 = Ret x12 ∧
    ki_apply_additions x m2 = Ret y1 ∧ ki_apply_additions y1 m1 = Ret y12 ∧
    ki_apply_additions x (da_append m1 m2) = Ret z ∧ ki_apply_additions x1 m1 = Ret w ∧
    ki_revealed x12 = ki_revealed z ∧ ki_revealed y12 = ki_revealed z ∧ ki_revealed w = ki_revealed x1.
Proof. exact (ki_apply_order A h x outs acc m1 m2). Qed.
(** Replaying all reported additions onto an index with the same keychains restores what is revealed. *)
Theorem C40_replay A h x outs acc h0 y outs0 acc0 :
  good_env A → ki_hist_ok A h → ki_run h = Ret (x, outs, acc) →
  ki_hist_ok A h0 → ki_run h0 = Ret (y, outs0, acc0) → (∀ k, known h k → known h0 k) →
  ∃ y', ki_apply_additions y acc = Ret y' ∧ ki_revealed y' = da_append (ki_revealed y) (ki_revealed x) ∧
    (ki_revealed y = ∅ → ki_revealed y' = ki_revealed x).
Proof. exact (ki_replay A h x outs acc h0 y outs0 acc0). Qed.
End props.

(** Targets beyond the bound: nothing is revealed once the lookahead has reached the bound, although
    every index is still to be revealed... *)
Theorem C36_beyond_bound_refuted : ∃ (E : DescEnv) (A : N → option Desc) h x outs acc k d t,
  good_env A ∧ ki_hist_ok A h ∧ ki_run h = Ret (x, outs, acc) ∧ known h k ∧ A k = Some d ∧ has_wildcard d = true ∧
  n_revealed x k = 0 ∧ bip32_max < t ∧ ∃ x', reveal_to_target x k t = Ret (x', [], ∅) ∧ ki_revealed x' = ∅.
Proof. exact beyond_bound_nothing. Qed.
(** ...and within the lookahead an index without a script is recorded as revealed. *)
Theorem C36_unstored_refuted : ∃ (E : DescEnv) (A : N → option Desc) h x outs acc k d t,
  good_env A ∧ ki_hist_ok A h ∧ ki_run h = Ret (x, outs, acc) ∧ known h k ∧ A k = Some d ∧ has_wildcard d = true ∧
  n_revealed x k = 0 ∧ ∃ x' l, reveal_to_target x k t = Ret (x', l, {[ k := t ]}) ∧ last_revealed_index x' k = Some t ∧
    si_spk_at (ki_inner x') (k, t) = None.
Proof. exact beyond_bound_unstored. Qed.
(** Index 2^31-1 cannot be revealed: revealing to it stops at 2^30. *)
Theorem C37_whole_range_refuted : ∃ (E : DescEnv) (A : N → option Desc) h x outs acc k d,
  good_env A ∧ ki_hist_ok A h ∧ ki_run h = Ret (x, outs, acc) ∧ known h k ∧ A k = Some d ∧ has_wildcard d = true ∧
  (∀ i, is_Some (derive d i)) ∧
  ∃ x' l, reveal_to_target x k 2147483647 = Ret (x', l, {[ k := 1073741824 ]}) ∧ last_revealed_index x' k = Some 1073741824.
Proof. exact whole_range. Qed.
(** With a lookahead in force lookahead_to_target can leave scripts below the target unwatched. *)
Theorem C38_target_refuted : ∃ (E : DescEnv) (A : N → option Desc) h k d t i s,
  good_env A ∧ ki_hist_ok A h ∧ A k = Some d ∧ known h k ∧ i < t ∧ i < cap d ∧ derive d i = Some s ∧
  match ki_run h with
  | Ret (x, _, _) => match lookahead_to_target x k t with Ret x' => si_index_of_spk (ki_inner x') s = None | Panic => False end
  | Panic => False end.
Proof. exact look_target_missed. Qed.

Print Assumptions C34_no_panic.
Print Assumptions C34_stored.
Print Assumptions C34_nothing_else.
Print Assumptions C34_listing.
Print Assumptions C34_monotone.
Print Assumptions C35_fresh.
Print Assumptions C35_handed_out.
Print Assumptions C35_next_unused.
Print Assumptions C35_reserve.
Print Assumptions C36_within.
Print Assumptions C36_beyond_partial.
Print Assumptions C36_max_partial.
Print Assumptions C36_beyond_bound_refuted.
Print Assumptions C36_unstored_refuted.
Print Assumptions C37_bound.
Print Assumptions C37_whole_range_refuted.
Print Assumptions C38_exact.
Print Assumptions C38_target_partial.
Print Assumptions C38_target_refuted.
Print Assumptions C39_gapped.
Print Assumptions C40_comm.
Print Assumptions C40_assoc.
Print Assumptions C40_idemp.
Print Assumptions C40_empty.
Print Assumptions C40_least.
Print Assumptions C40_upper.
Print Assumptions C40_apply.
Print Assumptions C40_apply_order.
Print Assumptions C40_replay.

(** ** Concrete cases *)
Local Existing Instance ex_env.
(** Three keychains, one without wildcard, eighteen calls: the hypotheses hold... *)
Example C34_ex : good_env exA ∧ ki_hist_ok exA ex_h ∧ exA 0 = Some 1 ∧ known ex_h 0 ∧ ∃ x outs acc, ki_run ex_h = Ret (x, outs, acc).
Proof. split; [exact exA_good|]. split; [exact ex_h_ok|]. split; [reflexivity|]. split; [exists 1; by left|exact ex_run]. Qed.
(** ...and this is what it leads to: addresses handed out, additions, stored and revealed scripts. *)
Example C34_ex_obs : ex_obs (λ x outs acc,
    (fst <$> outs, bmap_list acc, [n_revealed x 0; n_revealed x 1; n_revealed x 2], [look_after ex_h 0; look_after ex_h 1])) =
  Some ([(0, 0); (0, 1); (2, 0); (2, 0); (0, 6); (0, 1); (0, 1)], [(0, 8); (1, 4); (2, 0)], [9; 5; 1], [2; 2]).
Proof. vm_compute. reflexivity. Qed.
Example C34_ex_stored : ex_obs (λ x _ _, (si_spk_at (ki_inner x) (0, 10), si_spk_at (ki_inner x) (0, 11), si_index_of_spk (ki_inner x) (exs 1 10))) =
  Some (Some (exs 1 10), None, Some (0, 10)).
Proof. vm_compute. reflexivity. Qed.
Example C34_ex_listing : ex_obs (λ x _ _, revealed_spks_of_keychain x 1) =
  Some (Ret [(0, exs 3 0); (1, exs 3 1); (2, exs 3 2); (3, exs 3 3); (4, exs 3 4)]).
Proof. vm_compute. reflexivity. Qed.
Example C35_ex : ex_obs (λ x _ _, (match reveal_next_spk x 0 with Ret (_, is, ad) => Some (is, bmap_list ad) | Panic => None end,
     match reveal_next_spk x 2 with Ret (_, is, ad) => Some (is, bmap_list ad) | Panic => None end)) =
  Some (Some (9, exs 1 9, [(0, 9)]), Some (0, exs 2 0, [])).
Proof. vm_compute. reflexivity. Qed.
Example C35_ex_unused : ex_obs (λ x _ _, (match next_unused_spk x 0 with Ret (_, is, ad) => Some (is, bmap_list ad) | Panic => None end,
     unused_spks_of_keychain x 0)) =
  Some (Some (0, exs 1 0, []), Ret [(0, exs 1 0); (2, exs 1 2); (3, exs 1 3); (7, exs 1 7); (8, exs 1 8)]).
Proof. vm_compute. reflexivity. Qed.
Example C36_ex : ex_obs (λ x _ _, (match reveal_to_target x 0 10 with Ret (x', l, ad) => Some (l, bmap_list ad, n_revealed x' 0) | Panic => None end,
     match reveal_to_target x 0 3 with Ret (x', l, ad) => Some (l, bmap_list ad, n_revealed x' 0) | Panic => None end,
     match reveal_to_target x 2 7 with Ret (x', l, ad) => Some (l, bmap_list ad, n_revealed x' 2) | Panic => None end)) =
  Some (Some ([(9, exs 1 9); (10, exs 1 10)], [(0, 10)], 11), Some ([], [], 9), Some ([], [], 1)).
Proof. vm_compute. reflexivity. Qed.
Example C37_ex : ex_obs (λ x _ _, last_revealed_index x 0) = Some (Some 8).
Proof. vm_compute. reflexivity. Qed.
Example C38_ex : match ki_run [KiAdd 0 1; KiReveal 0 2] with
  | Ret (x, _, _) => match lookahead_to_target x 0 6 with
      | Ret x' => (fst <$> bmap_list (si_spks (ki_inner x)), fst <$> bmap_list (si_spks (ki_inner x')), bmap_list (ki_revealed x'))
                  = ([(0, 0); (0, 1); (0, 2)], [(0, 0); (0, 1); (0, 2); (0, 3); (0, 4); (0, 5)], [(0, 2)])
      | Panic => False end
  | Panic => False end.
Proof. vm_compute. reflexivity. Qed.
Example C39_ex : ki_hist_ok exA ex_gap_h ∧ (∀ k d, exA k = Some d → known ex_gap_h k) ∧ pays_to exA ex_pays ∧
  match ki_run ex_gap_h with
  | Ret (x, _, _) => gap_ok ex_pays (look_after ex_gap_h) (n_revealed x) ex_gap ∧
      match ki_scan x ex_gap with
      | Ret (x', ad) => bmap_list ad = [(0, 7); (1, 0); (2, 0)] ∧
          si_txout (ki_inner x') (mkOutPoint 50 4) = Some (0, 7, mkTxOut 14 (exs 1 7)) ∧ si_txout (ki_inner x') (mkOutPoint 50 3) = None
      | Panic => False end
  | Panic => False end.
Proof.
  split; [exact ex_gap_h_ok|]. split; [exact ex_gap_known|]. split; [exact ex_pays_to|]. vm_compute. repeat split; reflexivity.
Qed.
Example C40_ex : bmap_list (da_append {[ 1 := 5; 2 := 7 ]} {[ 1 := 9; 2 := 3; 4 := 0 ]} : gmap N N) = [(1, 9); (2, 7); (4, 0)].
Proof. vm_compute. reflexivity. Qed.
(** Replaying the additions of the long history onto an index with other lookaheads. *)
Example C40_ex_replay : ex_obs (λ x _ acc, match ki_run [KiAdd 2 2; KiAdd 1 3; KiLook 1 4; KiAdd 0 1] with
    | Ret (y, _, _) => match ki_apply_additions y acc with Ret y' => Some (bmap_list (ki_revealed y), bmap_list (ki_revealed y')) | Panic => None end
    | Panic => None end) = Some (Some ([], [(0, 8); (1, 4); (2, 0)])).
Proof. vm_compute. reflexivity. Qed.
