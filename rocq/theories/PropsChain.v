(** Properties C01-C17: sparse chain, position types, spendability.
    Statements only; every proof is a lemma of the *Proofs files. *)
From Verif Require Import ChainExamples.

Section props.
Context `{ChainPositionLaws P}.

(** C01: after any history, the listing is sorted, has each txid once, and
    agrees with the by-txid lookup. *)
Theorem C01_listing_agrees (os : list (sc_op P)) c :
  sc_run sc_default os = Ret c →
  StronglySorted ord_lt (txids c) ∧
  NoDup (txids c).*2 ∧
  (∀ p t, (p, t) ∈ txids c ↔ tx_position c t = Some p).
Proof. exact (c01_lemma os c). Qed.

(** Well-typed histories never panic. *)
Theorem C01_no_panic (os : list (sc_op P)) :
  Forall sc_op_ok os → ∃ c, sc_run sc_default os = Ret c ∧ chain_ok c.
Proof. exact (run_ok os sc_default chain_ok_default). Qed.

(** C02: a mutation returns the previewed changeset and applies exactly it; the
    changeset lists exactly what changed; an error is the previewed error. *)
Theorem C02_insert_tx_preview (c : SparseChain P) t p :
  chain_ok c →
  match insert_tx c t p with
  | Ret (Ok (c', cs)) => insert_tx_preview c t p = Ret (Ok cs) ∧ c' = apply_changeset c cs ∧
                         (sc_limit c = None → is_diff c c' cs)
  | Ret (Err e) => insert_tx_preview c t p = Ret (Err e) ∧ sc_step c (OpInsertTx t p) = Ret c
  | Panic => False
  end.
Proof. exact (c02_insert_tx c t p). Qed.
Theorem C02_insert_checkpoint_preview (c : SparseChain P) b :
  chain_ok c →
  match insert_checkpoint c b with
  | Ret (Ok (c', cs)) => insert_checkpoint_preview c b = Ret (Ok cs) ∧ c' = apply_changeset c cs ∧
                         (sc_limit c = None → is_diff c c' cs)
  | Ret (Err e) => insert_checkpoint_preview c b = Ret (Err e) ∧ sc_step c (OpInsertCheckpoint b) = Ret c
  | Panic => False
  end.
Proof. exact (c02_insert_checkpoint c b). Qed.
Theorem C02_apply_update_preview (c u : SparseChain P) ord :
  chain_ok c → ord ≡ₚ map_to_list (sc_pos u) →
  match apply_update c u ord with
  | Ret (Ok (c', cs)) => determine_changeset c u ord = Ret (Ok cs) ∧ c' = apply_changeset c cs ∧
                         (sc_limit c = None → is_diff c c' cs)
  | Ret (Err e) => determine_changeset c u ord = Ret (Err e) ∧ sc_step c (OpUpdate u ord) = Ret c
  | Panic => False
  end.
Proof. exact (c02_apply_update c u ord). Qed.
Theorem C02_invalidate_preview (c : SparseChain P) from :
  chain_ok c → from ≤ u32_max →
  ∃ c' cs, invalidate_checkpoints c from = Ret (c', cs) ∧
           invalidate_checkpoints_preview c from = Ret cs ∧ c' = apply_changeset c cs ∧
           (sc_limit c = None → is_diff c c' cs).
Proof. exact (c02_invalidate c from). Qed.
Theorem C02_clear_mempool_preview (c : SparseChain P) :
  chain_ok c →
  ∃ c' cs, clear_mempool c = Ret (c', cs) ∧
           clear_mempool_preview c = Ret cs ∧ c' = apply_changeset c cs ∧
           (sc_limit c = None → is_diff c c' cs).
Proof. exact (c02_clear_mempool c). Qed.

(** C03: what a successful update leads to. *)
Theorem C03_update_result (c u : SparseChain P) ord c' cs :
  chain_ok c → below_max c → sc_limit c = None → ord ≡ₚ map_to_list (sc_pos u) →
  apply_update c u ord = Ret (Ok (c', cs)) → update_result c u c'.
Proof. exact (update_result_ok c u ord c' cs). Qed.

(** C04: reapplying is a no-op, whatever the hash-map order. *)
Theorem C04_reapply_noop (c u : SparseChain P) ord c' cs ord' :
  chain_ok c → chain_ok u → below_max c → below_max u → sc_limit c = None →
  ord ≡ₚ map_to_list (sc_pos u) → ord' ≡ₚ map_to_list (sc_pos u) →
  apply_update c u ord = Ret (Ok (c', cs)) →
  determine_changeset c' u ord' = Ret (Ok cs_default).
Proof. exact (update_idempotent c u ord c' cs ord'). Qed.

(** C05: exactly when an update is rejected, and why. *)
Theorem C05_not_connected (c u : SparseChain P) ord f :
  chain_ok c → below_max c → ord ≡ₚ map_to_list (sc_pos u) →
  determine_changeset c u ord = Ret (Err (NotConnected f)) ↔ first_invalid c u f ∧ sc_cps u !! f = None.
Proof. exact (determine_not_connected c u ord f). Qed.
Theorem C05_inconsistent (c u : SparseChain P) ord :
  chain_ok c → below_max c → ord ≡ₚ map_to_list (sc_pos u) →
  (∃ t q p, determine_changeset c u ord = Ret (Err (TxInconsistent t q p))) ↔
  (∀ f, first_invalid c u f → is_Some (sc_cps u !! f)) ∧
  (∃ t q p, sc_pos u !! t = Some p ∧ sc_pos c !! t = Some q ∧ settled c u q ∧ q ≠ p).
Proof. exact (determine_inconsistent c u ord). Qed.
Theorem C05_inconsistent_witness (c u : SparseChain P) ord t q p :
  chain_ok c → below_max c → ord ≡ₚ map_to_list (sc_pos u) →
  determine_changeset c u ord = Ret (Err (TxInconsistent t q p)) →
  sc_pos u !! t = Some p ∧ sc_pos c !! t = Some q ∧ settled c u q ∧ q ≠ p.
Proof. exact (determine_inconsistent_witness c u ord t q p). Qed.
Theorem C05_otherwise_accepted (c u : SparseChain P) ord :
  chain_ok c → below_max c → ord ≡ₚ map_to_list (sc_pos u) →
  (∃ cs, determine_changeset c u ord = Ret (Ok cs)) ↔
  (∀ f, first_invalid c u f → is_Some (sc_cps u !! f)) ∧
  (∀ t q p, sc_pos u !! t = Some p → sc_pos c !! t = Some q → settled c u q → q = p).
Proof. exact (determine_accepted c u ord). Qed.

(** C06: a settled position survives. *)
Theorem C06_settled_survives (c u : SparseChain P) ord c' cs t p :
  chain_ok c → below_max c → ord ≡ₚ map_to_list (sc_pos u) →
  apply_update c u ord = Ret (Ok (c', cs)) →
  sc_pos c !! t = Some p → settled c u p → sc_pos c' !! t = Some p.
Proof. exact (settled_survives c u ord c' cs t p). Qed.

(** C07.  Full claim: after every history each confirmed tx is at or below the
    tip.  That is false (see [C07_confirmed_below_tip_refuted]); it holds for
    histories without invalidate_checkpoints, without raw changesets, without
    the limit 0, whose updates have the property themselves. *)
Theorem C07_confirmed_below_tip_partial (os : list (sc_op P)) c :
  Forall sc_op_ok os → Forall cbt_op os →
  sc_run sc_default os = Ret c → confirmed_below_tip c.
Proof. exact (c07_lemma os c). Qed.

(** C08.  Full claim: insert_checkpoint fails whenever the height already has a
    different hash.  False below the tip (see [C08_checkpoint_hash_refuted]);
    true at the tip, and nothing but the given checkpoint is written. *)
Theorem C08_insert_checkpoint_partial (c : SparseChain P) b :
  chain_ok c → below_max c →
  (∀ x, is_tip c (bi_height b) → sc_cps c !! bi_height b = Some x → x ≠ bi_hash b →
     insert_checkpoint c b = Ret (Err (HashNotMatching (bi_height b) x (bi_hash b)))) ∧
  ((∀ x, sc_cps c !! bi_height b = Some x → is_tip c (bi_height b) → x = bi_hash b) →
   ∃ c' cs, insert_checkpoint c b = Ret (Ok (c', cs)) ∧ sc_pos c' = sc_pos c ∧
            (sc_limit c = None → sc_cps c' = <[bi_height b := bi_hash b]> (sc_cps c))).
Proof. exact (c08_lemma c b). Qed.

(** C09: insert_tx decides exactly by [tx_allowed], never panics, and changes
    nothing else. *)
Theorem C09_insert_tx_accepted (c : SparseChain P) t p :
  chain_ok c → below_max c → within_limit c → tx_allowed c t p →
  ∃ c' cs, insert_tx c t p = Ret (Ok (c', cs)) ∧
           sc_pos c' = <[t := p]> (sc_pos c) ∧ sc_cps c' = sc_cps c ∧ sc_limit c' = sc_limit c.
Proof. exact (c09_accepted c t p). Qed.
Theorem C09_insert_tx_rejected (c : SparseChain P) t p :
  chain_ok c → below_max c → ¬ tx_allowed c t p → ∃ e, insert_tx c t p = Ret (Err e).
Proof. exact (insert_tx_denied c t p). Qed.

(** C10 *)
Theorem C10_invalidate_exact (c : SparseChain P) from :
  chain_ok c → from ≤ u32_max →
  ∃ c' cs, invalidate_checkpoints c from = Ret (c', cs) ∧
    (within_limit c → ∀ h, sc_cps c' !! h = if bool_decide (from ≤ h) then None else sc_cps c !! h) ∧
    (∀ t, sc_pos c' !! t =
       match sc_pos c !! t with
       | Some p => match pos_height p with
                   | Confirmed k => if bool_decide (from ≤ k) then Some (pos_max_of Unconfirmed) else Some p
                   | Unconfirmed => Some p
                   end
       | None => None
       end).
Proof. exact (invalidate_exact c from). Qed.

(** C11 *)
Theorem C11_clear_mempool_exact (c : SparseChain P) :
  chain_ok c →
  ∃ c' cs, clear_mempool c = Ret (c', cs) ∧
    (within_limit c → sc_cps c' = sc_cps c) ∧
    (∀ t p, sc_pos c' !! t = Some p ↔ sc_pos c !! t = Some p ∧ pos_height p ≠ Unconfirmed).
Proof. exact (clear_mempool_exact c). Qed.

(** C12: range queries; the only panic is the one of a range whose start lies
    after its end. *)
Theorem C12_range_by_height (c : SparseChain P) (lo hi : bound TxHeight) :
  chain_ok c → bound_ok lo → bound_ok hi →
  range_txids_by_height c lo hi =
    if range_bad lo hi then Panic
    else Ret (filter (λ pt, above_lo lo (pos_height pt.1) ∧ below_hi hi (pos_height pt.1)) (txids c)).
Proof. exact (range_by_height_spec c lo hi). Qed.
Theorem C12_range_by_position (c : SparseChain P) (lo hi : bound P) :
  chain_ok c →
  range_txids_by_position c lo hi =
    if range_bad lo hi then Panic
    else Ret (filter (λ pt, above_lo lo pt.1 ∧ below_hi hi pt.1) (txids c)).
Proof. exact (range_by_position_spec c lo hi). Qed.
Theorem C12_range_txids (c : SparseChain P) (lo hi : bound (P * Txid)) :
  range_txids c lo hi =
    if range_bad lo hi then Panic else Ret (filter (λ pt, above_lo lo pt ∧ below_hi hi pt) (txids c)).
Proof. exact (range_txids_spec c lo hi). Qed.

(** C13.  Full claim: with and without a checkpoint limit.  With a limit it is
    false (see [C13_append_limit_refuted]). *)
Theorem C13_append_partial (c : SparseChain P) A B :
  views_agree c → sc_limit c = None →
  apply_changeset c (cs_append A B) = apply_changeset (apply_changeset c A) B.
Proof. exact (append_apply c A B). Qed.
Theorem C13_append_monoid (A B C : ChangeSet P) :
  cs_append (cs_append A B) C = cs_append A (cs_append B C) ∧
  cs_append cs_default A = A ∧ cs_append A cs_default = A.
Proof. exact (conj (append_assoc A B C) (conj (append_default_l A) (append_default_r A))). Qed.

(** C14 *)
Theorem C14_initial_roundtrip (c : SparseChain P) :
  views_agree c →
  apply_changeset sc_default (initial_changeset c) = mkChain (sc_cps c) (sc_ordered c) (sc_pos c) None.
Proof. exact (initial_roundtrip c). Qed.

(** C15: never more checkpoints than the limit; pruning keeps exactly those with
    fewer than [limit] checkpoints above, and touches nothing else. *)
Theorem C15_limit_invariant (os : list (sc_op P)) c :
  sc_run sc_default os = Ret c → within_limit c.
Proof. exact (c15_lemma os c). Qed.
Theorem C15_prune_exact (c : SparseChain P) l h :
  sc_cps (set_checkpoint_limit c l) !! h =
    match l with
    | Some n => if bool_decide (cps_above c h < n)%nat then sc_cps c !! h else None
    | None => sc_cps c !! h
    end ∧
  sc_pos (set_checkpoint_limit c l) = sc_pos c ∧ sc_ordered (set_checkpoint_limit c l) = sc_ordered c.
Proof. exact (c15_prune c l h). Qed.
(** Applying a changeset under a limit keeps the highest [limit] of the overlaid
    checkpoints. *)
Theorem C15_apply_under_limit (c : SparseChain P) cs (raw : gmap N BlockHash) h :
  (∀ k, raw !! k = match cs_cps cs !! k with Some o => o | None => sc_cps c !! k end) →
  sc_cps (apply_changeset c cs) !! h =
    match sc_limit c with
    | Some n => if bool_decide (size (filter (λ kv, h < kv.1)%N raw) < n)%nat then raw !! h else None
    | None => raw !! h
    end.
Proof. exact (c15_apply c cs raw h). Qed.

(** C17 *)
Theorem C17_coinbase_maturity (o : FullTxOut P) c h :
  fto_on_coinbase o = true → pos_height (fto_pos o) = Confirmed c → h - c < u32_max →
  is_mature o h = Ret (bool_decide (c + 99 ≤ h)).
Proof. exact (is_mature_coinbase o c h). Qed.
Theorem C17_spendable (o : FullTxOut P) h :
  (fto_on_coinbase o = true → ∃ c, pos_height (fto_pos o) = Confirmed c ∧ h - c < u32_max) →
  ∃ b, is_spendable_at o h = Ret b ∧
    (b = true ↔
      (∃ c, pos_height (fto_pos o) = Confirmed c ∧ c ≤ h ∧
            (fto_on_coinbase o = true → c + 99 ≤ h)) ∧
      ¬ (∃ p t s, fto_spent_by o = Some (p, t) ∧ pos_height p = Confirmed s ∧ s ≤ h)).
Proof. exact (is_spendable_spec o h). Qed.
End props.

(** C16: both provided position types obey the contract, and unconfirmed is last. *)
Theorem C16_txheight_contract :
  ChainPositionLaws TxHeight ∧ (∀ h, ord_lt (Confirmed h) Unconfirmed) ∧
  (∀ a b, ord_lt (Confirmed a) (Confirmed b) ↔ a < b).
Proof. exact c16_txheight. Qed.
Theorem C16_confirmation_time_contract :
  ChainPositionLaws ConfirmationTime ∧ (∀ h t, ord_lt (CtConfirmed h t) CtUnconfirmed) ∧
  (∀ h t h' t', ord_lt (CtConfirmed h t) (CtConfirmed h' t') ↔ h < h' ∨ h = h' ∧ t < t').
Proof. exact c16_ct. Qed.
(** The minimum and maximum position of a height bound exactly its positions. *)
Theorem C16_min_max_exact `{ChainPositionLaws P} (p : P) (h : TxHeight) :
  pos_ok p → (pos_height p = h ↔ ord_le (pos_min_of h) p ∧ ord_le p (pos_max_of h)).
Proof. exact (c16_min_max p h). Qed.

(** Refutations, with the witnesses found in the code. *)

(** C07: checkpoints 5 and 10, a transaction at 7, invalidate from 10: the
    transaction stays confirmed at 7 while the tip is 5. *)
Theorem C07_confirmed_below_tip_refuted :
  ∃ (os : list (sc_op TxHeight)) c, Forall sc_op_ok os ∧ sc_run sc_default os = Ret c ∧ ¬ confirmed_below_tip c.
Proof. exact c07_refuted. Qed.
(** C07 also fails with a checkpoint limit of 0. *)
Theorem C07_confirmed_below_tip_limit_refuted :
  ∃ (os : list (sc_op TxHeight)) c, Forall sc_op_ok os ∧ sc_run sc_default os = Ret c ∧
    (∀ h, OpInvalidate h ∉ os) ∧ ¬ confirmed_below_tip c.
Proof. exact c07_limit_refuted. Qed.
(** C08: below the tip the hash is silently replaced. *)
Theorem C08_checkpoint_hash_refuted :
  ∃ (c : SparseChain TxHeight) b x c' cs,
    chain_ok c ∧ below_max c ∧ sc_cps c !! bi_height b = Some x ∧ x ≠ bi_hash b ∧
    insert_checkpoint c b = Ret (Ok (c', cs)) ∧ sc_cps c' !! bi_height b = Some (bi_hash b).
Proof. exact c08_refuted. Qed.
(** C13: with a limit, appending is not sequential application. *)
Theorem C13_append_limit_refuted :
  ∃ (c : SparseChain TxHeight) A B,
    chain_ok c ∧ within_limit c ∧
    sc_cps (apply_changeset c (cs_append A B)) ≠ sc_cps (apply_changeset (apply_changeset c A) B).
Proof. exact c13_refuted. Qed.
(** C05/C06 at the last height: an update whose tip agrees still moves a
    transaction confirmed at [u32::MAX] ([below_max] excludes this). *)
Theorem C06_settled_max_height_refuted :
  ∃ (c u : SparseChain TxHeight) ord c' cs t p,
    chain_ok c ∧ chain_ok u ∧ ord ≡ₚ map_to_list (sc_pos u) ∧ apply_update c u ord = Ret (Ok (c', cs)) ∧
    sc_pos c !! t = Some p ∧ settled c u p ∧ sc_pos c' !! t ≠ Some p.
Proof. exact c06_max_refuted. Qed.
(** C17 without the bound on the age: the debug build overflows. *)
Theorem C17_maturity_overflow_refuted :
  ∃ (o : FullTxOut TxHeight) h,
    fto_on_coinbase o = true ∧ h ≤ u32_max ∧ th_ok (fto_pos o) ∧ pos_height (fto_pos o) ≠ Unconfirmed ∧
    is_mature o h = Panic.
Proof. exact c17_overflow. Qed.

(** Concrete cases. *)

(** A history: insert checkpoints and transactions, reorg, invalidate, limit. *)
Definition exOps : list (sc_op TxHeight) :=
  [OpInsertCheckpoint (mkBlockId 5 105); OpInsertTx 1 (Confirmed 3); OpInsertTx 4 Unconfirmed;
   OpInsertCheckpoint (mkBlockId 10 110); OpInsertTx 3 (Confirmed 10); OpUpdate exU exOrd;
   OpLimit (Some 2%nat); OpInvalidate 11; OpClearMempool].
Example C01_ex : Forall sc_op_ok exOps ∧
  match sc_run sc_default exOps with
  | Ret c => txids c = [(Confirmed 3, 1); (Confirmed 10, 4)] ∧ bmap_list (sc_cps c) = [(10, 210)]
  | Panic => False
  end.
Proof.
  split; [|vm_compute; split; reflexivity].
  repeat (apply Forall_cons; split); try apply Forall_nil;
    first [exact (conj exU_ok exOrd_ok)|vm_compute; done].
Qed.
Example C02_ex : chain_ok exC ∧ sc_limit exC = None ∧
  match insert_tx exC 4 (Confirmed 8) with
  | Ret (Ok (c', cs)) => bmap_list (cs_txids cs) = [(4, Some (Confirmed 8))]
  | _ => False
  end.
Proof. split; [apply exC_ok|]. split; [done|]. vm_compute. reflexivity. Qed.
Example C03_C04_ex :
  chain_ok exC ∧ chain_ok exU ∧ below_max exC ∧ below_max exU ∧ sc_limit exC = None ∧
  exOrd ≡ₚ map_to_list (sc_pos exU) ∧
  match apply_update exC exU exOrd with
  | Ret (Ok (c', cs)) =>
    bmap_list (sc_pos c') = [(1, Confirmed 3); (2, Confirmed 7); (3, Confirmed 11); (4, Confirmed 10)] ∧
    bmap_list (sc_cps c') = [(0, 100); (5, 105); (10, 210); (11, 211)]
  | _ => False
  end.
Proof.
  split; [apply exC_ok|]. split; [apply exU_ok|]. split; [apply exC_max|]. split; [apply exU_max|].
  split; [done|]. split; [apply exOrd_ok|]. vm_compute. split; reflexivity.
Qed.
Example C05_ex :
  determine_changeset exC exU_disc [] = Ret (Err (NotConnected 10)) ∧
  determine_changeset exC exU_incons [(1, Confirmed 4)] = Ret (Err (TxInconsistent 1 (Confirmed 3) (Confirmed 4))).
Proof. split; vm_compute; reflexivity. Qed.
Example C06_ex : sc_pos exC !! 1 = Some (Confirmed 3) ∧ settled exC exU (Confirmed 3).
Proof. split; [done|]. exists 3. split; [done|]. intros _. exists 5. split; [by exists 105|lia]. Qed.
Definition exOps2 : list (sc_op TxHeight) :=
  [OpInsertCheckpoint (mkBlockId 5 105); OpInsertTx 1 (Confirmed 3);
   OpLimit (Some 1%nat); OpInsertCheckpoint (mkBlockId 10 110)].
Example C07_ex : Forall sc_op_ok exOps2 ∧ Forall cbt_op exOps2 ∧
  match sc_run sc_default exOps2 with Ret c => tx_position c 1 = Some (Confirmed 3) | Panic => False end.
Proof.
  split; [|split; [|vm_compute; reflexivity]];
  repeat (apply Forall_cons; split); try apply Forall_nil; vm_compute; done.
Qed.
Example C08_ex : is_tip exC 10 ∧ sc_cps exC !! 10 = Some 110 ∧ 110 ≠ 111 ∧ sc_cps exC !! 8 = None.
Proof.
  split; [|done]. apply tip_Some. vm_compute. done.
Qed.
Example C09_ex : tx_allowed exC 4 (Confirmed 8) ∧ ¬ tx_allowed exC 4 (Confirmed 11) ∧ ¬ tx_allowed exC 1 (Confirmed 2) ∧
  within_limit exC.
Proof.
  split; [|split; [|split]].
  - split; [intros h [= <-]; exists 10; split; [by exists 110|lia]|]. intros q [= <-]. done.
  - intros [Hh _]. destruct (Hh 11 eq_refl) as (k & Hk & Hle).
    assert (tip_height exC = Some 10) as Ht by (vm_compute; done). apply tip_Some in Ht as [_ Hm]. apply Hm in Hk. lia.
  - intros [_ Hq]. by specialize (Hq (Confirmed 3) eq_refl ltac:(done)).
  - by intros n.
Qed.
Example C10_C11_ex :
  match invalidate_checkpoints exC 8 with
  | Ret (c', cs) => txids c' = [(Confirmed 3, 1); (Confirmed 7, 2); (Unconfirmed, 3); (Unconfirmed, 4)]
  | Panic => False
  end ∧
  match clear_mempool exC with
  | Ret (c', cs) => txids c' = [(Confirmed 3, 1); (Confirmed 7, 2); (Confirmed 10, 3)]
  | Panic => False
  end.
Proof. vm_compute. split; reflexivity. Qed.
Example C12_ex : range_txids_by_height exC (Excl (Confirmed 3)) (Incl (Confirmed 10)) = Ret [(Confirmed 7, 2); (Confirmed 10, 3)].
Proof. vm_compute. reflexivity. Qed.
(** Two changesets that both move 1, the second of which also drops a checkpoint of the first. *)
Example C13_ex : views_agree exC ∧ sc_limit exC = None ∧
  let A := mkChangeSet {[ 8 := Some 108 ]} {[ 1 := Some (Confirmed 8); 5 := Some Unconfirmed ]} in
  let B := mkChangeSet {[ 8 := None; 12 := Some 112 ]} {[ 1 := Some (Confirmed 12) ]} in
  txids (apply_changeset exC (cs_append A B)) = [(Confirmed 7, 2); (Confirmed 10, 3); (Confirmed 12, 1); (Unconfirmed, 4); (Unconfirmed, 5)] ∧
  bmap_list (sc_cps (apply_changeset exC (cs_append A B))) = [(0, 100); (5, 105); (10, 110); (12, 112)].
Proof. split; [apply exC_ok|]. split; [done|]. vm_compute. split; reflexivity. Qed.
Example C14_ex : bmap_list (cs_txids (initial_changeset exC)) = [(1, Some (Confirmed 3)); (2, Some (Confirmed 7)); (3, Some (Confirmed 10)); (4, Some Unconfirmed)] ∧
  bmap_list (cs_cps (initial_changeset exC)) = [(0, Some 100); (5, Some 105); (10, Some 110)].
Proof. vm_compute. split; reflexivity. Qed.
Example C15_ex : bmap_list (sc_cps (set_checkpoint_limit exC (Some 2%nat))) = [(5, 105); (10, 110)].
Proof. vm_compute. reflexivity. Qed.
Example C16_ex : pos_ok (CtConfirmed 7 1600000000) ∧ ord_lt (CtConfirmed 7 1600000000) (CtConfirmed 7 1600000001) ∧
  pos_min_of (P := ConfirmationTime) (Confirmed 7) = CtConfirmed 7 0 ∧ pos_max_of (P := ConfirmationTime) (Confirmed 7) = CtConfirmed 7 u64_max.
Proof. vm_compute. repeat split; discriminate. Qed.
Example C17_ex :
  let o := mkFullTxOut null_outpoint (mkTxOut 5 7) (Confirmed 1) (Some (Confirmed 200, 9)) true in
  is_spendable_at o 99 = Ret false ∧ is_spendable_at o 100 = Ret true ∧ is_spendable_at o 200 = Ret false.
Proof. vm_compute. auto. Qed.

Print Assumptions C01_listing_agrees.
Print Assumptions C01_no_panic.
Print Assumptions C02_insert_tx_preview.
Print Assumptions C02_insert_checkpoint_preview.
Print Assumptions C02_apply_update_preview.
Print Assumptions C02_invalidate_preview.
Print Assumptions C02_clear_mempool_preview.
Print Assumptions C03_update_result.
Print Assumptions C04_reapply_noop.
Print Assumptions C05_not_connected.
Print Assumptions C05_inconsistent.
Print Assumptions C05_inconsistent_witness.
Print Assumptions C05_otherwise_accepted.
Print Assumptions C06_settled_survives.
Print Assumptions C07_confirmed_below_tip_partial.
Print Assumptions C08_insert_checkpoint_partial.
Print Assumptions C09_insert_tx_accepted.
Print Assumptions C09_insert_tx_rejected.
Print Assumptions C10_invalidate_exact.
Print Assumptions C11_clear_mempool_exact.
Print Assumptions C12_range_by_height.
Print Assumptions C12_range_by_position.
Print Assumptions C12_range_txids.
Print Assumptions C13_append_partial.
Print Assumptions C13_append_monoid.
Print Assumptions C14_initial_roundtrip.
Print Assumptions C15_limit_invariant.
Print Assumptions C15_prune_exact.
Print Assumptions C15_apply_under_limit.
Print Assumptions C16_txheight_contract.
Print Assumptions C16_confirmation_time_contract.
Print Assumptions C16_min_max_exact.
Print Assumptions C17_coinbase_maturity.
Print Assumptions C17_spendable.
Print Assumptions C07_confirmed_below_tip_refuted.
Print Assumptions C07_confirmed_below_tip_limit_refuted.
Print Assumptions C08_checkpoint_hash_refuted.
Print Assumptions C13_append_limit_refuted.
Print Assumptions C06_settled_max_height_refuted.
Print Assumptions C17_maturity_overflow_refuted.
