(** Properties C18-C24: transaction graph.
    Statements only; every proof is a lemma of the *Proofs files. *)
From Verif Require Import GraphExamples.

(** C18: after any history, the full transaction known for a txid is the first
    one offered, so the full transactions are those offered and none is lost. *)
Theorem C18_full_txs (os : list g_op) i :
  Forall g_op_ok os →
  get_tx (g_run os) i = head (filter (λ t, txid t = i) (os ≫= offered_txs)).
Proof. exact (run_get_tx os i). Qed.
(** A full transaction is never replaced or degraded. *)
Theorem C18_full_stays g op i t :
  g_op_ok op → get_tx g i = Some t → get_tx (g_step g op).1 i = Some t.
Proof. exact (step_get_tx g op i t). Qed.
(** When offers are consistent with one assignment of outputs to txids, the
    outputs known are exactly those offered, so none is lost. *)
Theorem C18_txouts_partial (W : Txid → list TxOut) os o x :
  Forall g_op_ok os → honest W os →
  get_txout (g_run os) o = Some x ↔ ∃ op, op ∈ os ∧ offers_txout op o x.
Proof. exact (run_txouts W os o x). Qed.
(** Missing: without that hypothesis a known output is lost. *)
Theorem C18_txout_lost_refuted :
  ∃ os op o x, Forall g_op_ok (os ++ [op]) ∧
    get_txout (g_run os) o = Some x ∧ get_txout (g_run (os ++ [op])) o ≠ Some x.
Proof.
  exists [GTxout (mkOutPoint 1 0) (mkTxOut 5 5)], (GTxout (mkOutPoint 1 0) (mkTxOut 6 6)), (mkOutPoint 1 0), (mkTxOut 5 5).
  split; [repeat constructor|]. split; vm_compute; [reflexivity|discriminate].
Qed.
(** Merging node by node, for arbitrary graphs. *)
Theorem C18_update_merge g u i :
  keyed u → tg_txs (tg_apply_update g u).1 !! i = merge_node (tg_txs g !! i) (tg_txs u !! i).
Proof. exact (update_lookup g u i). Qed.
(** Nodes are stored under their txid (the [debug_assert] of [apply_additions]),
    and the spend index is exact: C19. *)
Theorem C18_keyed (os : list g_op) : Forall g_op_ok os → keyed (g_run os).
Proof. intros Hos. exact (proj1 (g_run_ok os Hos)). Qed.
Theorem C18_new (l : list Tx) : tg_new l = g_run (GTx <$> l).
Proof. exact (tg_new_run l). Qed.

Example C18_ex : Forall g_op_ok exOps ∧ honest exW exOps ∧ keyed exUpd.
Proof. exact (conj exOps_ok (conj exHonest exUpd_keyed)). Qed.
Example C18_ex_obs :
  get_tx exG 1 = Some exT1 ∧ get_tx exG 3 = Some exT3 ∧ get_tx exG 90 = None ∧
  get_txout exG (mkOutPoint 90 0) = Some (mkTxOut 1000 6) ∧ get_txout exG (mkOutPoint 1 1) = Some (mkTxOut 300 8) ∧
  size (tg_txs exG) = 6%nat.
Proof. vm_compute. repeat split. Qed.

(** C19: exact spend index, by outpoint and by transaction. *)
Theorem C19_spends_exact (os : list g_op) :
  Forall g_op_ok os → spends_exact (g_run os).
Proof. intros Hos. exact (proj2 (g_run_ok os Hos)). Qed.
Theorem C19_tx_outspends g i v s :
  graph_ok g →
  (∃ X, (v, X) ∈ tx_outspends g i ∧ s ∈ X) ↔
  mkOutPoint i v ≠ null_outpoint ∧ ∃ t, get_tx g s = Some t ∧ mkOutPoint i v ∈ tx_in t.
Proof. exact (tx_outspends_exact g i v s). Qed.
(** The read accessors agree with the single lookup. *)
Theorem C19_all_txouts g o x : (o, x) ∈ all_txouts g ↔ get_txout g o = Some x.
Proof. exact (all_txouts_exact g o x). Qed.
Theorem C19_txouts g i v :
  (txouts g i = None ↔ tg_txs g !! i = None) ∧ (txouts g i ≫= (.!! v)) = get_txout g (mkOutPoint i v).
Proof. exact (txouts_exact g i v). Qed.
Example C19_ex :
  elements (outspends exG (mkOutPoint 1 0)) ≡ₚ [2; 4] ∧ elements (outspends exG (mkOutPoint 90 0)) = [1] ∧
  outspends exG null_outpoint = ∅ ∧ (tx_outspends exG 1).*1 = [0; 1] ∧ length (all_txouts exG) = 7%nat.
Proof. split; [apply (bool_decide_unpack _); vm_compute; done|]. vm_compute. repeat split. Qed.

(** C20: the preview is what is applied, and says exactly what is new. *)
Theorem C20_preview g op :
  (g_step g op).1 = apply_additions g (g_step g op).2 ∧
  (g_step g op).2 = match op with
                    | GTx t => tg_insert_tx_preview g t
                    | GTxout o x => tg_insert_txout_preview g o x
                    | GUpdate u => determine_additions g u
                    end.
Proof. by destruct op. Qed.
Theorem C20_new_txs g u t :
  t ∈ ad_tx (determine_additions g u) ↔ ∃ i, tg_txs u !! i = Some (Whole t) ∧ get_tx g i = None.
Proof. exact (determine_tx g u t). Qed.
Theorem C20_new_txouts g u o :
  ad_txout (determine_additions g u) !! o =
  match get_tx g (op_txid o), tg_txs u !! op_txid o with
  | None, Some (Partial outs) =>
      match outs !! op_vout o with
      | Some x => if decide (get_txout g o = Some x) then None else Some x
      | None => None
      end
  | _, _ => None
  end.
Proof. exact (determine_txout g u o). Qed.
(** The hash-map order of the update's nodes does not matter. *)
Theorem C20_order_irrelevant g u ord :
  ord ≡ₚ map_to_list (tg_txs u) → determine_additions_ord g ord = determine_additions g u.
Proof. exact (determine_ord_perm g u ord). Qed.
Theorem C20_reapply g u : keyed u → determine_additions (tg_apply_update g u).1 u = ad_default.
Proof. exact (update_twice g u). Qed.
(** The additions of a history, replayed one by one or appended into one. *)
Theorem C20_replay os :
  foldl apply_additions tg_default (g_log tg_default os) = g_run os.
Proof. exact (replay_log tg_default os). Qed.
Theorem C20_replay_appended os :
  Forall g_op_ok os →
  apply_additions tg_default (foldl ad_append ad_default (g_log tg_default os)) = g_run os.
Proof. exact (append_log_run os). Qed.
Example C20_ex :
  map (λ a, (length (bset_list (ad_tx a)), size (ad_txout a))) (g_log tg_default exOps)
  = [(0, 1); (1, 0); (1, 0); (2, 1); (1, 0)]%nat.
Proof. vm_compute. reflexivity. Qed.

(** C21: append is a monoid, and composes as long as the two sides do not
    disagree about a txid. *)
Theorem C21_append_partial g a b :
  ad_inj (ad_tx a ∪ ad_tx b) →
  apply_additions g (ad_append a b) = apply_additions (apply_additions g a) b.
Proof. exact (ad_append_apply g a b). Qed.
(** Missing: false for additions that give one txid two transactions (same txid,
    different witness). *)
Theorem C21_append_refuted :
  ∃ g a b, apply_additions g (ad_append a b) ≠ apply_additions (apply_additions g a) b.
Proof.
  exists tg_default, (mkAdditions {[ mkTx 1 [] [] 9 ]} ∅), (mkAdditions {[ mkTx 1 [] [] 0 ]} ∅).
  intros E. apply (f_equal (λ g, tx_rest <$> get_tx g 1)) in E. vm_compute in E. discriminate.
Qed.
Theorem C21_monoid a b c :
  ad_append (ad_append a b) c = ad_append a (ad_append b c) ∧
  ad_append ad_default a = a ∧ ad_append a ad_default = a.
Proof. exact (conj (ad_append_assoc a b c) (conj (ad_append_default_l a) (ad_append_default_r a))). Qed.
Example C21_ex :
  let a := mkAdditions {[ exT1 ]} {[ mkOutPoint 4 0 := mkTxOut 1 1 ]} in
  let b := mkAdditions {[ exT2; exT1; exT4 ]} {[ mkOutPoint 4 0 := mkTxOut 2 2; mkOutPoint 80 0 := mkTxOut 3 3 ]} in
  ad_inj (ad_tx a ∪ ad_tx b) ∧ get_txout (apply_additions tg_default (ad_append a b)) (mkOutPoint 4 0) = Some (mkTxOut 499 9).
Proof.
  split; [|vm_compute; reflexivity]. intros t t' Ht Ht' E. simpl in *.
  assert (t ∈ [exT1; exT2; exT4]) as Hl by set_solver. assert (t' ∈ [exT1; exT2; exT4]) as Hl' by set_solver. clear Ht Ht'.
  rewrite !elem_of_cons, elem_of_nil in Hl, Hl'.
  destruct Hl as [->|[->|[->|[]]]], Hl' as [->|[->|[->|[]]]]; done.
Qed.

(** C22: the walk terminates, reports nothing twice, and reports exactly what is
    reachable through kept transactions. *)
Theorem C22_walk_exact g ho (keep : Txid → bool) i :
  graph_ok g → hash_order g ho →
  ∃ l, walk_descendants ho g i (λ d j, if keep j then Some (d, j) else None) = Some l ∧
    NoDup l.*2 ∧
    (∀ j, j ∈ l.*2 ↔ keep j = true ∧ reachable g keep i j) ∧
    (∀ d j, (d, j) ∈ l → reach_in g keep i d j).
Proof. exact (walk_exact g ho keep i). Qed.
Theorem C22_order_irrelevant g ho ho' (keep : Txid → bool) i l l' :
  graph_ok g → hash_order g ho → hash_order g ho' →
  walk_descendants ho g i (λ d j, if keep j then Some (d, j) else None) = Some l →
  walk_descendants ho' g i (λ d j, if keep j then Some (d, j) else None) = Some l' →
  l.*2 ≡ₚ l'.*2.
Proof. exact (walk_order_irrelevant g ho ho' keep i l l'). Qed.
(** Whatever the callback, and on any data: the walk ends, no transaction is
    handed to the callback with success twice. *)
Theorem C22_any_callback {R} g ho i (f : nat → Txid → option R) :
  hash_order g ho →
  ∃ l, walk_descendants ho g i f = Some l ∧
       ∃ tr, walk_descendants ho g i (λ d j, fmap (M:=option) (λ r, (j, r)) (f d j)) = Some tr ∧
             l = tr.*2 ∧ NoDup tr.*1.
Proof. exact (walk_total g ho i f). Qed.
Example C22_ex : graph_ok exG ∧ hash_order exG exHo ∧ hash_order exG exHo' ∧ graph_ok cyc.
Proof. exact (conj exG_ok (conj exHo_ok (conj exHo'_ok cyc_ok))). Qed.
Example C22_ex_obs :
  walk_descendants exHo exG 1 (λ d j, Some (d, j)) = Some [(1%nat, 3); (1%nat, 4); (1%nat, 2)] ∧
  walk_descendants exHo' exG 1 (λ d j, if bool_decide (j = 3) then None else Some (d, j)) = Some [(1%nat, 2); (1%nat, 4)] ∧
  walk_descendants (λ o, elements (outspends cyc o)) cyc 6 (λ d j, Some (d, j)) = Some [(1%nat, 7); (2%nat, 6)].
Proof. vm_compute. repeat split. Qed.

(** C23: the depth is the length of a spend path through kept transactions... *)
Theorem C23_depth_partial g ho (keep : Txid → bool) i l d j :
  graph_ok g → hash_order g ho →
  walk_descendants ho g i (λ d j, if keep j then Some (d, j) else None) = Some l →
  (d, j) ∈ l → reach_in g keep i d j.
Proof.
  exact (λ Hg Hho E Hin, let '(ex_intro _ l' (conj E' (conj _ (conj _ Hd)))) := walk_exact g ho keep i Hg Hho in
    Hd d j (eq_ind l (λ l, (d, j) ∈ l) Hin l' (f_equal (λ o, default [] o) (eq_trans (eq_sym E) E')))).
Qed.
(** ...but not of a shortest one. *)
Theorem C23_depth_refuted :
  ∃ g ho i l d j, graph_ok g ∧ hash_order g ho ∧
    walk_descendants ho g i (λ d j, Some (d, j)) = Some l ∧
    (d, j) ∈ l ∧ ∃ d', (d' < d)%nat ∧ reach_in g (λ _, true) i d' j.
Proof.
  exists dia, (λ o, elements (outspends dia o)), 10, [(1%nat, 20); (2%nat, 30)], 2%nat, 30.
  split; [exact dia_ok|]. split; [by intros o|]. split; [vm_compute; reflexivity|].
  split; [apply elem_of_list_further, elem_of_list_here|].
  exists 1%nat. split; [lia|]. apply reach_one. exists dia30, (mkOutPoint 10 0).
  split; [vm_compute; reflexivity|]. split; [apply elem_of_list_here|]. done.
Qed.
Example C23_ex :
  walk_descendants exHo exG 1 (λ d j, if bool_decide (j ≠ 3) then Some (d, j) else None) = Some [(1%nat, 4); (1%nat, 2)].
Proof. vm_compute. reflexivity. Qed.

(** C24: direct conflicts, the conflict walk, and the fee. *)
Theorem C24_direct_conflicts g ho t vin s :
  graph_ok g → hash_order g ho →
  (vin, s) ∈ direct_conflicts_of_tx ho g t ↔ conflicts_at g t vin s.
Proof. exact (direct_conflicts_exact g ho t vin s). Qed.
Theorem C24_walk_conflicts g ho (keep : Txid → bool) t :
  graph_ok g → hash_order g ho →
  ∃ l, walk_conflicts ho g t (λ d j, if keep j then Some (d, j) else None) = Some l ∧
    NoDup l.*2 ∧
    (∀ j, j ∈ l.*2 ↔ keep j = true ∧ reach_from g keep (λ s, ∃ vin, conflicts_at g t vin s) j).
Proof. exact (walk_conflicts_exact g ho keep t). Qed.
Theorem C24_fee g t :
  is_coin_base t = false →
  sum_values (omap (get_txout g) (tx_in t)) < 9223372036854775808 →
  sum_values (tx_out t) < 9223372036854775808 →
  calculate_fee g t =
  Ret (if decide (Forall (λ o, is_Some (get_txout g o)) (tx_in t))
       then Some (Z.of_N (sum_values (omap (get_txout g) (tx_in t))) - Z.of_N (sum_values (tx_out t)))%Z else None).
Proof. exact (fee_exact g t). Qed.
(** A coinbase has fee 0, rather than none. *)
Theorem C24_fee_coinbase_refuted : ∃ g t, is_coin_base t = true ∧ calculate_fee g t = Ret (Some 0%Z).
Proof. exists tg_default, exT5. vm_compute. done. Qed.
Example C24_ex :
  direct_conflicts_of_tx exHo exG exT4 = [(0%nat, 2)] ∧
  walk_conflicts exHo exG exT4 (λ d j, Some (d, j)) = Some [(0%nat, 2); (1%nat, 3)] ∧
  calculate_fee exG exT3 = Ret (Some 50%Z) ∧ calculate_fee exG exT1 = Ret (Some 200%Z) ∧
  calculate_fee exG (mkTx 8 [mkOutPoint 1 0; mkOutPoint 77 0] [] 0) = Ret None.
Proof. vm_compute. repeat split. Qed.
Print Assumptions C18_full_txs.
Print Assumptions C18_full_stays.
Print Assumptions C18_txouts_partial.
Print Assumptions C18_txout_lost_refuted.
Print Assumptions C18_update_merge.
Print Assumptions C18_keyed.
Print Assumptions C18_new.
Print Assumptions C19_spends_exact.
Print Assumptions C19_tx_outspends.
Print Assumptions C19_all_txouts.
Print Assumptions C19_txouts.
Print Assumptions C20_preview.
Print Assumptions C20_new_txs.
Print Assumptions C20_new_txouts.
Print Assumptions C20_order_irrelevant.
Print Assumptions C20_reapply.
Print Assumptions C20_replay.
Print Assumptions C20_replay_appended.
Print Assumptions C21_append_partial.
Print Assumptions C21_append_refuted.
Print Assumptions C21_monoid.
Print Assumptions C22_walk_exact.
Print Assumptions C22_order_irrelevant.
Print Assumptions C22_any_callback.
Print Assumptions C23_depth_partial.
Print Assumptions C23_depth_refuted.
Print Assumptions C24_direct_conflicts.
Print Assumptions C24_walk_conflicts.
Print Assumptions C24_fee.
Print Assumptions C24_fee_coinbase_refuted.
