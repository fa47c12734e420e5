(** Properties C25-C30: chain graph.
    Statements only; every proof is a lemma of the *Proofs files. *)
From Verif Require Import ChainGraphExamples.

Section props.
Context `{ChainPositionLaws P}.

(** C25: every chain graph a client can make, by any history of calls, holds every
    transaction of its chain in full. *)
Theorem C25_txs_full W (cg : ChainGraph P) : built W cg → txs_full cg.
Proof. intros Hb. exact (proj1 (proj2 (proj2 (proj1 (built_ok W cg Hb))))). Qed.
(** No call panics, and the result is again such a chain graph. *)
Theorem C25_no_panic W (cg : ChainGraph P) op :
  built W cg → cg_op_ok W op → (∀ ho u ord, op = CgUpdate ho u ord → built W u) →
  ∃ cg', cg_step cg op = Ret cg' ∧ built W cg'.
Proof. exact (built_no_panic W cg op). Qed.
(** Looking up and listing in-chain transactions never panics and is exact. *)
Theorem C25_lookup W (cg : ChainGraph P) i :
  built W cg →
  get_tx_in_chain cg i = Ret (p ← sc_pos (cg_chain cg) !! i; t ← get_tx (cg_graph cg) i; Some (p, t)).
Proof. intros Hb. exact (get_in_chain_ok cg i (proj1 (built_ok W cg Hb))). Qed.
Theorem C25_listing W (cg : ChainGraph P) :
  built W cg →
  ∃ l, transactions_in_chain cg = Ret l ∧
    (λ pt, (pt.1, txid pt.2)) <$> l = txids (cg_chain cg) ∧
    (∀ p t, (p, t) ∈ l ↔ sc_pos (cg_chain cg) !! txid t = Some p ∧ get_tx (cg_graph cg) (txid t) = Some t).
Proof. intros Hb. exact (transactions_in_chain_ok cg (proj1 (built_ok W cg Hb))). Qed.

(** C26: nor does its chain contain a double spend. *)
Theorem C26_no_double_spend W (cg : ChainGraph P) : built W cg → no_double_spend cg.
Proof. intros Hb. exact (proj2 (proj2 (proj2 (proj1 (built_ok W cg Hb))))). Qed.
(** The parts assumed by the theorems below hold of every such chain graph. *)
Theorem C26_consistent W (cg : ChainGraph P) : built W cg → cg_ok cg.
Proof. intros Hb. exact (proj1 (built_ok W cg Hb)). Qed.

(** C27: as long as the chain also contains the known parents of its transactions
    there is no double spend among ancestors... *)
Theorem C27_partial (cg : ChainGraph P) :
  cg_ok cg → parents_in_chain cg → no_ancestor_double_spend cg.
Proof. intros Hok. exact (parents_no_double_spend cg (proj2 (proj2 (proj2 Hok)))). Qed.
(** ...and inserting a transaction whose known parents are in the chain keeps it so. *)
Theorem C27_insert_partial ho (cg : ChainGraph P) t p cg' cs :
  cg_ok cg → hash_order (cg_graph cg) ho → parents_in_chain cg →
  cg_insert_tx ho cg t p = Ret (Ok (cg', cs)) →
  (∀ b, known_parent (cg_graph cg') (txid t) b → in_chain cg' b) →
  parents_in_chain cg'.
Proof. exact (insert_parents ho cg t p cg' cs). Qed.

(** C28: conflict resolution on updates... *)
Theorem C28_update ho (cg u : ChainGraph P) ord :
  cg_ok cg → cg_ok u → hash_order (cg_graph cg) ho → ord ≡ₚ map_to_list (sc_pos (cg_chain u)) →
  match determine_changeset (cg_chain cg) (cg_chain u) ord with
  | Panic => False
  | Ret (Err e) => cg_determine_changeset ho cg u ord = Ret (Err (CgUpdChain e))
  | Ret (Ok ccs) =>
      let ad := determine_additions (cg_graph cg) (cg_graph u) in
      (∃ e, cg_determine_changeset ho cg u ord = Ret (Err (CgUpdConflict e)) ∧ real_conflict cg (mkCGS ccs ad) e) ∨
      (∃ cs, cg_determine_changeset ho cg u ord = Ret (Ok cs) ∧ resolved cg ccs ad cs)
  end.
Proof. exact (update_conflicts ho cg u ord). Qed.
(** ...and on single insertions. *)
Theorem C28_insert ho (cg : ChainGraph P) t p :
  cg_ok cg → hash_order (cg_graph cg) ho →
  match insert_tx_preview (cg_chain cg) (txid t) p with
  | Panic => False
  | Ret (Err e) => cg_insert_tx_preview ho cg t p = Ret (Err (CgTxChain e))
  | Ret (Ok ccs) =>
      let ad := tg_insert_tx_preview (cg_graph cg) t in
      (∃ e, cg_insert_tx_preview ho cg t p = Ret (Err (CgTxConflict e)) ∧ real_conflict cg (mkCGS ccs ad) e) ∨
      (∃ cs, cg_insert_tx_preview ho cg t p = Ret (Ok cs) ∧ resolved cg ccs ad cs)
  end.
Proof. exact (insert_conflicts ho cg t p). Qed.
(** A transaction of the chain leaves it in an update exactly when it conflicts with
    a transaction the update brings in, and only if not confirmed. *)
Theorem C28_update_evicts ho (cg u : ChainGraph P) ord cg' cs i :
  cg_ok cg → cg_ok u → hash_order (cg_graph cg) ho → ord ≡ₚ map_to_list (sc_pos (cg_chain u)) →
  cg_apply_update ho cg u ord = Ret (Ok (cg', cs)) → in_chain cg i →
  ∃ ccs, determine_changeset (cg_chain cg) (cg_chain u) ord = Ret (Ok ccs) ∧
    (¬ in_chain cg' i ↔ conflicting cg (mkCGS ccs (determine_additions (cg_graph cg) (cg_graph u))) i) ∧
    (¬ in_chain cg' i → ¬ confirmed_after (cg_chain cg) ccs i).
Proof. exact (update_evicts ho cg u ord cg' cs i). Qed.
(** Likewise for an insertion, which in addition brings in nothing but its argument. *)
Theorem C28_insert_evicts ho (cg : ChainGraph P) t p cg' cs i :
  cg_ok cg → hash_order (cg_graph cg) ho →
  cg_insert_tx ho cg t p = Ret (Ok (cg', cs)) → in_chain cg i →
  ¬ in_chain cg' i ↔
  ¬ in_chain cg (txid t) ∧ conflicts_with cg (default t (get_tx (cg_graph cg) (txid t))) i.
Proof. exact (insert_evicts ho cg t p cg' cs i). Qed.
Theorem C28_insert_adds ho (cg : ChainGraph P) t p cg' cs i :
  cg_ok cg → hash_order (cg_graph cg) ho →
  cg_insert_tx ho cg t p = Ret (Ok (cg', cs)) → in_chain cg' i → i = txid t ∨ in_chain cg i.
Proof. exact (insert_in_chain ho cg t p cg' cs i). Qed.
Theorem C28_contains_eviction (cs : CgChangeSet P) :
  contains_eviction cs = true ↔ ∃ i, cs_txids (cgs_chain cs) !! i = Some None.
Proof. exact (eviction_iff cs). Qed.

(** C29: the spender reported for an output is exact, for every iteration order of
    the spender sets... *)
Theorem C29_spent_by ho (cg : ChainGraph P) o p s :
  cg_ok cg → hash_order (cg_graph cg) ho →
  cg_spent_by ho cg o = Some (p, s) ↔
  sc_pos (cg_chain cg) !! s = Some p ∧
  o ≠ null_outpoint ∧ ∃ t, get_tx (cg_graph cg) s = Some t ∧ o ∈ tx_in t.
Proof. exact (spent_by_exact ho cg o p s). Qed.
(** ...and so is everything else reported about it. *)
Theorem C29_full_txout ho (cg : ChainGraph P) o f :
  cg_ok cg → hash_order (cg_graph cg) ho →
  cg_full_txout ho cg o = Some f ↔
  ∃ t, get_tx (cg_graph cg) (op_txid o) = Some t ∧
    fto_outpoint f = o ∧ sc_pos (cg_chain cg) !! op_txid o = Some (fto_pos f) ∧
    tx_out t !! N.to_nat (op_vout o) = Some (fto_txout f) ∧
    fto_spent_by f = cg_spent_by ho cg o ∧ fto_on_coinbase f = is_coin_base t.
Proof. exact (full_txout_exact ho cg o f). Qed.

(** C30: inflating a sparse update, completely: what a success, a missing
    transaction and a conflict mean. *)
Theorem C30_inflate ho (cg : ChainGraph P) c txs :
  cg_ok cg → chain_ok c → hash_order (inflate_graph cg c txs) ho →
  let supplied i := is_Some (get_tx (cg_graph cg) i) ∨ ∃ t, t ∈ txs ∧ txid t = i in
  match inflate_update ho cg c txs with
  | Panic => False
  | Ret (Ok u) =>
      cg_chain u = c ∧ cg_ok u ∧ (∀ i, in_chain u i → supplied i) ∧
      (∀ i, in_chain u i → ∃ t, get_tx (cg_graph u) i = Some t ∧ (get_tx (cg_graph cg) i = Some t ∨ t ∈ txs))
  | Ret (Err (NewMissing m)) =>
      (∀ i, i ∈ m ↔ is_Some (sc_pos c !! i) ∧ ¬ supplied i) ∧ m ≠ ∅
  | Ret (Err (NewConflict (p, i) (q, j))) =>
      i ≠ j ∧ sc_pos c !! i = Some p ∧ sc_pos c !! j = Some q ∧
      ∃ a b, (get_tx (cg_graph cg) i = Some a ∨ a ∈ txs) ∧ (get_tx (cg_graph cg) j = Some b ∨ b ∈ txs) ∧
             txid a = i ∧ txid b = j ∧ double_spend a b
  end.
Proof. exact (inflate_spec ho cg c txs). Qed.
(** Merging an update moves transactions exactly as its sparse chain does, except
    those evicted by C28. *)
Theorem C30_positions_partial ho (cg u : ChainGraph P) ord cg' cs :
  cg_ok cg → cg_ok u → hash_order (cg_graph cg) ho → ord ≡ₚ map_to_list (sc_pos (cg_chain u)) →
  cg_apply_update ho cg u ord = Ret (Ok (cg', cs)) →
  ∃ c' ccs, apply_update (cg_chain cg) (cg_chain u) ord = Ret (Ok (c', ccs)) ∧
    sc_cps (cg_chain cg') = sc_cps c' ∧
    ∀ i, (conflicting cg (mkCGS ccs (determine_additions (cg_graph cg) (cg_graph u))) i ∧
            sc_pos (cg_chain cg') !! i = None) ∨
         (¬ conflicting cg (mkCGS ccs (determine_additions (cg_graph cg) (cg_graph u))) i ∧
            sc_pos (cg_chain cg') !! i = sc_pos c' !! i).
Proof. exact (update_positions ho cg u ord cg' cs). Qed.
(** Appending changesets is applying them in turn. *)
Theorem C30_append (cg : ChainGraph P) A B :
  views_agree (cg_chain cg) → sc_limit (cg_chain cg) = None →
  ad_inj (ad_tx (cgs_graph A) ∪ ad_tx (cgs_graph B)) →
  cg_apply_changeset cg (cgs_append A B) = cg_apply_changeset (cg_apply_changeset cg A) B.
Proof. exact (cgs_append_apply cg A B). Qed.
End props.

(** C25, C26: a history with an eviction and an update. *)
Example C25_ex : built cgW exCG ∧ built cgW exCGd ∧ Forall (usable cgW) ops4.
Proof. exact (conj exCG_built (conj exCGd_built ops4_ok)). Qed.
Example C25_ex_obs :
  txids (cg_chain exCG) = [(Unconfirmed, 11); (Unconfirmed, 13)] ∧
  txids (cg_chain exCGd) = [(Confirmed 11, 12); (Unconfirmed, 14); (Unconfirmed, 15)] ∧
  transactions_in_chain exCGd = Ret [(Confirmed 11, cgB); (Unconfirmed, cgD); (Unconfirmed, cgE)] ∧
  get_tx_in_chain exCGd 12 = Ret (Some (Confirmed 11, cgB)) ∧ get_tx_in_chain exCGd 11 = Ret None ∧
  get_tx (cg_graph exCGd) 11 = Some cgA.
Proof. vm_compute. repeat split. Qed.

(** C27 refuted: 14 spends 11, which double spends 12, yet 12 and 14 are both in
    the chain of a chain graph made only by legitimate calls. *)
Theorem C27_refuted : ∃ W (cg : ChainGraph TxHeight), built W cg ∧ ¬ no_ancestor_double_spend cg.
Proof.
  exists cgW, exCGd. split; [exact exCGd_built|]. intros Hn.
  assert (11 = 12) as Hx; [|by vm_compute in Hx].
  apply (Hn 14 12 11 12 cgA cgB).
  - unfold in_chain. exists Unconfirmed. vm_compute. reflexivity.
  - unfold in_chain. exists (Confirmed 11). vm_compute. reflexivity.
  - apply (anc_parent _ _ 14 11 cgD); [constructor|vm_compute; reflexivity| |exists cgA; vm_compute; reflexivity].
    exists (mkOutPoint 11 0). split; [apply elem_of_list_here|]. split; [vm_compute; discriminate|reflexivity].
  - constructor.
  - vm_compute. reflexivity.
  - vm_compute. reflexivity.
  - exists (mkOutPoint 90 0). split; [vm_compute; discriminate|]. split; apply elem_of_list_here.
Qed.
(** C27: the chain of 11 and its child 13. *)
Example C27_ex : cg_ok exCG ∧ parents_in_chain exCG ∧ hash_order (cg_graph exCG) exCGho.
Proof. exact (conj exCG_ok (conj exCG_parents exCGho_ok)). Qed.

(** C28: an update that evicts 11 and 13; one rejected as 11 is confirmed. *)
Example C28_ex : cg_ok exCG ∧ cg_ok exUG ∧ cg_ok exCGc ∧ hash_order (cg_graph exCG) exCGho ∧
  exUGord ≡ₚ map_to_list (sc_pos (cg_chain exUG)).
Proof. exact (conj exCG_ok (conj exUG_ok (conj exCGc_ok (conj exCGho_ok exUGord_ok)))). Qed.
Example C28_ex_evict :
  match cg_apply_update exCGho exCG exUG exUGord with
  | Ret (Ok (cg', cs)) =>
      txids (cg_chain cg') = [(Confirmed 11, 12); (Unconfirmed, 15)] ∧ contains_eviction cs = true ∧
      cs_txids (cgs_chain cs) !! 11 = Some None ∧ cs_txids (cgs_chain cs) !! 13 = Some None
  | _ => False
  end.
Proof. vm_compute. repeat split. Qed.
Example C28_ex_reject :
  match cg_apply_update (exho (cg_graph exCGc)) exCGc exUG exUGord with
  | Ret (Err (CgUpdConflict e)) => uc_confirmed e = (Confirmed 9, 11) ∧ uc_update e = (Confirmed 11, 12)
  | _ => False
  end.
Proof. vm_compute. repeat split. Qed.
Example C28_ex_insert :
  match cg_insert_tx exCGho exCG cgB Unconfirmed with
  | Ret (Ok (cg', cs)) => txids (cg_chain cg') = [(Unconfirmed, 12)]
  | _ => False
  end.
Proof. vm_compute. repeat split. Qed.

(** C29: output 11:0 is spent by 13, 90:0 by 11 although the graph may know more spenders. *)
Example C29_ex :
  cg_spent_by exCGho exCG (mkOutPoint 11 0) = Some (Unconfirmed, 13) ∧
  cg_spent_by (exho_rev (cg_graph exCGd)) exCGd (mkOutPoint 90 0) = Some (Confirmed 11, 12) ∧
  cg_spent_by (exho (cg_graph exCGd)) exCGd (mkOutPoint 90 0) = Some (Confirmed 11, 12) ∧
  cg_spent_by exCGho exCG (mkOutPoint 13 0) = None ∧
  cg_full_txout exCGho exCG (mkOutPoint 11 0) =
    Some (mkFullTxOut (mkOutPoint 11 0) (mkTxOut 500 7) Unconfirmed (Some (Unconfirmed, 13)) false).
Proof. vm_compute. repeat split. Qed.

(** C30: an update of which 13 is known and 12 has to be supplied. *)
Example C30_ex : cg_ok exCG ∧ chain_ok ex30 ∧
  hash_order (inflate_graph exCG ex30 [cgB]) (exho (inflate_graph exCG ex30 [cgB])).
Proof. exact (conj exCG_ok (conj ex30_ok (exho_ok _))). Qed.
Example C30_ex_missing :
  match inflate_update (exho (inflate_graph exCG ex30 [])) exCG ex30 [] with
  | Ret (Err (NewMissing m)) => elements m = [12]
  | _ => False
  end.
Proof. vm_compute. reflexivity. Qed.
Example C30_ex_append :
  ad_inj ({[ cgA ]} ∪ {[ cgB ]}) ∧ views_agree (cg_chain exCG) ∧ sc_limit (cg_chain exCG) = None.
Proof.
  split; [|split; [apply exCG_ok|vm_compute; reflexivity]].
  intros a b Ha Hb. rewrite elem_of_union, !elem_of_singleton in Ha, Hb.
  by destruct Ha as [->| ->], Hb as [->| ->].
Qed.
(** The sparse update keeps 13 unconfirmed, but merging the inflated update evicts it. *)
Theorem C30_positions_refuted : ∃ (cg u cg' : ChainGraph TxHeight) c' cs ccs ho ord txs i,
  cg_ok cg ∧ hash_order (cg_graph cg) ho ∧ ord ≡ₚ map_to_list (sc_pos (cg_chain u)) ∧
  inflate_update (exho (inflate_graph cg (cg_chain u) txs)) cg (cg_chain u) txs = Ret (Ok u) ∧
  cg_apply_update ho cg u ord = Ret (Ok (cg', cs)) ∧
  apply_update (cg_chain cg) (cg_chain u) ord = Ret (Ok (c', ccs)) ∧
  sc_pos (cg_chain u) !! i = Some Unconfirmed ∧ sc_pos c' !! i = Some Unconfirmed ∧
  sc_pos (cg_chain cg') !! i = None.
Proof.
  apply (positions_witness exCG ex30 [cgB] exCGho [(13, Unconfirmed); (12, Confirmed 11)] 13);
    [exact exCG_ok|exact ex30_ok|exact exCGho_ok| |vm_compute; repeat split].
  apply (bool_decide_unpack _). vm_compute. done.
Qed.

Print Assumptions C25_txs_full.
Print Assumptions C25_no_panic.
Print Assumptions C25_lookup.
Print Assumptions C25_listing.
Print Assumptions C26_no_double_spend.
Print Assumptions C26_consistent.
Print Assumptions C27_partial.
Print Assumptions C27_insert_partial.
Print Assumptions C27_refuted.
Print Assumptions C28_update.
Print Assumptions C28_insert.
Print Assumptions C28_update_evicts.
Print Assumptions C28_insert_evicts.
Print Assumptions C28_insert_adds.
Print Assumptions C28_contains_eviction.
Print Assumptions C29_spent_by.
Print Assumptions C29_full_txout.
Print Assumptions C30_inflate.
Print Assumptions C30_positions_partial.
Print Assumptions C30_append.
Print Assumptions C30_positions_refuted.
