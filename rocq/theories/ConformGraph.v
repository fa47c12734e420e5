(** The tests of bdk_chain/tests/test_tx_graph.rs and test_chain_graph.rs, run on
    the model.  Each [Example] is one test function, with its name and the
    results it asserts.  Transaction ids are distinct numbers in place of hashes. *)
From Verif Require Import ChainGraphModel ConformChain.

(** The iteration order given to the spender sets (tx_graph.rs:69). *)
Definition spenders (g : TxGraph) (o : OutPoint) : list Txid := elements (default ∅ (tg_spends g !! o)).
(** tx_graph.rs:442 [derive(PartialEq)] *)
Global Instance Additions_eq_dec : EqDecision Additions.
Proof. solve_decision. Defined.
(** tx_graph.rs:66 [derive(PartialEq)] *)
Global Instance TxGraph_eq_dec : EqDecision TxGraph.
Proof. solve_decision. Defined.
(** sparse_chain.rs:235 [derive(PartialEq)] *)
Global Instance SparseChain_eq_dec `{Countable P} : EqDecision (SparseChain P).
Proof. solve_decision. Defined.
(** sparse_chain.rs:265 [derive(PartialEq)] *)
Global Instance InsertTxError_eq_dec `{EqDecision P} : EqDecision (InsertTxError P).
Proof. solve_decision. Defined.
(** chain_graph.rs:27 [derive(PartialEq)] *)
Global Instance ChainGraph_eq_dec `{Countable P} : EqDecision (ChainGraph P).
Proof. solve_decision. Defined.
(** chain_graph.rs:433 [derive(PartialEq)] *)
Global Instance CgChangeSet_eq_dec `{EqDecision P} : EqDecision (CgChangeSet P).
Proof. solve_decision. Defined.
(** chain_graph.rs:499 [derive(PartialEq)] *)
Global Instance NewError_eq_dec `{EqDecision P} : EqDecision (NewError P).
Proof. solve_decision. Defined.
(** chain_graph.rs:590 [derive(PartialEq)] *)
Global Instance Unresolvable_eq_dec `{EqDecision P} : EqDecision (UnresolvableConflict P).
Proof. solve_decision. Defined.
(** chain_graph.rs:562 [derive(PartialEq)] *)
Global Instance CgUpdateError_eq_dec `{EqDecision P} : EqDecision (CgUpdateError P).
Proof. solve_decision. Defined.

(** bdk_chain/tests/test_tx_graph.rs: [TxOut::default()] has value [u64::MAX] *)
Definition txo0 : TxOut := mkTxOut u64_max 0.
(** bdk_chain/tests/common/mod.rs:53-60 and the transactions of the tests: an id,
    the outpoints spent, the outputs *)
Definition tx_of (i : Txid) (ins : list (Txid * N)) (outs : list TxOut) : Tx :=
  mkTx i ((λ x, mkOutPoint x.1 x.2) <$> ins) outs i.
(** bdk_chain/tests/test_tx_graph.rs: an output of some value *)
Definition val (v : N) : TxOut := mkTxOut v 0.

(** ** bdk_chain/tests/test_tx_graph.rs *)

(** bdk_chain/tests/test_tx_graph.rs:10-79 *)
Definition insert_txouts_run :=
  let o1 := mkOutPoint 1 1 in let o2 := mkOutPoint 1 2 in let o3 := mkOutPoint 2 0 in
  let '(g1, a1) := tg_insert_txout tg_default o1 (val 10000) in
  let '(g2, a2) := tg_insert_txout g1 o2 (val 20000) in
  let '(u, a3) := tg_insert_txout tg_default o3 (val 20000) in
  let a := determine_additions g2 u in
  let g3 := apply_additions g2 a in
  ([a1; a2; a3; a], (length (all_txouts g3), length (full_transactions g3), length (partial_transactions g3))).
(** bdk_chain/tests/test_tx_graph.rs:10-79 *)
Example insert_txouts :
  insert_txouts_run =
  ([mkAdditions ∅ {[ mkOutPoint 1 1 := val 10000 ]}; mkAdditions ∅ {[ mkOutPoint 1 2 := val 20000 ]};
    mkAdditions ∅ {[ mkOutPoint 2 0 := val 20000 ]}; mkAdditions ∅ {[ mkOutPoint 2 0 := val 20000 ]}],
   (3, 0, 2)%nat).
Proof. apply by_dec. vm_compute. reflexivity. Qed.

(** bdk_chain/tests/test_tx_graph.rs:81-97 *)
Example insert_tx_graph_doesnt_count_coinbase_as_spent :
  let g := (tg_insert_tx tg_default (mkTx 1 [null_outpoint] [] 0)).1 in
  outspends g null_outpoint = ∅ ∧ tx_outspends g 0 = [].
Proof. vm_compute. split; reflexivity. Qed.

(** bdk_chain/tests/test_tx_graph.rs:99-138 *)
Example insert_tx_graph_keeps_track_of_spend :
  let tx1 := tx_of 1 [] [txo0] in
  let tx2 := tx_of 2 [(1, 0)] [] in
  let op := mkOutPoint 1 0 in
  let g1 := (tg_insert_tx (tg_insert_tx tg_default tx1).1 tx2).1 in
  let g2 := (tg_insert_tx (tg_insert_tx tg_default tx2).1 tx1).1 in
  outspends g1 op = {[ txid tx2 ]} ∧ outspends g2 op = outspends g1 op.
Proof. split; apply by_dec; vm_compute; reflexivity. Qed.

(** bdk_chain/tests/test_tx_graph.rs:140-155 *)
Example insert_tx_can_retrieve_full_tx_from_graph :
  let tx := mkTx 1 [null_outpoint] [txo0] 0 in
  get_tx (tg_insert_tx tg_default tx).1 (txid tx) = Some tx.
Proof. vm_compute. reflexivity. Qed.

(** bdk_chain/tests/test_tx_graph.rs:157-211 *)
Example insert_tx_displaces_txouts :
  let tx := tx_of 1 [] [val 42000] in
  let g1 := (tg_insert_txout tg_default (mkOutPoint 1 0) (val 1337000)).1 in
  let g2 := (tg_insert_txout g1 (mkOutPoint 1 0) (val 1000000000)).1 in
  let g := (tg_insert_tx g2 tx).1 in
  txo_value <$> get_txout g (mkOutPoint 1 0) = Some 42000 ∧ get_txout g (mkOutPoint 1 1) = None.
Proof. vm_compute. split; reflexivity. Qed.

(** bdk_chain/tests/test_tx_graph.rs:213-267 *)
Example insert_txout_does_not_displace_tx :
  let tx := tx_of 1 [] [val 42000] in
  let g1 := (tg_insert_tx tg_default tx).1 in
  let g2 := (tg_insert_txout g1 (mkOutPoint 1 0) (val 1337000)).1 in
  let g := (tg_insert_txout g2 (mkOutPoint 1 0) (val 1000000000)).1 in
  txo_value <$> get_txout g (mkOutPoint 1 0) = Some 42000 ∧ get_txout g (mkOutPoint 1 1) = None.
Proof. vm_compute. split; reflexivity. Qed.

(** bdk_chain/tests/test_tx_graph.rs:269-351 *)
Example test_calculate_fee :
  let g1 := (tg_insert_tx tg_default (tx_of 1 [] [val 100])).1 in
  let g2 := (tg_insert_tx g1 (tx_of 2 [] [val 200])).1 in
  let g := (tg_insert_txout g2 (mkOutPoint 3 0) (val 300)).1 in
  calculate_fee g (tx_of 4 [(1, 0); (2, 0); (3, 0)] [val 500]) = Ret (Some 100%Z) ∧
  calculate_fee g (tx_of 5 [(1, 0); (2, 0)] [val 500]) = Ret (Some (-200)%Z) ∧
  calculate_fee g (tx_of 6 [(1, 0); (2, 0); (9, 0)] [val 500]) = Ret None.
Proof. vm_compute. repeat split; reflexivity. Qed.

(** bdk_chain/tests/test_tx_graph.rs:353-368 *)
Example test_calculate_fee_on_coinbase :
  calculate_fee tg_default (mkTx 1 [null_outpoint] [txo0] 0) = Ret (Some 0%Z).
Proof. vm_compute. reflexivity. Qed.

(** bdk_chain/tests/test_tx_graph.rs:370-417 *)
Example test_conflicting_descendants :
  let tx_a := tx_of 1 [(50, 2)] [txo0] in
  let tx_a2 := tx_of 2 [(50, 2)] [txo0; txo0] in
  let tx_b := tx_of 3 [(1, 0)] [txo0] in
  let g := (tg_insert_tx (tg_insert_tx tg_default tx_a).1 tx_b).1 in
  walk_conflicts (spenders g) g tx_a2 (λ d i, Some (d, i)) = Some [(0%nat, txid tx_a); (1%nat, txid tx_b)].
Proof. vm_compute. reflexivity. Qed.

(** bdk_chain/tests/test_tx_graph.rs:419-512.  [tx_a] has id
    1, the [txs_b] 2 to 4, the [txs_c] 5 and 6, [tx_d] 7, [tx_e] 8. *)
Definition family : list Tx :=
  [tx_of 2 [(1, 0)] [txo0]; tx_of 3 [(1, 1)] [txo0]; tx_of 4 [(1, 2)] [txo0];
   tx_of 5 [(2, 0)] [txo0]; tx_of 6 [(3, 1)] [txo0];
   tx_of 7 [(5, 0); (6, 0)] [txo0]; tx_of 8 [(7, 0)] [txo0]].
(** bdk_chain/tests/test_tx_graph.rs:419-512 *)
Example test_descendants_no_repeat :
  let not_connected := (λ i, tx_of (10 + N.of_nat i) [(99, 10 + N.of_nat i)] [txo0]) <$> seq 0 10 in
  let g := tg_new (not_connected ++ family) in
  match walk_descendants (spenders g) g 1 (λ _ i, Some i) with
  | Some l => merge_sort N.le l = txid <$> family
  | None => False
  end.
Proof. vm_compute. reflexivity. Qed.

(** ** bdk_chain/tests/test_chain_graph.rs *)

Local Notation Cg := (ChainGraph TxHeight).
(** [cg.insert_tx(..).unwrap()], bdk_chain/tests/test_chain_graph.rs:42-51 *)
Definition put_tx (o : option Cg) (tp : Tx * TxHeight) : option Cg :=
  match o with
  | None => None
  | Some cg => match cg_insert_tx (spenders (cg_graph cg)) cg tp.1 tp.2 with
               | Ret (Ok (cg', _)) => Some cg' | _ => None end
  end.
(** [cg.insert_checkpoint(..).unwrap()], bdk_chain/tests/test_chain_graph.rs:103 *)
Definition put_cp (o : option Cg) (b : N * BlockHash) : option Cg :=
  match o with
  | None => None
  | Some cg => match cg_insert_checkpoint cg (mkBlockId b.1 b.2) with
               | Ret (Ok (cg', _)) => Some cg' | _ => None end
  end.
(** Checkpoints first, then transactions: bdk_chain/tests/test_chain_graph.rs:101-111 *)
Definition cg_of (cps : list (N * BlockHash)) (l : list (Tx * TxHeight)) : option Cg :=
  foldl put_tx (foldl put_cp (Some cg_default) cps) l.
(** [cg.determine_changeset(&update)] *)
Definition cg_determines (o1 o2 : option Cg) (r : result (CgChangeSet TxHeight) (CgUpdateError TxHeight)) : Prop :=
  match o1, o2 with
  | Some cg, Some u => Some (cg_determine_changeset (spenders (cg_graph cg)) cg u (map_to_list (sc_pos (cg_chain u))))
  | _, _ => None
  end = Some (Ret r).

(** bdk_chain/tests/test_chain_graph.rs:13-60 *)
Example test_spent_by :
  let tx1 := tx_of 1 [] [txo0] in
  let tx2 := tx_of 2 [(1, 0)] [] in
  let tx3 := tx_of 3 [(1, 0)] [] in
  let op := mkOutPoint 1 0 in
  match cg_of [] [(tx1, Unconfirmed); (tx2, Unconfirmed)], cg_of [] [(tx1, Unconfirmed); (tx3, Unconfirmed)] with
  | Some cg1, Some cg2 =>
      cg_spent_by (spenders (cg_graph cg1)) cg1 op = Some (Unconfirmed, txid tx2) ∧
      cg_spent_by (spenders (cg_graph cg2)) cg2 op = Some (Unconfirmed, txid tx3)
  | _, _ => False
  end.
Proof. vm_compute. split; reflexivity. Qed.

(** bdk_chain/tests/test_chain_graph.rs:62-228 *)
Definition ev_a : Tx := tx_of 1 [] [txo0].
Definition ev_b : Tx := tx_of 2 [(1, 0)] [txo0].
Definition ev_b2 : Tx := tx_of 3 [(1, 0)] [txo0; txo0].
(** bdk_chain/tests/test_chain_graph.rs:62-228 *)
Example update_evicts_conflicting_tx :
  cg_determines (cg_of [(0, hA)] [(ev_a, Confirmed 0); (ev_b, Unconfirmed)]) (cg_of [] [(ev_b2, Unconfirmed)])
    (Ok (mkCGS (changeset_of [] [(txid ev_b, None); (txid ev_b2, Some Unconfirmed)]) (mkAdditions {[ ev_b2 ]} ∅))) ∧
  cg_determines (cg_of [(0, hA); (1, hB)] [(ev_a, Confirmed 0); (ev_b, Confirmed 1)])
    (cg_of [] [(ev_b2, Unconfirmed)])
    (Err (CgUpdConflict (mkUnresolvable (Confirmed 1, txid ev_b) (Unconfirmed, txid ev_b2)))) ∧
  cg_determines (cg_of [(0, hA); (1, hB)] [(ev_a, Confirmed 0); (ev_b, Confirmed 1)])
    (cg_of [(0, hA); (1, hB')] [(ev_b2, Unconfirmed)])
    (Ok (mkCGS (changeset_of [(1, Some hB')] [(txid ev_b, None); (txid ev_b2, Some Unconfirmed)])
               (mkAdditions {[ ev_b2 ]} ∅))).
Proof. unfold cg_determines. split_and!; apply by_dec; vm_compute; reflexivity. Qed.

(** bdk_chain/tests/test_chain_graph.rs:230-300 *)
Definition nm_a : Tx := tx_of 1 [] [txo0].
Definition nm_b : Tx := tx_of 2 [] [txo0].
Definition nm_g1 : TxGraph := (tg_insert_tx tg_default nm_b).1.
Definition nm_g2 : TxGraph := (tg_insert_txout nm_g1 (mkOutPoint (txid nm_a) 0) txo0).1.
Definition nm_g3 : TxGraph := (tg_insert_tx nm_g2 nm_a).1.
(** [ChainGraph::new(update, graph)] there; [None] if the chain cannot be built *)
Definition nm_new (g : TxGraph) : option (outcome (result Cg (NewError TxHeight))) :=
  match chain_of [(0, hA)] [(txid nm_a, Confirmed 0); (txid nm_b, Confirmed 0)] with
  | Some c => Some (cg_new (spenders g) c g)
  | None => None
  end.
(** bdk_chain/tests/test_chain_graph.rs:230-300 *)
Example chain_graph_new_missing :
  nm_new tg_default = Some (Ret (Err (NewMissing {[ txid nm_a; txid nm_b ]}))) ∧
  nm_new nm_g1 = Some (Ret (Err (NewMissing {[ txid nm_a ]}))) ∧
  nm_new nm_g2 = Some (Ret (Err (NewMissing {[ txid nm_a ]}))) ∧
  nm_new nm_g3 = (λ cg, Ret (Ok cg)) <$> cg_of [(0, hA)] [(nm_a, Confirmed 0); (nm_b, Confirmed 0)].
Proof. split_and!; apply by_dec; vm_compute; reflexivity. Qed.

(** bdk_chain/tests/test_chain_graph.rs:302-351 *)
Example chain_graph_new_conflicts :
  let g := tg_new [ev_a; ev_b; ev_b2] in
  match chain_of [(5, hA)] [(txid ev_a, Confirmed 1); (txid ev_b, Confirmed 2); (txid ev_b2, Confirmed 3)] with
  | Some c => match cg_new (spenders g) c g with Ret (Err (NewConflict _ _)) => True | _ => False end
  | None => False
  end.
Proof. vm_compute. exact I. Qed.

(** bdk_chain/tests/test_chain_graph.rs:353-368 *)
Example test_get_tx_in_chain :
  let tx := tx_of 1 [] [txo0] in
  match cg_of [] [(tx, Unconfirmed)] with
  | Some cg => get_tx_in_chain cg (txid tx) = Ret (Some (Unconfirmed, tx))
  | None => False
  end.
Proof. vm_compute. reflexivity. Qed.

(** bdk_chain/tests/test_chain_graph.rs:370-403 *)
Example test_iterate_transactions :
  let t0 := tx_of 1 [] [txo0] in
  let t1 := tx_of 2 [] [txo0] in
  let t2 := tx_of 3 [] [txo0] in
  match cg_of [(1, hA)] [(t0, Confirmed 1); (t1, Unconfirmed); (t2, Confirmed 0)] with
  | Some cg => transactions_in_chain cg = Ret [(Confirmed 0, t2); (Confirmed 1, t0); (Unconfirmed, t1)]
  | None => False
  end.
Proof. vm_compute. reflexivity. Qed.

(** bdk_chain/tests/test_chain_graph.rs:405-512 *)
Definition re_1 : Tx := tx_of 1 [] [val 1].
Definition re_2a : Tx := tx_of 2 [(1, 0)] [val 0].
Definition re_2b : Tx := tx_of 3 [(1, 0)] [val 0].
(** bdk_chain/tests/test_chain_graph.rs:405-512; the
    blocks 1, 2a, 2b and 2c are 101 to 104 *)
Definition reintroduce : option (CgChangeSet TxHeight * CgChangeSet TxHeight) :=
  match cg_of [(1, 101); (2, 102)] [(re_1, Confirmed 1); (re_2a, Confirmed 2)],
        cg_of [(1, 101); (2, 103)] [(re_2b, Confirmed 2)],
        cg_of [(1, 101); (2, 104)] [(re_2a, Confirmed 2)] with
  | Some cg, Some u1, Some u2 =>
      match cg_apply_update (spenders (cg_graph cg)) cg u1 (map_to_list (sc_pos (cg_chain u1))) with
      | Ret (Ok (cg', cs1)) =>
          match cg_apply_update (spenders (cg_graph cg')) cg' u2 (map_to_list (sc_pos (cg_chain u2))) with
          | Ret (Ok (_, cs2)) => Some (cs1, cs2)
          | _ => None
          end
      | _ => None
      end
  | _, _, _ => None
  end.
(** bdk_chain/tests/test_chain_graph.rs:405-512 *)
Example test_apply_changes_reintroduce_tx :
  reintroduce = Some
    (mkCGS (changeset_of [(2, Some 103)] [(txid re_2a, None); (txid re_2b, Some (Confirmed 2))])
           (mkAdditions {[ re_2b ]} ∅),
     mkCGS (changeset_of [(2, Some 104)] [(txid re_2b, None); (txid re_2a, Some (Confirmed 2))]) ad_default).
Proof. apply by_dec. vm_compute. reflexivity. Qed.

(** bdk_chain/tests/test_chain_graph.rs:514-653 *)
Definition de_1 : Tx := tx_of 1 [(99, 0)] [val 10000].
Definition de_2 : Tx := tx_of 2 [(1, 0)] [val 20000; val 30000].
Definition de_3 : Tx := tx_of 3 [(2, 0)] [val 40000].
Definition de_4 : Tx := tx_of 4 [(2, 1)] [val 40000].
Definition de_5 : Tx := tx_of 5 [(4, 0)] [val 40000].
Definition de_c : Tx := tx_of 6 [(1, 0)] [val 12345].
(** bdk_chain/tests/test_chain_graph.rs:514-653 *)
Definition de_cg : option Cg :=
  cg_of [(1, 101); (2, 102)]
        [(de_1, Confirmed 1); (de_2, Confirmed 2); (de_3, Confirmed 2); (de_4, Confirmed 2); (de_5, Confirmed 2)].
(** bdk_chain/tests/test_chain_graph.rs:514-653 *)
Example test_evict_descendants :
  cg_determines de_cg (cg_of [(1, 101); (2, 103)] [(de_c, Confirmed 2)])
    (Ok (mkCGS (changeset_of [(2, Some 103)]
                  [(2, None); (3, None); (4, None); (5, None); (txid de_c, Some (Confirmed 2))])
               (mkAdditions {[ de_c ]} ∅))) ∧
  match de_cg with
  | Some cg =>
      match cg_insert_tx_preview (spenders (cg_graph cg)) cg de_c Unconfirmed with
      | Ret (Err (CgTxConflict _)) => True
      | _ => False
      end
  | None => False
  end.
Proof. split; [unfold cg_determines; apply by_dec; vm_compute; reflexivity | vm_compute; exact I]. Qed.
