(** The tests of bdk_chain/tests/test_sparse_chain.rs, run on the model.  Each
    [Example] is one test function, with its name and the results it asserts;
    the model is evaluated by the kernel. *)
From Verif Require Import SparseChainModel.

(** sparse_chain.rs:331 [derive(PartialEq)] *)
Global Instance UpdateError_eq_dec `{EqDecision P} : EqDecision (UpdateError P).
Proof. solve_decision. Defined.

(** Equality decided by computation. *)
Lemma by_dec {A : Type} `{EqDecision A} (x y : A) : bool_decide (x = y) = true → x = y.
Proof. apply bool_decide_eq_true_1. Qed.

(** The macro [h!] of bdk_chain/tests/common/mod.rs:2-6 hashes its literal: here
    the hashes are distinct numbers. *)
(** bdk_chain/tests/common/mod.rs:2-6 *)
Definition hA : N := 1. Definition hA' : N := 2. Definition hB : N := 3. Definition hB' : N := 4.
(** bdk_chain/tests/common/mod.rs:2-6 *)
Definition hC : N := 5. Definition hC' : N := 6. Definition hD : N := 7. Definition hE : N := 8.
(** bdk_chain/tests/common/mod.rs:2-6 *)
Definition hF : N := 9. Definition hG : N := 10. Definition h_tx0 : N := 11. Definition h_tx1 : N := 12.
(** bdk_chain/tests/common/mod.rs:2-6 *)
Definition h_a : N := 13. Definition h_b : N := 14. Definition h_c : N := 15. Definition h_d : N := 16.
(** bdk_chain/tests/common/mod.rs:2-6 *)
Definition h_e : N := 17. Definition h_b1 : N := 18. Definition h_b2 : N := 19.

(** bdk_chain/tests/test_sparse_chain.rs:8-9 *)
Definition TestIndex : Type := TxHeight * N.
(** bdk_chain/tests/test_sparse_chain.rs:11-23 *)
Global Instance TestIndex_position : ChainPosition TestIndex := {
  pos_height x := fst x;
  pos_max_of h := (h, u32_max);
  pos_min_of h := (h, 0);
  pos_ok x := th_ok (fst x) ∧ snd x ≤ u32_max
}.

Section conform.
Context `{ChainPosition P}.

(** The macro [chain!], bdk_chain/tests/common/mod.rs:9-25; [expect] is the [None] here. *)
Definition chain_tx (o : option (SparseChain P)) (tp : Txid * P) : option (SparseChain P) :=
  match o with
  | None => None
  | Some c => match insert_tx c tp.1 tp.2 with Ret (Ok (c', _)) => Some c' | _ => None end
  end.
(** bdk_chain/tests/common/mod.rs:9-25 *)
Definition chain_of (cps : list (N * BlockHash)) (l : list (Txid * P)) : option (SparseChain P) :=
  foldl chain_tx (Some (from_checkpoints ((λ x, mkBlockId x.1 x.2) <$> cps))) l.
(** The macro [changeset!], bdk_chain/tests/common/mod.rs:28-50 *)
Definition changeset_of (cps : list (N * option BlockHash)) (l : list (Txid * option P)) : ChangeSet P :=
  mkChangeSet (foldl (λ m kv, <[kv.1 := kv.2]> m) ∅ cps) (foldl (λ m kv, <[kv.1 := kv.2]> m) ∅ l).
(** The assertion [chain1.determine_changeset(&chain2) == expected]. *)
Definition determines (o1 o2 : option (SparseChain P)) (r : result (ChangeSet P) (UpdateError P)) : Prop :=
  match o1, o2 with
  | Some c, Some u => bool_decide (determine_changeset c u (map_to_list (sc_pos u)) = Ret r) = true
  | _, _ => False
  end.
End conform.

Local Notation chain := (chain_of (P := TxHeight)).
Local Notation changeset := (changeset_of (P := TxHeight)).

(** bdk_chain/tests/test_sparse_chain.rs:34-45 *)
Example add_first_checkpoint :
  determines (Some sc_default) (chain [(0, hA)] []) (Ok (changeset [(0, Some hA)] [])).
Proof. vm_compute. reflexivity. Qed.
(** bdk_chain/tests/test_sparse_chain.rs:47-58 *)
Example add_second_tip :
  determines (chain [(0, hA)] []) (chain [(0, hA); (1, hB)] []) (Ok (changeset [(1, Some hB)] [])).
Proof. vm_compute. reflexivity. Qed.
(** bdk_chain/tests/test_sparse_chain.rs:60-68 *)
Example two_disjoint_chains_cannot_merge :
  determines (chain [(0, hA)] []) (chain [(1, hB)] []) (Err (NotConnected 0)).
Proof. vm_compute. reflexivity. Qed.
(** bdk_chain/tests/test_sparse_chain.rs:70-78 *)
Example duplicate_chains_should_merge :
  determines (chain [(0, hA)] []) (chain [(0, hA)] []) (Ok cs_default).
Proof. vm_compute. reflexivity. Qed.
(** bdk_chain/tests/test_sparse_chain.rs:80-88 *)
Example duplicate_chains_with_txs_should_merge :
  determines (chain [(0, hA)] [(h_tx0, Confirmed 0)]) (chain [(0, hA)] [(h_tx0, Confirmed 0)])
    (Ok cs_default).
Proof. vm_compute. reflexivity. Qed.
(** bdk_chain/tests/test_sparse_chain.rs:90-101 *)
Example duplicate_chains_with_different_txs_should_merge :
  determines (chain [(0, hA)] [(h_tx0, Confirmed 0)]) (chain [(0, hA)] [(h_tx1, Confirmed 0)])
    (Ok (changeset [] [(h_tx1, Some (Confirmed 0))])).
Proof. vm_compute. reflexivity. Qed.
(** bdk_chain/tests/test_sparse_chain.rs:103-114 *)
Example invalidate_first_and_only_checkpoint_without_tx_changes :
  determines (chain [(0, hA)] [(h_tx0, Confirmed 0)]) (chain [(0, hA')] [(h_tx0, Confirmed 0)])
    (Ok (changeset [(0, Some hA')] [])).
Proof. vm_compute. reflexivity. Qed.
(** bdk_chain/tests/test_sparse_chain.rs:116-127 *)
Example invalidate_first_and_only_checkpoint_with_tx_move_forward :
  determines (chain [(0, hA)] [(h_tx0, Confirmed 0)])
    (chain [(0, hA'); (1, hB)] [(h_tx0, Confirmed 1)])
    (Ok (changeset [(0, Some hA'); (1, Some hB)] [(h_tx0, Some (Confirmed 1))])).
Proof. vm_compute. reflexivity. Qed.
(** bdk_chain/tests/test_sparse_chain.rs:129-140 *)
Example invalidate_first_and_only_checkpoint_with_tx_move_backward :
  determines (chain [(1, hB)] [(h_tx0, Confirmed 1)])
    (chain [(0, hA); (1, hB')] [(h_tx0, Confirmed 0)])
    (Ok (changeset [(0, Some hA); (1, Some hB')] [(h_tx0, Some (Confirmed 0))])).
Proof. vm_compute. reflexivity. Qed.
(** bdk_chain/tests/test_sparse_chain.rs:142-154 *)
Example invalidate_a_checkpoint_and_try_and_move_tx_when_it_wasnt_within_invalidation :
  determines (chain [(0, hA); (1, hB)] [(h_tx0, Confirmed 0)])
    (chain [(0, hA); (1, hB')] [(h_tx0, Confirmed 1)])
    (Err (TxInconsistent h_tx0 (Confirmed 0) (Confirmed 1))).
Proof. vm_compute. reflexivity. Qed.
(** bdk_chain/tests/test_sparse_chain.rs:156-170 *)
Example move_invalidated_tx_into_earlier_checkpoint :
  determines (chain [(0, hA); (1, hB)] [(h_tx0, Confirmed 1)])
    (chain [(0, hA); (1, hB')] [(h_tx0, Confirmed 0)])
    (Ok (changeset [(1, Some hB')] [(h_tx0, Some (Confirmed 0))])).
Proof. vm_compute. reflexivity. Qed.
(** bdk_chain/tests/test_sparse_chain.rs:172-183 *)
Example invalidate_first_and_only_checkpoint_with_tx_move_to_mempool :
  determines (chain [(0, hA)] [(h_tx0, Confirmed 0)]) (chain [(0, hA')] [(h_tx0, Unconfirmed)])
    (Ok (changeset [(0, Some hA')] [(h_tx0, Some Unconfirmed)])).
Proof. vm_compute. reflexivity. Qed.
(** bdk_chain/tests/test_sparse_chain.rs:185-196 *)
Example confirm_tx_without_extending_chain :
  determines (chain [(0, hA)] [(h_tx0, Unconfirmed)]) (chain [(0, hA)] [(h_tx0, Confirmed 0)])
    (Ok (changeset [] [(h_tx0, Some (Confirmed 0))])).
Proof. vm_compute. reflexivity. Qed.
(** bdk_chain/tests/test_sparse_chain.rs:198-209 *)
Example confirm_tx_backwards_while_extending_chain :
  determines (chain [(0, hA)] [(h_tx0, Unconfirmed)])
    (chain [(0, hA); (1, hB)] [(h_tx0, Confirmed 0)])
    (Ok (changeset [(1, Some hB)] [(h_tx0, Some (Confirmed 0))])).
Proof. vm_compute. reflexivity. Qed.
(** bdk_chain/tests/test_sparse_chain.rs:211-225 *)
Example confirm_tx_in_new_block :
  determines (chain [(0, hA)] [(h_tx0, Unconfirmed)])
    (chain [(0, hA); (1, hB)] [(h_tx0, Confirmed 1)])
    (Ok (changeset [(1, Some hB)] [(h_tx0, Some (Confirmed 1))])).
Proof. vm_compute. reflexivity. Qed.
(** bdk_chain/tests/test_sparse_chain.rs:227-239 *)
Example merging_mempool_of_empty_chains_doesnt_fail :
  determines (chain [] [(h_tx0, Unconfirmed)]) (chain [] [(h_tx1, Unconfirmed)])
    (Ok (changeset [] [(h_tx1, Some Unconfirmed)])).
Proof. vm_compute. reflexivity. Qed.
(** bdk_chain/tests/test_sparse_chain.rs:241-252 *)
Example cannot_insert_confirmed_tx_without_checkpoints :
  insert_tx_preview (P := TxHeight) sc_default hA (Confirmed 0) = Ret (Err (TxTooHigh hA 0 None)).
Proof. vm_compute. reflexivity. Qed.
(** bdk_chain/tests/test_sparse_chain.rs:254-266 *)
Example empty_chain_can_add_unconfirmed_transactions :
  determines (chain [(0, hA)] []) (chain [] [(h_tx0, Unconfirmed)])
    (Ok (changeset [] [(h_tx0, Some Unconfirmed)])).
Proof. vm_compute. reflexivity. Qed.
(** bdk_chain/tests/test_sparse_chain.rs:268-280 *)
Example can_update_with_shorter_chain :
  determines (chain [(1, hB); (2, hC)] []) (chain [(1, hB)] [(h_tx0, Confirmed 1)])
    (Ok (changeset [] [(h_tx0, Some (Confirmed 1))])).
Proof. vm_compute. reflexivity. Qed.
(** bdk_chain/tests/test_sparse_chain.rs:282-294 *)
Example can_introduce_older_checkpoints :
  determines (chain [(2, hC); (3, hD)] []) (chain [(1, hB); (2, hC)] [])
    (Ok (changeset [(1, Some hB)] [])).
Proof. vm_compute. reflexivity. Qed.
(** bdk_chain/tests/test_sparse_chain.rs:296-308; the hashes im-wrong, we-agree and fix *)
Example fix_blockhash_before_agreement_point :
  determines (chain [(0, 101); (1, 102)] []) (chain [(0, 103); (1, 102)] [])
    (Ok (changeset [(0, Some 103)] [])).
Proof. vm_compute. reflexivity. Qed.
(** bdk_chain/tests/test_sparse_chain.rs:310-332 *)
Example cannot_change_ext_index_of_confirmed_tx :
  determines (P := TestIndex) (chain_of [(1, hA)] [(h_tx0, (Confirmed 1, 10))])
    (chain_of [(1, hA)] [(h_tx0, (Confirmed 1, 20))])
    (Err (TxInconsistent h_tx0 (Confirmed 1, 10) (Confirmed 1, 20))).
Proof. vm_compute. reflexivity. Qed.
(** bdk_chain/tests/test_sparse_chain.rs:334-354 *)
Example can_change_index_of_unconfirmed_tx :
  determines (P := TestIndex) (chain_of [(1, hA)] [(h_tx1, (Unconfirmed, 10))])
    (chain_of [(1, hA)] [(h_tx1, (Unconfirmed, 20))])
    (Ok (changeset_of [] [(h_tx1, Some (Unconfirmed, 20))])).
Proof. vm_compute. reflexivity. Qed.
(** bdk_chain/tests/test_sparse_chain.rs:356-374 *)
Example two_points_of_agreement :
  determines (chain [(1, hB); (2, hC)] []) (chain [(0, hA); (1, hB); (2, hC); (3, hD)] [])
    (Ok (changeset [(0, Some hA); (3, Some hD)] [])).
Proof. vm_compute. reflexivity. Qed.
(** bdk_chain/tests/test_sparse_chain.rs:376-392 *)
Example update_and_chain_does_not_connect :
  determines (chain [(1, hB); (2, hC)] []) (chain [(0, hA); (1, hB); (3, hD)] [])
    (Err (NotConnected 2)).
Proof. vm_compute. reflexivity. Qed.
(** bdk_chain/tests/test_sparse_chain.rs:394-436 *)
Example transitive_invalidation_applies_to_checkpoints_higher_than_invalidation :
  determines
    (chain [(0, hA); (2, hB); (3, hC); (5, hE)]
           [(h_a, Confirmed 0); (h_b1, Confirmed 1); (h_b2, Confirmed 2); (h_d, Confirmed 3); (h_e, Confirmed 5)])
    (chain [(0, hA); (2, hB'); (3, hC'); (4, hD)] [(h_b1, Confirmed 4); (h_b2, Confirmed 3)])
    (Ok (changeset [(2, Some hB'); (3, Some hC'); (4, Some hD); (5, None)]
           [(h_b1, Some (Confirmed 4)); (h_b2, Some (Confirmed 3)); (h_d, Some Unconfirmed); (h_e, Some Unconfirmed)])).
Proof. vm_compute. reflexivity. Qed.
(** bdk_chain/tests/test_sparse_chain.rs:438-462 *)
Example transitive_invalidation_applies_to_checkpoints_higher_than_invalidation_no_point_of_agreement :
  determines (chain [(1, hB); (2, hC); (4, hE)] []) (chain [(1, hB'); (2, hC'); (3, hD)] [])
    (Ok (changeset [(1, Some hB'); (2, Some hC'); (3, Some hD); (4, None)] [])).
Proof. vm_compute. reflexivity. Qed.
(** bdk_chain/tests/test_sparse_chain.rs:464-482 *)
Example invalidation_but_no_connection :
  determines (chain [(0, hA); (1, hB); (2, hC); (4, hE)] []) (chain [(1, hB'); (2, hC'); (3, hD)] [])
    (Err (NotConnected 0)).
Proof. vm_compute. reflexivity. Qed.

(** bdk_chain/tests/test_sparse_chain.rs:484-515.  The numbers of checkpoints
    the test compares, and the changeset it expects. *)
Definition limit_test : option (list nat * ChangeSet TxHeight) :=
  match chain [(1, hA); (2, hB); (3, hC); (4, hD); (5, hE)] [], chain [(6, hF); (7, hG)] [] with
  | Some u, Some u2 =>
      match apply_update sc_default u (map_to_list (sc_pos u)) with
      | Ret (Ok (c0, _)) =>
          let c1 := set_checkpoint_limit c0 (Some 4%nat) in
          match insert_checkpoint c1 (mkBlockId 6 hF) with
          | Ret (Ok (c2, _)) =>
              match determine_changeset c2 u2 (map_to_list (sc_pos u2)) with
              | Ret (Ok cs) =>
                  Some ((λ c, size (sc_cps c)) <$> [c0; c1; c2; apply_changeset c2 cs], cs)
              | _ => None
              end
          | _ => None
          end
      | _ => None
      end
  | _, _ => None
  end.
(** bdk_chain/tests/test_sparse_chain.rs:484-515 *)
Example checkpoint_limit_is_respected :
  limit_test = Some ([5; 4; 4; 4]%nat, changeset [(7, Some hG)] []).
Proof. apply by_dec. vm_compute. reflexivity. Qed.

(** bdk_chain/tests/test_sparse_chain.rs:521-538: the 32 bytes 0x00, 0xfe, 0x01, 0xff *)
Definition range_txs : list (TestIndex * Txid) :=
  let rep b := b * ((2 ^ 256 - 1) / 255) in
  [((Confirmed 1, 0), rep 0); ((Confirmed 1, u32_max), rep 254);
   ((Confirmed 2, 0), rep 1); ((Confirmed 2, u32_max), rep 255)].
(** bdk_chain/tests/test_sparse_chain.rs:519-543 *)
Definition range_chain (l : list (TestIndex * Txid)) : option (SparseChain TestIndex) :=
  chain_of [(1, 201); (2, 202)] ((λ x, (x.2, x.1)) <$> l).
(** bdk_chain/tests/test_sparse_chain.rs:517-576 *)
Example range_txids_by_height_test :
  match range_chain range_txs with
  | None => False
  | Some c =>
      range_txids_by_height c (Incl (Confirmed 1)) Unb = Ret range_txs ∧
      range_txids_by_height c (Excl (Confirmed 1)) Unb = Ret (drop 2 range_txs) ∧
      range_txids_by_height c Unb (Incl (Confirmed 2)) = Ret (take 4 range_txs) ∧
      range_txids_by_height c Unb (Excl (Confirmed 2)) = Ret (take 2 range_txs)
  end.
Proof. vm_compute. repeat split; reflexivity. Qed.

(** bdk_chain/tests/test_sparse_chain.rs:582-587; the order of the four hashes
    is not known here, so any four will do. *)
Definition range_txs2 (a b c d : Txid) : list (TestIndex * Txid) :=
  [((Confirmed 1, 0), a); ((Confirmed 1, u32_max), b); ((Confirmed 2, 0), c); ((Confirmed 2, u32_max), d)].
(** bdk_chain/tests/test_sparse_chain.rs:594-660 *)
Definition by_index_ok (l : list (TestIndex * Txid)) : bool :=
  match range_chain l with
  | None => false
  | Some c =>
      bool_decide (range_txids_by_position c (Incl (Confirmed 1, 0)) Unb = Ret l) &&
      bool_decide (range_txids_by_position c (Incl (Confirmed 1, u32_max)) Unb = Ret (drop 1 l)) &&
      bool_decide (range_txids_by_position c (Excl (Confirmed 1, 0)) Unb = Ret (drop 1 l)) &&
      bool_decide (range_txids_by_position c (Excl (Confirmed 1, u32_max)) Unb = Ret (drop 2 l)) &&
      bool_decide (range_txids_by_position c Unb (Incl (Confirmed 2, 0)) = Ret (take 3 l)) &&
      bool_decide (range_txids_by_position c Unb (Incl (Confirmed 2, u32_max)) = Ret (take 4 l)) &&
      bool_decide (range_txids_by_position c Unb (Excl (Confirmed 2, 0)) = Ret (take 2 l)) &&
      bool_decide (range_txids_by_position c Unb (Excl (Confirmed 2, u32_max)) = Ret (take 3 l))
  end.
(** bdk_chain/tests/test_sparse_chain.rs:578-661, for the hashes in every order *)
Example range_txids_by_index :
  forallb (λ p, match p with [a; b; c; d] => by_index_ok (range_txs2 a b c d) | _ => false end)
          (permutations [31; 32; 33; 34]) = true.
Proof. vm_compute. reflexivity. Qed.

(** bdk_chain/tests/test_sparse_chain.rs:663-725, with a hundred numbers for the
    hundred hashes. *)
Definition hundred : list Txid := (λ i, 1000 + 17 * N.of_nat i) <$> seq 0 100.
(** bdk_chain/tests/test_sparse_chain.rs:663-725 *)
Definition ranges_ok (c : SparseChain TxHeight) (i : nat) : bool :=
  let t := nth i hundred 0 in
  let ans lo hi := match range_txids c lo hi with Ret l => Some l.*2 | Panic => None end in
  bool_decide (ans (Incl (Unconfirmed, t)) Unb = Some (drop i hundred)) &&
  bool_decide (ans (Excl (Unconfirmed, t)) Unb = Some (drop (S i) hundred)) &&
  bool_decide (ans Unb (Excl (Unconfirmed, t)) = Some (take i hundred)).
(** bdk_chain/tests/test_sparse_chain.rs:663-725 *)
Example range_txids_test :
  match chain [] ((λ t, (t, Unconfirmed)) <$> hundred) with
  | Some c => forallb (ranges_ok c) (seq 0 100) = true
  | None => False
  end.
Proof. vm_compute. reflexivity. Qed.

(** bdk_chain/tests/test_sparse_chain.rs:727-754 *)
Example invalidated_txs_move_to_unconfirmed :
  determines
    (chain [(0, hA); (1, hB); (2, hC)]
           [(h_a, Confirmed 0); (h_b, Confirmed 1); (h_c, Confirmed 2); (h_d, Unconfirmed)])
    (chain [(0, hA); (1, hB')] [])
    (Ok (changeset [(1, Some hB'); (2, None)] [(h_b, Some Unconfirmed); (h_c, Some Unconfirmed)])).
Proof. vm_compute. reflexivity. Qed.

(** bdk_chain/tests/test_sparse_chain.rs:756-773 *)
Definition reposition_test : option (option TxHeight * option TxHeight) :=
  match insert_tx (P := TxHeight) sc_default h_tx0 Unconfirmed with
  | Ret (Ok (c1, _)) =>
      match insert_checkpoint c1 (mkBlockId 0 hA) with
      | Ret (Ok (c2, _)) =>
          match insert_tx c2 h_tx0 (Confirmed 0) with
          | Ret (Ok (c3, _)) => Some (tx_position c1 h_tx0, tx_position c3 h_tx0)
          | _ => None
          end
      | _ => None
      end
  | _ => None
  end.
(** bdk_chain/tests/test_sparse_chain.rs:756-773 *)
Example change_tx_position_from_unconfirmed_to_confirmed :
  reposition_test = Some (Some Unconfirmed, Some (Confirmed 0)).
Proof. vm_compute. reflexivity. Qed.
