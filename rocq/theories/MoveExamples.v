(** Chains and updates that move transactions. *)
From Verif Require Export MoveProofs.
From Verif Require Import ChainExamples ConformChain ConformGraph.

(** Two chains of the test [move_invalidated_tx_into_earlier_checkpoint],
    bdk_chain/tests/test_sparse_chain.rs:159-170: blocks 0 and 1, the transaction in
    block 1; then another block 1, the transaction in block 0. *)
Definition mv_ops : list (sc_op TxHeight) :=
  [OpInsertCheckpoint (mkBlockId 0 100); OpInsertCheckpoint (mkBlockId 1 101); OpInsertTx 7 (Confirmed 1)].
(** bdk_chain/tests/test_sparse_chain.rs:161 *)
Definition mvC : SparseChain TxHeight :=
  mkChain {[ 0 := 100; 1 := 101 ]} {[ (Confirmed 1, 7) ]} {[ 7 := Confirmed 1 ]} None.
(** bdk_chain/tests/test_sparse_chain.rs:162 *)
Definition mvU : SparseChain TxHeight :=
  mkChain {[ 0 := 100; 1 := 201 ]} {[ (Confirmed 0, 7) ]} {[ 7 := Confirmed 0 ]} None.

(** A chain that keeps no checkpoint at all, which learns of a transaction at 5, and
    an update with the same block 5 that has it at 6. *)
Definition mv0_u : SparseChain TxHeight :=
  mkChain {[ 5 := 105 ]} {[ (Confirmed 5, 7) ]} {[ 7 := Confirmed 5 ]} None.
Definition mv0_ops : list (sc_op TxHeight) := [OpLimit (Some 0%nat); OpUpdate mv0_u [(7, Confirmed 5)]].
Definition mv0C : SparseChain TxHeight :=
  mkChain ∅ {[ (Confirmed 5, 7) ]} {[ 7 := Confirmed 5 ]} (Some 0%nat).
Definition mv0U : SparseChain TxHeight :=
  mkChain {[ 5 := 105; 6 := 106 ]} {[ (Confirmed 6, 7) ]} {[ 7 := Confirmed 6 ]} None.

Lemma exC_cbt : confirmed_below_tip exC.
Proof.
  intros t p h Hp Hh. exists 10. split; [by eexists|].
  apply elem_of_map_to_list in Hp. vm_compute (map_to_list _) in Hp.
  repeat (apply elem_of_cons in Hp as [[= -> ->]|Hp]; [try done; injection Hh as <-; done|]).
  by apply elem_of_nil in Hp.
Qed.
Lemma exU_above h : 5 < h → above_agreement exC exU h.
Proof.
  intros Hh a (x & Hc & Hu). apply elem_of_map_to_list in Hu. vm_compute (map_to_list _) in Hu.
  repeat (apply elem_of_cons in Hu as [[= -> ->]|Hu]; [try lia; by vm_compute in Hc|]).
  by apply elem_of_nil in Hu.
Qed.
Lemma exU_connects : connects exC exU.
Proof.
  intros f (_ & [x Hf] & Hab & _). apply elem_of_map_to_list in Hf. vm_compute (map_to_list _) in Hf.
  assert (5 < f) as H5. { apply Hab. by exists 105. }
  repeat (apply elem_of_cons in Hf as [[= -> ->]|Hf]; [try lia; by eexists|]).
  by apply elem_of_nil in Hf.
Qed.
Lemma exU_reorg : reorg_at exC exU 10.
Proof. split; [by apply exU_above|]. by exists 110, 210. Qed.

Lemma move_below_refuted :
  ∃ (os : list (sc_op TxHeight)) c u ord c' cs t h h' a,
    Forall sc_op_ok os ∧ Forall cbt_op os ∧ sc_run sc_default os = Ret c ∧
    chain_ok u ∧ confirmed_below_tip u ∧ ord ≡ₚ map_to_list (sc_pos u) ∧
    agree_at c u a ∧ h' ≤ a ∧ a < h ∧ reorg_at c u h ∧
    sc_pos c !! t = Some (Confirmed h) ∧
    apply_update c u ord = Ret (Ok (c', cs)) ∧ sc_pos c' !! t = Some (Confirmed h').
Proof.
  exists mv_ops, mvC, mvU, [(7, Confirmed 0)],
    (mkChain {[ 0 := 100; 1 := 201 ]} {[ (Confirmed 0, 7) ]} {[ 7 := Confirmed 0 ]} None),
    (mkChangeSet {[ 1 := Some 201 ]} {[ 7 := Some (Confirmed 0) ]}), 7, 1, 0, 0.
  split. { repeat constructor; vm_compute; done. }
  split. { repeat constructor. }
  split. { apply by_dec. vm_compute. reflexivity. }
  split. { apply chain_okb_ok. vm_compute. done. }
  split.
  { intros t p h Hp Hh. exists 1. split; [by eexists|].
    apply elem_of_map_to_list in Hp. vm_compute (map_to_list _) in Hp.
    apply elem_of_list_singleton in Hp as [= -> ->]. injection Hh as <-. done. }
  split. { vm_compute. reflexivity. }
  split. { by exists 100. }
  split; [done|]. split; [done|].
  split.
  { split; [|by exists 101, 201].
    intros a (x & Hc & Hu). apply elem_of_map_to_list in Hu. vm_compute (map_to_list _) in Hu.
    repeat (apply elem_of_cons in Hu as [[= -> ->]|Hu]; [try lia; by vm_compute in Hc|]).
    by apply elem_of_nil in Hu. }
  split; [done|]. split; [apply by_dec; vm_compute; reflexivity|done].
Qed.

Lemma move_limit_refuted :
  ∃ (os : list (sc_op TxHeight)) c u ord c' cs t h h',
    Forall sc_op_ok os ∧ sc_run sc_default os = Ret c ∧
    chain_ok u ∧ below_max u ∧ confirmed_below_tip u ∧ ord ≡ₚ map_to_list (sc_pos u) ∧
    (∀ x, ¬ reorg_at c u x) ∧ h ≠ h' ∧
    sc_pos c !! t = Some (Confirmed h) ∧
    apply_update c u ord = Ret (Ok (c', cs)) ∧ sc_pos c' !! t = Some (Confirmed h').
Proof.
  exists mv0_ops, mv0C, mv0U, [(7, Confirmed 6)],
    (mkChain ∅ {[ (Confirmed 6, 7) ]} {[ 7 := Confirmed 6 ]} (Some 0%nat)),
    (mkChangeSet {[ 5 := Some 105; 6 := Some 106 ]} {[ 7 := Some (Confirmed 6) ]}), 7, 5, 6.
  split.
  { constructor; [done|]. constructor; [|constructor].
    split; [apply chain_okb_ok; vm_compute; done|vm_compute; reflexivity]. }
  split. { apply by_dec. vm_compute. reflexivity. }
  split. { apply chain_okb_ok. vm_compute. done. }
  split. { apply below_maxb_ok. vm_compute. done. }
  split.
  { intros t p h Hp Hh. exists 6. split; [by eexists|].
    apply elem_of_map_to_list in Hp. vm_compute (map_to_list _) in Hp.
    apply elem_of_list_singleton in Hp as [= -> ->]. injection Hh as <-. done. }
  split. { vm_compute. reflexivity. }
  split. { intros x (_ & b & b' & Hb & _). by vm_compute in Hb. }
  split; [done|]. split; [done|]. split; [apply by_dec; vm_compute; reflexivity|done].
Qed.
