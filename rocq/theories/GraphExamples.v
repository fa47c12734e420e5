(** Concrete graphs used to show that theorem hypotheses are satisfiable, and as
    witnesses of refutations. *)
From Verif Require Export TxGraphProofs3.

(** Transaction 1 pays two outputs; 2 spends output 0; 3 spends output 1 and an
    output of 2; 4 double spends output 0 of 1; 5 is a coinbase. *)
Definition exT1 : Tx := mkTx 1 [mkOutPoint 90 0] [mkTxOut 500 7; mkTxOut 300 8] 0.
Definition exT2 : Tx := mkTx 2 [mkOutPoint 1 0] [mkTxOut 450 9] 0.
Definition exT3 : Tx := mkTx 3 [mkOutPoint 1 1; mkOutPoint 2 0] [mkTxOut 700 9] 0.
Definition exT4 : Tx := mkTx 4 [mkOutPoint 1 0] [mkTxOut 499 9] 0.
Definition exT5 : Tx := mkTx 5 [null_outpoint] [mkTxOut 5000 9] 0.
Definition exUpd : TxGraph := g_run [GTx exT3; GTx exT4; GTxout (mkOutPoint 90 0) (mkTxOut 1000 6)].
Definition exOps : list g_op :=
  [GTxout (mkOutPoint 1 1) (mkTxOut 300 8); GTx exT2; GTx exT1; GUpdate exUpd; GTx exT5].
Definition exG : TxGraph := g_run exOps.
Lemma exUpd_keyed : keyed exUpd.
Proof. apply g_run_ok. repeat constructor. Qed.
Lemma exOps_ok : Forall g_op_ok exOps.
Proof. repeat constructor. apply exUpd_keyed. Qed.
Lemma exG_ok : graph_ok exG.
Proof. apply g_run_ok, exOps_ok. Qed.
Definition exHo : OutPoint → list Txid := λ o, elements (outspends exG o).
Lemma exHo_ok : hash_order exG exHo. Proof. by intros o. Qed.
Definition exHo' : OutPoint → list Txid := λ o, reverse (elements (outspends exG o)).
Lemma exHo'_ok : hash_order exG exHo'. Proof. intros o. apply reverse_Permutation. Qed.
(** The outputs each txid really has. *)
Definition exW (i : Txid) : list TxOut :=
  match i with
  | 1 => tx_out exT1 | 2 => tx_out exT2 | 3 => tx_out exT3 | 4 => tx_out exT4 | 5 => tx_out exT5
  | 90 => [mkTxOut 1000 6]
  | _ => []
  end.
Lemma exHonest : honest exW exOps.
Proof.
  split.
  - intros op t Hop Ht. unfold exOps in Hop. rewrite !elem_of_cons, elem_of_nil in Hop.
    destruct Hop as [->|[->|[->|[->|[->|[]]]]]]; cbn [offered_txs] in Ht.
    + by apply elem_of_nil in Ht.
    + apply elem_of_list_singleton in Ht as ->. done.
    + apply elem_of_list_singleton in Ht as ->. done.
    + assert (∀ t, t ∈ full_transactions exUpd → t = exT3 ∨ t = exT4) as Hf.
      { intros t' Ht'. assert (Forall (λ t, t = exT3 ∨ t = exT4) (full_transactions exUpd)) as HF.
        { apply (bool_decide_unpack _). vm_compute. done. }
        rewrite Forall_forall in HF. by apply HF. }
      by destruct (Hf _ Ht) as [-> | ->].
    + apply elem_of_list_singleton in Ht as ->. done.
  - assert (∀ t o x, t ∈ [exT1; exT2; exT3; exT4; exT5] → txid t = op_txid o →
        tx_out t !! N.to_nat (op_vout o) = Some x → exW (op_txid o) !! N.to_nat (op_vout o) = Some x) as Ht.
    { intros t o x Hin <- Hx. rewrite !elem_of_cons, elem_of_nil in Hin.
      by destruct Hin as [->|[->|[->|[->|[->|[]]]]]]. }
    intros op o x Hop Hx. unfold exOps in Hop. rewrite !elem_of_cons, elem_of_nil in Hop.
    destruct Hop as [->|[->|[->|[->|[->|[]]]]]]; cbn [offers_txout] in Hx.
    + by destruct Hx as [<- <-].
    + destruct Hx as [Hi Hx]. apply (Ht exT2); [set_solver|done..].
    + destruct Hx as [Hi Hx]. apply (Ht exT1); [set_solver|done..].
    + apply all_txouts_exact in Hx.
      assert (Forall (λ ox, exW (op_txid ox.1) !! N.to_nat (op_vout ox.1) = Some ox.2) (all_txouts exUpd)) as HF.
      { apply (bool_decide_unpack _). vm_compute. done. }
      rewrite Forall_forall in HF. by apply (HF _ Hx).
    + destruct Hx as [Hi Hx]. apply (Ht exT5); [set_solver|done..].
Qed.

(** A diamond: 20 spends output 1 of 10; 30 spends output 0 of 10 and output 0 of 20. *)
Definition dia10 : Tx := mkTx 10 [mkOutPoint 90 0] [mkTxOut 5 7; mkTxOut 3 8] 0.
Definition dia20 : Tx := mkTx 20 [mkOutPoint 10 1] [mkTxOut 2 9] 0.
Definition dia30 : Tx := mkTx 30 [mkOutPoint 10 0; mkOutPoint 20 0] [mkTxOut 1 9] 0.
Definition dia : TxGraph := g_run [GTx dia10; GTx dia20; GTx dia30].
Lemma dia_ok : graph_ok dia. Proof. apply g_run_ok. repeat constructor. Qed.

(** Transactions spending each other's outputs (impossible on the network, but a
    graph can be told so). *)
Definition cyc6 : Tx := mkTx 6 [mkOutPoint 7 0] [mkTxOut 1 1] 0.
Definition cyc7 : Tx := mkTx 7 [mkOutPoint 6 0] [mkTxOut 1 1] 0.
Definition cyc : TxGraph := g_run [GTx cyc6; GTx cyc7].
Lemma cyc_ok : graph_ok cyc. Proof. apply g_run_ok. repeat constructor. Qed.
