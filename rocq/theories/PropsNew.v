(** C110: [ChainGraph::new] fails for the two reasons its documentation gives
    (chain_graph.rs:77-84) and for no other. *)
From Verif Require Import NewExamples.

Section props.
Context `{ChainPositionLaws P}.
(** It succeeds exactly when every transaction of the chain is there in full and no two of
    them double spend, *)
Theorem C110_new_iff ho (c : SparseChain P) g : chain_ok c → graph_ok g → hash_order g ho →
  (∃ cg, cg_new ho c g = Ret (Ok cg)) ↔ txs_full (mkCG c g) ∧ no_double_spend (mkCG c g).
Proof. exact (new_iff ho c g). Qed.
(** takes chain and graph as they are, and an error tells the truth: it names two
    transactions of the chain that double spend, with their positions, or, if there are no
    such, exactly the transactions of the chain that are missing. *)
Theorem C110_new_result ho (c : SparseChain P) g : chain_ok c → graph_ok g → hash_order g ho →
  match cg_new ho c g with
  | Panic => False
  | Ret (Ok cg) => cg = mkCG c g ∧ txs_full cg ∧ no_double_spend cg
  | Ret (Err (NewConflict (p, i) (q, j))) =>
      i ≠ j ∧ sc_pos c !! i = Some p ∧ sc_pos c !! j = Some q ∧
      ∃ a b, get_tx g i = Some a ∧ get_tx g j = Some b ∧ double_spend a b
  | Ret (Err (NewMissing m)) =>
      m ≠ ∅ ∧ (∀ i, i ∈ m ↔ is_Some (sc_pos c !! i) ∧ get_tx g i = None) ∧ no_double_spend (mkCG c g)
  end.
Proof. exact (cg_new_spec ho c g). Qed.
End props.

(** The chain has 11, 12 and 13; 11 and 12 spend the same output.  With 11 and 13 in full 12
    is missing, with 11 and 12 there is a conflict, though 13 is missing. *)
Example C110_ex :
  chain_ok newC ∧ graph_ok (tg_new [cgA; cgC]) ∧ graph_ok (tg_new [cgA; cgB]) ∧ hash_fun_ok exho ∧
  match cg_new (exho (tg_new [cgA; cgC])) newC (tg_new [cgA; cgC]) with Ret (Err (NewMissing m)) => elements m | _ => [] end = [12] ∧
  match cg_new (exho (tg_new [cgA; cgB])) newC (tg_new [cgA; cgB]) with Ret (Err (NewConflict a b)) => Some (a, b) | _ => None end
    = Some ((Unconfirmed, 11), (Unconfirmed, 12)) ∧
  match cg_new exCGho (cg_chain exCG) (cg_graph exCG) with Ret (Ok cg) => elements (dom (sc_pos (cg_chain cg))) | _ => [] end = [11; 13].
Proof.
  split; [exact newC_ok|]. split; [apply new_graph_ok|]. split; [apply new_graph_ok|]. split; [exact exho_ok|].
  split; [vm_compute; reflexivity|]. split; vm_compute; reflexivity.
Qed.

Print Assumptions C110_new_iff.
Print Assumptions C110_new_result.
