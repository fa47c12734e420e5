(** Chains and graphs for C110. *)
From Verif Require Export ChainGraphExamples.

Lemma new_iff `{ChainPositionLaws P} ho (c : SparseChain P) g : chain_ok c → graph_ok g → hash_order g ho →
  (∃ cg, cg_new ho c g = Ret (Ok cg)) ↔ txs_full (mkCG c g) ∧ no_double_spend (mkCG c g).
Proof.
  intros Hc Hg Hho. pose proof (cg_new_spec ho c g Hc Hg Hho) as Hs.
  destruct (cg_new ho c g) as [[cg|[[p i] [q j]|m]]|]; [..|done].
  - destruct Hs as (-> & Hf & Hn). split; [done|]. intros _. by exists (mkCG c g).
  - destruct Hs as (Hne & Hi & Hj & a & b & Ha & Hb & Hd). split; [by intros [? ?]|]. intros [_ Hn]. destruct Hne.
    apply (Hn i j a b); cbn; [by eexists|by eexists|done..].
  - destruct Hs as (Hm & Hin & _). split; [by intros [? ?]|]. intros [Hf _]. destruct Hm. apply set_eq. intros i. split; [|set_solver].
    intros Hi. apply Hin in Hi as [Hs Hg']. destruct (Hf i Hs) as [t Ht]. cbn in Ht. congruence.
Qed.
Lemma new_graph_ok (l : list Tx) : graph_ok (tg_new l).
Proof. rewrite tg_new_run. apply g_run_ok, all_tx_ok. Qed.

(** A chain that says 11, 12 and 13 are unconfirmed *)
Definition newC : SparseChain TxHeight :=
  match sc_run sc_default [OpInsertCheckpoint (mkBlockId 0 100); OpInsertTx 11 Unconfirmed; OpInsertTx 12 Unconfirmed; OpInsertTx 13 Unconfirmed] with
  | Ret c => c | Panic => sc_default end.
Lemma newC_ok : chain_ok newC.
Proof.
  unfold newC. destruct (run_ok (P := TxHeight) [OpInsertCheckpoint (mkBlockId 0 100); OpInsertTx 11 Unconfirmed; OpInsertTx 12 Unconfirmed; OpInsertTx 13 Unconfirmed] sc_default) as (c & -> & Hc); [apply chain_ok_default| |done].
  repeat (apply Forall_cons; split; [|]); [| | | |constructor]; vm_compute; try done; split; done.
Qed.
