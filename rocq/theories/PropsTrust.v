(** Property C111: the trusted balance and double spends by others. *)
From Verif Require Import TrustExamples.
Local Open Scope N_scope.

Section props.
Context `{!DescEnv} `{Countable K, !Ord K, !OrdLaws K} `{ChainPositionLaws P}.
Implicit Types (x y : Tracker K P) (s : list (ki_op K)) (h : list (tr_op K P)) (A : K → option Desc) (W : Txid → list OutPoint).

(** What the documentation calls trusted "shouldn't get cancelled via another party double spending
    it".  An output counted as trusted, of a transaction that is confirmed or was made by the wallet
    from nothing but such outputs, survives every update in which only others have been active: it
    is still the wallet's, unspent, and counted as trusted. *)
Theorem C111_coin_survives A W s l h x0 x l1 (ho : TxGraph → OutPoint → list Txid) (sc : KScan K P) ord x' cs trust tip tip' ki f :
  good_env A → ki_hist_ok A s → tr_setup s l = Ret x0 → Forall (tr_op_ok A W s) h → Forall tr_cbt_op h → l ≠ Some 0%nat →
  tr_run x0 h = Ret (x, l1) → below_max (cg_chain (tr_cg x)) → tr_op_ok A W s (TrUpdate ho sc ord) →
  tr_apply_update (ho (cg_graph (tr_cg x))) x sc ord = Ret (Ok (x', cs)) → no_reorg x (ks_update sc) → others_only x x' →
  tip_is x tip → tip_is x' tip' →
  owned x ki f → fto_spent_by f = None → trusted trust tip (ki, f) → secure x (op_txid (fto_outpoint f)) →
  ∃ f', owned x' ki f' ∧ fto_outpoint f' = fto_outpoint f ∧ fto_txout f' = fto_txout f ∧ fto_spent_by f' = None ∧ trusted trust tip' (ki, f').
Proof. exact (trusted_stays A W s l h x0 x l1 ho sc ord x' cs trust tip tip' ki f). Qed.
(** If all trusted outputs are of this kind, the trusted spendable balance does not go down. *)
Theorem C111_balance A W s l h x0 x l1 (ho : TxGraph → OutPoint → list Txid) (sc : KScan K P) ord x' cs trust tip tip' lst lst' :
  good_env A → ki_hist_ok A s → tr_setup s l = Ret x0 → Forall (tr_op_ok A W s) h → Forall tr_cbt_op h → l ≠ Some 0%nat →
  tr_run x0 h = Ret (x, l1) → below_max (cg_chain (tr_cg x)) → tr_op_ok A W s (TrUpdate ho sc ord) → tr_cbt_op (TrUpdate ho sc ord) →
  tr_apply_update (ho (cg_graph (tr_cg x))) x sc ord = Ret (Ok (x', cs)) → no_reorg x (ks_update sc) → others_only x x' →
  tip_is x tip → tip_is x' tip' → tip' < u32_max →
  (∀ ki f, owned x ki f → fto_spent_by f = None → trusted trust tip (ki, f) → secure x (op_txid (fto_outpoint f))) →
  NoDup lst → (∀ ki f, (ki, f) ∈ lst ↔ owned x ki f ∧ fto_spent_by f = None) → sumN (value_of <$> lst) ≤ u64_max →
  NoDup lst' → (∀ ki f, (ki, f) ∈ lst' ↔ owned x' ki f ∧ fto_spent_by f = None) → sumN (value_of <$> lst') ≤ u64_max →
  ∃ b b' a a', balance (ho (cg_graph (tr_cg x))) x trust = Ret b ∧ balance (ho (cg_graph (tr_cg x'))) x' trust = Ret b' ∧
    trusted_spendable b = Ret a ∧ trusted_spendable b' = Ret a' ∧ a ≤ a'.
Proof. exact (trusted_sum A W s l h x0 x l1 ho sc ord x' cs trust tip tip' lst lst'). Qed.
End props.

(** Without that it can: the change of a transaction that spends a payment still unconfirmed counts
    as trusted, and is gone when the payer takes the payment back. *)
Theorem C111_refuted :
  let _ := ex_env in
  ∃ (A : N → option Desc) W s (h : list (tr_op N TxHeight)) x0 x l1 ho sc ord x' cs trust b b' a a',
  good_env A ∧ ki_hist_ok A s ∧ tr_setup s None = Ret x0 ∧ Forall (tr_op_ok A W s) h ∧ Forall tr_cbt_op h ∧ tr_run x0 h = Ret (x, l1) ∧
  below_max (cg_chain (tr_cg x)) ∧ tr_op_ok A W s (TrUpdate ho sc ord) ∧ tr_cbt_op (TrUpdate ho sc ord) ∧
  tr_apply_update (ho (cg_graph (tr_cg x))) x sc ord = Ret (Ok (x', cs)) ∧ no_reorg x (ks_update sc) ∧ others_only x x' ∧
  balance (ho (cg_graph (tr_cg x))) x trust = Ret b ∧ balance (ho (cg_graph (tr_cg x'))) x' trust = Ret b' ∧
  trusted_spendable b = Ret a ∧ trusted_spendable b' = Ret a' ∧ a' < a.
Proof. exact trusted_refuted. Qed.

(** A payment to the wallet of [tr_h] is double spent: its confirmed output and the change of its own
    transaction are trusted and stay, 690 before and after; the total goes from 5760 to 5690. *)
Example C111_ex :
  let _ := ex_env in
  good_env exA ∧ ki_hist_ok exA tr_s ∧ Forall (tr_op_ok exA tuW tr_s) tr_h ∧ Forall tr_cbt_op tr_h ∧
  tr_op_ok exA tuW tr_s (TrUpdate exho tv_scan tv_ord) ∧ tr_cbt_op (TrUpdate exho tv_scan tv_ord) ∧
  ∃ x0 x l1 x' cs lst lst',
  tr_setup tr_s None = Ret x0 ∧ tr_run x0 tr_h = Ret (x, l1) ∧ below_max (cg_chain (tr_cg x)) ∧
  tr_apply_update (exho (cg_graph (tr_cg x))) x tv_scan tv_ord = Ret (Ok (x', cs)) ∧ no_reorg x tv_upd ∧ others_only x x' ∧
  tip_is x 150 ∧ tip_is x' 160 ∧
  (∀ ki f, owned x ki f → fto_spent_by f = None → trusted (λ k, k =? 1) 150 (ki, f) → secure x (op_txid (fto_outpoint f))) ∧
  NoDup lst ∧ (∀ ki f, (ki, f) ∈ lst ↔ owned x ki f ∧ fto_spent_by f = None) ∧ sumN (value_of <$> lst) = 5760 ∧
  NoDup lst' ∧ (∀ ki f, (ki, f) ∈ lst' ↔ owned x' ki f ∧ fto_spent_by f = None) ∧ sumN (value_of <$> lst') = 5690 ∧
  ts x = Some 690 ∧ ts x' = Some 690.
Proof. exact (conj exA_good (conj tr_s_ok (conj tv_h_ok (conj tr_h_cbt (conj tv_upd_ok (conj tv_upd_cbt tv_hyps)))))). Qed.

Print Assumptions C111_coin_survives.
Print Assumptions C111_balance.
Print Assumptions C111_refuted.
Print Assumptions C111_ex.
