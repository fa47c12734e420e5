(** Concrete chains used to show that theorem hypotheses are satisfiable, and as
    witnesses of refutations. *)
From Verif Require Export SparseChainProofs3.

(** Checking well-formedness of a concrete chain by computation. *)
Global Instance th_ok_dec h : Decision (th_ok h).
Proof. destruct h; simpl; apply _. Defined.
Definition chain_okb (c : SparseChain TxHeight) : bool :=
  bool_decide (sc_ordered c = list_to_set ((λ tp, (tp.2, tp.1)) <$> map_to_list (sc_pos c))) &&
  forallb (λ tp, bool_decide (tp.1 ≤ max_txid ∧ th_ok tp.2)) (map_to_list (sc_pos c)) &&
  forallb (λ hx, bool_decide (hx.1 ≤ u32_max)) (map_to_list (sc_cps c)).
Lemma chain_okb_ok c : chain_okb c = true → chain_ok c.
Proof.
  unfold chain_okb. rewrite !andb_true_iff, !forallb_forall, bool_decide_eq_true.
  intros [[Hv Hp] Hc]. split; [|split].
  - intros p t. rewrite Hv, elem_of_list_to_set, elem_of_list_fmap. split.
    + intros ([t' p'] & [= -> ->] & Hin). by apply elem_of_map_to_list.
    + intros Hin. exists (t, p). split; [done|]. by apply elem_of_map_to_list.
  - intros t p Hin. apply elem_of_map_to_list, elem_of_list_In in Hin. apply Hp in Hin.
    by apply bool_decide_eq_true in Hin.
  - intros h [x Hin]. apply elem_of_map_to_list, elem_of_list_In in Hin. apply Hc in Hin.
    by apply bool_decide_eq_true in Hin.
Qed.
Definition below_maxb (c : SparseChain TxHeight) : bool :=
  forallb (λ tp, match tp.2 with Confirmed h => bool_decide (h < u32_max) | _ => true end) (map_to_list (sc_pos c)) &&
  forallb (λ hx, bool_decide (hx.1 < u32_max)) (map_to_list (sc_cps c)).
Lemma below_maxb_ok c : below_maxb c = true → below_max c.
Proof.
  unfold below_maxb. rewrite !andb_true_iff, !forallb_forall. intros [Hp Hc]. split.
  - intros h [x Hin]. apply elem_of_map_to_list, elem_of_list_In in Hin. apply Hc in Hin.
    by apply bool_decide_eq_true in Hin.
  - intros t p h Hin Hh. apply elem_of_map_to_list, elem_of_list_In in Hin. apply Hp in Hin. simpl in *. subst.
    by apply bool_decide_eq_true in Hin.
Qed.
Lemma agree_at_intro (c u : SparseChain TxHeight) h x :
  sc_cps c !! h = Some x → sc_cps u !! h = Some x → agree_at c u h.
Proof. intros. by exists x. Qed.

(** Checkpoints 0, 5, 10; tx 1 confirmed at 3, tx 2 at 7, tx 3 at 10, tx 4 unconfirmed. *)
Definition exC : SparseChain TxHeight :=
  mkChain {[ 0 := 100; 5 := 105; 10 := 110 ]}
          {[ (Confirmed 3, 1); (Confirmed 7, 2); (Confirmed 10, 3); (Unconfirmed, 4) ]}
          {[ 1 := Confirmed 3; 2 := Confirmed 7; 3 := Confirmed 10; 4 := Unconfirmed ]} None.
(** A reorg replacing block 10 and adding 11; re-mines tx 3 at 11 and confirms tx 4. *)
Definition exU : SparseChain TxHeight :=
  mkChain {[ 5 := 105; 10 := 210; 11 := 211 ]}
          {[ (Confirmed 11, 3); (Confirmed 10, 4) ]}
          {[ 3 := Confirmed 11; 4 := Confirmed 10 ]} None.
(** An update that does not connect: knows nothing about height 10. *)
Definition exU_disc : SparseChain TxHeight :=
  mkChain {[ 5 := 105; 12 := 212 ]} ∅ ∅ None.
(** An update contradicting tx 1's settled position. *)
Definition exU_incons : SparseChain TxHeight :=
  mkChain {[ 5 := 105; 10 := 210 ]} {[ (Confirmed 4, 1) ]} {[ 1 := Confirmed 4 ]} None.

Lemma exC_ok : chain_ok exC. Proof. apply chain_okb_ok. vm_compute. done. Qed.
Lemma exU_ok : chain_ok exU. Proof. apply chain_okb_ok. vm_compute. done. Qed.
Lemma exC_max : below_max exC. Proof. apply below_maxb_ok. vm_compute. done. Qed.
Lemma exU_max : below_max exU. Proof. apply below_maxb_ok. vm_compute. done. Qed.
Definition exOrd : list (Txid * TxHeight) := [(3, Confirmed 11); (4, Confirmed 10)].
Lemma exOrd_ok : exOrd ≡ₚ map_to_list (sc_pos exU).
Proof. vm_compute. apply perm_swap || reflexivity. Qed.

(** ** Witnesses *)
Lemma c07_refuted :
  ∃ (os : list (sc_op TxHeight)) c, Forall sc_op_ok os ∧ sc_run sc_default os = Ret c ∧ ¬ confirmed_below_tip c.
Proof.
  exists [OpInsertCheckpoint (mkBlockId 5 105); OpInsertCheckpoint (mkBlockId 10 110);
          OpInsertTx 1 (Confirmed 7); OpInvalidate 10].
  eexists. split; [|split; [vm_compute; reflexivity|]].
  - repeat constructor; vm_compute; done.
  - intros Hc. destruct (Hc 1 (Confirmed 7) 7) as (k & Hk & Hle); [done..|].
    match type of Hk with is_Some (sc_cps ?c !! _) => assert (tip_height c = Some 5) as Ht by (vm_compute; done) end.
    apply tip_Some in Ht as [_ Hm]. apply Hm in Hk. lia.
Qed.
Lemma c07_limit_refuted :
  ∃ (os : list (sc_op TxHeight)) c, Forall sc_op_ok os ∧ sc_run sc_default os = Ret c ∧
    (∀ h, OpInvalidate h ∉ os) ∧ ¬ confirmed_below_tip c.
Proof.
  exists [OpInsertCheckpoint (mkBlockId 5 105); OpInsertTx 1 (Confirmed 3); OpLimit (Some 0%nat)].
  eexists. split; [|split; [vm_compute; reflexivity|split]].
  - repeat constructor; vm_compute; done.
  - intros h. rewrite !elem_of_cons, elem_of_nil. naive_solver.
  - intros Hc. destruct (Hc 1 (Confirmed 3) 3) as (k & [x Hk] & Hle); [done..|].
    vm_compute in Hk. done.
Qed.
Lemma c08_refuted :
  ∃ (c : SparseChain TxHeight) b x c' cs,
    chain_ok c ∧ below_max c ∧ sc_cps c !! bi_height b = Some x ∧ x ≠ bi_hash b ∧
    insert_checkpoint c b = Ret (Ok (c', cs)) ∧ sc_cps c' !! bi_height b = Some (bi_hash b).
Proof.
  exists exC, (mkBlockId 5 205), 105. do 2 eexists. split; [apply exC_ok|]. split; [apply exC_max|].
  split; [done|]. split; [done|]. split; [vm_compute; reflexivity|]. vm_compute. done.
Qed.
Lemma c13_refuted :
  ∃ (c : SparseChain TxHeight) A B,
    chain_ok c ∧ within_limit c ∧
    sc_cps (apply_changeset c (cs_append A B)) ≠ sc_cps (apply_changeset (apply_changeset c A) B).
Proof.
  exists (mkChain {[ 1 := 101 ]} ∅ ∅ (Some 1%nat)),
         (mkChangeSet {[ 2 := Some 102 ]} ∅), (mkChangeSet {[ 2 := None ]} ∅).
  split; [apply chain_okb_ok; vm_compute; done|]. split.
  - intros n [= <-]. simpl. rewrite map_size_singleton. done.
  - intros E. apply (f_equal (λ m, m !! 1)) in E. vm_compute in E. done.
Qed.
Lemma c06_max_refuted :
  ∃ (c u : SparseChain TxHeight) ord c' cs t p,
    chain_ok c ∧ chain_ok u ∧ ord ≡ₚ map_to_list (sc_pos u) ∧ apply_update c u ord = Ret (Ok (c', cs)) ∧
    sc_pos c !! t = Some p ∧ settled c u p ∧ sc_pos c' !! t ≠ Some p.
Proof.
  exists (mkChain {[ u32_max := 7 ]} {[ (Confirmed u32_max, 1) ]} {[ 1 := Confirmed u32_max ]} None),
         (mkChain {[ u32_max := 7 ]} {[ (Unconfirmed, 1) ]} {[ 1 := Unconfirmed ]} None),
         [(1, Unconfirmed)].
  do 2 eexists. exists 1, (Confirmed u32_max).
  split; [apply chain_okb_ok; vm_compute; done|]. split; [apply chain_okb_ok; vm_compute; done|].
  split; [vm_compute; done|]. split; [vm_compute; reflexivity|].
  split; [done|]. split.
  - exists u32_max. split; [done|]. intros _. exists u32_max. split; [|done]. by exists 7.
  - vm_compute. done.
Qed.
Lemma c17_overflow :
  ∃ (o : FullTxOut TxHeight) h,
    fto_on_coinbase o = true ∧ h ≤ u32_max ∧ th_ok (fto_pos o) ∧ pos_height (fto_pos o) ≠ Unconfirmed ∧
    is_mature o h = Panic.
Proof.
  exists (mkFullTxOut null_outpoint (mkTxOut 1 1) (Confirmed 0) None true), u32_max.
  vm_compute. repeat split; done.
Qed.
