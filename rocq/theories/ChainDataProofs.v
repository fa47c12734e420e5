(** Position types and FullTxOut: proofs. *)
From Verif Require Export ChainDataModel BaseProofs.

Global Existing Instance pos_ord_laws.

Lemma TxHeight_lt_confirmed x y : ord_lt (Confirmed x) (Confirmed y) ↔ x < y.
Proof. apply N.compare_lt_iff. Qed.
Lemma TxHeight_le_confirmed x y : ord_le (Confirmed x) (Confirmed y) ↔ x ≤ y.
Proof. unfold ord_le, ord_cmp, TxHeight_ord. by rewrite N.compare_le_iff. Qed.
Lemma TxHeight_lt_unconfirmed x : ord_lt (Confirmed x) Unconfirmed.
Proof. done. Qed.
Lemma TxHeight_unconfirmed_max x : ord_le x Unconfirmed.
Proof. by destruct x. Qed.
Lemma TxHeight_not_lt_unconf x : ¬ ord_lt Unconfirmed x.
Proof. by destruct x. Qed.
Global Instance TxHeight_ord_laws : OrdLaws TxHeight.
Proof.
  split.
  - intros [x|] [y|]; unfold ord_cmp, TxHeight_ord; try naive_solver.
    rewrite N.compare_eq_iff. naive_solver.
  - intros [x|] [y|]; try done. apply N.compare_antisym.
  - intros [x|] [y|] [z|]; try done. unfold ord_cmp, TxHeight_ord.
    rewrite !N.compare_lt_iff. lia.
Qed.
Lemma CT_cmp_confirmed h1 t1 h2 t2 :
  ord_cmp (CtConfirmed h1 t1) (CtConfirmed h2 t2) = ord_cmp (h1, t1) (h2, t2).
Proof. done. Qed.
Global Instance ConfirmationTime_ord_laws : OrdLaws ConfirmationTime.
Proof.
  split.
  - intros [h1 t1|] [h2 t2|]; try done. rewrite CT_cmp_confirmed, ord_cmp_eq. naive_solver.
  - intros [h1 t1|] [h2 t2|]; try done. rewrite !CT_cmp_confirmed. apply ord_cmp_opp.
  - intros [h1 t1|] [h2 t2|] [h3 t3|]; try done. rewrite !CT_cmp_confirmed. apply ord_cmp_lt_trans.
Qed.

Global Instance TxHeight_position_laws : ChainPositionLaws TxHeight.
Proof.
  split; try apply _; try done; intros; apply ord_le_refl.
Qed.
Lemma CT_lt_confirmed h1 t1 h2 t2 :
  ord_lt (CtConfirmed h1 t1) (CtConfirmed h2 t2) ↔ h1 < h2 ∨ h1 = h2 ∧ t1 < t2.
Proof.
  change (ord_lt (h1, t1) (h2, t2) ↔ h1 < h2 ∨ h1 = h2 ∧ t1 < t2).
  rewrite prod_ord_lt, !N_ord_lt. done.
Qed.
Lemma CT_le_confirmed h1 t1 h2 t2 :
  ord_le (CtConfirmed h1 t1) (CtConfirmed h2 t2) ↔ h1 < h2 ∨ h1 = h2 ∧ t1 ≤ t2.
Proof.
  change (ord_le (h1, t1) (h2, t2) ↔ h1 < h2 ∨ h1 = h2 ∧ t1 ≤ t2).
  rewrite prod_ord_le, N_ord_lt, N_ord_le. done.
Qed.
Global Instance ConfirmationTime_position_laws : ChainPositionLaws ConfirmationTime.
Proof.
  split; try apply _.
  - intros [h t|]; simpl; [tauto|done].
  - intros [h1 t1|] [h2 t2|]; simpl; try done.
    rewrite TxHeight_lt_confirmed, CT_lt_confirmed. auto.
  - by intros [h|].
  - by intros [h|].
  - intros [h|]; simpl; [|done]. intros. split; [done|reflexivity].
  - intros [h|]; simpl; [|done]. intros. split; [done|]. apply N.le_0_l.
  - intros [h t|]; simpl; [|done]. rewrite CT_le_confirmed. intros [? ?]. by right.
  - intros [h t|]; simpl; [|done]. rewrite CT_le_confirmed. intros [? ?]. right. split; [done|lia].
Qed.

Section pos.
Context `{ChainPositionLaws P}.
Implicit Types p q : P.
(** Position order refines height order. *)
Lemma pos_le_height p q : ord_le p q → ord_le (pos_height p) (pos_height q).
Proof.
  intros Hle. apply ord_not_lt. intros Hlt%pos_height_lt.
  apply ord_not_lt in Hle. done.
Qed.
Lemma pos_le_max p h : pos_ok p → ord_le p (pos_max_of h) ↔ ord_le (pos_height p) h.
Proof.
  intros Hok. split.
  - intros Hle%pos_le_height. by rewrite pos_max_height in Hle.
  - rewrite ord_le_lteq. intros [Hlt|Heq].
    + apply ord_lt_le, pos_height_lt. by rewrite pos_max_height.
    + rewrite <- Heq. by apply pos_max_ge.
Qed.
Lemma pos_min_le_iff p h : pos_ok p → ord_le (pos_min_of h) p ↔ ord_le h (pos_height p).
Proof.
  intros Hok. split.
  - intros Hle%pos_le_height. by rewrite pos_min_height in Hle.
  - rewrite ord_le_lteq. intros [Hlt|Heq].
    + apply ord_lt_le, pos_height_lt. by rewrite pos_min_height.
    + rewrite Heq. by apply pos_min_le.
Qed.
Lemma pos_max_lt_iff p h : pos_ok p → ord_lt (pos_max_of h) p ↔ ord_lt h (pos_height p).
Proof. intros Hok. rewrite <- !ord_not_le. by rewrite pos_le_max. Qed.
Lemma pos_lt_min_iff p h : pos_ok p → ord_lt p (pos_min_of h) ↔ ord_lt (pos_height p) h.
Proof. intros Hok. rewrite <- !ord_not_le. by rewrite pos_min_le_iff. Qed.

(** ** Maturity and spendability *)
Implicit Types o : FullTxOut P.
Lemma is_mature_coinbase o c h :
  fto_on_coinbase o = true → pos_height (fto_pos o) = Confirmed c → h - c < u32_max →
  is_mature o h = Ret (bool_decide (c + 99 ≤ h)).
Proof.
  intros Hcb Hc Hlt. unfold is_mature. rewrite Hcb, Hc, bool_decide_false by lia.
  unfold COINBASE_MATURITY.
  destruct (N.ltb_spec (h - c + 1) 100); [rewrite bool_decide_false|rewrite bool_decide_true]; auto; lia.
Qed.
Lemma is_spendable_spec o h :
  (fto_on_coinbase o = true → ∃ c, pos_height (fto_pos o) = Confirmed c ∧ h - c < u32_max) →
  ∃ b, is_spendable_at o h = Ret b ∧
    (b = true ↔
      (∃ c, pos_height (fto_pos o) = Confirmed c ∧ c ≤ h ∧
            (fto_on_coinbase o = true → c + 99 ≤ h)) ∧
      ¬ (∃ p t s, fto_spent_by o = Some (p, t) ∧ pos_height p = Confirmed s ∧ s ≤ h)).
Proof.
  intros Hcb. unfold is_spendable_at.
  assert (Hm: ∃ m, is_mature o h = Ret m ∧
             (m = true ↔ (fto_on_coinbase o = true → ∃ c, pos_height (fto_pos o) = Confirmed c ∧ c + 99 ≤ h))).
  { destruct (fto_on_coinbase o) eqn:E.
    - destruct Hcb as (c & Hc & Hlt); [done|]. rewrite (is_mature_coinbase o c) by done.
      eexists; split; [done|]. rewrite bool_decide_eq_true. rewrite Hc. naive_solver.
    - exists true. unfold is_mature. rewrite E. split; [done|]. naive_solver. }
  destruct Hm as (m & -> & Hm). destruct m.
  - destruct (pos_height (fto_pos o)) as [c|] eqn:Hc.
    + case_bool_decide as Hlt; rewrite TxHeight_lt_confirmed in Hlt.
      * exists false. split; [done|]. split; [done|]. intros [(c' & [= <-] & ? & _) _]. lia.
      * assert (Hmat: ∃ c', Confirmed c = Confirmed c' ∧ c' ≤ h ∧ (fto_on_coinbase o = true → c' + 99 ≤ h)).
        { exists c. split; [done|]. split; [lia|]. intros Ho.
          destruct (proj1 Hm eq_refl Ho) as (? & [= <-] & ?). done. }
        destruct (fto_spent_by o) as [[p t]|].
        -- eexists; split; [done|]. rewrite bool_decide_eq_true.
           destruct (pos_height p) as [s|] eqn:Hs.
           ++ rewrite TxHeight_lt_confirmed. split.
              ** intros Hlts. split; [done|]. intros (p' & t' & s' & [= <- <-] & Hs' & ?). rewrite Hs in Hs'.
                 injection Hs' as <-. lia.
              ** intros [_ Hn]. apply N.lt_nge. intros Hle. apply Hn. eauto 6.
           ++ split; [|done]. intros _. split; [done|]. intros (p' & t' & s' & [= <- <-] & Hs' & _). congruence.
        -- exists true. split; [done|]. split; [|done]. intros _. split; [done|].
           intros (? & ? & ? & [=] & _).
    + rewrite bool_decide_true by apply TxHeight_lt_unconfirmed.
      exists false. split; [done|]. split; [done|]. intros [(c' & [=] & _) _].
  - exists false. split; [done|]. split; [done|]. intros [(c & Hc & Hle & Hcbm) _]. apply Hm. eauto.
Qed.
End pos.
