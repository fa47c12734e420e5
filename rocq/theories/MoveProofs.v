(** Proofs of the movement rules. *)
From Verif Require Export MoveSpec.
From Verif Require Import SparseChainProofs3.

Section proofs.
Context `{ChainPositionLaws P}.
Implicit Types (c u : SparseChain P).

Lemma reorg_at_first c u f :
  first_invalid c u f → is_Some (sc_cps u !! f) → reorg_at c u f.
Proof.
  intros (_ & [b Hb] & Hab & _) [b' Hb']. split; [done|]. exists b, b'.
  split; [done|]. split; [done|]. intros <-.
  assert (f < f) as Hf; [|lia]. apply Hab. exists b. done.
Qed.

Lemma first_invalid_exists c u k :
  below_max c → update_reaches_beyond c u → is_Some (sc_cps c !! k) → above_agreement c u k →
  ∃ f, first_invalid c u f.
Proof.
  intros Hbm Hr [x Hk] Hab. destruct (invalid_from c u) as [f|] eqn:E.
  { exists f. by apply invalid_from_Some. }
  exfalso. unfold invalid_from in E.
  assert ((k, x) ∈ filter (λ kv : N * BlockHash, invalid_lb c u ≤ kv.1) (bmap_list (sc_cps c))) as Hin.
  { apply elem_of_list_filter. split; [by apply (invalid_lb_yes c u k Hr)|]. by apply elem_of_bmap_list. }
  destruct (filter _ _) as [|y l]; [by apply not_elem_of_nil in Hin|done].
Qed.

(** Not settled means: may move. *)
Lemma may_move_iff c u t p :
  below_max c → confirmed_below_tip c → connects c u → sc_pos c !! t = Some p →
  may_move c u p ↔ ¬ settled c u p.
Proof.
  intros Hbm Hcb Hcon Hp. unfold may_move, settled. destruct (pos_height p) as [h|] eqn:Eh.
  - split.
    + intros ((x & Hx & b & b' & _ & Hu & _) & Hab) (h' & [= <-] & Hs).
      destruct Hs as (a & Ha & Hle). { exists x. eauto. }
      apply Hab in Ha. lia.
    + intros Hs. destruct (Hcb t p h Hp Eh) as (k & Hk & Hle).
      assert (update_reaches_beyond c u) as Hr.
      { destruct (decide (update_reaches_beyond c u)) as [|Hno]; [done|]. destruct Hs.
        exists h. split; [done|]. by intros ?. }
      assert (above_agreement c u h) as Hab.
      { intros a Ha. apply N.lt_nge. intros Hge. apply Hs. exists h. split; [done|]. eauto. }
      split; [|done].
      destruct (first_invalid_exists c u k Hbm Hr Hk) as [f Hf].
      { intros a Ha. apply Hab in Ha. lia. }
      exists f. apply reorg_at_first; auto.
  - split; [|done]. intros _ (h & [=] & _).
Qed.

Lemma movement_rules c u ord :
  chain_ok c → below_max c → confirmed_below_tip c → ord ≡ₚ map_to_list (sc_pos u) → connects c u →
  (∃ cs, determine_changeset c u ord = Ret (Ok cs)) ↔
  (∀ t p q, sc_pos c !! t = Some p → sc_pos u !! t = Some q → q ≠ p → may_move c u p).
Proof.
  intros Hok Hbm Hcb Hord Hcon. rewrite determine_accepted by done. split.
  - intros [_ Hs] t p q Hp Hq Hne. apply (may_move_iff c u t p); [done..|].
    intros Hst. destruct Hne. symmetry. by apply (Hs t p q).
  - intros Hm. split; [done|]. intros t p q Hq Hp Hst.
    destruct (decide (q = p)) as [|Hne]; [done|].
    apply (may_move_iff c u t p) in Hst; [done..|]. by apply (Hm t p q).
Qed.

Lemma moves_only_in_reorg c u ord c' cs t p h :
  chain_ok c → below_max c → confirmed_below_tip c → ord ≡ₚ map_to_list (sc_pos u) →
  apply_update c u ord = Ret (Ok (c', cs)) →
  sc_pos c !! t = Some p → pos_height p = Confirmed h → sc_pos c' !! t ≠ Some p →
  reorganised c u h.
Proof.
  intros Hok Hbm Hcb Hord Hap Hp Hh Hne.
  assert (connects c u) as Hcon.
  { unfold apply_update in Hap. destruct (determine_changeset c u ord) as [[cs'|]|] eqn:E; try done.
    assert (∃ cs, determine_changeset c u ord = Ret (Ok cs)) as Hd by eauto.
    apply determine_accepted in Hd as [Hd _]; done. }
  assert (may_move c u p) as Hm.
  { apply (may_move_iff c u t p); [done..|]. intros Hs. apply Hne.
    by apply (settled_survives c u ord c' cs t p). }
  unfold may_move in Hm. by rewrite Hh in Hm.
Qed.
End proofs.
