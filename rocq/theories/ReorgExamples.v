(** A wallet none of whose scripts is used until the chain is reorganised. *)
From Verif Require Export ScanExamples ElectrumProofs7.

Definition ex_none : World :=
  {| w_tip := 6; w_block := N.add 50; w_height _ := None; w_history _ := []; w_tx _ := None |}.
(** used afterwards: the second and the third script *)
Definition ex_row : list (N * Script) := [(0, 100); (1, 22); (2, 30); (3, 101)].
Lemma ex_none_ok : world_ok ex_none.
Proof. split; try done; intros s t; by intros ?%elem_of_nil. Qed.
Lemma ex_none_reorg n0 :
  (∀ n, (n < n0)%nat → electrum_honest ex_none (reorg n0 ex_none ex_tip_gone n)) ∧
  (∀ n, (n0 ≤ n)%nat → electrum_honest ex_tip_gone (reorg n0 ex_none ex_tip_gone n)).
Proof.
  unfold reorg. split; intros n Hn; destruct (Nat.ltb_spec n n0); try lia.
  - apply honest_honest. by intros s t ?%elem_of_nil.
  - by apply ex_world_honest.
Qed.
(** asked one by one, the used scripts are found whenever the reorganisation comes *)
Lemma ex_row_found :
  show (scan true (reorg 3 ex_none ex_tip_gone) 3 ∅ {[ 0 := ex_row ]} [] [] 1 1 0%nat) =
    Some (10%nat, [(6, 99)], [(8, Confirmed 5); (9, Unconfirmed)], [(0, 2)]) ∧
  show (scan true (reorg 3 ex_none ex_tip_gone) 3 ∅ {[ 0 := [(0, 22); (1, 100)] ]} [] [] 1 1 0%nat) =
    Some (8%nat, [(6, 99)], [(9, Unconfirmed)], [(0, 0)]).
Proof. split; vm_compute; reflexivity. Qed.
Lemma ex_row_hyps : world_ok ex_none ∧ world_ok ex_tip_gone ∧ w_block ex_tip_gone (w_tip ex_none) ≠ w_block ex_none (w_tip ex_none) ∧
  StronglySorted N.lt ex_row.*1 ∧ activity ex_none ex_row ≠ activity ex_tip_gone ex_row ∧ found_index ex_tip_gone 1 ex_row 2.
Proof.
  split; [exact ex_none_ok|]. split; [exact (proj1 (proj2 ex_reorg_worlds_ok))|]. split; [done|].
  split; [repeat constructor; done|]. split; [done|]. exists 2%nat, 30. split; [done|].
  split; [done|]. intros (s & Hs & Hall). assert (s = 0%nat) as -> by lia.
  assert (activity ex_tip_gone ex_row !! 1%nat = Some false) as Hx by (apply Hall; lia). by vm_compute in Hx.
Qed.
