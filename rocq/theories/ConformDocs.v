(** The examples in the documentation of bdk_chain, run on the model, the position type
    defined there and that of the tests, for which the laws assumed of positions
    ([ChainPositionLaws]) hold, and the two unit tests of sparse_chain.rs. *)
From Verif Require Import ChainDataProofs SparseChainModel TxGraphModel KeychainIndexModel ConformChain ConformGraph ConformKeychain.

(** bdk_chain/src/sparse_chain.rs:160-170 [TxPosition] *)
Inductive TxPosition := TpConfirmed (height position : N) | TpUnconfirmed.
Local Existing Instance test_env.
Global Instance TxPosition_eq_dec : EqDecision TxPosition.
Proof. solve_decision. Defined.
Global Instance TxPosition_countable : Countable TxPosition :=
  inj_countable' (λ x, match x with TpConfirmed h t => Some (h, t) | TpUnconfirmed => None end)
                 (λ x, match x with Some (h, t) => TpConfirmed h t | None => TpUnconfirmed end)
                 ltac:(by intros []).
(** bdk_chain/src/sparse_chain.rs:159 [derive(PartialOrd, Ord)] *)
Global Instance TxPosition_ord : Ord TxPosition := λ a b,
  match a, b with
  | TpConfirmed h1 t1, TpConfirmed h2 t2 => ord_cmp (h1, t1) (h2, t2)
  | TpConfirmed _ _, TpUnconfirmed => Lt
  | TpUnconfirmed, TpConfirmed _ _ => Gt
  | TpUnconfirmed, TpUnconfirmed => Eq
  end.
(** bdk_chain/src/sparse_chain.rs:172-193 *)
Global Instance TxPosition_position : ChainPosition TxPosition := {
  pos_height x := match x with TpConfirmed h _ => Confirmed h | TpUnconfirmed => Unconfirmed end;
  pos_max_of h := match h with Confirmed h => TpConfirmed h u32_max | Unconfirmed => TpUnconfirmed end;
  pos_min_of h := match h with Confirmed h => TpConfirmed h 0 | Unconfirmed => TpUnconfirmed end;
  pos_ok x := match x with TpConfirmed h i => h ≤ u32_max ∧ i ≤ u32_max | TpUnconfirmed => True end
}.

(** It obeys the laws, so every theorem about chains holds for it. *)
Lemma TP_lt h1 t1 h2 t2 :
  ord_lt (TpConfirmed h1 t1) (TpConfirmed h2 t2) ↔ h1 < h2 ∨ h1 = h2 ∧ t1 < t2.
Proof.
  change (ord_lt (h1, t1) (h2, t2) ↔ h1 < h2 ∨ h1 = h2 ∧ t1 < t2).
  rewrite prod_ord_lt, !N_ord_lt. done.
Qed.
Lemma TP_le h1 t1 h2 t2 :
  ord_le (TpConfirmed h1 t1) (TpConfirmed h2 t2) ↔ h1 < h2 ∨ h1 = h2 ∧ t1 ≤ t2.
Proof.
  change (ord_le (h1, t1) (h2, t2) ↔ h1 < h2 ∨ h1 = h2 ∧ t1 ≤ t2).
  rewrite prod_ord_le, N_ord_lt, N_ord_le. done.
Qed.
Global Instance TxPosition_ord_laws : OrdLaws TxPosition.
Proof.
  split.
  - intros [h1 t1|] [h2 t2|]; try done.
    change (ord_cmp (h1, t1) (h2, t2) = Eq ↔ TpConfirmed h1 t1 = TpConfirmed h2 t2).
    rewrite ord_cmp_eq. naive_solver.
  - intros [h1 t1|] [h2 t2|]; try done.
    exact (ord_cmp_opp (h1, t1) (h2, t2)).
  - intros [h1 t1|] [h2 t2|] [h3 t3|]; try done.
    exact (ord_cmp_lt_trans (h1, t1) (h2, t2) (h3, t3)).
Qed.
Global Instance TxPosition_position_laws : ChainPositionLaws TxPosition.
Proof.
  split; try apply _.
  - intros [h t|]; simpl; [tauto|done].
  - intros [h1 t1|] [h2 t2|]; simpl; try done.
    rewrite TxHeight_lt_confirmed, TP_lt. auto.
  - by intros [h|].
  - by intros [h|].
  - intros [h|]; simpl; [|done]. intros. split; [done|reflexivity].
  - intros [h|]; simpl; [|done]. intros. split; [done|]. apply N.le_0_l.
  - intros [h t|]; simpl; [|done]. rewrite TP_le. intros [? ?]. by right.
  - intros [h t|]; simpl; [|done]. rewrite TP_le. intros [? ?]. right. split; [done|lia].
Qed.

(** The position of the tests, bdk_chain/tests/test_sparse_chain.rs:8-23, as well. *)
Global Instance TestIndex_position_laws : ChainPositionLaws TestIndex.
Proof.
  split; try apply _.
  - intros [h i]; simpl; tauto.
  - intros [h1 t1] [h2 t2] Hl. apply (prod_ord_lt (h1, t1) (h2, t2)). by left.
  - done.
  - done.
  - intros h; simpl. intros. split; [done|reflexivity].
  - intros h; simpl. intros. split; [done|]. apply N.le_0_l.
  - intros [h t] [_ ?]. apply (prod_ord_le (h, t) (h, u32_max)). right. split; [done|]. by apply N_ord_le.
  - intros [h t] [_ ?]. apply (prod_ord_le (h, 0) (h, t)). right. split; [done|]. apply N_ord_le, N.le_0_l.
Qed.

(** ** The documentation of sparse_chain.rs *)

(** Applying updates one after the other; an error ends the run. *)
Definition updates (c : SparseChain TxHeight) (us : list (list BlockId)) : option (list (N * BlockHash)) :=
  (λ c, bmap_list (sc_cps c)) <$>
  foldl (λ o u, c ← o; match apply_update c (from_checkpoints u) [] with
                       | Ret (Ok (c', _)) => Some c'
                       | _ => None
                       end) (Some c) us.

(** bdk_chain/src/sparse_chain.rs:14-43 *)
Example doc_updates :
  updates sc_default [[mkBlockId 1 h_a; mkBlockId 2 h_b]; [mkBlockId 2 h_b; mkBlockId 3 h_c]]
  = Some [(1, h_a); (2, h_b); (3, h_c)].
Proof. vm_compute. reflexivity. Qed.

(** bdk_chain/src/sparse_chain.rs:50-85 *)
Example doc_invalid_updates :
  let c := from_checkpoints (P := TxHeight) [mkBlockId 1 h_a; mkBlockId 2 h_b] in
  determine_changeset c (from_checkpoints [mkBlockId 1 h_a; mkBlockId 3 h_c]) [] = Ret (Err (NotConnected 2)) ∧
  determine_changeset c (from_checkpoints [mkBlockId 3 h_c; mkBlockId 4 h_d]) [] = Ret (Err (NotConnected 1)).
Proof. vm_compute. split; reflexivity. Qed.

(** bdk_chain/src/sparse_chain.rs:92-123 *)
Example doc_reorgs :
  updates (from_checkpoints [mkBlockId 11 h_a])
    [[mkBlockId 11 h_b; mkBlockId 12 h_c]; [mkBlockId 11 h_b; mkBlockId 12 h_d]]
  = Some [(11, h_b); (12, h_d)].
Proof. vm_compute. reflexivity. Qed.

(** bdk_chain/src/sparse_chain.rs:195-208 *)
Example doc_custom_position :
  txids <$> chain_of [(10, h_a)] [(1, TpConfirmed 9 4321); (2, TpConfirmed 9 1234); (3, TpConfirmed 10 321)]
  = Some [(TpConfirmed 9 1234, 2); (TpConfirmed 9 4321, 1); (TpConfirmed 10 321, 3)].
Proof. vm_compute. reflexivity. Qed.

(** The check of bdk_chain/src/sparse_chain.rs:969-997, with the heights of the tests. *)
Definition verify_chain_position (P : Type) `{ChainPosition P} (head_count tail_count : nat) : bool :=
  let hs := (N.of_nat <$> seq 0 head_count) ++ ((λ i, u32_max - N.of_nat tail_count + N.of_nat i) <$> seq 0 tail_count) in
  let values : list P := (hs ≫= λ i, [pos_min_of (Confirmed i); pos_max_of (Confirmed i)])
                ++ [pos_min_of Unconfirmed; pos_max_of Unconfirmed] in
  forallb (λ x, x) (imap (λ i vi, forallb (λ x, x) (imap (λ j vj,
    if (i =? j)%nat then bool_decide (vi = vj)
    else if (i <? j)%nat then bool_decide (ord_le vi vj) else bool_decide (ord_le vj vi)) values)) values).
(** bdk_chain/src/sparse_chain.rs:999-1002, with 30 heights at either end instead of 1000 *)
Example verify_tx_height : verify_chain_position TxHeight 30 30 = true.
Proof. vm_compute. reflexivity. Qed.
(** bdk_chain/src/sparse_chain.rs:1004-1007, likewise *)
Example verify_confirmation_time : verify_chain_position ConfirmationTime 30 30 = true.
Proof. vm_compute. reflexivity. Qed.

(** ** The documentation of tx_graph.rs *)

(** bdk_chain/src/tx_graph.rs:36-54 *)
Example doc_graph_update :
  let u := tg_new [tx_of 1 [(9, 0)] [val 5]; tx_of 2 [(1, 0)] [val 4]] in
  let g := apply_additions tg_default (determine_additions tg_default u) in
  ad_is_empty (determine_additions tg_default u) = false ∧ ad_is_empty (tg_apply_update g u).2 = true.
Proof. vm_compute. split; reflexivity. Qed.

(** ** The documentation of keychain/txout_index.rs *)

(** bdk_chain/src/keychain/txout_index.rs:30-56; two keychains have one descriptor there *)
Example doc_keychains :
  (i ← add_keychain ki_default 0 1; i ← add_keychain i 1 2; i ← add_keychain i 42 1;
   '(_, s, _) ← reveal_next_spk i 42; Ret s)
  = Ret (0, spk_at_index 1 0).
Proof. vm_compute. reflexivity. Qed.
