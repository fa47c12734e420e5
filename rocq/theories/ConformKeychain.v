(** The tests of bdk_chain/tests/test_spk_txout_index.rs,
    test_keychain_txout_index.rs and test_keychain_tracker.rs, and the unit test
    of bdk_chain/src/keychain.rs, run on the model. *)
From Verif Require Import TrackerModel ConformChain ConformGraph.

(** ** bdk_chain/tests/test_spk_txout_index.rs *)

(** The two scripts are 101 and 102.
    bdk_chain/tests/test_spk_txout_index.rs:4-56 *)
Definition spk_index2 (a b : N) : SpkIndex N :=
  (si_insert_spk (si_insert_spk si_default a 101).1 b 102).1.
(** bdk_chain/tests/test_spk_txout_index.rs:4-56 *)
Example spk_txout_sent_and_received :
  let x := spk_index2 0 1 in
  let tx1 := mkTx 1 [] [mkTxOut 42000 101] 0 in
  let tx2 := mkTx 2 [mkOutPoint 1 0] [mkTxOut 20000 102; mkTxOut 30000 101] 0 in
  let x' := (si_scan x (tx_txouts tx1)).1 in
  si_sent_and_received x tx1 = Ret (0, 42000) ∧ si_net_value x tx1 = Ret 42000%Z ∧
  si_sent_and_received x' tx1 = Ret (0, 42000) ∧
  si_sent_and_received x' tx2 = Ret (42000, 50000) ∧ si_net_value x' tx2 = Ret 8000%Z.
Proof. vm_compute. repeat split; reflexivity. Qed.

(** bdk_chain/tests/test_spk_txout_index.rs:58-92; what [is_used(1)] says at
    each of the assertions *)
Definition mark_used_run : outcome (list bool) :=
  let x0 := spk_index2 1 2 in
  let x1 := (si_mark_used x0 1).1 in
  r2 ← si_unmark_used x1 1;
  let x2 := r2.1 in
  let x3 := (si_mark_used x2 1).1 in
  let x4 := (si_scan x3 (tx_txouts (mkTx 1 [] [mkTxOut 42000 101] 0))).1 in
  r5 ← si_unmark_used x4 1;
  Ret ((λ x, si_is_used x 1) <$> [x0; x1; x2; x3; (r5 : SpkIndex N * bool).1]).
(** bdk_chain/tests/test_spk_txout_index.rs:58-92 *)
Example mark_used : mark_used_run = Ret [false; true; false; true; true].
Proof. vm_compute. reflexivity. Qed.

(** bdk_chain/tests/test_spk_txout_index.rs:94-101 *)
Definition unmark_run : outcome (list bool * list (N * Script)) :=
  r0 ← si_unmark_used (si_default (Ix := N)) 0;
  r1 ← si_unmark_used r0.1 1;
  r2 ← si_unmark_used r1.1 2;
  l ← si_unused_spks r2.1 Unb Unb;
  Ret ([r0.2; r1.2; r2.2], l).
(** bdk_chain/tests/test_spk_txout_index.rs:94-101 *)
Example unmark_used_does_not_result_in_invalid_representation :
  unmark_run = Ret ([false; false; false], []).
Proof. vm_compute. reflexivity. Qed.

(** ** bdk_chain/tests/test_keychain_txout_index.rs *)

(** The two descriptors with a wildcard are 1 and 2, the one without is 3
    (bdk_chain/tests/test_keychain_txout_index.rs:28-29, 281): each derives
    scripts of its own. *)
Definition test_env : DescEnv := {|
  has_wildcard d := bool_decide (d ≠ 3);
  derive d i := Some (1000000 * d + i)
|}.
Local Existing Instance test_env.
(** bdk_chain/tests/test_keychain_txout_index.rs:14-18: the keychains, in order *)
Definition External : N := 0. Definition Internal : N := 1.
(** bdk_chain/tests/test_keychain_txout_index.rs:37-42 *)
Definition spk_at_index (d i : N) : Script := 1000000 * d + i.
(** bdk_chain/tests/test_keychain_txout_index.rs:20-35 *)
Definition init_txout_index : outcome (KIndex N) :=
  x ← add_keychain ki_default External 1; add_keychain x Internal 2.
(** An index map of bdk_chain/tests/test_keychain_txout_index.rs:47-48 *)
Definition ixs (l : list (N * N)) : gmap N N := foldl (λ m kv, <[kv.1 := kv.2]> m) ∅ l.

(** bdk_chain/tests/test_keychain_txout_index.rs:43-58 *)
Definition set_all_run : outcome (list (gmap N N)) :=
  let to := ixs [(External, 12); (Internal, 24)] in
  x ← init_txout_index;
  '(x1, _, ad1) ← reveal_to_target_multi x to;
  '(_, _, ad2) ← reveal_to_target_multi x1 to;
  Ret [ad1; ki_revealed x1; ad2].
(** bdk_chain/tests/test_keychain_txout_index.rs:43-58 *)
Example test_set_all_derivation_indices :
  let to := ixs [(External, 12); (Internal, 24)] in set_all_run = Ret [to; to; ∅].
Proof. apply by_dec. vm_compute. reflexivity. Qed.

(** bdk_chain/tests/test_keychain_txout_index.rs:60-220: [0..n] as numbers *)
Definition upto (n : nat) : list N := N.of_nat <$> seq 0 n.
(** The first part, bdk_chain/tests/test_keychain_txout_index.rs:65-73 *)
Definition lookahead_start : outcome (KIndex N) :=
  x ← init_txout_index;
  x ← foldl (λ s la, x ← s; set_lookahead x External la) (Ret x) (upto 11);
  foldl (λ s la, x ← s; set_lookahead x Internal la) (Ret x) (filter (λ v, v mod 2 = 0) (upto 21)).
(** The six counts compared in the loops; bdk_chain/tests/test_keychain_txout_index.rs:94-126 *)
Definition counts (x : KIndex N) : outcome (list nat) :=
  re ← revealed_spks_of_keychain x External;
  ri ← revealed_spks_of_keychain x Internal;
  ue ← unused_spks_of_keychain x External;
  ui ← unused_spks_of_keychain x Internal;
  Ret [size (si_spks (ki_inner x)); length (re : list (N * Script)); length (ri : list (N * Script));
       length (ue : list (N * Script)); length (ui : list (N * Script))].
(** One turn of the first loop, bdk_chain/tests/test_keychain_txout_index.rs:83-126:
    the state after it and whether its assertions hold *)
Definition lookahead_turn (x : KIndex N) (i : N) : outcome (KIndex N * bool) :=
  '(x', spks, ad) ← reveal_to_target x External i;
  c ← counts x';
  let n := N.to_nat i in
  Ret (x', bool_decide (spks = [(i, spk_at_index 1 i)]) && bool_decide (ad = ixs [(External, i)]) &&
           bool_decide (c = [10 + 20 + n + 1; n + 1; 0; n + 1; 0]%nat)).
(** The middle part, bdk_chain/tests/test_keychain_txout_index.rs:128-169 *)
Definition lookahead_middle (x : KIndex N) : outcome (KIndex N * bool) :=
  '(x', spks, ad) ← reveal_to_target x Internal 24;
  ri ← revealed_spks_of_keychain x' Internal;
  Ret (x', bool_decide (spks = (λ i, (i, spk_at_index 2 i)) <$> upto 25) &&
           bool_decide (ad = ixs [(Internal, 24)]) &&
           bool_decide (size (si_spks (ki_inner x')) = 10 + 20 + 20 + 25)%nat &&
           bool_decide (length (ri : list (N * Script)) = 25%nat) &&
           bool_decide (last_revealed_index x' External = Some 19) &&
           bool_decide (last_revealed_index x' Internal = Some 24)).
(** One turn of the last loop, bdk_chain/tests/test_keychain_txout_index.rs:176-213 *)
Definition lookahead_scan (x : KIndex N) (i : N) : outcome (KIndex N * bool) :=
  let tx := mkTx (500 + i) [] [mkTxOut 10000 (spk_at_index 1 i); mkTxOut 10000 (spk_at_index 2 (5 + i))] i in
  '(x', ad) ← ki_scan x (tx_txouts tx);
  re ← revealed_spks_of_keychain x' External;
  ri ← revealed_spks_of_keychain x' Internal;
  Ret (x', bool_decide (ad = (∅ : gmap N N)) &&
           bool_decide (last_revealed_index x' External = Some 19) &&
           bool_decide (last_revealed_index x' Internal = Some 24) &&
           bool_decide (length (re : list (N * Script)) = 20%nat) &&
           bool_decide (length (ri : list (N * Script)) = 25%nat)).
(** A loop, stopping with [false] where a turn's assertions fail. *)
Definition turns (f : KIndex N → N → outcome (KIndex N * bool)) (x : KIndex N) (l : list N)
  : outcome (KIndex N * bool) :=
  foldl (λ s i, '(x, b) ← s; '(x', b') ← f x i; Ret (x', b && b')) (Ret (x, true)) l.
(** bdk_chain/tests/test_keychain_txout_index.rs:60-220 *)
Definition lookahead_run : outcome (nat * bool) :=
  x0 ← lookahead_start;
  '(x1, b1) ← turns lookahead_turn x0 (upto 20);
  '(x2, b2) ← lookahead_middle x1;
  '(_, b3) ← turns lookahead_scan x2 (upto 20);
  Ret (size (si_spks (ki_inner x0)), b1 && b2 && b3).
(** bdk_chain/tests/test_keychain_txout_index.rs:60-220 *)
Example test_lookahead : lookahead_run = Ret (30%nat, true).
Proof. vm_compute. reflexivity. Qed.

(** Marking a list of indices, with the answers;
    bdk_chain/tests/test_keychain_txout_index.rs:222-279 *)
Definition mark_all (x : KIndex N) (l : list N) : KIndex N * list bool :=
  foldl (λ s i, let r := ki_mark_used s.1 External i in (r.1, s.2 ++ [r.2])) (x, []) l.
(** bdk_chain/tests/test_keychain_txout_index.rs:222-279 *)
Definition wildcard_run :=
  x ← init_txout_index;
  n0 ← next_index x External;
  '(x1, s1, c1) ← reveal_next_spk x External;
  '(x2, s2, c2) ← next_unused_spk x1 External;
  '(x3, _, _) ← reveal_to_target x2 External 25;
  let '(x4, marks) := mark_all x3 (upto 16 ++ [17; 20; 23]) in
  n4 ← next_index x4 External;
  '(x5, s5, c5) ← reveal_next_spk x4 External;
  '(x6, s6, c6) ← next_unused_spk x5 External;
  let '(x7, _) := mark_all x6 (upto 27) in
  '(_, s8, c8) ← next_unused_spk x7 External;
  Ret ([n0; n4], forallb id marks, [s1; s2; s5; s6; s8], [c1; c2; c5; c6; c8]).
(** bdk_chain/tests/test_keychain_txout_index.rs:222-279 *)
Example test_wildcard_derivations :
  wildcard_run =
  Ret ([(0, true); (26, true)], true,
       (λ i, (i, spk_at_index 1 i)) <$> [0; 0; 26; 16; 27],
       [ixs [(External, 0)]; ∅; ixs [(External, 26)]; ∅; ixs [(External, 27)]]).
Proof. apply by_dec. vm_compute. reflexivity. Qed.

(** bdk_chain/tests/test_keychain_txout_index.rs:281-328,
    with the functions that reveal and reserve as parameters: the same calls in
    the same order are :459-506 *)
Definition non_wildcard_run
  (reveal unused : KIndex N → N → outcome (KIndex N * (N * Script) * gmap N N)) :=
  x ← add_keychain ki_default External 3;
  n0 ← next_index x External;
  '(x1, s1, c1) ← reveal x External;
  '(x2, s2, c2) ← unused x1 External;
  n2 ← next_index x2 External;
  let x3 := (ki_mark_used x2 External 0).1 in
  '(x4, s4, c4) ← reveal x3 External;
  '(x5, s5, c5) ← unused x4 External;
  '(_, l, c6) ← reveal_to_target x5 External 200;
  Ret ([n0; n2], [s1; s2; s4; s5], [c1; c2; c4; c5; c6], length (l : list (N * Script))).
(** bdk_chain/tests/test_keychain_txout_index.rs:281-328 *)
Example test_non_wildcard_derivations :
  let s := (0, spk_at_index 3 0) in
  non_wildcard_run reveal_next_spk next_unused_spk =
  Ret ([(0, true); (0, false)], [s; s; s; s], [ixs [(External, 0)]; ∅; ∅; ∅; ∅], 0%nat).
Proof. apply by_dec. vm_compute. reflexivity. Qed.
(** bdk_chain/tests/test_keychain_txout_index.rs:459-506 *)
Example test_non_wildcard_reserve_spk_functions :
  let s := (0, spk_at_index 3 0) in
  non_wildcard_run reveal_and_reserve_next_spk reserve_next_unused_spk =
  Ret ([(0, true); (0, false)], [s; s; s; s], [ixs [(External, 0)]; ∅; ∅; ∅; ∅], 0%nat).
Proof. apply by_dec. vm_compute. reflexivity. Qed.

(** bdk_chain/tests/test_keychain_txout_index.rs:330-402 *)
Definition wildcard_reserve_run :=
  x ← init_txout_index;
  n0 ← next_index x External;
  '(x1, s1, c1) ← reveal_and_reserve_next_spk x External;
  '(x2, s2, c2) ← reserve_next_unused_spk x1 External;
  '(x3, _, _) ← reveal_to_target x2 External 25;
  let '(x4, marks) := mark_all x3 (drop 2 (upto 16) ++ [17; 20; 23]) in
  n4 ← next_index x4 External;
  '(x5, s5, c5) ← reserve_next_unused_spk x4 External;
  '(x6, s6, c6) ← next_unused_spk x5 External;
  '(x7, s7, c7) ← reserve_next_unused_spk x6 External;
  '(x8, s8, c8) ← next_unused_spk x7 External;
  let '(x9, _) := mark_all x8 (upto 26) in
  '(x10, s10, c10) ← reveal_and_reserve_next_spk x9 External;
  '(_, s11, c11) ← reserve_next_unused_spk x10 External;
  Ret ([n0; n4], forallb id marks, [s1; s2; s5; s6; s7; s8; s10; s11], [c1; c2; c5; c6; c7; c8; c10; c11]).
(** bdk_chain/tests/test_keychain_txout_index.rs:330-402 *)
Example test_wildcard_reserve_spk_functions :
  wildcard_reserve_run =
  Ret ([(0, true); (26, true)], true,
       (λ i, (i, spk_at_index 1 i)) <$> [0; 1; 16; 18; 18; 19; 26; 27],
       [ixs [(External, 0)]; ixs [(External, 1)]; ∅; ∅; ∅; ∅; ixs [(External, 26)]; ixs [(External, 27)]]).
Proof. apply by_dec. vm_compute. reflexivity. Qed.

(** bdk_chain/tests/test_keychain_txout_index.rs:404-457 *)
Definition reserve_case (c : N * list N) : outcome ((N * Script) * (N * Script)) :=
  x ← init_txout_index;
  '(x1, _, _) ← reveal_to_target x External c.1;
  '(x2, s2, _) ← reveal_and_reserve_next_spk (mark_all x1 c.2).1 External;
  '(_, s3, _) ← reserve_next_unused_spk x2 External;
  Ret (s2, s3).
(** bdk_chain/tests/test_keychain_txout_index.rs:404-457 *)
Example test_wildcard_reserve_spk_functions2 :
  let ans i j := Ret ((i, spk_at_index 1 i), (j, spk_at_index 1 j)) in
  reserve_case <$> [(10, [0; 1; 5; 6]); (15, [0]); (5, upto 6); (0, [0]); (0, [])] =
  [ans 11 2; ans 16 1; ans 6 7; ans 1 2; ans 1 0].
Proof. vm_compute. reflexivity. Qed.

(** ** The unit test of bdk_chain/src/keychain.rs *)

(** bdk_chain/src/keychain.rs:276-309; the keychains One to Four are 1 to 4 *)
Example append_keychain_derivation_indices :
  da_append (ixs [(1, 7); (2, 0); (3, 3)]) (ixs [(1, 3); (2, 5); (4, 4)]) =
  ixs [(1, 7); (2, 5); (3, 3); (4, 4)].
Proof. apply by_dec. vm_compute. reflexivity. Qed.

(** ** bdk_chain/tests/test_keychain_tracker.rs *)

(** Unwrapping a result of a tracker operation; an error ends the run here. *)
Definition unwrap {A E : Type} (m : outcome (result A E)) : outcome A :=
  match m with Ret (Ok a) => Ret a | _ => Panic end.

(** bdk_chain/tests/test_keychain_tracker.rs:14-59; the keychain is [0] *)
Definition it_tx : Tx := mkTx 77 [] [mkTxOut 100000 (spk_at_index 1 5)] 0.
(** bdk_chain/tests/test_keychain_tracker.rs:14-59 *)
Definition insert_tx_run : outcome (list (ConfirmationTime * Tx) * list (N * OutPoint)) :=
  x0 ← tr_add_keychain (tr_default (K := N) (P := ConfirmationTime)) 0 1;
  '(i, _, _) ← reveal_to_target (tr_index x0) 0 5;
  let x := mkTr i (tr_cg x0) in
  cs ← unwrap (tr_insert_tx_preview (spenders (cg_graph (tr_cg x))) x it_tx CtUnconfirmed);
  x' ← tr_apply_changeset x cs;
  l ← transactions_in_chain (tr_cg x');
  o ← txouts_of_keychain (tr_index x') 0;
  Ret (l, o).
(** bdk_chain/tests/test_keychain_tracker.rs:14-59 *)
Example test_insert_tx :
  insert_tx_run = Ret ([(CtUnconfirmed, it_tx)], [(5, mkOutPoint (txid it_tx) 0)]).
Proof. vm_compute. reflexivity. Qed.

(** bdk_chain/tests/test_keychain_tracker.rs:61-243 *)
Local Notation Tr := (Tracker N TxHeight).
(** The wallet's steps there: revealing an address, a checkpoint, a transaction. *)
Definition tr_reveal (x : Tr) (k : N) : outcome (Tr * Script) :=
  '(i, s, _) ← reveal_next_spk (tr_index x) k; Ret (mkTr i (tr_cg x), s.2).
(** bdk_chain/tests/test_keychain_tracker.rs:61-243 *)
Definition tr_put (x : Tr) (t : Tx) (p : TxHeight) : outcome Tr :=
  r ← unwrap (tr_insert_tx (spenders (cg_graph (tr_cg x))) x t p); Ret r.1.
(** bdk_chain/tests/test_keychain_tracker.rs:61-243 *)
Definition tr_cp (x : Tr) (h hash : N) : outcome Tr :=
  r ← unwrap (tr_insert_checkpoint x (mkBlockId h hash)); Ret r.1.
(** [tracker.balance(should_trust)]: keychain One is 1, Two is 2 and trusted *)
Definition tr_bal (x : Tr) : outcome Balance :=
  balance (spenders (cg_graph (tr_cg x))) x (λ k, bool_decide (k = 2)).
(** bdk_chain/tests/test_keychain_tracker.rs:61-243 *)
Definition balance_run : outcome (list Balance * list N) :=
  x ← tr_add_keychain (tr_default (K := N) (P := TxHeight)) 1 1;
  x ← tr_add_keychain x 2 2;
  '(x, s1) ← tr_reveal x 1;
  '(x, s2) ← tr_reveal x 2;
  '(x, s3) ← tr_reveal x 2;
  let tx1 := mkTx 71 [] [mkTxOut 13000 s1] 0 in
  let tx2 := mkTx 72 [] [mkTxOut 7000 s2] 0 in
  let cb := mkTx 73 [null_outpoint] [mkTxOut 11000 s3] 0 in
  x1 ← tr_cp x 5 1; b1 ← tr_bal x1;
  x2 ← tr_put x1 tx1 Unconfirmed; b2 ← tr_bal x2;
  x3 ← tr_put x2 tx2 Unconfirmed; b3 ← tr_bal x3;
  x4 ← tr_put x3 cb (Confirmed 0); b4 ← tr_bal x4;
  x5 ← tr_put x4 tx1 (Confirmed 1); b5 ← tr_bal x5;
  x6 ← tr_put x5 tx2 (Confirmed 2); b6 ← tr_bal x6;
  x7 ← tr_cp x6 98 98; b7 ← tr_bal x7;
  x8 ← tr_cp x7 99 99; b8 ← tr_bal x8;
  let at_ h := balance_at (spenders (cg_graph (tr_cg x8))) x8 h in
  a0 ← at_ 0; a1 ← at_ 1; a2 ← at_ 2; a98 ← at_ 98; a99 ← at_ 99; a100 ← at_ 100;
  Ret ([b1; b2; b3; b4; b5; b6; b7; b8], [a0; a1; a2; a98; a99; a100]).
(** bdk_chain/tests/test_keychain_tracker.rs:61-243; immature, trusted
    pending, untrusted pending, confirmed *)
Example test_balance :
  balance_run =
  Ret ([mkBalance 0 0 0 0; mkBalance 0 0 13000 0; mkBalance 0 7000 13000 0; mkBalance 11000 7000 13000 0;
        mkBalance 11000 7000 0 13000; mkBalance 11000 0 0 20000; mkBalance 11000 0 0 20000;
        mkBalance 0 0 0 31000],
       [0; 13000; 20000; 20000; 31000; 31000]).
Proof. vm_compute. reflexivity. Qed.
