(** Shared vocabulary: integers, orders, BTree iteration, ranges, panics.
    Everything here models facilities of Rust's [core]/[std] (and of the
    [bitcoin] crate's plain data types) that the code under /repo uses. *)
From stdpp Require Export gmap sorting list.
From Coq Require Export NArith ZArith Lia.

#[global] Open Scope N_scope.

(** ** Integers *)

(** [u32::MAX]; heights, vouts and derivation indices are [u32] in
    bdk_chain/src/sparse_chain.rs:238, chain_data.rs:16.  Values are plain [N];
    well-formedness predicates carry the bound. *)
Definition u32_max : N := 4294967295.
(** [u64::MAX] (chain_data.rs:81 [time: u64], satoshi amounts). *)
Definition u64_max : N := 18446744073709551615.
(** [Txid::from_inner([0xff; 32])], sparse_chain.rs:939-941.  A txid is the
    big-endian number of its 32 bytes (byte-lexicographic [Ord]). *)
Definition max_txid : N := 115792089237316195423570985008687907853269984665640564039457584007913129639935.
(** [Txid::from_inner([0x00; 32])], sparse_chain.rs:935-937. *)
Definition min_txid : N := 0.

Notation Txid := N (only parsing).
Notation BlockHash := N (only parsing).

(** ** Panics *)

(** Result of an operation that can panic: [panic!], [expect], [unreachable!],
    failed [debug_assert!], arithmetic overflow in the debug profile
    (sparse_chain.rs:661, 713-714 and others). *)
Inductive outcome (A : Type) : Type :=
| Ret (a : A)
| Panic.
Global Arguments Ret {_} _.
Global Arguments Panic {_}.
Global Instance outcome_eq_dec `{EqDecision A} : EqDecision (outcome A).
Proof. solve_decision. Defined.
Global Instance outcome_ret : MRet outcome := λ _ a, Ret a.
Global Instance outcome_bind : MBind outcome := λ _ _ f m,
  match m with Ret a => f a | Panic => Panic end.
Global Instance outcome_fmap : FMap outcome := λ _ _ f m,
  match m with Ret a => Ret (f a) | Panic => Panic end.

(** [Result<A, E>] (sparse_chain.rs:429). *)
Inductive result (A E : Type) : Type :=
| Ok (a : A)
| Err (e : E).
Global Arguments Ok {_ _} _.
Global Arguments Err {_ _} _.
Global Instance result_eq_dec `{EqDecision A, EqDecision E} : EqDecision (result A E).
Proof. solve_decision. Defined.

(** ** Orders: Rust's [Ord] *)

(** [Ord::cmp] (sparse_chain.rs:947) *)
Class Ord (A : Type) := ord_cmp : A → A → comparison.
Global Hint Mode Ord ! : typeclass_instances.

(** What Rust's [Ord] documents (required at sparse_chain.rs:947): a total order consistent with [Eq]. *)
Class OrdLaws (A : Type) `{Ord A} : Prop := {
  ord_cmp_eq : ∀ a b : A, ord_cmp a b = Eq ↔ a = b;
  ord_cmp_opp : ∀ a b : A, ord_cmp b a = CompOpp (ord_cmp a b);
  ord_cmp_lt_trans : ∀ a b c : A, ord_cmp a b = Lt → ord_cmp b c = Lt → ord_cmp a c = Lt
}.
Global Hint Mode OrdLaws ! - : typeclass_instances.

(** [<] and [<=] (the ranges of sparse_chain.rs:751, 769, 795) *)
Definition ord_lt `{Ord A} (a b : A) : Prop := ord_cmp a b = Lt.
Definition ord_le `{Ord A} (a b : A) : Prop := ord_cmp a b ≠ Gt.
Global Instance ord_lt_dec `{Ord A} : RelDecision (ord_lt (A:=A)).
Proof. unfold ord_lt. solve_decision. Defined.
Global Instance ord_le_dec `{Ord A} : RelDecision (ord_le (A:=A)).
Proof. unfold ord_le. solve_decision. Defined.

(** [Ord] of [u32], [u64], hashes and scripts (sparse_chain.rs:238-240, spk_txout_index.rs:32) *)
Global Instance N_ord : Ord N := N.compare.
(** Lexicographic [Ord] of tuples (sparse_chain.rs:240). *)
Global Instance prod_ord `{Ord A, Ord B} : Ord (A * B) := λ x y,
  match ord_cmp x.1 y.1 with Eq => ord_cmp x.2 y.2 | c => c end.

(** ** Iterating BTreeMap / BTreeSet *)

(** [BTreeSet::iter]: increasing order (sparse_chain.rs:751, tx_graph.rs:456). *)
Definition bset_list `{Ord A, Countable A} (X : gset A) : list A :=
  merge_sort ord_le (elements X).

(** [BTreeMap::iter]: increasing key order (sparse_chain.rs:400, 905). *)
Definition key_le `{Ord K} {V} (x y : K * V) : Prop := ord_le x.1 y.1.
Global Instance key_le_dec `{Ord K} {V} : RelDecision (key_le (K:=K) (V:=V)).
Proof. unfold key_le. intros x y. apply _. Defined.
Definition bmap_list `{Ord K, Countable K} {V} (m : gmap K V) : list (K * V) :=
  merge_sort key_le (map_to_list m).

(** ** Ranges: [core::ops::Bound], [RangeBounds] *)

(** sparse_chain.rs:214; an element is within both bounds *)
Inductive bound (A : Type) : Type :=
| Incl (a : A)
| Excl (a : A)
| Unb.
Global Arguments Incl {_} _.
Global Arguments Excl {_} _.
Global Arguments Unb {_}.

(** Within the lower, the upper bound (sparse_chain.rs:751, 769, 795) *)
Definition above_lo `{Ord A} (lo : bound A) (x : A) : Prop :=
  match lo with Incl a => ord_le a x | Excl a => ord_lt a x | Unb => True end.
Definition below_hi `{Ord A} (hi : bound A) (x : A) : Prop :=
  match hi with Incl a => ord_le x a | Excl a => ord_lt x a | Unb => True end.
Global Instance above_lo_dec `{Ord A} lo (x : A) : Decision (above_lo lo x).
Proof. destruct lo; simpl; apply _. Defined.
Global Instance below_hi_dec `{Ord A} hi (x : A) : Decision (below_hi hi x).
Proof. destruct hi; simpl; apply _. Defined.

(** [BTreeSet::range]/[BTreeMap::range] (sparse_chain.rs:449, 751, 769, 795) panic when the start is greater than
    the end, or both are equal and excluded. *)
Definition range_bad `{Ord A} (lo hi : bound A) : bool :=
  match lo, hi with
  | Excl a, Excl b => bool_decide (ord_le b a)
  | Incl a, Incl b | Incl a, Excl b | Excl a, Incl b => bool_decide (ord_lt b a)
  | Unb, _ | _, Unb => false
  end.

(** [BTreeSet::range], sparse_chain.rs:751, 769, 795.  Simplification: std skips the start/end check for a set
    that never held an element; here the check is always made. *)
Definition bset_range `{Ord A, Countable A} (X : gset A) (lo hi : bound A) : outcome (list A) :=
  if range_bad lo hi then Panic
  else Ret (filter (λ x, above_lo lo x ∧ below_hi hi x) (bset_list X)).

(** ** Bitcoin data (the [bitcoin] crate's types used by bdk_chain) *)

(** [bitcoin::OutPoint], tx_graph.rs:58, 69 *)
Record OutPoint := mkOutPoint { op_txid : Txid; op_vout : N }.
Global Instance OutPoint_eq_dec : EqDecision OutPoint.
Proof. solve_decision. Defined.
Global Instance OutPoint_countable : Countable OutPoint :=
  inj_countable' (λ o, (op_txid o, op_vout o)) (λ p, mkOutPoint p.1 p.2) ltac:(by intros []).
(** [OutPoint] (a key at tx_graph.rs:69) derives [Ord]: txid first, then vout. *)
Global Instance OutPoint_ord : Ord OutPoint := λ a b,
  ord_cmp (op_txid a, op_vout a) (op_txid b, op_vout b).
(** [OutPoint::null()] / [is_null] (tx_graph.rs:246): zero txid and vout [u32::MAX]. *)
Definition null_outpoint : OutPoint := mkOutPoint 0 u32_max.
Definition op_is_null (o : OutPoint) : bool := bool_decide (o = null_outpoint).

(** Scripts are opaque: only equality matters to bdk_chain. *)
Notation Script := N (only parsing).

(** [bitcoin::TxOut], tx_graph.rs:58, 91 *)
Record TxOut := mkTxOut { txo_value : N; txo_spk : Script }.
Global Instance TxOut_eq_dec : EqDecision TxOut.
Proof. solve_decision. Defined.
Global Instance TxOut_countable : Countable TxOut :=
  inj_countable' (λ o, (txo_value o, txo_spk o)) (λ p, mkTxOut p.1 p.2) ltac:(by intros []).

(** A transaction (tx_graph.rs:58, 90): the parts bdk_chain looks at ([input[..].previous_output],
    [output]) plus [tx_rest] standing for everything else (version, lock time,
    sequences, witnesses).  [Transaction::txid()] is a field: its relation to the
    contents (collision resistance) is a hypothesis of the theorems needing it. *)
Record Tx := mkTx { txid : Txid; tx_in : list OutPoint; tx_out : list TxOut; tx_rest : N }.
Global Instance Tx_eq_dec : EqDecision Tx.
Proof. solve_decision. Defined.
Global Instance Tx_countable : Countable Tx :=
  inj_countable' (λ t, (txid t, tx_in t, tx_out t, tx_rest t))
                 (λ p, mkTx p.1.1.1 p.1.1.2 p.1.2 p.2) ltac:(by intros []).
(** [Transaction::is_coin_base], tx_graph.rs:172: exactly one input, whose outpoint is null. *)
Definition is_coin_base (t : Tx) : bool :=
  match tx_in t with [o] => op_is_null o | _ => false end.
