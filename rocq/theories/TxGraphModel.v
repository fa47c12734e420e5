(** Model of bdk_chain/src/tx_graph.rs, with the type parameter [T] fixed to the
    modelled transaction type [Tx] of Base.v. *)
From Verif Require Export Base.

(** [bitcoin::Transaction] derives [Ord]; [Additions::tx] (tx_graph.rs:456) is a [BTreeSet] in that
    order.  The order used here is that of the [Countable] code; the proofs use
    only that iterating the set lists each element once. *)
Global Instance Tx_ord : Ord Tx := λ a b, Pos.compare (encode a) (encode b).

(** tx_graph.rs:89-92 *)
Inductive TxNode :=
| Whole (t : Tx)
| Partial (outs : gmap N TxOut).
Global Instance TxNode_eq_dec : EqDecision TxNode.
Proof. solve_decision. Defined.

(** tx_graph.rs:67-75.  [empty_outspends] (a constant) is left out. *)
Record TxGraph := mkGraph {
  tg_txs : gmap Txid TxNode;
  tg_spends : gmap OutPoint (gset Txid)
}.

(** tx_graph.rs:455-458 *)
Record Additions := mkAdditions {
  ad_tx : gset Tx;
  ad_txout : gmap OutPoint TxOut
}.

(** tx_graph.rs:76-84 *)
Definition tg_default : TxGraph := mkGraph ∅ ∅.
(** tx_graph.rs:494-501 *)
Definition ad_default : Additions := mkAdditions ∅ ∅.
(** tx_graph.rs:462-464 *)
Definition ad_is_empty (a : Additions) : bool := bool_decide (ad_tx a = ∅ ∧ ad_txout a = ∅).

(** tx_graph.rs:108-109, 153-154: [iter().enumerate()] with [vout as u32]: an output list has fewer than 2^32
    entries, so the cast is the identity. *)
Definition enum_outs (l : list TxOut) : list (N * TxOut) := imap (λ k x, (N.of_nat k, x)) l.

(** tx_graph.rs:102-117, the outputs of one node *)
Definition node_txouts (i : Txid) (n : TxNode) : list (OutPoint * TxOut) :=
  match n with
  | Whole t => (λ kx, (mkOutPoint i kx.1, kx.2)) <$> enum_outs (tx_out t)
  | Partial m => (λ kx, (mkOutPoint i kx.1, kx.2)) <$> bmap_list m
  end.
(** tx_graph.rs:102-117.  The hash map is iterated in [map_to_list] order; only
    membership in the result is used by callers. *)
Definition all_txouts (g : TxGraph) : list (OutPoint * TxOut) :=
  map_to_list (tg_txs g) ≫= λ kn, node_txouts kn.1 kn.2.

(** tx_graph.rs:120-125, same remark on the order *)
Definition full_transactions (g : TxGraph) : list Tx :=
  omap (λ kn, match kn.2 with Whole t => Some t | Partial _ => None end) (map_to_list (tg_txs g)).

(** tx_graph.rs:131-136 *)
Definition get_tx (g : TxGraph) (i : Txid) : option Tx :=
  match tg_txs g !! i with Some (Whole t) => Some t | _ => None end.

(** tx_graph.rs:139-144 *)
Definition get_txout (g : TxGraph) (o : OutPoint) : option TxOut :=
  match tg_txs g !! op_txid o with
  | Some (Whole t) => tx_out t !! N.to_nat (op_vout o)
  | Some (Partial m) => m !! op_vout o
  | None => None
  end.

(** tx_graph.rs:147-162 *)
Definition txouts (g : TxGraph) (i : Txid) : option (gmap N TxOut) :=
  match tg_txs g !! i with
  | Some (Whole t) => Some (list_to_map (enum_outs (tx_out t)))
  | Some (Partial m) => Some m
  | None => None
  end.

(** [v as i64], tx_graph.rs:180, 187 *)
Definition as_i64 (v : N) : Z :=
  if (v <? 9223372036854775808)%N then Z.of_N v else (Z.of_N v - 18446744073709551616)%Z.
(** [i64 + i64] in the debug profile, tx_graph.rs:182, 188 *)
Definition add_i64 (a b : Z) : outcome Z :=
  let s := (a + b)%Z in
  if (bool_decide (-9223372036854775808 ≤ s ∧ s ≤ 9223372036854775807)%Z) then Ret s else Panic.
(** [Iterator::sum] for [Option<i64>], tx_graph.rs:182: stops at the first [None]. *)
Fixpoint sum_opt (acc : Z) (l : list (option Z)) : outcome (option Z) :=
  match l with
  | [] => Ret (Some acc)
  | None :: _ => Ret None
  | Some v :: l => match add_i64 acc v with Ret s => sum_opt s l | Panic => Panic end
  end.
(** [Iterator::sum] for [i64], tx_graph.rs:188 *)
Fixpoint sum_i64 (acc : Z) (l : list Z) : outcome Z :=
  match l with
  | [] => Ret acc
  | v :: l => match add_i64 acc v with Ret s => sum_i64 s l | Panic => Panic end
  end.
(** tx_graph.rs:171-191 *)
Definition calculate_fee (g : TxGraph) (t : Tx) : outcome (option Z) :=
  if is_coin_base t then Ret (Some 0%Z) else
  match sum_opt 0 ((λ o, (λ x, as_i64 (txo_value x)) <$> get_txout g o) <$> tx_in t) with
  | Panic => Panic
  | Ret None => Ret None
  | Ret (Some ins) =>
      match sum_i64 0 ((λ x, as_i64 (txo_value x)) <$> tx_out t) with
      | Panic => Panic
      | Ret outs => match add_i64 ins (- outs) with Ret d => Ret (Some d) | Panic => Panic end
      end
  end.

(** tx_graph.rs:247-249: [spends.entry(outpoint).or_default().insert(txid)] *)
Definition add_spend (i : Txid) (m : gmap OutPoint (gset Txid)) (o : OutPoint) : gmap OutPoint (gset Txid) :=
  <[o := {[ i ]} ∪ default ∅ (m !! o)]> m.
(** tx_graph.rs:238-258, loop body.  The [debug_assert_eq!] compares the txid of
    the replaced node with its key; that they agree is theorem [C18_keyed]. *)
Definition apply_tx (g : TxGraph) (t : Tx) : TxGraph :=
  mkGraph (<[txid t := Whole t]> (tg_txs g))
          (foldl (add_spend (txid t)) (tg_spends g) (filter (λ o, op_is_null o = false) (tx_in t))).
(** tx_graph.rs:260-273, loop body *)
Definition apply_txout (m : gmap Txid TxNode) (kv : OutPoint * TxOut) : gmap Txid TxNode :=
  match m !! op_txid kv.1 with
  | Some (Whole _) => m
  | Some (Partial outs) => <[op_txid kv.1 := Partial (<[op_vout kv.1 := kv.2]> outs)]> m
  | None => <[op_txid kv.1 := Partial {[ op_vout kv.1 := kv.2 ]}]> m
  end.
(** tx_graph.rs:237-274 *)
Definition apply_additions (g : TxGraph) (a : Additions) : TxGraph :=
  let g := foldl apply_tx g (bset_list (ad_tx a)) in
  mkGraph (foldl apply_txout (tg_txs g) (bmap_list (ad_txout a))) (tg_spends g).

(** tx_graph.rs:299-307: the partial outputs of one update node that differ *)
Definition new_txouts (g : TxGraph) (i : Txid) (outs : gmap N TxOut) (m : gmap OutPoint TxOut) : gmap OutPoint TxOut :=
  foldl (λ m kx, if bool_decide (get_txout g (mkOutPoint i kx.1) = Some kx.2) then m
                 else <[mkOutPoint i kx.1 := kx.2]> m) m (bmap_list outs).
(** tx_graph.rs:286-309, loop body *)
Definition add_node (g : TxGraph) (a : Additions) (kn : Txid * TxNode) : Additions :=
  match get_tx g kn.1 with
  | Some _ => a
  | None =>
      match kn.2 with
      | Whole t => mkAdditions ({[ t ]} ∪ ad_tx a) (ad_txout a)
      | Partial outs => mkAdditions (ad_tx a) (new_txouts g kn.1 outs (ad_txout a))
      end
  end.
(** tx_graph.rs:280-312.  [ord] is the iteration order of the hash map
    [update.txs]; theorem [C20_order_irrelevant] shows it does not matter. *)
Definition determine_additions_ord (g : TxGraph) (ord : list (Txid * TxNode)) : Additions :=
  foldl (add_node g) ad_default ord.
(** tx_graph.rs:280-312 *)
Definition determine_additions (g u : TxGraph) : Additions :=
  determine_additions_ord g (map_to_list (tg_txs u)).

(** tx_graph.rs:318-322 *)
Definition tg_insert_tx_preview (g : TxGraph) (t : Tx) : Additions :=
  determine_additions g (mkGraph {[ txid t := Whole t ]} ∅).
(** tx_graph.rs:329-336 *)
Definition tg_insert_txout_preview (g : TxGraph) (o : OutPoint) (x : TxOut) : Additions :=
  determine_additions g (mkGraph {[ op_txid o := Partial {[ op_vout o := x ]} ]} ∅).
(** tx_graph.rs:217-221 *)
Definition tg_insert_tx (g : TxGraph) (t : Tx) : TxGraph * Additions :=
  let a := tg_insert_tx_preview g t in (apply_additions g a, a).
(** tx_graph.rs:208-212 *)
Definition tg_insert_txout (g : TxGraph) (o : OutPoint) (x : TxOut) : TxGraph * Additions :=
  let a := tg_insert_txout_preview g o x in (apply_additions g a, a).
(** tx_graph.rs:228-234 *)
Definition tg_apply_update (g u : TxGraph) : TxGraph * Additions :=
  let a := determine_additions g u in (apply_additions g a, a).
(** tx_graph.rs:196-202 *)
Definition tg_new (l : list Tx) : TxGraph := foldl (λ g t, (tg_insert_tx g t).1) tg_default l.

(** tx_graph.rs:344-346 *)
Definition outspends (g : TxGraph) (o : OutPoint) : gset Txid := default ∅ (tg_spends g !! o).
(** tx_graph.rs:354-368 and :635-637: the range covers every [u32] vout *)
Definition tx_outspends (g : TxGraph) (i : Txid) : list (N * gset Txid) :=
  (λ os, (op_vout os.1, os.2)) <$> filter (λ os, op_txid os.1 = i) (bmap_list (tg_spends g)).
(** tx_graph.rs:371-376, order as in [all_txouts] *)
Definition partial_transactions (g : TxGraph) : list (Txid * gmap N TxOut) :=
  omap (λ kn, match kn.2 with Whole _ => None | Partial m => Some (kn.1, m) end) (map_to_list (tg_txs g)).

(** tx_graph.rs:415-426.  [ho] gives the iteration order of each spender set. *)
Definition direct_conflicts_of_tx (ho : OutPoint → list Txid) (g : TxGraph) (t : Tx) : list (nat * Txid) :=
  filter (λ c, c.2 ≠ txid t)
    (imap (λ vin o, (vin, o)) (tx_in t) ≫= λ vo,
       match tg_spends g !! vo.2 with Some _ => (λ s, (vo.1, s)) <$> ho vo.2 | None => [] end).

(** tx_graph.rs:429-431 *)
Definition tg_is_empty (g : TxGraph) : bool := bool_decide (tg_txs g = ∅).

(** tx_graph.rs:467-481 *)
Definition ad_txouts (a : Additions) : list (OutPoint * TxOut) :=
  (bset_list (ad_tx a) ≫= λ t, (λ kx, (mkOutPoint (txid t) kx.1, kx.2)) <$> enum_outs (tx_out t))
  ++ bmap_list (ad_txout a).
(** tx_graph.rs:485-491 *)
Definition ad_append (a b : Additions) : Additions :=
  mkAdditions (ad_tx a ∪ ad_tx b) (ad_txout b ∪ ad_txout a).

(** ** TxDescendants *)

(** tx_graph.rs:596-605 (and the range :635-637): what [populate_stack] pushes.
    Stacks are lists with the top at the head; [ho] as above. *)
Definition spend_paths (ho : OutPoint → list Txid) (g : TxGraph) (depth : nat) (i : Txid) : list (nat * Txid) :=
  filter (λ os, op_txid os.1 = i) (bmap_list (tg_spends g)) ≫= λ os, (λ s, (depth, s)) <$> ho os.1.
Definition populate_stack (ho : OutPoint → list Txid) (g : TxGraph) (depth : nat) (i : Txid)
  (stack : list (nat * Txid)) : list (nat * Txid) :=
  reverse (spend_paths ho g depth i) ++ stack.

(** tx_graph.rs:614-631: calling [next] until it returns [None].  The callback is
    a pure function.  [None] only when [fuel] runs out (one unit per [pop]). *)
Fixpoint descend {R : Type} (ho : OutPoint → list Txid) (g : TxGraph) (f : nat → Txid → option R)
  (fuel : nat) (visited : gset Txid) (stack : list (nat * Txid)) : option (list R) :=
  match fuel with
  | O => match stack with [] => Some [] | _ => None end
  | S fuel =>
      match stack with
      | [] => Some []
      | (d, i) :: stack =>
          if bool_decide (i ∈ visited) then descend ho g f fuel visited stack
          else match f d i with
               | None => descend ho g f fuel ({[ i ]} ∪ visited) stack
               | Some o => (o ::.) <$> descend ho g f fuel ({[ i ]} ∪ visited) (populate_stack ho g (S d) i stack)
               end
      end
  end.

(** The iterator of tx_graph.rs:611-632 run to its end.  Enough fuel: one pop per initial entry and one per entry of the spend index. *)
Definition walk_fuel (ho : OutPoint → list Txid) (g : TxGraph) (stack : list (nat * Txid)) : nat :=
  length stack + length (bmap_list (tg_spends g) ≫= λ os, ho os.1).
Definition descend_all {R} ho g (f : nat → Txid → option R) stack : option (list R) :=
  descend ho g f (walk_fuel ho g stack) ∅ stack.

(** tx_graph.rs:386-391 and :545-554 *)
Definition walk_descendants {R} ho g i (f : nat → Txid → option R) : option (list R) :=
  descend_all ho g f (populate_stack ho g 1 i []).
(** tx_graph.rs:397-407 and :558-573: collected in order, so the last one is on top *)
Definition walk_conflicts {R} ho g t (f : nat → Txid → option R) : option (list R) :=
  descend_all ho g f (reverse ((λ c, (0%nat, c.2)) <$> direct_conflicts_of_tx ho g t)).
