(** Model of bdk_chain/src/chain_graph.rs, with the type parameter [T] fixed to the
    modelled transaction type, and of the parts of sparse_chain.rs that take a graph. *)
From Verif Require Export SparseChainModel TxGraphModel.

(** chain_graph.rs:28-31 *)
Record ChainGraph (P : Type) `{Countable P} := mkCG {
  cg_chain : SparseChain P;
  cg_graph : TxGraph
}.
Global Arguments mkCG {_ _ _} _ _.
Global Arguments cg_chain {_ _ _} _.
Global Arguments cg_graph {_ _ _} _.

(** chain_graph.rs:446-449 *)
Record CgChangeSet (P : Type) := mkCGS {
  cgs_chain : ChangeSet P;
  cgs_graph : Additions
}.
Global Arguments mkCGS {_} _ _.
Global Arguments cgs_chain {_} _.
Global Arguments cgs_graph {_} _.

(** chain_graph.rs:500-505 *)
Inductive NewError (P : Type) :=
| NewConflict (a b : P * Txid)
| NewMissing (missing : gset Txid).
Global Arguments NewConflict {_} _ _.
Global Arguments NewMissing {_} _.
(** chain_graph.rs:591-594 *)
Record UnresolvableConflict (P : Type) := mkUnresolvable {
  uc_confirmed : P * Txid;
  uc_update : P * Txid
}.
Global Arguments mkUnresolvable {_} _ _.
Global Arguments uc_confirmed {_} _.
Global Arguments uc_update {_} _.
(** chain_graph.rs:535-538 *)
Inductive CgInsertTxError (P : Type) :=
| CgTxChain (e : InsertTxError P)
| CgTxConflict (e : UnresolvableConflict P).
Global Arguments CgTxChain {_} _.
Global Arguments CgTxConflict {_} _.
(** chain_graph.rs:563-568 *)
Inductive CgUpdateError (P : Type) :=
| CgUpdChain (e : UpdateError P)
| CgUpdConflict (e : UnresolvableConflict P).
Global Arguments CgUpdChain {_} _.
Global Arguments CgUpdConflict {_} _.

Section chain_graph.
Context `{ChainPosition P}.
(** In every function [ho] is the iteration order of the graph's spender sets. *)
Implicit Types (cg u : ChainGraph P) (cs : CgChangeSet P) (c : SparseChain P) (g : TxGraph)
  (ho : OutPoint → list Txid).

(** sparse_chain.rs:881-886: [find_map] over the hash set of spenders *)
Definition sc_spent_by ho c g (o : OutPoint) : option (P * Txid) :=
  head (omap (λ s, (λ p, (p, s)) <$> tx_position c s)
             (match tg_spends g !! o with Some _ => ho o | None => [] end)).
(** sparse_chain.rs:804-825 *)
Definition sc_full_txout ho c g (o : OutPoint) : option (FullTxOut P) :=
  match tx_position c (op_txid o) with
  | None => None
  | Some pos =>
      match get_tx g (op_txid o) with
      | None => None
      | Some t =>
          match tx_out t !! N.to_nat (op_vout o) with
          | None => None
          | Some x => Some (mkFullTxOut o x pos (sc_spent_by ho c g o) (is_coin_base t))
          end
      end
  end.

(** chain_graph.rs:33-40 *)
Definition cg_default : ChainGraph P := mkCG sc_default tg_default.
(** chain_graph.rs:477-484 *)
Definition cgs_default : CgChangeSet P := mkCGS cs_default ad_default.

(** chain_graph.rs:293-302 (and :89-92, the same walk): conflicts of [t] that are
    in the chain.  The walk always ends ([C22_any_callback]); running out of fuel
    is [Panic]. *)
Definition tx_conflicts_in_chain ho c g (t : Tx) : outcome (list (P * Txid)) :=
  match walk_conflicts ho g t (λ _ i, (λ p, (p, i)) <$> tx_position c i) with
  | Some l => Ret l
  | None => Panic
  end.

(** chain_graph.rs:86-103: the loop over [chain.txids()].  [next()] on the lazy
    walk is the first element of the whole walk (the callback is pure). *)
Fixpoint cg_new_loop ho c g (l : list (P * Txid)) (missing : gset Txid)
  : outcome (result (gset Txid) (NewError P)) :=
  match l with
  | [] => Ret (Ok missing)
  | (p, i) :: l =>
      match get_tx g i with
      | Some t =>
          match tx_conflicts_in_chain ho c g t with
          | Panic => Panic
          | Ret (b :: _) => Ret (Err (NewConflict (p, i) b))
          | Ret [] => cg_new_loop ho c g l missing
          end
      | None => cg_new_loop ho c g l ({[ i ]} ∪ missing)
      end
  end.
(** chain_graph.rs:85-110 *)
Definition cg_new ho c g : outcome (result (ChainGraph P) (NewError P)) :=
  match cg_new_loop ho c g (txids c) ∅ with
  | Panic => Panic
  | Ret (Err e) => Ret (Err e)
  | Ret (Ok missing) =>
      if bool_decide (missing = ∅) then Ret (Ok (mkCG c g)) else Ret (Err (NewMissing missing))
  end.

(** chain_graph.rs:133-142: the graph built for an update.  [Cow] is dropped. *)
Definition inflate_graph cg (update : SparseChain P) (new_txs : list Tx) : TxGraph :=
  let known := omap (λ pt, get_tx (cg_graph cg) pt.2) (txids update) in
  foldl (λ g t, (tg_insert_tx g t).1) tg_default (known ++ new_txs).
(** chain_graph.rs:128-145; [ho] is an order for the inflated graph *)
Definition inflate_update ho cg (update : SparseChain P) (new_txs : list Tx)
  : outcome (result (ChainGraph P) (NewError P)) :=
  cg_new ho update (inflate_graph cg update new_txs).

(** chain_graph.rs:157-159 *)
Definition cg_set_checkpoint_limit cg (l : option nat) : ChainGraph P :=
  mkCG (set_checkpoint_limit (cg_chain cg) l) (cg_graph cg).
(** chain_graph.rs:388-391 *)
Definition cg_apply_changeset cg cs : ChainGraph P :=
  mkCG (apply_changeset (cg_chain cg) (cgs_chain cs)) (apply_additions (cg_graph cg) (cgs_graph cs)).

(** chain_graph.rs:163-168 *)
Definition cg_invalidate_preview cg (h : N) : outcome (CgChangeSet P) :=
  match invalidate_checkpoints_preview (cg_chain cg) h with
  | Panic => Panic
  | Ret x => Ret (mkCGS x ad_default)
  end.
(** chain_graph.rs:175-182 *)
Definition cg_invalidate cg (h : N) : outcome (ChainGraph P * CgChangeSet P) :=
  match cg_invalidate_preview cg h with
  | Panic => Panic
  | Ret cs => Ret (cg_apply_changeset cg cs, cs)
  end.

(** chain_graph.rs:188-192 *)
Definition get_tx_in_chain cg (i : Txid) : outcome (option (P * Tx)) :=
  match tx_position (cg_chain cg) i with
  | None => Ret None
  | Some p => match get_tx (cg_graph cg) i with Some t => Ret (Some (p, t)) | None => Panic end
  end.

(** chain_graph.rs:323-333: the full transaction of a new txid *)
Definition find_full cg cs (i : Txid) : option Tx :=
  match get_tx (cg_graph cg) i with
  | Some t => Some t
  | None => List.find (λ t, bool_decide (txid t = i)) (bset_list (ad_tx (cgs_graph cs)))
  end.
(** chain_graph.rs:312-344: newly added txids, each with its conflicts in the
    chain.  A missing full transaction fails the [debug_assert!] at :334. *)
Fixpoint collect_conflicts ho cg cs (l : list (Txid * option P)) : outcome (list (P * Txid * P * Txid)) :=
  match l with
  | [] => Ret []
  | (n, None) :: l => collect_conflicts ho cg cs l
  | (n, Some p) :: l =>
      match tx_position (cg_chain cg) n with
      | Some _ => collect_conflicts ho cg cs l
      | None =>
          match find_full cg cs n with
          | None => Panic
          | Some t =>
              match tx_conflicts_in_chain ho (cg_chain cg) (cg_graph cg) t with
              | Panic => Panic
              | Ret l' =>
                  match collect_conflicts ho cg cs l with
                  | Panic => Panic
                  | Ret rest => Ret (((λ pc, (p, n, pc.1, pc.2)) <$> l') ++ rest)
                  end
              end
          end
      end
  end.
(** chain_graph.rs:346-379: the loop over the collected conflicts *)
Fixpoint resolve (m : gmap Txid (option P)) (l : list (P * Txid * P * Txid))
  : result (gmap Txid (option P)) (UnresolvableConflict P) :=
  match l with
  | [] => Ok m
  | (up, ui, cp, ci) :: l =>
      match default (Some cp) (m !! ci) with
      | None => resolve m l
      | Some q =>
          match pos_height q with
          | Confirmed _ => Err (mkUnresolvable (cp, ci) (up, ui))
          | Unconfirmed => resolve (<[ci := None]> m) l
          end
      end
  end.
(** chain_graph.rs:308-382 *)
Definition fix_conflicts ho cg cs : outcome (result (CgChangeSet P) (UnresolvableConflict P)) :=
  match collect_conflicts ho cg cs (bmap_list (cs_txids (cgs_chain cs))) with
  | Panic => Panic
  | Ret l =>
      match resolve (cs_txids (cgs_chain cs)) l with
      | Err e => Ret (Err e)
      | Ok m => Ret (Ok (mkCGS (mkChangeSet (cs_cps (cgs_chain cs)) m) (cgs_graph cs)))
      end
  end.

(** chain_graph.rs:199-206 *)
Definition cg_insert_tx_preview ho cg (t : Tx) (p : P)
  : outcome (result (CgChangeSet P) (CgInsertTxError P)) :=
  match insert_tx_preview (cg_chain cg) (txid t) p with
  | Panic => Panic
  | Ret (Err e) => Ret (Err (CgTxChain e))
  | Ret (Ok ccs) =>
      match fix_conflicts ho cg (mkCGS ccs (tg_insert_tx_preview (cg_graph cg) t)) with
      | Panic => Panic
      | Ret (Err e) => Ret (Err (CgTxConflict e))
      | Ret (Ok cs) => Ret (Ok cs)
      end
  end.
(** chain_graph.rs:212-216 *)
Definition cg_insert_tx ho cg (t : Tx) (p : P)
  : outcome (result (ChainGraph P * CgChangeSet P) (CgInsertTxError P)) :=
  match cg_insert_tx_preview ho cg t p with
  | Panic => Panic
  | Ret (Err e) => Ret (Err e)
  | Ret (Ok cs) => Ret (Ok (cg_apply_changeset cg cs, cs))
  end.
(** chain_graph.rs:219-224 *)
Definition cg_insert_txout_preview cg (o : OutPoint) (x : TxOut) : CgChangeSet P :=
  mkCGS cs_default (tg_insert_txout_preview (cg_graph cg) o x).
(** chain_graph.rs:230-234 *)
Definition cg_insert_txout cg (o : OutPoint) (x : TxOut) : ChainGraph P * CgChangeSet P :=
  let cs := cg_insert_txout_preview cg o x in (cg_apply_changeset cg cs, cs).
(** chain_graph.rs:241-251 *)
Definition cg_insert_checkpoint_preview cg (b : BlockId)
  : outcome (result (CgChangeSet P) InsertCheckpointError) :=
  match insert_checkpoint_preview (cg_chain cg) b with
  | Panic => Panic
  | Ret (Err e) => Ret (Err e)
  | Ret (Ok ccs) => Ret (Ok (mkCGS ccs ad_default))
  end.
(** chain_graph.rs:257-264 *)
Definition cg_insert_checkpoint cg (b : BlockId)
  : outcome (result (ChainGraph P * CgChangeSet P) InsertCheckpointError) :=
  match cg_insert_checkpoint_preview cg b with
  | Panic => Panic
  | Ret (Err e) => Ret (Err e)
  | Ret (Ok cs) => Ret (Ok (cg_apply_changeset cg cs, cs))
  end.
(** chain_graph.rs:267-286; [ord] is the order of the update's position map *)
Definition cg_determine_changeset ho cg u (ord : list (Txid * P))
  : outcome (result (CgChangeSet P) (CgUpdateError P)) :=
  match determine_changeset (cg_chain cg) (cg_chain u) ord with
  | Panic => Panic
  | Ret (Err e) => Ret (Err (CgUpdChain e))
  | Ret (Ok ccs) =>
      match fix_conflicts ho cg (mkCGS ccs (determine_additions (cg_graph cg) (cg_graph u))) with
      | Panic => Panic
      | Ret (Err e) => Ret (Err (CgUpdConflict e))
      | Ret (Ok cs) => Ret (Ok cs)
      end
  end.
(** chain_graph.rs:395-402 *)
Definition cg_apply_update ho cg u (ord : list (Txid * P))
  : outcome (result (ChainGraph P * CgChangeSet P) (CgUpdateError P)) :=
  match cg_determine_changeset ho cg u ord with
  | Panic => Panic
  | Ret (Err e) => Ret (Err e)
  | Ret (Ok cs) => Ret (Ok (cg_apply_changeset cg cs, cs))
  end.

(** chain_graph.rs:405-407 *)
Definition cg_full_txout ho cg (o : OutPoint) : option (FullTxOut P) :=
  sc_full_txout ho (cg_chain cg) (cg_graph cg) o.
(** chain_graph.rs:411-415: the [expect] of an element that is not there panics *)
Fixpoint with_full_txs g (l : list (P * Txid)) : outcome (list (P * Tx)) :=
  match l with
  | [] => Ret []
  | (p, i) :: l =>
      match get_tx g i with
      | None => Panic
      | Some t => match with_full_txs g l with Panic => Panic | Ret r => Ret ((p, t) :: r) end
      end
  end.
Definition transactions_in_chain cg : outcome (list (P * Tx)) :=
  with_full_txs (cg_graph cg) (txids (cg_chain cg)).
(** chain_graph.rs:420-422 *)
Definition cg_spent_by ho cg (o : OutPoint) : option (P * Txid) :=
  sc_spent_by ho (cg_chain cg) (cg_graph cg) o.
(** chain_graph.rs:425-427 *)
Definition cg_is_empty cg : bool := sc_is_empty (cg_chain cg) && tg_is_empty (cg_graph cg).
(** chain_graph.rs:453-455 *)
Definition cgs_is_empty cs : bool := cs_is_empty (cgs_chain cs) && ad_is_empty (cgs_graph cs).
(** chain_graph.rs:458-463 *)
Definition contains_eviction cs : bool :=
  existsb (λ kv, match kv.2 with None => true | Some _ => false end) (bmap_list (cs_txids (cgs_chain cs))).
(** chain_graph.rs:467-474 *)
Definition cgs_append cs1 cs2 : CgChangeSet P :=
  mkCGS (cs_append (cgs_chain cs1) (cgs_chain cs2)) (ad_append (cgs_graph cs1) (cgs_graph cs2)).
End chain_graph.
