(** Model of bdk_chain/src/sparse_chain.rs. *)
From Verif Require Export ChainDataModel.

(** sparse_chain.rs:236-245.  [HashMap]/[BTreeMap] are [gmap], [BTreeSet] is
    [gset] (iteration sorts, see [bset_list]/[bmap_list]). *)
Record SparseChain (P : Type) `{Countable P} := mkChain {
  sc_cps : gmap N BlockHash;
  sc_ordered : gset (P * Txid);
  sc_pos : gmap Txid P;
  sc_limit : option nat
}.
Global Arguments mkChain {_ _ _} _ _ _ _.
Global Arguments sc_cps {_ _ _} _.
Global Arguments sc_ordered {_ _ _} _.
Global Arguments sc_pos {_ _ _} _.
Global Arguments sc_limit {_ _ _} _.

(** sparse_chain.rs:904-907 *)
Record ChangeSet (P : Type) := mkChangeSet {
  cs_cps : gmap N (option BlockHash);
  cs_txids : gmap Txid (option P)
}.
Global Arguments mkChangeSet {_} _ _.
Global Arguments cs_cps {_} _.
Global Arguments cs_txids {_} _.
Global Instance ChangeSet_eq_dec `{EqDecision P} : EqDecision (ChangeSet P).
Proof. solve_decision. Defined.

(** sparse_chain.rs:332-344 *)
Inductive UpdateError (P : Type) :=
| NotConnected (h : N)
| TxInconsistent (txid : Txid) (original update : P).
Global Arguments NotConnected {_} _.
Global Arguments TxInconsistent {_} _ _ _.

(** sparse_chain.rs:266-280 *)
Inductive InsertTxError (P : Type) :=
| TxTooHigh (txid : Txid) (tx_height : N) (tip_height : option N)
| TxMovedUnexpectedly (txid : Txid) (original update : P).
Global Arguments TxTooHigh {_} _ _ _.
Global Arguments TxMovedUnexpectedly {_} _ _ _.

(** sparse_chain.rs:312-319 *)
Inductive InsertCheckpointError :=
| HashNotMatching (height : N) (original update : BlockHash).

Section sparse_chain.
Context `{ChainPosition P}.
Implicit Types (c u : SparseChain P) (cs : ChangeSet P).

(** sparse_chain.rs:253-262 *)
Definition sc_default : SparseChain P := mkChain ∅ ∅ ∅ None.
(** sparse_chain.rs:909-916 *)
Definition cs_default : ChangeSet P := mkChangeSet ∅ ∅.
(** sparse_chain.rs:930-932 *)
Definition cs_is_empty cs : bool := bool_decide (cs_cps cs = ∅ ∧ cs_txids cs = ∅).

(** sparse_chain.rs:365-375: collecting into a map, later entries win. *)
Definition from_checkpoints (l : list BlockId) : SparseChain P :=
  mkChain (foldl (λ m b, <[bi_height b := bi_hash b]> m) ∅ l) ∅ ∅ None.

(** sparse_chain.rs:378-383 *)
Definition latest_checkpoint c : option BlockId :=
  (λ kv, mkBlockId kv.1 kv.2) <$> last (bmap_list (sc_cps c)).

(** sparse_chain.rs:642 (and :437): height of the last checkpoint *)
Definition tip_height c : option N := fst <$> last (bmap_list (sc_cps c)).

(** sparse_chain.rs:386-390 *)
Definition checkpoint_at c (h : N) : option BlockId := mkBlockId h <$> sc_cps c !! h.

(** sparse_chain.rs:395-397 *)
Definition tx_position c (t : Txid) : option P := sc_pos c !! t.

(** sparse_chain.rs:861-873.  [keys().rev().nth(limit)]; [split_off] keeps the
    keys at or above.  Simplification: [last_height + 1] is in [N] (it could
    overflow [u32] only for a checkpoint at height [u32::MAX] and limit 0). *)
Definition prune_checkpoints c : SparseChain P :=
  match sc_limit c with
  | None => c
  | Some limit =>
      match reverse (bmap_list (sc_cps c)).*1 !! limit with
      | None => c
      | Some last_height =>
          let keep_height := last_height + 1 in
          mkChain (filter (λ kv, keep_height ≤ kv.1) (sc_cps c))
                  (sc_ordered c) (sc_pos c) (sc_limit c)
      end
  end.

(** sparse_chain.rs:523-528, loop body *)
Definition apply_cp (m : gmap N BlockHash) (kv : N * option BlockHash) : gmap N BlockHash :=
  match kv.2 with Some h => <[kv.1 := h]> m | None => delete kv.1 m end.

(** sparse_chain.rs:530-541, loop body *)
Definition apply_txid (s : gset (P * Txid) * gmap Txid P) (kv : Txid * option P)
  : gset (P * Txid) * gmap Txid P :=
  let '(ordered, pos) := s in
  let original := pos !! kv.1 in
  let pos := delete kv.1 pos in
  let ordered := match original with Some p => ordered ∖ {[ (p, kv.1) ]} | None => ordered end in
  match kv.2 with
  | Some p => ({[ (p, kv.1) ]} ∪ ordered, <[kv.1 := p]> pos)
  | None => (ordered, pos)
  end.

(** sparse_chain.rs:522-544 *)
Definition apply_changeset c cs : SparseChain P :=
  let cps := foldl apply_cp (sc_cps c) (bmap_list (cs_cps cs)) in
  let s := foldl apply_txid (sc_ordered c, sc_pos c) (bmap_list (cs_txids cs)) in
  prune_checkpoints (mkChain cps s.1 s.2 (sc_limit c)).

(** sparse_chain.rs:550-563 *)
Definition initial_changeset c : ChangeSet P :=
  mkChangeSet (Some <$> sc_cps c)
              (foldl (λ m pt, <[pt.2 := Some pt.1]> m) ∅ (bset_list (sc_ordered c))).

(** sparse_chain.rs:735-737 *)
Definition txids c : list (P * Txid) := bset_list (sc_ordered c).

(** sparse_chain.rs:740-752 *)
Definition range_txids c (lo hi : bound (P * Txid)) : outcome (list (P * Txid)) :=
  bset_range (sc_ordered c) lo hi.

(** sparse_chain.rs:763-767 *)
Definition map_pos_bound (b : bound P) (inc exc : Txid) : bound (P * Txid) :=
  match b with Incl p => Incl (p, inc) | Excl p => Excl (p, exc) | Unb => Unb end.
(** sparse_chain.rs:756-773 *)
Definition range_txids_by_position c (lo hi : bound P) : outcome (list (P * Txid)) :=
  bset_range (sc_ordered c) (map_pos_bound lo min_txid max_txid) (map_pos_bound hi max_txid min_txid).

(** sparse_chain.rs:784-787 *)
Definition ord_it (h : TxHeight) (is_max : bool) : P :=
  if is_max then pos_max_of h else pos_min_of h.
(** sparse_chain.rs:789-793 *)
Definition map_height_bound (b : bound TxHeight) (inc exc : bool * Txid) : bound (P * Txid) :=
  match b with
  | Incl h => Incl (ord_it h inc.1, inc.2)
  | Excl h => Excl (ord_it h exc.1, exc.2)
  | Unb => Unb
  end.
(** sparse_chain.rs:777-799 *)
Definition range_txids_by_height c (lo hi : bound TxHeight) : outcome (list (P * Txid)) :=
  bset_range (sc_ordered c)
    (map_height_bound lo (false, min_txid) (true, max_txid))
    (map_height_bound hi (true, max_txid) (false, min_txid)).

(** sparse_chain.rs:567-580.  The range [Confirmed(from)..Unconfirmed] has its
    start below its end, so the range query cannot panic (the [Panic] branch is
    proved unreachable); [collect] into a map. *)
Definition invalidate_checkpoints_preview c (from : N) : outcome (ChangeSet P) :=
  match range_txids_by_height c (Incl (Confirmed from)) (Excl Unconfirmed) with
  | Panic => Panic
  | Ret l =>
      Ret (mkChangeSet
             ((λ _, None) <$> filter (λ kv, from ≤ kv.1) (sc_cps c))
             (foldl (λ m pt, <[pt.2 := Some (pos_max_of Unconfirmed)]> m) ∅ l))
  end.
(** sparse_chain.rs:589-593 *)
Definition invalidate_checkpoints c (from : N) : outcome (SparseChain P * ChangeSet P) :=
  cs ← invalidate_checkpoints_preview c from; Ret (apply_changeset c cs, cs).

(** sparse_chain.rs:597-613 *)
Definition clear_mempool_preview c : outcome (ChangeSet P) :=
  match bset_range (sc_ordered c) (Incl (pos_min_of Unconfirmed, 0)) Unb with
  | Panic => Panic
  | Ret l => Ret (mkChangeSet ∅ (foldl (λ m pt, <[pt.2 := None]> m) ∅ l))
  end.
(** sparse_chain.rs:622-626 *)
Definition clear_mempool c : outcome (SparseChain P * ChangeSet P) :=
  cs ← clear_mempool_preview c; Ret (apply_changeset c cs, cs).

(** sparse_chain.rs:430-435: highest update checkpoint also in [self] *)
Definition agreement_point c u : option N :=
  fst <$> List.find (λ kv, bool_decide (sc_cps c !! kv.1 = Some kv.2)) (reverse (bmap_list (sc_cps u))).

(** sparse_chain.rs:437-446 *)
Definition invalid_lb c u : N :=
  let last_update_cp := tip_height u in
  let agreement := agreement_point c u in
  if bool_decide (last_update_cp = None ∨ last_update_cp = agreement) then u32_max
  else match agreement with Some h => h + 1 | None => 0 end.

(** sparse_chain.rs:449: first checkpoint at or above the bound *)
Definition invalid_from c u : option N :=
  fst <$> head (filter (λ kv, invalid_lb c u ≤ kv.1) (bmap_list (sc_cps c))).

(** sparse_chain.rs:461-470, loop body: is this entry of the update inconsistent? *)
Definition inconsistent c (lb : N) (tp : Txid * P) : bool :=
  match sc_pos c !! tp.1 with
  | Some original => bool_decide (ord_lt (pos_height original) (Confirmed lb)) &&
                     negb (bool_decide (original = tp.2))
  | None => false
  end.

(** sparse_chain.rs:479-491, loop body: [entry(..).and_modify(..).or_insert(..)]
    sets the key; it is removed again if the chain already has that hash. *)
Definition merge_cp c (m : gmap N (option BlockHash)) (kv : N * BlockHash) : gmap N (option BlockHash) :=
  if bool_decide (sc_cps c !! kv.1 = Some kv.2) then delete kv.1 (<[kv.1 := Some kv.2]> m)
  else <[kv.1 := Some kv.2]> m.
(** sparse_chain.rs:493-505, loop body *)
Definition merge_txid c (m : gmap Txid (option P)) (tp : Txid * P) : gmap Txid (option P) :=
  if bool_decide (sc_pos c !! tp.1 = Some tp.2) then delete tp.1 (<[tp.1 := Some tp.2]> m)
  else <[tp.1 := Some tp.2]> m.

(** sparse_chain.rs:429-508.  [ord] is the order in which the [HashMap]
    [update.txid_to_pos] is iterated: any permutation of its entries. *)
Definition determine_changeset c u (ord : list (Txid * P)) : outcome (result (ChangeSet P) (UpdateError P)) :=
  let lb := invalid_lb c u in
  let from := invalid_from c u in
  match from with
  | Some h =>
      if bool_decide (sc_cps u !! h = None) then Ret (Err (NotConnected h)) else
      match List.find (inconsistent c lb) ord with
      | Some (t, p) => Ret (Err (TxInconsistent t (default p (sc_pos c !! t)) p))
      | None =>
          cs ← invalidate_checkpoints_preview c h;
          Ret (Ok (mkChangeSet (foldl (merge_cp c) (cs_cps cs) (bmap_list (sc_cps u)))
                               (foldl (merge_txid c) (cs_txids cs) ord)))
      end
  | None =>
      match List.find (inconsistent c lb) ord with
      | Some (t, p) => Ret (Err (TxInconsistent t (default p (sc_pos c !! t)) p))
      | None =>
          Ret (Ok (mkChangeSet (foldl (merge_cp c) ∅ (bmap_list (sc_cps u)))
                               (foldl (merge_txid c) ∅ ord)))
      end
  end.

(** sparse_chain.rs:516-520 *)
Definition apply_update c u (ord : list (Txid * P))
  : outcome (result (SparseChain P * ChangeSet P) (UpdateError P)) :=
  match determine_changeset c u ord with
  | Panic => Panic
  | Ret (Err e) => Ret (Err e)
  | Ret (Ok cs) => Ret (Ok (apply_changeset c cs, cs))
  end.

(** sparse_chain.rs:635-640 and :694-699: an update holding only our tip *)
Definition tip_only c : gmap N BlockHash :=
  match latest_checkpoint c with Some b => {[ bi_height b := bi_hash b ]} | None => ∅ end.

(** sparse_chain.rs:642-649: [Some(a) > tip], comparing [Option<u32>]: [None] is least. *)
Definition above_tip (a : N) (tip : option N) : bool :=
  match tip with Some t => t <? a | None => true end.

(** sparse_chain.rs:634-672.  The update's map has one entry, so its iteration
    order is forced. *)
Definition insert_tx_preview c (t : Txid) (p : P) : outcome (result (ChangeSet P) (InsertTxError P)) :=
  let go :=
    let update := mkChain (tip_only c) {[ (p, t) ]} {[ t := p ]} None in
    match determine_changeset c update [(t, p)] with
    | Panic => Panic
    | Ret (Ok cs) => Ret (Ok cs)
    | Ret (Err (NotConnected _)) => Panic
    | Ret (Err (TxInconsistent t' o p')) => Ret (Err (TxMovedUnexpectedly t' o p'))
    end in
  match pos_height p with
  | Confirmed h => if above_tip h (tip_height c) then Ret (Err (TxTooHigh t h (tip_height c))) else go
  | Unconfirmed => go
  end.
(** sparse_chain.rs:680-684 *)
Definition insert_tx c (t : Txid) (p : P)
  : outcome (result (SparseChain P * ChangeSet P) (InsertTxError P)) :=
  match insert_tx_preview c t p with
  | Panic => Panic
  | Ret (Err e) => Ret (Err e)
  | Ret (Ok cs) => Ret (Ok (apply_changeset c cs, cs))
  end.

(** sparse_chain.rs:690-716 *)
Definition insert_checkpoint_preview c (b : BlockId)
  : outcome (result (ChangeSet P) InsertCheckpointError) :=
  let go :=
    let update := mkChain (<[bi_height b := bi_hash b]> (tip_only c)) ∅ ∅ None in
    match determine_changeset c update [] with
    | Ret (Ok cs) => Ret (Ok cs)
    | _ => Panic
    end in
  match tip_only c !! bi_height b with
  | Some original =>
      if bool_decide (original = bi_hash b) then go
      else Ret (Err (HashNotMatching (bi_height b) original (bi_hash b)))
  | None => go
  end.
(** sparse_chain.rs:725-732 *)
Definition insert_checkpoint c (b : BlockId)
  : outcome (result (SparseChain P * ChangeSet P) InsertCheckpointError) :=
  match insert_checkpoint_preview c b with
  | Panic => Panic
  | Ret (Err e) => Ret (Err e)
  | Ret (Ok cs) => Ret (Ok (apply_changeset c cs, cs))
  end.

(** sparse_chain.rs:841-844 *)
Definition set_checkpoint_limit c (limit : option nat) : SparseChain P :=
  prune_checkpoints (mkChain (sc_cps c) (sc_ordered c) (sc_pos c) limit).

(** sparse_chain.rs:847-859 *)
Definition changeset_additions c cs : list Txid :=
  (filter (λ kv, kv.2 ≠ None ∧ sc_pos c !! kv.1 = None) (bmap_list (cs_txids cs))).*1.

(** sparse_chain.rs:889-891 *)
Definition sc_is_empty c : bool := bool_decide (sc_cps c = ∅ ∧ sc_pos c = ∅).

(** sparse_chain.rs:921-927: [BTreeMap::append], the other's entries win. *)
Definition cs_append cs1 cs2 : ChangeSet P :=
  mkChangeSet (cs_cps cs2 ∪ cs_cps cs1) (cs_txids cs2 ∪ cs_txids cs1).

End sparse_chain.
