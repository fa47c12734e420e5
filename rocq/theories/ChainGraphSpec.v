(** Specification vocabulary for the chain graph (C25-C30). *)
From Verif Require Export ChainGraphModel SparseChainSpec TxGraphSpec.

Section spec.
Context `{ChainPosition P}.
Implicit Types (cg u : ChainGraph P).

Definition in_chain cg (i : Txid) : Prop := is_Some (sc_pos (cg_chain cg) !! i).
Definition in_chainb (c : SparseChain P) (i : Txid) : bool :=
  match sc_pos c !! i with Some _ => true | None => false end.

(** Every transaction in the chain is known in full. *)
Definition txs_full cg : Prop := ∀ i, in_chain cg i → is_Some (get_tx (cg_graph cg) i).
(** [a] and [b] spend a common output. *)
Definition double_spend (a b : Tx) : Prop := ∃ o, o ≠ null_outpoint ∧ o ∈ tx_in a ∧ o ∈ tx_in b.
(** No two different transactions of the chain do. *)
Definition no_double_spend cg : Prop :=
  ∀ i j a b, in_chain cg i → in_chain cg j →
    get_tx (cg_graph cg) i = Some a → get_tx (cg_graph cg) j = Some b → double_spend a b → i = j.
Definition cg_ok cg : Prop :=
  chain_ok (cg_chain cg) ∧ graph_ok (cg_graph cg) ∧ txs_full cg ∧ no_double_spend cg.

(** Txids determine inputs (collision resistance): [W] says which. *)
Definition inputs_by_txid (W : Txid → list OutPoint) (g : TxGraph) : Prop :=
  ∀ i t, get_tx g i = Some t → tx_in t = W i.

(** A choice of iteration order for every spender set of every graph. *)
Notation hash_fun := (TxGraph → OutPoint → list Txid).
Definition hash_fun_ok (ho : hash_fun) : Prop := ∀ g, hash_order g (ho g).

(** Calls on a chain graph. *)
Inductive cg_op :=
| CgTx (ho : hash_fun) (t : Tx) (p : P)
| CgTxout (o : OutPoint) (x : TxOut)
| CgCheckpoint (b : BlockId)
| CgInvalidate (h : N)
| CgUpdate (ho : hash_fun) (u : ChainGraph P) (ord : list (Txid * P))
| CgLimit (l : option nat).
(** One call; an [Err] leaves the chain graph as it is. *)
Definition cg_step cg (op : cg_op) : outcome (ChainGraph P) :=
  match op with
  | CgTx ho t p =>
      match cg_insert_tx (ho (cg_graph cg)) cg t p with
      | Panic => Panic | Ret (Ok (cg', _)) => Ret cg' | Ret (Err _) => Ret cg end
  | CgTxout o x => Ret (cg_insert_txout cg o x).1
  | CgCheckpoint b =>
      match cg_insert_checkpoint cg b with
      | Panic => Panic | Ret (Ok (cg', _)) => Ret cg' | Ret (Err _) => Ret cg end
  | CgInvalidate h =>
      match cg_invalidate cg h with Panic => Panic | Ret (cg', _) => Ret cg' end
  | CgUpdate ho u ord =>
      match cg_apply_update (ho (cg_graph cg)) cg u ord with
      | Panic => Panic | Ret (Ok (cg', _)) => Ret cg' | Ret (Err _) => Ret cg end
  | CgLimit l => Ret (cg_set_checkpoint_limit cg l)
  end.
(** Values in range, hash orders genuine, txids consistent with [W]. *)
Definition cg_op_ok (W : Txid → list OutPoint) (op : cg_op) : Prop :=
  match op with
  | CgTx ho t p => hash_fun_ok ho ∧ txid t ≤ max_txid ∧ pos_ok p ∧ tx_in t = W (txid t)
  | CgTxout _ _ | CgLimit _ => True
  | CgCheckpoint b => bi_height b ≤ u32_max
  | CgInvalidate h => h ≤ u32_max
  | CgUpdate ho u ord => hash_fun_ok ho ∧ ord ≡ₚ map_to_list (sc_pos (cg_chain u))
  end.

(** Chain graphs a client can make: from a chain and a graph, by inflating a
    sparse update, or by calling operations whose updates are again such. *)
Inductive built (W : Txid → list OutPoint) : ChainGraph P → Prop :=
| built_default : built W cg_default
| built_new ho c g cg :
    chain_ok c → graph_ok g → inputs_by_txid W g → hash_order g ho →
    cg_new ho c g = Ret (Ok cg) → built W cg
| built_inflate ho cg c txs cg' :
    built W cg → chain_ok c → Forall (λ t, tx_in t = W (txid t)) txs →
    hash_order (inflate_graph cg c txs) ho →
    inflate_update ho cg c txs = Ret (Ok cg') → built W cg'
| built_step cg op cg' :
    built W cg → cg_op_ok W op →
    (∀ ho u ord, op = CgUpdate ho u ord → built W u) →
    cg_step cg op = Ret cg' → built W cg'.

(** ** Conflicts (C28) *)

(** [n] is put into the chain by changeset [cs] at [p]; [t] is its transaction. *)
Definition newly_added cg (cs : CgChangeSet P) (n : Txid) (t : Tx) (p : P) : Prop :=
  cs_txids (cgs_chain cs) !! n = Some (Some p) ∧ ¬ in_chain cg n ∧
  (get_tx (cg_graph cg) n = Some t ∨
   get_tx (cg_graph cg) n = None ∧ t ∈ ad_tx (cgs_graph cs) ∧ txid t = n).
(** [i], in the chain, double spends an input of [t], or descends from such a
    transaction through transactions in the chain. *)
Definition conflicts_with cg (t : Tx) (i : Txid) : Prop :=
  in_chain cg i ∧
  reach_from (cg_graph cg) (in_chainb (cg_chain cg)) (λ s, ∃ vin, conflicts_at (cg_graph cg) t vin s) i.
Definition conflicting cg cs (i : Txid) : Prop :=
  ∃ n t p, newly_added cg cs n t p ∧ conflicts_with cg t i.
(** Position after a sparse chain changeset. *)
Definition pos_after (c : SparseChain P) (ccs : ChangeSet P) (i : Txid) : option P :=
  match cs_txids ccs !! i with Some o => o | None => sc_pos c !! i end.
Definition confirmed_after (c : SparseChain P) (ccs : ChangeSet P) (i : Txid) : Prop :=
  ∃ q k, pos_after c ccs i = Some q ∧ pos_height q = Confirmed k.
(** The changeset is backed by exactly one full transaction per new txid. *)
Definition backed cg (cs : CgChangeSet P) : Prop :=
  (∀ n p, cs_txids (cgs_chain cs) !! n = Some (Some p) → ¬ in_chain cg n → ∃ t, newly_added cg cs n t p) ∧
  (∀ n t t' p, newly_added cg cs n t p → newly_added cg cs n t' p → t = t').
(** A rejection names a real reason. *)
Definition real_conflict cg cs (e : UnresolvableConflict P) : Prop :=
  ∃ t, newly_added cg cs (uc_update e).2 t (uc_update e).1 ∧
       sc_pos (cg_chain cg) !! (uc_confirmed e).2 = Some (uc_confirmed e).1 ∧
       conflicts_with cg t (uc_confirmed e).2 ∧
       confirmed_after (cg_chain cg) (cgs_chain cs) (uc_confirmed e).2.

(** What conflict resolution must do with a changeset [ccs] of the sparse chain
    and the additions [ad]. *)
Definition resolved cg (ccs : ChangeSet P) (ad : Additions) (cs : CgChangeSet P) : Prop :=
  (∀ i, conflicting cg (mkCGS ccs ad) i → ¬ confirmed_after (cg_chain cg) ccs i) ∧
  cgs_graph cs = ad ∧
  cs_cps (cgs_chain cs) = cs_cps ccs ∧
  (∀ i, conflicting cg (mkCGS ccs ad) i → cs_txids (cgs_chain cs) !! i = Some None) ∧
  (∀ i, ¬ conflicting cg (mkCGS ccs ad) i → cs_txids (cgs_chain cs) !! i = cs_txids ccs !! i).

(** ** Ancestors (C27) *)
(** [a] is [i] or an ancestor of [i] in the graph. *)
Inductive ancestor (g : TxGraph) (i : Txid) : Txid → Prop :=
| anc_self : ancestor g i i
| anc_parent a b t : ancestor g i a → get_tx g a = Some t →
    (∃ o, o ∈ tx_in t ∧ o ≠ null_outpoint ∧ op_txid o = b) → is_Some (get_tx g b) → ancestor g i b.
Definition no_ancestor_double_spend cg : Prop :=
  ∀ i j a b ta tb, in_chain cg i → in_chain cg j →
    ancestor (cg_graph cg) i a → ancestor (cg_graph cg) j b →
    get_tx (cg_graph cg) a = Some ta → get_tx (cg_graph cg) b = Some tb → double_spend ta tb → a = b.
(** [b] is a transaction of the graph whose output [i] spends. *)
Definition known_parent (g : TxGraph) (i b : Txid) : Prop :=
  is_Some (get_tx g b) ∧ ∃ t, get_tx g i = Some t ∧ ∃ o, o ∈ tx_in t ∧ o ≠ null_outpoint ∧ op_txid o = b.
(** The chain contains the known parents of its transactions. *)
Definition parents_in_chain cg : Prop :=
  ∀ i b, in_chain cg i → known_parent (cg_graph cg) i b → in_chain cg b.
End spec.
Global Arguments cg_op _ {_ _}.
