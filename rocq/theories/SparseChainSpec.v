(** Specification vocabulary for SparseChain: what an observer of the public
    API can say about a chain, independent of how the code computes it. *)
From Verif Require Export SparseChainModel.

Section spec.
Context `{ChainPosition P}.
Implicit Types (c u : SparseChain P) (cs : ChangeSet P) (p q : P) (t : Txid) (h : N).

(** The two views of the transactions agree: listed with a position iff the
    by-txid lookup gives that position. *)
Definition views_agree c : Prop :=
  ∀ p t, (p, t) ∈ sc_ordered c ↔ sc_pos c !! t = Some p.

(** All values are values the Rust types can hold. *)
Definition values_ok c : Prop :=
  (∀ t p, sc_pos c !! t = Some p → t ≤ max_txid ∧ pos_ok p) ∧
  (∀ h, is_Some (sc_cps c !! h) → h ≤ u32_max).

Definition chain_ok c : Prop := views_agree c ∧ values_ok c.

(** Nothing lives at the very last [u32] height (the code uses [u32::MAX] as
    "no height"). *)
Definition below_max c : Prop :=
  (∀ h, is_Some (sc_cps c !! h) → h < u32_max) ∧
  (∀ t p h, sc_pos c !! t = Some p → pos_height p = Confirmed h → h < u32_max).

(** Chain and update have the same block at height [h]. *)
Definition agree_at c u (h : N) : Prop :=
  ∃ x, sc_cps c !! h = Some x ∧ sc_cps u !! h = Some x.
(** [h] lies above every height at which they agree. *)
Definition above_agreement c u (h : N) : Prop := ∀ a, agree_at c u a → a < h.
(** The update says something about heights above the agreement. *)
Definition update_reaches_beyond c u : Prop :=
  ∃ h, is_Some (sc_cps u !! h) ∧ above_agreement c u h.
(** The lowest checkpoint of the chain that the update invalidates. *)
Definition first_invalid c u (f : N) : Prop :=
  update_reaches_beyond c u ∧
  is_Some (sc_cps c !! f) ∧ above_agreement c u f ∧
  ∀ h, is_Some (sc_cps c !! h) → above_agreement c u h → f ≤ h.
(** Height [h] falls into the invalidated part. *)
Definition invalidates c u (h : N) : Prop := ∃ f, first_invalid c u f ∧ f ≤ h.
(** A position is settled w.r.t. an update: confirmed, and not above the
    agreement if the update reaches beyond it. *)
Definition settled c u (p : P) : Prop :=
  ∃ h, pos_height p = Confirmed h ∧
       (update_reaches_beyond c u → ∃ a, agree_at c u a ∧ h ≤ a).

(** Every confirmed transaction is at or below some checkpoint. *)
Definition confirmed_below_tip c : Prop :=
  ∀ t p h, sc_pos c !! t = Some p → pos_height p = Confirmed h →
    ∃ k, is_Some (sc_cps c !! k) ∧ h ≤ k.

(** [k] is the tip height. *)
Definition is_tip c (k : N) : Prop :=
  is_Some (sc_cps c !! k) ∧ ∀ h, is_Some (sc_cps c !! h) → h ≤ k.

(** Number of checkpoints strictly above [h]. *)
Definition cps_above c (h : N) : nat := size (filter (λ kv, h < kv.1) (sc_cps c)).

(** What a successful update of [c] by [u] must lead to. *)
Definition update_result c u c' : Prop :=
  (∀ h x, sc_cps u !! h = Some x → sc_cps c' !! h = Some x) ∧
  (∀ t p, sc_pos u !! t = Some p → sc_pos c' !! t = Some p) ∧
  (∀ h, sc_cps u !! h = None → invalidates c u h → sc_cps c' !! h = None) ∧
  (∀ h, sc_cps u !! h = None → ¬ invalidates c u h → sc_cps c' !! h = sc_cps c !! h) ∧
  (∀ t p k, sc_pos u !! t = None → sc_pos c !! t = Some p → pos_height p = Confirmed k →
     invalidates c u k → sc_pos c' !! t = Some (pos_max_of Unconfirmed)) ∧
  (∀ t, sc_pos u !! t = None →
     (∀ p k, sc_pos c !! t = Some p → pos_height p = Confirmed k → ¬ invalidates c u k) →
     sc_pos c' !! t = sc_pos c !! t).


(** A changeset is the exact difference between two chains. *)
Definition is_diff c c' cs : Prop :=
  (∀ h o, cs_cps cs !! h = Some o ↔ sc_cps c !! h ≠ sc_cps c' !! h ∧ o = sc_cps c' !! h) ∧
  (∀ t o, cs_txids cs !! t = Some o ↔ sc_pos c !! t ≠ sc_pos c' !! t ∧ o = sc_pos c' !! t).

(** When placing transaction [t] at [p] is legitimate: not confirmed above the
    tip, and not already confirmed elsewhere. *)
Definition tx_allowed c t p : Prop :=
  (∀ h, pos_height p = Confirmed h → ∃ k, is_Some (sc_cps c !! k) ∧ h ≤ k) ∧
  (∀ q, sc_pos c !! t = Some q → pos_height q ≠ Unconfirmed → q = p).


(** No more checkpoints than the limit. *)
Definition within_limit c : Prop := ∀ n, sc_limit c = Some n → (size (sc_cps c) ≤ n)%nat.

(** Heights in a range query are [u32]. *)
Definition bound_ok (b : bound TxHeight) : Prop :=
  match b with Incl h | Excl h => th_ok h | Unb => True end.

(** Mutating operations of the public API. *)
Inductive sc_op :=
| OpInsertTx (t : Txid) (p : P)
| OpInsertCheckpoint (b : BlockId)
| OpUpdate (u : SparseChain P) (ord : list (Txid * P))
| OpInvalidate (h : N)
| OpClearMempool
| OpChangeset (cs : ChangeSet P)
| OpLimit (l : option nat).

(** What the Rust types guarantee about the arguments of an operation: the
    hash-map order handed to an update really is one, and values are in range
    (an update is itself a chain, so its views agree). *)
Definition sc_op_ok (o : sc_op) : Prop :=
  match o with
  | OpInsertTx t p => t ≤ max_txid ∧ pos_ok p
  | OpInsertCheckpoint b => bi_height b ≤ u32_max
  | OpUpdate u ord => chain_ok u ∧ ord ≡ₚ map_to_list (sc_pos u)
  | OpInvalidate h => h ≤ u32_max
  | OpClearMempool => True
  | OpChangeset cs =>
      (∀ h x, cs_cps cs !! h = Some (Some x) → h ≤ u32_max) ∧
      (∀ t p, cs_txids cs !! t = Some (Some p) → t ≤ max_txid ∧ pos_ok p)
  | OpLimit _ => True
  end.

(** One call; an [Err] leaves the chain as it is. *)
Definition sc_step c (o : sc_op) : outcome (SparseChain P) :=
  match o with
  | OpInsertTx t p =>
      r ← insert_tx c t p; Ret (match r with Ok (c', _) => c' | Err _ => c end)
  | OpInsertCheckpoint b =>
      r ← insert_checkpoint c b; Ret (match r with Ok (c', _) => c' | Err _ => c end)
  | OpUpdate u ord =>
      r ← apply_update c u ord; Ret (match r with Ok (c', _) => c' | Err _ => c end)
  | OpInvalidate h => r ← invalidate_checkpoints c h; Ret r.1
  | OpClearMempool => r ← clear_mempool c; Ret r.1
  | OpChangeset cs => Ret (apply_changeset c cs)
  | OpLimit l => Ret (set_checkpoint_limit c l)
  end.
Fixpoint sc_run c (os : list sc_op) : outcome (SparseChain P) :=
  match os with
  | [] => Ret c
  | o :: os => c' ← sc_step c o; sc_run c' os
  end.

(** Operations that keep the invariant: everything but invalidating,
    raw changesets, and a limit of zero. *)
Definition cbt_op (o : sc_op) : Prop :=
  match o with
  | OpInsertTx _ _ | OpInsertCheckpoint _ | OpClearMempool => True
  | OpUpdate u _ => confirmed_below_tip u
  | OpLimit l => l ≠ Some 0%nat
  | OpInvalidate _ | OpChangeset _ => False
  end.

End spec.
Global Arguments sc_op _ {_ _}.
