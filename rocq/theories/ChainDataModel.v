(** Model of bdk_chain/src/chain_data.rs and of the [ChainPosition] trait. *)
From Verif Require Export Base.

(** chain_data.rs:15-18 *)
Inductive TxHeight := Confirmed (h : N) | Unconfirmed.
Global Instance TxHeight_eq_dec : EqDecision TxHeight.
Proof. solve_decision. Defined.
Global Instance TxHeight_countable : Countable TxHeight :=
  inj_countable' (λ x, match x with Confirmed h => Some h | Unconfirmed => None end)
                 (λ x, match x with Some h => Confirmed h | None => Unconfirmed end)
                 ltac:(by intros []).
(** chain_data.rs:9 [derive(PartialOrd, Ord)]: variants in declaration order. *)
Global Instance TxHeight_ord : Ord TxHeight := λ a b,
  match a, b with
  | Confirmed x, Confirmed y => N.compare x y
  | Confirmed _, Unconfirmed => Lt
  | Unconfirmed, Confirmed _ => Gt
  | Unconfirmed, Unconfirmed => Eq
  end.
(** chain_data.rs:68-70 *)
Definition th_is_confirmed (x : TxHeight) : bool :=
  match x with Confirmed _ => true | Unconfirmed => false end.
(** chain_data.rs:35-42 [From<Option<u32>> for TxHeight] *)
Definition th_from_option (o : option N) : TxHeight :=
  match o with Some h => Confirmed h | None => Unconfirmed end.

(** sparse_chain.rs:946-962, trait [ChainPosition] (operations only).
    [pos_ok] is the range of values the Rust type can hold ([u32]/[u64] bounds). *)
Class ChainPosition (P : Type) `{Countable P, Ord P} := {
  pos_height : P → TxHeight;
  pos_max_of : TxHeight → P;
  pos_min_of : TxHeight → P;
  pos_ok : P → Prop
}.
Global Hint Mode ChainPosition ! - - - : typeclass_instances.

(** sparse_chain.rs:958-961, default method [unconfirmed] *)
Definition pos_unconfirmed `{ChainPosition P} : P := pos_max_of Unconfirmed.

(** The values a [TxHeight] can hold in Rust, chain_data.rs:15-18: [Confirmed(u32)]. *)
Definition th_ok (x : TxHeight) : Prop :=
  match x with Confirmed h => h ≤ u32_max | Unconfirmed => True end.

(** The contract the trait documents (sparse_chain.rs:943-962): implementations
    are [Ord] by [TxHeight] first; [min_ord_of_height]/[max_ord_of_height] bound
    the positions of a height. *)
Class ChainPositionLaws (P : Type) `{ChainPosition P} : Prop := {
  pos_ord_laws : OrdLaws P;
  pos_height_ok : ∀ p : P, pos_ok p → th_ok (pos_height p);
  pos_height_lt : ∀ p q : P, ord_lt (pos_height p) (pos_height q) → ord_lt p q;
  pos_max_height : ∀ h, pos_height (pos_max_of (P:=P) h) = h;
  pos_min_height : ∀ h, pos_height (pos_min_of (P:=P) h) = h;
  pos_max_ok : ∀ h, th_ok h → pos_ok (pos_max_of (P:=P) h);
  pos_min_ok : ∀ h, th_ok h → pos_ok (pos_min_of (P:=P) h);
  pos_max_ge : ∀ p : P, pos_ok p → ord_le p (pos_max_of (pos_height p));
  pos_min_le : ∀ p : P, pos_ok p → ord_le (pos_min_of (pos_height p)) p
}.

(** chain_data.rs:53-65 *)
Global Instance TxHeight_position : ChainPosition TxHeight := {
  pos_height x := x;
  pos_max_of h := h;
  pos_min_of h := h;
  pos_ok := th_ok
}.

(** chain_data.rs:80-83 *)
Inductive ConfirmationTime := CtConfirmed (height time : N) | CtUnconfirmed.
Global Instance ConfirmationTime_eq_dec : EqDecision ConfirmationTime.
Proof. solve_decision. Defined.
Global Instance ConfirmationTime_countable : Countable ConfirmationTime :=
  inj_countable' (λ x, match x with CtConfirmed h t => Some (h, t) | CtUnconfirmed => None end)
                 (λ x, match x with Some (h, t) => CtConfirmed h t | None => CtUnconfirmed end)
                 ltac:(by intros []).
(** chain_data.rs:74 [derive(PartialOrd, Ord)] *)
Global Instance ConfirmationTime_ord : Ord ConfirmationTime := λ a b,
  match a, b with
  | CtConfirmed h1 t1, CtConfirmed h2 t2 => ord_cmp (h1, t1) (h2, t2)
  | CtConfirmed _ _, CtUnconfirmed => Lt
  | CtUnconfirmed, CtConfirmed _ _ => Gt
  | CtUnconfirmed, CtUnconfirmed => Eq
  end.
(** chain_data.rs:85-112 *)
Global Instance ConfirmationTime_position : ChainPosition ConfirmationTime := {
  pos_height x := match x with CtConfirmed h _ => Confirmed h | CtUnconfirmed => Unconfirmed end;
  pos_max_of h := match h with Confirmed h => CtConfirmed h u64_max | Unconfirmed => CtUnconfirmed end;
  pos_min_of h := match h with Confirmed h => CtConfirmed h 0 | Unconfirmed => CtUnconfirmed end;
  pos_ok x := match x with CtConfirmed h t => h ≤ u32_max ∧ t ≤ u64_max | CtUnconfirmed => True end
}.
(** chain_data.rs:115-117 *)
Definition ct_is_confirmed (x : ConfirmationTime) : bool :=
  match x with CtConfirmed _ _ => true | CtUnconfirmed => false end.

(** chain_data.rs:127-132 *)
Record BlockId := mkBlockId { bi_height : N; bi_hash : BlockHash }.
Global Instance BlockId_eq_dec : EqDecision BlockId.
Proof. solve_decision. Defined.

(** chain_data.rs:166-177 *)
Record FullTxOut (P : Type) := mkFullTxOut {
  fto_outpoint : OutPoint;
  fto_txout : TxOut;
  fto_pos : P;
  fto_spent_by : option (P * Txid);
  fto_on_coinbase : bool
}.
Global Arguments mkFullTxOut {_} _ _ _ _ _.
Global Arguments fto_outpoint {_} _.
Global Arguments fto_txout {_} _.
Global Arguments fto_pos {_} _.
Global Arguments fto_spent_by {_} _.
Global Arguments fto_on_coinbase {_} _.

(** bdk_chain/src/lib.rs:89 [COINBASE_MATURITY] *)
Definition COINBASE_MATURITY : N := 100.

(** chain_data.rs:199-215.  [height.saturating_sub] is [N.sub]; [age + 1]
    overflows (debug panic) when [age = u32::MAX]; an unconfirmed coinbase fails
    the [debug_assert!]. *)
Definition is_mature `{ChainPosition P} (o : FullTxOut P) (height : N) : outcome bool :=
  if fto_on_coinbase o then
    match pos_height (fto_pos o) with
    | Unconfirmed => Panic
    | Confirmed tx_height =>
        let age := height - tx_height in
        if bool_decide (age = u32_max) then Panic
        else if age + 1 <? COINBASE_MATURITY then Ret false else Ret true
    end
  else Ret true.

(** chain_data.rs:184-197 *)
Definition is_spendable_at `{ChainPosition P} (o : FullTxOut P) (height : N) : outcome bool :=
  match is_mature o height with
  | Panic => Panic
  | Ret false => Ret false
  | Ret true =>
      if bool_decide (ord_lt (Confirmed height) (pos_height (fto_pos o))) then Ret false
      else match fto_spent_by o with
           | Some (spending, _) =>
               Ret (bool_decide (ord_lt (Confirmed height) (pos_height spending)))
           | None => Ret true
           end
  end.
