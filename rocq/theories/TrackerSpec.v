(** Specification vocabulary for the tracker and for staging (C41-C44). *)
From Verif Require Export TrackerModel KeychainIndexSpec ChainGraphSpec.

Section spec.
Context `{!DescEnv} `{Countable K, !Ord K} `{ChainPosition P}.
Implicit Types (x y : Tracker K P) (cs : KChangeSet K P) (f : FullTxOut P) (ki : K * N) (k : K) (trust : K → bool).

(** ** Wallet outputs *)

(** [f] is the output at an outpoint indexed under [ki], of a transaction in the chain; what it
    says about value, position, coinbase and spender is true. *)
Definition owned x ki f : Prop :=
  (∃ u, si_txout (ki_inner (tr_index x)) (fto_outpoint f) = Some (ki, u)) ∧
  ∃ t, get_tx (cg_graph (tr_cg x)) (op_txid (fto_outpoint f)) = Some t ∧
    sc_pos (cg_chain (tr_cg x)) !! op_txid (fto_outpoint f) = Some (fto_pos f) ∧
    tx_out t !! N.to_nat (op_vout (fto_outpoint f)) = Some (fto_txout f) ∧
    fto_on_coinbase f = is_coin_base t ∧
    match fto_spent_by f with
    | Some (p, s) => sc_pos (cg_chain (tr_cg x)) !! s = Some p ∧
        ∃ t', get_tx (cg_graph (tr_cg x)) s = Some t' ∧ fto_outpoint f ∈ tx_in t' ∧ fto_outpoint f ≠ null_outpoint
    | None => ∀ s t', in_chain (tr_cg x) s → get_tx (cg_graph (tr_cg x)) s = Some t' →
        fto_outpoint f ∈ tx_in t' → fto_outpoint f = null_outpoint
    end.

(** The wallet knows nothing of [t]: neither it nor its outputs nor a transaction that spends them. *)
Definition new_to x (t : Tx) : Prop :=
  get_tx (cg_graph (tr_cg x)) (txid t) = None ∧
  (∀ v, si_txout (ki_inner (tr_index x)) (mkOutPoint (txid t) v) = None) ∧
  ∀ s t' o, get_tx (cg_graph (tr_cg x)) s = Some t' → o ∈ tx_in t' → op_txid o ≠ txid t.

(** ** Categories of a balance *)
Inductive category := Immature | TrustedPending | UntrustedPending | ConfirmedFunds.
Global Instance category_eq_dec : EqDecision category.
Proof. solve_decision. Defined.
(** With the chain's tip at height [tip]; a coinbase output needs 100 confirmations. *)
Definition categorize trust (tip : N) (kf : K * N * FullTxOut P) : category :=
  match pos_height (fto_pos kf.2) with
  | Unconfirmed => if trust kf.1.1 then TrustedPending else UntrustedPending
  | Confirmed c => if fto_on_coinbase kf.2 && bool_decide (tip < c + 99) then Immature else ConfirmedFunds
  end.
Definition amount (b : Balance) (c : category) : N :=
  match c with
  | Immature => bal_immature b | TrustedPending => bal_trusted b
  | UntrustedPending => bal_untrusted b | ConfirmedFunds => bal_confirmed b
  end.
Definition value_of (kf : K * N * FullTxOut P) : N := txo_value (fto_txout kf.2).
(** Height of the tip, 0 if there is no checkpoint. *)
Definition tip_is x (tip : N) : Prop :=
  is_tip (cg_chain (tr_cg x)) tip ∨ (tip = 0 ∧ ∀ h, sc_cps (cg_chain (tr_cg x)) !! h = None).

(** Confirmed by height [h], mature if coinbase, and not spent by a confirmed transaction by then. *)
Definition spendable_by (h : N) (kf : K * N * FullTxOut P) : bool :=
  match pos_height (fto_pos kf.2) with
  | Unconfirmed => false
  | Confirmed c =>
      bool_decide (c ≤ h) && (negb (fto_on_coinbase kf.2) || bool_decide (c + 99 ≤ h)) &&
      match fto_spent_by kf.2 with
      | Some (p, _) => match pos_height p with Confirmed s => bool_decide (h < s) | Unconfirmed => true end
      | None => true
      end
  end.

(** ** Histories *)
Inductive tr_op :=
| TrIndex (op : ki_op K)
| TrUpdate (ho : TxGraph → OutPoint → list Txid) (s : KScan K P) (ord : list (Txid * P))
| TrTx (ho : TxGraph → OutPoint → list Txid) (t : Tx) (p : P)
| TrCheckpoint (b : BlockId)
| TrLimit (l : option nat).
(** One call: the new state and the changeset reported, if any.  Direct calls on the index report
    derivation additions. *)
Definition tr_step x (op : tr_op) : outcome (Tracker K P * list (KChangeSet K P)) :=
  match op with
  | TrIndex op =>
      match ki_step (tr_index x) op with
      | Panic => Panic
      | Ret (i, _, ad) => Ret (mkTr i (tr_cg x), [kcs_of_indices ad])
      end
  | TrUpdate ho s ord =>
      match tr_apply_update (ho (cg_graph (tr_cg x))) x s ord with
      | Panic => Panic | Ret (Ok (x', cs)) => Ret (x', [cs]) | Ret (Err _) => Ret (x, []) end
  | TrTx ho t p =>
      match tr_insert_tx (ho (cg_graph (tr_cg x))) x t p with
      | Panic => Panic | Ret (Ok (x', cs)) => Ret (x', [cs]) | Ret (Err _) => Ret (x, []) end
  | TrCheckpoint b =>
      match tr_insert_checkpoint x b with
      | Panic => Panic | Ret (Ok (x', cs)) => Ret (x', [cs]) | Ret (Err _) => Ret (x, []) end
  | TrLimit l => Ret (tr_set_checkpoint_limit x l, [])
  end.
Fixpoint tr_run x (h : list tr_op) : outcome (Tracker K P * list (KChangeSet K P)) :=
  match h with
  | [] => Ret (x, [])
  | op :: h =>
      match tr_step x op with
      | Panic => Panic
      | Ret (x1, l1) => match tr_run x1 h with Panic => Panic | Ret (x2, l2) => Ret (x2, l1 ++ l2) end
      end
  end.
(** Applying changesets in order, as when loading a wallet. *)
Fixpoint tr_replay x (l : list (KChangeSet K P)) : outcome (Tracker K P) :=
  match l with
  | [] => Ret x
  | cs :: l => match tr_apply_changeset x cs with Panic => Panic | Ret x' => tr_replay x' l end
  end.

(** A new tracker with its keychains and lookaheads set up by the calls [s]. *)
Definition tr_setup (s : list (ki_op K)) (l : option nat) : outcome (Tracker K P) :=
  match ki_run s with
  | Panic => Panic
  | Ret (i, _, _) => Ret (mkTr i (cg_set_checkpoint_limit cg_default l))
  end.
(** Outputs of a transaction or graph have outpoints within range. *)
Definition tx_ok (t : Tx) : Prop := txid t ≤ max_txid ∧ (length (tx_out t) ≤ N.to_nat u32_max)%nat.
Definition graph_in_range (g : TxGraph) : Prop := ∀ o u, (o, u) ∈ all_txouts g → op_ok o.
(** Index calls other than adding keychains and setting lookaheads. *)
Definition running (op : ki_op K) : Prop :=
  match op with
  | KiAdd _ _ | KiLook _ _ | KiLookAll _ | KiLookTo _ _ | KiLookToMulti _ => False
  | _ => True
  end.
(** What a client owes after the set-up [s]: calls in range, updates made by calls, txids that
    determine inputs ([W]), active indices only of known keychains. *)
Definition tr_op_ok (A : K → option Desc) (W : Txid → list OutPoint) (s : list (ki_op K)) (op : tr_op) : Prop :=
  match op with
  | TrIndex op => running op ∧ ki_op_ok A s op
  | TrUpdate ho sc ord =>
      hash_fun_ok ho ∧ ord ≡ₚ map_to_list (sc_pos (cg_chain (ks_update sc))) ∧ built W (ks_update sc) ∧
      graph_in_range (cg_graph (ks_update sc)) ∧
      ∀ k t, ks_active sc !! k = Some t → known s k ∧ t ≤ bip32_max
  | TrTx ho t p => hash_fun_ok ho ∧ tx_ok t ∧ pos_ok p ∧ tx_in t = W (txid t)
  | TrCheckpoint b => bi_height b ≤ u32_max
  | TrLimit _ => True
  end.
(** Calls that keep confirmed transactions at or below the tip. *)
Definition tr_cbt_op (op : tr_op) : Prop :=
  match op with
  | TrUpdate _ sc _ => confirmed_below_tip (cg_chain (ks_update sc))
  | TrLimit l => l ≠ Some 0%nat
  | _ => True
  end.

(** Two indexes reveal, hand out and recognize the same scripts. *)
Definition same_index (i j : KIndex K) : Prop :=
  (∀ k, ki_keychains i !! k = ki_keychains j !! k) ∧ (∀ k, last_revealed_index i k = last_revealed_index j k) ∧
  (∀ k, lookahead_of i k = lookahead_of j k) ∧ (∀ ki, si_spk_at (ki_inner i) ki = si_spk_at (ki_inner j) ki) ∧
  (∀ s, si_index_of_spk (ki_inner i) s = si_index_of_spk (ki_inner j) s).
(** They hold the same outputs. *)
Definition same_outputs (i j : KIndex K) : Prop := ∀ o, si_txout (ki_inner i) o = si_txout (ki_inner j) o.
(** Two chain graphs agree but for their checkpoints. *)
Definition same_txs (c d : ChainGraph P) : Prop :=
  cg_graph c = cg_graph d ∧ (∀ t, sc_pos (cg_chain c) !! t = sc_pos (cg_chain d) !! t) ∧
  ∀ p t, (p, t) ∈ sc_ordered (cg_chain c) ↔ (p, t) ∈ sc_ordered (cg_chain d).
(** The call offers outputs to the index directly; it changes the checkpoint limit. *)
Definition offers_outputs (op : tr_op) : Prop := ∃ l, op = TrIndex (KiScan l).
Definition sets_limit (op : tr_op) : Prop := ∃ l, op = TrLimit l.

(** ** Merged changesets *)
(** The output pays script [j] of keychain [k]. *)
Definition paid (i : KIndex K) k (j : N) (u : TxOut) : Prop :=
  ∃ d, ki_keychains i !! k = Some d ∧ j < cap d ∧ derive d j = Some (txo_spk u).
Definition cs_outs cs : list (OutPoint * TxOut) := ad_txouts (cgs_graph (kcs_cg cs)).
(** Every output of the changeset that pays the wallet is among the scripts [i] watches. *)
Definition in_window (i : KIndex K) cs : Prop :=
  ∀ o u k j, (o, u) ∈ cs_outs cs → paid i k j u → j < n_revealed i k + lookahead_of i k.
(** A changeset fit for an index with the keychains of [s]: indices of known keychains, outpoints in
    range; outpoints determine outputs ([Wo]). *)
Definition cs_fit (s : list (ki_op K)) (Wo : OutPoint → TxOut) cs : Prop :=
  (∀ k t, kcs_indices cs !! k = Some t → known s k ∧ t ≤ bip32_max) ∧
  (∀ o u, (o, u) ∈ cs_outs cs → op_ok o ∧ u = Wo o).
(** Txids determine transactions across the changesets. *)
Definition txids_once (l : list (KChangeSet K P)) : Prop :=
  ∀ a b t t', a ∈ l → b ∈ l → t ∈ ad_tx (cgs_graph (kcs_cg a)) → t' ∈ ad_tx (cgs_graph (kcs_cg b)) → txid t = txid t' → t = t'.

(** ** Staging *)
Definition fold_changes (l : list (KChangeSet K P)) : KChangeSet K P := foldl kcs_append kcs_default l.
End spec.
Global Arguments tr_op _ {_ _} _ {_ _}.

Section staging.
Context `{Countable K} `{ChainPosition P} `{!Backend K P B E}.
(** Staging a changeset, or committing. *)
Inductive pe_op := PeStage (cs : KChangeSet K P) | PeCommit.
Definition pe_step (p : Persist K P B) (op : pe_op) : Persist K P B :=
  match op with PeStage cs => pe_stage_change p cs | PeCommit => (pe_commit p).1 end.
Definition pe_run (b : B) (h : list pe_op) : Persist K P B := foldl pe_step (pe_new b) h.
(** Handing changesets to a backend in turn: its state and the changesets it accepted. *)
Definition feed (b : B) (l : list (KChangeSet K P)) : B * list (KChangeSet K P) :=
  foldl (λ r cs, match backend_append r.1 cs with
    | (b', Ok _) => (b', r.2 ++ [cs])
    | (b', Err _) => (b', r.2)
    end) (b, []) l.
Definition staged_in (h : list pe_op) : list (KChangeSet K P) :=
  omap (λ op, match op with PeStage cs => Some cs | PeCommit => None end) h.
Definition commits_in (h : list pe_op) : nat := length h - length (staged_in h).
End staging.
Global Arguments pe_op _ {_ _} _.
