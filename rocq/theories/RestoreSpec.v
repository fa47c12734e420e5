(** Specification vocabulary for whole wallets against a server: which outputs a wallet should
    know after a scan (C90-C92). *)
From Verif Require Export TrackerSpec EsploraSpec.

Section world.
Context `{!DescEnv} `{Countable K, !Ord K} `{ChainPosition P}.
Implicit Types (w : World) (f : FullTxOut P) (wpos : Txid → P) (o : OutPoint) (k : K).

(** Some transaction of the world spends [o]. *)
Definition w_spent w o : Prop := ∃ s t, w_tx w s = Some t ∧ o ∈ tx_in t.
(** [f] is an output of the world, with its value, position and coinbase flag. *)
Definition true_output w wpos f : Prop :=
  ∃ t, w_tx w (op_txid (fto_outpoint f)) = Some t ∧ tx_out t !! N.to_nat (op_vout (fto_outpoint f)) = Some (fto_txout f) ∧
    fto_pos f = wpos (op_txid (fto_outpoint f)) ∧ fto_on_coinbase f = is_coin_base t.
(** [f] says who spends it, and where that transaction is. *)
Definition true_spend w wpos f : Prop :=
  match fto_spent_by f with
  | Some (p, s) => p = wpos s ∧ ∃ t, w_tx w s = Some t ∧ fto_outpoint f ∈ tx_in t
  | None => ¬ w_spent w (fto_outpoint f)
  end.
(** [kspks] lists scripts of the keychains in order, from the first on. *)
Definition scripts_of (i : KIndex K) (kspks : gmap K (list (N * Script))) : Prop :=
  ∀ k l, kspks !! k = Some l → ∃ d, ki_keychains i !! k = Some d ∧
    ∀ p j s, l !! p = Some (j, s) → j = N.of_nat p ∧ j < cap d ∧ derive d j = Some s.
(** The scripts an electrum scan has to find. *)
Definition within w (gap : N) (kspks : gmap K (list (N * Script))) k (i : N) : Prop :=
  ∃ l, kspks !! k = Some l ∧ found_index w gap l i.
(** The scripts an esplora scan has to find, and those it may. *)
Definition stop_within w (gap : N) (kspks : gmap K (list (N * Script))) k (i : N) : Prop :=
  ∃ l p s, kspks !! k = Some l ∧ l !! p = Some (i, s) ∧ within_stop_gap gap (activity w l) p.
Definition stop_reach w (gap : N) (parallel : nat) (kspks : gmap K (list (N * Script))) k (i : N) : Prop :=
  ∃ l p s, kspks !! k = Some l ∧ l !! p = Some (i, s) ∧ activity w l !! p = Some true ∧
    (0 < gap → ¬ gap_before (gap + N.of_nat parallel - 1) (activity w l) p).
(** A set-up that adds keychains and does nothing else. *)
Definition only_adds (s : list (ki_op K)) : Prop := Forall (λ op, ∃ k d, op = KiAdd k d) s.
(** What the wallet [x] holds agrees with the world: txids determine transactions, and indexed outputs are those
    of their transactions. *)
Definition agrees w (x : Tracker K P) : Prop :=
  (∀ t a b, get_tx (cg_graph (tr_cg x)) t = Some a → w_tx w t = Some b → a = b) ∧
  (∀ o ki u t, si_txout (ki_inner (tr_index x)) o = Some (ki, u) → w_tx w (op_txid o) = Some t →
     tx_out t !! N.to_nat (op_vout o) = Some u).
(** The wallet has the transaction of [o] but not [o] itself in its index: it looks at the outputs of a transaction once,
    when it gets it, for the scripts it watches then. *)
Definition overlooked (x : Tracker K P) o : Prop :=
  is_Some (get_tx (cg_graph (tr_cg x)) (op_txid o)) ∧ si_txout (ki_inner (tr_index x)) o = None.
(** No output of the world at the scripts [F] is overlooked. *)
Definition none_overlooked w (F : K → N → Prop) (x : Tracker K P) : Prop :=
  ∀ o t u k i, w_tx w (op_txid o) = Some t → tx_out t !! N.to_nat (op_vout o) = Some u → F k i → paid (tr_index x) k i u → ¬ overlooked x o.
End world.

Section spends.
Context `{ChainPosition P}.
(** [f] says who spends it, unless that is a transaction of the wallet's own which the world does not have. *)
Definition known_spend (w : World) (wpos : Txid → P) (f : FullTxOut P) : Prop :=
  true_spend w wpos f ∨
  ∃ p s, fto_spent_by f = Some (p, s) ∧ w_tx w s = None ∧ pos_height p = Unconfirmed ∧ ¬ w_spent w (fto_outpoint f).
End spends.

Section wallets.
Context `{!DescEnv} `{Countable K, !Ord K} `{ChainPosition P}.
Implicit Types (w : World) (wpos : Txid → P) (x : Tracker K P) (F : K → N → Prop).
(** What a new wallet [x] should be after a scan that has to find the scripts [F]: the outputs of the world at
    these scripts are its outputs, the unspent ones its funds. *)
Definition restored w wpos x x' F : Prop :=
  tip_is x' (w_tip w) ∧
  (∀ ki f, owned x' ki f ↔ F ki.1 ki.2 ∧ paid (tr_index x) ki.1 ki.2 (fto_txout f) ∧ true_output w wpos f ∧ true_spend w wpos f) ∧
  ∀ ho trust l, hash_order (cg_graph (tr_cg x')) ho → NoDup l →
    (∀ ki f, (ki, f) ∈ l ↔ F ki.1 ki.2 ∧ paid (tr_index x) ki.1 ki.2 (fto_txout f) ∧ true_output w wpos f ∧
       fto_spent_by f = None ∧ ¬ w_spent w (fto_outpoint f)) →
    sumN (value_of <$> l) ≤ u64_max →
    ∃ b, balance ho x' trust = Ret b ∧ bal_total b = Ret (sumN (value_of <$> l)) ∧
      ∀ c, amount b c = sumN (value_of <$> filter (λ kf, categorize trust (w_tip w) kf = c) l).
(** A wallet fit to synchronise with the world: a limit on checkpoints, if any, other than 0, heights below [u32::MAX], confirmed
    transactions at or below the tip, nothing that contradicts the world below the fork. *)
Definition fit_for w wpos x : Prop :=
  sc_limit (cg_chain (tr_cg x)) ≠ Some 0%nat ∧ below_max (cg_chain (tr_cg x)) ∧ confirmed_below_tip (cg_chain (tr_cg x)) ∧
  local_true w wpos (cg_chain (tr_cg x)) ∧ agrees w x.
(** The same for a scan that finds the transactions [found] again: these may be elsewhere if no checkpoint from their height on is one of the
    world's. *)
Definition fit_seen w wpos (found : Txid → Prop) x : Prop :=
  sc_limit (cg_chain (tr_cg x)) ≠ Some 0%nat ∧ below_max (cg_chain (tr_cg x)) ∧ confirmed_below_tip (cg_chain (tr_cg x)) ∧
  local_seen w wpos found (cg_chain (tr_cg x)) ∧ agrees w x.
(** What a wallet [x] should be after a scan that has to find the scripts [F]: it has the world's tip; every output
    of the world at these scripts that [x] had not overlooked is its own, with the right position and spender; it overlooks
    no more than before; what it says is confirmed is. *)
Definition caught_up w wpos x x' F : Prop :=
  tip_is x' (w_tip w) ∧ fit_for w wpos x' ∧
  (∀ o t u k i, get_tx (cg_graph (tr_cg x')) (op_txid o) = Some t → tx_out t !! N.to_nat (op_vout o) = Some u → F k i → paid (tr_index x) k i u →
     overlooked x' o → overlooked x o) ∧
  (∀ o t u k i, w_tx w (op_txid o) = Some t → tx_out t !! N.to_nat (op_vout o) = Some u → F k i → paid (tr_index x) k i u → ¬ overlooked x o →
     ∃ f, owned x' (k, i) f ∧ fto_outpoint f = o ∧ fto_txout f = u ∧ true_output w wpos f ∧ known_spend w wpos f) ∧
  (∀ ki f h, owned x' ki f → pos_height (fto_pos f) = Confirmed h → true_output w wpos f) ∧
  (∀ ki f p s h, owned x' ki f → fto_spent_by f = Some (p, s) → pos_height p = Confirmed h → true_spend w wpos f).
End wallets.

Section news.
Context `{!DescEnv} `{Countable K, !Ord K} `{ChainPosition P}.
(** The scan [sc] has nothing the wallet [x] does not have: no block, no position, no transaction or output, no index
    above the revealed ones. *)
Record nothing_new (x : Tracker K P) (sc : KScan K P) : Prop := {
  nn_cps : ∀ h b, sc_cps (cg_chain (ks_update sc)) !! h = Some b → sc_cps (cg_chain (tr_cg x)) !! h = Some b;
  nn_pos : ∀ t p, sc_pos (cg_chain (ks_update sc)) !! t = Some p → sc_pos (cg_chain (tr_cg x)) !! t = Some p;
  nn_tx : ∀ t, is_Some (get_tx (cg_graph (ks_update sc)) t) → is_Some (get_tx (cg_graph (tr_cg x)) t);
  nn_txout : ∀ o u, get_txout (cg_graph (ks_update sc)) o = Some u →
    is_Some (get_tx (cg_graph (tr_cg x)) (op_txid o)) ∨ get_txout (cg_graph (tr_cg x)) o = Some u;
  nn_active : ∀ k j, ks_active sc !! k = Some j → ∃ r, last_revealed_index (tr_index x) k = Some r ∧ j ≤ r
}.
End news.

Section syncs.
Context `{!DescEnv} `{Countable K, !Ord K}.
(** The wallet [x] becomes [x'] by a scan of the scripts [kspks], transactions [txids] and [outpoints] at an honest electrum
    server, which sees the world [w], and by applying the result; the caller fetches the missing transactions. *)
Definition wallet_asks (w : World) (gap : N) (kspks : gmap K (list (N * Script))) (txids : list Txid) (outpoints : list OutPoint)
    (x x' : Tracker K TxHeight) : Prop :=
  ∃ srv dbg fuel n n' batch e new_txs ho1 ho sc ord cs,
    (∀ m, electrum_honest w (srv m)) ∧ (0 < batch)%nat ∧ Forall (λ t, t ≤ max_txid) txids ∧
    Forall (λ o, is_Some (w_tx w (op_txid o))) outpoints ∧
    scan dbg srv (S fuel) (sc_cps (cg_chain (tr_cg x))) kspks txids outpoints gap batch n = Done n' e ∧
    Forall (λ t, w_tx w (txid t) = Some t) new_txs ∧
    (∀ i, i ∈ missing_full_txs e (cg_graph (tr_cg x)) → ∃ t, t ∈ new_txs ∧ txid t = i) ∧
    hash_order (inflate_graph (tr_cg x) (eu_chain e) new_txs) ho1 ∧ hash_fun_ok ho ∧
    ord ≡ₚ map_to_list (sc_pos (eu_chain e)) ∧
    into_keychain_scan ho1 e new_txs (tr_cg x) = Ret (Ok sc) ∧
    tr_apply_update (ho (cg_graph (tr_cg x))) x sc ord = Ret (Ok (x', cs)).
Definition wallet_sync (w : World) (gap : N) (kspks : gmap K (list (N * Script))) (x x' : Tracker K TxHeight) : Prop :=
  ∃ txids outpoints, wallet_asks w gap kspks txids outpoints x x'.
(** The second scan asks for nothing the first has not asked for: its lists of scripts are beginnings of the first's, its gap
    is no larger. *)
Definition asks_no_more (gap gap2 : N) (kspks kspks2 : gmap K (list (N * Script))) (txids txids2 : list Txid)
    (outpoints outpoints2 : list OutPoint) : Prop :=
  gap2 ≤ gap ∧ (∀ k l2, kspks2 !! k = Some l2 → ∃ l, kspks !! k = Some l ∧ l2 `prefix_of` l) ∧
  txids2 ⊆ txids ∧ outpoints2 ⊆ outpoints.
End syncs.

Section lives.
Context `{!DescEnv} `{Countable K, !Ord K}.
(** Worlds that can follow each other, reorganised or not: blocks commit to their ancestors, txids to transactions. *)
Record coherent (W : Txid → list OutPoint) (Fam : World → Prop) : Prop := {
  co_ok : ∀ w, Fam w → world_ok w ∧ world_sane W w ∧ ∀ t a, w_tx w t = Some a → tx_ok a;
  co_block : ∀ v w a b, Fam v → Fam w → a ≤ b → b ≤ w_tip v → b ≤ w_tip w → w_block v b = w_block w b → w_block v a = w_block w a;
  co_tx : ∀ v w t a b, Fam v → Fam w → w_tx v t = Some a → w_tx w t = Some b → a = b }.
(** One synchronisation, with an electrum server or with an esplora server, whatever the gap, the scripts and the rest. *)
Definition electrum_syncs (w : World) (x x' : Tracker K TxHeight) : Prop :=
  ∃ gap kspks, scripts_of (tr_index x) kspks ∧ wallet_sync w gap kspks x x'.
Definition esplora_syncs (time : World → N → N) (w : World) (x x' : Tracker K ConfirmationTime) : Prop :=
  ∃ srv ho fuel kspks txids outpoints gap par n n' sc ho' ord cs,
    (∀ m, esplora_honest w (time w) (srv m)) ∧ hash_fun_ok ho ∧ scripts_of (tr_index x) kspks ∧
    (∀ k l i sp, kspks !! k = Some l → (i, sp) ∈ l → (length (w_mempool w sp) ≤ 50)%nat ∧ (length (w_confirmed w sp) < 25 * S fuel)%nat) ∧
    ps_scan srv ho (S fuel) (sc_cps (cg_chain (tr_cg x))) kspks txids outpoints gap par n = Done n' sc ∧
    hash_fun_ok ho' ∧ ord ≡ₚ map_to_list (sc_pos (cg_chain (ks_update sc))) ∧
    tr_apply_update (ho' (cg_graph (tr_cg x))) x sc ord = Ret (Ok (x', cs)).

Context `{ChainPosition P}.
Implicit Types (v w : World) (x : Tracker K P) (Fam : World → Prop) (wpos : World → Txid → P).
(** The chain of the next world is at least as high. *)
Definition higher v w : Prop := w_tip v ≤ w_tip w.
(** It has the same blocks and more. *)
Definition extends wpos v w : Prop :=
  w_tip v ≤ w_tip w ∧ (∀ h, h ≤ w_tip v → w_block v h = w_block w h) ∧ ∀ t h, w_height v t = Some h → wpos w t = wpos v t.
(** What the wallet says is confirmed is, or it has a block at or below that shows a reorganisation. *)
Definition no_hidden_reorg wpos w x : Prop :=
  ∀ t p h, sc_pos (cg_chain (tr_cg x)) !! t = Some p → pos_height p = Confirmed h →
    p = wpos w t ∨ ∃ k b, k ≤ h ∧ sc_cps (cg_chain (tr_cg x)) !! k = Some b ∧ b ≠ w_block w k.
(** Blocks commit to their transactions. *)
Definition blocks_commit wpos Fam : Prop :=
  ∀ v w t h, Fam v → Fam w → w_height v t = Some h → h ≤ w_tip w → w_block v h = w_block w h → wpos w t = wpos v t.
(** What the wallet says is confirmed is, or it has a block at or below that shows a reorganisation, or it is [found] again. *)
Definition seen_again wpos w (found : Txid → Prop) x : Prop :=
  ∀ t p h, sc_pos (cg_chain (tr_cg x)) !! t = Some p → pos_height p = Confirmed h →
    p = wpos w t ∨ (∃ k b, k ≤ h ∧ sc_cps (cg_chain (tr_cg x)) !! k = Some b ∧ b ≠ w_block w k) ∨ found t.
(** Calls of the wallet's own: to the index, a transaction it has made, or another limit on checkpoints. *)
Definition own_call Fam (op : tr_op K P) : Prop :=
  match op with
  | TrIndex op => ∀ l, op ≠ KiScan l
  | TrTx _ t p => pos_height p = Unconfirmed ∧ ∀ w a, Fam w → w_tx w (txid t) = Some a → a = t
  | TrLimit lim => lim ≠ Some 0%nat
  | _ => False
  end.
(** The life of a wallet set up by [s] with the limit [lim] on checkpoints: while the world goes on by [R] the wallet makes calls of its own and
    synchronises by [Sy] under the condition [C], any number of times. *)
Inductive life (A : K → option Desc) (W : Txid → list OutPoint) Fam (R : World → World → Prop) (C : World → Tracker K P → Prop)
    (Sy : World → Tracker K P → Tracker K P → Prop) (s : list (ki_op K)) (lim : option nat) : World → Tracker K P → Prop :=
| life_new w x : Fam w → tr_setup s lim = Ret x → life A W Fam R C Sy s lim w x
| life_world v w x : life A W Fam R C Sy s lim v x → Fam w → R v w → life A W Fam R C Sy s lim w x
| life_call w x op x' l : life A W Fam R C Sy s lim w x → own_call Fam op → tr_op_ok A W s op → tr_step x op = Ret (x', l) → life A W Fam R C Sy s lim w x'
| life_sync w x x' : life A W Fam R C Sy s lim w x → C w x → Sy w x x' → life A W Fam R C Sy s lim w x'.
End lives.

(** Synchronisations that find every confirmed transaction a hidden reorganisation has moved. *)
Section seen.
Context `{!DescEnv} `{Countable K, !Ord K}.
Definition electrum_seen (w : World) (x x' : Tracker K TxHeight) : Prop :=
  ∃ gap kspks txids outpoints, scripts_of (tr_index x) kspks ∧ seen_again w_position w (sought w kspks txids outpoints gap) x ∧
    wallet_asks w gap kspks txids outpoints x x'.
Definition esplora_seen (time : World → N → N) (w : World) (x x' : Tracker K ConfirmationTime) : Prop :=
  ∃ srv ho fuel kspks txids outpoints gap par n n' sc ho' ord cs,
    seen_again (λ w, w_time_position w (time w)) w (stop_sought w kspks txids outpoints gap) x ∧
    (∀ m, esplora_honest w (time w) (srv m)) ∧ hash_fun_ok ho ∧ scripts_of (tr_index x) kspks ∧
    (∀ k l i sp, kspks !! k = Some l → (i, sp) ∈ l → (length (w_mempool w sp) ≤ 50)%nat ∧ (length (w_confirmed w sp) < 25 * S fuel)%nat) ∧
    ps_scan srv ho (S fuel) (sc_cps (cg_chain (tr_cg x))) kspks txids outpoints gap par n = Done n' sc ∧
    hash_fun_ok ho' ∧ ord ≡ₚ map_to_list (sc_pos (cg_chain (ks_update sc))) ∧
    tr_apply_update (ho' (cg_graph (tr_cg x))) x sc ord = Ret (Ok (x', cs)).
End seen.
