(** Specification vocabulary for esplora scans: what a server may answer, what an honest one
    answers, what the scan must find. *)
From Verif Require Export ScanSpec.

(** Transactions with 32-byte txids that determine their inputs; times are [u64]. *)
Definition tx_typed (W : Txid → list OutPoint) (x : Tx) : Prop := txid x ≤ max_txid ∧ tx_in x = W (txid x).
Definition status_typed (s : TxStatus) : Prop := ∀ tm, st_time s = Some tm → tm ≤ u64_max.
(** Responses the types allow; the height of the tip is below [u32::MAX]. *)
Record esplora_typed (W : Txid → list OutPoint) (s : PSnap) : Prop := {
  pt_height : ∀ h, ps_height s = Ok h → h < u32_max;
  pt_script : ∀ k a l e, ps_script_txs s k a = Ok l → e ∈ l → tx_typed W (et_tx e) ∧ status_typed (et_status e);
  pt_tx : ∀ i x, ps_tx s i = Ok (Some x) → tx_typed W x;
  pt_status : ∀ i st, ps_tx_status s i = Ok (Some st) → status_typed st;
  pt_output : ∀ i v os st, ps_output_status s i v = Ok (Some os) → os_status os = Some st → status_typed st
}.

(** The status of a transaction in the world [w] whose block [h] has time [time h]. *)
Definition w_status (w : World) (time : N → N) (t : Txid) : TxStatus :=
  match w_height w t with Some h => mkStatus true (Some h) (Some (time h)) | None => mkStatus false None None end.
Definition w_time_position (w : World) (time : N → N) (t : Txid) : ConfirmationTime :=
  match w_height w t with Some h => CtConfirmed h (time h) | None => CtUnconfirmed end.
(** The unconfirmed and the confirmed transactions of a script. *)
Definition w_mempool (w : World) (k : Script) : list Txid := filter (λ t, w_height w t = None) (w_history w k).
Definition w_confirmed (w : World) (k : Script) : list Txid := filter (λ t, is_Some (w_height w t)) (w_history w k).
(** [l] lists the transactions [ts]. *)
Definition esplora_entries (w : World) (time : N → N) (ts : list Txid) (l : list EsploraTx) : Prop :=
  Forall2 (λ t e, et_txid e = t ∧ w_tx w t = Some (et_tx e) ∧ et_status e = w_status w time t) ts l.
(** An esplora server that tells the truth about [w]: the first page of a script has up to 50
    unconfirmed transactions and 25 confirmed ones, every other page the next 25 confirmed
    ones after the given one. *)
Record esplora_honest (w : World) (time : N → N) (s : PSnap) : Prop := {
  ph_block : ∀ h, h ≤ w_tip w → ps_block_hash s h = Ok (w_block w h);
  ph_height : ps_height s = Ok (w_tip w);
  ph_tip : ps_tip_hash s = Ok (w_block w (w_tip w));
  ph_first : ∀ k, ∃ l, ps_script_txs s k None = Ok l ∧
    esplora_entries w time (take 50 (w_mempool w k) ++ take 25 (w_confirmed w k)) l;
  ph_next : ∀ k i t, w_confirmed w k !! i = Some t → ∃ l, ps_script_txs s k (Some t) = Ok l ∧
    esplora_entries w time (take 25 (drop (S i) (w_confirmed w k))) l;
  ph_tx : ∀ t, ps_tx s t = Ok (w_tx w t);
  ph_status : ∀ t, is_Some (w_tx w t) → ps_tx_status s t = Ok (Some (w_status w time t));
  ph_status_any : ∀ t, ∃ st, ps_tx_status s t = Ok st;
  ph_output : ∀ t v, ∃ os, ps_output_status s t v = Ok os ∧
    (∀ o, os = Some o → ∀ i st, os_txid o = Some i → os_status o = Some st →
       w_spends w (mkOutPoint t v) i ∧ st = w_status w time i) ∧
    (∀ i, w_spends w (mkOutPoint t v) i → ∃ o, os = Some o ∧ os_txid o = Some i ∧ os_status o = Some (w_status w time i))
}.

(** Script [p] is active and fewer than [gap] inactive ones in a row come before it. *)
Definition within_stop_gap (gap : N) (act : list bool) (p : nat) : Prop :=
  act !! p = Some true ∧ ¬ gap_before gap act p.
(** The last [gap] scripts before position [n] are inactive. *)
Definition idle_end (gap : N) (act : list bool) (n : nat) : Prop :=
  ∃ s : nat, N.of_nat s + gap ≤ N.of_nat n ∧ ∀ i : nat, (s ≤ i)%nat → (i < n)%nat → act !! i = Some false.
(** What a scan of the scripts [l] of one keychain did: it looked at the first [n] of them, where it stopped at the end or after
    the first batch of [parallel] with which [gap] inactive ones in a row came to an end: among these are all active ones
    within the gap but none after [gap + parallel - 1] inactive ones in a row; [active] is the last active index among them. *)
Record scanned_first (w : World) (gap : N) (parallel : nat) (l : list (N * Script)) (n : nat) (active : option N) : Prop := {
  sn_length : (n ≤ length l)%nat;
  sn_stops : n = length l ∨ (∃ m, 0 < m ∧ n = m * parallel)%nat ∧ idle_end gap (activity w l) n;
  sn_first : ∀ m, (0 < m)%nat → (m * parallel < n)%nat → ¬ idle_end gap (activity w l) (m * parallel);
  sn_within : ∀ p, within_stop_gap gap (activity w l) p → (p < n)%nat;
  sn_beyond : ∀ p, 0 < gap → gap_before (gap + N.of_nat parallel - 1) (activity w l) p → (n ≤ p)%nat;
  sn_active : active = (λ e : N * Script, e.1) <$> last (filter (λ e : N * Script, w_history w e.2 ≠ []) (take n l))
}.

(** [t] is what a scan has to find: see [sought]. *)
Definition stop_sought (w : World) `{Countable K} (kspks : gmap K (list (N * Script))) (txids : list Txid) (outpoints : list OutPoint) (gap : N) (t : Txid) : Prop :=
  (∃ k l p i s, kspks !! k = Some l ∧ l !! p = Some (i, s) ∧ within_stop_gap gap (activity w l) p ∧ t ∈ w_history w s) ∨
  t ∈ txids ∧ is_Some (w_tx w t) ∨ ∃ o, o ∈ outpoints ∧ is_Some (w_tx w (op_txid o)) ∧ (t = op_txid o ∨ w_spends w o t).
(** What an esplora scan should come back with. *)
Record esplora_complete (w : World) (time : N → N) `{Countable K} (local : gmap N BlockHash)
  (kspks : gmap K (list (N * Script))) (txids : list Txid) (outpoints : list OutPoint) (gap : N) (parallel : nat)
  (s : KScan K ConfirmationTime) : Prop := {
  (** a proper chain graph with the right blocks and positions *)
  pc_ok : cg_ok (ks_update s);
  pc_usable : usable_update (cg_chain (ks_update s));
  pc_blocks : connects w local (sc_cps (cg_chain (ks_update s)));
  pc_true : ∀ t p, sc_pos (cg_chain (ks_update s)) !! t = Some p → p = w_time_position w time t;
  pc_txs : ∀ t x, get_tx (cg_graph (ks_update s)) t = Some x → w_tx w t = Some x;
  pc_whole : ∀ t m, tg_txs (cg_graph (ks_update s)) !! t ≠ Some (Partial m);
  pc_graph : ∀ t, is_Some (get_tx (cg_graph (ks_update s)) t) → in_chain (ks_update s) t;
  (** the scripts of each keychain up to the gap, with all their transactions *)
  pc_scripts : ∀ k l, kspks !! k = Some l → ∃ n, scanned_first w gap parallel l n (ks_active s !! k) ∧
    ∀ i sc t, (i, sc) ∈ take n l → t ∈ w_history w sc → in_chain (ks_update s) t;
  pc_keychains : ∀ k i, ks_active s !! k = Some i → is_Some (kspks !! k);
  (** the transactions and outpoints asked for *)
  pc_txids : ∀ t, t ∈ txids → is_Some (w_tx w t) → in_chain (ks_update s) t;
  pc_outpoints : ∀ o, o ∈ outpoints → is_Some (w_tx w (op_txid o)) →
    in_chain (ks_update s) (op_txid o) ∧ ∀ i, w_spends w o i → in_chain (ks_update s) i;
  (** nothing that was not asked for *)
  pc_only : ∀ t, in_chain (ks_update s) t → is_Some (w_tx w t) ∧
    ((∃ k l n i sc, kspks !! k = Some l ∧ scanned_first w gap parallel l n (ks_active s !! k) ∧ (i, sc) ∈ take n l ∧ t ∈ w_history w sc) ∨ t ∈ txids ∨
     ∃ o, o ∈ outpoints ∧ around w o t)
}.
