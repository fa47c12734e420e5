(** C69-C72: from an electrum scan to an updated wallet. *)
From Verif Require Import BaseProofs SyncProofs2 SyncExamples.

(** C70: the transactions listed as missing are those of the update that the graph does not have, each once. *)
Theorem C70_missing `{ChainPositionLaws P, Countable K, !Ord K} (e : ElectrumUpdate K P) g i :
  chain_ok (eu_chain e) →
  NoDup (missing_full_txs e g) ∧
  (i ∈ missing_full_txs e g ↔ is_Some (sc_pos (eu_chain e) !! i) ∧ get_tx g i = None).
Proof. exact (λ Hc, conj (missing_NoDup e g Hc) (missing_elem e g i Hc)). Qed.
Print Assumptions C70_missing.
(** With them, the update becomes one of the chain graph with every transaction in full; the only way to fail is a
    double spend within the update. *)
Theorem C70_inflate `{ChainPositionLaws P, Countable K, !Ord K} ho (e : ElectrumUpdate K P) (new_txs : list Tx) (cg : ChainGraph P) :
  cg_ok cg → chain_ok (eu_chain e) → hash_order (inflate_graph cg (eu_chain e) new_txs) ho →
  (∀ i, i ∈ missing_full_txs e (cg_graph cg) → ∃ t, t ∈ new_txs ∧ txid t = i) →
  match into_keychain_scan ho e new_txs cg with
  | Panic => False
  | Ret (Ok s) =>
      cg_chain (ks_update s) = eu_chain e ∧ ks_active s = eu_active e ∧ cg_ok (ks_update s) ∧
      ∀ i, is_Some (sc_pos (eu_chain e) !! i) →
        ∃ t, get_tx (cg_graph (ks_update s)) i = Some t ∧ txid t = i ∧
             (get_tx (cg_graph cg) i = Some t ∨ t ∈ new_txs)
  | Ret (Err (NewMissing _)) => False
  | Ret (Err (NewConflict (p, i) (q, j))) =>
      i ≠ j ∧ sc_pos (eu_chain e) !! i = Some p ∧ sc_pos (eu_chain e) !! j = Some q ∧
      ∃ a b, (get_tx (cg_graph cg) i = Some a ∨ a ∈ new_txs) ∧ (get_tx (cg_graph cg) j = Some b ∨ b ∈ new_txs) ∧
             txid a = i ∧ txid b = j ∧ double_spend a b
  end.
Proof. exact (into_scan_spec ho e new_txs cg). Qed.
Print Assumptions C70_inflate.
Example C70_ex : cg_ok ex_graph_wallet ∧ chain_ok (eu_chain ex_update) ∧
  missing_full_txs ex_update (cg_graph ex_graph_wallet) = [8; 9] ∧
  (∀ i, i ∈ missing_full_txs ex_update (cg_graph ex_graph_wallet) → ∃ t, t ∈ [ex_txB; ex_txC] ∧ txid t = i).
Proof.
  split; [exact ex_graph_wallet_ok|]. split; [exact (proj1 (sf_usable _ _ _ _ _ _ _ ex_update_complete))|].
  rewrite ex_missing. split; [done|].
  intros i [-> |[-> |[]%elem_of_nil]%elem_of_cons]%elem_of_cons; [exists ex_txB|exists ex_txC]; (split; [|done]); set_solver.
Qed.

(** C71: from a server that knows the time of every block an update gets the right times, and nothing else changes. *)
Theorem C71_times (time : N → N) `{Countable K, !Ord K} (srv : nat → ESnap) (e : ElectrumUpdate K TxHeight) :
  (∀ h, time h ≤ u64_max) → (∀ n l, es_times (srv n) l = Ok (time <$> l)) →
  chain_ok (eu_chain e) → below_max (eu_chain e) → confirmed_below_tip (eu_chain e) →
  ends (into_confirmation_time_update srv e) (λ e',
    chain_ok (eu_chain e') ∧ sc_cps (eu_chain e') = sc_cps (eu_chain e) ∧ eu_active e' = eu_active e ∧
    ∀ i, sc_pos (eu_chain e') !! i = timed time <$> sc_pos (eu_chain e) !! i).
Proof. exact (λ Ht Hs Hc Hb Hcbt, confirmation_times_ends time Ht srv e Hc Hb Hcbt Hs). Qed.
Print Assumptions C71_times.
Example C71_ex : usable_update (eu_chain ex_update) ∧
  show_times (into_confirmation_time_update (λ _, timed_server ex_w (λ h, 1000 + 600 * h)) ex_update 8%nat) =
  Some (9%nat, [(3, 53); (4, 54); (6, 56)], [(7, CtConfirmed 3 2800); (8, CtConfirmed 5 4000); (9, CtUnconfirmed)], [(0, 4); (1, 0)]).
Proof. exact (conj (sf_usable _ _ _ _ _ _ _ ex_update_complete) ex_times). Qed.
(** A server that sends fewer headers than it was asked for makes the client panic. *)
Theorem C71_short_refuted : ∃ srv (e : ElectrumUpdate N TxHeight), usable_update (eu_chain e) ∧
  es_times (srv 8%nat) [3; 5] = Ok [] ∧ into_confirmation_time_update srv e 8%nat = Crashed.
Proof.
  exact (ex_intro _ (λ _, short_server ex_w) (ex_intro _ ex_update
    (conj (sf_usable _ _ _ _ _ _ _ ex_update_complete) (conj eq_refl ex_short)))).
Qed.
Print Assumptions C71_short_refuted.

(** C69: scanning plain scripts finds the history of every one of them. *)
Theorem C69_scripts (w : World) (srv : nat → ESnap) dbg fuel (local : gmap N BlockHash) (spks : list Script)
  (txids : list Txid) (outpoints : list OutPoint) (batch : nat) :
  world_ok w → (∀ n, electrum_honest w (srv n)) → (∀ h, is_Some (local !! h) → h ≤ w_tip w) → (0 < batch)%nat →
  N.of_nat (length spks) ≤ u64_max →
  Forall (λ t, t ≤ max_txid) txids → Forall (λ o, is_Some (w_tx w (op_txid o))) outpoints →
  ends (scan_without_keychain dbg srv (S fuel) local spks txids outpoints batch) (λ c,
    usable_update c ∧ connects w local (sc_cps c) ∧
    (∀ t p, sc_pos c !! t = Some p → p = w_position w t) ∧
    (∀ o, o ∈ outpoints → outpoint_found w c o) ∧
    (∀ s t, s ∈ spks → t ∈ w_history w s → is_Some (sc_pos c !! t)) ∧
    (∀ t, t ∈ txids → is_Some (w_tx w t) → is_Some (sc_pos c !! t)) ∧
    (∀ t, is_Some (sc_pos c !! t) → (∃ s, s ∈ spks ∧ t ∈ w_history w s) ∨ t ∈ txids ∧ is_Some (w_tx w t) ∨ ∃ o, o ∈ outpoints ∧ w_output w o ∧ around w o t)).
Proof. exact (plain_scan_ends w srv dbg fuel local spks txids outpoints batch). Qed.
Print Assumptions C69_scripts.
Example C69_scripts_ex : (world_ok ex_w ∧ electrum_honest ex_w (honest ex_w)) ∧
  match scan_without_keychain true (λ _, honest ex_w) 3 ex_local [10; 20; 11; 12; 13; 14; 22] [] [] 2 0%nat with
  | Done _ c => bmap_list (sc_pos c) = [(7, Confirmed 3); (8, Confirmed 5); (9, Unconfirmed)]
  | _ => False
  end.
Proof. split; [exact ex_w_ok|vm_compute; reflexivity]. Qed.

(** C72: a wallet that is right about everything up to the fork can always synchronise with an honest server: the
    scan ends, the update is accepted, everything found is in the chain afterwards, and nothing is confirmed that the
    server does not have there.  A transaction confirmed between the last common checkpoint and the first one
    reorganised away may be elsewhere if the scan asks for it ([ls_pos]).  Missing: such transactions that the scan does not
    find, because they are gone or not asked for. *)
Theorem C72_sync_partial W w dbg srv `{Countable K, !Ord K, !OrdLaws K} fuel (cg : ChainGraph TxHeight)
  (kspks : gmap K (list (N * Script))) (txids : list Txid) (outpoints : list OutPoint) (gap : N) (batch : nat) :
  world_ok w → world_sane W w → (∀ n, electrum_honest w (srv n)) →
  cg_ok cg → inputs_by_txid W (cg_graph cg) → below_max (cg_chain cg) → confirmed_below_tip (cg_chain cg) →
  local_seen w (w_position w) (sought w kspks txids outpoints gap) (cg_chain cg) → (0 < batch)%nat →
  Forall (λ t, t ≤ max_txid) txids → Forall (λ o, is_Some (w_tx w (op_txid o))) outpoints →
  ends (scan dbg srv (S fuel) (sc_cps (cg_chain cg)) kspks txids outpoints gap batch)
    (λ e, scan_complete w (sc_cps (cg_chain cg)) kspks txids outpoints gap e ∧
      ∀ (new_txs : list Tx) ho1 ho ord,
      Forall (λ t, w_tx w (txid t) = Some t) new_txs →
      (∀ i, i ∈ missing_full_txs e (cg_graph cg) → ∃ t, t ∈ new_txs ∧ txid t = i) →
      hash_order (inflate_graph cg (eu_chain e) new_txs) ho1 → hash_order (cg_graph cg) ho →
      ord ≡ₚ map_to_list (sc_pos (eu_chain e)) →
      ∃ s cg' cs, into_keychain_scan ho1 e new_txs cg = Ret (Ok s) ∧ ks_active s = eu_active e ∧
        cg_apply_update ho cg (ks_update s) ord = Ret (Ok (cg', cs)) ∧
        (∀ t p, sc_pos (eu_chain e) !! t = Some p → sc_pos (cg_chain cg') !! t = Some p) ∧
        (∀ t h, sc_pos (cg_chain cg') !! t = Some (Confirmed h) → w_height w t = Some h)).
Proof. exact (λ Hw Hs Hh, electrum_sync W w Hw Hs srv Hh dbg fuel cg kspks txids outpoints gap batch). Qed.
Print Assumptions C72_sync_partial.
(** The same for wallets that keep confirmation times. *)
Theorem C72_sync_times_partial W w (time : N → N) dbg srv `{Countable K, !Ord K, !OrdLaws K} fuel (cg : ChainGraph ConfirmationTime)
  (kspks : gmap K (list (N * Script))) (txids : list Txid) (outpoints : list OutPoint) (gap : N) (batch : nat) :
  world_ok w → world_sane W w → (∀ n, electrum_honest w (srv n)) →
  (∀ h, time h ≤ u64_max) → (∀ n l, es_times (srv n) l = Ok (time <$> l)) →
  cg_ok cg → inputs_by_txid W (cg_graph cg) → below_max (cg_chain cg) → confirmed_below_tip (cg_chain cg) →
  local_seen w (timed time ∘ w_position w) (sought w kspks txids outpoints gap) (cg_chain cg) → (0 < batch)%nat →
  Forall (λ t, t ≤ max_txid) txids → Forall (λ o, is_Some (w_tx w (op_txid o))) outpoints →
  ends (bnd (scan dbg srv (S fuel) (sc_cps (cg_chain cg)) kspks txids outpoints gap batch)
          (into_confirmation_time_update srv))
    (λ e, ∀ (new_txs : list Tx) ho1 ho ord,
      Forall (λ t, w_tx w (txid t) = Some t) new_txs →
      (∀ i, i ∈ missing_full_txs e (cg_graph cg) → ∃ t, t ∈ new_txs ∧ txid t = i) →
      hash_order (inflate_graph cg (eu_chain e) new_txs) ho1 → hash_order (cg_graph cg) ho →
      ord ≡ₚ map_to_list (sc_pos (eu_chain e)) →
      ∃ s cg' cs, into_keychain_scan ho1 e new_txs cg = Ret (Ok s) ∧ ks_active s = eu_active e ∧
        cg_apply_update ho cg (ks_update s) ord = Ret (Ok (cg', cs)) ∧
        (∀ k l p i s t, kspks !! k = Some l → l !! p = Some (i, s) → within_gap gap (activity w l) p →
           t ∈ w_history w s → sc_pos (cg_chain cg') !! t = Some (timed time (w_position w t))) ∧
        (∀ t h tm, sc_pos (cg_chain cg') !! t = Some (CtConfirmed h tm) → w_height w t = Some h ∧ tm = time h)).
Proof. exact (λ Hw Hs Hh, electrum_sync_times W w Hw Hs srv Hh time dbg fuel cg kspks txids outpoints gap batch). Qed.
Print Assumptions C72_sync_times_partial.
(** Transaction 7, unconfirmed in the wallet, was replaced by 6 in a reorganisation from block 4 on. *)
Example C72_ex : (world_ok sy_after ∧ world_sane sy_W sy_after ∧ electrum_honest sy_after (honest sy_after)) ∧
  built sy_W (sy_wallet Unconfirmed) ∧ local_true sy_after (w_position sy_after) (cg_chain (sy_wallet Unconfirmed)) ∧
  sy_show (sy_sync sy_after (sy_wallet Unconfirmed)) = Some (Ok ([(3, 53); (10, 100); (11, 101)], [(6, Confirmed 6)])).
Proof. exact (conj (proj2 sy_worlds) (conj (sy_built Unconfirmed I) (conj sy_true_after sy_sync_unconfirmed))). Qed.
(** A wallet with checkpoints at blocks 3 and 10 that rightly had transaction 7 confirmed in block 5: after a
    reorganisation from block 4 on, in which 6 took the coin, no synchronisation succeeds any more. *)
Theorem C72_refuted : ∃ W wA wB (cg : ChainGraph TxHeight) kspks n (e : ElectrumUpdate N TxHeight) txs ho1 ho s,
  built W cg ∧ confirmed_below_tip (cg_chain cg) ∧
  (world_ok wA ∧ world_sane W wA) ∧ local_true wA (w_position wA) (cg_chain cg) ∧
  (world_ok wB ∧ world_sane W wB ∧ electrum_honest wB (honest wB)) ∧
  scan true (λ _, honest wB) 3 (sc_cps (cg_chain cg)) kspks [] [] 5 2 0%nat = Done n e ∧
  txs = omap (w_tx wB) (missing_full_txs e (cg_graph cg)) ∧
  into_keychain_scan ho1 e txs cg = Ret (Ok s) ∧ hash_order (cg_graph cg) ho ∧
  cg_apply_update ho cg (ks_update s) (map_to_list (sc_pos (eu_chain e))) =
    Ret (Err (CgUpdConflict {| uc_confirmed := (Confirmed 5, 7); uc_update := (Confirmed 6, 6) |})).
Proof.
  destruct sy_stuck_scan as [n Hn].
  exists sy_W, sy_before, sy_after, sy_stuck, {[ 0 := [(0, 20); (1, 21)] ]}, n, sy_e, sy_txs, sy_ho1,
    (exho (cg_graph sy_stuck)), sy_s.
  split; [by apply sy_built|]. split; [exact (proj2 (sy_wallet_below _ (or_intror eq_refl)))|].
  split; [exact (conj (proj1 (proj1 sy_worlds)) (proj1 (proj2 (proj1 sy_worlds))))|].
  split; [exact sy_true_before|]. split; [exact (proj2 sy_worlds)|].
  split; [exact Hn|]. split; [done|]. split; [exact sy_stuck_inflate|].
  split; [apply exho_ok|exact sy_stuck_apply].
Qed.
Print Assumptions C72_refuted.
