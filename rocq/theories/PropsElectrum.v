(** C58-C61, C69: electrum scans. *)
From Verif Require Import BaseProofs ElectrumProofs ElectrumProofs2 ElectrumProofs3 ElectrumProofs4 ElectrumProofs5 ScanExamples.

(** C58: against an honest server whose chain does not change an update is prepared in the first attempt; it has
    no transactions yet, and its blocks are the server's at the tip, at every local height above the common blocks
    and at the highest common one. *)
Theorem C58_prepared w srv fuel local :
  world_ok w → (∀ n, electrum_honest w (srv n)) → (∀ h, is_Some (local !! h) → h ≤ w_tip w) →
  ends (prepare_update srv (S fuel) local) (λ u, chain_ok u ∧ sc_pos u = ∅ ∧ connects w local (sc_cps u)).
Proof.
  exact (λ Hw Hs Hl, ends_weaken _ _ _ (prepare_update_ends w Hw srv Hs fuel local Hl)
           (λ u Hu, conj (proj1 (proj1 Hu)) (proj2 Hu))).
Qed.
Print Assumptions C58_prepared.
(** Applying an update with such blocks never fails for lack of a connection. *)
Theorem C58_connects w `{ChainPositionLaws P} (c u : SparseChain P) ord :
  chain_ok c → below_max c → ord ≡ₚ map_to_list (sc_pos u) → (∀ h, is_Some (sc_cps c !! h) → h ≤ w_tip w) →
  connects w (sc_cps c) (sc_cps u) → ∀ h, determine_changeset c u ord ≠ Ret (Err (NotConnected h)).
Proof. exact (connects_connected w c u ord). Qed.
Print Assumptions C58_connects.
Example C58_ex : (world_ok ex_w ∧ electrum_honest ex_w (honest ex_w)) ∧ (∀ h, is_Some (ex_local !! h) → h ≤ w_tip ex_w) ∧
  (show (ex_scan ex_w ex_kspks [] [] 1 2) =
    Some (7%nat, [(3, 53); (4, 54); (6, 56)], [(7, Confirmed 3); (8, Confirmed 5)], [(0, 1); (1, 0)])).
Proof. exact (conj ex_w_ok (conj ex_local_low ex_scan_gap1)). Qed.
(** A server that reorganises between its answers can make the update keep a block that is gone (55 at height 5). *)
Theorem C58_reorg_refuted : ∃ wA wB srv local kspks n (e : ElectrumUpdate N TxHeight),
  world_ok wA ∧ world_ok wB ∧ (∀ n, (n < 1)%nat → electrum_honest wA (srv n)) ∧
  (∀ n, (1 ≤ n)%nat → electrum_honest wB (srv n)) ∧
  scan true srv 3 local kspks [] [] 20 1 0%nat = Done n e ∧
  sc_cps (eu_chain e) !! 5 = Some 55 ∧ local !! 5 = Some 55 ∧ w_block wB 5 = 95.
Proof.
  exists ex_w, ex_moved, (reorg 1 ex_w ex_moved), {[ 5 := 55 ]}, ex_one. eexists _, _.
  split; [exact (proj1 ex_reorg_worlds_ok)|]. split; [exact (proj2 (proj2 ex_reorg_worlds_ok))|].
  destruct (reorg_honest 1 6 (N.add 50) 3 7 (λ h, if h <? 4 then 50 + h else 90 + h) 4) as [HA HB]; [done..|].
  split; [exact HA|]. split; [exact HB|]. split; [vm_compute; reflexivity|]. by vm_compute.
Qed.
Print Assumptions C58_reorg_refuted.

(** C59: whatever the server answers (as long as it keeps to the protocol), scanning never panics; the
    update is a consistent chain and no transaction of it is confirmed above its tip. *)
Theorem C59_electrum dbg srv `{Countable K, !Ord K} fuel local (kspks : gmap K (list (N * Script)))
  (txids : list Txid) (outpoints : list OutPoint) (gap : N) (batch : nat) :
  (∀ n, electrum_typed dbg (srv n)) → (∀ h, is_Some (local !! h) → h < u32_max) → Forall (λ t, t ≤ max_txid) txids →
  safe (scan dbg srv fuel local kspks txids outpoints gap batch) (λ e, usable_update (eu_chain e) ∧ ∃ tip, is_tip (eu_chain e) tip ∧
    ∀ t h, sc_pos (eu_chain e) !! t = Some (Confirmed h) → h ≤ tip).
Proof. exact (λ Ht, scan_safe dbg srv Ht fuel local kspks txids outpoints gap batch). Qed.
Print Assumptions C59_electrum.
(** A server that counts a block the client has not heard of: the transaction is reported unconfirmed. *)
Example C59_electrum_ex : (∀ n, electrum_typed true (ahead n)) ∧
  show (scan true ahead 3 ∅ {[ 0 := [(0, 20)] ]} [] [] 5 5 0%nat) =
    Some (3%nat, [(6, 56)], [(7, Unconfirmed); (8, Confirmed 5)], [(0, 0)]).
Proof. exact (conj ahead_typed ex_ahead). Qed.
(** In the debug profile a height below -1 panics. *)
Theorem C59_debug_refuted : ∃ srv, (∀ n, electrum_typed false (srv n)) ∧
  scan true srv 3 ∅ {[ 0 := [(0, 20)] ]} [] [] 5 5 0%nat = Crashed.
Proof. exact (ex_intro _ below (conj below_typed ex_below)). Qed.
Print Assumptions C59_debug_refuted.

(** C60, C69: a scan of an honest server that does not change comes back, in one round, with everything it should
    and nothing else ([scan_complete]). *)
Theorem C60_electrum w dbg srv `{Countable K, !Ord K, !OrdLaws K} fuel local (kspks : gmap K (list (N * Script)))
  (txids : list Txid) (outpoints : list OutPoint) (gap : N) (batch : nat) :
  world_ok w → (∀ n, electrum_honest w (srv n)) → (∀ h, is_Some (local !! h) → h ≤ w_tip w) → (0 < batch)%nat →
  Forall (λ t, t ≤ max_txid) txids → Forall (λ o, is_Some (w_tx w (op_txid o))) outpoints →
  ends (scan dbg srv (S fuel) local kspks txids outpoints gap batch)
    (scan_complete w local kspks txids outpoints gap).
Proof. exact (λ Hw Hs, scan_ends w Hw dbg srv Hs fuel local kspks txids outpoints gap batch). Qed.
Print Assumptions C60_electrum.
Example C60_electrum_ex : (world_ok ex_w ∧ electrum_honest ex_w (honest ex_w)) ∧
  (∀ h, is_Some (ex_local !! h) → h ≤ w_tip ex_w) ∧
  within_gap 2 (activity ex_w [(0, 10); (1, 20); (2, 11); (3, 12); (4, 22); (5, 13)]) 4 ∧
  show (ex_scan ex_w ex_kspks [] [] 2 2) =
    Some (8%nat, [(3, 53); (4, 54); (6, 56)], [(7, Confirmed 3); (8, Confirmed 5); (9, Unconfirmed)], [(0, 4); (1, 0)]).
Proof. exact (conj ex_w_ok (conj ex_local_low (conj ex_within_gap ex_scan_gap2))). Qed.
Example C69_electrum_ex : show (ex_scan ex_w ∅ [8; 11] [mkOutPoint 7 1; mkOutPoint 9 0] 1 1) =
  Some (12%nat, [(3, 53); (4, 54); (6, 56)], [(7, Confirmed 3); (8, Confirmed 5); (9, Unconfirmed)], []).
Proof. exact ex_scan_others. Qed.
(** An outpoint of a transaction the server does not know makes the whole scan fail. *)
Theorem C69_unknown_outpoint_refuted : ∃ w srv n, world_ok w ∧ (∀ n, electrum_honest w (srv n)) ∧ w_tx w 11 = None ∧
  7 ∈ w_history w 20 ∧ scan true srv 3 ∅ ({[ 0 := [(0, 20)] ]} : gmap N _) [] [mkOutPoint 11 0] 20 5 0%nat = Failed n Protocol.
Proof.
  exists ex_w, (λ _, honest ex_w). eexists. split; [exact (proj1 ex_w_ok)|]. split; [exact (λ _, proj2 ex_w_ok)|].
  split; [done|]. split; [left|vm_compute; reflexivity].
Qed.
Print Assumptions C69_unknown_outpoint_refuted.
(** With a batch size of zero no script is looked at. *)
Theorem C60_batch_zero_refuted : ∃ w srv n (e : ElectrumUpdate N TxHeight),
  world_ok w ∧ (∀ n, electrum_honest w (srv n)) ∧ scan true srv 3 ∅ {[ 0 := [(0, 20)] ]} [] [] 20 0 0%nat = Done n e ∧
  7 ∈ w_history w 20 ∧ sc_pos (eu_chain e) !! 7 = None.
Proof.
  exists ex_w, (λ _, honest ex_w). eexists _, _. split; [exact (proj1 ex_w_ok)|]. split; [exact (λ _, proj2 ex_w_ok)|].
  split; [vm_compute; reflexivity|]. split; [left|by vm_compute].
Qed.
Print Assumptions C60_batch_zero_refuted.

(** C61: if the server reorganises once while it is scanned, then an update finished before that is complete; of
    one finished afterwards the positions are right, and the transactions and outpoints asked for are there.
    Missing: the scripts. *)
Theorem C61_partial wA wB dbg srv n0 `{Countable K, !Ord K, !OrdLaws K} fuel local (kspks : gmap K (list (N * Script)))
  (txids : list Txid) (outpoints : list OutPoint) (gap : N) (batch : nat) n e :
  world_ok wA → world_ok wB → (0 < n0)%nat →
  (∀ n, (n < n0)%nat → electrum_honest wA (srv n)) → (∀ n, (n0 ≤ n)%nat → electrum_honest wB (srv n)) →
  (∀ h, is_Some (local !! h) → h ≤ w_tip wA) → w_tip wA ≤ w_tip wB → w_block wB (w_tip wA) ≠ w_block wA (w_tip wA) →
  (0 < batch)%nat → Forall (λ t, t ≤ max_txid) txids →
  Forall (λ o, is_Some (w_tx wA (op_txid o)) ∧ is_Some (w_tx wB (op_txid o))) outpoints →
  scan dbg srv (S fuel) local kspks txids outpoints gap batch 0%nat = Done n e →
  ((n ≤ n0)%nat → scan_complete wA local kspks txids outpoints gap e) ∧
  ((n0 < n)%nat →
    (∀ t p, sc_pos (eu_chain e) !! t = Some p → p = w_position wB t) ∧
    (∀ t, t ∈ txids → is_Some (w_tx wB t) → is_Some (sc_pos (eu_chain e) !! t)) ∧
    (∀ o, o ∈ outpoints → outpoint_found wB (eu_chain e) o)).
Proof. exact (scan_reorg wA wB dbg srv n0 fuel local kspks txids outpoints gap batch n e). Qed.
Print Assumptions C61_partial.
Example C61_ex : (world_ok ex_w ∧ world_ok ex_tip_gone ∧ world_ok ex_moved) ∧
  w_block ex_moved (w_tip ex_w) = 96 ∧ w_block ex_w (w_tip ex_w) = 56 ∧
  show (scan true (reorg 4 ex_w ex_moved) 3 ∅ ex_one [8] [mkOutPoint 7 0] 20 1 0%nat) =
    Some (16%nat, [(7, 97)], [(7, Confirmed 4); (8, Confirmed 5); (9, Unconfirmed)], [(0, 1)]).
Proof. exact (conj ex_reorg_worlds_ok ex_reorg_found). Qed.
(** Two keychains: only the tip is replaced.  The second keychain's history is lost because the scripts already
    scanned are scanned again as if they belonged to one keychain. *)
Theorem C61_two_keychains_refuted : ∃ wA wB srv kspks n (e : ElectrumUpdate N TxHeight) l,
  world_ok wA ∧ world_ok wB ∧ (∀ n, (n < 3)%nat → electrum_honest wA (srv n)) ∧
  (∀ n, (3 ≤ n)%nat → electrum_honest wB (srv n)) ∧
  scan true srv 3 ∅ kspks [] [] 1 2 0%nat = Done n e ∧
  kspks !! 1 = Some l ∧ within_gap 1 (activity wB l) 0 ∧ l !! 0%nat = Some (0, 20) ∧ 7 ∈ w_history wB 20 ∧
  sc_pos (eu_chain e) !! 7 = None.
Proof.
  exists ex_w, ex_tip_gone, (reorg 3 ex_w ex_tip_gone), ex_two. eexists _, _, [(0, 20)].
  split; [exact (proj1 ex_reorg_worlds_ok)|]. split; [exact (proj1 (proj2 ex_reorg_worlds_ok))|].
  destruct (reorg_honest 3 6 (N.add 50) 3 6 (λ h, if h =? 6 then 99 else 50 + h) 3) as [HA HB]; [done..|].
  split; [exact HA|]. split; [exact HB|]. split; [vm_compute; reflexivity|]. split; [by vm_compute|].
  split; [exact (first_within_gap 1 ex_tip_gone [] (0, 20) eq_refl)|]. split; [done|]. split; [left|by vm_compute].
Qed.
Print Assumptions C61_two_keychains_refuted.
(** One keychain: a transaction moves between two batches.  The scripts scanned so far are dropped. *)
Theorem C61_moved_refuted : ∃ wA wB srv kspks n (e : ElectrumUpdate N TxHeight) l,
  world_ok wA ∧ world_ok wB ∧ (∀ n, (n < 2)%nat → electrum_honest wA (srv n)) ∧
  (∀ n, (2 ≤ n)%nat → electrum_honest wB (srv n)) ∧
  scan true srv 3 ∅ kspks [] [] 20 1 0%nat = Done n e ∧
  kspks !! 0 = Some l ∧ within_gap 20 (activity wB l) 0 ∧ l !! 0%nat = Some (0, 20) ∧ 7 ∈ w_history wB 20 ∧
  sc_pos (eu_chain e) = ∅.
Proof.
  exists ex_w, ex_moved, (reorg 2 ex_w ex_moved), ex_one. eexists _, _, [(0, 20); (1, 21)].
  split; [exact (proj1 ex_reorg_worlds_ok)|]. split; [exact (proj2 (proj2 ex_reorg_worlds_ok))|].
  destruct (reorg_honest 2 6 (N.add 50) 3 7 (λ h, if h <? 4 then 50 + h else 90 + h) 4) as [HA HB]; [done..|].
  split; [exact HA|]. split; [exact HB|]. split; [vm_compute; reflexivity|]. split; [by vm_compute|].
  split; [exact (first_within_gap 20 ex_moved [(1, 21)] (0, 20) eq_refl)|]. split; [done|]. split; [left|by vm_compute].
Qed.
Print Assumptions C61_moved_refuted.
