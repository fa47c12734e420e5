(** C58-C61, C69, C72: esplora scans. *)
From Verif Require Import BaseProofs EsploraProofs EsploraProofs3 EsploraProofs4 EsploraExamples.

(** C58, C60, C69: against an honest server whose chain does not change a scan always comes back, with the right
    blocks (they connect to the local chain), the right positions and transactions, every script up to the stop gap
    and few beyond, every transaction and outpoint asked for, and nothing else ([esplora_complete]); the highest active
    indices are those of the scripts looked at.  A script has at most 50 unconfirmed transactions. *)
Theorem C60_esplora W w time ho srv `{Countable K, !Ord K, !OrdLaws K} fuel local (kspks : gmap K (list (N * Script)))
  (txids : list Txid) (outpoints : list OutPoint) (gap : N) (par : nat) :
  world_ok w → world_sane W w → (∀ h, time h ≤ u64_max) → hash_fun_ok ho → (∀ n, esplora_honest w time (srv n)) →
  (∀ h, is_Some (local !! h) → h ≤ w_tip w) →
  (∀ k l i sc, kspks !! k = Some l → (i, sc) ∈ l →
     (length (w_mempool w sc) ≤ 50)%nat ∧ (length (w_confirmed w sc) < 25 * S fuel)%nat) →
  ends (ps_scan srv ho (S fuel) local kspks txids outpoints gap par)
    (esplora_complete w time local kspks txids outpoints gap (Nat.max par 1)).
Proof.
  exact (λ Hw Hs Ht Hho Hsrv Hl Hp, ends_weaken _ _ _
    (ps_scan_true W w time Hw Hs Ht ho Hho srv Hsrv fuel local kspks txids outpoints gap par Hl Hp) (λ s Hx, proj1 Hx)).
Qed.
Print Assumptions C60_esplora.
(** Script 20 has 30 confirmed transactions (two pages); script 22 is behind two inactive ones. *)
Example C60_esplora_ex :
  (world_ok p_w ∧ world_sane pw_W p_w ∧ esplora_honest p_w p_time (esplora p_w p_time p_ids) ∧
   esplora_typed pw_W (esplora p_w p_time p_ids)) ∧
  (∀ h, is_Some (ex_local !! h) → h ≤ w_tip p_w) ∧
  (∀ k, (length (w_mempool p_w k) ≤ 50)%nat ∧ (length (w_confirmed p_w k) < 25 * 2)%nat) ∧
  within_stop_gap 3 (activity p_w [(0, 10); (1, 20); (2, 11); (3, 12); (4, 22); (5, 13)]) 4 ∧
  p_brief (p_scan 3 1) =
    Some (14%nat, [(3, 53); (4, 54); (6, 56)], 30%nat, [(50, CtUnconfirmed); (51, CtConfirmed 5 4000)], [(0, 4); (1, 0)]) ∧
  p_brief (p_scan 2 1) =
    Some (12%nat, [(3, 53); (4, 54); (6, 56)], 30%nat, [(51, CtConfirmed 5 4000)], [(0, 1); (1, 0)]) ∧
  p_brief (p_scan 2 5) =
    Some (14%nat, [(3, 53); (4, 54); (6, 56)], 30%nat, [(50, CtUnconfirmed); (51, CtConfirmed 5 4000)], [(0, 4); (1, 0)]).
Proof. exact (conj p_w_ok (conj p_local (conj p_page (conj p_within (conj p_gap3 (conj p_gap2 p_gap2_par5)))))). Qed.
Example C69_esplora_ex :
  p_show (ps_scan p_srv exho 4 ex_local (∅ : gmap N _) [51; 60] [mkOutPoint 1 50; mkOutPoint 50 0] 2 2 0%nat) =
  Some (16%nat, [(3, 53); (4, 54); (6, 56)], [(1, CtConfirmed 3 2800); (50, CtUnconfirmed); (51, CtConfirmed 5 4000)], []).
Proof. exact p_others. Qed.
(** Of a script with more than 50 unconfirmed transactions the others are not found. *)
Theorem C60_mempool_refuted : ∃ w time srv n (s : KScan N ConfirmationTime),
  world_ok w ∧ world_sane pw_W w ∧ (∀ h, time h ≤ u64_max) ∧ (∀ n, esplora_honest w time (srv n)) ∧
  ps_scan srv exho 4 ∅ {[ 0 := [(0, 20)] ]} [] [] 5 1 0%nat = Done n s ∧
  61 ∈ w_history w 20 ∧ sc_pos (cg_chain (ks_update s)) !! 61 = None.
Proof.
  destruct p_many_result as (n & s & E & Hs%bool_decide_eq_true). exists p_many, p_time, (λ _, esplora p_many p_time p_many_ids), n, s.
  split; [exact (proj1 p_many_ok)|]. split; [exact (proj1 (proj2 p_many_ok))|]. split; [exact p_time_ok|].
  split; [exact (λ _, proj1 (proj2 (proj2 p_many_ok)))|]. split; [exact E|].
  split; [apply (bool_decide_unpack _); vm_compute; done|exact Hs].
Qed.
Print Assumptions C60_mempool_refuted.

(** C69: scanning plain scripts finds the history of every one of them. *)
Theorem C69_esplora_plain W w time ho srv fuel local (spks : list Script) (txids : list Txid) (outpoints : list OutPoint) (par : nat) :
  world_ok w → world_sane W w → (∀ h, time h ≤ u64_max) → hash_fun_ok ho → (∀ n, esplora_honest w time (srv n)) →
  (∀ h, is_Some (local !! h) → h ≤ w_tip w) →
  Forall (λ sc, (length (w_mempool w sc) ≤ 50)%nat ∧ (length (w_confirmed w sc) < 25 * S fuel)%nat) spks →
  N.of_nat (length spks) ≤ u64_max →
  ends (ps_scan_without_keychain srv ho (S fuel) local spks txids outpoints par) (λ u,
    cg_ok u ∧ usable_update (cg_chain u) ∧ connects w local (sc_cps (cg_chain u)) ∧
    (∀ t p, sc_pos (cg_chain u) !! t = Some p → p = w_time_position w time t) ∧
    (∀ t x, get_tx (cg_graph u) t = Some x → w_tx w t = Some x) ∧ (∀ t m, tg_txs (cg_graph u) !! t ≠ Some (Partial m)) ∧
    (∀ t, is_Some (get_tx (cg_graph u) t) → in_chain u t) ∧
    (∀ s t, s ∈ spks → t ∈ w_history w s → in_chain u t) ∧
    (∀ t, t ∈ txids → is_Some (w_tx w t) → in_chain u t) ∧
    (∀ o, o ∈ outpoints → is_Some (w_tx w (op_txid o)) → in_chain u (op_txid o) ∧ ∀ i, w_spends w o i → in_chain u i) ∧
    (∀ t, in_chain u t → is_Some (w_tx w t) ∧
       ((∃ s, s ∈ spks ∧ t ∈ w_history w s) ∨ t ∈ txids ∨ ∃ o, o ∈ outpoints ∧ around w o t))).
Proof. exact (plain_esplora_ends W w time ho srv fuel local spks txids outpoints par). Qed.
Print Assumptions C69_esplora_plain.
Example C69_esplora_plain_ex :
  (match ps_scan_without_keychain p_srv exho 4 ex_local [10; 22; 30] [] [] 2 0%nat with
    | Done n u => Some (n, bmap_list (sc_pos (cg_chain u))) | _ => None end) =
  Some (8%nat, [(50, CtUnconfirmed); (51, CtConfirmed 5 4000)]).
Proof. exact p_plain. Qed.

(** C59: whatever the server answers (as long as the height of its tip is below [u32::MAX]), scanning never panics; the
    update is a proper chain graph and no transaction of it is confirmed above its tip. *)
Theorem C59_esplora W srv ho `{Countable K, !Ord K} fuel local (kspks : gmap K (list (N * Script)))
  (txids : list Txid) (outpoints : list OutPoint) (gap : N) (par : nat) :
  hash_fun_ok ho → (∀ n, esplora_typed W (srv n)) → (∀ h, is_Some (local !! h) → h < u32_max) →
  safe (ps_scan srv ho fuel local kspks txids outpoints gap par) (λ s,
    cg_ok (ks_update s) ∧ inputs_by_txid W (cg_graph (ks_update s)) ∧ usable_update (cg_chain (ks_update s))).
Proof. exact (λ Hho Ht, ps_scan_safe W srv ho Hho Ht fuel local kspks txids outpoints gap par). Qed.
Print Assumptions C59_esplora.
Example C59_esplora_ex : hash_fun_ok exho ∧ (∀ n, esplora_typed pw_W (p_rsrv 5 n)) ∧
  p_show (p_rscan 5) = Some (11%nat, [(6, 99)], [(7, CtConfirmed 3 2800)], [(0, 0)]).
Proof. exact (conj exho_ok (conj (proj2 (proj2 (p_rsrv_ok 5))) p_during)). Qed.

(** C61: if the server reorganises once while it is scanned, then an update finished before that is complete; of
    one finished afterwards the tip, the positions and the transactions are right.
    Missing: the scripts, transactions and outpoints asked for. *)
Theorem C61_esplora_partial W wA wB timeA timeB ho srv n0 `{Countable K, !Ord K, !OrdLaws K} fuel local
  (kspks : gmap K (list (N * Script))) (txids : list Txid) (outpoints : list OutPoint) (gap : N) (par : nat) n s :
  world_ok wA → world_ok wB → world_sane W wA → world_sane W wB →
  (∀ h, timeA h ≤ u64_max) → (∀ h, timeB h ≤ u64_max) → hash_fun_ok ho →
  (0 < n0)%nat → (∀ n, esplora_typed W (srv n)) →
  (∀ n, (n < n0)%nat → esplora_honest wA timeA (srv n)) → (∀ n, (n0 ≤ n)%nat → esplora_honest wB timeB (srv n)) →
  (∀ h, is_Some (local !! h) → h ≤ w_tip wA) → w_tip wA ≤ w_tip wB → w_block wB (w_tip wA) ≠ w_block wA (w_tip wA) →
  (w_block wB (w_tip wA) = w_block wB (w_tip wB) → w_tip wA = w_tip wB) →
  (∀ k l i sc, kspks !! k = Some l → (i, sc) ∈ l →
     ((length (w_mempool wA sc) ≤ 50)%nat ∧ (length (w_confirmed wA sc) < 25 * S fuel)%nat) ∧
     ((length (w_mempool wB sc) ≤ 50)%nat ∧ (length (w_confirmed wB sc) < 25 * S fuel)%nat)) →
  ps_scan srv ho (S (S fuel)) local kspks txids outpoints gap par 0%nat = Done n s →
  ((n ≤ n0)%nat → esplora_complete wA timeA local kspks txids outpoints gap (Nat.max par 1) s) ∧
  ((n0 < n)%nat →
    (∀ t p, sc_pos (cg_chain (ks_update s)) !! t = Some p → p = w_time_position wB timeB t) ∧
    (∀ t x, get_tx (cg_graph (ks_update s)) t = Some x → w_tx wB t = Some x) ∧
    sc_cps (cg_chain (ks_update s)) !! w_tip wB = Some (w_block wB (w_tip wB))).
Proof. exact (esplora_reorg W wA wB timeA timeB ho srv n0 fuel local kspks txids outpoints gap par n s). Qed.
Print Assumptions C61_esplora_partial.
(** The tip is replaced before, while and after the scripts are looked at. *)
Example C61_esplora_ex :
  ((∀ n, (n < 5)%nat → esplora_honest p_wA p_time (p_rsrv 5 n)) ∧ (∀ n, (5 ≤ n)%nat → esplora_honest p_wB p_time (p_rsrv 5 n)) ∧
   (∀ n, esplora_typed pw_W (p_rsrv 5 n))) ∧ w_block p_wB (w_tip p_wA) = 99 ∧ w_block p_wA (w_tip p_wA) = 56 ∧
  p_show (p_rscan 1) = Some (6%nat, [(6, 99)], [(7, CtConfirmed 3 2800); (8, CtConfirmed 6 4600)], [(0, 1)]) ∧
  p_show (p_rscan 5) = Some (11%nat, [(6, 99)], [(7, CtConfirmed 3 2800)], [(0, 0)]) ∧
  p_show (p_rscan 6) = Some (6%nat, [(6, 56)], [(7, CtConfirmed 3 2800)], [(0, 0)]).
Proof. exact (conj (p_rsrv_ok 5) (conj eq_refl (conj eq_refl (conj p_after (conj p_during p_before))))). Qed.
(** After a reorganisation only the transactions found before are looked at again: transaction 8 of script 21 is in the
    new tip and is missed, and so is that the script is active. *)
Theorem C61_esplora_refuted : ∃ wA wB srv n (s : KScan N ConfirmationTime),
  (world_ok wA ∧ world_sane pw_W wA) ∧ (world_ok wB ∧ world_sane pw_W wB) ∧
  (∀ n, (n < 5)%nat → esplora_honest wA p_time (srv n)) ∧ (∀ n, (5 ≤ n)%nat → esplora_honest wB p_time (srv n)) ∧
  ps_scan srv exho 3 ∅ {[ 0 := [(0, 20); (1, 21); (2, 22)] ]} [] [] 5 3 0%nat = Done n s ∧
  8 ∈ w_history wB 21 ∧ sc_pos (cg_chain (ks_update s)) !! 8 = None ∧ ks_active s !! 0 = Some 0.
Proof.
  destruct p_during_result as (n & s & E & Hs%bool_decide_eq_true). exists p_wA, p_wB, (p_rsrv 5), n, s.
  split; [exact (conj (proj1 p_wA_ok) (proj1 (proj2 p_wA_ok)))|]. split; [exact (conj (proj1 p_wB_ok) (proj1 (proj2 p_wB_ok)))|].
  split; [exact (proj1 (p_rsrv_ok 5))|]. split; [exact (proj1 (proj2 (p_rsrv_ok 5)))|]. split; [exact E|].
  split; [apply (bool_decide_unpack _); vm_compute; done|exact Hs].
Qed.
Print Assumptions C61_esplora_refuted.

(** C72: a wallet whose checkpoints and confirmations are the server's as far as the server's chain agrees with them can
    always apply what the scan found; afterwards it has every transaction of the scripts within the gap where the
    server has it, and every confirmed position is the server's. *)
Theorem C72_esplora_partial W w time ho srv `{Countable K, !Ord K, !OrdLaws K} fuel (cg : ChainGraph ConfirmationTime)
  (kspks : gmap K (list (N * Script))) (txids : list Txid) (outpoints : list OutPoint) (gap : N) (par : nat) :
  world_ok w → world_sane W w → (∀ h, time h ≤ u64_max) → hash_fun_ok ho → (∀ n, esplora_honest w time (srv n)) →
  cg_ok cg → inputs_by_txid W (cg_graph cg) → below_max (cg_chain cg) → confirmed_below_tip (cg_chain cg) →
  local_seen w (w_time_position w time) (stop_sought w kspks txids outpoints gap) (cg_chain cg) →
  (∀ k l i sc, kspks !! k = Some l → (i, sc) ∈ l →
     (length (w_mempool w sc) ≤ 50)%nat ∧ (length (w_confirmed w sc) < 25 * S fuel)%nat) →
  ends (ps_scan srv ho (S fuel) (sc_cps (cg_chain cg)) kspks txids outpoints gap par)
    (λ s, ∀ ho' ord, hash_order (cg_graph cg) ho' → ord ≡ₚ map_to_list (sc_pos (cg_chain (ks_update s))) →
      ∃ cg' cs, cg_apply_update ho' cg (ks_update s) ord = Ret (Ok (cg', cs)) ∧
        (∀ k l p i sc t, kspks !! k = Some l → l !! p = Some (i, sc) → within_stop_gap gap (activity w l) p →
           t ∈ w_history w sc → sc_pos (cg_chain cg') !! t = Some (w_time_position w time t)) ∧
        (∀ t h tm, sc_pos (cg_chain cg') !! t = Some (CtConfirmed h tm) → w_height w t = Some h ∧ tm = time h)).
Proof. exact (esplora_sync W w time ho srv fuel cg kspks txids outpoints gap par). Qed.
Print Assumptions C72_esplora_partial.
(** Block 5 of the wallet was replaced. *)
Example C72_esplora_ex : built pw_W p_wallet ∧
  (below_max (cg_chain p_wallet) ∧ confirmed_below_tip (cg_chain p_wallet)) ∧
  local_true p_w (w_time_position p_w p_time) (cg_chain p_wallet) ∧
  p_sync = Some ([(3, 53); (5, 55); (6, 56)], 30%nat, [(50, CtUnconfirmed); (51, CtConfirmed 5 4000)]).
Proof. exact (conj p_wallet_built (conj p_wallet_below (conj p_wallet_true p_synced))). Qed.
