(** C106: scans come to an end. *)
From Verif Require Import EndsProofs EndsProofs2 EndsExamples.

(** More fuel does not change the answer: [fuel] only says how long to wait for it. *)
Theorem C106_electrum_fuel dbg srv `{Countable K, !Ord K} (fuel fuel' : nat) (local : gmap N BlockHash)
  (kspks : gmap K (list (N * Script))) (txids : list Txid) (outpoints : list OutPoint) (gap : N) (batch n : nat) :
  (fuel ≤ fuel')%nat → ended (scan dbg srv fuel local kspks txids outpoints gap batch n) →
  scan dbg srv fuel' local kspks txids outpoints gap batch n = scan dbg srv fuel local kspks txids outpoints gap batch n.
Proof. exact (λ Hle He, scan_fuel dbg srv fuel fuel' local kspks txids outpoints gap batch Hle n He). Qed.
Print Assumptions C106_electrum_fuel.
Theorem C106_esplora_fuel srv ho `{Countable K, !Ord K} (fuel fuel' : nat) (local : gmap N BlockHash)
  (kspks : gmap K (list (N * Script))) (txids : list Txid) (outpoints : list OutPoint) (gap : N) (par n : nat) :
  (fuel ≤ fuel')%nat → ended (ps_scan srv ho fuel local kspks txids outpoints gap par n) →
  ps_scan srv ho fuel' local kspks txids outpoints gap par n = ps_scan srv ho fuel local kspks txids outpoints gap par n.
Proof. exact (λ Hle He, ps_scan_fuel srv ho fuel fuel' local kspks txids outpoints gap par Hle n He). Qed.
Print Assumptions C106_esplora_fuel.

(** Whatever an electrum server said to the first [n0] requests, once it tells the truth about a chain that does not
    change the scan ends (returns, fails or panics), within [n0 + 1] rounds.  Nothing is said about the answers before:
    they may be reorganisations, lies or errors.  The local checkpoints are not above the tip of that chain. *)
Theorem C106_electrum w dbg srv n0 `{Countable K, !Ord K} (fuel : nat) (local : gmap N BlockHash)
  (kspks : gmap K (list (N * Script))) (txids : list Txid) (outpoints : list OutPoint) (gap : N) (batch n : nat) :
  world_ok w → settles w n0 srv → (∀ h, is_Some (local !! h) → h ≤ w_tip w) → Forall (λ t, t ≤ max_txid) txids →
  (n0 < fuel)%nat → ended (scan dbg srv fuel local kspks txids outpoints gap batch n).
Proof.
  exact (λ Hw Hs Hl Ht Hf, scan_settled w Hw dbg srv n0 Hs local Hl gap batch txids outpoints Ht fuel kspks n Hf).
Qed.
Print Assumptions C106_electrum.
(** A server whose tip is replaced and put back again until request 8: the scan ends with request 20. *)
Example C106_electrum_ex : world_ok ex_w ∧ settles ex_w 8 (toss_until 8) ∧ (∀ h, is_Some (ex_local !! h) → h ≤ w_tip ex_w) ∧
  show (scan true (toss_until 8) 9 ex_local toss_kspks [8] [mkOutPoint 7 1] 20 5 0%nat) =
  Some (20%nat, [(3, 53); (4, 54); (6, 56)], [(7, Confirmed 3); (8, Confirmed 5); (9, Unconfirmed)], [(0, 0)]).
Proof. exact (conj (proj1 ex_w_ok) (conj (toss_until_settles 8) (conj ex_local_low toss_until_shows))). Qed.

(** The same of an esplora server, if the scripts have fewer than [25 * pages] confirmed transactions each. *)
Theorem C106_esplora W w time ho srv n0 `{Countable K, !Ord K, !OrdLaws K} (fuel : nat) (local : gmap N BlockHash)
  (kspks : gmap K (list (N * Script))) (txids : list Txid) (outpoints : list OutPoint) (gap : N) (par pages n : nat) :
  world_ok w → world_sane W w → (∀ h, time h ≤ u64_max) → hash_fun_ok ho → ps_settles w time n0 srv →
  (∀ h, is_Some (local !! h) → h ≤ w_tip w) →
  (∀ k l i sc, kspks !! k = Some l → (i, sc) ∈ l →
     (length (w_mempool w sc) ≤ 50)%nat ∧ (length (w_confirmed w sc) < 25 * pages)%nat) →
  (n0 + pages < fuel)%nat → ended (ps_scan srv ho fuel local kspks txids outpoints gap par n).
Proof.
  exact (λ Hw Hs Ht Hho Hset Hl Hp Hf, ps_scan_settled W w time Hw Hs Ht ho Hho srv n0 Hset local Hl pages fuel kspks
    txids outpoints gap par n Hp ltac:(lia) ltac:(lia)).
Qed.
Print Assumptions C106_esplora.
Example C106_esplora_ex : (world_ok p_wB ∧ world_sane pw_W p_wB) ∧ ps_settles p_wB p_time 8 (p_toss_until 8) ∧
  (∀ k, (length (w_mempool p_wB k) ≤ 50)%nat ∧ (length (w_confirmed p_wB k) < 25 * 1)%nat) ∧
  p_show (ps_scan (p_toss_until 8) exho 10 ∅ p_one [8] [mkOutPoint 7 0] 5 3 0%nat) =
  Some (18%nat, [(6, 99)], [(7, CtConfirmed 3 2800); (8, CtConfirmed 6 4600)], [(0, 0)]).
Proof.
  exact (conj (conj (proj1 p_wB_ok) (proj1 (proj2 p_wB_ok))) (conj (p_toss_until_settles 8) (conj p_wB_short p_toss_until_shows))).
Qed.

(** Nothing bounds the rounds: a server that tells the truth about some chain at every moment, but replaces the tip and
    puts it back again between any three requests, keeps an electrum scan of one script busy for ever... *)
Theorem C106_electrum_refuted : ∃ srv (kspks : gmap N (list (N * Script))),
  (∀ n, ∃ w, world_ok w ∧ electrum_honest w (srv n)) ∧ ∀ fuel, ¬ ended (scan true srv fuel ∅ kspks [] [] 20 5 0%nat).
Proof. exists toss, toss_kspks. exact (conj toss_honest (λ fuel He, He (toss_forever fuel 0))). Qed.
Print Assumptions C106_electrum_refuted.
(** ...and an esplora scan, even of no scripts. *)
Theorem C106_esplora_refuted : ∃ srv,
  (∀ n, ∃ w, world_ok w ∧ world_sane pw_W w ∧ esplora_honest w p_time (srv n)) ∧
  ∀ fuel, ¬ ended (ps_scan srv exho fuel ∅ (∅ : gmap N (list (N * Script))) [] [] u64_max 1 0%nat).
Proof. exists p_toss. exact (conj p_toss_honest (λ fuel He, He (p_toss_forever fuel 0))). Qed.
Print Assumptions C106_esplora_refuted.
(** Nothing bounds the pages either: a server that always says the page is full is asked for the next one for ever,
    though its answers never change. *)
Theorem C106_pages_refuted : ∃ s, esplora_typed pw_W s ∧
  ∀ fuel, ¬ ended (ps_scan (λ _, s) exho fuel ∅ p_one [] [] 5 3 0%nat).
Proof. exists p_full. exact (conj p_full_typed (λ fuel He, He (p_full_forever fuel 0%nat))). Qed.
Print Assumptions C106_pages_refuted.
