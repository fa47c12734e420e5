(** C90, C91: wallets restored from a server, and wallets that scan again. *)
From Verif Require Import BaseProofs RestoreProofs5 RestoreExamples.

Local Existing Instance ex_env.

(** C90: a new wallet (keychains without lookahead and a limit on checkpoints, none or positive) scans the first scripts of its keychains at an honest
    electrum server, fetches the transactions it is told are missing and applies the result.  Whatever the gap, the batch
    size and the order of hash maps: the scan ends, applying it succeeds, and then the wallet's tip is the server's, its
    outputs are exactly the outputs of the world at the scripts within the gap, with the right positions, spenders and
    coinbase flags, and its balance is the sum of the unspent ones, category by category ([restored]). *)
Theorem C90_electrum `{!DescEnv} `{Countable K, !Ord K, !OrdLaws K} (A : K → option Desc) W w srv dbg fuel s lim
  (x : Tracker K TxHeight) kspks txids outpoints (gap : N) batch :
  good_env A → world_ok w → world_sane W w → (∀ t a, w_tx w t = Some a → tx_ok a) → (∀ n, electrum_honest w (srv n)) →
  ki_hist_ok A s → only_adds s → lim ≠ Some 0%nat → tr_setup s lim = Ret x → scripts_of (tr_index x) kspks → (0 < batch)%nat →
  Forall (λ t, t ≤ max_txid) txids → Forall (λ o, is_Some (w_tx w (op_txid o))) outpoints →
  ends (scan dbg srv (S fuel) (sc_cps (cg_chain (tr_cg x))) kspks txids outpoints gap batch)
    (λ e, ∀ new_txs ho1 ho ord,
      Forall (λ t, w_tx w (txid t) = Some t) new_txs →
      (∀ i, i ∈ missing_full_txs e (cg_graph (tr_cg x)) → ∃ t, t ∈ new_txs ∧ txid t = i) →
      hash_order (inflate_graph (tr_cg x) (eu_chain e) new_txs) ho1 → hash_fun_ok ho →
      ord ≡ₚ map_to_list (sc_pos (eu_chain e)) →
      ∃ sc x' cs, into_keychain_scan ho1 e new_txs (tr_cg x) = Ret (Ok sc) ∧
        tr_apply_update (ho (cg_graph (tr_cg x))) x sc ord = Ret (Ok (x', cs)) ∧
        restored w (w_position w) x x' (within w gap kspks)).
Proof. intros HA Hw Hs Htx Hsrv. exact (electrum_restores A HA W w Hw Hs Htx srv Hsrv dbg fuel s lim x kspks txids outpoints gap batch). Qed.
Print Assumptions C90_electrum.
(** The same with block times. *)
Theorem C90_electrum_times `{!DescEnv} `{Countable K, !Ord K, !OrdLaws K} (A : K → option Desc) W w srv (time : N → N) dbg fuel s lim
  (x : Tracker K ConfirmationTime) kspks txids outpoints (gap : N) batch :
  good_env A → world_ok w → world_sane W w → (∀ t a, w_tx w t = Some a → tx_ok a) → (∀ n, electrum_honest w (srv n)) →
  (∀ h, time h ≤ u64_max) → (∀ n l, es_times (srv n) l = Ok (time <$> l)) →
  ki_hist_ok A s → only_adds s → lim ≠ Some 0%nat → tr_setup s lim = Ret x → scripts_of (tr_index x) kspks → (0 < batch)%nat →
  Forall (λ t, t ≤ max_txid) txids → Forall (λ o, is_Some (w_tx w (op_txid o))) outpoints →
  ends (bnd (scan dbg srv (S fuel) (sc_cps (cg_chain (tr_cg x))) kspks txids outpoints gap batch) (into_confirmation_time_update srv))
    (λ e, ∀ new_txs ho1 ho ord,
      Forall (λ t, w_tx w (txid t) = Some t) new_txs →
      (∀ i, i ∈ missing_full_txs e (cg_graph (tr_cg x)) → ∃ t, t ∈ new_txs ∧ txid t = i) →
      hash_order (inflate_graph (tr_cg x) (eu_chain e) new_txs) ho1 → hash_fun_ok ho →
      ord ≡ₚ map_to_list (sc_pos (eu_chain e)) →
      ∃ sc x' cs, into_keychain_scan ho1 e new_txs (tr_cg x) = Ret (Ok sc) ∧
        tr_apply_update (ho (cg_graph (tr_cg x))) x sc ord = Ret (Ok (x', cs)) ∧
        restored w (timed time ∘ w_position w) x x' (within w gap kspks)).
Proof. intros HA Hw Hs Htx Hsrv. exact (electrum_restores_times A HA W w Hw Hs Htx srv Hsrv time dbg fuel s lim x kspks txids outpoints gap batch). Qed.
Print Assumptions C90_electrum_times.
(** The same with an esplora server, which finds every script within the stop gap, and may find some beyond it. *)
Theorem C90_esplora `{!DescEnv} `{Countable K, !Ord K, !OrdLaws K} (A : K → option Desc) W w srv (time : N → N) ho fuel s lim
  (x : Tracker K ConfirmationTime) kspks txids outpoints (gap : N) (par : nat) :
  good_env A → world_ok w → world_sane W w → (∀ t a, w_tx w t = Some a → tx_ok a) → (∀ h, time h ≤ u64_max) → hash_fun_ok ho →
  (∀ n, esplora_honest w time (srv n)) →
  ki_hist_ok A s → only_adds s → lim ≠ Some 0%nat → tr_setup s lim = Ret x → scripts_of (tr_index x) kspks →
  (∀ k l i sc, kspks !! k = Some l → (i, sc) ∈ l →
     (length (w_mempool w sc) ≤ 50)%nat ∧ (length (w_confirmed w sc) < 25 * S fuel)%nat) →
  ends (ps_scan srv ho (S fuel) (sc_cps (cg_chain (tr_cg x))) kspks txids outpoints gap par)
    (λ sc, ∃ F : K → N → Prop, (∀ k i, stop_within w gap kspks k i → F k i) ∧ (∀ k i, F k i → stop_reach w gap (Nat.max par 1) kspks k i) ∧
      ∀ ho' ord, hash_fun_ok ho' → ord ≡ₚ map_to_list (sc_pos (cg_chain (ks_update sc))) →
      ∃ x' cs, tr_apply_update (ho' (cg_graph (tr_cg x))) x sc ord = Ret (Ok (x', cs)) ∧ restored w (w_time_position w time) x x' F).
Proof. intros HA Hw Hs Htx Ht Hho Hsrv. exact (esplora_restores A HA W w time Hw Hs Htx Ht ho Hho srv Hsrv fuel s lim x kspks txids outpoints gap par). Qed.
Print Assumptions C90_esplora.
(** A world with a coinbase, a payment, a spend of it by the wallet and a payment beyond the gap, at script 9; the hypotheses hold. *)
Example C90_ex_world : good_env exA ∧ world_ok rs_w ∧ world_sane rs_W rs_w ∧ (∀ t a, w_tx rs_w t = Some a → tx_ok a) ∧
  electrum_honest rs_w (honest rs_w) ∧ esplora_honest rs_w rs_time (esplora rs_w rs_time [23; 21; 22; 24]) ∧
  (∀ h, rs_time h ≤ u64_max) ∧ ki_hist_ok exA rs_s ∧ only_adds rs_s.
Proof.
  destruct rs_world as (W1 & W2 & W3 & W4). pose proof exA_good. pose proof rs_s_ok. pose proof rs_s_adds. pose proof rs_esplora. pose proof rs_time_ok. done.
Qed.
(** The new wallet finds all but the payment at script 9, with the spend, and its funds: 390 of change in the mempool, 5300 confirmed. *)
Example C90_ex : ∃ x x', tr_setup rs_s (Some 1%nat) = Ret x ∧ scripts_of (tr_index x) rs_kspks ∧ wallet_sync rs_w 2 rs_kspks x x' ∧
  rs_show x' = (Some 120, [(0, 0, (21, 0), 1000, Some 22); (0, 2, (21, 1), 300, None); (1, 0, (22, 1), 390, None); (0, 1, (23, 1), 5000, None)],
    Ret (mkBalance 0 390 0 5300)).
Proof.
  destruct (new_obs_Some _ _ _ _ rs_el_obs) as (x & Ex & Hx). destruct (el_sync rs_w 2 rs_kspks x) as [y|] eqn:Ey; [|done].
  apply Some_inj, pair_equal_spec in Hx as [Hk Hy]. exists x, y. split; [done|]. split; [by apply rs_scripts|]. split; [|exact Hy].
  by apply el_sync_ok; [apply rs_world..|].
Qed.
Example C90_ex_times : ∃ x x', tr_setup rs_s (Some 1%nat) = Ret x ∧ scripts_of (tr_index x) rs_kspks ∧ ti_sync rs_w rs_time 2 rs_kspks x = Some x' ∧
  rs_show x' = (Some 120, [(0, 0, (21, 0), 1000, Some 22); (0, 2, (21, 1), 300, None); (1, 0, (22, 1), 390, None); (0, 1, (23, 1), 5000, None)],
    Ret (mkBalance 0 390 0 5300)).
Proof.
  destruct (new_obs_Some _ _ _ _ rs_ti_obs) as (x & Ex & Hx). destruct (ti_sync rs_w rs_time 2 rs_kspks x) as [y|] eqn:Ey; [|done].
  apply Some_inj, pair_equal_spec in Hx as [Hk Hy]. exists x, y. split; [done|]. split; [by apply rs_scripts|]. done.
Qed.
Example C90_ex_esplora : ∃ x x', tr_setup rs_s (Some 1%nat) = Ret x ∧ scripts_of (tr_index x) rs_kspks ∧
  (∀ k, (length (w_mempool rs_w k) ≤ 50)%nat ∧ (length (w_confirmed rs_w k) < 25 * 2)%nat) ∧
  es_sync rs_w rs_time [23; 21; 22; 24] 2 2 rs_kspks x = Some x' ∧
  rs_show x' = (Some 120, [(0, 0, (21, 0), 1000, Some 22); (0, 2, (21, 1), 300, None); (1, 0, (22, 1), 390, None); (0, 1, (23, 1), 5000, None)],
    Ret (mkBalance 0 390 0 5300)).
Proof.
  destruct (new_obs_Some _ _ _ _ rs_es_obs) as (x & Ex & Hx). destruct (es_sync rs_w rs_time _ 2 2 rs_kspks x) as [y|] eqn:Ey; [|done].
  apply Some_inj, pair_equal_spec in Hx as [Hk Hy]. exists x, y. split; [done|]. split; [by apply rs_scripts|]. split; [exact rs_pages|]. done.
Qed.
(** With a lookahead it is false that what a restored wallet says is unspent is: it keeps outputs at scripts of the
    lookahead which the scan has not asked about, with transactions found for other scripts, and does not hear of their
    spends.  Here: 900 at script 5, spent by a confirmed transaction, counted as confirmed funds. *)
Theorem C90_lookahead_refuted : ∃ (A : N → option Desc) W w srv s (x x' : Tracker N TxHeight) kspks (gap : N),
  good_env A ∧ world_ok w ∧ world_sane W w ∧ (∀ t a, w_tx w t = Some a → tx_ok a) ∧ electrum_honest w srv ∧
  ki_hist_ok A s ∧ Forall (λ op, match op with KiAdd _ _ | KiLook _ _ => True | _ => False end) s ∧ tr_setup s None = Ret x ∧
  scripts_of (tr_index x) kspks ∧ wallet_sync w gap kspks x x' ∧
  (∃ ki f t h, owned x' ki f ∧ fto_spent_by f = None ∧ w_tx w t = Some la42 ∧ w_height w t = Some h ∧ fto_outpoint f ∈ tx_in la42) ∧
  balance (exho (cg_graph (tr_cg x'))) x' (λ k, k =? 1) = Ret (mkBalance 0 0 0 1400).
Proof.
  destruct (new_obs_Some _ _ _ _ la_obs) as (x & Ex & Hx). destruct (el_sync la_w 2 rs_kspks x) as [y|] eqn:Ey; [|done].
  apply Some_inj, pair_equal_spec in Hx as [Hx Hb]. apply pair_equal_spec in Hx as [Hx Hs]. apply pair_equal_spec in Hx as [Hk Hf]. apply pair_equal_spec in Hb as [_ Hb]. exists exA, (list_W la_l), la_w, (honest la_w), la_s, x, y, rs_kspks, 2.
  pose proof (list_ok _ _ rs_block _ la_check) as Hw. pose proof (list_sane _ _ rs_block _ la_check) as Hsa.
  pose proof (list_txs _ _ rs_block _ la_check) as Htx. pose proof (list_honest _ _ rs_block _ la_check) as Hh.
  pose proof (el_sync_ok la_w 2 rs_kspks x y Hw Hh Ey) as Hsy. pose proof (rs_scripts _ Hk) as Hsp.
  destruct (used_wallet exA (list_W la_l) la_s None [] x x [] exA_good la_s_ok Ex ltac:(constructor) eq_refl) as (Hcg & Hin & hs & Hi).
  destruct (sync_ok exA exA_good (list_W la_l) la_w Hw Hsa Htx hs 2 rs_kspks x y Hi Hcg Hin (fit_check_ok _ _ _ Hf) Hsp Hsy) as (Hok & _).
  split; [exact exA_good|]. do 4 (split; [done|]). split; [exact la_s_ok|]. split; [repeat constructor|]. do 3 (split; [done|]). split.
  - destruct (says y (mkOutPoint 41 1)) as [[ki f]|] eqn:E; [|done]. injection Hs as _ _ _ Hsb. destruct (says_owned y _ ki f Hok E) as [Ho Hp].
    exists ki, f, 42, 115. rewrite Hp. split; [done|]. split; [done|]. split; [done|]. split; [done|]. apply elem_of_list_here.
  - done.
Qed.
Print Assumptions C90_lookahead_refuted.

(** C91: a wallet with any history (keychains, lookahead, revealed scripts, checkpoints, transactions, updates) that is
    fit for the world ([fit_seen]: the limit on checkpoints is not 0; what it says below the fork is true, or it has a block
    that shows the fork, or the scan asks for it and no later block of the wallet's is the world's).  It scans again at an honest electrum server, whatever the gap, batch
    size and order of hash maps: the scan ends, applying succeeds, and then its tip is the server's, it has every output of
    the world at the scripts within the gap with the right position and spender, except those it has overlooked before
    ([overlooked]: it had the transaction before it watched the script), what it says is confirmed is, and it is
    again fit to scan ([caught_up]). *)
Theorem C91_electrum `{!DescEnv} `{Countable K, !Ord K, !OrdLaws K} (A : K → option Desc) W w srv dbg fuel s lim h
  (x0 x : Tracker K TxHeight) l kspks txids outpoints (gap : N) batch :
  good_env A → world_ok w → world_sane W w → (∀ t a, w_tx w t = Some a → tx_ok a) → (∀ n, electrum_honest w (srv n)) →
  ki_hist_ok A s → tr_setup s lim = Ret x0 → Forall (tr_op_ok A W s) h → tr_run x0 h = Ret (x, l) →
  fit_seen w (w_position w) (sought w kspks txids outpoints gap) x → scripts_of (tr_index x) kspks → (0 < batch)%nat →
  Forall (λ t, t ≤ max_txid) txids → Forall (λ o, is_Some (w_tx w (op_txid o))) outpoints →
  ends (scan dbg srv (S fuel) (sc_cps (cg_chain (tr_cg x))) kspks txids outpoints gap batch)
    (λ e, ∀ new_txs ho1 ho ord,
      Forall (λ t, w_tx w (txid t) = Some t) new_txs →
      (∀ i, i ∈ missing_full_txs e (cg_graph (tr_cg x)) → ∃ t, t ∈ new_txs ∧ txid t = i) →
      hash_order (inflate_graph (tr_cg x) (eu_chain e) new_txs) ho1 → hash_fun_ok ho →
      ord ≡ₚ map_to_list (sc_pos (eu_chain e)) →
      ∃ sc x' cs, into_keychain_scan ho1 e new_txs (tr_cg x) = Ret (Ok sc) ∧
        tr_apply_update (ho (cg_graph (tr_cg x))) x sc ord = Ret (Ok (x', cs)) ∧
        caught_up w (w_position w) x x' (within w gap kspks)).
Proof.
  intros HA Hw Hs Htx Hsrv Hk E0 Hh E. destruct (used_wallet A W s lim h x0 x l HA Hk E0 Hh E) as (Hcg & Hin & hs & Hi).
  exact (electrum_rescans A HA W w Hw Hs Htx srv Hsrv dbg fuel hs x kspks txids outpoints gap batch Hi Hcg Hin).
Qed.
Print Assumptions C91_electrum.
(** The same with block times. *)
Theorem C91_electrum_times `{!DescEnv} `{Countable K, !Ord K, !OrdLaws K} (A : K → option Desc) W w srv (time : N → N) dbg fuel s lim h
  (x0 x : Tracker K ConfirmationTime) l kspks txids outpoints (gap : N) batch :
  good_env A → world_ok w → world_sane W w → (∀ t a, w_tx w t = Some a → tx_ok a) → (∀ n, electrum_honest w (srv n)) →
  (∀ h, time h ≤ u64_max) → (∀ n l, es_times (srv n) l = Ok (time <$> l)) →
  ki_hist_ok A s → tr_setup s lim = Ret x0 → Forall (tr_op_ok A W s) h → tr_run x0 h = Ret (x, l) →
  fit_seen w (timed time ∘ w_position w) (sought w kspks txids outpoints gap) x → scripts_of (tr_index x) kspks → (0 < batch)%nat →
  Forall (λ t, t ≤ max_txid) txids → Forall (λ o, is_Some (w_tx w (op_txid o))) outpoints →
  ends (bnd (scan dbg srv (S fuel) (sc_cps (cg_chain (tr_cg x))) kspks txids outpoints gap batch) (into_confirmation_time_update srv))
    (λ e, ∀ new_txs ho1 ho ord,
      Forall (λ t, w_tx w (txid t) = Some t) new_txs →
      (∀ i, i ∈ missing_full_txs e (cg_graph (tr_cg x)) → ∃ t, t ∈ new_txs ∧ txid t = i) →
      hash_order (inflate_graph (tr_cg x) (eu_chain e) new_txs) ho1 → hash_fun_ok ho →
      ord ≡ₚ map_to_list (sc_pos (eu_chain e)) →
      ∃ sc x' cs, into_keychain_scan ho1 e new_txs (tr_cg x) = Ret (Ok sc) ∧
        tr_apply_update (ho (cg_graph (tr_cg x))) x sc ord = Ret (Ok (x', cs)) ∧
        caught_up w (timed time ∘ w_position w) x x' (within w gap kspks)).
Proof.
  intros HA Hw Hs Htx Hsrv Ht Hts Hk E0 Hh E. destruct (used_wallet A W s lim h x0 x l HA Hk E0 Hh E) as (Hcg & Hin & hs & Hi).
  exact (electrum_rescans_times A HA W w Hw Hs Htx srv Hsrv time dbg fuel hs x kspks txids outpoints gap batch Ht Hts Hi Hcg Hin).
Qed.
Print Assumptions C91_electrum_times.
(** The same with an esplora server. *)
Theorem C91_esplora `{!DescEnv} `{Countable K, !Ord K, !OrdLaws K} (A : K → option Desc) W w srv (time : N → N) ho fuel s lim h
  (x0 x : Tracker K ConfirmationTime) l kspks txids outpoints (gap : N) (par : nat) :
  good_env A → world_ok w → world_sane W w → (∀ t a, w_tx w t = Some a → tx_ok a) → (∀ h, time h ≤ u64_max) → hash_fun_ok ho →
  (∀ n, esplora_honest w time (srv n)) →
  ki_hist_ok A s → tr_setup s lim = Ret x0 → Forall (tr_op_ok A W s) h → tr_run x0 h = Ret (x, l) →
  fit_seen w (w_time_position w time) (stop_sought w kspks txids outpoints gap) x → scripts_of (tr_index x) kspks →
  (∀ k l i sc, kspks !! k = Some l → (i, sc) ∈ l →
     (length (w_mempool w sc) ≤ 50)%nat ∧ (length (w_confirmed w sc) < 25 * S fuel)%nat) →
  ends (ps_scan srv ho (S fuel) (sc_cps (cg_chain (tr_cg x))) kspks txids outpoints gap par)
    (λ sc, ∃ F : K → N → Prop, (∀ k i, stop_within w gap kspks k i → F k i) ∧ (∀ k i, F k i → stop_reach w gap (Nat.max par 1) kspks k i) ∧
      ∀ ho' ord, hash_fun_ok ho' → ord ≡ₚ map_to_list (sc_pos (cg_chain (ks_update sc))) →
      ∃ x' cs, tr_apply_update (ho' (cg_graph (tr_cg x))) x sc ord = Ret (Ok (x', cs)) ∧ caught_up w (w_time_position w time) x x' F).
Proof.
  intros HA Hw Hs Htx Ht Hho Hsrv Hk E0 Hh E. destruct (used_wallet A W s lim h x0 x l HA Hk E0 Hh E) as (Hcg & Hin & hs & Hi).
  exact (esplora_rescans A HA W w time Hw Hs Htx Ht ho Hho srv Hsrv fuel hs x kspks txids outpoints gap par Hi Hcg Hin).
Qed.
Print Assumptions C91_esplora.
(** A wallet that knows transaction 21, transaction 25 of a block that was replaced, and transaction 30, its own, which the
    network does not have.  The scan finds the rest, moves 25 to the mempool and keeps 30. *)
Example C91_ex : world_sane rs_W' rs_w ∧ Forall (tr_op_ok exA rs_W' rs_s) (rs_h Confirmed Unconfirmed) ∧
  ∃ x0 x l x', tr_setup rs_s (Some 7%nat) = Ret x0 ∧ tr_run x0 (rs_h Confirmed Unconfirmed) = Ret (x, l) ∧
  fit_for rs_w (w_position rs_w) x ∧ scripts_of (tr_index x) rs_kspks ∧ none_overlooked rs_w (within rs_w 2 rs_kspks) x ∧ wallet_sync rs_w 2 rs_kspks x x' ∧
  rs_show x' = (Some 120, [(0, 0, (21, 0), 1000, Some 22); (0, 2, (21, 1), 300, Some 30); (1, 0, (22, 1), 390, None); (0, 1, (23, 1), 5000, None);
     (0, 0, (25, 0), 77, None); (1, 1, (30, 1), 45, None)], Ret (mkBalance 0 435 77 5000)).
Proof.
  split; [exact rs_world'|]. split; [apply rs_h_ok; by vm_compute|].
  destruct (rs_old_ok _ _ _ _ rs_el_obs') as (x0 & x & l & E0 & E & Hx). destruct (el_sync rs_w 2 rs_kspks x) as [y|] eqn:Ey; [|done].
  apply Some_inj, pair_equal_spec in Hx as [Hx Hy]. apply pair_equal_spec in Hx as [Hx Hi]. apply pair_equal_spec in Hx as [Hk Hf]. exists x0, x, l, y. split; [done|]. split; [done|]. pose proof (fit_check_ok _ _ _ Hf) as Hfit. split; [done|]. split; [by apply rs_scripts|].
  split; [apply indexed_check_ok; [done|apply Hfit]|]. split; [|exact Hy]. by apply el_sync_ok; [apply rs_world..|].
Qed.
Example C91_ex_times : Forall (tr_op_ok exA rs_W' rs_s) (rs_h ct_c CtUnconfirmed) ∧
  ∃ x0 x l x', tr_setup rs_s (Some 7%nat) = Ret x0 ∧ tr_run x0 (rs_h ct_c CtUnconfirmed) = Ret (x, l) ∧
  fit_for rs_w (timed rs_time ∘ w_position rs_w) x ∧ scripts_of (tr_index x) rs_kspks ∧ none_overlooked rs_w (within rs_w 2 rs_kspks) x ∧
  ti_sync rs_w rs_time 2 rs_kspks x = Some x' ∧
  rs_show x' = (Some 120, [(0, 0, (21, 0), 1000, Some 22); (0, 2, (21, 1), 300, Some 30); (1, 0, (22, 1), 390, None); (0, 1, (23, 1), 5000, None);
     (0, 0, (25, 0), 77, None); (1, 1, (30, 1), 45, None)], Ret (mkBalance 0 435 77 5000)).
Proof.
  split; [apply rs_h_ok; vm_compute; try done; split; discriminate|].
  destruct (rs_old_ok _ _ _ _ rs_ti_obs') as (x0 & x & l & E0 & E & Hx). destruct (ti_sync rs_w rs_time 2 rs_kspks x) as [y|] eqn:Ey; [|done].
  apply Some_inj, pair_equal_spec in Hx as [Hx Hy]. apply pair_equal_spec in Hx as [Hx Hi]. apply pair_equal_spec in Hx as [Hk Hf]. exists x0, x, l, y. split; [done|]. split; [done|]. pose proof (fit_check_ok _ _ _ Hf) as Hfit. split; [done|]. split; [by apply rs_scripts|].
  split; [apply indexed_check_ok; [done|apply Hfit]|]. done.
Qed.
Example C91_ex_esplora : 
  ∃ x0 x l x', tr_setup rs_s (Some 7%nat) = Ret x0 ∧ tr_run x0 (rs_h ct_c CtUnconfirmed) = Ret (x, l) ∧
  fit_for rs_w (w_time_position rs_w rs_time) x ∧ scripts_of (tr_index x) rs_kspks ∧ none_overlooked rs_w (stop_reach rs_w 2 2 rs_kspks) x ∧
  es_sync rs_w rs_time [23; 21; 22; 24] 2 2 rs_kspks x = Some x' ∧
  rs_show x' = (Some 120, [(0, 0, (21, 0), 1000, Some 22); (0, 2, (21, 1), 300, Some 30); (1, 0, (22, 1), 390, None); (0, 1, (23, 1), 5000, None);
     (0, 0, (25, 0), 77, None); (1, 1, (30, 1), 45, None)], Ret (mkBalance 0 435 77 5000)).
Proof.
  destruct (rs_old_ok _ _ _ _ rs_es_obs') as (x0 & x & l & E0 & E & Hx). destruct (es_sync rs_w rs_time _ 2 2 rs_kspks x) as [y|] eqn:Ey; [|done].
  apply Some_inj, pair_equal_spec in Hx as [Hx Hy]. apply pair_equal_spec in Hx as [Hx Hi]. apply pair_equal_spec in Hx as [Hk Hf]. exists x0, x, l, y. split; [done|]. split; [done|]. pose proof (fit_check_ok _ _ _ Hf) as Hfit. split; [done|]. split; [by apply rs_scripts|].
  split; [apply indexed_check_ok; [done|apply Hfit]|]. done.
Qed.
(** Overlooked outputs stay overlooked: a wallet restored without lookahead finds a transaction that also pays a script beyond
    the gap.  Later this script comes within the gap.  Scanning again, the wallet does not see the output, because it only
    looks at the outputs of transactions it did not have.  A new wallet does.  The worlds only grow. *)
Theorem C91_not_indexed_refuted : ∃ (A : N → option Desc) W w1 w s (x y z : Tracker N TxHeight) kspks (gap : N),
  good_env A ∧ world_ok w1 ∧ world_sane W w1 ∧ world_ok w ∧ world_sane W w ∧ (∀ t a, w_tx w t = Some a → tx_ok a) ∧
  w_tip w1 ≤ w_tip w ∧ (∀ h, w_block w1 h = w_block w h) ∧ (∀ t a, w_tx w1 t = Some a → w_tx w t = Some a) ∧
  (∀ t h, w_height w1 t = Some h → w_height w t = Some h) ∧
  ki_hist_ok A s ∧ only_adds s ∧ tr_setup s None = Ret x ∧ scripts_of (tr_index x) kspks ∧ wallet_sync w1 gap kspks x y ∧
  fit_for w (w_position w) y ∧ scripts_of (tr_index y) kspks ∧ wallet_sync w gap kspks y z ∧
  (∃ o t u k i, w_tx w (op_txid o) = Some t ∧ tx_out t !! N.to_nat (op_vout o) = Some u ∧ within w gap kspks k i ∧ paid (tr_index y) k i u ∧
     ∀ ki f, owned z ki f → fto_outpoint f ≠ o) ∧
  ∃ z', wallet_sync w gap kspks x z' ∧
    balance (exho (cg_graph (tr_cg z))) z (λ k, k =? 1) = Ret (mkBalance 0 0 0 560) ∧
    balance (exho (cg_graph (tr_cg z'))) z' (λ k, k =? 1) = Ret (mkBalance 0 0 0 1460).
Proof.
  destruct (new_obs_Some _ _ _ _ ni_obs) as (x & Ex & Hx). destruct (el_sync ni_w1 2 rs_kspks x) as [y|] eqn:Ey; [|done].
  cbn [mbind option_bind] in Hx. destruct (el_sync ni_w 2 rs_kspks y) as [z|] eqn:Ez; [|done].
  cbn [mbind option_bind] in Hx. destruct (el_sync ni_w 2 rs_kspks x) as [z'|] eqn:Ez'; [|done].
  apply Some_inj, pair_equal_spec in Hx as [Hx Hb']. apply pair_equal_spec in Hx as [Hx Hs]. apply pair_equal_spec in Hx as [Hx Hf].
  apply pair_equal_spec in Hx as [Hk Hky]. apply pair_equal_spec in Hb' as [Hb Hb']. apply pair_equal_spec in Hb as [_ Hb].
  apply pair_equal_spec in Hb as [_ Hb]. apply pair_equal_spec in Hb' as [_ Hb']. exists exA, (list_W ni_l), ni_w1, ni_w, rs_s, x, y, z, rs_kspks, 2.
  pose proof (list_ok _ _ rs_block _ ni_check) as Hw. pose proof (list_sane _ _ rs_block _ ni_check) as Hsa.
  pose proof (list_txs _ _ rs_block _ ni_check) as Htx. pose proof (list_honest _ _ rs_block _ ni_check) as Hh.
  pose proof (list_ok _ _ rs_block _ ni_check1) as Hw1. pose proof (list_sane _ _ rs_block _ ni_check1) as Hsa1.
  pose proof (list_txs _ _ rs_block _ ni_check1) as Htx1. pose proof (list_honest _ _ rs_block _ ni_check1) as Hh1.
  pose proof (el_sync_ok _ 2 rs_kspks x y Hw1 Hh1 Ey) as Hsy. pose proof (el_sync_ok _ 2 rs_kspks y z Hw Hh Ez) as Hsz.
  pose proof (el_sync_ok _ 2 rs_kspks x z' Hw Hh Ez') as Hsz'.
  pose proof (rs_scripts _ Hk) as Hsp. pose proof (rs_scripts _ Hky) as Hspy.
  destruct (used_wallet exA (list_W ni_l) rs_s None [] x x [] exA_good rs_s_ok Ex ltac:(constructor) eq_refl) as (Hcg & Hin & hs & Hi).
  pose proof (new_fit exA exA_good (list_W ni_l) ni_w1 rs_s None x rs_s_ok rs_s_adds ltac:(done) Ex) as Hfx.
  destruct (sync_ok exA exA_good (list_W ni_l) ni_w1 Hw1 Hsa1 Htx1 hs 2 rs_kspks x y Hi Hcg Hin Hfx Hsp Hsy) as (Hoky & Hiny & hs' & Hiy).
  pose proof (fit_check_ok _ _ _ Hf) as Hfy.
  destruct (sync_ok exA exA_good (list_W ni_l) ni_w Hw Hsa Htx hs' 2 rs_kspks y z Hiy Hoky Hiny Hfy Hspy Hsz) as (Hokz & _).
  split; [exact exA_good|]. do 5 (split; [done|]). split; [done|]. split; [done|]. split; [exact ni_txs|]. split; [exact ni_heights|].
  split; [exact rs_s_ok|]. split; [exact rs_s_adds|]. do 6 (split; [done|]). split.
  - exists (mkOutPoint 43 1), ni43, (mkTxOut 900 (exs 1 4)), 0, 4. split; [done|]. split; [done|]. split; [exact ni_within|]. split.
    + exists 1. apply andb_prop in Hky as [Hky%bool_decide_eq_true _]. split; [done|]. by vm_compute.
    + intros ki f. apply says_not; [done|]. by destruct (says z (mkOutPoint 43 1)).
  - by exists z'.
Qed.
Print Assumptions C91_not_indexed_refuted.
