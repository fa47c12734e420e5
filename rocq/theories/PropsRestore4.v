(** C92: reorganisations which a wallet's checkpoints do not show. *)
From Verif Require Import BaseProofs RestoreProofs6 RestoreExamples4.

Local Existing Instance ex_env.

(** C92: [C92_life] without the condition that no reorganisation is hidden.  A block at a height commits to the transactions up to it
    ([blocks_commit]).  Then it is enough that whatever the wallet has at a height where it no longer is, and no checkpoint at or below tells
    so, is among what the synchronisation asks for ([seen_again], [sought]). *)
Theorem C92_seen `{!DescEnv} `{Countable K, !Ord K, !OrdLaws K} (A : K → option Desc) W Fam s lim (x0 x : Tracker K TxHeight)
  w srv dbg fuel kspks txids outpoints (gap : N) batch :
  good_env A → coherent W Fam → blocks_commit w_position Fam → ki_hist_ok A s → Forall (λ op, ∀ l, op ≠ KiScan l) s → lim ≠ Some 0%nat → tr_setup s lim = Ret x0 →
  life A W Fam higher (λ _ _, True) electrum_seen s lim w x → seen_again w_position w (sought w kspks txids outpoints gap) x →
  (∀ n, electrum_honest w (srv n)) → scripts_of (tr_index x) kspks →
  (∀ k i u, within w gap kspks k i → paid (tr_index x) k i u → is_Some (si_index_of_spk (ki_inner (tr_index x0)) (txo_spk u))) →
  (0 < batch)%nat → Forall (λ t, t ≤ max_txid) txids → Forall (λ o, is_Some (w_tx w (op_txid o))) outpoints →
  none_overlooked w (within w gap kspks) x ∧
  ends (scan dbg srv (S fuel) (sc_cps (cg_chain (tr_cg x))) kspks txids outpoints gap batch)
    (λ e, ∀ new_txs ho1 ho ord,
      Forall (λ t, w_tx w (txid t) = Some t) new_txs →
      (∀ i, i ∈ missing_full_txs e (cg_graph (tr_cg x)) → ∃ t, t ∈ new_txs ∧ txid t = i) →
      hash_order (inflate_graph (tr_cg x) (eu_chain e) new_txs) ho1 → hash_fun_ok ho →
      ord ≡ₚ map_to_list (sc_pos (eu_chain e)) →
      ∃ sc x' cs, into_keychain_scan ho1 e new_txs (tr_cg x) = Ret (Ok sc) ∧
        tr_apply_update (ho (cg_graph (tr_cg x))) x sc ord = Ret (Ok (x', cs)) ∧
        caught_up w (w_position w) x x' (within w gap kspks)).
Proof.
  intros HA HF Hcom Hs Hq Hm E0. exact (life_seen A HA W Fam HF s Hs Hq lim Hm x0 w x srv dbg fuel kspks txids outpoints gap batch Hcom E0).
Qed.
Print Assumptions C92_seen.
(** The worlds of [C92_hidden_refuted] below: asked for at once, transaction 43 is found at its new height. *)
Example C92_ex_seen : coherent hd_W hd_Fam ∧ blocks_commit w_position hd_Fam ∧ ki_hist_ok exA lf_s ∧ Forall (λ op, ∀ l, op ≠ KiScan l) lf_s ∧
  electrum_honest hd_w2 (ScanExamples.honest hd_w2) ∧
  ∃ (x0 x x' : Tracker N TxHeight), tr_setup lf_s None = Ret x0 ∧ life exA hd_W hd_Fam higher (λ _ _, True) electrum_seen lf_s None hd_w2 x ∧
  seen_again w_position hd_w2 (sought hd_w2 rs_kspks [] [] 2) x ∧ ¬ no_hidden_reorg w_position hd_w2 x ∧ scripts_of (tr_index x) rs_kspks ∧
  (∀ k i u, within hd_w2 2 rs_kspks k i → paid (tr_index x) k i u → is_Some (si_index_of_spk (ki_inner (tr_index x0)) (txo_spk u))) ∧
  electrum_seen hd_w2 x x' ∧ sc_pos (cg_chain (tr_cg x)) !! 43 = Some (Confirmed 112) ∧ sc_pos (cg_chain (tr_cg x')) !! 43 = Some (Confirmed 114) ∧
  rs_show x = (Some 113, [(0, 0, (43, 0), 500, None); (0, 4, (43, 1), 900, None)], Ret (mkBalance 0 0 0 1400)) ∧
  rs_show x' = (Some 115, [(0, 0, (43, 0), 500, None); (0, 4, (43, 1), 900, None)], Ret (mkBalance 0 0 0 1400)).
Proof.
  split; [exact hd_coherent|]. split; [exact hd_commit|]. split; [exact lf_s_ok|]. split; [exact lf_quiet|]. split; [exact (list_honest _ _ _ _ hd_check2)|].
  destruct (new_obs_Some _ _ _ _ hd_seen_obs) as (x0 & E0 & Hx). destruct (el_sync hd_w1 2 rs_kspks x0) as [y|] eqn:E1; [|done].
  cbn [mbind option_bind] in Hx. destruct (el_sync hd_w2 2 rs_kspks y) as [z|] eqn:E2; [|done]. cbn [mbind option_bind] in Hx.
  apply Some_inj, pair_equal_spec in Hx as [Hx Hz]. apply pair_equal_spec in Hx as [Hx Hy]. apply pair_equal_spec in Hx as [Hx Hp2]. apply pair_equal_spec in Hx as [Hx Hp1].
  apply pair_equal_spec in Hx as [Hx Hc]. apply pair_equal_spec in Hx as [Hx H2']. apply pair_equal_spec in Hx as [Hx H1'].
  apply pair_equal_spec in Hx as [Hx Hw]. apply pair_equal_spec in Hx as [K0 K1].
  assert (seen_again w_position hd_w2 (sought hd_w2 rs_kspks [] [] 2) y) as Hseen
    by (apply (seen_check_ok w_position [43]); [exact H2'|intros t ->%elem_of_list_singleton; apply hd_sought]).
  exists x0, y, z. split; [exact E0|]. split; [|split; [exact Hseen|split; [|split; [exact (rs_scripts _ K1)|split; [|split; [|exact (conj Hp1 (conj Hp2 (conj Hy Hz)))]]]]]].
  - eapply (life_world _ _ _ _ _ _ _ _ hd_w1); [eapply life_sync; [eapply life_new; [by left|exact E0]|exact I|]|by right|by vm_compute].
    eapply el_seen_ok; [exact (list_ok _ _ _ _ hd_check1)|exact (list_honest _ _ _ _ hd_check1)|exact (rs_scripts _ K0)| |exact E1].
    apply (seen_check_ok w_position []); [exact H1'|intros t Ht; apply elem_of_nil in Ht; destruct Ht].
  - eapply hd_hides; [exact Hp1|reflexivity|vm_compute; discriminate|exact Hc|lia].
  - intros k i u. apply window_check_ok; [exact Hw|exact (rs_scripts _ K1)].
  - eapply el_seen_ok; [exact (list_ok _ _ _ _ hd_check2)|exact (list_honest _ _ _ _ hd_check2)|exact (rs_scripts _ K1)|exact Hseen|exact E2].
Qed.
(** The same with an esplora server. *)
Theorem C92_esplora_seen `{!DescEnv} `{Countable K, !Ord K, !OrdLaws K} (A : K → option Desc) W Fam (time : World → N → N) s lim (x0 x : Tracker K ConfirmationTime)
  w srv ho fuel kspks txids outpoints (gap : N) (par : nat) :
  good_env A → coherent W Fam → (∀ w h, time w h ≤ u64_max) → blocks_commit (λ w, w_time_position w (time w)) Fam → ki_hist_ok A s → Forall (λ op, ∀ l, op ≠ KiScan l) s →
  lim ≠ Some 0%nat → tr_setup s lim = Ret x0 → life A W Fam higher (λ _ _, True) (esplora_seen time) s lim w x →
  seen_again (λ w, w_time_position w (time w)) w (stop_sought w kspks txids outpoints gap) x →
  (∀ n, esplora_honest w (time w) (srv n)) → hash_fun_ok ho → scripts_of (tr_index x) kspks →
  (∀ k l i sp, kspks !! k = Some l → (i, sp) ∈ l → (length (w_mempool w sp) ≤ 50)%nat ∧ (length (w_confirmed w sp) < 25 * S fuel)%nat) →
  (∀ k i u, stop_reach w gap (Nat.max par 1) kspks k i → paid (tr_index x) k i u → is_Some (si_index_of_spk (ki_inner (tr_index x0)) (txo_spk u))) →
  none_overlooked w (stop_reach w gap (Nat.max par 1) kspks) x ∧
  ends (ps_scan srv ho (S fuel) (sc_cps (cg_chain (tr_cg x))) kspks txids outpoints gap par)
    (λ sc, ∃ F : K → N → Prop, (∀ k i, stop_within w gap kspks k i → F k i) ∧ (∀ k i, F k i → stop_reach w gap (Nat.max par 1) kspks k i) ∧
      ∀ ho' ord, hash_fun_ok ho' → ord ≡ₚ map_to_list (sc_pos (cg_chain (ks_update sc))) →
      ∃ x' cs, tr_apply_update (ho' (cg_graph (tr_cg x))) x sc ord = Ret (Ok (x', cs)) ∧ caught_up w (w_time_position w (time w)) x x' F).
Proof.
  intros HA HF Ht Hcom Hs Hq Hm E0. exact (life_esplora_seen A HA W Fam HF s Hs Hq lim Hm time Ht x0 w x srv ho fuel kspks txids outpoints gap par Hcom E0).
Qed.
Print Assumptions C92_esplora_seen.
Example C92_ex_esplora_seen : coherent hd_W hd_Fam ∧ (∀ w h, lf_time w h ≤ u64_max) ∧ blocks_commit lf_tpos hd_Fam ∧ ki_hist_ok exA lf_s ∧ Forall (λ op, ∀ l, op ≠ KiScan l) lf_s ∧
  esplora_honest hd_w2 (lf_time hd_w2) (esplora hd_w2 (lf_time hd_w2) (list_ids hd_l2)) ∧
  (∀ sp, (length (w_mempool hd_w2 sp) ≤ 50)%nat ∧ (length (w_confirmed hd_w2 sp) < 25 * 1)%nat) ∧
  ∃ (x0 x x' : Tracker N ConfirmationTime), tr_setup lf_s None = Ret x0 ∧ life exA hd_W hd_Fam higher (λ _ _, True) (esplora_seen lf_time) lf_s None hd_w2 x ∧
  seen_again lf_tpos hd_w2 (stop_sought hd_w2 rs_kspks [] [] 2) x ∧ ¬ no_hidden_reorg lf_tpos hd_w2 x ∧ scripts_of (tr_index x) rs_kspks ∧
  (∀ k i u, stop_reach hd_w2 2 2 rs_kspks k i → paid (tr_index x) k i u → is_Some (si_index_of_spk (ki_inner (tr_index x0)) (txo_spk u))) ∧
  esplora_seen lf_time hd_w2 x x' ∧ sc_pos (cg_chain (tr_cg x)) !! 43 = Some (CtConfirmed 112 68312) ∧ sc_pos (cg_chain (tr_cg x')) !! 43 = Some (CtConfirmed 114 70514) ∧
  rs_show x = (Some 113, [(0, 0, (43, 0), 500, None); (0, 4, (43, 1), 900, None)], Ret (mkBalance 0 0 0 1400)) ∧
  rs_show x' = (Some 115, [(0, 0, (43, 0), 500, None); (0, 4, (43, 1), 900, None)], Ret (mkBalance 0 0 0 1400)).
Proof.
  split; [exact hd_coherent|]. split; [exact lf_time_ok|]. split; [exact hd_commit_times|]. split; [exact lf_s_ok|]. split; [exact lf_quiet|].
  destruct hd_server as [S1 S2]. destruct hd_pages as [L1 L2]. split; [exact S2|]. split; [exact L2|].
  destruct (new_obs_Some _ _ _ _ hd_times_obs) as (x0 & E0 & Hx). destruct (lf_es hd_w1 hd_l1 x0) as [y|] eqn:E1; [|done].
  cbn [mbind option_bind] in Hx. destruct (lf_es hd_w2 hd_l2 y) as [z|] eqn:E2; [|done]. cbn [mbind option_bind] in Hx.
  apply Some_inj, pair_equal_spec in Hx as [Hx Hz]. apply pair_equal_spec in Hx as [Hx Hy]. apply pair_equal_spec in Hx as [Hx Hp2]. apply pair_equal_spec in Hx as [Hx Hp1].
  apply pair_equal_spec in Hx as [Hx Hc]. apply pair_equal_spec in Hx as [Hx H2']. apply pair_equal_spec in Hx as [Hx H1'].
  apply pair_equal_spec in Hx as [Hx Hw]. apply pair_equal_spec in Hx as [K0 K1].
  assert (seen_again lf_tpos hd_w2 (stop_sought hd_w2 rs_kspks [] [] 2) y) as Hseen
    by (apply (seen_check_ok lf_tpos [43]); [exact H2'|intros t ->%elem_of_list_singleton; apply hd_sought]).
  exists x0, y, z. split; [exact E0|]. split; [|split; [exact Hseen|split; [|split; [exact (rs_scripts _ K1)|split; [|split; [|exact (conj Hp1 (conj Hp2 (conj Hy Hz)))]]]]]].
  - eapply (life_world _ _ _ _ _ _ _ _ hd_w1); [eapply life_sync; [eapply life_new; [by left|exact E0]|exact I|]|by right|by vm_compute].
    eapply (es_seen_ok lf_time hd_w1 (list_ids hd_l1) 2 2 rs_kspks x0 y S1 (rs_scripts _ K0) L1); [|exact E1].
    apply (seen_check_ok lf_tpos []); [exact H1'|intros t Ht; apply elem_of_nil in Ht; destruct Ht].
  - eapply hd_hides; [exact Hp1|reflexivity|vm_compute; discriminate|exact Hc|lia].
  - intros k i u. apply window_times_ok; [exact Hw|exact (rs_scripts _ K1)].
  - exact (es_seen_ok lf_time hd_w2 (list_ids hd_l2) 2 2 rs_kspks y z S2 (rs_scripts _ K1) L2 Hseen E2).
Qed.

(** What is not asked for may be lost for good.  A wallet without a limit on checkpoints has synchronised when the tip was 113, and has
    a checkpoint there and transaction 43 at 112.  Blocks 112 and 113 are replaced, and 43 is at 114.  A synchronisation that does not ask for
    the wallet's scripts succeeds, and leaves 43 at 112 below checkpoints which agree with the server's.  From then on one that asks for them is refused. *)
Theorem C92_hidden_refuted : good_env exA ∧ coherent hd_W hd_Fam ∧ ki_hist_ok exA lf_s ∧ Forall (λ op, ∀ l, op ≠ KiScan l) lf_s ∧
  electrum_honest hd_w2 (ScanExamples.honest hd_w2) ∧ w_tip hd_w2 = 115 ∧ w_position hd_w2 43 = Confirmed 114 ∧
  ∃ (x : Tracker N TxHeight) n e sc txs, life exA hd_W hd_Fam higher (λ _ _, True) electrum_syncs lf_s None hd_w2 x ∧ scripts_of (tr_index x) rs_kspks ∧
  tip_height (cg_chain (tr_cg x)) = Some 115 ∧ sc_pos (cg_chain (tr_cg x)) !! 43 = Some (Confirmed 112) ∧
  scan true (λ _, ScanExamples.honest hd_w2) 2 (sc_cps (cg_chain (tr_cg x))) rs_kspks [] [] 2 2 0%nat = Done n e ∧
  txs = omap (w_tx hd_w2) (missing_full_txs e (cg_graph (tr_cg x))) ∧ (∀ i, i ∈ missing_full_txs e (cg_graph (tr_cg x)) → is_Some (w_tx hd_w2 i)) ∧
  into_keychain_scan (exho (inflate_graph (tr_cg x) (eu_chain e) txs)) e txs (tr_cg x) = Ret (Ok sc) ∧
  tr_apply_update (exho (cg_graph (tr_cg x))) x sc (map_to_list (sc_pos (eu_chain e))) =
    Ret (Err (CgUpdChain (TxInconsistent 43 (Confirmed 112) (Confirmed 114)))).
Proof. exact hd_hidden. Qed.
Print Assumptions C92_hidden_refuted.
