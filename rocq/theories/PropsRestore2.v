(** C92: wallets that live on while the world does. *)
From Verif Require Import BaseProofs RestoreProofs6 RestoreExamples2.

Local Existing Instance ex_env.

(** C92: a wallet set up by [s], with a limit on checkpoints other than 0, lives while the world goes on ([life]): blocks are added and reorganised, transactions come,
    move and go; the wallet derives and reveals scripts, inserts transactions of its own, changes its limit and synchronises with an honest
    electrum server, any number of times, with any gaps.  At any point where no reorganisation is hidden from it
    ([no_hidden_reorg]), if the scripts within the gap have been watched since the set-up (by its lookahead), the next scan
    ends, applying it succeeds, and the wallet, which has overlooked none of their outputs, is [caught_up]: it has the server's tip, every output at these scripts with
    the right position and spender, and nothing confirmed that is not. *)
Theorem C92_life `{!DescEnv} `{Countable K, !Ord K, !OrdLaws K} (A : K → option Desc) W Fam s lim (x0 x : Tracker K TxHeight)
  w srv dbg fuel kspks txids outpoints (gap : N) batch :
  good_env A → coherent W Fam → ki_hist_ok A s → Forall (λ op, ∀ l, op ≠ KiScan l) s → lim ≠ Some 0%nat → tr_setup s lim = Ret x0 →
  life A W Fam higher (no_hidden_reorg w_position) electrum_syncs s lim w x → no_hidden_reorg w_position w x →
  (∀ n, electrum_honest w (srv n)) → scripts_of (tr_index x) kspks →
  (∀ k i u, within w gap kspks k i → paid (tr_index x) k i u → is_Some (si_index_of_spk (ki_inner (tr_index x0)) (txo_spk u))) →
  (0 < batch)%nat → Forall (λ t, t ≤ max_txid) txids → Forall (λ o, is_Some (w_tx w (op_txid o))) outpoints →
  none_overlooked w (within w gap kspks) x ∧
  ends (scan dbg srv (S fuel) (sc_cps (cg_chain (tr_cg x))) kspks txids outpoints gap batch)
    (λ e, ∀ new_txs ho1 ho ord,
      Forall (λ t, w_tx w (txid t) = Some t) new_txs →
      (∀ i, i ∈ missing_full_txs e (cg_graph (tr_cg x)) → ∃ t, t ∈ new_txs ∧ txid t = i) →
      hash_order (inflate_graph (tr_cg x) (eu_chain e) new_txs) ho1 → hash_fun_ok ho →
      ord ≡ₚ map_to_list (sc_pos (eu_chain e)) →
      ∃ sc x' cs, into_keychain_scan ho1 e new_txs (tr_cg x) = Ret (Ok sc) ∧
        tr_apply_update (ho (cg_graph (tr_cg x))) x sc ord = Ret (Ok (x', cs)) ∧
        caught_up w (w_position w) x x' (within w gap kspks)).
Proof.
  intros HA HF Hs Hq Hm E0 Hl Hn Hsrv Hsp Hwin. exact (life_scans A HA W Fam HF s Hs Hq lim Hm x0 w x srv dbg fuel kspks txids outpoints gap batch E0 Hl Hn Hsrv Hsp Hwin).
Qed.
Print Assumptions C92_life.
(** Three worlds, the second and third reorganised: the wallet sees transaction 46 move, spends with 45, which is not known
    to the network at first, and sees 44 go back to the mempool. *)
Example C92_ex : coherent lf_W lf_Fam ∧ ki_hist_ok exA lf_s ∧ Forall (λ op, ∀ l, op ≠ KiScan l) lf_s ∧ electrum_honest lf_w3 (honest lf_w3) ∧
  ∃ (x0 x x' : Tracker N TxHeight), tr_setup lf_s (Some 7%nat) = Ret x0 ∧ life exA lf_W lf_Fam higher (no_hidden_reorg w_position) electrum_syncs lf_s (Some 7%nat) lf_w3 x ∧ no_hidden_reorg w_position lf_w3 x ∧
  scripts_of (tr_index x) rs_kspks ∧
  (∀ k i u, within lf_w3 2 rs_kspks k i → paid (tr_index x) k i u → is_Some (si_index_of_spk (ki_inner (tr_index x0)) (txo_spk u))) ∧
  wallet_sync lf_w3 2 rs_kspks x x' ∧
  rs_show x = (Some 119, [(0, 0, (43, 0), 500, Some 45); (0, 4, (43, 1), 900, None); (0, 2, (44, 0), 60, None); (1, 0, (45, 1), 190, None); (0, 1, (46, 0), 35, None)],
      Ret (mkBalance 0 190 0 995)) ∧
  rs_show x' = (Some 122, [(0, 0, (43, 0), 500, Some 45); (0, 4, (43, 1), 900, None); (0, 2, (44, 0), 60, None); (1, 0, (45, 1), 190, None); (0, 1, (46, 0), 35, None)],
      Ret (mkBalance 0 0 60 1125)).
Proof.
  split; [exact lf_coherent|]. split; [exact lf_s_ok|]. split; [exact lf_quiet|]. split; [exact (list_honest _ _ _ _ lf_check3)|].
  destruct (new_obs_Some _ _ _ _ lf_obs) as (x0 & E0 & Hx). destruct (el_sync lf_w1 2 rs_kspks x0) as [y1|] eqn:E1; [|done].
  cbn [mbind option_bind] in Hx. destruct (el_sync lf_w2 2 rs_kspks y1) as [y2|] eqn:E2; [|done].
  cbn [mbind option_bind] in Hx. destruct (lf_calls y2) as [y3|] eqn:E3; [|done].
  cbn [mbind option_bind] in Hx. destruct (el_sync lf_w3 2 rs_kspks y3) as [z|] eqn:E4; [|done].
  apply Some_inj, pair_equal_spec in Hx as [Hx Hz]. apply pair_equal_spec in Hx as [Hx Hy]. apply pair_equal_spec in Hx as [Hx H3].
  apply pair_equal_spec in Hx as [Hx H2]. apply pair_equal_spec in Hx as [Hx H1]. apply pair_equal_spec in Hx as [Hx Hw].
  apply pair_equal_spec in Hx as [Hx K3]. apply pair_equal_spec in Hx as [K0 K1]. pose proof (rs_scripts _ K3) as Hsp.
  exists x0, y3, z. split; [done|]. split; [by eapply (lf_life x0 y1 y2)|]. split; [by apply hidden_check_ok|]. split; [done|].
  split; [intros k i u; by apply window_check_ok|]. split; [|exact (conj Hy Hz)].
  apply el_sync_ok; [exact (list_ok _ _ _ _ lf_check3)|exact (list_honest _ _ _ _ lf_check3)|exact E4].
Qed.
(** While the world only grows no reorganisation can be hidden, and every synchronisation succeeds. *)
Theorem C92_growing `{!DescEnv} `{Countable K, !Ord K, !OrdLaws K} (A : K → option Desc) W Fam s lim (x0 x : Tracker K TxHeight)
  w srv dbg fuel kspks txids outpoints (gap : N) batch :
  good_env A → coherent W Fam → ki_hist_ok A s → Forall (λ op, ∀ l, op ≠ KiScan l) s → lim ≠ Some 0%nat → tr_setup s lim = Ret x0 →
  life A W Fam (extends w_position) (λ _ _, True) electrum_syncs s lim w x →
  (∀ n, electrum_honest w (srv n)) → scripts_of (tr_index x) kspks →
  (∀ k i u, within w gap kspks k i → paid (tr_index x) k i u → is_Some (si_index_of_spk (ki_inner (tr_index x0)) (txo_spk u))) →
  (0 < batch)%nat → Forall (λ t, t ≤ max_txid) txids → Forall (λ o, is_Some (w_tx w (op_txid o))) outpoints →
  none_overlooked w (within w gap kspks) x ∧
  ends (scan dbg srv (S fuel) (sc_cps (cg_chain (tr_cg x))) kspks txids outpoints gap batch)
    (λ e, ∀ new_txs ho1 ho ord,
      Forall (λ t, w_tx w (txid t) = Some t) new_txs →
      (∀ i, i ∈ missing_full_txs e (cg_graph (tr_cg x)) → ∃ t, t ∈ new_txs ∧ txid t = i) →
      hash_order (inflate_graph (tr_cg x) (eu_chain e) new_txs) ho1 → hash_fun_ok ho →
      ord ≡ₚ map_to_list (sc_pos (eu_chain e)) →
      ∃ sc x' cs, into_keychain_scan ho1 e new_txs (tr_cg x) = Ret (Ok sc) ∧
        tr_apply_update (ho (cg_graph (tr_cg x))) x sc ord = Ret (Ok (x', cs)) ∧
        caught_up w (w_position w) x x' (within w gap kspks)).
Proof.
  intros HA HF Hs Hq Hm E0 Hl Hsrv Hsp Hwin. destruct (life_scans_growing A HA W Fam HF s Hs Hq lim Hm x0 w x E0 Hl) as [Hl' Hn].
  exact (life_scans A HA W Fam HF s Hs Hq lim Hm x0 w x srv dbg fuel kspks txids outpoints gap batch E0 Hl' Hn Hsrv Hsp Hwin).
Qed.
Print Assumptions C92_growing.
(** The worlds of C91's refutation: with a lookahead the wallet has all 1460. *)
Example C92_ex_growing : coherent (list_W ni_l) gr_Fam ∧ extends w_position ni_w1 ni_w ∧
  ∃ (x0 x x' : Tracker N TxHeight), tr_setup lf_s (Some 1%nat) = Ret x0 ∧ life exA (list_W ni_l) gr_Fam (extends w_position) (λ _ _, True) electrum_syncs lf_s (Some 1%nat) ni_w x ∧ scripts_of (tr_index x) rs_kspks ∧
  (∀ k i u, within ni_w 2 rs_kspks k i → paid (tr_index x) k i u → is_Some (si_index_of_spk (ki_inner (tr_index x0)) (txo_spk u))) ∧
  wallet_sync ni_w 2 rs_kspks x x' ∧
  rs_show x' = (Some 120, [(0, 0, (43, 0), 500, None); (0, 4, (43, 1), 900, None); (0, 2, (44, 0), 60, None)], Ret (mkBalance 0 0 0 1460)).
Proof.
  split; [exact gr_coherent|]. split; [exact gr_extends|].
  destruct (new_obs_Some _ _ _ _ gr_obs) as (x0 & E0 & Hx). destruct (el_sync ni_w1 2 rs_kspks x0) as [y|] eqn:E1; [|done].
  cbn [mbind option_bind] in Hx. destruct (el_sync ni_w 2 rs_kspks y) as [z|] eqn:E2; [|done].
  apply Some_inj, pair_equal_spec in Hx as [Hx Hz]. apply pair_equal_spec in Hx as [Hx Hw]. apply pair_equal_spec in Hx as [K0 K1].
  pose proof (rs_scripts _ K1) as Hsp. exists x0, y, z. split; [done|]. split.
  - eapply life_world; [eapply life_sync; [eapply life_new; [by left|exact E0]|done|]|by right|exact gr_extends].
    exists 2, rs_kspks. split; [exact (rs_scripts _ K0)|]. apply el_sync_ok; [exact (list_ok _ _ _ _ ni_check1)|exact (list_honest _ _ _ _ ni_check1)|exact E1].
  - split; [done|]. split; [intros k i u; by apply window_check_ok|]. split; [|exact Hz].
    apply el_sync_ok; [exact (list_ok _ _ _ _ ni_check)|exact (list_honest _ _ _ _ ni_check)|exact E2].
Qed.
