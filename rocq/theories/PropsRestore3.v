(** C92: wallets that live on while the world does, with an esplora server. *)
From Verif Require Import BaseProofs RestoreProofs6 RestoreExamples3.

Local Existing Instance ex_env.

(** C92: as [C92_life]; positions have the times of blocks, which differ where blocks do, and a synchronisation is a scan at
    an honest esplora server.  What the scan has to find ends at the first gap; scripts up to the gap of the parallel
    requests have been watched since the set-up. *)
Theorem C92_esplora `{!DescEnv} `{Countable K, !Ord K, !OrdLaws K} (A : K → option Desc) W Fam (time : World → N → N) s lim (x0 x : Tracker K ConfirmationTime)
  w srv ho fuel kspks txids outpoints (gap : N) (par : nat) :
  good_env A → coherent W Fam → (∀ w h, time w h ≤ u64_max) → ki_hist_ok A s → Forall (λ op, ∀ l, op ≠ KiScan l) s → lim ≠ Some 0%nat → tr_setup s lim = Ret x0 →
  life A W Fam higher (no_hidden_reorg (λ w, w_time_position w (time w))) (esplora_syncs time) s lim w x → no_hidden_reorg (λ w, w_time_position w (time w)) w x →
  (∀ n, esplora_honest w (time w) (srv n)) → hash_fun_ok ho → scripts_of (tr_index x) kspks →
  (∀ k l i sp, kspks !! k = Some l → (i, sp) ∈ l → (length (w_mempool w sp) ≤ 50)%nat ∧ (length (w_confirmed w sp) < 25 * S fuel)%nat) →
  (∀ k i u, stop_reach w gap (Nat.max par 1) kspks k i → paid (tr_index x) k i u → is_Some (si_index_of_spk (ki_inner (tr_index x0)) (txo_spk u))) →
  none_overlooked w (stop_reach w gap (Nat.max par 1) kspks) x ∧
  ends (ps_scan srv ho (S fuel) (sc_cps (cg_chain (tr_cg x))) kspks txids outpoints gap par)
    (λ sc, ∃ F : K → N → Prop, (∀ k i, stop_within w gap kspks k i → F k i) ∧ (∀ k i, F k i → stop_reach w gap (Nat.max par 1) kspks k i) ∧
      ∀ ho' ord, hash_fun_ok ho' → ord ≡ₚ map_to_list (sc_pos (cg_chain (ks_update sc))) →
      ∃ x' cs, tr_apply_update (ho' (cg_graph (tr_cg x))) x sc ord = Ret (Ok (x', cs)) ∧ caught_up w (w_time_position w (time w)) x x' F).
Proof.
  intros HA HF Ht Hs Hq Hm E0 Hl Hn Hsrv Hho Hsp Hpage Hwin. exact (life_esplora A HA W Fam HF s Hs Hq lim Hm time Ht x0 w x srv ho fuel kspks txids outpoints gap par E0 Hl Hn Hsrv Hho Hsp Hpage Hwin).
Qed.
Print Assumptions C92_esplora.
(** The worlds of [C92_ex]. *)
Example C92_ex_esplora : coherent lf_W lf_Fam ∧ (∀ w h, lf_time w h ≤ u64_max) ∧ ki_hist_ok exA lf_s ∧ Forall (λ op, ∀ l, op ≠ KiScan l) lf_s ∧
  esplora_honest lf_w3 (lf_time lf_w3) (esplora lf_w3 (lf_time lf_w3) (list_ids lf_l3)) ∧
  (∀ sp, (length (w_mempool lf_w3 sp) ≤ 50)%nat ∧ (length (w_confirmed lf_w3 sp) < 25 * 1)%nat) ∧
  ∃ (x0 x x' : Tracker N ConfirmationTime), tr_setup lf_s (Some 7%nat) = Ret x0 ∧
  life exA lf_W lf_Fam higher (no_hidden_reorg lf_tpos) (esplora_syncs lf_time) lf_s (Some 7%nat) lf_w3 x ∧ no_hidden_reorg lf_tpos lf_w3 x ∧
  scripts_of (tr_index x) rs_kspks ∧
  (∀ k i u, stop_reach lf_w3 2 2 rs_kspks k i → paid (tr_index x) k i u → is_Some (si_index_of_spk (ki_inner (tr_index x0)) (txo_spk u))) ∧
  esplora_syncs lf_time lf_w3 x x' ∧
  rs_show x = (Some 119, [(0, 0, (43, 0), 500, Some 45); (0, 4, (43, 1), 900, None); (0, 2, (44, 0), 60, None); (1, 0, (45, 1), 190, None); (0, 1, (46, 0), 35, None)],
      Ret (mkBalance 0 190 0 995)) ∧
  rs_show x' = (Some 122, [(0, 0, (43, 0), 500, Some 45); (0, 4, (43, 1), 900, None); (0, 2, (44, 0), 60, None); (1, 0, (45, 1), 190, None); (0, 1, (46, 0), 35, None)],
      Ret (mkBalance 0 0 60 1125)).
Proof.
  split; [exact lf_coherent|]. split; [exact lf_time_ok|]. split; [exact lf_s_ok|]. split; [exact lf_quiet|]. destruct lf_server as (_ & _ & S3). destruct lf_pages as (_ & _ & L3).
  split; [exact S3|]. split; [exact L3|].
  destruct (new_obs_Some _ _ _ _ lt_obs) as (x0 & E0 & Hx). destruct (lf_es lf_w1 lf_l1 x0) as [y1|] eqn:E1; [|done].
  cbn [mbind option_bind] in Hx. destruct (lf_es lf_w2 lf_l2 y1) as [y2|] eqn:E2; [|done].
  cbn [mbind option_bind] in Hx. destruct (lt_calls y2) as [y3|] eqn:E3; [|done].
  cbn [mbind option_bind] in Hx. destruct (lf_es lf_w3 lf_l3 y3) as [z|] eqn:E4; [|done].
  apply Some_inj, pair_equal_spec in Hx as [Hx Hz]. apply pair_equal_spec in Hx as [Hx Hy]. apply pair_equal_spec in Hx as [Hx H3].
  apply pair_equal_spec in Hx as [Hx H2]. apply pair_equal_spec in Hx as [Hx H1]. apply pair_equal_spec in Hx as [Hx Hw].
  apply pair_equal_spec in Hx as [Hx K3]. apply pair_equal_spec in Hx as [K0 K1]. pose proof (rs_scripts _ K3) as Hsp.
  exists x0, y3, z. split; [done|]. split; [by eapply (lt_life x0 y1 y2)|]. split; [by apply hidden_times_ok|]. split; [done|].
  split; [intros k i u; by apply window_times_ok|]. split; [|exact (conj Hy Hz)].
  exact (es_sync_ok lf_time lf_w3 (list_ids lf_l3) 2 2 rs_kspks y3 z S3 Hsp L3 E4).
Qed.
(** While the world only grows every synchronisation succeeds. *)
Theorem C92_esplora_growing `{!DescEnv} `{Countable K, !Ord K, !OrdLaws K} (A : K → option Desc) W Fam (time : World → N → N) s lim (x0 x : Tracker K ConfirmationTime)
  w srv ho fuel kspks txids outpoints (gap : N) (par : nat) :
  good_env A → coherent W Fam → (∀ w h, time w h ≤ u64_max) → ki_hist_ok A s → Forall (λ op, ∀ l, op ≠ KiScan l) s → lim ≠ Some 0%nat → tr_setup s lim = Ret x0 →
  life A W Fam (extends (λ w, w_time_position w (time w))) (λ _ _, True) (esplora_syncs time) s lim w x →
  (∀ n, esplora_honest w (time w) (srv n)) → hash_fun_ok ho → scripts_of (tr_index x) kspks →
  (∀ k l i sp, kspks !! k = Some l → (i, sp) ∈ l → (length (w_mempool w sp) ≤ 50)%nat ∧ (length (w_confirmed w sp) < 25 * S fuel)%nat) →
  (∀ k i u, stop_reach w gap (Nat.max par 1) kspks k i → paid (tr_index x) k i u → is_Some (si_index_of_spk (ki_inner (tr_index x0)) (txo_spk u))) →
  none_overlooked w (stop_reach w gap (Nat.max par 1) kspks) x ∧
  ends (ps_scan srv ho (S fuel) (sc_cps (cg_chain (tr_cg x))) kspks txids outpoints gap par)
    (λ sc, ∃ F : K → N → Prop, (∀ k i, stop_within w gap kspks k i → F k i) ∧ (∀ k i, F k i → stop_reach w gap (Nat.max par 1) kspks k i) ∧
      ∀ ho' ord, hash_fun_ok ho' → ord ≡ₚ map_to_list (sc_pos (cg_chain (ks_update sc))) →
      ∃ x' cs, tr_apply_update (ho' (cg_graph (tr_cg x))) x sc ord = Ret (Ok (x', cs)) ∧ caught_up w (w_time_position w (time w)) x x' F).
Proof.
  intros HA HF Ht Hs Hq Hm E0 Hl Hsrv Hho Hsp Hpage Hwin. destruct (life_esplora_growing A HA W Fam HF s Hs Hq lim Hm time Ht x0 w x E0 Hl) as [Hl' Hn].
  exact (life_esplora A HA W Fam HF s Hs Hq lim Hm time Ht x0 w x srv ho fuel kspks txids outpoints gap par E0 Hl' Hn Hsrv Hho Hsp Hpage Hwin).
Qed.
Print Assumptions C92_esplora_growing.
Example C92_ex_esplora_growing : coherent (list_W ni_l) gr_Fam ∧ extends lf_tpos ni_w1 ni_w ∧
  ∃ (x0 x x' : Tracker N ConfirmationTime), tr_setup lf_s (Some 1%nat) = Ret x0 ∧
  life exA (list_W ni_l) gr_Fam (extends lf_tpos) (λ _ _, True) (esplora_syncs lf_time) lf_s (Some 1%nat) ni_w x ∧ scripts_of (tr_index x) rs_kspks ∧
  (∀ k i u, stop_reach ni_w 2 2 rs_kspks k i → paid (tr_index x) k i u → is_Some (si_index_of_spk (ki_inner (tr_index x0)) (txo_spk u))) ∧
  esplora_syncs lf_time ni_w x x' ∧
  rs_show x' = (Some 120, [(0, 0, (43, 0), 500, None); (0, 4, (43, 1), 900, None); (0, 2, (44, 0), 60, None)], Ret (mkBalance 0 0 0 1460)).
Proof.
  split; [exact gr_coherent|]. split; [exact gt_extends|]. pose proof gt_apart as [Ha Ha1]%andb_prop.
  pose proof (list_esplora _ _ rs_block _ (lf_time ni_w) ni_check Ha) as S2. pose proof (list_esplora _ _ rs_block _ (lf_time ni_w1) ni_check1 Ha1) as S1.
  destruct (new_obs_Some _ _ _ _ gt_obs) as (x0 & E0 & Hx). destruct (lf_es ni_w1 _ x0) as [y|] eqn:E1; [|done].
  cbn [mbind option_bind] in Hx. destruct (lf_es ni_w ni_l y) as [z|] eqn:E2; [|done].
  apply Some_inj, pair_equal_spec in Hx as [Hx Hz]. apply pair_equal_spec in Hx as [Hx Hw]. apply pair_equal_spec in Hx as [K0 K1].
  pose proof (rs_scripts _ K1) as Hsp. exists x0, y, z. split; [done|].
  split; [eapply life_world; [eapply life_sync; [eapply life_new; [by left|exact E0]|done|]|by right|exact gt_extends]|].
  - refine (es_sync_ok lf_time ni_w1 _ 2 2 rs_kspks x0 y S1 (rs_scripts _ K0) _ E1). intros sp. apply list_pages. cbn. lia.
  - split; [done|]. split; [intros k i u; by apply window_times_ok|]. split; [|exact Hz].
    refine (es_sync_ok lf_time ni_w _ 2 2 rs_kspks y z S2 Hsp _ E2). intros sp. apply list_pages. cbn. lia.
Qed.
