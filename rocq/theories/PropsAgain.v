(** C98: a second synchronisation with an unchanged server changes nothing. *)
From Verif Require Import BaseProofs RestoreProofs7 AgainExamples.

Local Existing Instance ex_env.

(** C98: whatever the wallet's history, the changeset of a scan is empty exactly when the scan has nothing the wallet does
    not have ([nothing_new]), whatever the order of hash maps. *)
Theorem C98_empty_iff `{!DescEnv} `{Countable K, !Ord K, !OrdLaws K} `{ChainPositionLaws P} (A : K → option Desc) W s lim h
  (x0 x : Tracker K P) l sc ho ord :
  good_env A → ki_hist_ok A s → tr_setup s lim = Ret x0 → Forall (tr_op_ok A W s) h → tr_run x0 h = Ret (x, l) →
  below_max (cg_chain (tr_cg x)) → cg_ok (ks_update sc) → hash_order (cg_graph (tr_cg x)) ho →
  ord ≡ₚ map_to_list (sc_pos (cg_chain (ks_update sc))) →
  tr_determine_changeset ho x sc ord = Ret (Ok kcs_default) ↔ nothing_new x sc.
Proof.
  intros HA Hk E0 Hh E Hbm Hu Hho Hord. destruct (used_wallet A W s lim h x0 x l HA Hk E0 Hh E) as (Hcg & _).
  exact (empty_iff ho x sc ord Hcg Hu Hbm Hho Hord).
Qed.
Print Assumptions C98_empty_iff.
(** A wallet with any history, fit for the world, scans at an honest electrum server and applies the result.  A second scan
    that asks for no more (for the same scripts or fewer, with the same gap or a smaller one, for some of the transactions and
    outpoints; at any honest server that sees the same world, with any batch size) ends, has no missing
    transactions, and applying it changes nothing: the tracker is the same and the changeset empty. *)
Theorem C98_electrum `{!DescEnv} `{Countable K, !Ord K, !OrdLaws K} (A : K → option Desc) W w s lim h
  (x0 x x' : Tracker K TxHeight) l (gap gap2 : N) kspks kspks2 txids txids2 outpoints outpoints2 srv2 dbg2 fuel2 batch2 :
  good_env A → world_ok w → world_sane W w → (∀ t a, w_tx w t = Some a → tx_ok a) →
  ki_hist_ok A s → tr_setup s lim = Ret x0 → Forall (tr_op_ok A W s) h → tr_run x0 h = Ret (x, l) →
  fit_seen w (w_position w) (sought w kspks txids outpoints gap) x → scripts_of (tr_index x) kspks → wallet_asks w gap kspks txids outpoints x x' →
  asks_no_more gap gap2 kspks kspks2 txids txids2 outpoints outpoints2 → scripts_of (tr_index x') kspks2 →
  (∀ n, electrum_honest w (srv2 n)) → (0 < batch2)%nat →
  ends (scan dbg2 srv2 (S fuel2) (sc_cps (cg_chain (tr_cg x'))) kspks2 txids2 outpoints2 gap2 batch2)
    (λ e, missing_full_txs e (cg_graph (tr_cg x')) = [] ∧
      ∀ ho1 ho ord, hash_order (inflate_graph (tr_cg x') (eu_chain e) []) ho1 → hash_fun_ok ho → ord ≡ₚ map_to_list (sc_pos (eu_chain e)) →
      ∃ sc, into_keychain_scan ho1 e [] (tr_cg x') = Ret (Ok sc) ∧
        tr_apply_update (ho (cg_graph (tr_cg x'))) x' sc ord = Ret (Ok (x', kcs_default))).
Proof.
  intros HA Hw Hs Htx Hk E0 Hh E. destruct (used_wallet A W s lim h x0 x l HA Hk E0 Hh E) as (Hcg & Hin & hs & Hi).
  exact (sync_again A HA W w Hw Hs Htx hs gap gap2 kspks kspks2 txids txids2 outpoints outpoints2 x x' srv2 dbg2 fuel2 batch2 Hi Hcg Hin).
Qed.
Print Assumptions C98_electrum.
(** The used wallet of C91: its first scan brings news, the second none. *)
Example C98_ex : Forall (tr_op_ok exA rs_W' rs_s) (rs_h Confirmed Unconfirmed) ∧
  ∃ x0 x l x' cs z, tr_setup rs_s (Some 7%nat) = Ret x0 ∧ tr_run x0 (rs_h Confirmed Unconfirmed) = Ret (x, l) ∧
  fit_for rs_w (w_position rs_w) x ∧ scripts_of (tr_index x) rs_kspks ∧
  wallet_asks rs_w 2 rs_kspks [24; 99] [mkOutPoint 21 0; mkOutPoint 23 5] x x' ∧
  asks_no_more 2 1 rs_kspks ag_kspks [24; 99] [24] [mkOutPoint 21 0; mkOutPoint 23 5] [mkOutPoint 21 0] ∧ scripts_of (tr_index x') ag_kspks ∧
  el_asks rs_w 2 rs_kspks [24; 99] [mkOutPoint 21 0; mkOutPoint 23 5] x = Some (x', cs) ∧ kcs_is_empty cs = false ∧
  el_asks rs_w 1 ag_kspks [24] [mkOutPoint 21 0] x' = Some z ∧ kcs_is_empty z.2 = true.
Proof.
  split; [apply rs_h_ok; by vm_compute|].
  destruct (rs_old_ok _ _ _ _ ag_obs) as (x0 & x & l & E0 & E & Hx).
  destruct (el_asks rs_w 2 rs_kspks _ _ x) as [[y cs]|] eqn:Ey; [|done]. cbn [mbind option_bind fst snd] in Hx.
  destruct (el_asks rs_w 1 ag_kspks _ _ y) as [z|] eqn:Ez; [|done].
  apply Some_inj, pair_equal_spec in Hx as [Hx _]. apply pair_equal_spec in Hx as [Hx H2]. apply pair_equal_spec in Hx as [Hx H1].
  apply pair_equal_spec in Hx as [Hx Hf]. apply pair_equal_spec in Hx as [Hk Hk']. exists x0, x, l, y, cs, z.
  split; [done|]. split; [done|]. split; [by apply fit_check_ok|]. split; [by apply rs_scripts|].
  split; [eapply el_asks_ok; [apply rs_world..| | |exact Ey]; apply (bool_decide_unpack _); by vm_compute|]. split; [exact ag_no_more|]. split; [by apply ag_scripts|]. done.
Qed.
(** A wallet that keeps no checkpoints (limit 0) is told of the tip anew each time: every scan has a changeset, which is stored,
    though nothing has changed. *)
Theorem C98_no_checkpoints_refuted : ∃ (A : N → option Desc) W w s (x x' z : Tracker N TxHeight) kspks (gap : N) cs,
  good_env A ∧ world_ok w ∧ world_sane W w ∧ (∀ t a, w_tx w t = Some a → tx_ok a) ∧ electrum_honest w (honest w) ∧
  ki_hist_ok A s ∧ tr_setup s (Some 0%nat) = Ret x ∧ scripts_of (tr_index x) kspks ∧ wallet_asks w gap kspks [] [] x x' ∧
  scripts_of (tr_index x') kspks ∧ wallet_asks w gap kspks [] [] x' z ∧ el_asks w gap kspks [] [] x' = Some (z, cs) ∧ kcs_is_empty cs = false.
Proof.
  destruct (new_obs_Some _ _ _ _ ag_zero_obs) as (x & Ex & Hx). destruct (el_asks rs_w 2 rs_kspks [] [] x) as [[y cs1]|] eqn:Ey; [|done].
  cbn [mbind option_bind fst snd] in Hx. destruct (el_asks rs_w 2 rs_kspks [] [] y) as [[z cs]|] eqn:Ez; [|done].
  apply Some_inj, pair_equal_spec in Hx as [Hx _]. apply pair_equal_spec in Hx as [Hx Hc]. apply pair_equal_spec in Hx as [Hk Hk'].
  destruct rs_world as (W1 & W2 & W3 & W4). exists exA, rs_W, rs_w, rs_s, x, y, z, rs_kspks, 2, cs.
  split; [exact exA_good|]. do 4 (split; [done|]). split; [exact rs_s_ok|]. split; [done|]. split; [by apply rs_scripts|]. split; [by eapply el_asks_ok|].
  split; [by apply rs_scripts|]. split; [by eapply el_asks_ok|]. split; [done|]. cbn [snd] in Hc. apply andb_prop in Hc as [_ Hc]. by apply negb_true_iff in Hc.
Qed.
Print Assumptions C98_no_checkpoints_refuted.
