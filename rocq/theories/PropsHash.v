(** C96, C97: hash iteration orders. *)
From Verif Require Import HashExamples.
Local Open Scope N_scope.
Local Existing Instance kcs_codec.

Section graph.
Context `{ChainPositionLaws P}.
Implicit Types (cg u : ChainGraph P) (c : SparseChain P).

(** C96: inserting a transaction gives the same result or error whatever the order of the spender sets; an update the same up
    to which of several contradicting transactions is named, and the same when the positions are met in the same order;
    inflating up to the second transaction of a double spend. *)
Theorem C96_insert ho ho' cg t p : cg_ok cg → hash_order (cg_graph cg) ho → hash_order (cg_graph cg) ho' →
  cg_insert_tx_preview ho cg t p = cg_insert_tx_preview ho' cg t p.
Proof. exact (cg_insert_same ho ho' cg t p). Qed.
Theorem C96_update ho ho' cg u ord ord' : cg_ok cg → cg_ok u → hash_order (cg_graph cg) ho → hash_order (cg_graph cg) ho' →
  ord ≡ₚ map_to_list (sc_pos (cg_chain u)) → ord' ≡ₚ map_to_list (sc_pos (cg_chain u)) →
  agree same_update_error (cg_determine_changeset ho cg u ord) (cg_determine_changeset ho' cg u ord') ∧
  cg_determine_changeset ho cg u ord = cg_determine_changeset ho' cg u ord.
Proof. exact (λ Hc Hu Hh Hh' Ho Ho', conj (cg_determine_agree ho ho' cg u ord ord' Hc Hu Hh Hh' Ho Ho') (cg_determine_same ho ho' cg u ord Hc Hh Hh')). Qed.
Theorem C96_inflate ho ho' cg c txs : hash_order (inflate_graph cg c txs) ho → hash_order (inflate_graph cg c txs) ho' →
  agree same_new_error (inflate_update ho cg c txs) (inflate_update ho' cg c txs).
Proof. exact (inflate_agree ho ho' cg c txs). Qed.
End graph.

Section tracker.
Context `{!DescEnv} `{Countable K, !Ord K, !OrdLaws K} `{ChainPositionLaws P}.
Implicit Types (x : Tracker K P) (s : list (ki_op K)) (h : list (tr_op K P)).

(** C96: two histories of the same calls, with whatever orders in each call, lead to the same tracker and changesets, and it
    shows the same outputs and balances whatever the orders. *)
Theorem C96_history A W s l h h' x0 : good_env A → ki_hist_ok A s → tr_setup s l = Ret x0 →
  Forall (tr_op_ok A W s) h → Forall (tr_op_ok A W s) h' → Forall2 same_call h h' →
  ∃ x l1, tr_run x0 h = Ret (x, l1) ∧ tr_run x0 h' = Ret (x, l1) ∧
    ∀ ho ho', hash_order (cg_graph (tr_cg x)) ho → hash_order (cg_graph (tr_cg x)) ho' →
      full_txouts ho x = full_txouts ho' x ∧ full_utxos ho x = full_utxos ho' x ∧
      (∀ trust, balance ho x trust = balance ho' x trust) ∧ ∀ n, balance_at ho x n = balance_at ho' x n.
Proof. exact (history_order A W s l h h' x0). Qed.
End tracker.

Section cli.
Context `{!DescEnv, !CliEnv, !PlanModel.KeyEnv} `{ChainPositionLaws P}.
Context `{!LeafCodecs Keychain P, !LeafWf Keychain P, !LeafOk Keychain P}.
Context (W : Txid → list OutPoint) (dbg : bool) (limit : nat) (ext : Desc) (int : option Desc) (km : PlanModel.KeyMap).
Notation A := (keychains ext int).
Notation s := (adds ext int).

(** C97, for the spender sets and the positions of a scan, given the order of the keys and of the excess strategies: in every
    session, commands and halves of sends have the same outcome and effects whatever the orders; and so has every process. For
    honest wallets, of whose descriptors every extended key has a wildcard, the order of the keys does not matter either. *)
Theorem C97_session_partial w pr evs0 l l' st (evs : list (event P)) : good_env A →
  in_session kcs_wf W dbg limit ext int km w pr evs0 →
  Forall (λ p, action_ok A W s p.1 p.2) l → Forall (λ p, action_ok A W s p.1 p.2) l' → Forall2 same_action l l' →
  acts dbg km (w, pr) l = Ret (st, evs) → Forall (event_ok kcs_wf W) evs → acts dbg km (w, pr) l' = Ret (st, evs).
Proof. exact (λ HA, session_order kcs_wf kcs_codec_ok kcs_range_default W dbg limit ext int km HA _ (create_order W dbg ext int km) w pr evs0 l l' st evs). Qed.
Theorem C97_process_partial d (evs0 : list (event P)) create faults ch ch' c c' : good_env A →
  life kcs_wf W dbg limit ext int km d evs0 → command_ok A W s ch c → command_ok A W s ch' c' → same_choices ch ch' → same_command c c' →
  process dbg limit ext int km d create faults ch c = process dbg limit ext int km d create faults ch' c'.
Proof. exact (λ HA, process_order kcs_wf kcs_codec_ok kcs_range_default W dbg limit ext int km HA _ (create_order W dbg ext int km) d evs0 create faults ch ch' c c'). Qed.
Theorem C97_session_keys_partial R w pr evs0 l l' st (evs : list (event P)) : good_env A → honest_wallet R ext int km →
  in_session kcs_wf W dbg limit ext int km w pr evs0 →
  Forall (λ p, action_ok A W s p.1 p.2) l → Forall (λ p, action_ok A W s p.1 p.2) l' → Forall2 (same_action_by (same_but_keys km)) l l' →
  acts dbg km (w, pr) l = Ret (st, evs) → Forall (event_ok kcs_wf W) evs → acts dbg km (w, pr) l' = Ret (st, evs).
Proof.
  exact (λ HA Hw, session_order kcs_wf kcs_codec_ok kcs_range_default W dbg limit ext int km HA _
    (λ ch ch' x v a g, create_keys_order W dbg ext int km HA R ch ch' x v a g Hw) w pr evs0 l l' st evs).
Qed.
Theorem C97_process_keys_partial R d (evs0 : list (event P)) create faults ch ch' c c' : good_env A → honest_wallet R ext int km →
  life kcs_wf W dbg limit ext int km d evs0 → command_ok A W s ch c → command_ok A W s ch' c' → same_but_keys km ch ch' → same_command c c' →
  process dbg limit ext int km d create faults ch c = process dbg limit ext int km d create faults ch' c'.
Proof.
  exact (λ HA Hw, process_order kcs_wf kcs_codec_ok kcs_range_default W dbg limit ext int km HA _
    (λ ch ch' x v a g, create_keys_order W dbg ext int km HA R ch ch' x v a g Hw) d evs0 create faults ch ch' c c').
Qed.
End cli.

Print Assumptions C96_insert.
Print Assumptions C96_update.
Print Assumptions C96_inflate.
Print Assumptions C96_history.
Print Assumptions C97_session_partial.
Print Assumptions C97_process_partial.
Print Assumptions C97_session_keys_partial.
Print Assumptions C97_process_keys_partial.

Local Existing Instances ex_env PlanExamples.toy_env.
Local Existing Instance cli_env.
(** A graph where the orders differ; an insertion that evicts one of the spenders, and one that is refused. *)
Example C96_insert_example : cg_ok hs_cg ∧ hash_order (cg_graph hs_cg) (exho (cg_graph hs_cg)) ∧ hash_order (cg_graph hs_cg) (exho_rev (cg_graph hs_cg)) ∧
  exho (cg_graph hs_cg) (mkOutPoint 11 0) ≠ exho_rev (cg_graph hs_cg) (mkOutPoint 11 0).
Proof. split; [apply (built_ok cgW), hs_built|]. split; [apply exho_ok|]. split; [apply exho_rev_ok|]. vm_compute. discriminate. Qed.
Example C96_update_example : cg_ok inc_cg ∧ cg_ok inc_u ∧ inc_ord ≡ₚ map_to_list (sc_pos (cg_chain inc_u)).
Proof. split; [by apply (built_ok cgW), inc_built|]. split; [by apply (built_ok cgW), inc_built|exact inc_ord_ok]. Qed.
Example C96_history_example : good_env exA ∧ ki_hist_ok exA tr_s ∧ (∃ x0 x l1, tr_setup tr_s None = Ret (x0 : Tracker N TxHeight) ∧ tr_run x0 tr_h = Ret (x, l1) ∧ length l1 = 9%nat) ∧
  Forall (tr_op_ok exA trW tr_s) tr_h ∧ Forall (tr_op_ok exA trW tr_s) hs_h ∧ Forall2 same_call tr_h hs_h.
Proof. split; [exact exA_good|]. split; [exact tr_s_ok|]. split; [exact hs_runs|]. split; [exact tr_h_ok|]. split; [exact hs_h_ok|exact hs_h_same]. Qed.
(** Which transaction an error names does depend on the orders: that of the update's positions, and that of the spender sets
    when inflating. *)
Theorem C96_errors_refuted :
  (∃ cg u (ord ord' : list (Txid * TxHeight)), built cgW cg ∧ built cgW u ∧ ord ≡ₚ map_to_list (sc_pos (cg_chain u)) ∧ ord' ≡ₚ map_to_list (sc_pos (cg_chain u)) ∧
    cg_determine_changeset (exho (cg_graph cg)) cg u ord = Ret (Err (CgUpdChain (TxInconsistent 11 (Confirmed 5) (Confirmed 4)))) ∧
    cg_determine_changeset (exho (cg_graph cg)) cg u ord' = Ret (Err (CgUpdChain (TxInconsistent 13 (Confirmed 6) (Confirmed 4))))) ∧
  ∃ c txs, let g := inflate_graph cg_default c txs in
    inflate_update (exho g) cg_default c txs = Ret (Err (NewConflict (Unconfirmed, 31) (Unconfirmed, 32))) ∧
    inflate_update (exho_rev g) cg_default c txs = Ret (Err (NewConflict (Unconfirmed, 31) (Unconfirmed, 33))).
Proof.
  split; [|exists tri_c, tri; exact tri_conflict]. exists inc_cg, inc_u, inc_ord, (reverse inc_ord).
  split; [by apply inc_built|]. split; [by apply inc_built|]. split; [exact inc_ord_ok|].
  split; [rewrite reverse_Permutation; exact inc_ord_ok|]. split; vm_compute; reflexivity.
Qed.
Print Assumptions C96_errors_refuted.
(** C97: a session in which a scan found a payment; then a send, under two orders. *)
Example C97_session_example : (∃ w pr evs st evs', in_session kcs_wf cliW true 10 1 (Some 3) cli_km w pr evs ∧
    acts true cli_km (w, pr) (hs_acts cli_ch) = Ret (st, evs') ∧ Forall (event_ok kcs_wf cliW) evs' ∧ length (broadcasts evs') = 1%nat) ∧
  Forall (λ p, action_ok (keychains 1 (Some 3)) cliW (adds 1 (Some 3)) p.1 p.2) (hs_acts cli_ch) ∧
  Forall (λ p, action_ok (keychains 1 (Some 3)) cliW (adds 1 (Some 3)) p.1 p.2) (hs_acts hs_ch) ∧ Forall2 same_action (hs_acts cli_ch) (hs_acts hs_ch).
Proof. exact (conj hs_session hs_acts_ok). Qed.
Example C97_process_example : life kcs_wf cliW true 10 1 (Some 3) cli_km None [] ∧ same_choices cli_ch hs_ch ∧
  command_ok (keychains 1 (Some 3)) cliW (adds 1 (Some 3)) cli_ch (CmdElectrum cli_scan cli_ord) ∧
  command_ok (keychains 1 (Some 3)) cliW (adds 1 (Some 3)) hs_ch (CmdElectrum cli_scan cli_ord).
Proof. split; [apply life_new|]. split; [done|]. split; [split; [apply exho_ok|apply cli_scan_ok]|]. split; [apply exho_rev_ok|]. destruct cli_scan_ok as [_ H]. split; [apply exho_rev_ok|exact H]. Qed.
(** C97 in full is false: with the same wallet and the same command the transaction has no change output, or has one, depending
    on the order in which the map of excess strategies is iterated: their waste is the same. *)
Theorem C97_strategies_refuted : ∃ (E : CliEnv) ch ch' w pr evs value x1 t1 x2 t2 a,
  choices_ok ch ∧ choices_ok ch' ∧ ch_hash ch = ch_hash ch' ∧ ch_keys ch = ch_keys ch' ∧ ch_sort ch = ch_sort ch' ∧ ch_clock ch = ch_clock ch' ∧
  in_session (H0 := E) kcs_wf cliW true 10 1 (Some 3) cli_km w pr evs ∧
  create_tx (H0 := E) true ch cli_km (w_tracker w) value 7 LargestFirst = Ret (x1, Ok (t1, None)) ∧
  create_tx (H0 := E) true ch' cli_km (w_tracker w) value 7 LargestFirst = Ret (x2, Ok (t2, Some (a, (Internal, 0)))) ∧
  ct_out t1 = [mkTxOut 99013 7] ∧ ct_out t2 = [mkTxOut 99013 7; mkTxOut 397 (exs 3 0)].
Proof.
  destruct six_tie as (w & pr & evs & x1 & t1 & x2 & t2 & a & Hs & E1 & E2 & Ho). exists six_env, cli_ch, rev_ch, w, pr, evs, 99013, x1, t1, x2, t2, a.
  split; [exact cli_choices_ok|]. split; [exact rev_ch_ok|]. repeat (split; [reflexivity|]).
  split; [exact Hs|]. split; [exact E1|]. split; [exact E2|exact Ho].
Qed.
Print Assumptions C97_strategies_refuted.
(** The same session, process and wallet with its keys in the other order. *)
Example C97_session_keys_example : honest_wallet PlanExamples.toy_ring 1 (Some 3) cli_km ∧
  (∃ w pr evs st evs', in_session kcs_wf cliW true 10 1 (Some 3) cli_km w pr evs ∧
     acts true cli_km (w, pr) (hs_acts cli_ch) = Ret (st, evs') ∧ Forall (event_ok kcs_wf cliW) evs' ∧ length (broadcasts evs') = 1%nat) ∧
  Forall (λ p, action_ok (keychains 1 (Some 3)) cliW (adds 1 (Some 3)) p.1 p.2) (hs_acts hk_ch) ∧
  Forall2 (same_action_by (same_but_keys cli_km)) (hs_acts cli_ch) (hs_acts hk_ch) ∧ ch_keys cli_ch ≠ ch_keys hk_ch.
Proof. split; [exact cli_wallet_honest|]. split; [exact hs_session|]. split; [apply hk_acts_ok|]. split; [apply hk_acts_ok|discriminate]. Qed.
Example C97_process_keys_example : honest_wallet PlanExamples.toy_ring 1 (Some 3) cli_km ∧ same_but_keys cli_km cli_ch hk_ch ∧
  command_ok (keychains 1 (Some 3)) cliW (adds 1 (Some 3)) hk_ch (CmdElectrum cli_scan cli_ord).
Proof. split; [exact cli_wallet_honest|]. split; [exact cli_same_but_keys|]. split; [apply exho_rev_ok|]. destruct cli_scan_ok as [_ H]. split; [apply exho_rev_ok|exact H]. Qed.
(** For a wallet whose descriptor has an extended key without wildcard the order of the keys decides which key signs: the parent
    of the right one, or the right one. *)
Theorem C97_keys_refuted : ∃ (E : CliEnv) R km ch ch' w pr evs x1 t1 c1 x2 t2 c2 k sk,
  PlanSpec.ring_laws R ∧ PlanSpec.honest_keymap R km ∧ (∀ k, is_Some (km !! k) → PlanSpec.honest_origin R k) ∧
  choices_ok ch ∧ choices_ok ch' ∧ same_but_keys km ch ch' ∧ ch_hash ch = ch_hash ch' ∧
  in_session (H0 := E) kcs_wf cliW true 10 1 (Some 3) km w pr evs ∧
  create_tx (H0 := E) true ch km (w_tracker w) 40000 7 LargestFirst = Ret (x1, Ok (t1, c1)) ∧
  create_tx (H0 := E) true ch' km (w_tracker w) 40000 7 LargestFirst = Ret (x2, Ok (t2, c2)) ∧
  wallet_key (H0 := E) 1 (Some 3) k ∧ PlanSpec.key_secret R k = Some sk ∧
  (λ i, hd [] (ci_witness i)) <$> ct_in t2 = [PlanModel.schnorr_sign sk 5] ∧
  (λ i, hd [] (ci_witness i)) <$> ct_in t1 ≠ [PlanModel.schnorr_sign sk 5].
Proof.
  destruct def_keys_matter as (w & pr & evs & x & t & c & x' & t' & c' & Hs & E1 & E2 & F1 & F2).
  exists def_env, PlanExamples.toy_ring, def_km, (def_ch [def_key; cli_key 3]), (def_ch [cli_key 3; def_key]), w, pr, evs, x, t, c, x', t', c', def_key, (PlanExamples.toy_child 7 [2]).
  split; [exact PlanExamples.toy_ring_laws|]. split; [exact (proj1 def_km_honest)|]. split; [exact (proj2 def_km_honest)|].
  split; [exact (def_ch_ok _)|]. split; [exact (def_ch_ok _)|].
  split. { split; [symmetry; exact def_km_keys|]. split; [rewrite def_km_keys; apply perm_swap|]. repeat split. }
  split; [reflexivity|]. split; [exact Hs|]. split; [exact E1|]. split; [exact E2|].
  split. { exists External, 1, 0. eexists. split; [reflexivity|]. split; [reflexivity|]. right. eexists. split; [left|reflexivity]. }
  split; [reflexivity|]. split; [exact F2|]. rewrite F1. vm_compute. discriminate.
Qed.
Print Assumptions C97_keys_refuted.
