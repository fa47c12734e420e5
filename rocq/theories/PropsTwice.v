(** C107: a changeset applied, or an entry stored, a second time.
    Statements only; every proof is a lemma of the *Proofs files. *)
From Verif Require Import TwiceExamples.
Local Existing Instance kcs_codec.

(** Chain and graph: the second time changes nothing, whatever the changeset and the checkpoint limit. *)
Theorem C107_chain `{ChainPositionLaws P} (c : SparseChain P) (cs : ChangeSet P) :
  views_agree c → apply_changeset (apply_changeset c cs) cs = apply_changeset c cs.
Proof. exact (chain_twice c cs). Qed.
Theorem C107_graph (g : TxGraph) (a : Additions) :
  ad_inj (ad_tx a) → apply_additions (apply_additions g a) a = apply_additions g a.
Proof. exact (graph_twice g a). Qed.

Section props.
Context `{!DescEnv} `{Countable K, !Ord K, !OrdLaws K} `{ChainPositionLaws P}.
Implicit Types (y : Tracker K P) (e : KChangeSet K P) (l : list (KChangeSet K P)) (A : K → option Desc) (Wo : OutPoint → TxOut).

(** C107: an entry stored twice in a row restores the wallet that the same entry stored once restores,
    exactly if the wallet has on record all outputs of the entry whose scripts it watches.  It has if
    they were within the lookahead to begin with. *)
Theorem C107_entry_partial A Wo (s : list (ki_op K)) lim y0 l1 e y :
  good_env A → ki_hist_ok A s → tr_setup s lim = Ret y0 → Forall (cs_fit s Wo) (l1 ++ [e]) → txids_once [e] →
  tr_replay y0 (l1 ++ [e]) = Ret y →
  (tr_replay y0 (l1 ++ [e; e]) = Ret y ↔ all_recorded y e) ∧
  (all_recorded y e → ∀ l2, tr_replay y0 (l1 ++ e :: e :: l2) = tr_replay y0 (l1 ++ e :: l2)) ∧
  (∀ x, tr_replay y0 l1 = Ret x → in_window (tr_index x) e → all_recorded y e).
Proof. exact (entry_twice A Wo s lim y0 l1 e y). Qed.
(** Applying a whole log a second time to the wallet it restored changes nothing either, although the
    entries undo and redo each other on the way. *)
Theorem C107_log_partial A Wo (s : list (ki_op K)) y0 l y :
  good_env A → ki_hist_ok A s → tr_setup s None = Ret y0 → Forall (cs_fit s Wo) l → txids_once l →
  tr_replay y0 l = Ret y → (∀ e, e ∈ l → all_recorded y e) → tr_replay y l = Ret y.
Proof. exact (log_twice A Wo s y0 l y). Qed.
End props.

(** C107: a caller that appends an entry again because the first call reported an error, though all of
    its bytes were written, leaves the entry twice in the file; loading it is as if it were there once. *)
Theorem C107_retry_partial `{!DescEnv} `{Countable K, !Ord K, !OrdLaws K} `{ChainPositionLaws P} `{!LeafCodecs K P, !LeafWf K P, !LeafOk K P}
    (A : K → option Desc) (Wo : OutPoint → TxOut) (s : list (ki_op K)) lim (y0 : Tracker K P) l1 e y f F :
  f_bytes f = log_bytes l1 → f_pos f = length (log_bytes l1) → kcs_is_empty e = false → reached e F = true →
  Forall kcs_wf (l1 ++ [e]) →
  good_env A → ki_hist_ok A s → tr_setup s lim = Ret y0 → Forall (cs_fit s Wo) (l1 ++ [e]) → txids_once [e] →
  tr_replay y0 (l1 ++ [e]) = Ret y → all_recorded y e →
  let f2 := (append_changeset (append_changeset f e F).1 e NoFault).1 in
  f_bytes f2 = log_bytes (l1 ++ [e; e]) ∧
  load_into_keychain_tracker f2 y0 = Some (Ret (y, mkFile (f_bytes f2) (length (f_bytes f2)), Ok tt)).
Proof. exact (retry_twice kcs_wf kcs_codec_ok kcs_range_default A Wo s lim y0 l1 e y f F). Qed.

(** Otherwise the second application may find what the first overlooked: a wallet restored from a file
    with the entry once has less money than one restored from a file with the entry twice. *)
Theorem C107_entry_refuted : ∃ (E : DescEnv) (A : N → option Desc) Wo s (y0 y y2 : Tracker N TxHeight) e,
  good_env A ∧ ki_hist_ok A s ∧ tr_setup s None = Ret y0 ∧ Forall (cs_fit s Wo) [e] ∧ txids_once [e] ∧
  tr_replay y0 [e] = Ret y ∧ tr_replay y0 [e; e] = Ret y2 ∧
  ∃ b b2, balance (ex_ho y) y (λ k, k =? 1) = Ret b ∧ bal_total b = Ret 1000 ∧
    balance (ex_ho y2) y2 (λ k, k =? 1) = Ret b2 ∧ bal_total b2 = Ret 1100.
Proof. exact twice_witness. Qed.

Print Assumptions C107_chain.
Print Assumptions C107_graph.
Print Assumptions C107_entry_partial.
Print Assumptions C107_log_partial.
Print Assumptions C107_retry_partial.
Print Assumptions C107_entry_refuted.

(** ** Concrete cases *)
Local Existing Instance ex_env.
(** Two checkpoints are kept: of those left and added, the lowest are pruned each time. *)
Example C107_ex_chain : views_agree twC ∧
  let c := apply_changeset twC twCs in (bmap_list (sc_cps c), bmap_list (sc_pos c)) =
    ([(5, 105); (12, 112)], [(1, Confirmed 3); (2, Confirmed 7); (3, Confirmed 12); (9, Unconfirmed)]).
Proof. split; [exact twC_views|vm_compute; reflexivity]. Qed.
(** A transaction and an output of another. *)
Example C107_ex_graph : ad_inj (ad_tx (mkAdditions {[ twA; twB ]} {[ mkOutPoint 91 0 := mkTxOut 1200 9 ]})).
Proof. intros t t'. cbn [ad_tx]. rewrite !elem_of_union, !elem_of_singleton. intros [-> | ->] [-> | ->]; done. Qed.
(** A payment to indices 0 and 2, within the lookahead. *)
Example C107_ex_entry : good_env exA ∧ ki_hist_ok exA tr_s3 ∧ Forall (cs_fit tr_s3 twWo) ([] ++ [tw_e1]) ∧ txids_once [tw_e1] ∧
  ∃ y0 y, tr_setup tr_s3 None = Ret y0 ∧ tr_replay y0 ([] ++ [tw_e1]) = Ret y ∧ all_recorded y tw_e1 ∧ in_window (tr_index y0) tw_e1.
Proof.
  exact (conj exA_good (conj tr_s3_ok (conj (Forall_cons_2 _ _ _ (Forall_inv tw_fit) (Forall_nil_2 _)) (conj (proj1 (proj2 tw_once)) tw_hyps1)))).
Qed.
(** The payment is confirmed, then a reorganisation puts it back into the mempool. *)
Example C107_ex_log : good_env exA ∧ ki_hist_ok exA tr_s3 ∧ Forall (cs_fit tr_s3 twWo) [tw_e1; tw_e2] ∧ txids_once [tw_e1; tw_e2] ∧
  ∃ y0 y, tr_setup tr_s3 None = Ret y0 ∧ tr_replay y0 [tw_e1; tw_e2] = Ret y ∧ (∀ e, e ∈ [tw_e1; tw_e2] → all_recorded y e) ∧ total_of y = Some 1300.
Proof. exact (conj exA_good (conj tr_s3_ok (conj tw_fit (conj (proj1 tw_once) tw_hyps)))). Qed.
(** Syncing the file fails after the entry was written. *)
Example C107_ex_retry : f_bytes fs_f0 = log_bytes fs_none ∧ f_pos fs_f0 = length (log_bytes fs_none) ∧ kcs_is_empty tw_e1 = false ∧
  reached tw_e1 SyncFails = true ∧ Forall kcs_wf ([] ++ [tw_e1]) ∧ (append_changeset fs_f0 tw_e1 SyncFails).2 = Err IoFailed ∧
  let f2 := (append_changeset (append_changeset fs_f0 tw_e1 SyncFails).1 tw_e1 NoFault).1 in
  f_bytes f2 = log_bytes [tw_e1; tw_e1] ∧ load_obs f2 = Some (Some 1300).
Proof.
  split; [reflexivity|]. split; [reflexivity|]. split; [reflexivity|]. split; [reflexivity|]. split; [exact tw_wf|].
  split; [vm_compute; reflexivity|]. split; vm_compute; reflexivity.
Qed.
