(** Concrete cases and witnesses for changesets applied twice (C107). *)
From Verif Require Export TwiceFileProofs TrackerExamples FileStoreExamples.

Local Existing Instance ex_env.

(** A payment to indices 0 and 2 of keychain 0, confirmed; then a reorganisation puts it back into the mempool. *)
Definition twA : Tx := mkTx 61 [mkOutPoint 90 0] [mkTxOut 1000 (exs 1 0); mkTxOut 300 (exs 1 2)] 0.
(** Its first output pays index 4, beyond the three scripts of the lookahead; the second brings it within. *)
Definition twB : Tx := mkTx 62 [mkOutPoint 91 0] [mkTxOut 100 (exs 1 4); mkTxOut 1000 (exs 1 2)] 0.
Definition tw_e1 : KChangeSet N TxHeight :=
  mkKCS {[ 0 := 1 ]} (mkCGS (mkChangeSet {[ 100 := Some 100 ]} {[ 61 := Some (Confirmed 100) ]}) (mkAdditions {[ twA ]} ∅)).
Definition tw_e2 : KChangeSet N TxHeight :=
  mkKCS ∅ (mkCGS (mkChangeSet {[ 100 := None; 101 := Some 9 ]} {[ 61 := Some Unconfirmed ]}) ad_default).
Definition tw_b : KChangeSet N TxHeight :=
  mkKCS ∅ (mkCGS (mkChangeSet ∅ {[ 62 := Some Unconfirmed ]}) (mkAdditions {[ twB ]} ∅)).
Definition twWo (o : OutPoint) : TxOut :=
  default (mkTxOut 0 0) (tx_out (if op_txid o =? 61 then twA else twB) !! N.to_nat (op_vout o)).

Definition fit1b (s : list (ki_op N)) (Wo : OutPoint → TxOut) (cs : KChangeSet N TxHeight) : bool :=
  forallb (λ kt, existsb (λ op, match op with KiAdd k _ => k =? kt.1 | _ => false end) s && bool_decide (kt.2 ≤ bip32_max)) (map_to_list (kcs_indices cs)) &&
  forallb (λ ou, bool_decide (op_ok ou.1) && bool_decide (ou.2 = Wo ou.1)) (cs_outs cs).
Lemma fit1b_ok s Wo cs : fit1b s Wo cs = true → cs_fit s Wo cs.
Proof.
  unfold fit1b. intros Hb. apply andb_prop in Hb as [H1 H2]. rewrite forallb_forall in H1, H2. split.
  - intros k t Hk. apply elem_of_map_to_list, elem_of_list_In, H1 in Hk. apply andb_prop in Hk as [Hk Ht%bool_decide_eq_true]. split; [|done].
    apply existsb_exists in Hk as (op & Hin & Hop). destruct op as [k' d| | | | | | | | | | | | |]; try discriminate. exists d. apply N.eqb_eq in Hop. cbn in Hop. subst. by apply elem_of_list_In.
  - intros o u Hin. apply elem_of_list_In, H2 in Hin. apply andb_prop in Hin as [Ha%bool_decide_eq_true Hb%bool_decide_eq_true]. done.
Qed.
Definition recorded_b (x : Tracker N TxHeight) (cs : KChangeSet N TxHeight) : bool :=
  forallb (λ ou, match si_index_of_spk (ki_inner (tr_index x)) (txo_spk ou.2) with
    | Some ki => bool_decide (si_txout (ki_inner (tr_index x)) ou.1 = Some (ki, ou.2)) | None => true end) (cs_outs cs).
Lemma recorded_b_ok x cs : recorded_b x cs = true ↔ all_recorded x cs.
Proof.
  unfold recorded_b, all_recorded. rewrite forallb_forall. split.
  - intros Hb o u k i Hin Hs. apply elem_of_list_In, Hb in Hin. cbn [fst snd] in Hin. rewrite Hs in Hin. by apply bool_decide_eq_true in Hin.
  - intros Hr [o u] Hin. apply elem_of_list_In in Hin. cbn [fst snd].
    destruct (si_index_of_spk (ki_inner (tr_index x)) (txo_spk u)) as [[k i]|] eqn:Es; [|done]. apply bool_decide_eq_true. by apply Hr.
Qed.
Lemma tw_fit : Forall (cs_fit tr_s3 twWo) [tw_e1; tw_e2].
Proof. constructor; [|constructor; [|constructor]]; apply fit1b_ok; vm_compute; reflexivity. Qed.
Lemma tw_fit_b : Forall (cs_fit tr_s3 twWo) [tw_b].
Proof. constructor; [|constructor]; apply fit1b_ok; vm_compute; reflexivity. Qed.
Lemma tw_obs : tr_then tr_s3 (λ y, tr_replay y [tw_e1; tw_e2]) (λ y, (recorded_b y tw_e1, recorded_b y tw_e2, total_of y, sc_pos (cg_chain (tr_cg y)) !! 61)) =
  Some (true, true, Some 1300, Some Unconfirmed).
Proof. vm_compute. reflexivity. Qed.
Lemma tw_hyps : ∃ y0 y, tr_setup tr_s3 None = Ret y0 ∧ tr_replay y0 [tw_e1; tw_e2] = Ret y ∧
  (∀ e, e ∈ [tw_e1; tw_e2] → all_recorded y e) ∧ total_of y = Some 1300.
Proof.
  destruct (tr_then_Some _ _ _ _ tw_obs) as (y0 & y & E0 & E & Eo). exists y0, y. split; [exact E0|]. split; [exact E|].
  assert (recorded_b y tw_e1 = true) as R1 by congruence. assert (recorded_b y tw_e2 = true) as R2 by congruence. split; [|congruence].
  intros e [->|[->|Hin%elem_of_nil]%elem_of_cons]%elem_of_cons; [by apply recorded_b_ok..|done].
Qed.
Lemma tw_obs1 : tr_then tr_s3 (λ y, tr_replay y [tw_e1]) (λ y, (recorded_b y tw_e1, total_of y)) = Some (true, Some 1300).
Proof. vm_compute. reflexivity. Qed.
Lemma tw_hyps1 : ∃ y0 y, tr_setup tr_s3 None = Ret y0 ∧ tr_replay y0 ([] ++ [tw_e1]) = Ret y ∧ all_recorded y tw_e1 ∧ in_window (tr_index y0) tw_e1.
Proof.
  destruct (tr_then_Some _ _ _ _ tw_obs1) as (y0 & y & E0 & E & Eo). exists y0, y. split; [exact E0|]. split; [exact E|].
  assert (recorded_b y tw_e1 = true) as R1 by congruence. split; [by apply recorded_b_ok|].
  assert (∃ i outs acc, ki_run tr_s3 = Ret (i, outs, acc) ∧ tr_index y0 = i) as (i & outs & acc & Er & Ei).
  { unfold tr_setup in E0. destruct (ki_run tr_s3) as [[[i outs] acc]|]; [|discriminate]. exists i, outs, acc. split; [reflexivity|]. by injection E0 as <-. }
  rewrite Ei. apply (fitb_ok exA tr_s3 twWo i outs acc tw_e1 exA_good tr_s3_ok Er).
  assert (match ki_run tr_s3 with Ret (i, _, _) => fitb tr_s3 twWo i tw_e1 | Panic => false end = true) as Hc by (vm_compute; reflexivity).
  by rewrite Er in Hc.
Qed.
Lemma tw_once : txids_once [tw_e1; tw_e2] ∧ txids_once [tw_e1] ∧ txids_once [tw_b].
Proof. split; [|split]; apply once_b_ok; vm_compute; reflexivity. Qed.
Lemma tw_wf : Forall kcs_wf ([] ++ [tw_e1]).
Proof. apply all_kcsb. vm_compute. reflexivity. Qed.

(** The second application finds the payment to index 4. *)
Lemma tw_obs_b : tr_then tr_s3 (λ y, tr_replay y [tw_b]) (λ y, (recorded_b y tw_b, total_of y,
    match tr_apply_changeset y tw_b with Ret y2 => Some (total_of y2) | Panic => None end)) = Some (false, Some 1000, Some (Some 1100)).
Proof. vm_compute. reflexivity. Qed.
Lemma twice_witness : ∃ (E : DescEnv) (A : N → option Desc) Wo s (y0 y y2 : Tracker N TxHeight) e,
  good_env A ∧ ki_hist_ok A s ∧ tr_setup s None = Ret y0 ∧ Forall (cs_fit s Wo) [e] ∧ txids_once [e] ∧
  tr_replay y0 [e] = Ret y ∧ tr_replay y0 [e; e] = Ret y2 ∧
  ∃ b b2, balance (ex_ho y) y (λ k, k =? 1) = Ret b ∧ bal_total b = Ret 1000 ∧
    balance (ex_ho y2) y2 (λ k, k =? 1) = Ret b2 ∧ bal_total b2 = Ret 1100.
Proof.
  destruct (tr_then_Some _ _ _ _ tw_obs_b) as (y0 & y & E0 & E1 & Eo).
  assert (match tr_apply_changeset y tw_b with Ret y2 => Some (total_of y2) | Panic => None end = Some (Some 1100)) as O2 by congruence.
  assert (total_of y = Some 1000) as O1 by congruence. clear Eo.
  destruct (tr_apply_changeset y tw_b) as [y2|] eqn:E2; [|discriminate]. injection O2 as O2.
  exists ex_env, exA, twWo, tr_s3, y0, y, y2, tw_b.
  split; [exact exA_good|]. split; [exact tr_s3_ok|]. split; [exact E0|]. split; [exact tw_fit_b|]. split; [exact (proj2 (proj2 tw_once))|].
  split; [exact E1|]. split.
  { change [tw_b; tw_b] with ([tw_b] ++ [tw_b]). rewrite tr_replay_snoc, E1. exact E2. }
  unfold total_of, ex_bal in O1, O2. destruct (balance (ex_ho y) _ _) as [b|]; [|done]. destruct (balance (ex_ho y2) _ _) as [b'|]; [|done].
  exists b, b'. unfold rets in *. destruct (bal_total b); [|done]. destruct (bal_total b'); [|done]. split; [done|]. split; [congruence|]. split; [done|congruence].
Qed.
(** A chain that keeps two checkpoints: the changeset adds a low one, which is pruned each time. *)
Definition twC : SparseChain TxHeight := set_checkpoint_limit exC (Some 2%nat).
Definition twCs : ChangeSet TxHeight := mkChangeSet {[ 3 := Some 103; 10 := None; 12 := Some 112 ]} {[ 3 := Some (Confirmed 12); 4 := None; 9 := Some Unconfirmed ]}.
Lemma twC_views : views_agree twC.
Proof. apply (chain_okb_ok twC). vm_compute. done. Qed.
(** Total of the wallet loaded from the file. *)
Definition load_obs (f : File) : option (option N) :=
  match tr_setup (P:=TxHeight) tr_s3 None with
  | Ret y0 => match load_into_keychain_tracker (C := kcs_codec) f y0 with Some (Ret (y, _, Ok _)) => Some (total_of y) | _ => None end
  | Panic => None
  end.
