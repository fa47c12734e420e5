(** Sessions of the esplora wallet for C99 and C100. *)
From Verif Require Export CliSyncExamples CliEsploraProofs.
Local Open Scope N_scope.
Local Existing Instances ex_env cli_env PlanExamples.toy_env kcs_codec.

(** ** Servers *)
Definition list_apart (l : list (Tx * option N)) : bool :=
  forallb (λ e, forallb (λ f, (txid e.1 =? txid f.1) || forallb (λ o, negb (bool_decide (o ∈ tx_in f.1))) (tx_in e.1)) l) l.
Definition list_ids (l : list (Tx * option N)) : list Txid := txid <$> (fst <$> l).
Lemma list_esplora W tip block l time : list_check W tip l = true → list_apart l = true →
  esplora_honest (list_world tip block l) time (esplora (list_world tip block l) time (list_ids l)).
Proof.
  intros Hc Ha. destruct (list_facts W tip l Hc) as (_ & Hn & _). apply esplora_esplora.
  - exact (list_ok _ _ _ _ Hc).
  - intros k. cbn [w_history list_world]. rewrite <- list_fmap_compose in Hn |- *. by apply NoDup_fmap_filter.
  - intros t [x (h & Hin & <-)%(list_tx _ _ _ _ Hc)]. unfold list_ids. apply elem_of_list_fmap. exists x. split; [done|].
    apply elem_of_list_fmap. by exists (x, h).
  - intros a b x y o (h & Hx & <-)%(list_tx _ _ _ _ Hc) (h' & Hy & <-)%(list_tx _ _ _ _ Hc) Hox Hoy.
    unfold list_apart in Ha. rewrite forallb_forall in Ha. apply elem_of_list_In, Ha in Hx. rewrite forallb_forall in Hx. apply elem_of_list_In, Hx in Hy.
    cbn [fst] in Hy. apply orb_prop in Hy as [Hy%N.eqb_eq|Hy]; [done|]. rewrite forallb_forall in Hy. apply elem_of_list_In, Hy in Hox.
    by apply negb_true_iff, bool_decide_eq_false in Hox.
Qed.
Lemma list_pages tip block l k : (length l ≤ 20)%nat →
  (length (w_mempool (list_world tip block l) k) ≤ 50)%nat ∧ (length (w_confirmed (list_world tip block l) k) < 25 * 1)%nat.
Proof.
  intros Hl. assert (length (w_history (list_world tip block l) k) ≤ 20)%nat.
  { cbn [w_history list_world]. rewrite !fmap_length. etrans; [apply filter_length|done]. }
  unfold w_mempool, w_confirmed. split; [etrans; [apply filter_length|lia]|eapply Nat.le_lt_trans; [apply filter_length|lia]].
Qed.

(** ** Encodings *)
Definition ct_leaves : LeafCodecs Keychain ConfirmationTime := {|
  leaf_k := keychain_codec; leaf_p := conftime_codec; leaf_tx := ex_tx_codec; leaf_txout := ex_txout_codec
|}.
Definition ct_leaf_wf : LeafWf Keychain ConfirmationTime := {|
  wf_k := keychain_wf; wf_p := pos_ok; wf_tx := @wf_tx _ _ ex_leaf_wf; wf_txout := ex_txout_wf
|}.
Global Existing Instances ct_leaves ct_leaf_wf.
Global Instance ct_leaf_ok : LeafOk Keychain ConfirmationTime.
Proof. destruct ex_leaf_ok. split; [apply keychain_codec_ok|apply conftime_codec_ok|done..]. Qed.
Definition ct_posb (p : ConfirmationTime) : bool := match p with CtConfirmed h t => u32b h && u64b t | CtUnconfirmed => true end.
Definition ct_kcsb (cs : KChangeSet Keychain ConfirmationTime) : bool :=
  mapb (λ _, true) u32b (kcs_indices cs) &&
  mapb u32b (optb hashb) (cs_cps (cgs_chain (kcs_cg cs))) &&
  mapb hashb (optb ct_posb) (cs_txids (cgs_chain (kcs_cg cs))) &&
  setb txb (ad_tx (cgs_graph (kcs_cg cs))) &&
  mapb outpointb txoutb (ad_txout (cgs_graph (kcs_cg cs))).
Lemma ct_posb_ok p : ct_posb p = true → pos_ok p.
Proof. destruct p; [|done]. cbn [ct_posb]. rewrite andb_true_iff. intros [H1%u32b_ok H2%u64b_ok]. done. Qed.
Lemma ct_kcsb_ok cs : ct_kcsb cs = true → kcs_wf cs.
Proof.
  unfold ct_kcsb. rewrite !andb_true_iff. intros [[[[H1 H2] H3] H4] H5]. unfold kcs_wf.
  split; [|split; [|split; [|split]]].
  - exact (mapb_ok _ _ _ _ _ (λ _ _, I) u32b_ok H1).
  - exact (mapb_ok _ _ _ _ _ u32b_ok (optb_ok _ _ hashb_ok) H2).
  - exact (mapb_ok _ _ _ _ _ hashb_ok (optb_ok _ _ ct_posb_ok) H3).
  - exact (setb_ok _ _ _ txb_ok H4).
  - exact (mapb_ok _ _ _ _ _ outpointb_ok txoutb_ok H5).
Qed.
Definition ct_eventb (ev : event ConfirmationTime) : bool :=
  match ev with EvAppend cs _ => ct_kcsb cs | EvAddress _ _ _ => true | _ => false end.
Lemma ct_eventb_ok ev : ct_eventb ev = true → event_ok kcs_wf cliW ev.
Proof. destruct ev as [cs e|k i sp|t c ok]; cbn [ct_eventb event_ok]; [apply ct_kcsb_ok|done|done]. Qed.

(** ** A new wallet that has shown two addresses *)
Definition ct_ch : Choices ConfirmationTime :=
  mkChoices exho [cli_key 1; cli_key 3] id (λ cmp, stable_sort (λ a b, match cmp a b with Gt => false | _ => true end)) [].
Definition ct_acts : list (Choices ConfirmationTime * action ConfirmationTime) := [(ct_ch, Run (CmdAddress AddrNew)); (ct_ch, Run (CmdAddress AddrNew))].
Definition ct_ran : option (CliModel.World ConfirmationTime * prepared * list (event ConfirmationTime)) :=
  match init 10 1 (Some 3) None None [] with
  | Ret (_, Ok w) =>
      match acts true cli_km (w, []) ct_acts with
      | Ret (w, pr, evs) => if forallb ct_eventb evs then Some (w, pr, evs) else None
      | Panic => None
      end
  | _ => None
  end.
Notation ct_session := (in_session (P := ConfirmationTime) kcs_wf cliW true 10 1 (Some 3) cli_km).
Lemma ct_ran_session w pr evs : ct_ran = Some (w, pr, evs) → ct_session w pr evs.
Proof.
  unfold ct_ran. destruct (init _ _ _ _ _ _) as [[b [w0|]]|] eqn:Ei; try done. destruct (acts _ _ _ _) as [[[w1 pr1] evs1]|] eqn:Ea; [|done].
  destruct (forallb _ _) eqn:Ef; [|done]. intros [= -> -> ->].
  exists None, [], None, [], b, w0, ct_acts. split; [apply CliSpec.life_new|]. split; [exact Ei|]. split; [|split; [exact Ea|]].
  - repeat (apply Forall_cons; split; [split; [apply exho_ok|]; split; [apply exho_ok|done]|]). constructor.
  - eapply forallb_ok; [|exact Ef]. intros ev Hev. by apply ct_eventb_ok.
Qed.
Definition ct_po (c : SparseChain ConfirmationTime) : list (Txid * ConfirmationTime) := map_to_list (sc_pos c).
Definition ct_show (x : Tracker Keychain ConfirmationTime) :=
  (bi_height <$> latest_checkpoint (cg_chain (tr_cg x)),
   (λ kf : Keychain * N * FullTxOut ConfirmationTime, (kf.1, (op_txid (fto_outpoint kf.2), op_vout (fto_outpoint kf.2)), txo_value (fto_txout kf.2), fto_pos kf.2, snd <$> fto_spent_by kf.2)) <$>
     full_txouts (exho (cg_graph (tr_cg x))) x).

(** Transaction 21 pays address 0, transaction 50 address 1; later 21 is in a block and 50 is there; or 21 is forgotten. *)
Definition ct_l1 : list (Tx * option N) := [(cs90, Some 10); (cliA, None)].
Definition ct_l2 : list (Tx * option N) := [(cs90, Some 10); (cliA, Some 115); (cs50 1, None)].
Definition ct_l3 : list (Tx * option N) := [(cs90, Some 10); (cs50 1, Some 113)].
(** 50 pays address 3, which the wallet has not shown. *)
Definition ct_l4 : list (Tx * option N) := [(cs90, Some 10); (cliA, Some 115); (cs50 3, None)].
Definition ct_w1 : ScanSpec.World := list_world 110 cs_block ct_l1.
Definition ct_w2 : ScanSpec.World := list_world 120 cs_block ct_l2.
Definition ct_w3 : ScanSpec.World := list_world 120 cs_block ct_l3.
Definition ct_run tip l f (w : CliModel.World ConfirmationTime) :=
  esplora_sync_cmd (λ _, esplora (list_world tip cs_block l) rs_time (list_ids l)) 1 ct_ch ct_po f 2 w 0%nat.
Definition ct_ready tip l (w : CliModel.World ConfirmationTime) : bool :=
  fit_check (list_world tip cs_block l) (w_time_position (list_world tip cs_block l) rs_time) (w_tracker w) && indexed_check (w_tracker w) &&
  match w_faults w with [] => true | _ => false end.
Record ct_ok tip l (w : CliModel.World ConfirmationTime) : Prop := {
  co_fit : fit_for (list_world tip cs_block l) (w_time_position (list_world tip cs_block l) rs_time) (w_tracker w);
  co_seen : ∀ F, none_overlooked (list_world tip cs_block l) F (w_tracker w);
  co_faults : w_faults w = []
}.
Lemma ct_ready_ok tip l w : ct_ready tip l w = true → ct_ok tip l w.
Proof.
  intros [[Hc Hx]%andb_prop Hf]%andb_prop. split; [exact (fit_check_ok _ _ _ Hc)|intros F; exact (indexed_check_ok _ F _ Hx (proj2 (proj2 (proj2 (proj2 (fit_check_ok _ _ _ Hc))))))|by destruct (w_faults w)].
Qed.
Definition ct_sound tip l : Prop := world_ok (list_world tip cs_block l) ∧ world_sane cliW (list_world tip cs_block l) ∧
  (∀ t a, w_tx (list_world tip cs_block l) t = Some a → tx_ok a) ∧ esplora_honest (list_world tip cs_block l) rs_time (esplora (list_world tip cs_block l) rs_time (list_ids l)) ∧
  (∀ sp, (length (w_mempool (list_world tip cs_block l) sp) ≤ 50)%nat ∧ (length (w_confirmed (list_world tip cs_block l) sp) < 25 * 1)%nat).
Lemma ct_sound_ok tip l : list_check cliW tip l && list_apart l && (length l <=? 20)%nat = true → ct_sound tip l.
Proof.
  intros [[Hc Ha]%andb_prop Hl%Nat.leb_le]%andb_prop. split; [exact (list_ok _ _ _ _ Hc)|]. split; [exact (list_sane _ _ _ _ Hc)|]. split; [exact (list_txs _ _ _ _ Hc)|].
  split; [exact (list_esplora _ _ _ _ _ Hc Ha)|]. intros sp. by apply list_pages.
Qed.
Definition ct_default : SyncFlags := mkSyncFlags false false false false.
Definition ct_then tip l (w : CliModel.World ConfirmationTime) :=
  match ct_run tip l ct_default w with Done _ (w', evs', Ok _) => Some (ct_ready tip l w, forallb ct_eventb evs', ct_show (w_tracker w')) | _ => None end.
Definition ct_obs :=
  match ct_ran with
  | Some (w, _, _) =>
      match ct_run 110 ct_l1 ct_default w with
      | Done _ (w', evs', Ok _) => Some (ct_ready 110 ct_l1 w, forallb ct_eventb evs', ct_show (w_tracker w'), ct_then 120 ct_l2 w', ct_then 120 ct_l3 w', ct_ready 120 ct_l4 w')
      | _ => None
      end
  | None => None
  end.
Definition ct_shown1 : option N * list (Keychain * N * (N * N) * N * ConfirmationTime * option N) :=
  (Some 110, [(External, 0, (21, 0), 100000, CtUnconfirmed, None)]).
Definition ct_shown2 : option N * list (Keychain * N * (N * N) * N * ConfirmationTime * option N) :=
  (Some 120, [(External, 0, (21, 0), 100000, CtConfirmed 115 1600069000, None); (External, 1, (50, 0), 7000, CtUnconfirmed, None)]).
Definition ct_shown3 : option N * list (Keychain * N * (N * N) * N * ConfirmationTime * option N) :=
  (Some 120, [(External, 0, (21, 0), 100000, CtUnconfirmed, None); (External, 1, (50, 0), 7000, CtConfirmed 113 1600067800, None)]).
Lemma ct_obs_eq : ct_obs = Some (true, true, ct_shown1, Some (true, true, ct_shown2), Some (true, true, ct_shown3), true).
Proof. vm_compute. reflexivity. Qed.
Lemma ct_then_ok tip l w shown : ct_then tip l w = Some (true, true, shown) →
  ct_ok tip l w ∧ ∃ n w' evs', ct_run tip l ct_default w = Done n (w', evs', Ok tt) ∧ Forall (event_ok kcs_wf cliW) evs' ∧ ct_show (w_tracker w') = shown.
Proof.
  unfold ct_then. destruct (ct_run _ _ _ _) as [n [[w' evs'] [[]|]]| | |]; try discriminate.
  intros Ho. apply (inj Some), pair_equal_spec in Ho as [Ho Hs]. apply pair_equal_spec in Ho as [Hr He].
  split; [by apply ct_ready_ok|]. exists n, w', evs'. split; [done|]. split; [|exact Hs]. eapply forallb_ok; [|exact He]. intros ev Hev. by apply ct_eventb_ok.
Qed.
Lemma ct_example : ∃ w pr evs n w1 evs1, ct_session w pr evs ∧ ct_ok 110 ct_l1 w ∧ ct_run 110 ct_l1 ct_default w = Done n (w1, evs1, Ok tt) ∧
  ct_show (w_tracker w1) = ct_shown1 ∧ ct_session w1 pr (evs ++ evs1) ∧ ct_then 120 ct_l2 w1 = Some (true, true, ct_shown2) ∧ ct_then 120 ct_l3 w1 = Some (true, true, ct_shown3) ∧ ct_ok 120 ct_l4 w1.
Proof.
  pose proof ct_obs_eq as Ho. unfold ct_obs in Ho. destruct ct_ran as [[[w pr] evs]|] eqn:Er; [|discriminate Ho]. apply ct_ran_session in Er as Hs.
  destruct (ct_run 110 ct_l1 ct_default w) as [n [[w1 evs1] [[]|]]| | |] eqn:E; try discriminate Ho.
  apply (inj Some), pair_equal_spec in Ho as [Ho H4]. apply pair_equal_spec in Ho as [Ho H3]. apply pair_equal_spec in Ho as [Ho H2]. apply pair_equal_spec in Ho as [Ho H1]. apply pair_equal_spec in Ho as [Hr He].
  exists w, pr, evs, n, w1, evs1. apply ct_ready_ok in Hr. split; [exact Hs|]. split; [done|]. split; [done|]. split; [done|]. split; [|split; [exact H2|split; [exact H3|by apply ct_ready_ok]]].
  destruct (ct_sound_ok 110 ct_l1) as (S1 & S2 & S3 & S4 & S5); [by vm_compute|].
  destruct (esplora_sync_command kcs_wf kcs_codec_ok kcs_range_default cliW true 10 1 (Some 3) cli_km cli_good ct_w1 rs_time S1 S2 S3 rs_time_ok w pr evs
    (λ _, esplora ct_w1 rs_time (list_ids ct_l1)) 0 ct_ch ct_po ct_default 2 Hs (fit_for_seen _ _ _ _ (co_fit _ _ _ Hr)) cli_addresses (λ _ sp _, S5 sp) (λ _, S4) exho_ok ltac:(done)
    ltac:(by rewrite (co_faults _ _ _ Hr)) 0%nat) as (n' & r & E' & w' & evs' & -> & _ & Hses).
  assert (Done n (w1, evs1, Ok ()) = Done n' (w', evs', Ok ())) as Eq by (by rewrite <- E, <- E'). injection Eq as -> -> ->.
  apply Hses. eapply forallb_ok; [|exact He]. intros ev Hev. by apply ct_eventb_ok.
Qed.

(** ** A scan *)
Definition ct_w4 : ScanSpec.World := list_world 120 cs_block ct_l4.
Lemma ct_in_gap : in_stop_gap ct_w4 5 (keychains 1 (Some 3)) External 3.
Proof.
  exists 1. split; [done|]. split; [by vm_compute|]. split; [|intros (j & Hj & _); lia].
  eexists. split; [reflexivity|]. by vm_compute.
Qed.
Lemma ct_paid w pr evs : ct_session w pr evs → paid (tr_index (w_tracker w)) External 3 (mkTxOut 7000 (exs 1 3)).
Proof.
  intros Hs. destruct (esplora_parts cliW 1 (Some 3) cli_good _ (proj1 (CliProofs3.session_good kcs_wf kcs_codec_ok kcs_range_default cliW true 10 1 (Some 3) cli_km cli_good w pr evs Hs))) as (_ & _ & _ & Hk).
  exists 1. split; [by apply Hk|]. by vm_compute.
Qed.
