(** Wallets for PropsCliMine.v: one with coins of two outputs, one with a coin of a young coinbase. *)
From Verif Require PlanExamples ElectrumProofs.
From Verif Require Export CliPayExamples CliMineProofs.
Local Open Scope N_scope.
Local Existing Instances ex_env cli_env PlanExamples.toy_env kcs_codec.

(** ** A scan that finds a coinbase at height 105 when the tip is 110 *)
Definition mine_tx : Tx := mkTx 90 [null_outpoint] [mkTxOut 100000 (exs 1 0)] 0.
Definition mine_upd : ChainGraph TxHeight := cg_after cg_default [CgCheckpoint (mkBlockId 110 110); CgTx exho mine_tx (Confirmed 105)].
Definition mine_scan : KScan Keychain TxHeight := mkKScan mine_upd {[ External := 0 ]}.
Definition mine_ord : list (Txid * TxHeight) := [(90, Confirmed 105)].
Lemma mine_built : built cliW mine_upd.
Proof.
  apply after_built; [apply built_default|]. repeat (apply Forall_cons; split; [split; [|done]|]); [| |constructor]; try done.
  split; [apply exho_ok|]. split; vm_compute; done.
Qed.
Lemma mine_scan_ok : tr_op_ok (keychains 1 (Some 3)) cliW (adds 1 (Some 3)) (TrUpdate exho mine_scan mine_ord).
Proof.
  split; [apply exho_ok|]. split; [apply (bool_decide_unpack _); vm_compute; done|]. split; [exact mine_built|].
  split; [apply in_rangeb_ok; vm_compute; reflexivity|]. cbn [ks_active mine_scan]. intros k t Hk.
  apply lookup_singleton_Some in Hk as [<- <-]. split; [|vm_compute; discriminate]. apply known_adds. by eexists.
Qed.
Definition mine_found : list (Choices TxHeight * action TxHeight) :=
  [(cli_ch, Run (CmdAddress AddrNext)); (cli_ch, Run (CmdElectrum mine_scan mine_ord))].
Definition mine_world : option (World TxHeight * prepared * list (event TxHeight)) :=
  match init 10 1 (Some 3) None None [] with
  | Ret (_, Ok w) =>
      match acts true cli_km (w, []) mine_found with
      | Ret (w, pr, evs) =>
          if forallb (λ ev, match ev with EvAppend cs _ => ckcsb cs | EvAddress _ _ _ => true | _ => false end) evs then Some (w, pr, evs) else None
      | Panic => None
      end
  | _ => None
  end.
Lemma mine_session w pr evs : mine_world = Some (w, pr, evs) → in_session kcs_wf cliW true 10 1 (Some 3) cli_km w pr evs.
Proof.
  unfold mine_world. destruct (init _ _ _ _ _ _) as [[b [w0|]]|] eqn:Ei; try done. destruct (acts _ _ _ _) as [[[w1 pr1] evs1]|] eqn:Ea; [|done].
  destruct (forallb _ _) eqn:Ef; [|done]. intros [= -> -> ->].
  exists None, [], None, [], b, w0, mine_found. split; [apply life_new|]. split; [exact Ei|]. split; [|split; [exact Ea|]].
  - repeat (apply Forall_cons; split; [|]); [| |constructor]; (split; [apply exho_ok|]); (split; [apply exho_ok|]); [done|]. exact mine_scan_ok.
  - eapply forallb_ok; [|exact Ef]. intros [] Hev; cbn in *; [by apply ckcsb_ok|done|done].
Qed.

(** ** What is in the wallets *)
Definition mine_obs (o : option (World TxHeight * prepared * list (event TxHeight))) :=
  match o with
  | Some (w, _, _) => Some (value_of <$> full_utxos (exho (cg_graph (tr_cg (w_tracker w)))) (w_tracker w),
      (λ kf : Keychain * N * FullTxOut TxHeight, (fto_on_coinbase kf.2, fto_pos kf.2)) <$> full_utxos (exho (cg_graph (tr_cg (w_tracker w)))) (w_tracker w),
      latest_checkpoint (cg_chain (tr_cg (w_tracker w))), err_of (pay_result true cli_ch cli_km w 40000 LargestFirst))
  | None => None
  end.
Lemma mine_unspent w pr evs l ki f : in_session kcs_wf cliW true 10 1 (Some 3) cli_km w pr evs →
  (λ kf : Keychain * N * FullTxOut TxHeight, (fto_on_coinbase kf.2, fto_pos kf.2)) <$> full_utxos (exho (cg_graph (tr_cg (w_tracker w)))) (w_tracker w) = l →
  unspent (w_tracker w) ki f → (fto_on_coinbase f, fto_pos f) ∈ l.
Proof.
  intros Hs <- Hu.
  destruct (session_good kcs_wf kcs_codec_ok kcs_range_default cliW true 10 1 (Some 3) cli_km cli_good w pr evs Hs) as [Hg _].
  apply elem_of_list_fmap. exists (ki, f). split; [done|].
  apply (utxos_unspent cliW 1 (Some 3) cli_ch (w_tracker w) (ki, f)); [done|intros g; apply exho_ok|done].
Qed.
Lemma mine_tip (w : World TxHeight) b : latest_checkpoint (cg_chain (tr_cg (w_tracker w))) = Some b → tip_is (w_tracker w) (bi_height b).
Proof. intros E. left. exact (proj1 (proj1 (ElectrumProofs.latest_tip _ b) E)). Qed.

Lemma mine_both : ∃ w pr evs x' t change, in_session kcs_wf cliW true 10 1 (Some 3) cli_km w pr evs ∧
  modest_wallet 1 (Some 3) cli_ch (w_tracker w) 40000 7 ∧ tip_is (w_tracker w) 110 ∧
  (∀ ki f h, unspent (w_tracker w) ki f → mature_at h f) ∧
  create_tx true cli_ch cli_km (w_tracker w) 40000 7 LargestFirst = Ret (x', Ok (t, change)) ∧ length (ct_out t) = 2%nat.
Proof.
  assert (mine_obs (pay_world 60000) = Some ([100000; 60000], [(false, Confirmed 105); (false, Confirmed 105)], Some (mkBlockId 110 110),
    Some (Ok ([mkTxOut 40000 7; mkTxOut 59692 (exs 3 0)], 1%nat)))) as Ho by (vm_compute; reflexivity).
  unfold mine_obs in Ho. destruct (pay_world 60000) as [[[w pr] evs]|] eqn:E; [|discriminate Ho]. injection Ho as H1 H2 H3 H4.
  apply pay_session in E; [|by left]. apply err_of_ok, pay_result_ok in H4 as (x' & t & c & H4 & H4'). injection H4' as Hout _.
  exists w, pr, evs, x', t, c. split; [exact E|]. split; [by apply (pay_modest w 60000)|]. split; [exact (mine_tip w _ H3)|].
  split; [|split; [exact H4|by rewrite Hout]].
  intros ki f h Hu Hcb. pose proof (mine_unspent w pr evs _ ki f E H2 Hu) as Hin. rewrite Hcb in Hin.
  apply elem_of_cons in Hin as [Hin|Hin]; [discriminate Hin|]. apply elem_of_list_singleton in Hin. discriminate Hin.
Qed.

Lemma mine_young : ∃ w pr evs x' t change, in_session kcs_wf cliW true 10 1 (Some 3) cli_km w pr evs ∧
  modest_wallet 1 (Some 3) cli_ch (w_tracker w) 40000 7 ∧ tip_is (w_tracker w) 110 ∧
  create_tx true cli_ch cli_km (w_tracker w) 40000 7 LargestFirst = Ret (x', Ok (t, change)) ∧
  ∀ h, h < 205 → ¬ minable (w_tracker w) t h.
Proof.
  assert (mine_obs mine_world = Some ([100000], [(true, Confirmed 105)], Some (mkBlockId 110 110),
    Some (Ok ([mkTxOut 40000 7; mkTxOut 59692 (exs 3 0)], 1%nat)))) as Ho by (vm_compute; reflexivity).
  unfold mine_obs in Ho. destruct mine_world as [[[w pr] evs]|] eqn:E; [|discriminate Ho]. injection Ho as H1 H2 H3 H4.
  apply mine_session in E. apply err_of_ok, pay_result_ok in H4 as (x' & t & c & H4 & H4'). injection H4' as _ Hlen.
  exists w, pr, evs, x', t, c. split; [exact E|]. split; [|split; [exact (mine_tip w _ H3)|split; [exact H4|]]].
  - unfold modest_wallet. cbn [ch_hash cli_ch]. pose proof (f_equal length H1) as Hl. rewrite fmap_length in Hl. rewrite H1, Hl.
    split; [vm_compute; discriminate|]. split; [vm_compute; discriminate|]. split; [vm_compute; discriminate|].
    split. { intros k d _. split; [vm_compute; discriminate|]. intros i s _. vm_compute. discriminate. }
    exists 200. split; [vm_compute; discriminate|]. split; [vm_compute; discriminate|]. exact cli_plan_weight.
  - intros h Hh (sel & (_ & _ & Hun) & _ & _ & Hall). destruct (ct_in t) as [|i [|]]; try discriminate Hlen.
    apply Forall2_cons_inv_l in Hall as ([ki f] & sel' & [_ Hm] & _ & ->).
    pose proof (mine_unspent w pr evs _ ki f E H2 (Hun ki f ltac:(left))) as Hin. apply elem_of_list_singleton in Hin. injection Hin as Hcb Hp.
    destruct (Hm Hcb) as (c' & Hc & Hle). cbn [snd] in Hc. rewrite Hp in Hc. injection Hc as <-. lia.
Qed.
