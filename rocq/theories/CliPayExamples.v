(** Wallets with two coins for the properties of PropsCliPay.v. *)
From Verif Require PlanExamples.
From Verif Require Export CliExamples CliPayProofs.
Local Open Scope N_scope.
Local Existing Instances ex_env cli_env PlanExamples.toy_env kcs_codec.

(** ** A scan that finds one coin of 100000 and one of [v] *)
Definition pay_tx (v : N) : Tx := mkTx 21 [mkOutPoint 90 0] [mkTxOut 100000 (exs 1 0); mkTxOut v (exs 1 1)] 0.
Definition pay_ops (v : N) : list (cg_op TxHeight) := [CgCheckpoint (mkBlockId 110 110); CgTx exho (pay_tx v) (Confirmed 105)].
Definition pay_upd (v : N) : ChainGraph TxHeight := cg_after cg_default (pay_ops v).
Definition pay_scan (v : N) : KScan Keychain TxHeight := mkKScan (pay_upd v) {[ External := 1 ]}.
Definition pay_scan_ok (v : N) : Prop := tr_op_ok (keychains 1 (Some 3)) cliW (adds 1 (Some 3)) (TrUpdate exho (pay_scan v) cli_ord).
Lemma pay_built v : v = 60000 ∨ v = 50 → built cliW (pay_upd v).
Proof.
  intros [-> | ->]; (apply after_built; [apply built_default|]; repeat (apply Forall_cons; split; [split; [|done]|]); [| |constructor]; try done;
    split; [apply exho_ok|]; split; vm_compute; done).
Qed.
Lemma pay_scans v : v = 60000 ∨ v = 50 → pay_scan_ok v.
Proof.
  intros Hv. pose proof (pay_built v Hv) as Hb.
  split; [apply exho_ok|]. split; [destruct Hv as [-> | ->]; apply (bool_decide_unpack _); vm_compute; done|]. split; [exact Hb|].
  split; [apply in_rangeb_ok; destruct Hv as [-> | ->]; vm_compute; reflexivity|]. cbn [ks_active pay_scan]. intros k t Hk.
  apply lookup_singleton_Some in Hk as [<- <-]. split; [|vm_compute; discriminate]. apply known_adds. by eexists.
Qed.
Definition pay_found (v : N) : list (Choices TxHeight * action TxHeight) :=
  [(cli_ch, Run (CmdAddress AddrNext)); (cli_ch, Run (CmdElectrum (pay_scan v) cli_ord))].
Definition pay_world (v : N) : option (World TxHeight * prepared * list (event TxHeight)) :=
  match init 10 1 (Some 3) None None [] with
  | Ret (_, Ok w) =>
      match acts true cli_km (w, []) (pay_found v) with
      | Ret (w, pr, evs) =>
          if forallb (λ ev, match ev with EvAppend cs _ => ckcsb cs | EvAddress _ _ _ => true | _ => false end) evs then Some (w, pr, evs) else None
      | Panic => None
      end
  | _ => None
  end.
Lemma pay_session v w pr evs : v = 60000 ∨ v = 50 → pay_world v = Some (w, pr, evs) → in_session kcs_wf cliW true 10 1 (Some 3) cli_km w pr evs.
Proof.
  intros Hv. unfold pay_world. destruct (init _ _ _ _ _ _) as [[b [w0|]]|] eqn:Ei; try done. destruct (acts _ _ _ _) as [[[w1 pr1] evs1]|] eqn:Ea; [|done].
  destruct (forallb _ _) eqn:Ef; [|done]. intros [= -> -> ->].
  exists None, [], None, [], b, w0, (pay_found v). split; [apply life_new|]. split; [exact Ei|]. split; [|split; [exact Ea|]].
  - repeat (apply Forall_cons; split; [|]); [| |constructor]; (split; [apply exho_ok|]); (split; [apply exho_ok|]); [done|]. by apply pay_scans.
  - eapply forallb_ok; [|exact Ef]. intros [] Hev; cbn in *; [by apply ckcsb_ok|done|done].
Qed.

(** ** What the theorems ask of them *)
Lemma pay_signer : signer 1 (Some 3) cli_ch cli_km.
Proof.
  split.
  - intros k d i _. eexists. split; [done|]. by intros t ?%elem_of_nil.
  - intros k d i [-> | ->]%cli_keychains _; eexists; unfold plans; vm_compute; reflexivity.
  - intros k. cbn [ch_keys cli_ch]. intros [->|[->|[]%elem_of_nil]%elem_of_cons]%elem_of_cons; vm_compute; by eexists.
  - intros k [] hint _; cbn; by eexists.
  - intros k d i p r [-> | ->]%cli_keychains Hp Hr; unfold plans in Hp; vm_compute in Hp; injection Hp as <-; vm_compute in Hr; injection Hr as <-; done.
  - intros t pv i _ _. split; [by eexists|]. intros leaf. by eexists.
Qed.
Definition two_coins (w : World TxHeight) (v : N) : Prop :=
  value_of <$> full_utxos (exho (cg_graph (tr_cg (w_tracker w)))) (w_tracker w) = [100000; v].
Lemma pay_modest w v value : two_coins w v → v ≤ 60000 → value ≤ 200000 → modest_wallet 1 (Some 3) cli_ch (w_tracker w) value 7.
Proof.
  intros Hc Hv Hval. unfold modest_wallet. cbn [ch_hash cli_ch]. pose proof (f_equal length Hc) as Hl. rewrite fmap_length in Hl. rewrite Hc, Hl.
  split; [etrans; [exact Hval|vm_compute; discriminate]|]. split; [vm_compute; discriminate|].
  split. { unfold sumN. cbn [foldr]. assert (160000 ≤ 2 ^ 61) by (vm_compute; discriminate). lia. }
  split. { intros k d _. split; [vm_compute; discriminate|]. intros i s _. vm_compute. discriminate. }
  exists 200. split; [vm_compute; discriminate|]. split; [vm_compute; discriminate|]. exact cli_plan_weight.
Qed.
Lemma pay_coin w v pr evs kf n : in_session kcs_wf cliW true 10 1 (Some 3) cli_km w pr evs → two_coins w v →
  coin 1 (Some 3) cli_ch (w_tracker w) kf n →
  kf ∈ full_utxos (exho (cg_graph (tr_cg (w_tracker w)))) (w_tracker w) ∧ (value_of kf = 100000 ∨ value_of kf = v) ∧ n ≤ 200.
Proof.
  intros Hs Hc (Hu & d & p & Hd & Hp & Hn).
  destruct (session_good kcs_wf kcs_codec_ok kcs_range_default cliW true 10 1 (Some 3) cli_km cli_good w pr evs Hs) as [Hg _].
  assert (kf ∈ full_utxos (ch_hash cli_ch (cg_graph (tr_cg (w_tracker w)))) (w_tracker w)) as Hin
    by (apply (utxos_unspent cliW 1 (Some 3)); [done|intros g; apply exho_ok|done]).
  split; [done|]. split; [|by eapply cli_plan_weight].
  apply (elem_of_list_fmap_1 value_of) in Hin. unfold two_coins in Hc. cbn [ch_hash cli_ch] in Hin. rewrite Hc in Hin.
  apply elem_of_cons in Hin as [Hin|Hin]; [by left|]. apply elem_of_list_singleton in Hin. by right.
Qed.
Lemma pay_light w v pr evs l : in_session kcs_wf cliW true 10 1 (Some 3) cli_km w pr evs → two_coins w v →
  coins 1 (Some 3) cli_ch (w_tracker w) l → (pay_weight 7 l.*2 < 2 ^ 23)%Z.
Proof.
  intros Hs Hc [Hn Hl].
  assert (length l ≤ 2)%nat as Hlen.
  { pose proof (f_equal length Hc) as Hc'. rewrite fmap_length in Hc'. cbn in Hc'. rewrite <-Hc', <-(fmap_length fst l).
    apply submseteq_length, NoDup_submseteq; [done|]. intros kf (e & -> & He)%elem_of_list_fmap. destruct e as [kf n]. exact (proj1 (pay_coin w v pr evs kf n Hs Hc (Hl kf n He))). }
  assert (∀ n, n ∈ l.*2 → n ≤ 200) as Hw.
  { intros n (e & -> & He)%elem_of_list_fmap. destruct e as [kf m]. exact (proj2 (proj2 (pay_coin w v pr evs kf m Hs Hc (Hl kf m He)))). }
  destruct l as [|[? n1] [|[? n2] [|]]]; cbn [length] in Hlen; [vm_compute; done|..|lia]; cbn [fmap list_fmap snd] in *.
  - pose proof (Hw n1 ltac:(left)). assert (pay_weight 7 [n1] = pay_weight 7 [0%N] + Z.of_N n1)%Z as -> by (unfold pay_weight; cbn [fmap list_fmap length CoinSelectSpec.Zsum foldr]; lia).
    assert (pay_weight 7 [0%N] < 1000)%Z by (vm_compute; done). lia.
  - pose proof (Hw n1 ltac:(left)). pose proof (Hw n2 ltac:(right; left)).
    assert (pay_weight 7 [n1; n2] = pay_weight 7 [0%N; 0%N] + Z.of_N n1 + Z.of_N n2)%Z as -> by (unfold pay_weight; cbn [fmap list_fmap length CoinSelectSpec.Zsum foldr]; lia).
    assert (pay_weight 7 [0%N; 0%N] < 1000)%Z by (vm_compute; done). lia.
Qed.
(** ** Two coins worth spending: both together pay 120000, not 159900 *)
Definition pay_result (dbg : bool) ch km (w : World TxHeight) value algo : option (result (list TxOut * nat) CliError) :=
  match create_tx dbg ch km (w_tracker w) value 7 algo with
  | Ret (_, Ok (t, _)) => Some (Ok (ct_out t, length (ct_in t)))
  | Ret (_, Err e) => Some (Err e)
  | Panic => None
  end.
Lemma pay_result_ok dbg ch km w value algo o : pay_result dbg ch km w value algo = Some (Ok o) →
  ∃ x' t change, create_tx dbg ch km (w_tracker w) value 7 algo = Ret (x', Ok (t, change)) ∧ (ct_out t, length (ct_in t)) = o.
Proof.
  unfold pay_result. destruct (create_tx _ _ _ _ _ _ _) as [[x' [[t c]|]]|]; try done. intros [= <-]. by eexists _, _, _.
Qed.
Lemma pay_result_err dbg ch km w value algo e : pay_result dbg ch km w value algo = Some (Err e) →
  ∃ x', create_tx dbg ch km (w_tracker w) value 7 algo = Ret (x', Err e).
Proof.
  unfold pay_result. destruct (create_tx _ _ _ _ _ _ _) as [[x' [[t c]|]]|]; try done. intros [= <-]. by eexists.
Qed.
Lemma pay_result_panic dbg ch km w value algo : pay_result dbg ch km w value algo = None → create_tx dbg ch km (w_tracker w) value 7 algo = Panic.
Proof. unfold pay_result. by destruct (create_tx _ _ _ _ _ _ _) as [[x' [[t c]|]]|]. Qed.
Definition err_of (r : option (result (list TxOut * nat) CliError)) : option (result (list TxOut * nat) bool) :=
  match r with Some (Ok o) => Some (Ok o) | Some (Err (ESelection _)) => Some (Err true) | Some (Err _) => Some (Err false) | None => None end.
Definition pay_obs (v : N) (l : list (bool * Choices TxHeight * PlanModel.KeyMap * N * CoinSelectionAlgo)) :=
  match pay_world v with
  | Some (w, _, _) => Some (value_of <$> full_utxos (exho (cg_graph (tr_cg (w_tracker w)))) (w_tracker w),
      (λ q, match q with (dbg, ch, km, value, algo) => err_of (pay_result dbg ch km w value algo) end) <$> l)
  | None => None
  end.
Lemma pay_obs_ok v l o : v = 60000 ∨ v = 50 → pay_obs v l = Some ([100000; v], o) →
  ∃ w pr evs, in_session kcs_wf cliW true 10 1 (Some 3) cli_km w pr evs ∧ two_coins w v ∧
    (λ q, match q with (dbg, ch, km, value, algo) => err_of (pay_result dbg ch km w value algo) end) <$> l = o.
Proof.
  intros Hv. unfold pay_obs. destruct (pay_world v) as [[[w pr] evs]|] eqn:E; [|done]. intros [= H1 H2]. exists w, pr, evs.
  split; [by eapply pay_session|]. split; [exact H1|exact H2].
Qed.
Lemma err_of_ok r o : err_of r = Some (Ok o) → r = Some (Ok o).
Proof. destruct r as [[o'|[]]|]; cbn; congruence. Qed.
Lemma err_of_err r : err_of r = Some (Err true) → ∃ se, r = Some (Err (ESelection se)).
Proof. destruct r as [[o'|[]]|]; cbn; try congruence. by eexists. Qed.
Lemma err_of_none r : err_of r = None → r = None.
Proof. destruct r as [[o'|[]]|]; cbn; congruence. Qed.

Lemma pay_both : ∃ w pr evs x1 t change x2 se, in_session kcs_wf cliW true 10 1 (Some 3) cli_km w pr evs ∧
  (∀ value, value ≤ 200000 → modest_wallet 1 (Some 3) cli_ch (w_tracker w) value 7) ∧
  (∀ l, coins 1 (Some 3) cli_ch (w_tracker w) l → (pay_weight 7 l.*2 < 2 ^ 23)%Z) ∧
  (∀ kf n, coin 1 (Some 3) cli_ch (w_tracker w) kf n → worthwhile kf n) ∧
  create_tx true cli_ch cli_km (w_tracker w) 120000 7 BranchAndBound = Ret (x1, Ok (t, change)) ∧ length (ct_in t) = 2%nat ∧
  create_tx true cli_ch cli_km (w_tracker w) 159900 7 BranchAndBound = Ret (x2, Err (ESelection se)).
Proof.
  destruct (pay_obs_ok 60000 [(true, cli_ch, cli_km, 120000, BranchAndBound); (true, cli_ch, cli_km, 159900, BranchAndBound)]
    [Some (Ok ([mkTxOut 120000 7; mkTxOut 39577 (exs 3 0)], 2%nat)); Some (Err true)]) as (w & pr & evs & Hs & Hc & Ho); [by left|vm_compute; reflexivity|].
  cbn [fmap list_fmap] in Ho. injection Ho as H1 H2. apply err_of_ok, pay_result_ok in H1 as (x1 & t & c & H1 & H1'). injection H1' as _ Hlen.
  apply err_of_err in H2 as [se H2]. apply pay_result_err in H2 as [x2 H2].
  exists w, pr, evs, x1, t, c, x2, se. split; [exact Hs|]. split; [intros value Hv; by apply (pay_modest w 60000)|].
  split; [intros l Hl; by eapply pay_light|]. split; [|done].
  intros kf n Hk. destruct (pay_coin w 60000 pr evs kf n Hs Hc Hk) as (_ & Hv & Hn). unfold worthwhile. lia.
Qed.

(** ** A coin that costs more than it brings *)
Lemma pay_dust : ∃ w pr evs, in_session kcs_wf cliW true 10 1 (Some 3) cli_km w pr evs ∧
  modest_wallet 1 (Some 3) cli_ch (w_tracker w) 99770 7 ∧
  (∀ l, coins 1 (Some 3) cli_ch (w_tracker w) l → (pay_weight 7 l.*2 < 2 ^ 23)%Z) ∧
  (∃ l, coins 1 (Some 3) cli_ch (w_tracker w) l ∧ pay 99770 7 l) ∧
  (∃ x1 t change, create_tx true cli_ch cli_km (w_tracker w) 99770 7 LargestFirst = Ret (x1, Ok (t, change))) ∧
  ∃ x2 se, create_tx true cli_ch cli_km (w_tracker w) 99770 7 SmallestFirst = Ret (x2, Err (ESelection se)).
Proof.
  destruct (pay_obs_ok 50 [(true, cli_ch, cli_km, 99770, LargestFirst); (true, cli_ch, cli_km, 99770, SmallestFirst)]
    [Some (Ok ([mkTxOut 99770 7], 1%nat)); Some (Err true)]) as (w & pr & evs & Hs & Hc & Ho); [by right|vm_compute; reflexivity|].
  cbn [fmap list_fmap] in Ho. injection Ho as H1 H2. apply err_of_ok, pay_result_ok in H1 as (x1 & t & c & H1 & _).
  apply err_of_err in H2 as [se H2]. apply pay_result_err in H2 as [x2 H2].
  assert (modest_wallet 1 (Some 3) cli_ch (w_tracker w) 99770 7) as Hm by (by apply (pay_modest w 50)).
  assert (∀ l, coins 1 (Some 3) cli_ch (w_tracker w) l → (pay_weight 7 l.*2 < 2 ^ 23)%Z) as Hl by (intros l Hl; by eapply pay_light).
  exists w, pr, evs. split; [exact Hs|]. split; [exact Hm|]. split; [exact Hl|].
  split; [|split; [by eexists _, _, _|by eexists _, _]].
  destruct (session_good kcs_wf kcs_codec_ok kcs_range_default cliW true 10 1 (Some 3) cli_km cli_good w pr evs Hs) as [Hg _].
  destruct (create_tx_exact cliW true 1 (Some 3) cli_km cli_good cli_ch (w_tracker w) 99770 7 LargestFirst Hg cli_choices_ok Hm pay_signer Hl)
    as (x' & r & z & E & _ & _ & Hr). rewrite H1 in E. injection E as _ <-. destruct Hr as (l & ? & ? & _). by exists l.
Qed.

(** ** Amounts that overflow, and a wallet without secrets *)
Definition watch_ch : Choices TxHeight := mkChoices exho [] (ch_strategies cli_ch) (ch_sort cli_ch) [].
Lemma watch_choices_ok : choices_ok watch_ch.
Proof. split; [intros g; apply exho_ok|]. split; [done|]. split; [intros; apply stable_sort_perm|]. cbn. apply not_elem_of_nil. Qed.
Lemma pay_panics : ∃ w pr evs, in_session kcs_wf cliW true 10 1 (Some 3) cli_km w pr evs ∧
  create_tx true cli_ch cli_km (w_tracker w) 18446744073709551615 7 LargestFirst = Panic ∧
  create_tx true watch_ch ∅ (w_tracker w) 40000 7 LargestFirst = Panic ∧
  ∃ x' t change, create_tx true cli_ch cli_km (w_tracker w) 40000 7 LargestFirst = Ret (x', Ok (t, change)).
Proof.
  destruct (pay_obs_ok 60000 [(true, cli_ch, cli_km, 18446744073709551615, LargestFirst); (true, watch_ch, ∅, 40000, LargestFirst); (true, cli_ch, cli_km, 40000, LargestFirst)]
    [None; None; Some (Ok ([mkTxOut 40000 7; mkTxOut 59692 (exs 3 0)], 1%nat))]) as (w & pr & evs & Hs & _ & Ho); [by left|vm_compute; reflexivity|].
  cbn [fmap list_fmap] in Ho. injection Ho as H1 H2 H3. apply err_of_none, pay_result_panic in H1. apply err_of_none, pay_result_panic in H2.
  apply err_of_ok, pay_result_ok in H3 as (x1 & t & c & H3 & _). exists w, pr, evs. split; [exact Hs|]. split; [exact H1|]. split; [exact H2|]. by eexists _, _, _.
Qed.
