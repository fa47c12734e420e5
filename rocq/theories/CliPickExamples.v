(** Wallets with a coin on each keychain for the properties of PropsCliPick.v. *)
From Verif Require PlanExamples.
From Verif Require Export CliExamples CliPickProofs.
Local Open Scope N_scope.
Local Existing Instances ex_env PlanExamples.toy_env kcs_codec.

(** The change descriptor needs a leaf, which weighs more than a signature of the key. *)
Definition mix_env : CliEnv := {|
  desc_at d i := if d =? 3 then PlanModel.DTr (PlanModel.mkTr (PlanModel.Single None 99)
                   (Some (PlanModel.TapLeaf (PlanModel.TCheck (PlanModel.TPkK (PlanModel.XPub None 7 [d; 0] 0))))))
                 else PlanModel.DTr (PlanModel.mkTr (PlanModel.XPub None 7 [d; i] 0) None);
  dust_value _ := 294;
  script_len _ := 34;
  has_address _ := true;
  ctx_txid t := 1000 + match ct_out t with o :: _ => txo_value o | [] => 0 end;
  ctx_rest _ := 0;
  sighash_key _ _ _ := Some 5;
  sighash_leaf _ _ _ _ := Some 5
|}.
Lemma mix_plan_weight k d i p n : keychains 1 (Some 3) k = Some d → plans (H0 := mix_env) cli_ch d i p → PlanModel.expected_weight p = Ret n → n ≤ 200.
Proof.
  intros [->| ->]%cli_keychains Hp Hn; unfold plans in Hp; vm_compute in Hp; injection Hp as <-; vm_compute in Hn; injection Hn as <-; done.
Qed.

(** ** A scan that finds a coin of [a] in block 105 and one of [b], change, in block 108 *)
Definition pick_a (a : N) : Tx := mkTx 21 [mkOutPoint 90 0] [mkTxOut a (exs 1 0)] 0.
Definition pick_b (b : N) : Tx := mkTx 50 [mkOutPoint 90 1] [mkTxOut b (exs 3 0)] 0.
Definition pick_ops (a b : N) : list (cg_op TxHeight) :=
  [CgCheckpoint (mkBlockId 110 110); CgTx exho (pick_a a) (Confirmed 105); CgTx exho (pick_b b) (Confirmed 108)].
Definition pick_upd (a b : N) : ChainGraph TxHeight := cg_after cg_default (pick_ops a b).
Definition pick_scan (a b : N) : KScan Keychain TxHeight := mkKScan (pick_upd a b) {[ External := 0; Internal := 0 ]}.
Definition pick_ord : list (Txid * TxHeight) := [(21, Confirmed 105); (50, Confirmed 108)].
Definition pick_vals (a b : N) : Prop := (a = 100000 ∧ b = 60000) ∨ (a = 60000 ∧ b = 60010).
Lemma pick_built a b : pick_vals a b → built cliW (pick_upd a b).
Proof.
  intros [[-> ->]|[-> ->]]; (apply after_built; [apply built_default|]; repeat (apply Forall_cons; split; [split; [|done]|]); [| | |constructor]; try done;
    split; [apply exho_ok|split; vm_compute; done|apply exho_ok|split; vm_compute; done]).
Qed.
Lemma pick_scans a b : pick_vals a b → tr_op_ok (keychains 1 (Some 3)) cliW (adds 1 (Some 3)) (TrUpdate exho (pick_scan a b) pick_ord).
Proof.
  intros Hv. pose proof (pick_built a b Hv) as Hb.
  split; [apply exho_ok|]. split; [destruct Hv as [[-> ->]|[-> ->]]; apply (bool_decide_unpack _); vm_compute; done|]. split; [exact Hb|].
  split; [apply in_rangeb_ok; destruct Hv as [[-> ->]|[-> ->]]; vm_compute; reflexivity|]. cbn [ks_active pick_scan]. intros k t Hk.
  apply lookup_insert_Some in Hk as [[<- <-]|[_ Hk]]; [|apply lookup_singleton_Some in Hk as [<- <-]];
    (split; [|vm_compute; discriminate]; apply known_adds; by eexists).
Qed.
Definition pick_found (a b : N) : list (Choices TxHeight * action TxHeight) :=
  [(cli_ch, Run (CmdAddress AddrNext)); (cli_ch, Run (CmdElectrum (pick_scan a b) pick_ord))].
Section env.
Context (E : CliEnv) (Hd : ∀ d, dust_value d = 294) (Hs : ∀ s, script_len s = 34)
  (Hp : ∀ k d i p n, keychains 1 (Some 3) k = Some d → plans (H0 := E) cli_ch d i p → PlanModel.expected_weight p = Ret n → n ≤ 200).
Definition pick_world (a b : N) : option (World TxHeight * prepared * list (event TxHeight)) :=
  match init 10 1 (Some 3) None None [] with
  | Ret (_, Ok w) =>
      match acts true cli_km (w, []) (pick_found a b) with
      | Ret (w, pr, evs) =>
          if forallb (λ ev, match ev with EvAppend cs _ => ckcsb cs | EvAddress _ _ _ => true | _ => false end) evs then Some (w, pr, evs) else None
      | Panic => None
      end
  | _ => None
  end.
Lemma pick_session a b w pr evs : pick_vals a b → pick_world a b = Some (w, pr, evs) → in_session kcs_wf cliW true 10 1 (Some 3) cli_km w pr evs.
Proof using.
  intros Hv. unfold pick_world. destruct (init _ _ _ _ _ _) as [[b' [w0|]]|] eqn:Ei; try done. destruct (acts _ _ _ _) as [[[w1 pr1] evs1]|] eqn:Ea; [|done].
  destruct (forallb _ _) eqn:Ef; [|done]. intros [= -> -> ->].
  exists None, [], None, [], b', w0, (pick_found a b). split; [apply life_new|]. split; [exact Ei|]. split; [|split; [exact Ea|]].
  - repeat (apply Forall_cons; split; [|]); [| |constructor]; (split; [apply exho_ok|]); (split; [apply exho_ok|]); [done|]. by apply pick_scans.
  - eapply forallb_ok; [|exact Ef]. intros [] Hev; cbn in *; [by apply ckcsb_ok|done|done].
Qed.
Definition have_coins (w : World TxHeight) (a b : N) : Prop :=
  value_of <$> full_utxos (exho (cg_graph (tr_cg (w_tracker w)))) (w_tracker w) = [a; b].
Lemma pick_modest w a b value : have_coins w a b → a + b ≤ 200000 → value ≤ 200000 → modest_wallet 1 (Some 3) cli_ch (w_tracker w) value 7.
Proof using All.
  intros Hc Hv Hval. unfold modest_wallet. cbn [ch_hash cli_ch]. pose proof (f_equal length Hc) as Hl. rewrite fmap_length in Hl. unfold have_coins in Hc. rewrite Hc, Hl.
  split; [etrans; [exact Hval|vm_compute; discriminate]|]. split; [rewrite Hs; vm_compute; discriminate|].
  split. { unfold sumN. cbn [foldr]. assert (200000 ≤ 2 ^ 61) by (vm_compute; discriminate). lia. }
  split. { intros k d _. split; [rewrite Hd; vm_compute; discriminate|]. intros i s _. rewrite Hs. vm_compute. discriminate. }
  exists 200. split; [vm_compute; discriminate|]. split; [vm_compute; discriminate|]. exact Hp.
Qed.
Lemma pick_coin w a b pr evs kf n : in_session kcs_wf cliW true 10 1 (Some 3) cli_km w pr evs → have_coins w a b →
  coin 1 (Some 3) cli_ch (w_tracker w) kf n → kf ∈ full_utxos (exho (cg_graph (tr_cg (w_tracker w)))) (w_tracker w) ∧ n ≤ 200.
Proof using All.
  intros Hse Hc (Hu & d & p & Hd' & Hp' & Hn).
  destruct (session_good kcs_wf kcs_codec_ok kcs_range_default cliW true 10 1 (Some 3) cli_km cli_good w pr evs Hse) as [Hg _].
  split; [|by eapply Hp]. apply (utxos_unspent cliW 1 (Some 3) cli_ch); [done|intros g; apply exho_ok|done].
Qed.
Lemma pick_light w a b pr evs l : in_session kcs_wf cliW true 10 1 (Some 3) cli_km w pr evs → have_coins w a b →
  coins 1 (Some 3) cli_ch (w_tracker w) l → (pay_weight 7 l.*2 < 2 ^ 23)%Z.
Proof using All.
  intros Hse Hc [Hn Hl].
  assert (length l ≤ 2)%nat as Hlen.
  { pose proof (f_equal length Hc) as Hc'. rewrite fmap_length in Hc'. cbn in Hc'. rewrite <-Hc', <-(fmap_length fst l).
    apply submseteq_length, NoDup_submseteq; [done|]. intros kf (e & -> & He)%elem_of_list_fmap. destruct e as [kf n]. exact (proj1 (pick_coin w a b pr evs kf n Hse Hc (Hl kf n He))). }
  assert (∀ n, n ∈ l.*2 → n ≤ 200) as Hw.
  { intros n (e & -> & He)%elem_of_list_fmap. destruct e as [kf m]. exact (proj2 (pick_coin w a b pr evs kf m Hse Hc (Hl kf m He))). }
  unfold pay_weight, CoinSelectSpec.bytes_len. rewrite Hs.
  assert (CoinSelectSpec.compact_len (Z.of_N 34) = 1)%Z as -> by (vm_compute; done).
  pose proof (CoinSelectProofs.compact_len_range (Z.of_nat (length l.*2))).
  assert (∀ ns, (∀ n, n ∈ ns → n ≤ 200) → (length ns ≤ 2)%nat → (CoinSelectSpec.Zsum ((λ n, 160 + Z.of_N n)%Z <$> ns) ≤ 720)%Z) as Hsum.
  { intros [|n1 [|n2 [|]]] Hw' Hl'; cbn [length] in Hl'; unfold CoinSelectSpec.Zsum; cbn [fmap list_fmap foldr]; [lia|..|lia].
    - pose proof (Hw' n1 ltac:(left)). lia.
    - pose proof (Hw' n1 ltac:(left)). pose proof (Hw' n2 ltac:(right; left)). lia. }
  specialize (Hsum l.*2 Hw ltac:(by rewrite fmap_length)). change (2 ^ 23)%Z with 8388608%Z. destruct (l.*2); lia.
Qed.
Definition pick_inputs (w : World TxHeight) value algo : option (list OutPoint) :=
  match create_tx true cli_ch cli_km (w_tracker w) value 7 algo with Ret (_, Ok (t, _)) => Some (ci_prev <$> ct_in t) | _ => None end.
Lemma pick_inputs_ok w value algo o : pick_inputs w value algo = Some o →
  ∃ x' t change, create_tx true cli_ch cli_km (w_tracker w) value 7 algo = Ret (x', Ok (t, change)) ∧ ci_prev <$> ct_in t = o.
Proof using.
  unfold pick_inputs. destruct (create_tx _ _ _ _ _ _ _) as [[x' [[t c]|]]|]; try done. intros [= <-]. by eexists _, _, _.
Qed.
Definition pick_obs (a b : N) (l : list (N * CoinSelectionAlgo)) :=
  match pick_world a b with
  | Some (w, _, _) => Some (value_of <$> full_utxos (exho (cg_graph (tr_cg (w_tracker w)))) (w_tracker w), (λ q, pick_inputs w q.1 q.2) <$> l)
  | None => None
  end.
Lemma pick_obs_ok a b l o : pick_vals a b → pick_obs a b l = Some ([a; b], o) →
  ∃ w pr evs, in_session kcs_wf cliW true 10 1 (Some 3) cli_km w pr evs ∧ have_coins w a b ∧ (λ q, pick_inputs w q.1 q.2) <$> l = o.
Proof using.
  intros Hv. unfold pick_obs. destruct (pick_world a b) as [[[w pr] evs]|] eqn:Ew; [|done]. intros [= H1' H2']. exists w, pr, evs.
  split; [by eapply pick_session|]. split; [exact H1'|exact H2'].
Qed.
End env.

(** ** Each algorithm has its own coins *)
Lemma cli_same_weight w kf n : coin (H0 := cli_env) 1 (Some 3) cli_ch (w_tracker w) kf n → n = 70.
Proof.
  intros (_ & d & p & Hd & Hp & Hn). apply cli_keychains in Hd as [->| ->]; unfold plans in Hp; vm_compute in Hp; injection Hp as <-; vm_compute in Hn; injection Hn as <-; done.
Qed.
Definition picks_ok (E : CliEnv) (w : World TxHeight) (pr : prepared) (evs : list (event TxHeight)) : Prop :=
  in_session (H0 := E) kcs_wf cliW true 10 1 (Some 3) cli_km w pr evs ∧
  (∀ value, value ≤ 200000 → modest_wallet (H0 := E) 1 (Some 3) cli_ch (w_tracker w) value 7) ∧
  ∀ l, coins (H0 := E) 1 (Some 3) cli_ch (w_tracker w) l → (pay_weight (H0 := E) 7 l.*2 < 2 ^ 23)%Z.
Lemma picks_intro (E : CliEnv) w pr evs a b : (∀ d, dust_value d = 294) → (∀ s, script_len s = 34) →
  (∀ k d i p n, keychains 1 (Some 3) k = Some d → plans (H0 := E) cli_ch d i p → PlanModel.expected_weight p = Ret n → n ≤ 200) → a + b ≤ 200000 →
  in_session (H0 := E) kcs_wf cliW true 10 1 (Some 3) cli_km w pr evs → have_coins w a b → picks_ok E w pr evs.
Proof.
  intros Hd Hs Hp Hab Hse Hc. split; [done|]. split; [intros value Hv; by apply (pick_modest E Hd Hs Hp w a b)|].
  intros l Hl. by apply (pick_light E Hd Hs Hp w a b pr evs).
Qed.
Definition makes (E : CliEnv) (w : World TxHeight) value algo (ins : list OutPoint) : Prop :=
  ∃ x' t change, create_tx (H0 := E) true cli_ch cli_km (w_tracker w) value 7 algo = Ret (x', Ok (t, change)) ∧ ci_prev <$> ct_in t = ins.
Lemma picks_example : ∃ w pr evs, picks_ok cli_env w pr evs ∧
  (∀ kf n, coin (H0 := cli_env) 1 (Some 3) cli_ch (w_tracker w) kf n → n = 70) ∧
  makes cli_env w 40000 LargestFirst [mkOutPoint 21 0] ∧ makes cli_env w 40000 SmallestFirst [mkOutPoint 50 0] ∧
  makes cli_env w 40000 OldestFirst [mkOutPoint 21 0] ∧ makes cli_env w 40000 NewestFirst [mkOutPoint 50 0] ∧
  makes cli_env w 120000 SmallestFirst [mkOutPoint 50 0; mkOutPoint 21 0].
Proof.
  destruct (pick_obs_ok cli_env 100000 60000 [(40000, LargestFirst); (40000, SmallestFirst); (40000, OldestFirst); (40000, NewestFirst); (120000, SmallestFirst)]
    [Some [mkOutPoint 21 0]; Some [mkOutPoint 50 0]; Some [mkOutPoint 21 0]; Some [mkOutPoint 50 0]; Some [mkOutPoint 50 0; mkOutPoint 21 0]])
    as (w & pr & evs & Hs & Hc & Ho); [by left|vm_compute; reflexivity|].
  cbn [fmap list_fmap fst snd] in Ho. injection Ho as G1 G2 G3 G4 G5.
  exists w, pr, evs. split; [by eapply (picks_intro cli_env w pr evs 100000 60000), Hc; [..|exact cli_plan_weight| |]|]. split; [intros kf n; apply cli_same_weight|].
  repeat split; by apply pick_inputs_ok.
Qed.
(** ** Largest first spends two where one would do *)
Lemma picks_refuted : ∃ w pr evs, picks_ok mix_env w pr evs ∧
  makes mix_env w 59765 LargestFirst [mkOutPoint 50 0; mkOutPoint 21 0] ∧
  ∃ m, coins (H0 := mix_env) 1 (Some 3) cli_ch (w_tracker w) m ∧ pay (H0 := mix_env) 59765 7 m ∧ length m = 1%nat.
Proof.
  destruct (pick_obs_ok mix_env 60000 60010 [(59765, LargestFirst); (59765, SmallestFirst)]
    [Some [mkOutPoint 50 0; mkOutPoint 21 0]; Some [mkOutPoint 21 0]]) as (w & pr & evs & Hs & Hc & Ho); [by right|vm_compute; reflexivity|].
  cbn [fmap list_fmap fst snd] in Ho. injection Ho as G1 G2.
  assert (picks_ok mix_env w pr evs) as Hok by (by eapply (picks_intro mix_env w pr evs 60000 60010), Hc; [..|exact mix_plan_weight| |]).
  exists w, pr, evs. split; [done|]. split; [by apply pick_inputs_ok|].
  apply pick_inputs_ok in G2 as (x' & t & c & Ec & Hin). destruct Hok as (_ & Hm & Hl).
  destruct (session_good (H0 := mix_env) kcs_wf kcs_codec_ok kcs_range_default cliW true 10 1 (Some 3) cli_km cli_good w pr evs Hs) as [Hg _].
  destruct (create_tx_picks (H0 := mix_env) cliW true 1 (Some 3) cli_km cli_good cli_ch (w_tracker w) 59765 7 SmallestFirst x' t c Hg cli_choices_ok)
    as (l & rest & Hco & _ & _ & Hi & Hp & _); try done; [by apply Hm|].
  exists l. split; [|split; [done|]].
  - split; [eapply sublist_NoDup, Hco; rewrite fmap_app; by apply sublist_inserts_r|]. intros kf n Hkf. apply Hco. rewrite elem_of_app. by left.
  - rewrite Hin in Hi. apply (f_equal length) in Hi. by rewrite fmap_length in Hi.
Qed.
