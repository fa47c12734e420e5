(** More concrete sessions for the properties of PropsCli.v. *)
From Verif Require Export CliExamples CliProofs9.
Local Open Scope N_scope.
Local Existing Instances ex_env cli_env PlanExamples.toy_env kcs_codec.

Definition actb (a : action TxHeight) : Prop :=
  match a with Run (CmdElectrum sc ord) => sc = cli_scan ∧ ord = cli_ord | Run (CmdEsplora _ _) => False | _ => True end.
(** The state after some actions of a new wallet. *)
Definition ran (int : option Desc) (l : list (Choices TxHeight * action TxHeight)) : option (World TxHeight * prepared * list (event TxHeight)) :=
  match init 10 1 int None None [] with
  | Ret (_, Ok w) =>
      match acts true cli_km (w, []) l with
      | Ret (w, pr, evs) => if forallb (event_okb cliW) evs then Some (w, pr, evs) else None
      | Panic => None
      end
  | _ => None
  end.
Lemma scan_ok_int int : tr_op_ok (keychains 1 int) cliW (adds 1 int) (TrUpdate exho cli_scan cli_ord).
Proof.
  split; [apply exho_ok|]. split; [apply (bool_decide_unpack _); vm_compute; done|]. split; [exact cli_upd_built|].
  split; [apply in_rangeb_ok; vm_compute; reflexivity|]. cbn [ks_active cli_scan]. intros k t Hk.
  apply lookup_singleton_Some in Hk as [<- <-]. split; [|vm_compute; discriminate]. apply known_adds. by eexists.
Qed.
Lemma ran_session int l w pr evs : Forall (λ p, ch_hash p.1 = exho ∧ actb p.2) l → ran int l = Some (w, pr, evs) →
  in_session kcs_wf cliW true 10 1 int cli_km w pr evs.
Proof.
  intros Hl. unfold ran. destruct (init _ _ _ _ _ _) as [[b [w0|]]|] eqn:Ei; try done. destruct (acts _ _ _ _) as [[[w1 pr1] evs1]|] eqn:Ea; [|done].
  destruct (forallb _ _) eqn:Ef; [|done]. intros [= -> -> ->].
  exists None, [], None, [], b, w0, l. split; [apply life_new|]. split; [exact Ei|]. split; [|split; [exact Ea|]].
  - eapply Forall_impl; [exact Hl|]. intros [ch a] [Hch Ha]. cbn [fst snd] in *.
    assert (hash_fun_ok (ch_hash ch)) as Hh by (rewrite Hch; apply exho_ok). split; [done|].
    destruct a as [c| |]; [|done|done]. split; [done|]. destruct c as [| | | |sc ord|sc ord]; try done. destruct Ha as [-> ->]. rewrite Hch. apply scan_ok_int.
  - eapply forallb_ok; [|exact Ef]. intros ev Hev. by apply event_okb_ok.
Qed.
Lemma ran_obs int l {B} (g : World TxHeight → prepared → list (event TxHeight) → option B) o :
  Forall (λ p, ch_hash p.1 = exho ∧ actb p.2) l → (ran int l ≫= λ p, g p.1.1 p.1.2 p.2) = Some o →
  ∃ w pr evs, in_session kcs_wf cliW true 10 1 int cli_km w pr evs ∧ g w pr evs = Some o.
Proof.
  intros Hl E. destruct (ran int l) as [[[w pr] evs]|] eqn:Er; [|done]. cbn in E. exists w, pr, evs. split; [by eapply ran_session|done].
Qed.

(** ** A send (C83, C84, C87) *)
Definition new_tob (x : Tracker Keychain TxHeight) (t : Tx) : bool :=
  bool_decide (get_tx (cg_graph (tr_cg x)) (txid t) = None) &&
  forallb (λ o, negb (op_txid o.1 =? txid t)) (map_to_list (si_txouts (ki_inner (tr_index x)))) &&
  forallb (λ n, match n.2 with Whole t' => forallb (λ o, negb (op_txid o =? txid t)) (tx_in t') | _ => true end) (map_to_list (tg_txs (cg_graph (tr_cg x)))).
Lemma new_tob_ok x t : new_tob x t = true → new_to x t.
Proof.
  unfold new_tob. intros [[H1 H2]%andb_true_iff H3]%andb_true_iff. apply bool_decide_eq_true in H1. split; [done|]. split.
  - intros v. unfold si_txout. destruct (si_txouts _ !! _) as [a|] eqn:E; [|done]. apply elem_of_map_to_list in E.
    rewrite forallb_forall in H2. specialize (H2 _ (proj1 (elem_of_list_In _ _) E)). cbn in H2. rewrite N.eqb_refl in H2. done.
  - intros s t' o Hg Ho He. unfold get_tx in Hg. destruct (tg_txs _ !! s) as [[t0|]|] eqn:E; try done. injection Hg as ->.
    apply elem_of_map_to_list in E. rewrite forallb_forall in H3. specialize (H3 _ (proj1 (elem_of_list_In _ _) E)). cbn in H3.
    rewrite forallb_forall in H3. specialize (H3 _ (proj1 (elem_of_list_In _ _) Ho)). rewrite He, N.eqb_refl in H3. done.
Qed.
Lemma foreign_7 d : d = 2 ∨ d = 3 → foreign 1 (Some d) 7.
Proof. intros Hd k d' i Hk. destruct k; injection Hk as <-; [|destruct Hd as [->| ->]]; cbn; intros [= E]; lia. Qed.
Lemma found_acts l : Forall (λ p, ch_hash p.1 = exho ∧ actb p.2) l → Forall (λ p, ch_hash p.1 = exho ∧ actb p.2) (cli_found ++ l).
Proof. intros Hl. apply Forall_app. split; [|done]. repeat constructor. Qed.

Ltac split_obs Ho := apply (inj Some) in Ho; repeat (apply pair_equal_spec in Ho as [Ho ?]).
Definition send_obs (ok : bool) (w : World TxHeight) (pr : prepared) (evs : list (event TxHeight)) :=
  let utxos := full_utxos (exho (cg_graph (tr_cg (w_tracker w)))) (w_tracker w) in
  match handle_command true cli_ch cli_km w (CmdSend 40000 7 LargestFirst ok) with
  | Ret (w', evs', r) =>
      match broadcasts evs' with
      | [t] =>
          Some (r, sumN (value_of <$> utxos), length utxos, below_maxb (cg_chain (tr_cg (w_tracker w))), forallb (event_okb cliW) evs',
                new_tob (w_tracker w) (ctx_tx t), bool_decide (null_outpoint ∉ (ci_prev <$> ct_in t)),
                run_balance_cmd cli_ch (w_tracker w), run_balance_cmd cli_ch (w_tracker w'))
      | _ => None
      end
  | Panic => None
  end.
Lemma send_example : ∃ w pr evs w' evs' t, in_session kcs_wf cliW true 10 1 (Some 3) cli_km w pr evs ∧
  modest_wallet 1 (Some 3) cli_ch (w_tracker w) 40000 7 ∧ below_max (cg_chain (tr_cg (w_tracker w))) ∧ foreign 1 (Some 3) 7 ∧
  handle_command true cli_ch cli_km w (CmdSend 40000 7 LargestFirst true) = Ret (w', evs', Ok tt) ∧ Forall (event_ok kcs_wf cliW) evs' ∧
  broadcasts evs' = [t] ∧ new_to (w_tracker w) (ctx_tx t) ∧ null_outpoint ∉ (ci_prev <$> ct_in t) ∧
  run_balance_cmd cli_ch (w_tracker w) = Ret (100000, 0) ∧ run_balance_cmd cli_ch (w_tracker w') = Ret (0, 59692).
Proof.
  destruct (ran_obs (Some 3) (cli_found ++ []) (send_obs true)
    (Ok tt, 100000, 1%nat, true, true, true, true, Ret (100000, 0), Ret (0, 59692))) as (w & pr & evs & Hs & Ho).
  { by apply found_acts. }
  { vm_compute. reflexivity. }
  revert Ho. unfold send_obs. destruct (handle_command _ _ _ _ _) as [[[w' evs'] r]|] eqn:E; [|done].
  destruct (broadcasts evs') as [|t [|]] eqn:Eb; try done. intros Ho.
  split_obs Ho.
  exists w, pr, evs, w', evs', t. rewrite Ho in E. split; [exact Hs|]. split; [by apply modest_found; [done|done|exact cli_plan_weight|..]|].
  split; [by apply below_maxb_ok|]. split; [apply foreign_7; auto|]. split; [exact E|].
  split; [by eapply (forallb_ok (event_okb cliW)); [apply event_okb_ok|]|]. split; [exact Eb|]. split; [by apply new_tob_ok|].
  split; [by eapply bool_decide_eq_true|]. done.
Qed.
(** The server refuses it. *)
Definition fail_obs (w : World TxHeight) (pr : prepared) (evs : list (event TxHeight)) :=
  match handle_command true cli_ch cli_km w (CmdSend 40000 7 LargestFirst false) with
  | Ret (w', evs', r) =>
      Some (r, existsb (λ ev, match ev with EvBroadcast _ (Some (Internal, 0)) false => true | _ => false end) evs',
            run_balance_cmd cli_ch (w_tracker w'), n_revealed (tr_index (w_tracker w')) Internal,
            si_is_used (ki_inner (tr_index (w_tracker w'))) (Internal, 0))
  | Panic => None
  end.
Lemma fail_example : ∃ w pr evs w' evs' t, in_session kcs_wf cliW true 10 1 (Some 3) cli_km w pr evs ∧
  handle_command true cli_ch cli_km w (CmdSend 40000 7 LargestFirst false) = Ret (w', evs', Err EBroadcast) ∧
  EvBroadcast t (Some (Internal, 0)) false ∈ evs' ∧ run_balance_cmd cli_ch (w_tracker w') = Ret (100000, 0) ∧
  n_revealed (tr_index (w_tracker w')) Internal = 1 ∧ si_is_used (ki_inner (tr_index (w_tracker w'))) (Internal, 0) = false.
Proof.
  destruct (ran_obs (Some 3) (cli_found ++ []) fail_obs (Err EBroadcast, true, Ret (100000, 0), 1, false)) as (w & pr & evs & Hs & Ho).
  { by apply found_acts. }
  { vm_compute. reflexivity. }
  revert Ho. unfold fail_obs. destruct (handle_command _ _ _ _ _) as [[[w' evs'] r]|] eqn:E; [|done]. intros Ho.
  split_obs Ho.
  match goal with Hb : existsb _ _ = true |- _ => apply existsb_exists in Hb as (ev & Hin & Hev) end.
  destruct ev as [| |t [[[] []]|] []]; try done. exists w, pr, evs, w', evs', t. rewrite Ho in E. apply elem_of_list_In in Hin. done.
Qed.

(** ** Transactions prepared side by side (C85, C86) *)
Definition prep (ch : Choices TxHeight) (value : N) : Choices TxHeight * action TxHeight := (ch, PrepareSend value 7 LargestFirst).
Definition fin (n : nat) (ok : bool) : Choices TxHeight * action TxHeight := (cli_ch, FinishSend n ok).
Definition inputs_obs (w : World TxHeight) (pr : prepared) (evs : list (event TxHeight)) :=
  Some ((λ t, (ctx_txid t, ci_prev <$> ct_in t)) <$> broadcasts evs).
Lemma same_coin : ∃ w pr evs, in_session kcs_wf cliW true 10 1 (Some 3) cli_km w pr evs ∧
  (λ t, (ctx_txid t, ci_prev <$> ct_in t)) <$> broadcasts evs = [(41000, [mkOutPoint 21 0]); (31000, [mkOutPoint 21 0])].
Proof.
  destruct (ran_obs (Some 3) (cli_found ++ [prep cli_ch 40000; prep cli_ch 30000; fin 0 true; fin 1 true]) inputs_obs
    [(41000, [mkOutPoint 21 0]); (31000, [mkOutPoint 21 0])]) as (w & pr & evs & Hs & Ho).
  { apply found_acts. repeat constructor. }
  { vm_compute. reflexivity. }
  apply (inj Some) in Ho. eauto.
Qed.
Definition changes_obs (w : World TxHeight) (pr : prepared) (evs : list (event TxHeight)) :=
  Some (snd <$> pr, n_revealed (tr_index (w_tracker w)) External, n_revealed (tr_index (w_tracker w)) Internal).
Definition wild_revealed (ext : Desc) (int : option Desc) (w : World TxHeight) : Prop :=
  ∀ k d, keychains ext int k = Some d → n_revealed (tr_index (w_tracker w)) k < cap d.
Lemma changes_example : ∃ w pr evs, in_session kcs_wf cliW true 10 1 (Some 3) cli_km w pr evs ∧ wild_revealed 1 (Some 3) w ∧
  snd <$> pr = [Some (Internal, 0); Some (Internal, 1); Some (Internal, 0)].
Proof.
  destruct (ran_obs (Some 3) (cli_found ++ [prep cli_ch 40000; prep cli_ch 30000; fin 0 false; prep cli_ch 30000]) changes_obs
    ([Some (Internal, 0); Some (Internal, 1); Some (Internal, 0)], 1, 2)) as (w & pr & evs & Hs & Ho).
  { apply found_acts. repeat constructor. }
  { vm_compute. reflexivity. }
  split_obs Ho. exists w, pr, evs. split; [done|]. split; [|done]. intros [] d [= <-].
  - match goal with Hn : n_revealed _ External = _ |- _ => rewrite Hn end. done.
  - match goal with Hn : n_revealed _ Internal = _ |- _ => rewrite Hn end. done.
Qed.
(** A change descriptor with one script, *)
Definition cli_ch2 : Choices TxHeight :=
  mkChoices exho [cli_key 1; cli_key 2] id (λ cmp, stable_sort (λ a b, match cmp a b with Gt => false | _ => true end)) [].
Lemma cli_good2 : good_env (keychains 1 (Some 2)).
Proof.
  destruct exA_good as [G1 G2].
  assert (∀ k d, keychains 1 (Some 2) k = Some d → exA (match k with External => 0 | Internal => 2 end) = Some d) as Hk by (by intros []).
  split.
  - intros k d Hd. by eapply G1, Hk.
  - intros k k' d d' i i' sp Hd Hd' Hi Hi' E E'. destruct (G2 _ _ d d' i i' sp (Hk _ _ Hd) (Hk _ _ Hd') Hi Hi' E E') as [Ek ?]. split; [|done].
    by destruct k, k'.
Qed.
Lemma same_change : ∃ w pr evs, in_session kcs_wf cliW true 10 1 (Some 2) cli_km w pr evs ∧
  snd <$> pr = [Some (Internal, 0); Some (Internal, 0)] ∧ broadcasts evs = [].
Proof.
  destruct (ran_obs (Some 2) (cli_found ++ [prep cli_ch2 40000; prep cli_ch2 30000])
    (λ w pr evs, Some (snd <$> pr, length (broadcasts evs))) ([Some (Internal, 0); Some (Internal, 0)], 0%nat)) as (w & pr & evs & Hs & Ho).
  { apply found_acts. repeat constructor. }
  { vm_compute. reflexivity. }
  split_obs Ho. exists w, pr, evs. split; [done|]. split; [done|]. by apply nil_length_inv.
Qed.
(** and none at all: the address given to someone is the change address of a later transaction. *)
Lemma given_change : ∃ w pr evs, in_session kcs_wf cliW true 10 1 None cli_km w pr evs ∧ wild_revealed 1 None w ∧
  snd <$> pr = [Some (External, 1)] ∧ EvAddress External 1 (exs 1 1) ∈ evs.
Proof.
  destruct (ran_obs None (cli_found ++ [(cli_ch, Run (CmdAddress AddrNext)); prep cli_ch 40000])
    (λ w pr evs, Some (existsb (λ ev, match ev with EvAddress External 1 sp => N.eqb sp (exs 1 1) | _ => false end) evs, snd <$> pr,
       n_revealed (tr_index (w_tracker w)) External)) (true, [Some (External, 1)], 2)) as (w & pr & evs & Hs & Ho).
  { apply found_acts. repeat constructor. }
  { vm_compute. reflexivity. }
  split_obs Ho. exists w, pr, evs. split; [done|]. split; [|split; [done|]].
  - intros [] d [= <-]. match goal with Hn : n_revealed _ _ = _ |- _ => rewrite Hn end. done.
  - apply existsb_exists in Ho as (ev & Hin & Hev). apply elem_of_list_In in Hin. destruct ev as [|[] [|[]] sp|]; try done.
    apply N.eqb_eq in Hev as ->. done.
Qed.
(** ** What is asked of the server (C88, C89) *)
Definition asked_obs (w : World TxHeight) (pr : prepared) (evs : list (event TxHeight)) :=
  Some (sync_request cli_ch (w_tracker w) (mkSyncFlags false false false false),
        match run_txo_cmd cli_ch (w_tracker w) (mkTxOutCmd true false false false), run_txo_cmd cli_ch (w_tracker w) (mkTxOutCmd false false false false) with
        | Ret l, Ret l' => Some (fto_outpoint ∘ snd <$> l, fto_outpoint ∘ snd <$> l') | _, _ => None end).
Lemma cli_addresses k d i sp : keychains 1 (Some 3) k = Some d → derive d i = Some sp → has_address sp = true.
Proof. done. Qed.
Lemma asked_example : ∃ w pr evs l l', in_session kcs_wf cliW true 10 1 (Some 3) cli_km w pr evs ∧
  (∀ k d i sp, keychains 1 (Some 3) k = Some d → derive d i = Some sp → has_address sp = true) ∧
  sync_request cli_ch (w_tracker w) (mkSyncFlags false false false false) = Ret ([exs 1 1], [41000], [mkOutPoint 41000 1]) ∧
  run_txo_cmd cli_ch (w_tracker w) (mkTxOutCmd true false false false) = Ret l ∧ fto_outpoint ∘ snd <$> l = [mkOutPoint 21 0] ∧
  run_txo_cmd cli_ch (w_tracker w) (mkTxOutCmd false false false false) = Ret l' ∧ fto_outpoint ∘ snd <$> l' = [mkOutPoint 21 0; mkOutPoint 41000 1].
Proof.
  destruct (ran_obs (Some 3) (cli_found ++ [(cli_ch, Run (CmdAddress AddrNew)); (cli_ch, Run (CmdSend 40000 7 LargestFirst true))]) asked_obs
    (Ret ([exs 1 1], [41000], [mkOutPoint 41000 1]), Some ([mkOutPoint 21 0], [mkOutPoint 21 0; mkOutPoint 41000 1]))) as (w & pr & evs & Hs & Ho).
  { apply found_acts. repeat constructor. }
  { vm_compute. reflexivity. }
  unfold asked_obs in Ho. split_obs Ho. destruct (run_txo_cmd cli_ch (w_tracker w) (mkTxOutCmd true _ _ _)) as [l|] eqn:E1; [|done].
  destruct (run_txo_cmd cli_ch (w_tracker w) (mkTxOutCmd false _ _ _)) as [l'|] eqn:E'; [|done].
  match goal with He : Some _ = Some _ |- _ => apply (inj Some), pair_equal_spec in He as [? ?] end. exists w, pr, evs, l, l'.
  split; [exact Hs|]. split; [exact cli_addresses|]. split; [exact Ho|]. split; [done|]. split; [done|]. by split.
Qed.

(** ** A second transaction (C85) *)
Definition second_obs (w : World TxHeight) (pr : prepared) (evs : list (event TxHeight)) :=
  let utxos := full_utxos (exho (cg_graph (tr_cg (w_tracker w)))) (w_tracker w) in
  match create_tx true cli_ch cli_km (w_tracker w) 20000 7 LargestFirst, broadcasts evs with
  | Ret (_, Ok (t, _)), [t1] =>
      Some (sumN (value_of <$> utxos), length utxos, bool_decide (is_Some (sc_pos (cg_chain (tr_cg (w_tracker w))) !! ctx_txid t1)),
            bool_decide (get_tx (cg_graph (tr_cg (w_tracker w))) (ctx_txid t1) = Some (ctx_tx t1)),
            ci_prev <$> ct_in t1, ci_prev <$> ct_in t)
  | _, _ => None
  end.
Lemma second_example : ∃ w pr evs t1 x' t a, in_session kcs_wf cliW true 10 1 (Some 3) cli_km w pr evs ∧
  modest_wallet 1 (Some 3) cli_ch (w_tracker w) 20000 7 ∧ has_sent (w_tracker w) t1 ∧
  create_tx true cli_ch cli_km (w_tracker w) 20000 7 LargestFirst = Ret (x', Ok (t, a)) ∧
  ci_prev <$> ct_in t1 = [mkOutPoint 21 0] ∧ ci_prev <$> ct_in t = [mkOutPoint 41000 1].
Proof.
  destruct (ran_obs (Some 3) (cli_found ++ [(cli_ch, Run (CmdSend 40000 7 LargestFirst true))]) second_obs
    (59692, 1%nat, true, true, [mkOutPoint 21 0], [mkOutPoint 41000 1])) as (w & pr & evs & Hs & Ho).
  { apply found_acts. repeat constructor. }
  { vm_compute. reflexivity. }
  revert Ho. unfold second_obs. destruct (create_tx _ _ _ _ _ _ _) as [[x' [[t a]|]]|] eqn:E; try done.
  destruct (broadcasts evs) as [|t1 [|]] eqn:Eb; try done. intros Ho. split_obs Ho.
  exists w, pr, evs, t1, x', t, a. split; [exact Hs|]. split; [|split; [|by split]].
  - unfold modest_wallet. cbn [ch_hash cli_ch]. rewrite Ho.
    match goal with Hl : length _ = 1%nat |- _ => rewrite Hl end.
    split; [vm_compute; discriminate|]. split; [vm_compute; discriminate|]. split; [vm_compute; discriminate|].
    split. { intros k d _. split; [vm_compute; discriminate|]. intros i s _. vm_compute. discriminate. }
    exists 200. split; [vm_compute; discriminate|]. split; [vm_compute; discriminate|]. exact cli_plan_weight.
  - split; by apply (bool_decide_eq_true_1 _).
Qed.
