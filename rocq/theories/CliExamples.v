(** Concrete wallets for the properties of PropsCli.v. *)
From Verif Require PlanExamples.
From Verif Require Export CliProofs6 FileStoreExamples.
Local Open Scope N_scope.
Local Existing Instance ex_env.

(** ** A wallet with descriptors 1 and 3 of KeychainExamples as taproot keys of one seed *)
Definition cli_key (d : N) : PlanModel.DescKey := PlanModel.XPub None 7 [d] 1.
Definition cli_env : CliEnv := {|
  desc_at d i := PlanModel.DTr (PlanModel.mkTr (PlanModel.XPub None 7 [d; i] 0) None);
  dust_value _ := 294;
  script_len _ := 34;
  has_address _ := true;
  ctx_txid t := 1000 + match ct_out t with o :: _ => txo_value o | [] => 0 end;
  ctx_rest _ := 0;
  sighash_key _ _ _ := Some 5;
  sighash_leaf _ _ _ _ := Some 5
|}.
Definition cli_km : PlanModel.KeyMap := {[ cli_key 1 := PlanModel.SecXPrv 7; cli_key 3 := PlanModel.SecXPrv 7 ]}.
Definition cli_ch : Choices TxHeight :=
  mkChoices exho [cli_key 1; cli_key 3] id (λ cmp, stable_sort (λ a b, match cmp a b with Gt => false | _ => true end)) [].
Local Existing Instances cli_env PlanExamples.toy_env.

(** Encodings *)
Definition keychain_wf (k : Keychain) : Prop := True.
Lemma keychain_codec_ok : codec_ok keychain_codec keychain_wf.
Proof.
  apply codec_ok_intro.
  - intros [|] _; cbn [enc dec keychain_codec].
    + rewrite <- (app_nil_r (enc_uint 0)). eapply emits_bind; [by apply (enc_uint_emits false)|]. apply emits_ret.
    + rewrite <- (app_nil_r (enc_uint 1)). eapply emits_bind; [by apply (enc_uint_emits false)|]. apply emits_ret.
  - apply eats_bind; [apply dec_uint_eats|]. intros m. repeat (apply keeps_if); try apply keeps_ret. apply keeps_fail.
Qed.
Definition cli_leaves : LeafCodecs Keychain TxHeight := {|
  leaf_k := keychain_codec; leaf_p := txheight_codec; leaf_tx := ex_tx_codec; leaf_txout := ex_txout_codec
|}.
Definition cli_leaf_wf : LeafWf Keychain TxHeight := {|
  wf_k := keychain_wf; wf_p := pos_ok; wf_tx := @wf_tx _ _ ex_leaf_wf; wf_txout := ex_txout_wf
|}.
Global Existing Instances cli_leaves cli_leaf_wf.
Global Instance cli_leaf_ok : LeafOk Keychain TxHeight.
Proof. destruct ex_leaf_ok. split; [apply keychain_codec_ok|done..]. Qed.
Local Existing Instance kcs_codec.
Definition ckcsb (cs : KChangeSet Keychain TxHeight) : bool :=
  mapb (λ _, true) u32b (kcs_indices cs) &&
  mapb u32b (optb hashb) (cs_cps (cgs_chain (kcs_cg cs))) &&
  mapb hashb (optb posb) (cs_txids (cgs_chain (kcs_cg cs))) &&
  setb txb (ad_tx (cgs_graph (kcs_cg cs))) &&
  mapb outpointb txoutb (ad_txout (cgs_graph (kcs_cg cs))).
Lemma ckcsb_ok cs : ckcsb cs = true → kcs_wf cs.
Proof.
  unfold ckcsb. rewrite !andb_true_iff. intros [[[[H1 H2] H3] H4] H5]. unfold kcs_wf.
  split; [|split; [|split; [|split]]].
  - exact (mapb_ok _ _ _ _ _ (λ _ _, I) u32b_ok H1).
  - exact (mapb_ok _ _ _ _ _ u32b_ok (optb_ok _ _ hashb_ok) H2).
  - exact (mapb_ok _ _ _ _ _ hashb_ok (optb_ok _ _ posb_ok) H3).
  - exact (setb_ok _ _ _ txb_ok H4).
  - exact (mapb_ok _ _ _ _ _ outpointb_ok txoutb_ok H5).
Qed.

(** Its descriptors *)
Lemma cli_good : good_env (keychains 1 (Some 3)).
Proof.
  destruct exA_good as [G1 G2].
  assert (∀ k d, keychains 1 (Some 3) k = Some d → exA (match k with External => 0 | Internal => 1 end) = Some d) as Hk by (by intros []).
  split.
  - intros k d Hd. by eapply G1, Hk.
  - intros k k' d d' i i' sp Hd Hd' Hi Hi' E E'. destruct (G2 _ _ d d' i i' sp (Hk _ _ Hd) (Hk _ _ Hd') Hi Hi' E E'). split; [|done].
    by destruct k, k'.
Qed.

(** ** Running processes *)
Definition wholeb (e : fault) : bool := match e with NoFault | SyncFails | WriteFails O => true | _ => false end.
Definition readsb (d : option bytes) : bool :=
  match d with
  | None => true
  | Some b => match aggregate_changeset (K := Keychain) (P := TxHeight) (mkFile b (length magic)) with Some (Ret (_, _, Ok _)) => true | _ => false end
  end.
Definition event_okb (W : Txid → list OutPoint) (ev : event TxHeight) : bool :=
  match ev with
  | EvAppend cs _ => ckcsb cs
  | EvAddress _ _ _ => true
  | EvBroadcast t _ _ => (ctx_txid t <=? max_txid) && bool_decide (ci_prev <$> ct_in t = W (ctx_txid t))
  end.
Lemma event_okb_ok W ev : event_okb W ev = true → event_ok kcs_wf W ev.
Proof.
  destruct ev as [cs e|k i sp|t c ok]; cbn [event_okb event_ok]; [apply ckcsb_ok|done|].
  rewrite andb_true_iff, N.leb_le, bool_decide_eq_true. done.
Qed.
Section run.
Context (W : Txid → list OutPoint) (limit : nat) (ext : Desc) (int : option Desc).
Fixpoint live (d : option bytes) (evs : list (event TxHeight)) (ps : list (Proc TxHeight)) : option (option bytes * list (event TxHeight)) :=
  match ps with
  | [] => Some (d, evs)
  | p :: ps =>
      match process true limit ext int cli_km d (pr_create p) (pr_faults p) (pr_ch p) (pr_cmd p) with
      | Ret (b, evs', r) =>
          if forallb (event_okb W) evs' && (readsb d || forallb (λ ev, match ev with EvAppend _ e => wholeb e | _ => true end) evs')
          then live (Some (left_behind limit ext int d p evs')) (evs ++ evs') ps else None
      | Panic => None
      end
  end.
Lemma live_ok ps : ∀ d evs d' evs', Forall (λ p, command_ok (keychains ext int) W (adds ext int) (pr_ch p) (pr_cmd p)) ps →
  life kcs_wf W true limit ext int cli_km d evs → live d evs ps = Some (d', evs') → life kcs_wf W true limit ext int cli_km d' evs'.
Proof.
  induction ps as [|p ps IH]; intros d evs d' evs' Hps Hl E; cbn [live] in E; [by injection E as <- <-|].
  apply Forall_cons in Hps as [Hp Hps]. destruct (process _ _ _ _ _ _ _ _ _ _) as [[[b evs1] r]|] eqn:Ep; [|done].
  destruct (_ && _) eqn:Eb; [|done]. apply andb_true_iff in Eb as [E1 E2]. rewrite <- (app_nil_r evs1) in Ep.
  eapply IH; [done| |exact E]. eapply (life_process _ _ _ _ _ _ _ d evs p b evs1 []); [done|done|exact Ep| |]; rewrite app_nil_r.
  - apply (forallb_ok (event_okb W)); [apply event_okb_ok|done].
  - apply orb_true_iff in E2 as [E2|E2]; [left|right].
    + unfold readsb, reads in *. destruct d as [b0|]; [|done].
      destruct (aggregate_changeset (mkFile b0 (length magic))) as [[[[a f] [[]|]]|]|]; [eauto|done..].
    + intros cs e Hin. rewrite forallb_forall in E2. apply elem_of_list_In, E2 in Hin. unfold whole.
      destruct e as [|[|j]| |]; cbn in Hin; try done; auto.
Qed.
End run.

(** ** A life: a torn write, an address, a scan that finds a payment to it, a send with change *)
Definition cliA : Tx := mkTx 21 [mkOutPoint 90 0] [mkTxOut 100000 (exs 1 0)] 0.
Definition cliW (i : Txid) : list OutPoint :=
  match i with 90 => [null_outpoint] | 21 | 50 => [mkOutPoint 90 (i / 50)] | 41000 | 31000 => [mkOutPoint 21 0] | 21000 => [mkOutPoint 41000 1] | _ => [] end.
Definition cli_upd_ops : list (cg_op TxHeight) := [CgCheckpoint (mkBlockId 110 110); CgTx exho cliA (Confirmed 105)].
Definition cli_upd : ChainGraph TxHeight := cg_after cg_default cli_upd_ops.
Lemma cli_upd_built : built cliW cli_upd.
Proof.
  apply after_built; [apply built_default|]. repeat (apply Forall_cons; split; [split; [|done]|]); [| |constructor]; try done.
  split; [apply exho_ok|]. split; vm_compute; done.
Qed.
Definition cli_scan : KScan Keychain TxHeight := mkKScan cli_upd {[ External := 0 ]}.
Definition cli_ord : list (Txid * TxHeight) := [(21, Confirmed 105)].
Lemma cli_scan_ok : tr_op_ok (keychains 1 (Some 3)) cliW (adds 1 (Some 3)) (TrUpdate exho cli_scan cli_ord).
Proof.
  split; [apply exho_ok|]. split; [apply (bool_decide_unpack _); vm_compute; done|]. split; [exact cli_upd_built|].
  split; [apply in_rangeb_ok; vm_compute; reflexivity|]. cbn [ks_active cli_scan]. intros k t Hk.
  apply lookup_singleton_Some in Hk as [<- <-]. split; [|vm_compute; discriminate]. apply known_adds. by eexists.
Qed.
Definition cli_procs : list (Proc TxHeight) :=
  [mkProc None [WriteFails 1] cli_ch (CmdAddress AddrNew); mkProc None [] cli_ch (CmdAddress AddrNext);
   mkProc None [] cli_ch (CmdElectrum cli_scan cli_ord); mkProc None [] cli_ch (CmdSend 40000 7 LargestFirst true)].
Definition ev_obs (ev : event TxHeight) : option (Keychain * N) * list TxOut :=
  match ev with
  | EvAppend cs _ => (head (bmap_list (kcs_indices cs)), [])
  | EvAddress k i s => (Some (k, i), [mkTxOut 0 s])
  | EvBroadcast t c _ => (c, ct_out t)
  end.
Definition cli_life : option (option bytes * list (event TxHeight)) := live cliW 10 1 (Some 3) None [] cli_procs.
Lemma cli_command_ok : ∀ c, match c with CmdElectrum sc ord | CmdEsplora sc ord => sc = cli_scan ∧ ord = cli_ord | _ => True end →
  command_ok (keychains 1 (Some 3)) cliW (adds 1 (Some 3)) cli_ch c.
Proof. intros c Hc. split; [apply exho_ok|]. destruct c; try done; destruct Hc as [-> ->]; apply cli_scan_ok. Qed.
Lemma live_obs W limit ext int ps {B} (g : option bytes → list (event TxHeight) → B) o :
  Forall (λ p, command_ok (keychains ext int) W (adds ext int) (pr_ch p) (pr_cmd p)) ps →
  match live W limit ext int None [] ps with Some (d, evs) => Some (g d evs) | None => None end = Some o →
  ∃ d evs, life kcs_wf W true limit ext int cli_km d evs ∧ g d evs = o.
Proof.
  intros Hps E. destruct (live _ _ _ _ _ _ _) as [[d evs]|] eqn:El; [|done]. injection E as <-. exists d, evs. split; [|done].
  eapply live_ok; [exact Hps|apply life_new|exact El].
Qed.
Lemma cli_procs_ok n : Forall (λ p, command_ok (keychains 1 (Some 3)) cliW (adds 1 (Some 3)) (pr_ch p) (pr_cmd p)) (take n cli_procs).
Proof. apply Forall_take. repeat (apply Forall_cons; split; [by apply cli_command_ok|]). constructor. Qed.
(** The life has shown an address and broadcast change. *)
Lemma cli_life_gives : ∃ b evs, life kcs_wf cliW true 10 1 (Some 3) cli_km (Some b) evs ∧
  given_away evs External 0 (exs 1 0) ∧ given_away evs Internal 0 (exs 3 0) ∧
  ∃ e1 t e2, evs = e1 ++ EvBroadcast t (Some (Internal, 0)) true :: e2.
Proof.
  destruct (live_obs cliW 10 1 (Some 3) (take 4 cli_procs)
    (λ d evs, (match d with Some _ => true | None => false end, length evs,
       match evs !! 2%nat with Some (EvAddress External 0 s) => Some s | _ => None end,
       match evs !! 5%nat with Some (EvBroadcast t (Some (Internal, 0)) true) => match ct_out t with [_; o] => Some (txo_spk o) | _ => None end | _ => None end))
    (true, 7%nat, Some (exs 1 0), Some (exs 3 0)) (cli_procs_ok 4)) as (d & evs & Hl & Ho).
  { vm_compute. reflexivity. }
  injection Ho as Hd _ H2 H5. destruct d as [b|]; [|done]. exists b, evs. split; [done|].
  destruct (evs !! 2%nat) as [[]|] eqn:E2; try done. destruct k; try done. destruct i; try done. injection H2 as ->.
  destruct (evs !! 5%nat) as [[| |t [[[] []]|] []]|] eqn:E5; try done. destruct (ct_out t) as [|r [|[v s'] [|]]] eqn:Eo; try done. injection H5 as ->.
  split; [left; by eapply elem_of_list_lookup_2|]. split.
  - right. exists t, true, r, v. split; [by eapply elem_of_list_lookup_2|done].
  - exists (take 5 evs), t, (drop 6 evs). symmetry. by apply take_drop_middle.
Qed.

(** ** A session: a send for too much, then one that succeeds *)
Lemma opens_intro limit ext int b (y : Tracker Keychain TxHeight) f :
  init limit ext int (Some b) None [] = Ret (b, Ok (mkWorld y f [])) → opens limit ext int b y.
Proof.
  unfold opens, init. destruct (fresh_tracker limit ext int) as [x0|]; [|done]. cbn [mbind outcome_bind fs_new_from_path].
  destruct (fs_new (mkFile b 0)) as [f0|]; [|done]. destruct (load_into_keychain_tracker f0 x0) as [[[[y' f'] r]|]|]; try done.
  intros [= -> ->] create faults. by exists f.
Qed.
Definition opened limit ext int (b : bytes) : option (World TxHeight) :=
  match init limit ext int (Some b) None [] with Ret (b', Ok w) => if bool_decide (b = b') then Some w else None | _ => None end.
Lemma opened_opens limit ext int b w : opened limit ext int b = Some w → opens limit ext int b (w_tracker w).
Proof.
  unfold opened. destruct (init _ _ _ _ _ _) as [[b' [w'|]]|] eqn:E; try done. case_bool_decide as Hb; [|done]. intros [= ->]. subst b'.
  assert (w_faults w = []) as Hf.
  { clear -E. unfold init in E. bind_in E x0 E0. cbn [fs_new_from_path] in E. destruct (fs_new (mkFile b 0)) as [f0|]; [|done].
    destruct (load_into_keychain_tracker f0 x0) as [[[[y' f'] r]|]|]; try done. by injection E as <-. }
  destruct w as [y f fs]. cbn in Hf. subst fs. by eapply opens_intro.
Qed.
Definition cli_session : list (Choices TxHeight * action TxHeight) :=
  [(cli_ch, Run (CmdSend 200000 7 LargestFirst true)); (cli_ch, Run (CmdSend 40000 7 LargestFirst true))].
(** What a session from the file [b] shows: where the broadcast with change is, what a process opening the file just before it has
    revealed, and the balance in memory and after opening the file at the end. *)
Definition session_obs limit ext int (l : list (Choices TxHeight * action TxHeight)) (n : nat) (b : bytes) :=
  w ← opened limit ext int b;
  match acts true cli_km (w, []) l with
  | Ret (w', _, evs) =>
      w1 ← opened limit ext int (f_bytes (disk (w_file w) (take n evs)));
      w2 ← opened limit ext int (f_bytes (w_file w'));
      Some (match evs !! n with Some (EvBroadcast _ (Some ki) true) => Some (inl ki) | Some (EvAddress k i _) => Some (inr (k, i)) | _ => None end,
            n_revealed (tr_index (w_tracker w1)) External, n_revealed (tr_index (w_tracker w1)) Internal,
            run_balance_cmd cli_ch (w_tracker w'), run_balance_cmd cli_ch (w_tracker w2))
  | Panic => None
  end.
Lemma session_ok ps l n ext int o :
  Forall (λ p, command_ok (keychains ext int) cliW (adds ext int) (pr_ch p) (pr_cmd p)) ps →
  match live cliW 10 ext int None [] ps with Some (Some b, _) => session_obs 10 ext int l n b | _ => None end = Some o →
  ∃ b evs0 w w' pr evs y y',
    life kcs_wf cliW true 10 ext int cli_km (Some b) evs0 ∧
    init 10 ext int (Some b) None [] = Ret (b, Ok w) ∧
    acts true cli_km (w, []) l = Ret (w', pr, evs) ∧
    opens 10 ext int (f_bytes (disk (w_file w) (take n evs))) y ∧
    opens 10 ext int (f_bytes (w_file w')) y' ∧
    (match evs !! n with Some (EvBroadcast _ (Some ki) true) => Some (inl ki) | Some (EvAddress k i _) => Some (inr (k, i)) | _ => None end,
            n_revealed (tr_index y) External, n_revealed (tr_index y) Internal,
            run_balance_cmd cli_ch (w_tracker w'), run_balance_cmd cli_ch y') = o.
Proof.
  intros Hps E. destruct (live _ _ _ _ _ _ _) as [[[b|] evs0]|] eqn:El; try done. unfold session_obs in E.
  destruct (opened 10 ext int b) as [w|] eqn:Ew; [|done]. cbn [mbind option_bind] in E.
  destruct (acts _ _ _ _) as [[[w' pr] evs]|] eqn:Ea; [|done].
  destruct (opened _ _ _ (f_bytes (disk _ _))) as [w1|] eqn:E1; [|done]. cbn [mbind option_bind] in E.
  destruct (opened _ _ _ (f_bytes (w_file w'))) as [w2|] eqn:E2; [|done]. cbn [mbind option_bind] in E. injection E as E.
  exists b, evs0, w, w', pr, evs, (w_tracker w1), (w_tracker w2).
  split; [eapply live_ok; [exact Hps|apply life_new|exact El]|].
  split.
  { unfold opened in Ew. destruct (init _ _ _ _ _ _) as [[b' [w3|]]|] eqn:E3; try done. case_bool_decide as Hb; [|done]. injection Ew as ->. by subst b'. }
  split; [done|].
  split; [by eapply opened_opens|]. split; [by eapply opened_opens|]. exact E.
Qed.
(** The second send broadcasts change for an index which is in no file; it is missing after a restart. *)
Lemma cli_session_loses : ∃ b evs0 w w' pr e1 t e2 y y',
    life kcs_wf cliW true 10 1 (Some 3) cli_km (Some b) evs0 ∧
    init 10 1 (Some 3) (Some b) None [] = Ret (b, Ok w) ∧
    acts true cli_km (w, []) cli_session = Ret (w', pr, e1 ++ EvBroadcast t (Some (Internal, 0)) true :: e2) ∧
    opens 10 1 (Some 3) (f_bytes (disk (w_file w) e1)) y ∧ n_revealed (tr_index y) Internal = 0 ∧
    opens 10 1 (Some 3) (f_bytes (w_file w')) y' ∧
    run_balance_cmd cli_ch (w_tracker w') = Ret (0, 59692) ∧ run_balance_cmd cli_ch y' = Ret (0, 0).
Proof.
  destruct (session_ok (take 3 cli_procs) cli_session 1 1 (Some 3) (Some (inl (Internal, 0)), 1, 0, Ret (0, 59692), Ret (0, 0)) (cli_procs_ok 3))
    as (b & evs0 & w & w' & pr & evs & y & y' & Hl & Hi & Ha & Hy & Hy' & Ho).
  { vm_compute. reflexivity. }
  injection Ho as He _ Hr Hb Hb'.
  destruct (evs !! 1%nat) as [[| |t [[[] []]|] []]|] eqn:E; try done.
  exists b, evs0, w, w', pr, (take 1 evs), t, (drop 2 evs), y, y'. repeat (split; [assumption|]).
  split; [by rewrite (take_drop_middle evs 1 _ E)|]. repeat (split; [assumption|]). done.
Qed.
(** Without a change keychain, a send that fails spoils the next address. *)
Definition cli_session2 : list (Choices TxHeight * action TxHeight) :=
  [(cli_ch, Run (CmdSend 200000 7 LargestFirst true)); (cli_ch, Run (CmdAddress AddrNext))].
Lemma cli_session_forgets : ∃ b evs0 w w' pr e1 s e2 y,
    life kcs_wf cliW true 10 1 None cli_km (Some b) evs0 ∧
    init 10 1 None (Some b) None [] = Ret (b, Ok w) ∧
    acts true cli_km (w, []) cli_session2 = Ret (w', pr, e1 ++ EvAddress External 0 s :: e2) ∧
    opens 10 1 None (f_bytes (disk (w_file w) e1)) y ∧ n_revealed (tr_index y) External = 0.
Proof.
  destruct (session_ok [mkProc None [] cli_ch CmdBalance] cli_session2 1 1 None (Some (inr (External, 0)), 0, 0, Ret (0, 0), Ret (0, 0)))
    as (b & evs0 & w & w' & pr & evs & y & y' & Hl & Hi & Ha & Hy & Hy' & Ho).
  { repeat constructor. apply exho_ok. }
  { vm_compute. reflexivity. }
  injection Ho as He Hr _ _ _.
  destruct (evs !! 1%nat) as [[|k i s|]|] eqn:E; try done; [|by destruct change as [[]|], ok].
  injection He as -> ->.
  exists b, evs0, w, w', pr, (take 1 evs), s, (drop 2 evs), y. repeat (split; [assumption|]).
  split; [by rewrite (take_drop_middle evs 1 _ E)|]. by split.
Qed.

(** ** Transactions of a wallet that found a payment *)
(** The same keys in a leaf beside an internal key of nobody; all indices but the first have the same key *)
Definition leaf_env : CliEnv := {|
  desc_at d i := PlanModel.DTr (PlanModel.mkTr (PlanModel.Single None 99)
                   (Some (PlanModel.TapLeaf (PlanModel.TCheck (PlanModel.TPkK (PlanModel.XPub None 7 [d; if i =? 0 then 0 else 1] 0))))));
  dust_value _ := 294;
  script_len _ := 34;
  has_address _ := true;
  ctx_txid t := 1000 + match ct_out t with o :: _ => txo_value o | [] => 0 end;
  ctx_rest _ := 0;
  sighash_key _ _ _ := Some 5;
  sighash_leaf _ _ _ _ := Some 5
|}.
Definition cli_found : list (Choices TxHeight * action TxHeight) :=
  [(cli_ch, Run (CmdAddress AddrNext)); (cli_ch, Run (CmdElectrum cli_scan cli_ord))].
Section found.
Context (E : CliEnv).
Local Existing Instance E | 0.
Definition found : option (World TxHeight * prepared * list (event TxHeight)) :=
  match init 10 1 (Some 3) None None [] with
  | Ret (_, Ok w) =>
      match acts true cli_km (w, []) cli_found with
      | Ret (w, pr, evs) =>
          if forallb (λ ev, match ev with EvAppend cs _ => ckcsb cs | EvAddress _ _ _ => true | _ => false end) evs then Some (w, pr, evs) else None
      | Panic => None
      end
  | _ => None
  end.
Lemma found_session w pr evs : found = Some (w, pr, evs) → in_session kcs_wf cliW true 10 1 (Some 3) cli_km w pr evs.
Proof.
  unfold found. destruct (init _ _ _ _ _ _) as [[b [w0|]]|] eqn:Ei; try done. destruct (acts _ _ _ _) as [[[w1 pr1] evs1]|] eqn:Ea; [|done].
  destruct (forallb _ _) eqn:Ef; [|done]. intros [= -> -> ->].
  exists None, [], None, [], b, w0, cli_found. split; [apply life_new|]. split; [exact Ei|]. split; [|split; [exact Ea|]].
  - repeat (apply Forall_cons; split; [|]); [| |constructor]; (split; [apply exho_ok|]); (split; [apply exho_ok|]); [done|]. apply cli_scan_ok.
  - eapply forallb_ok; [|exact Ef]. intros [] Hev; cbn in *; [by apply ckcsb_ok|done|done].
Qed.
Definition found_obs (w : World TxHeight) :=
  let utxos := full_utxos (exho (cg_graph (tr_cg (w_tracker w)))) (w_tracker w) in
  match create_tx true cli_ch cli_km (w_tracker w) 40000 7 LargestFirst with
  | Ret (_, Ok (t, c)) =>
      Some (sumN (value_of <$> utxos), length utxos, ct_out t, snd <$> c, ct_lock_time t, ci_prev <$> ct_in t, Z.ltb (ctx_weight t) 800, length (concat (ci_witness <$> ct_in t)))
  | _ => None
  end.
Lemma found_ok v n : (found ≫= λ p, found_obs p.1.1) = Some (100000, 1%nat, [mkTxOut 40000 7; mkTxOut v (exs 3 0)], Some (Internal, 0), 110, [mkOutPoint 21 0], true, n) →
  ∃ w pr evs x' t a, in_session kcs_wf cliW true 10 1 (Some 3) cli_km w pr evs ∧
    sumN (value_of <$> full_utxos (exho (cg_graph (tr_cg (w_tracker w)))) (w_tracker w)) = 100000 ∧ length (full_utxos (exho (cg_graph (tr_cg (w_tracker w)))) (w_tracker w)) = 1%nat ∧
    create_tx true cli_ch cli_km (w_tracker w) 40000 7 LargestFirst = Ret (x', Ok (t, Some (a, (Internal, 0)))) ∧
    ct_in t ≠ [] ∧ length (concat (ci_witness <$> ct_in t)) = n ∧ ct_out t = [mkTxOut 40000 7; mkTxOut v (exs 3 0)] ∧ (ctx_weight t ≤ 4000000)%Z.
Proof.
  destruct found as [[[w pr] evs]|] eqn:Ef; [|done]. cbn [mbind option_bind fst]. unfold found_obs.
  destruct (create_tx _ _ _ _ _ _ _) as [[x' [[t c]|]]|] eqn:Ec; try done. intros [= H1 H2 H3 H4 H5 H6 H7 H8].
  destruct c as [[a ki]|]; [|done]. cbn in H4. injection H4 as ->.
  exists w, pr, evs, x', t, a. split; [by apply found_session|]. split; [done|]. split; [done|]. split; [exact Ec|].
  split; [by intros Hn; rewrite Hn in H6|]. split; [done|]. split; [done|]. apply Z.ltb_lt in H7. lia.
Qed.
End found.
Lemma cli_choices_ok : choices_ok cli_ch.
Proof.
  split; [intros g; apply exho_ok|]. split; [done|]. split; [intros; apply stable_sort_perm|]. cbn. apply not_elem_of_nil.
Qed.
(** Its plans: a key path, or the leaf. *)
Lemma cli_keychains k d : keychains 1 (Some 3) k = Some d → d = 1 ∨ d = 3.
Proof. destruct k; cbn; intros [= <-]; auto. Qed.
Lemma cli_plan_weight k d i p n : keychains 1 (Some 3) k = Some d → plans cli_ch d i p → PlanModel.expected_weight p = Ret n → n ≤ 200.
Proof.
  intros [->| ->]%cli_keychains Hp Hn; unfold plans in Hp; vm_compute in Hp; injection Hp as <-; vm_compute in Hn; injection Hn as <-; done.
Qed.
Lemma leaf_plan_weight k d i p n : keychains 1 (Some 3) k = Some d → plans (H0 := leaf_env) cli_ch d i p → PlanModel.expected_weight p = Ret n → n ≤ 200.
Proof.
  intros [->| ->]%cli_keychains Hp Hn; unfold plans in Hp; cbn [desc_at leaf_env] in Hp; destruct (i =? 0);
    vm_compute in Hp; injection Hp as <-; vm_compute in Hn; injection Hn as <-; done.
Qed.
Lemma modest_found (E : CliEnv) (w : World TxHeight) :
  (∀ d, dust_value d = 294) → (∀ s, script_len s = 34) →
  (∀ k d i p n, keychains 1 (Some 3) k = Some d → plans (H0 := E) cli_ch d i p → PlanModel.expected_weight p = Ret n → n ≤ 200) →
  sumN (value_of <$> full_utxos (exho (cg_graph (tr_cg (w_tracker w)))) (w_tracker w)) = 100000 →
  length (full_utxos (exho (cg_graph (tr_cg (w_tracker w)))) (w_tracker w)) = 1%nat →
  modest_wallet (H0 := E) 1 (Some 3) cli_ch (w_tracker w) 40000 7.
Proof.
  intros Hd Hs Hp Hsum Hlen. unfold modest_wallet. cbn [ch_hash cli_ch]. rewrite Hsum, Hlen.
  split; [vm_compute; discriminate|]. split; [rewrite Hs; vm_compute; discriminate|]. split; [vm_compute; discriminate|].
  split. { intros k d _. split; [rewrite Hd; vm_compute; discriminate|]. intros i s _. rewrite Hs. vm_compute. discriminate. }
  exists 200. split; [vm_compute; discriminate|]. split; [vm_compute; discriminate|]. exact Hp.
Qed.
(** Its keys *)
Definition cli_valid (msg : N) (key sig : list N) : bool := bool_decide (last key = sig !! 62%nat) && bool_decide (sig !! 63%nat = Some msg).
Lemma cli_valid_ok k sk msg : PlanSpec.key_secret PlanExamples.toy_ring k = Some sk →
  cli_valid msg (PlanModel.xonly_bytes k) (PlanModel.schnorr_sign sk msg) = true.
Proof.
  intros Hk. assert (PlanExamples.toy_number k = sk) as <- by (destruct k; cbn in *; congruence).
  unfold cli_valid. cbn [PlanModel.xonly_bytes PlanModel.schnorr_sign PlanExamples.toy_env]. rewrite last_snoc.
  apply andb_true_iff. split; apply bool_decide_eq_true; done.
Qed.
Lemma cli_sig_length sk m : length (PlanModel.schnorr_sign sk m) = 64%nat.
Proof. done. Qed.
Lemma cli_km_honest : PlanSpec.honest_keymap PlanExamples.toy_ring cli_km.
Proof.
  intros k s Hk. unfold cli_km in Hk. apply lookup_insert_Some in Hk as [[<- <-]|[_ Hk]]; [done|].
  apply lookup_singleton_Some in Hk as [<- <-]. done.
Qed.
Lemma cli_keys_honest : honest_keys PlanExamples.toy_ring 1 (Some 3) cli_ch.
Proof.
  intros k d i p r key Hd Hp Hr Hk. apply cli_keychains in Hd as [->| ->]; unfold plans in Hp; vm_compute in Hp; injection Hp as <-;
    vm_compute in Hr; injection Hr as <-; cbn in Hk; apply elem_of_list_singleton in Hk as ->; done.
Qed.
Lemma leaf_keys_honest : honest_keys (H0 := leaf_env) PlanExamples.toy_ring 1 (Some 3) cli_ch.
Proof.
  intros k d i p r key Hd Hp Hr Hk. apply cli_keychains in Hd as [->| ->]; unfold plans in Hp; cbn [desc_at leaf_env] in Hp; destruct (i =? 0);
    vm_compute in Hp; injection Hp as <-; vm_compute in Hr; injection Hr as <-; cbn in Hk; apply elem_of_list_singleton in Hk as ->; done.
Qed.
Lemma cli_leaves_simple : simple_leaves 1 (Some 3).
Proof. intros k d i tr leaf _ [= <-] Hl. by apply elem_of_nil in Hl. Qed.
Lemma leaf_leaves_simple : simple_leaves (H0 := leaf_env) 1 (Some 3).
Proof.
  intros k d i tr leaf _ [= <-] Hl. cbn in Hl. apply elem_of_list_singleton in Hl as ->.
  split; [|done]. eexists. split; [vm_compute; reflexivity|done].
Qed.
(** A payment with change by either *)
Lemma cli_found_ok : ∃ w pr evs x' t a, in_session kcs_wf cliW true 10 1 (Some 3) cli_km w pr evs ∧
    modest_wallet 1 (Some 3) cli_ch (w_tracker w) 40000 7 ∧
    create_tx true cli_ch cli_km (w_tracker w) 40000 7 LargestFirst = Ret (x', Ok (t, Some (a, (Internal, 0)))) ∧
    ct_in t ≠ [] ∧ ct_out t = [mkTxOut 40000 7; mkTxOut 59692 (exs 3 0)] ∧ (ctx_weight t ≤ 4000000)%Z.
Proof.
  destruct (found_ok cli_env 59692 1) as (w & pr & evs & x' & t & a & H1 & H2 & H3 & H4 & H5 & _ & H6 & H7); [vm_compute; reflexivity|].
  exists w, pr, evs, x', t, a. split; [exact H1|]. split; [|auto]. apply modest_found; [done|done|exact cli_plan_weight|done|done].
Qed.
Lemma leaf_found_ok : ∃ w pr evs x' t a, in_session (H0 := leaf_env) kcs_wf cliW true 10 1 (Some 3) cli_km w pr evs ∧
    modest_wallet (H0 := leaf_env) 1 (Some 3) cli_ch (w_tracker w) 40000 7 ∧
    create_tx (H0 := leaf_env) true cli_ch cli_km (w_tracker w) 40000 7 LargestFirst = Ret (x', Ok (t, Some (a, (Internal, 0)))) ∧
    ct_in t ≠ [] ∧ length (concat (ci_witness <$> ct_in t)) = 3%nat.
Proof.
  destruct (found_ok leaf_env 59657 3) as (w & pr & evs & x' & t & a & H1 & H2 & H3 & H4 & H5 & H6 & _); [vm_compute; reflexivity|].
  exists w, pr, evs, x', t, a. split; [exact H1|]. split; [|auto]. apply modest_found; [done|done|exact leaf_plan_weight|done|done].
Qed.
