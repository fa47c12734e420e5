(** Concrete disks for the properties of PropsPower.v. *)
From Verif Require Export PowerProofs3 CliExamples.
Local Open Scope N_scope.
Local Existing Instances ex_env kcs_codec cli_env PlanExamples.toy_env.

(** ** Decoders of the examples read from streams *)
Lemma streams_vec {A} (C : Codec A) : streams (@dec _ C) → streams (@dec _ (vec_codec C)).
Proof. intros HS. cbn [dec vec_codec]. stream. Qed.
Lemma streams_txout : streams (@dec _ ex_txout_codec).
Proof. cbn [dec ex_txout_codec]. stream. Qed.
Lemma streams_tx : streams (@dec _ ex_tx_codec).
Proof. cbn [dec ex_tx_codec pair_codec]. stream; first [apply streams_vec; first [apply streams_txout|apply streams_outpoint]|idtac]. Qed.
Global Instance ex_streams : LeafStreams N TxHeight.
Proof. split; [apply (streams_uint false)|apply streams_txheight|apply streams_tx|apply streams_txout]. Qed.
Lemma streams_keychain : streams (@dec _ keychain_codec).
Proof. cbn [dec keychain_codec]. stream. Qed.
Global Instance cli_streams : LeafStreams Keychain TxHeight.
Proof. split; [apply streams_keychain|apply streams_txheight|apply streams_tx|apply streams_txout]. Qed.

(** ** What survives *)
Definition moments (d : Disk) : list bytes := (λ k, foldl sys_apply (dk_synced d) (take k (dk_pending d))) <$> seq 0 (S (length (dk_pending d))).
Lemma moments_ok d m : m ∈ moments d → moment d m.
Proof. intros (k & -> & _)%elem_of_list_fmap. by exists k. Qed.
Definition survivesb (d : Disk) (b : bytes) : bool :=
  let ms := moments d in
  existsb (λ m, bool_decide (length b = length m)) ms &&
  forallb (λ ix : nat * byte, existsb (λ m, match m !! ix.1 with Some y => bool_decide (y = ix.2) | None => bool_decide (ix.2 = byte_of 0) end) ms) (imap pair b).
Lemma survivesb_ok d b : survivesb d b = true → survives d b.
Proof.
  unfold survivesb. rewrite andb_true_iff. intros [Hl Hb]. split.
  - apply existsb_exists in Hl as (m & Hm & Hlen). apply bool_decide_eq_true in Hlen. apply elem_of_list_In, moments_ok in Hm. eauto.
  - intros i x Hi. rewrite forallb_forall in Hb. specialize (Hb (i, x)). destruct (proj1 (existsb_exists _ _) (Hb ltac:(apply elem_of_list_In, elem_of_list_lookup; exists i; by rewrite list_lookup_imap, Hi))) as (m & Hm & Hx).
    apply elem_of_list_In, moments_ok in Hm. cbn [fst snd] in Hx. destruct (m !! i) as [y|] eqn:Em; apply bool_decide_eq_true in Hx; subst; eauto 10.
Qed.

(** ** A store *)
(** An entry with an index, which is synced, and one without, which is not; power is lost, and of the second entry a byte is
    missing.  The store is opened again and an entry with indices is written, then one without; power is lost once more. *)
Definition pw_d1 : Disk := dk_append dk_new fs_f0 fs1 NoFault.
Definition pw_f1 : File := (append_changeset fs_f0 fs1 NoFault).1.
Definition pw_d2 : Disk := dk_append pw_d1 pw_f1 fs3 NoFault.
Definition pw_f2 : File := (append_changeset pw_f1 fs3 NoFault).1.
Definition pw_b2 : bytes := <[26%nat := byte_of 0]> (f_bytes pw_f2).
Definition pw_f3 : File := default fs_f0 (load (K := N) (P := TxHeight) (mkFile pw_b2 (length magic))).
Definition pw_d3 : Disk := dk_append (mkDisk pw_b2 []) pw_f3 fs2 NoFault.
Definition pw_f4 : File := (append_changeset pw_f3 fs2 NoFault).1.
Definition pw_d4 : Disk := dk_append pw_d3 pw_f4 fs3 NoFault.
Definition pw_b4 : bytes := take (length (f_bytes pw_f4) + 20) (f_bytes (append_changeset pw_f4 fs3 NoFault).1) ++ replicate 25 (byte_of 0).
Lemma fs_wf1 cs : cs ∈ [fs1; fs2; fs3; kcs_default] → kcs_wf cs.
Proof. intros Hin. pose proof fs_wf as Hw. rewrite Forall_forall in Hw. by apply Hw. Qed.
Lemma pw_life2 : store_life kcs_wf pw_d2 (Some pw_f2) [fs1].
Proof.
  assert (store_life kcs_wf (K := N) (P := TxHeight) dk_new (Some fs_f0) []) as H0 by (by apply st_new).
  pose proof (st_append kcs_wf _ _ _ fs1 NoFault pw_f1 (Ok tt) H0 ltac:(apply fs_wf1; set_solver) ltac:(done) ltac:(vm_compute; reflexivity)) as H1.
  exact (st_append kcs_wf _ _ _ fs3 NoFault pw_f2 (Ok tt) H1 ltac:(apply fs_wf1; set_solver) ltac:(done) ltac:(vm_compute; reflexivity)).
Qed.
Lemma pw_survives2 : survives pw_d2 pw_b2.
Proof. apply survivesb_ok. vm_compute. reflexivity. Qed.
Lemma pw_life4 : store_life kcs_wf pw_d4 (Some (append_changeset pw_f4 fs3 NoFault).1) [fs1; fs2].
Proof.
  pose proof (st_power kcs_wf _ _ _ _ pw_life2 pw_survives2) as H1.
  pose proof (st_open kcs_wf _ _ _ (mkFile pw_b2 (length magic)) pw_f3 H1 ltac:(vm_compute; reflexivity) ltac:(vm_compute; reflexivity)) as H2.
  pose proof (st_append kcs_wf _ _ _ fs2 NoFault pw_f4 (Ok tt) H2 ltac:(apply fs_wf1; set_solver) ltac:(done) ltac:(vm_compute; reflexivity)) as H3.
  exact (st_append kcs_wf _ _ _ fs3 NoFault _ (Ok tt) H3 ltac:(apply fs_wf1; set_solver) ltac:(done) ltac:(vm_compute; reflexivity)).
Qed.
Lemma pw_survives4 : survives pw_d4 pw_b4 ∧ pw_b4 ≠ dk_view pw_d4.
Proof. split; [apply survivesb_ok; vm_compute; reflexivity|]. apply (bool_decide_unpack _). vm_compute. done. Qed.
(** After the first loss an entry is read which nobody wrote. *)
Lemma pw_foreign : ∃ f l (a : KChangeSet N TxHeight) f' (cs : KChangeSet N TxHeight), fs_new (mkFile pw_b2 0) = Ok f ∧ yields (K := N) (P := TxHeight) pw_b2 l ∧
  aggregate_changeset f = Some (Ret (a, f', Ok tt)) ∧ cs ∈ l ∧ cs_cps (cgs_chain (kcs_cg cs)) !! 44640 = Some None.
Proof.
  destruct (it_for (S (length pw_b2)) (λ (l : list (KChangeSet N TxHeight)) cs, Ret (l ++ [cs])) [] (iter_changesets (mkFile pw_b2 (length magic)))) as [[[[l f1] r1]|]|] eqn:El.
  2-3: exfalso; revert El; vm_compute; discriminate.
  assert (match it_for (S (length pw_b2)) (λ (l : list (KChangeSet N TxHeight)) cs, Ret (l ++ [cs])) [] (iter_changesets (mkFile pw_b2 (length magic))) with
    Some (Ret (l, _, _)) => match l !! 1%nat with Some cs => cs_cps (cgs_chain (kcs_cg cs)) !! 44640 | None => None end | _ => None end = Some None) as Hl by (vm_compute; reflexivity).
  rewrite El in Hl. destruct (l !! 1%nat) as [cs|] eqn:Ecs; [|done].
  destruct (aggregate_changeset (K := N) (P := TxHeight) (mkFile pw_b2 (length magic))) as [[[[a f'] [[]|e]]|]|] eqn:Ea.
  2-4: exfalso; revert Ea; vm_compute; discriminate.
  eexists _, l, a, f', cs. split; [vm_compute; reflexivity|]. split; [|split; [exact Ea|split; [by eapply elem_of_list_lookup_2|done]]].
  eexists _, f1, r1. split; [vm_compute; reflexivity|]. exact El.
Qed.

(** ** Wallets *)
Section run.
Context (ext : Desc) (int : option Desc).
(** Processes, each stopped after so many events *)
Fixpoint plive (d : option Disk) (evs : list (event TxHeight)) (ps : list (Proc TxHeight * nat)) : option (option Disk * list (event TxHeight)) :=
  match ps with
  | [] => Some (d, evs)
  | (p, n) :: ps =>
      match process true 10 ext int cli_km (dk_view <$> d) (pr_create p) (pr_faults p) (pr_ch p) (pr_cmd p) with
      | Ret (b, evs', r) =>
          if forallb (event_okb cliW) evs' && (readsb (dk_view <$> d) || forallb (λ ev, match ev with EvAppend _ e => wholeb e | _ => true end) evs')
          then plive (Some (dk_behind 10 ext int d p (take n evs'))) (evs ++ take n evs') ps else None
      | Panic => None
      end
  end.
Lemma plive_ok ps : ∀ d evs d' evs', Forall (λ p, command_ok (keychains ext int) cliW (adds ext int) (pr_ch p.1) (pr_cmd p.1)) ps →
  power_life kcs_wf cliW true 10 ext int cli_km d evs → plive d evs ps = Some (d', evs') → power_life kcs_wf cliW true 10 ext int cli_km d' evs'.
Proof.
  induction ps as [|[p n] ps IH]; intros d evs d' evs' Hps Hl E; cbn [plive] in E; [by injection E as <- <-|].
  apply Forall_cons in Hps as [Hp Hps]. destruct (process _ _ _ _ _ _ _ _ _ _) as [[[b evs1] r]|] eqn:Ep; [|done].
  destruct (_ && _) eqn:Eb; [|done]. apply andb_true_iff in Eb as [E1 E2]. rewrite <- (take_drop n evs1) in Ep.
  eapply IH; [done| |exact E]. eapply (power_process _ _ _ _ _ _ _ d evs p b (take n evs1) (drop n evs1)); [done|done|exact Ep| |]; rewrite take_drop.
  - apply (forallb_ok (event_okb cliW)); [apply event_okb_ok|done].
  - apply orb_true_iff in E2 as [E2|E2]; [left|right].
    + unfold readsb, reads in *. destruct (dk_view <$> d) as [b0|]; [|done].
      destruct (aggregate_changeset (mkFile b0 (length magic))) as [[[[a f] [[]|]]|]|]; [eauto|done..].
    + intros cs e Hin. rewrite forallb_forall in E2. apply elem_of_list_In, E2 in Hin. unfold whole.
      destruct e as [|[|j]| |]; cbn in Hin; try done; auto.
Qed.
Lemma plive_obs ps {B} (g : option Disk → list (event TxHeight) → B) o :
  Forall (λ p, command_ok (keychains ext int) cliW (adds ext int) (pr_ch p.1) (pr_cmd p.1)) ps →
  match plive None [] ps with Some (d, evs) => Some (g d evs) | None => None end = Some o →
  ∃ d evs, power_life kcs_wf cliW true 10 ext int cli_km d evs ∧ g d evs = o.
Proof.
  intros Hps E. destruct (plive _ _ _) as [[d evs]|] eqn:El; [|done]. injection E as <-. exists d, evs. split; [|done].
  eapply plive_ok; [exact Hps|apply power_new|exact El].
Qed.
End run.
Definition syncedb (evs : list (event TxHeight)) : bool :=
  forallb (λ ev, match ev with EvAppend cs e => da_is_empty (kcs_indices cs) || match e with NoFault => true | _ => false end || negb (reached cs e) | _ => true end) evs.
Lemma syncedb_ok evs : syncedb evs = true → synced evs.
Proof.
  intros Hs cs e Hin. unfold syncedb in Hs. rewrite forallb_forall in Hs. apply elem_of_list_In, Hs in Hin.
  rewrite !orb_true_iff, negb_true_iff in Hin. destruct Hin as [[Hd|He]|Hr]; [by left|right; left; by destruct e|by right; right].
Qed.
Definition shows (evs : list (event TxHeight)) (n : nat) : option (Keychain * N * Script) :=
  match evs !! n with Some (EvAddress k i s) => Some (k, i, s) | _ => None end.
Lemma shows_given evs n k i s : shows evs n = Some (k, i, s) → given_away evs k i s.
Proof. unfold shows. destruct (evs !! n) as [[]|] eqn:E; try done. intros [= -> -> ->]. left. by eapply elem_of_list_lookup_2. Qed.

(** An address is shown, a payment to it is found, and power is lost while the next address is about to be synced: some of
    what was written since the first sync is gone. *)
Definition pw_procs : list (Proc TxHeight * nat) :=
  [(mkProc None [] cli_ch (CmdAddress AddrNew), 9%nat); (mkProc None [] cli_ch (CmdElectrum cli_scan cli_ord), 9%nat);
   (mkProc None [SyncFails] cli_ch (CmdAddress AddrNew), 9%nat)].
Definition torn_off (d : Disk) : bytes := take (length (dk_synced d) + 9) (dk_view d) ++ replicate (length (dk_view d) - (length (dk_synced d) + 9)) (byte_of 0).
Lemma pw_procs_ok : Forall (λ p, command_ok (keychains 1 (Some 3)) cliW (adds 1 (Some 3)) (pr_ch p.1) (pr_cmd p.1)) pw_procs.
Proof. repeat (apply Forall_cons; split; [by apply cli_command_ok|]). constructor. Qed.
Lemma pw_wallet : ∃ d evs evs' b, power_life kcs_wf cliW true 10 1 (Some 3) cli_km (Some d) (evs ++ evs') ∧ (length evs' ≤ 1)%nat ∧
  synced evs ∧ given_away evs External 0 (exs 1 0) ∧ survives d b ∧ b ≠ dk_view d ∧ ¬ synced (evs ++ evs').
Proof.
  destruct (plive_obs 1 (Some 3) pw_procs (λ d evs, (match d with Some d => survivesb d (torn_off d) && negb (bool_decide (torn_off d = dk_view d)) | None => false end, length evs,
      shows (take 3 evs) 1, syncedb (take 3 evs), match evs !! 3%nat with Some (EvAppend cs SyncFails) => negb (da_is_empty (kcs_indices cs)) | _ => false end))
      (true, 4%nat, Some (External, 0, exs 1 0), true, true) pw_procs_ok) as (d & evs & Hl & Ho). { vm_compute. reflexivity. }
  injection Ho as H1 H2 H3 H4 H5. destruct d as [d|]; [|done]. apply andb_true_iff in H1 as [H0 H1].
  exists d, (take 3 evs), (drop 3 evs), (torn_off d). rewrite take_drop. split; [done|]. split; [rewrite drop_length; lia|].
  split; [by apply syncedb_ok|]. split; [by eapply shows_given|]. split; [by apply survivesb_ok|].
  split; [apply negb_true_iff, bool_decide_eq_false in H1; done|].
  destruct (evs !! 3%nat) as [[cs []| |]|] eqn:E; try done. intros Hs. destruct (Hs cs SyncFails) as [Hd|[|Hr]]; [by eapply elem_of_list_lookup_2| |done|done].
  by rewrite Hd in H5.
Qed.
(** A process is stopped before it syncs, the next one shows the address which the first revealed. *)
Definition pw_procs2 : list (Proc TxHeight * nat) :=
  [(mkProc None [SyncFails] cli_ch (CmdAddress AddrNew), 9%nat); (mkProc None [] cli_ch (CmdAddress AddrNext), 9%nat)].
Lemma pw_forgets : ∃ d evs b y, power_life kcs_wf cliW true 10 1 (Some 3) cli_km (Some d) evs ∧ given_away evs External 0 (exs 1 0) ∧
  survives d b ∧ opens 10 1 (Some 3) b y ∧ n_revealed (tr_index y) External = 0.
Proof.
  destruct (plive_obs 1 (Some 3) pw_procs2 (λ d evs, (match d with Some d => survivesb d magic | None => false end, shows evs 2))
      (true, Some (External, 0, exs 1 0))) as (d & evs & Hl & Ho).
  { repeat (apply Forall_cons; split; [by apply cli_command_ok|]). constructor. } { vm_compute. reflexivity. }
  injection Ho as H1 H2. destruct d as [d|]; [|done]. destruct (opened 10 1 (Some 3) magic) as [w|] eqn:Ew; [|by vm_compute in Ew].
  exists d, evs, magic, (w_tracker w). split; [done|]. split; [by eapply shows_given|]. split; [by apply survivesb_ok|]. split; [by apply opened_opens|].
  assert ((λ w, n_revealed (tr_index (w_tracker w)) External) <$> opened 10 1 (Some 3) magic = Some 0) as Hn by (vm_compute; reflexivity).
  rewrite Ew in Hn. by injection Hn.
Qed.
(** A torn entry, overwritten by one which is not synced: what is left reads as an index of a keychain the wallet does not have. *)
Definition pw_procs3 : list (Proc TxHeight * nat) :=
  [(mkProc None [] cli_ch (CmdAddress AddrNew), 9%nat); (mkProc None [WriteFails 1] cli_ch (CmdAddress AddrNew), 9%nat);
   (mkProc None [] cli_ch (CmdElectrum cli_scan cli_ord), 9%nat)].
Definition mixed (d : Disk) : bytes :=
  dk_synced d ++ (byte_of <$> [1; 1; 110]) ++ replicate (length (dk_view d) - length (dk_synced d) - 3) (byte_of 0).
Lemma pw_scan_ok : tr_op_ok (keychains 1 None) cliW (adds 1 None) (TrUpdate exho cli_scan cli_ord).
Proof.
  split; [apply exho_ok|]. split; [apply (bool_decide_unpack _); vm_compute; done|]. split; [exact cli_upd_built|].
  split; [apply in_rangeb_ok; vm_compute; reflexivity|]. cbn [ks_active cli_scan]. intros k t Hk.
  apply lookup_singleton_Some in Hk as [<- <-]. split; [|vm_compute; discriminate]. apply known_adds. by eexists.
Qed.
Lemma pw_panics : ∃ d evs b, power_life kcs_wf cliW true 10 1 None cli_km (Some d) evs ∧ synced evs ∧
  survives d b ∧ ∀ create faults, init (P := TxHeight) 10 1 None (Some b) create faults = Panic.
Proof.
  destruct (plive_obs 1 None pw_procs3 (λ d evs, (match d with Some d => survivesb d (mixed d) && match init (P := TxHeight) 10 1 None (Some (mixed d)) None [] with Panic => true | _ => false end | None => false end, syncedb evs))
      (true, true)) as (d & evs & Hl & Ho).
  { repeat (apply Forall_cons; split; [split; [apply exho_ok|first [apply pw_scan_ok|done]]|]). constructor. } { vm_compute. reflexivity. }
  injection Ho as H1 H2. destruct d as [d|]; [|done]. apply andb_true_iff in H1 as [H1 H3].
  exists d, evs, (mixed d). split; [done|]. split; [by apply syncedb_ok|]. split; [by apply survivesb_ok|].
  intros create faults. revert H3. unfold init. destruct (fresh_tracker 10 1 None) as [x|]; [|done]. cbn [mbind outcome_bind fs_new_from_path].
  destruct (fs_new (mkFile (mixed d) 0)); [|done]. by destruct (load_into_keychain_tracker _ x) as [[[[]]|]|].
Qed.
Lemma pw_empty : survives dk_new [].
Proof. apply survivesb_ok. vm_compute. reflexivity. Qed.
