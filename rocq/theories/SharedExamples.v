(** Keychains with one descriptor (C109). *)
From Verif Require Export SharedProofs CliExamples.
Local Open Scope N_scope.
Local Existing Instances ex_env cli_env PlanExamples.toy_env kcs_codec.

(** The keychains of the documentation (txout_index.rs:30-56): 0 and 42 have descriptor 1; user 42 got an address. *)
Definition shared_ops : list (ki_op N) := [KiAdd 0 1; KiAdd 1 3; KiAdd 42 1; KiNext 42].
Lemma shared_state : ∃ x, ki_run shared_ops = Ret (x, [(42, 0, exs 1 0)], {[ 42 := 0 ]}) ∧ untouched x 0 ∧ first_script x 0 (exs 1 0) ∧ watches x (exs 1 0).
Proof.
  destruct (ki_run shared_ops) as [[[x outs] acc]|] eqn:E; [|by vm_compute in E]. exists x.
  assert (match ki_run shared_ops with
    | Ret (x, outs, acc) => bool_decide (outs = [(42, 0, exs 1 0)] ∧ acc = {[ 42 := 0 ]} ∧ bmap_list (si_spks (ki_inner x)) = [((42, 0), exs 1 0)] ∧
        ki_revealed x !! 0 = None ∧ ki_lookahead x !! 0 = None ∧ ki_keychains x !! 0 = Some 1 ∧ si_indices (ki_inner x) !! exs 1 0 = Some (42, 0))
    | Panic => false end = true) as Ho by (vm_compute; reflexivity).
  rewrite E in Ho. apply bool_decide_eq_true in Ho as (-> & -> & Hs & Hr & Hl & Hk & Hi). split; [done|].
  split; [|split; [by exists 1|by eexists]]. split; [|split; [done|by rewrite Hl]].
  intros i. destruct (si_spks (ki_inner x) !! (0, i)) eqn:Ei; [|done]. exfalso.
  apply elem_of_bmap_list in Ei. rewrite Hs in Ei. by apply elem_of_list_singleton in Ei as [= ].
Qed.

(** A command line wallet started with one descriptor for both keychains. *)
Definition shared_scan : KScan Keychain TxHeight := mkKScan cli_upd {[ External := 0; Internal := 0 ]}.
Definition shared_world : option (World TxHeight) :=
  match init 10 1 (Some 1) None None [] with Ret (_, Ok w) => Some w | _ => None end.
Definition shared_changes (w : World TxHeight) : option (KChangeSet Keychain TxHeight) :=
  match tr_determine_changeset (exho (cg_graph (tr_cg (w_tracker w)))) (w_tracker w) shared_scan cli_ord with Ret (Ok cs) => Some cs | _ => None end.
(** The scan finds the script under both keychains; its changeset is written and cannot be applied, now or ever. *)
Lemma shared_file : ∃ b w cs w' ev,
  init 10 1 (Some 1) None None [] = Ret (b, Ok w) ∧
  tr_determine_changeset (exho (cg_graph (tr_cg (w_tracker w)))) (w_tracker w) shared_scan cli_ord = Ret (Ok cs) ∧
  db_append w cs = (w', ev, Ok tt) ∧ electrum_apply cli_ch w shared_scan cli_ord = Panic ∧
  ∀ cf faults, init 10 1 (Some 1) (Some (f_bytes (w_file w'))) cf faults = Panic.
Proof.
  destruct shared_world as [w|] eqn:Ew; [|by vm_compute in Ew].
  assert (∃ b, init 10 1 (Some 1) None None [] = Ret (b, Ok w)) as [b Eb].
  { unfold shared_world in Ew. destruct (init 10 1 (Some 1) None None []) as [[b [w0|]]|]; [|discriminate Ew..]. injection Ew as ->. by exists b. }
  destruct (shared_changes w) as [cs|] eqn:Ec.
  2:{ exfalso. assert (match shared_world with Some w => match shared_changes w with Some _ => true | None => false end | None => false end = true) as Ho by (vm_compute; reflexivity).
      by rewrite Ew, Ec in Ho. }
  assert (match shared_world with Some w => match shared_changes w with
    | Some cs => match db_append w cs with (w', _, Ok _) =>
        match electrum_apply cli_ch w shared_scan cli_ord, init 10 1 (Some 1) (Some (f_bytes (w_file w'))) None [] with Panic, Panic => true | _, _ => false end | _ => false end
    | None => false end | None => false end = true) as Ho by (vm_compute; reflexivity).
  rewrite Ew, Ec in Ho. destruct (db_append w cs) as [[w' ev] [[]|]] eqn:Ed; [|discriminate Ho].
  destruct (electrum_apply _ _ _ _) eqn:Ea; [discriminate Ho|]. destruct (init 10 1 (Some 1) (Some _) None []) eqn:Ei; [discriminate Ho|].
  exists b, w, cs, w', ev. split; [exact Eb|]. split.
  { unfold shared_changes in Ec. destruct (tr_determine_changeset _ _ _ _) as [[cs0|]|]; [|discriminate Ec..]. by injection Ec as ->. }
  split; [exact Ed|]. split; [exact Ea|]. intros cf faults. unfold init in Ei |- *.
  destruct (fresh_tracker 10 1 (Some 1)) as [x|]; [|done]. cbn [mbind outcome_bind] in Ei |- *.
  assert (fs_new_from_path (Some (f_bytes (w_file w'))) cf = fs_new_from_path (Some (f_bytes (w_file w'))) None) as -> by (by destruct cf).
  destruct (fs_new_from_path (Some _) None) as [b' [f|]]; [|discriminate Ei]. destruct (load_into_keychain_tracker f x) as [[[[x' f'] r]|]|]; [discriminate Ei|done..].
Qed.
(** The wallet has shown an address. *)
Lemma shared_shown : ∃ b w w' evs, init 10 1 (Some 1) None None [] = Ret (b, Ok w) ∧ run_address_cmd w AddrNext = Ret (w', evs, Ok tt) ∧
  untouched (tr_index (w_tracker w')) Internal ∧ first_script (tr_index (w_tracker w')) Internal (exs 1 0) ∧ watches (tr_index (w_tracker w')) (exs 1 0).
Proof.
  destruct shared_world as [w|] eqn:Ew; [|by vm_compute in Ew].
  assert (∃ b, init 10 1 (Some 1) None None [] = Ret (b, Ok w)) as [b Eb].
  { unfold shared_world in Ew. destruct (init 10 1 (Some 1) None None []) as [[b [w0|]]|]; [|discriminate Ew..]. injection Ew as ->. by exists b. }
  assert (match shared_world with Some w => match run_address_cmd w AddrNext with
    | Ret (w', _, Ok _) => let x := tr_index (w_tracker w') in
        bool_decide (bmap_list (si_spks (ki_inner x)) = [((External, 0), exs 1 0)] ∧
        ki_revealed x !! Internal = None ∧ ki_lookahead x !! Internal = None ∧ ki_keychains x !! Internal = Some 1 ∧ si_indices (ki_inner x) !! exs 1 0 = Some (External, 0))
    | _ => false end | None => false end = true) as Ho by (vm_compute; reflexivity).
  rewrite Ew in Ho. destruct (run_address_cmd w AddrNext) as [[[w' evs] [[]|]]|] eqn:Ea; [|discriminate Ho..].
  exists b, w, w', evs. split; [exact Eb|]. split; [exact Ea|]. cbn zeta in Ho.
  apply bool_decide_eq_true in Ho as (Hs & Hr & Hl & Hk & Hi). split; [|split; [by exists 1|by eexists]]. split; [|split; [done|by rewrite Hl]].
  intros i. destruct (si_spks (ki_inner (tr_index (w_tracker w'))) !! (Internal, i)) eqn:Ei; [|done]. exfalso.
  apply elem_of_bmap_list in Ei. rewrite Hs in Ei. by apply elem_of_list_singleton in Ei as [= ].
Qed.
