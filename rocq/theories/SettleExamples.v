(** Five synchronisations of the wallet of [C114_sync_refuted] (C115). *)
From Verif Require Export SettleProofs AgainCliExamples.
Local Open Scope N_scope.
Local Existing Instances ex_env cli_env PlanExamples.toy_env kcs_codec.

(** The transactions of the network. *)
Definition settle_L : list Txid := [90; 21; 41000; 21000].
Lemma settle_L_all t : is_Some (w_tx again_w t) ↔ t ∈ settle_L.
Proof.
  unfold again_w, cs_world. cbn [w_tx list_world]. unfold w_find, again_l, settle_L. cbn [List.find fst].
  change (txid cs90) with 90. change (txid cliA) with 21. change (txid again_on) with 41000. change (txid again_off) with 21000.
  rewrite !elem_of_cons, elem_of_nil.
  destruct (N.eqb_spec 90 t); [naive_solver|]. destruct (N.eqb_spec 21 t); [naive_solver|].
  destruct (N.eqb_spec 41000 t); [naive_solver|]. destruct (N.eqb_spec 21000 t); [naive_solver|].
  cbn [fmap option_fmap option_map]. rewrite is_Some_alt. naive_solver.
Qed.
Fixpoint settle_times (n : nat) (w : CliModel.World TxHeight) : option (CliModel.World TxHeight) :=
  match n with
  | O => Some w
  | S n => match again_sync w with Done _ (w', _, Ok _) => settle_times n w' | _ => None end
  end.
Lemma settle_times_syncs n : ∀ w w', settle_times n w = Some w' → syncs true again_w CliSyncExamples.cs_default n w w'.
Proof.
  induction n as [|n IH]; intros w w' E; cbn [settle_times] in E; [injection E as ->; apply syncs_none|].
  destruct (again_sync w) as [j [[w1 evs1] [[]|]]| | |] eqn:E1; try discriminate E. unfold again_sync in E1.
  destruct again_sound as (_ & _ & _ & Hsrv).
  exact (syncs_more true again_w _ n w w1 w' _ 1 cli_ch cs_po 2 0 j evs1 (λ _, Hsrv) exho_ok cs_po_ok ltac:(lia) E1 (IH w1 w' E)).
Qed.
Definition settle_known (w : CliModel.World TxHeight) : bool :=
  forallb (λ e : Txid * TxHeight, match w_tx again_w e.1 with Some _ => true | None => false end) (map_to_list (sc_pos (cg_chain (tr_cg (w_tracker w))))).
Lemma settle_known_ok w : settle_known w = true → all_known again_w (w_tracker w).
Proof.
  intros Hk t [p Hp]. unfold settle_known in Hk. rewrite forallb_forall in Hk. specialize (Hk (t, p)). cbn [fst] in Hk.
  destruct (w_tx again_w t); [done|]. discriminate Hk. by apply elem_of_list_In, elem_of_map_to_list.
Qed.
Definition settle_obs (w : CliModel.World TxHeight) (pr : prepared) (evs : list (event TxHeight)) :=
  match settle_times 5 w with
  | Some w' => Some (ready_check again_w w, settle_known w, cs_show (w_tracker w), cs_show (w_tracker w'))
  | None => None
  end.
Lemma settle_found : ∃ w pr evs w', in_session kcs_wf cliW true 10 1 (Some 3) cli_km w pr evs ∧ cs_ready again_w w ∧ all_known again_w (w_tracker w) ∧
  syncs true again_w CliSyncExamples.cs_default 5 w w' ∧
  cs_show (w_tracker w) = (Some 110, [(External, 0, (21, 0), 100000, Confirmed 105, None)]) ∧ cs_show (w_tracker w') = again_second.
Proof.
  destruct (ran_obs (Some 3) cli_found settle_obs (true, true, (Some 110, [(External, 0, (21, 0), 100000, Confirmed 105, None)]), again_second)) as (w & pr & evs & Hs & Ho).
  { rewrite <- (app_nil_r cli_found). apply found_acts. constructor. }
  { vm_compute. reflexivity. }
  unfold settle_obs in Ho. destruct (settle_times 5 w) as [w'|] eqn:E; [|discriminate Ho].
  apply (inj Some), pair_equal_spec in Ho as [Ho S2]. apply pair_equal_spec in Ho as [Ho S1]. apply pair_equal_spec in Ho as [R1 R2].
  exists w, pr, evs, w'. split; [exact Hs|]. split; [exact (ready_check_ok again_w w (ran_cg_ok _ w pr evs cli_good Hs) R1)|].
  split; [exact (settle_known_ok w R2)|]. split; [exact (settle_times_syncs 5 w w' E)|]. split; [exact S1|exact S2].
Qed.
