(** Sessions and a world for C114. *)
From Verif Require Import ConformGraph.
From Verif Require Export AgainCliProofs CliSyncExamples.
Local Open Scope N_scope.
Local Existing Instances ex_env cli_env PlanExamples.toy_env kcs_codec.

(** Another copy of the wallet has sent the output of 21 on, with the change to the address it came from, and has sent the change on in the same way. *)
Definition again_on : Tx := mkTx 41000 [mkOutPoint 21 0] [mkTxOut 40000 7; mkTxOut 59000 (exs 1 0)] 0.
Definition again_off : Tx := mkTx 21000 [mkOutPoint 41000 1] [mkTxOut 58000 8; mkTxOut 500 (exs 1 0)] 0.
Definition again_l : list (Tx * option N) := [(cs90, Some 10); (cliA, Some 105); (again_on, Some 112); (again_off, Some 115)].
Definition again_w : ScanSpec.World := cs_world again_l.
Definition again_sync (w : CliModel.World TxHeight) := electrum_sync true (λ _, ScanExamples.honest again_w) 2 cli_ch cs_po CliSyncExamples.cs_default 2 w 0%nat.
(** keychain/tracker.rs:21: that two trackers are the same can be computed. *)
Local Instance again_spk_index_dec : EqDecision (SpkIndex (Keychain * N)).
Proof. solve_decision. Defined.
Local Instance again_index_dec : EqDecision (KIndex Keychain).
Proof. solve_decision. Defined.
Local Instance again_tracker_dec : EqDecision (Tracker Keychain TxHeight).
Proof. solve_decision. Defined.
Definition again_obs (w : CliModel.World TxHeight) (pr : prepared) (evs : list (event TxHeight)) :=
  match again_sync w with
  | Done _ (w', evs', Ok _) =>
      match again_sync w' with
      | Done _ (w2, evs2, Ok _) =>
          match again_sync w2 with
          | Done _ (w3, evs3, Ok _) =>
              Some (ready_check again_w w && forallb (event_okb cliW) evs', ready_check again_w w' && forallb (event_okb cliW) evs2,
                ready_check again_w w2, bool_decide (w_tracker w3 = w_tracker w2), cs_show (w_tracker w'), cs_show (w_tracker w2))
          | _ => None
          end
      | _ => None
      end
  | _ => None
  end.
Definition again_first : option N * list (Keychain * N * (N * N) * N * TxHeight * option N) :=
  (Some 120, [(External, 0, (21, 0), 100000, Confirmed 105, Some 41000); (External, 0, (41000, 1), 59000, Confirmed 112, None)]).
Definition again_second : option N * list (Keychain * N * (N * N) * N * TxHeight * option N) :=
  (Some 120, [(External, 0, (21, 0), 100000, Confirmed 105, Some 41000); (External, 0, (21000, 1), 500, Confirmed 115, None);
    (External, 0, (41000, 1), 59000, Confirmed 112, Some 21000)]).
Lemma again_sound : cs_sound again_w.
Proof. apply cs_sound_ok. by vm_compute. Qed.
Lemma again_snoc w pr evs n w' evs' : in_session kcs_wf cliW true 10 1 (Some 3) cli_km w pr evs → ready_check again_w w && forallb (event_okb cliW) evs' = true →
  again_sync w = Done n (w', evs', Ok tt) → cs_ready again_w w ∧ Forall (event_ok kcs_wf cliW) evs' ∧ in_session kcs_wf cliW true 10 1 (Some 3) cli_km w' pr (evs ++ evs').
Proof.
  intros Hs [Hr He]%andb_prop E. pose proof (ready_check_ok again_w w (ran_cg_ok _ w pr evs cli_good Hs) Hr) as Hready. split; [exact Hready|].
  assert (Forall (event_ok kcs_wf cliW) evs') as Hev by (eapply forallb_ok; [|exact He]; intros ev Hev; by apply event_okb_ok). split; [exact Hev|].
  destruct again_sound as (Hw & Hsane & Htx & Hsrv). destruct Hready as [Hfit _ Hknown Hf].
  destruct (sync_command kcs_wf kcs_codec_ok kcs_range_default cliW true 10 1 (Some 3) cli_km cli_good again_w Hw Hsane Htx w pr evs (λ _, ScanExamples.honest again_w) 1 cli_ch cs_po
    CliSyncExamples.cs_default 2 Hs (fit_for_seen _ _ _ _ Hfit) (λ _, Hknown) cli_addresses (λ _, Hsrv) exho_ok cs_po_ok ltac:(lia) ltac:(rewrite Hf; done) 0%nat)
    as (n2 & r & E2 & w2 & evs2 & -> & _ & Hsn).
  unfold again_sync in E. rewrite E in E2. injection E2 as _ <- <-. by apply Hsn.
Qed.
Lemma again_found : ∃ w pr evs n w' evs' n2 w2 evs2 n3 w3 evs3, in_session kcs_wf cliW true 10 1 (Some 3) cli_km w pr evs ∧ cs_ready again_w w ∧
  again_sync w = Done n (w', evs', Ok tt) ∧ cs_show (w_tracker w') = again_first ∧
  in_session kcs_wf cliW true 10 1 (Some 3) cli_km w' pr (evs ++ evs') ∧ cs_ready again_w w' ∧
  again_sync w' = Done n2 (w2, evs2, Ok tt) ∧ cs_show (w_tracker w2) = again_second ∧
  in_session kcs_wf cliW true 10 1 (Some 3) cli_km w2 pr ((evs ++ evs') ++ evs2) ∧ cs_ready again_w w2 ∧
  again_sync w2 = Done n3 (w3, evs3, Ok tt) ∧ w_tracker w3 = w_tracker w2.
Proof.
  destruct (ran_obs (Some 3) cli_found again_obs (true, true, true, true, again_first, again_second)) as (w & pr & evs & Hs & Ho).
  { rewrite <- (app_nil_r cli_found). apply found_acts. constructor. }
  { vm_compute. reflexivity. }
  unfold again_obs in Ho.
  destruct (again_sync w) as [n [[w' evs'] [[]|]]| | |] eqn:E; try discriminate Ho.
  destruct (again_sync w') as [n2 [[w2 evs2] [[]|]]| | |] eqn:E2; try discriminate Ho.
  destruct (again_sync w2) as [n3 [[w3 evs3] [[]|]]| | |] eqn:E3; try discriminate Ho.
  apply (inj Some), pair_equal_spec in Ho as [Ho S2]. apply pair_equal_spec in Ho as [Ho S1]. apply pair_equal_spec in Ho as [Ho S3]. apply pair_equal_spec in Ho as [Ho R3].
  apply pair_equal_spec in Ho as [R1 R2]. apply bool_decide_eq_true in S3.
  destruct (again_snoc w pr evs n w' evs' Hs R1 E) as (G1 & _ & Hs'). destruct (again_snoc w' pr _ n2 w2 evs2 Hs' R2 E2) as (G2 & _ & Hs2).
  pose proof (ready_check_ok again_w w2 (ran_cg_ok _ w2 pr _ cli_good Hs2) R3) as G3.
  exists w, pr, evs, n, w', evs', n2, w2, evs2, n3, w3, evs3. by split_and!.
Qed.
Lemma again_scanned : good_env (keychains 1 (Some 3)) ∧ cs_sound (cs_w 1 7) ∧ hash_fun_ok (ch_hash cli_ch) ∧ (∀ c, cs_po c ≡ₚ map_to_list (sc_pos c)) ∧
  ∃ w pr evs n w' evs', in_session kcs_wf cliW true 10 1 (Some 3) cli_km w pr evs ∧ fit_for (cs_w 1 7) (w_position (cs_w 1 7)) (w_tracker w) ∧
    electrum_scan true (λ _, ScanExamples.honest (cs_w 1 7)) 1 cli_ch cs_po 2 2 w 0%nat = Done n (w', evs', Ok tt) ∧
    cs_show (w_tracker w) = (Some 110, [(External, 0, (21, 0), 100000, Confirmed 105, None)]) ∧
    tip_is (w_tracker w') 120.
Proof.
  split; [exact cli_good|]. assert (cs_sound (cs_w 1 7)) as Hs by (apply cs_sound_ok; by vm_compute). split; [exact Hs|]. split; [exact exho_ok|]. split; [exact cs_po_ok|].
  destruct Hs as (Hw & Hsane & Htx & Hsrv). destruct cs_scan_ready as (w & pr & evs & Hs & Hfit & Hix & Hf & Hshow).
  destruct (scan_command kcs_wf kcs_codec_ok kcs_range_default cliW true 10 1 (Some 3) cli_km cli_good (cs_w 1 7) Hw Hsane Htx w pr evs (λ _, ScanExamples.honest (cs_w 1 7)) 0 cli_ch cs_po 2 2 Hs
    (fit_for_seen _ _ _ _ Hfit) (λ _, Hsrv) exho_ok cs_po_ok ltac:(lia) ltac:(rewrite Hf; done) 0%nat) as (n & r & E & w' & evs' & -> & Hc & _).
  exists w, pr, evs, n, w', evs'. split; [exact Hs|]. split; [exact Hfit|]. split; [exact E|]. split; [exact Hshow|]. exact (proj1 Hc).
Qed.
