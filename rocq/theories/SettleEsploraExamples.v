(** Five esplora synchronisations of a wallet (C115). *)
From Verif Require Export SettleEsploraProofs SettleExamples CliEsploraExamples.
Local Open Scope N_scope.
Local Existing Instances ex_env cli_env PlanExamples.toy_env kcs_codec.

Definition et_w : ScanSpec.World := list_world 120 cs_block again_l.
Lemma et_sound : ct_sound 120 again_l.
Proof. apply ct_sound_ok. by vm_compute. Qed.
Fixpoint et_times (n : nat) (w : CliModel.World ConfirmationTime) : option (CliModel.World ConfirmationTime) :=
  match n with
  | O => Some w
  | S n => match ct_run 120 again_l ct_default w with Done _ (w', _, Ok _) => et_times n w' | _ => None end
  end.
Lemma et_times_again n : ∀ w w', et_times n w = Some w' → esplora_again et_w rs_time (keychains 1 (Some 3)) ct_default n w w'.
Proof.
  induction n as [|n IH]; intros w w' E; cbn [et_times] in E; [injection E as ->; apply esyncs_none|].
  destruct (ct_run 120 again_l ct_default w) as [j [[w1 evs1] [[]|]]| | |] eqn:E1; try discriminate E. unfold ct_run in E1.
  destruct et_sound as (_ & _ & _ & Hsrv & Hpages).
  exact (esyncs_more et_w rs_time _ ct_default n w w1 w' _ 0 ct_ch ct_po 2 0 j evs1 (λ _, Hsrv) (λ _ _ _ sp _ _, Hpages sp) exho_ok (λ _, Permutation_refl _) E1 (IH w1 w' E)).
Qed.
Definition et_known (w : CliModel.World ConfirmationTime) : bool :=
  forallb (λ e : Txid * ConfirmationTime, match w_tx et_w e.1 with Some _ => true | None => false end) (map_to_list (sc_pos (cg_chain (tr_cg (w_tracker w))))).
Lemma et_known_ok w : et_known w = true → all_known et_w (w_tracker w).
Proof.
  intros Hk t [p Hp]. unfold et_known in Hk. rewrite forallb_forall in Hk. specialize (Hk (t, p)). cbn [fst] in Hk.
  destruct (w_tx et_w t); [done|]. discriminate Hk. by apply elem_of_list_In, elem_of_map_to_list.
Qed.
Definition et_shown := (option N * list (Keychain * N * (N * N) * N * ConfirmationTime * option N))%type.
Definition et_shown1 : et_shown :=
  (Some 120, [(External, 0, (21, 0), 100000, CtConfirmed 105 1600063000, Some 41000); (External, 0, (41000, 1), 59000, CtConfirmed 112 1600067200, None)]).
Definition et_shown5 : et_shown :=
  (Some 120, [(External, 0, (21, 0), 100000, CtConfirmed 105 1600063000, Some 41000); (External, 0, (21000, 1), 500, CtConfirmed 115 1600069000, None);
    (External, 0, (41000, 1), 59000, CtConfirmed 112 1600067200, Some 21000)]).
Definition et_obs :=
  match ct_ran with
  | Some (w, _, _) =>
      match ct_run 110 ct_l1 ct_default w with
      | Done _ (w', evs', Ok _) =>
          match et_times 1 w', et_times 5 w' with
          | Some w1, Some w5 => Some (ct_ready 110 ct_l1 w, forallb ct_eventb evs', ct_ready 120 again_l w', et_known w', ct_show (w_tracker w'), ct_show (w_tracker w1), ct_show (w_tracker w5))
          | _, _ => None
          end
      | _ => None
      end
  | None => None
  end.
Lemma et_obs_eq : et_obs = Some (true, true, true, true, ct_shown1, et_shown1, et_shown5).
Proof. vm_compute. reflexivity. Qed.
Lemma et_found : ∃ w pr evs w1 w5, ct_session w pr evs ∧ ct_ok 120 again_l w ∧ all_known et_w (w_tracker w) ∧
  esplora_again et_w rs_time (keychains 1 (Some 3)) ct_default 1 w w1 ∧ esplora_again et_w rs_time (keychains 1 (Some 3)) ct_default 5 w w5 ∧
  ct_show (w_tracker w) = ct_shown1 ∧ ct_show (w_tracker w1) = et_shown1 ∧ ct_show (w_tracker w5) = et_shown5.
Proof.
  pose proof et_obs_eq as Ho. unfold et_obs in Ho. destruct ct_ran as [[[w0 pr] evs]|] eqn:Er; [|discriminate Ho]. apply ct_ran_session in Er as Hs.
  destruct (ct_run 110 ct_l1 ct_default w0) as [n [[w evs1] [[]|]]| | |] eqn:E; try discriminate Ho.
  destruct (et_times 1 w) as [w1|] eqn:E1; [|discriminate Ho]. destruct (et_times 5 w) as [w5|] eqn:E5; [|discriminate Ho].
  apply (inj Some), pair_equal_spec in Ho as [Ho H7]. apply pair_equal_spec in Ho as [Ho H6]. apply pair_equal_spec in Ho as [Ho H5]. apply pair_equal_spec in Ho as [Ho H4].
  apply pair_equal_spec in Ho as [Ho H3]. apply pair_equal_spec in Ho as [Hr He].
  apply ct_ready_ok in Hr. exists w, pr, (evs ++ evs1), w1, w5.
  split; [|split; [by apply ct_ready_ok|]; split; [by apply et_known_ok|]; split; [by apply et_times_again|]; split; [by apply et_times_again|done]].
  destruct (ct_sound_ok 110 ct_l1) as (S1 & S2 & S3 & S4 & S5); [by vm_compute|].
  destruct (esplora_sync_command kcs_wf kcs_codec_ok kcs_range_default cliW true 10 1 (Some 3) cli_km cli_good ct_w1 rs_time S1 S2 S3 rs_time_ok w0 pr evs
    (λ _, esplora ct_w1 rs_time (list_ids ct_l1)) 0 ct_ch ct_po ct_default 2 Hs (fit_for_seen _ _ _ _ (co_fit _ _ _ Hr)) cli_addresses (λ _ sp _, S5 sp) (λ _, S4) exho_ok ltac:(done)
    ltac:(by rewrite (co_faults _ _ _ Hr)) 0%nat) as (n' & r & E' & w' & evs' & -> & _ & Hses).
  assert (Done n (w, evs1, Ok ()) = Done n' (w', evs', Ok ())) as Eq by (by rewrite <- E, <- E'). injection Eq as -> -> ->.
  apply Hses. eapply forallb_ok; [|exact He]. intros ev Hev. by apply ct_eventb_ok.
Qed.
Lemma et_scanned : ct_sound 120 ct_l4 ∧ pages_fit ct_w4 (keychains 1 (Some 3)) 0 ∧ no_further 5 2 3 2 ∧
  ∃ w pr evs n w' evs', ct_session w pr evs ∧ ct_ok 120 ct_l4 w ∧
    esplora_scan_cmd (λ _, esplora ct_w4 rs_time (list_ids ct_l4)) 1 ct_ch ct_po 5 2 w 0%nat = Done n (w', evs', Ok tt) ∧
    ct_show (w_tracker w) = ct_shown1 ∧ tip_is (w_tracker w') 120.
Proof.
  assert (ct_sound 120 ct_l4) as Hsound by (apply ct_sound_ok; by vm_compute). split; [exact Hsound|]. destruct Hsound as (S1 & S2 & S3 & S4 & S5).
  split; [exact (λ _ _ _ sp _ _, S5 sp)|]. split; [right; by vm_compute|].
  destruct ct_example as (w0 & pr & evs & n & w & evs1 & _ & _ & _ & Hw & Hs & _ & _ & Hok). exists w, pr, (evs ++ evs1).
  destruct (esplora_scan_command kcs_wf kcs_codec_ok kcs_range_default cliW true 10 1 (Some 3) cli_km cli_good ct_w4 rs_time S1 S2 S3 rs_time_ok w pr (evs ++ evs1)
    (λ _, esplora ct_w4 rs_time (list_ids ct_l4)) 0 ct_ch ct_po 5 2 Hs (fit_for_seen _ _ _ _ (co_fit _ _ _ Hok)) (λ _ _ _ sp _ _, S5 sp) (λ _, S4) exho_ok ltac:(done)
    ltac:(by rewrite (co_faults _ _ _ Hok)) 0%nat) as (n' & r & E & w' & evs' & -> & Hc & _).
  exists n', w', evs'. split; [exact Hs|]. split; [exact Hok|]. split; [exact E|]. split; [exact Hw|]. exact (proj1 Hc).
Qed.
