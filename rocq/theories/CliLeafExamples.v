(** Wallets whose leaves are beyond C81 and C82. *)
From Verif Require PlanExamples.
From Verif Require Export CliExamples CliPayProofs.
Local Open Scope N_scope.
Local Existing Instances ex_env PlanExamples.toy_env kcs_codec.

(** ** Descriptors with one leaf and an internal key of nobody *)
Definition odd_env (leaf : N → PlanModel.term) : CliEnv := {|
  desc_at d i := PlanModel.DTr (PlanModel.mkTr (PlanModel.Single None 99) (Some (PlanModel.TapLeaf (leaf d))));
  dust_value _ := 294;
  script_len _ := 34;
  has_address _ := true;
  ctx_txid t := 1000 + match ct_out t with o :: _ => txo_value o | [] => 0 end;
  ctx_rest _ := 0;
  sighash_key _ _ _ := Some 5;
  sighash_leaf _ _ _ _ := Some 5
|}.
Definition odd_key (d i : N) : PlanModel.DescKey := PlanModel.XPub None 7 [d; i] 0.
(** and_v(v:pk_h(A), 1) *)
Definition pkh_leaf (d : N) : PlanModel.term := PlanModel.TAndV (PlanModel.TVerify (PlanModel.TCheck (PlanModel.TPkH (odd_key d 0)))) PlanModel.TTrue.
(** and_v(v:pk(A), pk(B)) *)
Definition both_leaf (d : N) : PlanModel.term :=
  PlanModel.TAndV (PlanModel.TVerify (PlanModel.TCheck (PlanModel.TPkK (odd_key d 0)))) (PlanModel.TCheck (PlanModel.TPkK (odd_key d 1))).

Section odd.
Context (leaf : N → PlanModel.term).
Notation E := (odd_env leaf).
Local Existing Instance odd_env | 0.
Definition odd_obs :=
  match found E with
  | Some (w, _, _) =>
      let utxos := full_utxos (exho (cg_graph (tr_cg (w_tracker w)))) (w_tracker w) in
      match create_tx (H0 := E) true cli_ch cli_km (w_tracker w) 40000 7 LargestFirst with
      | Ret (_, Ok (t, c)) => Some ((λ kf, (kf.1, value_of kf)) <$> utxos, ci_witness <$> ct_in t, txo_value <$> ct_out t, ctx_weight (H0 := E) t, ct_lock_time t)
      | _ => None
      end
  | None => None
  end.
Lemma odd_ok ws outs wt lt : odd_obs = Some ([(External, 0, 100000)], ws, outs, wt, lt) →
  (∀ k d i p n, keychains 1 (Some 3) k = Some d → plans (H0 := E) cli_ch d i p → PlanModel.expected_weight p = Ret n → n ≤ 300) →
  ∃ w pr evs x' t change, in_session (H0 := E) kcs_wf cliW true 10 1 (Some 3) cli_km w pr evs ∧
    modest_wallet (H0 := E) 1 (Some 3) cli_ch (w_tracker w) 40000 7 ∧
    create_tx (H0 := E) true cli_ch cli_km (w_tracker w) 40000 7 LargestFirst = Ret (x', Ok (t, change)) ∧
    ci_witness <$> ct_in t = ws ∧ txo_value <$> ct_out t = outs ∧ ctx_weight (H0 := E) t = wt ∧ ct_lock_time t = lt ∧
    ∀ ki f, unspent (w_tracker w) ki f → ki = (External, 0) ∧ txo_value (fto_txout f) = 100000.
Proof.
  unfold odd_obs. destruct (found E) as [[[w pr] evs]|] eqn:Ef; [|intros Ho; discriminate Ho].
  destruct (create_tx _ _ _ _ _ _ _) as [[x' [[t c]|]]|] eqn:Ec; [|intros Ho; discriminate Ho..]. intros Ho Hp. injection Ho as H1 H2 H3 H4 H5.
  pose proof (found_session E w pr evs Ef) as Hs. clear Ef.
  destruct (session_good (H0 := E) kcs_wf kcs_codec_ok kcs_range_default cliW true 10 1 (Some 3) cli_km cli_good w pr evs Hs) as [Hg _].
  exists w, pr, evs, x', t, c. split; [exact Hs|]. split.
  { assert (value_of <$> full_utxos (exho (cg_graph (tr_cg (w_tracker w)))) (w_tracker w) = [100000]) as Hv.
    { apply (f_equal (fmap snd)) in H1. rewrite <-list_fmap_compose in H1. exact H1. }
    pose proof (f_equal length Hv) as Hl. rewrite fmap_length in Hl. unfold modest_wallet. cbn [ch_hash cli_ch]. rewrite Hv, Hl.
    split; [vm_compute; discriminate|]. split; [vm_compute; discriminate|]. split; [vm_compute; discriminate|].
    split. { intros k d _. split; [vm_compute; discriminate|]. intros i s _. vm_compute. discriminate. }
    exists 300. split; [vm_compute; discriminate|]. split; [vm_compute; discriminate|]. exact Hp. }
  split; [exact Ec|]. split; [exact H2|]. split; [exact H3|]. split; [exact H4|]. split; [exact H5|]. clear Ec.
  intros ki f Hu. assert ((ki, f) ∈ full_utxos (exho (cg_graph (tr_cg (w_tracker w)))) (w_tracker w)) as Hin.
  { apply (utxos_unspent cliW 1 (Some 3) cli_ch (w_tracker w) (ki, f)); [exact Hg|intros g; apply exho_ok|exact Hu]. }
  apply (elem_of_list_fmap_1 (λ kf, (kf.1, value_of kf))) in Hin. rewrite H1 in Hin. apply elem_of_list_singleton in Hin. injection Hin as E1 E2. split; [exact E1|exact E2].
Qed.
(** Its only input spends what was found. *)
Lemma odd_sel w pr evs t sel wit : in_session (H0 := E) kcs_wf cliW true 10 1 (Some 3) cli_km w pr evs →
  (∀ ki f, unspent (w_tracker w) ki f → ki = (External, 0) ∧ txo_value (fto_txout f) = 100000) →
  ci_witness <$> ct_in t = [wit] → spends (w_tracker w) t sel →
  ∃ i f, ct_in t = [i] ∧ ci_witness i = wit ∧ sel = [(External, 0, f)] ∧ txo_value (fto_txout f) = 100000.
Proof.
  intros _ Hu Hw (Hin & _ & Hsel). destruct (ct_in t) as [|i [|]]; try done. injection Hw as Hw.
  destruct sel as [|[ki f] [|]]; try done. destruct (Hu ki f (Hsel ki f ltac:(left))) as [-> Hv]. by exists i, f.
Qed.
End odd.

(** ** A fee below the rate, for a [pk_h] *)
Lemma pkh_plan_weight k d i p n : keychains 1 (Some 3) k = Some d → plans (H0 := odd_env pkh_leaf) cli_ch d i p → PlanModel.expected_weight p = Ret n → n ≤ 300.
Proof. intros [->| ->]%cli_keychains Hp Hn; unfold plans in Hp; vm_compute in Hp; injection Hp as <-; vm_compute in Hn; injection Hn as <-; done. Qed.
Lemma both_plan_weight k d i p n : keychains 1 (Some 3) k = Some d → plans (H0 := odd_env both_leaf) cli_ch d i p → PlanModel.expected_weight p = Ret n → n ≤ 300.
Proof. intros [->| ->]%cli_keychains Hp Hn; unfold plans in Hp; vm_compute in Hp; injection Hp as <-; vm_compute in Hn; injection Hn as <-; done. Qed.

Lemma pkh_cheap : ∃ w pr evs x' t change, in_session (H0 := odd_env pkh_leaf) kcs_wf cliW true 10 1 (Some 3) cli_km w pr evs ∧
  modest_wallet (H0 := odd_env pkh_leaf) 1 (Some 3) cli_ch (w_tracker w) 40000 7 ∧
  create_tx (H0 := odd_env pkh_leaf) true cli_ch cli_km (w_tracker w) 40000 7 LargestFirst = Ret (x', Ok (t, change)) ∧
  (ctx_weight (H0 := odd_env pkh_leaf) t ≤ 4000000)%Z ∧
  ∀ fee, pays_fee (w_tracker w) t fee → (2 * Z.of_N fee < ctx_weight (H0 := odd_env pkh_leaf) t)%Z.
Proof.
  assert (∃ wit lt, odd_obs pkh_leaf = Some ([(External, 0, 100000)], [wit], [40000; 59645], 711%Z, lt)) as (wit & lt & Ho)
    by (vm_compute; by eexists _, _).
  destruct (odd_ok pkh_leaf _ _ _ _ Ho pkh_plan_weight) as (w & pr & evs & x' & t & c & Hs & Hm & Hc & Hwit & Hout & Hwt & _ & Hu).
  exists w, pr, evs, x', t, c. split; [exact Hs|]. split; [exact Hm|]. split; [exact Hc|]. rewrite Hwt. split; [done|].
  intros fee (sel & Hsp & Hsum). destruct (odd_sel pkh_leaf w pr evs t sel wit Hs Hu Hwit Hsp) as (i & f & _ & _ & -> & Hv).
  rewrite Hout in Hsum. unfold value_of in Hsum. cbn [fmap list_fmap snd sumN foldr] in Hsum. rewrite Hv in Hsum. unfold sumN in Hsum. cbn in Hsum. lia.
Qed.

(** ** Witnesses that do not satisfy the leaf *)
Definition odd_bad (leaf : N → PlanModel.term) (w : list (list N)) (lt : N) : bool :=
  bool_decide (length w ≠ 1%nat) &&
  negb (ScriptSpec.satisfiesb (leaf_ctx cli_valid (mkCtx 2 lt [] []) 4294967293 (Some 5)) (PlanModel.encode (leaf 1)) (take (length w - 2) w)).
Lemma odd_unsigned leaf outs wt wit lt : odd_obs leaf = Some ([(External, 0, 100000)], [wit], outs, wt, lt) → odd_bad leaf wit lt = true →
  (∀ k d i p n, keychains 1 (Some 3) k = Some d → plans (H0 := odd_env leaf) cli_ch d i p → PlanModel.expected_weight p = Ret n → n ≤ 300) →
  ∃ w pr evs x' t change, in_session (H0 := odd_env leaf) kcs_wf cliW true 10 1 (Some 3) cli_km w pr evs ∧
  modest_wallet (H0 := odd_env leaf) 1 (Some 3) cli_ch (w_tracker w) 40000 7 ∧
  create_tx (H0 := odd_env leaf) true cli_ch cli_km (w_tracker w) 40000 7 LargestFirst = Ret (x', Ok (t, change)) ∧
  ∀ sel, spends (w_tracker w) t sel → ∃ i ki f, ct_in t = [i] ∧ sel = [(ki, f)] ∧
    ∀ d tr, keychains 1 (Some 3) ki.1 = Some d → desc_at (CliEnv := odd_env leaf) d ki.2 = PlanModel.DTr tr →
      ¬ input_signed (H0 := odd_env leaf) PlanExamples.toy_ring cli_valid t ((λ kf, fto_txout kf.2) <$> sel) 0 tr i.
Proof.
  intros Ho Hbad Hpw. destruct (odd_ok leaf _ _ _ _ Ho Hpw) as (w & pr & evs & x' & t & c & Hs & Hm & Hc & Hwit & Hout & Hwt & Hlt & Hu).
  destruct (session_good (H0 := odd_env leaf) kcs_wf kcs_codec_ok kcs_range_default cliW true 10 1 (Some 3) cli_km cli_good w pr evs Hs) as [Hg _].
  destruct (create_tx_ok (H0 := odd_env leaf) cliW true 1 (Some 3) cli_km cli_good cli_ch (w_tracker w) 40000 7 LargestFirst x' t c Hg cli_choices_ok Hm Hc)
    as (_ & Hver & _ & Hseq & _).
  exists w, pr, evs, x', t, c. split; [exact Hs|]. split; [exact Hm|]. split; [exact Hc|].
  intros sel Hsp. destruct (odd_sel leaf w pr evs t sel wit Hs Hu Hwit Hsp) as (i & f & Hi & Hw & -> & _).
  exists i, (External, 0), f. split; [exact Hi|]. split; [reflexivity|]. intros d tr [= <-] [= <-].
  apply andb_true_iff in Hbad as [Hl Hn]. apply bool_decide_eq_true in Hl. apply negb_true_iff in Hn.
  intros [(sk & msg & _ & _ & E1)|(lf & args & cb & Hlf & E1 & _ & Hsat)].
  - rewrite Hw in E1. rewrite E1 in Hl. exact (Hl eq_refl).
  - cbn in Hlf. apply elem_of_list_singleton in Hlf as ->. rewrite Hw in E1. rewrite E1 in Hn.
    rewrite app_length in Hn. cbn [length] in Hn. rewrite Nat.add_sub, take_app in Hn.
    apply PlanExamples.not_satisfies in Hn. apply Hn. clear -Hsat Hver Hseq Hlt Hi.
    unfold leaf_ctx in *. cbn [ct_version ct_lock_time]. rewrite Hver, Hlt, (Hseq i) in Hsat by (rewrite Hi; left). exact Hsat.
Qed.
Lemma odd_keys_honest leaf : leaf = pkh_leaf ∨ leaf = both_leaf → honest_keys (H0 := odd_env leaf) PlanExamples.toy_ring 1 (Some 3) cli_ch.
Proof.
  intros Hl k d i p r key Hd Hp Hr Hk. destruct Hl as [-> | ->]; apply cli_keychains in Hd as [->| ->]; unfold plans in Hp;
    vm_compute in Hp; injection Hp as <-; vm_compute in Hr; injection Hr as <-; cbn in Hk;
    repeat (apply elem_of_cons in Hk as [->|Hk]; [done|]); by apply elem_of_nil in Hk.
Qed.
Lemma pkh_unsigned : ∃ w pr evs x' t change, in_session (H0 := odd_env pkh_leaf) kcs_wf cliW true 10 1 (Some 3) cli_km w pr evs ∧
  modest_wallet (H0 := odd_env pkh_leaf) 1 (Some 3) cli_ch (w_tracker w) 40000 7 ∧
  create_tx (H0 := odd_env pkh_leaf) true cli_ch cli_km (w_tracker w) 40000 7 LargestFirst = Ret (x', Ok (t, change)) ∧
  ∀ sel, spends (w_tracker w) t sel → ∃ i ki f, ct_in t = [i] ∧ sel = [(ki, f)] ∧
    ∀ d tr, keychains 1 (Some 3) ki.1 = Some d → desc_at (CliEnv := odd_env pkh_leaf) d ki.2 = PlanModel.DTr tr →
      ¬ input_signed (H0 := odd_env pkh_leaf) PlanExamples.toy_ring cli_valid t ((λ kf, fto_txout kf.2) <$> sel) 0 tr i.
Proof.
  assert (∃ wit lt, odd_obs pkh_leaf = Some ([(External, 0, 100000)], [wit], [40000; 59645], 711%Z, lt) ∧ odd_bad pkh_leaf wit lt = true) as (wit & lt & Ho & Hb)
    by (eexists _, _; split; vm_compute; reflexivity).
  exact (odd_unsigned _ _ _ _ _ Ho Hb pkh_plan_weight).
Qed.
Lemma both_unsigned : ∃ w pr evs x' t change, in_session (H0 := odd_env both_leaf) kcs_wf cliW true 10 1 (Some 3) cli_km w pr evs ∧
  modest_wallet (H0 := odd_env both_leaf) 1 (Some 3) cli_ch (w_tracker w) 40000 7 ∧
  create_tx (H0 := odd_env both_leaf) true cli_ch cli_km (w_tracker w) 40000 7 LargestFirst = Ret (x', Ok (t, change)) ∧
  ∀ sel, spends (w_tracker w) t sel → ∃ i ki f, ct_in t = [i] ∧ sel = [(ki, f)] ∧
    ∀ d tr, keychains 1 (Some 3) ki.1 = Some d → desc_at (CliEnv := odd_env both_leaf) d ki.2 = PlanModel.DTr tr →
      ¬ input_signed (H0 := odd_env both_leaf) PlanExamples.toy_ring cli_valid t ((λ kf, fto_txout kf.2) <$> sel) 0 tr i.
Proof.
  assert (∃ wit lt, odd_obs both_leaf = Some ([(External, 0, 100000)], [wit], [40000; 59608], 784%Z, lt) ∧ odd_bad both_leaf wit lt = true) as (wit & lt & Ho & Hb)
    by (eexists _, _; split; vm_compute; reflexivity).
  exact (odd_unsigned _ _ _ _ _ Ho Hb both_plan_weight).
Qed.
