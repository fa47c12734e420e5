(** Proofs about the command line wallet: the weight and the fee of the transactions it makes. *)
From Verif Require PlanProofs3.
From Verif Require Export CliProofs4.
Local Open Scope N_scope.
Import CoinSelectSpec (Zsum, bip141_weight, has_witness, tx_input, mkTI, ti_witness, ti_script, bytes_len, compact_len).

Lemma Zsum_nonneg {A} (f : A → Z) l : (∀ a, a ∈ l → 0 ≤ f a)%Z → (0 ≤ Zsum (f <$> l))%Z ∧ ∀ a, a ∈ l → (f a ≤ Zsum (f <$> l))%Z.
Proof.
  intros Hf. induction l as [|b l IH]; [split; [done|by intros a ?%elem_of_nil]|]. rewrite fmap_cons. unfold Zsum in *. cbn [foldr].
  destruct IH as [I1 I2]; [intros; apply Hf; by right|]. pose proof (Hf b ltac:(by left)). split; [lia|].
  intros a [->|Ha]%elem_of_cons; [lia|]. specialize (I2 a Ha). lia.
Qed.
Lemma compact_pos v : (1 ≤ compact_len v)%Z.
Proof. unfold compact_len. repeat (destruct (_ <? _)%Z); lia. Qed.
Lemma witness_size_ge (w : list (list N)) : (Z.of_nat (length w) ≤ CoinSelectSpec.witness_size (CliPlanProofs.input_of w))%Z ∧
  (∀ e, e ∈ w → (Z.of_nat (length e) ≤ CoinSelectSpec.witness_size (CliPlanProofs.input_of w))%Z) ∧ (0 ≤ CoinSelectSpec.witness_size (CliPlanProofs.input_of w))%Z.
Proof.
  unfold CoinSelectSpec.witness_size, CliPlanProofs.input_of. cbn [ti_witness].
  pose proof (compact_pos (Z.of_nat (length ((λ e : list N, Z.of_nat (length e)) <$> w)))) as Hc.
  rewrite <-list_fmap_compose.
  destruct (Zsum_nonneg (bytes_len ∘ (λ e : list N, Z.of_nat (length e))) w) as [H0 H1].
  { intros a _. cbn. unfold bytes_len. pose proof (compact_pos (Z.of_nat (length a))). lia. }
  assert (Z.of_nat (length w) ≤ Zsum ((bytes_len ∘ (λ e : list N, Z.of_nat (length e))) <$> w))%Z as Hl.
  { clear. induction w as [|e w IH]; [done|]. rewrite fmap_cons. unfold Zsum in *. cbn [foldr length]. unfold compose at 1, bytes_len at 1.
    pose proof (compact_pos (Z.of_nat (length e))). lia. }
  split; [lia|]. split; [|lia]. intros e He. specialize (H1 e He). unfold compose at 1, bytes_len at 1 in H1.
  pose proof (compact_pos (Z.of_nat (length e))). lia.
Qed.
(** Lengths are below the weight. *)
Lemma weight_bounds (ws : list (list (list N))) outs : Forall (λ w, w ≠ []) ws → Forall (λ o : Z * Z, (0 ≤ o.2)%Z) outs →
  let W := bip141_weight (CliPlanProofs.input_of <$> ws) outs in
  (∀ w, w ∈ ws → (Z.of_nat (length w) ≤ W)%Z ∧ ∀ e, e ∈ w → (Z.of_nat (length e) ≤ W)%Z).
Proof.
  intros Hne Ho W w Hw.
  assert (existsb has_witness (CliPlanProofs.input_of <$> ws) = true) as Hex.
  { apply existsb_exists. exists (CliPlanProofs.input_of w). split; [apply elem_of_list_In, elem_of_list_fmap_1, Hw|].
    rewrite Forall_forall in Hne. specialize (Hne w Hw). by destruct w. }
  assert (CoinSelectSpec.witness_size (CliPlanProofs.input_of w) ≤ W)%Z as HW.
  { subst W. unfold bip141_weight. rewrite Hex.
    destruct (Zsum_nonneg (λ i, 36 + bytes_len (ti_script i) + 4)%Z (CliPlanProofs.input_of <$> ws)) as [H0 _].
    { intros a Ha. apply elem_of_list_fmap in Ha as (w' & -> & _). vm_compute. by intros. }
    destruct (Zsum_nonneg (λ o : Z * Z, 8 + bytes_len o.2)%Z outs) as [H1 _].
    { intros a Ha. rewrite Forall_forall in Ho. specialize (Ho a Ha). unfold bytes_len. pose proof (compact_pos a.2). lia. }
    destruct (Zsum_nonneg CoinSelectSpec.witness_size (CliPlanProofs.input_of <$> ws)) as [H2 H3].
    { intros a Ha. apply elem_of_list_fmap in Ha as (w' & -> & _). apply witness_size_ge. }
    specialize (H3 _ (elem_of_list_fmap_1 CliPlanProofs.input_of _ _ Hw)).
    pose proof (compact_pos (Z.of_nat (length (CliPlanProofs.input_of <$> ws)))). pose proof (compact_pos (Z.of_nat (length outs))). lia. }
  destruct (witness_size_ge w) as (H1 & H2 & _). split; [lia|]. intros e He. specialize (H2 e He). lia.
Qed.
Lemma weight_outs ins outs outs' : outs.*2 = outs'.*2 → bip141_weight ins outs = bip141_weight ins outs'.
Proof.
  intros E. unfold bip141_weight. assert (length outs = length outs') as El by (by rewrite <-(fmap_length snd outs), E, fmap_length).
  assert (∀ l : list (Z * Z), Zsum ((λ o : Z * Z, 8 + bytes_len o.2)%Z <$> l) = Zsum ((λ o : Z, 8 + bytes_len o)%Z <$> l.*2)) as Hl.
  { intros l. by rewrite <-list_fmap_compose. }
  by rewrite El, !Hl, E.
Qed.

Section weight.
Context `{!DescEnv, !CliEnv, !PlanModel.KeyEnv} `{ChainPositionLaws P} {C : Codec (KChangeSet Keychain P)}.
Context (W : Txid → list OutPoint) (dbg : bool) (ext : Desc) (int : option Desc) (km : PlanModel.KeyMap).
Notation A := (keychains ext int).
Context (HA : good_env A).
Implicit Types (x y : Tracker Keychain P) (ch : Choices P).
Notation good := (good W ext int).
Notation Plan := (PlanModel.Plan PlanModel.DescKey).
Notation cand := ((Keychain * N * FullTxOut P) * Plan)%type.
Notation made := (made dbg ext int km).
(** Signatures of 64 bytes, no [pk_h] in the leaves *)
Context `{!ScriptSpec.KeyLaws} (Hsig : ∀ sk m, length (PlanModel.schnorr_sign sk m) = 64%nat).
Context (Hpkh : ∀ k d i tr t, A k = Some d → desc_at d i = PlanModel.DTr tr → t ∈ PlanModel.iter_scripts tr → PlanSpec.no_pk_h t = true).

Lemma made_witnesses ch x value addr x' t change z s sn k es ws d i sp cp cw o :
  made ch x value addr x' t change z s sn k es ws d i sp cp cw o →
  Forall2 (λ e w, w ≠ [] ∧ (Forall (λ b : list N, PlanModel.blen b < 2 ^ 64) w → PlanModel.blen w < 2 ^ 64 →
    CoinSelectSpec.satisfaction_weight (CliPlanProofs.input_of w) = Z.of_N (wt e.2))) (sel_of z s) ws.
Proof using All.
  intros M. destruct (CliPlanProofs.sign_inputs_inv _ _ _ _ _ _ (md_sign _ _ _ _ _ _ _ _ _ _ _ _ _ _ _ _ _ _ _ _ _ _ _ M)) as [Hlen Hw]. rewrite !fmap_length in Hlen.
  apply Forall2_same_length_lookup. split; [done|]. intros j e w He Hwj.
  destruct (Hw j e.2) as (r & m & w' & Hw' & Hr & _ & Hsign & Hc); [by rewrite !list_lookup_fmap, He|].
  rewrite Hwj in Hw'. injection Hw' as <-.
  destruct (md_owned _ _ _ _ _ _ _ _ _ _ _ _ _ _ _ _ _ _ _ _ _ _ _ M e) as (_ & _ & Hew & d' & Hd' & Hp); [eapply sel_in; [exact M|by eapply elem_of_list_lookup_2]|].
  unfold plans in Hp. destruct (CliPlanProofs.planned_tr _ _ _ Hp) as [tr Htr]. rewrite Htr in Hp.
  split; [by eapply CliPlanProofs.complete_nonempty|].
  intros Hb1 Hb2. rewrite CliPlanProofs.input_weight by done. f_equal.
  rewrite (PlanProofs3.weight_exact tr _ _ m w _ Hp Hew Hc) by (done || by eapply CliPlanProofs.sign_sizes; [exact Hsig|apply CliPlanProofs.no_material_sizes|exact Hsign]).
  rewrite (PlanProofs3.no_pk_h_count tr _ _ Hp); [lia|]. intros t' Ht'. by eapply Hpkh.
Qed.
Lemma made_weight ch x value addr x' t change z s sn k es ws d i sp cp cw o :
  made ch x value addr x' t change z s sn k es ws d i sp cp cw o → (ctx_weight t ≤ 4000000)%Z →
  CoinSelectModel.es_weight es = ctx_weight t ∧
  (CoinSelectModel.es_drain es = None →
     CoinSelectSpec.tx_weight s true = ctx_weight (mkCtx (ct_version t) (ct_lock_time t) (ct_in t) (ct_out t ++ [mkTxOut 0 sp]))).
Proof using All.
  intros M Hmax. pose proof (made_witnesses _ _ _ _ _ _ _ _ _ _ _ _ _ _ _ _ _ _ _ M) as Hws.
  destruct (made_ins _ _ _ _ _ _ _ _ _ _ _ _ _ _ _ _ _ _ _ _ _ _ _ M) as (_ & _ & Hwit & Hlen). destruct (made_fee _ _ _ _ _ _ _ _ _ _ _ _ _ _ _ _ _ _ _ _ _ _ _ M) as (_ & _ & Hout & _).
  assert (∀ outs, bip141_weight ((λ i, mkTI 0 ((λ e : list N, Z.of_nat (length e)) <$> ci_witness i)) <$> ct_in t) outs
    = bip141_weight (CliPlanProofs.input_of <$> ws) outs) as Hin.
  { intros outs. f_equal. by rewrite <-Hwit, <-list_fmap_compose. }
  assert (Forall (λ w : list (list N), w ≠ []) ws) as Hne.
  { clear -Hws. induction Hws as [|e w l ws [Hw _] _ IH]; by constructor. }
  unfold ctx_weight in *. cbn [ct_in ct_out] in *. rewrite Hin in *. rewrite Hin.
  assert (∀ w, w ∈ ws → Forall (λ b : list N, PlanModel.blen b < 2 ^ 64) w ∧ PlanModel.blen w < 2 ^ 64) as Hb.
  { intros w Hw. destruct (weight_bounds ws ((λ o, (Z.of_N (txo_value o), Z.of_N (script_len (txo_spk o)))) <$> ct_out t) Hne) with (w := w) as [H1' H2'];
      [apply Forall_fmap, Forall_forall; intros ? _; cbn; lia|done|].
    assert ((2 ^ 64)%N = 18446744073709551616) as E64 by done.
    split; [apply Forall_forall; intros e He; specialize (H2' e He)|]; unfold PlanModel.blen; rewrite E64; lia. }
  set (ins := zip_with (λ (e : cand) w, (Z.of_N (value_of e.1), CliPlanProofs.input_of w)) (sel_of z s) ws).
  assert (ins.*2 = CliPlanProofs.input_of <$> ws) as Hins2.
  { subst ins. clear -Hlen. revert ws Hlen. induction (sel_of z s) as [|e l IH]; intros [|w ws] El; try done.
    cbn [zip_with fmap list_fmap snd]. f_equal. apply IH. by injection El. }
  assert (Forall2 (CoinSelectSpec.built dbg) ins (CoinSelectSpec.picked s)) as Hbuilt.
  { rewrite (picked_sel _ _ _ _ _ _ _ _ _ _ _ _ _ _ _ _ _ _ _ _ _ _ _ M). subst ins. pose proof (λ e, sel_in _ _ _ _ _ _ _ _ _ _ _ _ _ _ _ _ _ _ _ _ _ _ _ e M) as Hsel. 
    assert (∀ e, e ∈ sel_of z s → (160 + Z.of_N (wt e.2) ≤ 4294967295)%Z) as Hwt.
    { intros e He. apply Hsel in He. destruct (md_typed _ _ _ _ _ _ _ _ _ _ _ _ _ _ _ _ _ _ _ _ _ _ _ M) as (_ & Hok & _). rewrite (proj2 (md_cands _ _ _ _ _ _ _ _ _ _ _ _ _ _ _ _ _ _ _ _ _ _ _ M)) in Hok.
      rewrite Forall_forall in Hok. destruct (Hok (CliSelectProofs.wv_of (vw e))) as (_ & [_ Hu] & _); [by do 2 apply elem_of_list_fmap_1|]. exact Hu. }
    clear -Hws Hb Hwt. induction Hws as [|e w l ws [Hw Hsat] Hws IH]; [constructor|]. cbn [zip_with fmap list_fmap]. constructor.
    - destruct (Hb w ltac:(by left)) as [Hb1 Hb2]. specialize (Hsat Hb1 Hb2). pose proof (Hwt e ltac:(by left)) as He.
      unfold CoinSelectSpec.built. cbn [fst snd]. rewrite Hsat. assert (has_witness (CliPlanProofs.input_of w) = true) as -> by (by destruct w).
      assert (CoinSelectSpec.in_type MachineModel.U32 (CoinSelectModel.txin_base_weight + Z.of_N (wt e.2))) as Ht.
      { unfold CoinSelectSpec.in_type, CoinSelectModel.txin_base_weight. cbn [MachineModel.imin MachineModel.imax]. lia. }
      split; [|done]. unfold CoinSelectModel.wv_new. by rewrite CoinSelectProofs.fit_ret.
    - apply IH; intros; [apply Hb|apply Hwt]; by right. }
  destruct (md_opts _ _ _ _ _ _ _ _ _ _ _ _ _ _ _ _ _ _ _ _ _ _ _ M) as (o' & Ho' & Ht1 & Ht2 & Hb1 & Hb2 & Ho & _). destruct (md_cands _ _ _ _ _ _ _ _ _ _ _ _ _ _ _ _ _ _ _ _ _ _ _ M) as [Hso Hsc].
  assert (∀ drain, CoinSelectSpec.tx_weight s drain = bip141_weight (CliPlanProofs.input_of <$> ws)
    ([(Z.of_N value, Z.of_N (script_len addr))] ++ (if drain : bool then [(0%Z, Z.of_N (script_len sp))] else []))) as Hw.
  { intros drain. rewrite (CoinSelectProofs4.weight_picked dbg _ _ _ o' ins s drain Ho' Ht1 Ht2); [|by rewrite Hso|by rewrite Hso|exact Hbuilt].
    rewrite Hins2. clear -Hne. destruct ws as [|w ws]; [cbn; lia|]. apply Forall_cons in Hne as [Hne _]. cbn [fmap list_fmap existsb].
    assert (has_witness (CliPlanProofs.input_of w) = true) as -> by (by destruct w). cbn [orb]. lia. }
  destruct (CoinSelectProofs4.finish_ok_spec dbg s sn (md_typed _ _ _ _ _ _ _ _ _ _ _ _ _ _ _ _ _ _ _ _ _ _ _ M) (λ _, md_modest _ _ _ _ _ _ _ _ _ _ _ _ _ _ _ _ _ _ _ _ _ _ _ M) (md_finish _ _ _ _ _ _ _ _ _ _ _ _ _ _ _ _ _ _ _ _ _ _ _ M)) as (_ & _ & _ & _ & Hg & _).
  destruct (Hg _ _ (md_strategy _ _ _ _ _ _ _ _ _ _ _ _ _ _ _ _ _ _ _ _ _ _ _ M)) as (_ & Hesw & _ & _ & Hdr & _).
  rewrite Hout, Hesw. unfold outs_of. split.
  - rewrite Hw. apply weight_outs. destruct (CoinSelectModel.es_drain es) as [v|].
    + rewrite bool_decide_true by apply Hdr. done.
    + rewrite bool_decide_false by apply Hdr. done.
  - intros Hnone. rewrite Hnone, Hw. apply weight_outs. done.
Qed.
Lemma create_tx_fee ch x value addr algo x' t change : good x → choices_ok ch → modest_wallet ext int ch x value addr →
  create_tx dbg ch km x value addr algo = Ret (x', Ok (t, change)) → (ctx_weight t ≤ 4000000)%Z →
  ∃ fee, pays_fee x t fee ∧ (ctx_weight t ≤ 2 * Z.of_N fee)%Z ∧
    match change with
    | Some _ => (2 * Z.of_N fee ≤ ctx_weight t + 1)%Z
    | None => ∃ k d i s p n, k = match int with Some _ => Internal | None => External end ∧ A k = Some d ∧ derive d i = Some s ∧
        plans ch d i p ∧ PlanModel.expected_weight p = Ret n ∧
        (2 * Z.of_N fee ≤ ctx_weight (mkCtx (ct_version t) (ct_lock_time t) (ct_in t) (ct_out t ++ [mkTxOut 0 s])) + 1
                          + Z.max (160 + Z.of_N n) (2 * Z.of_N (dust_value d)))%Z
    end.
Proof using All.
  intros Hx Hch Hm E Hmax. destruct (create_tx_made W dbg ext int km HA ch x value addr algo x' t change Hx Hch Hm E)
    as (z & s & sn & k & es & ws & d & i & sp & cp & cw & o & M).
  destruct (made_fee _ _ _ _ _ _ _ _ _ _ _ _ _ _ _ _ _ _ _ _ _ _ _ M) as (Hfee & Hpay & Hout & Hdust). destruct (made_weight _ _ _ _ _ _ _ _ _ _ _ _ _ _ _ _ _ _ _ M Hmax) as [Hw Hw'].
  exists (Z.to_N (CoinSelectModel.es_fee es)). split; [done|]. rewrite Z2N.id by done.
  destruct (md_opts _ _ _ _ _ _ _ _ _ _ _ _ _ _ _ _ _ _ _ _ _ _ _ M) as (o' & _ & _ & _ & _ & _ & Ho & Hb & Hd & Hcw). destruct (md_cands _ _ _ _ _ _ _ _ _ _ _ _ _ _ _ _ _ _ _ _ _ _ _ M) as [Hso Hsc].
  destruct (CoinSelectProofs4.finish_ok_spec dbg s sn (md_typed _ _ _ _ _ _ _ _ _ _ _ _ _ _ _ _ _ _ _ _ _ _ _ M) (λ _, md_modest _ _ _ _ _ _ _ _ _ _ _ _ _ _ _ _ _ _ _ _ _ _ _ M) (md_finish _ _ _ _ _ _ _ _ _ _ _ _ _ _ _ _ _ _ _ _ _ _ _ M)) as (_ & _ & _ & _ & Hg & _).
  destruct (Hg _ _ (md_strategy _ _ _ _ _ _ _ _ _ _ _ _ _ _ _ _ _ _ _ _ _ _ _ M)) as (_ & Hesw & Hrf & _ & Hdr & _).
  pose proof (CoinSelectProofs.tx_weight_range s (md_typed _ _ _ _ _ _ _ _ _ _ _ _ _ _ _ _ _ _ _ _ _ _ _ M) (md_modest _ _ _ _ _ _ _ _ _ _ _ _ _ _ _ _ _ _ _ _ _ _ _ M)) as Hr.
  assert (0 ≤ CoinSelectModel.es_weight es)%Z as Hpos by (rewrite Hesw; destruct (bool_decide _); lia).
  assert (Htrue : (CoinSelectSpec.tx_weight s true ≤ CoinSelectModel.es_weight es + CoinSelectModel.o_drain o)%Z).
  { rewrite Hesw. unfold CoinSelectSpec.tx_weight. rewrite Hso. destruct (bool_decide _); lia. }
  assert (CoinSelectModel.o_rate (CoinSelectModel.cs_opts s) = f32_half) as Hrate by (rewrite Hso, Ho; done).
  split.
  { rewrite (CliSelectProofs.half_fee _ _ Hrate) in Hrf by lia. rewrite <-Hw.
    pose proof (Z.div_mod (- CoinSelectModel.es_weight es) 2 ltac:(lia)).
    pose proof (Z.mod_pos_bound (- CoinSelectModel.es_weight es) 2 ltac:(lia)). lia. }
  pose proof (CliSelectProofs.fee_upper dbg s sn k es (Z.of_N value) (md_typed _ _ _ _ _ _ _ _ _ _ _ _ _ _ _ _ _ _ _ _ _ _ _ M) (md_modest _ _ _ _ _ _ _ _ _ _ _ _ _ _ _ _ _ _ _ _ _ _ _ M) (md_finish _ _ _ _ _ _ _ _ _ _ _ _ _ _ _ _ _ _ _ _ _ _ _ M)) as Hup.
  rewrite Hso in Hup. rewrite Ho in Hup.
  specialize (Hup eq_refl eq_refl eq_refl eq_refl eq_refl (md_strategy _ _ _ _ _ _ _ _ _ _ _ _ _ _ _ _ _ _ _ _ _ _ _ M) (md_best _ _ _ _ _ _ _ _ _ _ _ _ _ _ _ _ _ _ _ _ _ _ _ M) ltac:(lia)).
  cbn [CoinSelectModel.o_drain CoinSelectModel.o_spend_drain CoinSelectModel.o_min_drain] in Hup. specialize (Hup ltac:(lia)).
  destruct (md_out _ _ _ _ _ _ _ _ _ _ _ _ _ _ _ _ _ _ _ _ _ _ _ M) as [ad ->]. destruct (CoinSelectModel.es_drain es) as [v|] eqn:Edr; [by rewrite <-Hw|].
  destruct (md_change _ _ _ _ _ _ _ _ _ _ _ _ _ _ _ _ _ _ _ _ _ _ _ M) as (H1' & H2' & _ & H4' & H5').
  exists (change_keychain x), d, i, sp, cp, cw. split; [by apply (change_keychain_is W ext int)|]. repeat (split; [done|]).
  rewrite <-Hw' by done. assert (CoinSelectSpec.tx_weight s true = CoinSelectModel.es_weight es + CoinSelectModel.o_drain o)%Z as ->; [|lia].
  rewrite Hesw, bool_decide_false by apply Hdr. unfold CoinSelectSpec.tx_weight. rewrite Hso. lia.
Qed.
End weight.
