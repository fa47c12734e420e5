(** Proofs about the command line wallet: when a payment is made (C104). *)
From Verif Require CliPaySelectProofs CliPayPlanProofs.
From Verif Require Export CliProofs4 CliPaySpec.
Local Open Scope N_scope.

(** ** Weights and fees *)
Section weights.
Context `{!CliEnv}.
Lemma Zsum_app l k : CoinSelectSpec.Zsum (l ++ k) = (CoinSelectSpec.Zsum l + CoinSelectSpec.Zsum k)%Z.
Proof. unfold CoinSelectSpec.Zsum. induction l as [|a l IH]; cbn [app foldr]; [lia|]. rewrite IH. lia. Qed.
Lemma sumN_app l k : sumN (l ++ k) = sumN l + sumN k.
Proof. unfold sumN. induction l as [|a l IH]; cbn [app foldr]; [lia|]. rewrite IH. lia. Qed.
Lemma Zsum_perm l k : l ≡ₚ k → CoinSelectSpec.Zsum l = CoinSelectSpec.Zsum k.
Proof. induction 1; unfold CoinSelectSpec.Zsum in *; cbn [foldr]; lia. Qed.
Lemma ins_weight_is v addr (l : list (N * N)) :
  CoinSelectSpec.inputs_weight (CoinSelectModel.outputs_weight [(v, Z.of_N (script_len addr))]) (CliSelectProofs.wv_of <$> l) = pay_weight addr l.*2.
Proof.
  unfold CoinSelectSpec.inputs_weight, pay_weight, CoinSelectModel.outputs_weight. cbn [fmap list_fmap foldr length snd].
  change (CoinSelectModel.varint_size 0) with 1%Z. change (CoinSelectModel.varint_size (Z.of_nat 1)) with 1%Z.
  rewrite CoinSelectProofs.varint_compact. unfold CoinSelectSpec.bytes_len.
  assert (CoinSelectSpec.Zsum (CoinSelectModel.wv_weight <$> (CliSelectProofs.wv_of <$> l)) = CoinSelectSpec.Zsum ((λ n, 160 + Z.of_N n)%Z <$> l.*2)) as ->.
  { induction l as [|a l IH]; [done|]. rewrite !fmap_cons. unfold CoinSelectSpec.Zsum in *. cbn [foldr]. rewrite IH. done. }
  assert (CoinSelectSpec.Zsum (CoinSelectModel.wv_count <$> (CliSelectProofs.wv_of <$> l)) = Z.of_nat (length l.*2)) as ->.
  { induction l as [|a l IH]; [done|]. rewrite !fmap_cons. unfold CoinSelectSpec.Zsum in *. cbn [foldr length]. rewrite IH. cbn. lia. }
  destruct l as [|a l]; cbn [existsb fmap list_fmap CliSelectProofs.wv_of CoinSelectModel.wv_segwit orb]; lia.
Qed.
Lemma ceil_half w : (2 * - (- w / 2) = w ∨ 2 * - (- w / 2) = w + 1)%Z.
Proof. pose proof (Z.div_mod (- w) 2 ltac:(lia)). pose proof (Z.mod_pos_bound (- w) 2 ltac:(lia)). lia. Qed.
Lemma pay_weight_range addr ns : (44 ≤ pay_weight addr ns)%Z ∧ (160 * Z.of_nat (length ns) ≤ pay_weight addr ns)%Z.
Proof.
  unfold pay_weight, CoinSelectSpec.bytes_len.
  assert (160 * Z.of_nat (length ns) ≤ CoinSelectSpec.Zsum ((λ n, 160 + Z.of_N n) <$> ns))%Z as Hs.
  { induction ns as [|n ns IH]; [done|]. rewrite fmap_cons. unfold CoinSelectSpec.Zsum in *. cbn [foldr length]. lia. }
  pose proof (CoinSelectProofs.compact_len_range (Z.of_nat (length ns))). pose proof (CoinSelectProofs.compact_len_range (Z.of_N (script_len addr))).
  destruct ns; lia.
Qed.
End weights.

Section pay.
Context `{!DescEnv, !CliEnv, !PlanModel.KeyEnv} `{ChainPositionLaws P} {C : Codec (KChangeSet Keychain P)}.
Context (W : Txid → list OutPoint) (dbg : bool) (ext : Desc) (int : option Desc) (km : PlanModel.KeyMap).
Notation A := (keychains ext int).
Context (HA : good_env A).
Implicit Types (x y : Tracker Keychain P) (ch : Choices P).
Notation good := (good W ext int).
Notation Plan := (PlanModel.Plan PlanModel.DescKey).
Notation cand := ((Keychain * N * FullTxOut P) * Plan)%type.
Notation pf := (λ e : cand, (e.2, e.1.2)).
Notation cn := (λ e : cand, (e.1, wt e.2)).

(** ** More coins pay as well *)
Lemma pay_perm value addr (l m : list (Keychain * N * FullTxOut P * N)) : l ≡ₚ m → pay value addr l → pay value addr m.
Proof.
  intros Hp. unfold pay, pay_weight. rewrite (sumN_perm _ _ (fmap_Permutation value_of _ _ (fmap_Permutation fst _ _ Hp))).
  rewrite (Zsum_perm _ _ (fmap_Permutation (λ n, 160 + Z.of_N n)%Z _ _ (fmap_Permutation snd _ _ Hp))).
  rewrite !fmap_length, (Permutation_length Hp). intros Hl.
  assert (match l.*2 with [] => 0 | _ => 2 end = match m.*2 with [] => 0 | _ => 2 end)%Z as <-; [|done].
  destruct l, m; try done; [by apply Permutation_nil_cons in Hp|]. symmetry in Hp. by apply Permutation_nil_cons in Hp.
Qed.
Lemma compact_step n : (0 ≤ n)%Z → (n + 1 < 65536)%Z → (CoinSelectSpec.compact_len (n + 1) ≤ CoinSelectSpec.compact_len n + 2)%Z.
Proof.
  intros Hn Hlt. unfold CoinSelectSpec.compact_len. change (2 ^ 16)%Z with 65536%Z.
  destruct (Z.ltb_spec (n + 1) 253), (Z.ltb_spec n 253), (Z.ltb_spec (n + 1) 65536), (Z.ltb_spec n 65536); lia.
Qed.
Lemma pay_cons value addr kf n (l : list (Keychain * N * FullTxOut P * N)) : (Z.of_nat (length l) + 1 < 65536)%Z → worthwhile kf n →
  pay value addr l → pay value addr ((kf, n) :: l).
Proof.
  intros Hlt Hw Hp. unfold pay in *. rewrite !fmap_cons. cbn [fst snd].
  assert (l ≠ []) as Hne. { intros ->. cbn [fmap list_fmap] in Hp. pose proof (pay_weight_range addr []). unfold sumN in Hp. cbn [foldr] in Hp. lia. }
  assert (pay_weight addr (n :: l.*2) ≤ pay_weight addr l.*2 + (160 + Z.of_N n) + 8)%Z.
  { unfold pay_weight. rewrite fmap_cons. unfold CoinSelectSpec.Zsum at 1. cbn [foldr length]. fold (CoinSelectSpec.Zsum ((λ n, 160 + Z.of_N n)%Z <$> l.*2)).
    rewrite Nat2Z.inj_succ, fmap_length. pose proof (compact_step (Z.of_nat (length l)) ltac:(lia) Hlt).
    replace (Z.succ (Z.of_nat (length l))) with (Z.of_nat (length l) + 1)%Z by lia.
    destruct l as [|a l]; [done|]. rewrite (fmap_cons snd). cbv beta iota. lia. }
  unfold sumN at 1. cbn [foldr]. fold (sumN (value_of <$> l.*1)). unfold worthwhile in Hw. lia.
Qed.
Lemma pay_grow value addr (l m : list (Keychain * N * FullTxOut P * N)) : l ⊆+ m → (Z.of_nat (length m) < 65536)%Z →
  (∀ kf n, (kf, n) ∈ m → worthwhile kf n) → pay value addr l → pay value addr m.
Proof.
  intros (k & Hk)%submseteq_Permutation Hlt Hw Hp.
  assert (∀ k', k' `suffix_of` k → pay value addr (k' ++ l)) as Hind; [|eapply pay_perm; [|apply (Hind k); done]; rewrite Hk; apply Permutation_app_comm].
  induction k' as [|[kf n] k' IH]; intros Hs; [done|]. cbn [app]. apply pay_cons.
  - rewrite (Permutation_length Hk), app_length in Hlt. apply suffix_length in Hs. cbn [length] in Hs. rewrite app_length. lia.
  - apply Hw. rewrite Hk, elem_of_app. right. destruct Hs as [z ->]. rewrite elem_of_app. right. left.
  - apply IH. destruct Hs as [z ->]. exists (z ++ [(kf, n)]). by rewrite <-app_assoc.
Qed.

(** ** Planning and weighing *)
Lemma plan_utxos_total ks a (l : list (Keychain * N * FullTxOut P)) :
  (∀ kf, kf ∈ l → ∃ d o, ks !! kf.1.1 = Some d ∧ PlanModel.plan_satisfaction (desc_at d kf.1.2) a = Ret o) →
  ∃ z : list cand, plan_utxos ks a l = Ret (pf <$> z) ∧ z.*1 `sublist_of` l ∧
    (∀ e, e ∈ z → ∃ d, ks !! e.1.1.1 = Some d ∧ PlanModel.plan_satisfaction (desc_at d e.1.1.2) a = Ret (Some e.2)) ∧
    ∀ kf d p, kf ∈ l → ks !! kf.1.1 = Some d → PlanModel.plan_satisfaction (desc_at d kf.1.2) a = Ret (Some p) → (kf, p) ∈ z.
Proof.
  induction l as [|kf l IH]; intros Hl; cbn [plan_utxos].
  - exists []. split; [done|]. split; [constructor|]. split; [by intros e ?%elem_of_nil|]. by intros ? ? ? ?%elem_of_nil.
  - destruct (Hl kf ltac:(left)) as (d & o & Ed & Ep). rewrite Ed, Ep. cbn [mbind outcome_bind].
    destruct IH as (z & -> & Hz & Hp & Hall); [intros; apply Hl; by right|]. cbn [mbind outcome_bind]. destruct o as [p|].
    + exists ((kf, p) :: z). split; [done|]. split; [by apply sublist_skip|]. split.
      * intros e [->|He]%elem_of_cons; [|by apply Hp]. by exists d.
      * intros kf' d' p' [->|Hin]%elem_of_cons Ed' Ep'; [|right; by eapply Hall].
        rewrite Ed in Ed'. injection Ed' as <-. rewrite Ep in Ep'. injection Ep' as <-. left.
    + exists z. split; [done|]. split; [by apply sublist_cons|]. split; [done|].
      intros kf' d' p' [->|Hin]%elem_of_cons Ed' Ep'; [|by eapply Hall]. congruence.
Qed.
Lemma weigh_total d i a (p : Plan) (f : FullTxOut P) : PlanModel.plan_satisfaction (desc_at d i) a = Ret (Some p) → wt p ≤ 4000000 →
  weigh dbg (p, f) = Ret (CliSelectProofs.wv_of (txo_value (fto_txout f), wt p)).
Proof.
  intros Hp Hw. destruct (weigh dbg (p, f)) as [v|] eqn:E.
  { by destruct (weigh_inv dbg _ _ _ _ _ _ Hp Hw E) as [_ ->]. }
  exfalso. unfold weigh in E. cbn [fst snd] in E. unfold wt in *. destruct (CliPayPlanProofs.expected_weight_total _ _ _ Hp) as [n En]. rewrite En in *.
  cbn [mbind outcome_bind] in E. unfold CoinSelectModel.wv_new in E.
  rewrite (CoinSelectProofs.wrap_id MachineModel.U32 (Z.of_N n)) in E by (unfold CoinSelectSpec.in_type; cbn [MachineModel.imin MachineModel.imax]; lia).
  rewrite (CoinSelectProofs.fit_ret dbg MachineModel.U32 (CoinSelectModel.txin_base_weight + Z.of_N n)) in E
    by (unfold CoinSelectSpec.in_type, CoinSelectModel.txin_base_weight; cbn [MachineModel.imin MachineModel.imax]; lia).
  done.
Qed.
Lemma wt_total d i a (p : Plan) : PlanModel.plan_satisfaction (desc_at d i) a = Ret (Some p) → PlanModel.expected_weight p = Ret (wt p).
Proof. intros Hp. destruct (CliPayPlanProofs.expected_weight_total _ _ _ Hp) as [n En]. unfold wt. by rewrite En. Qed.
Lemma all_ret_total {X Y} (f : X → outcome Y) (g : X → Y) l : (∀ a, a ∈ l → f a = Ret (g a)) → CoinSelectModel.all_ret (f <$> l) = Ret (g <$> l).
Proof.
  induction l as [|a l IH]; intros Hl; [done|]. cbn. rewrite (Hl a ltac:(left)). cbn [mbind outcome_bind].
  rewrite IH; [done|]. intros; apply Hl; by right.
Qed.

Lemma tracked_entry hs (i : KIndex Keychain) o k j u : ki_inv A hs i → si_txout (ki_inner i) o = Some (k, j, u) → paid i k j u.
Proof.
  clear HA. intros Hi Ho. pose proof (si_good_inv hs _ (proj1 (proj2 (proj1 Hi)))) as (J1 & J2 & J3 & _).
  assert (hit hs (k, j) o u) as Hh by (by apply J3).
  apply (tracked_is_paid A hs); [done|]. unfold si_index_of_spk. rewrite J1.
  destruct (hit_tracked _ _ _ _ Hh) as (sp & Ht & ->). done.
Qed.

Lemma utxos_unspent ch x kf : good x → hash_fun_ok (ch_hash ch) → kf ∈ full_utxos (ch_hash ch (cg_graph (tr_cg x))) x ↔ unspent x kf.1 kf.2.
Proof using H5.
  intros Hx Hho. destruct kf as [ki f]. unfold full_utxos. rewrite elem_of_list_filter. cbn [fst snd].
  rewrite full_txouts_owned; [|by apply (good_ok W ext int)|apply Hho]. unfold unspent. tauto.
Qed.

(** ** Making a transaction *)
Lemma create_tx_exact ch x value addr algo : good x → choices_ok ch → modest_wallet ext int ch x value addr → signer ext int ch km →
  (∀ l, coins ext int ch x l → (pay_weight addr l.*2 < 2 ^ 23)%Z) →
  ∃ x' r z, create_tx dbg ch km x value addr algo = Ret (x', r) ∧ coins ext int ch x z ∧
    (∀ kf n, coin ext int ch x kf n → (kf, n) ∈ z) ∧
    match r with
    | Ok (t, _) => ∃ l, coins ext int ch x l ∧ pay value addr l ∧ ci_prev <$> ct_in t = (λ p, fto_outpoint p.1.2) <$> l
    | Err e => (∃ se, e = ESelection se) ∧ ¬ pay value addr z
    end.
Proof using All.
  intros Hx (Hho & Hst & Hso & Hcl) (Hv & Ha & Hsum & Hdesc & M & HM & Hlen & Hwt) Hsg Hlight.
  set (a := PlanModel.mkAssets (ch_keys ch) None None [] : PlanModel.Assets PlanModel.DescKey).
  set (utxos := full_utxos (ch_hash ch (cg_graph (tr_cg x))) x) in *.
  assert (∀ kf, kf ∈ utxos ↔ unspent x kf.1 kf.2) as Hutx.
  { intros kf. by apply utxos_unspent. }
  assert (∀ kf, kf ∈ utxos → ∃ d, ki_keychains (tr_index x) !! kf.1.1 = Some d ∧ A kf.1.1 = Some d) as Hkd.
  { intros [[k j] f] Hkf. apply Hutx in Hkf as [((u & Hu) & _) _]. cbn [fst snd] in *. destruct Hx as [((hs & Hi) & _) _].
    destruct (tracked_entry hs (tr_index x) _ k j u Hi Hu) as (d & Hd & _). exists d. split; [done|]. by apply (proj1 (proj1 Hi)). }
  assert (∀ k d i, A k = Some d → ∃ o, PlanModel.plan_satisfaction (desc_at d i) a = Ret o) as Hps.
  { intros k d i Hd. destruct (sg_tr _ _ _ _ Hsg k d i Hd) as (tr & -> & Hh). apply PlanProofs2.handled_plan; [|done]. intros h. done. }
  destruct (plan_utxos_total (ki_keychains (tr_index x)) a utxos) as (z & Ez & Hz & Hp & Hall).
  { intros kf Hkf. destruct (Hkd kf Hkf) as (d & Hd & HAd). destruct (Hps _ _ kf.1.2 HAd) as [o Ho]. by exists d, o. }
  destruct (Permutation_map_inv (l1 := sort_candidates algo (pf <$> z)) pf z) as (z' & Es & Hzz).
  { apply sort_candidates_perm. }
  change (map pf z') with (pf <$> z') in Es.
  assert (∀ e, e ∈ z' → ∃ d', A e.1.1.1 = Some d' ∧ plans ch d' e.1.1.2 e.2) as Hplan.
  { intros e He. rewrite <-Hzz in He. destruct (Hp e He) as (d' & Hd' & Hpl). exists d'. split; [by eapply (keychain_desc W)|done]. }
  assert (∀ e, e ∈ z' → PlanModel.expected_weight e.2 = Ret (wt e.2)) as Hew.
  { intros e He. destruct (Hplan e He) as (d' & _ & Hpl). by eapply wt_total. }
  assert (∀ e, e ∈ z' → wt e.2 ≤ M) as HwtM.
  { intros e He. destruct (Hplan e He) as (d' & HdA & Hpl). by eapply Hwt, Hew. }
  assert (Permutation (z'.*1) (z.*1)) as Hzz1 by (by rewrite Hzz).
  assert (NoDup ((λ e, fto_outpoint e.2) <$> z'.*1)) as Hnd.
  { rewrite Hzz1. eapply sublist_NoDup; [by apply fmap_sublist, Hz|].
    eapply sublist_NoDup; [|apply (full_txouts_nodup (ch_hash ch (cg_graph (tr_cg x))) x)]. apply fmap_sublist, filter_sublist. }
  assert (∀ e, e ∈ z' → unspent x e.1.1 e.1.2) as Hun.
  { intros e He. apply Hutx. rewrite <-Hzz in He. eapply elem_of_submseteq; [|by apply sublist_submseteq, Hz]. by apply elem_of_list_fmap_1. }
  assert (∀ k : list cand, k `sublist_of` z' → coins ext int ch x (cn <$> k)) as Hcoins.
  { intros k Hk. split.
    - rewrite <-list_fmap_compose. change (fst ∘ cn) with (fst (A := Keychain * N * FullTxOut P) (B := Plan)).
      eapply sublist_NoDup; [by apply fmap_sublist, Hk|]. by eapply NoDup_fmap_1.
    - intros kf n (e & [= -> ->] & He)%elem_of_list_fmap. assert (e ∈ z') as He' by (eapply elem_of_submseteq; [exact He|by apply sublist_submseteq]).
      split; [by apply Hun|]. destruct (Hplan e He') as (d' & Hd' & Hpl). exists d', e.2. split; [done|]. split; [done|]. by apply Hew. }
  pose proof (Hcoins z' (reflexivity _)) as Hcz.
  assert (∀ kf n, coin ext int ch x kf n → (kf, n) ∈ cn <$> z') as Hcall.
  { intros kf n (Hu & d & p & Hd & Hpl & Hn). apply Hutx in Hu. destruct (Hkd kf Hu) as (d' & Hd' & HAd). rewrite Hd in HAd. injection HAd as <-.
    pose proof (Hall kf d p Hu Hd' Hpl) as Hin. apply elem_of_list_fmap. exists (kf, p). rewrite <-Hzz. split; [|done]. cbn. unfold wt. by rewrite Hn. }
  (* the change script *)
  pose proof (change_keychain_is W ext int HA x Hx) as Eck.
  destruct (good_keychain W ext int x (change_keychain x)) as (d & hs & Hi & Hd); [done|apply known_adds, (change_known W ext int x Hx)|].
  destruct (tr_next_unused A hs _ _ d HA Hi Hd) as (ix & hs' & i & sp & ad & Enext & Ht & _ & Hder & _).
  assert (A (change_keychain x) = Some d) as Hch by (by apply (proj1 (proj1 Hi))).
  assert (ki_keychains ix = ki_keychains (tr_index x)) as Ek by apply Ht.
  destruct (sg_change _ _ _ _ Hsg _ d i Hch) as [cp Hcp].
  { rewrite Eck. destruct int; auto. }
  pose proof (wt_total _ _ _ _ Hcp) as Ecw. pose proof (Hwt _ _ _ _ _ Hch Hcp Ecw) as HcwM.
  destruct (CliPaySelectProofs.create_opts_total dbg d value addr sp (wt cp)) as (o & Eo & Hbase); try done.
  { by eapply Hdesc. } { by etrans. }
  destruct (CliSelectProofs.create_opts_inv dbg d value addr sp (wt cp) o) as (o' & Ho' & Ht1 & Ht2 & Hb & Hdr & Ho & Hbr & Hdrr); try done.
  { by eapply Hdesc. } { by etrans. }
  destruct (CliSelectProofs.selector_typed (vw <$> z') M o) as [Htyped Hmod]; try (rewrite Ho; done); try done.
  { apply Forall_fmap, Forall_forall. exact HwtM. }
  { rewrite <-list_fmap_compose. change (fst ∘ vw) with (value_of ∘ fst (A := Keychain * N * FullTxOut P) (B := Plan)). rewrite list_fmap_compose.
    etrans; [|exact Hsum]. change (foldr N.add 0) with sumN. rewrite (sumN_perm _ _ (fmap_Permutation value_of _ _ Hzz1)). apply sumN_sublist. by apply fmap_sublist. }
  { rewrite fmap_length, <-Hzz. apply sublist_length in Hz. rewrite fmap_length in Hz. nia. }
  { intros v Hv'. rewrite Ho in Hv'. injection Hv' as <-. lia. }
  { rewrite Ho. cbn. lia. }
  { rewrite Ho. cbn. pose proof (proj1 (Hdesc _ _ Hch)). lia. }
  assert (∀ k : list cand, snd <$> (cn <$> k) = (vw <$> k).*2) as Hsnd by (intros k; by rewrite <-!list_fmap_compose).
  assert (∀ k : list cand, value_of <$> (cn <$> k).*1 = (vw <$> k).*1) as Hfst by (intros k; by rewrite <-!list_fmap_compose).
  (* what a selection needs *)
  assert (∀ s (k : list cand), CoinSelectModel.cs_opts s = o → CoinSelectSpec.picked s = CliSelectProofs.wv_of <$> (vw <$> k) → k `sublist_of` z' →
    (CoinSelectSpec.needed s CoinSelectModel.TargetFee ≤ CoinSelectSpec.value_in s)%Z ↔ pay value addr (cn <$> k)) as Hneed.
  { intros s k Hos Hps' Hk. cbn [CoinSelectSpec.needed]. unfold CoinSelectSpec.tx_weight, CoinSelectSpec.value_in. rewrite Hos, Hps', Hbase, ins_weight_is, wv_values, Z.add_0_r.
    assert (CoinSelectModel.o_target o = Some (Z.of_N value) ∧ CoinSelectModel.o_rate o = f32_half) as [-> Er] by (rewrite Ho; done).
    pose proof (Hlight _ (Hcoins k Hk)) as Hl. unfold pay. rewrite Hsnd in *. rewrite Hfst. pose proof (pay_weight_range addr (vw <$> k).*2).
    rewrite (CliSelectProofs.half_fee o _ Er) by lia. cbn [default from_option]. unfold id.
    pose proof (ceil_half (pay_weight addr (vw <$> k).*2)). lia. }
  assert (CoinSelectSpec.picked (CliPaySelectProofs.everything (CliSelectProofs.wv_of <$> (vw <$> z')) o) = CliSelectProofs.wv_of <$> (vw <$> z')) as Hev.
  { unfold CoinSelectSpec.picked, CliPaySelectProofs.everything. cbn [CoinSelectModel.cs_cands CoinSelectModel.cs_sel]. apply CliPaySelectProofs.at_indices_all. }
  destruct (CliPaySelectProofs.run_selection_exact dbg ch algo (CliSelectProofs.wv_of <$> (vw <$> z')) o) as (r & Er & Hr); try done.
  { rewrite Ho. by eexists. } { by rewrite Ho. } { by rewrite Ho. }
  { pose proof (Hlight _ Hcz) as Hl. rewrite Hsnd, <-(ins_weight_is (Z.of_N value)), <-Hbase in Hl. unfold CoinSelectSpec.inputs_weight in Hl.
    unfold BnbSpec.template_weight. cbn [CoinSelectModel.cs_new CoinSelectModel.cs_cands CoinSelectModel.cs_opts]. lia. }
  unfold create_tx. fold a. unfold planned_utxos. fold utxos. rewrite Ez. cbn [mbind outcome_bind]. rewrite Es.
  rewrite <-list_fmap_compose, (all_ret_total _ (CliSelectProofs.wv_of ∘ vw)), list_fmap_compose.
  2:{ intros e He. destruct (Hplan e He) as (d' & _ & Hpl). cbn [compose]. unfold vw. cbn [fst snd]. rewrite (weigh_total _ _ _ _ _ Hpl); [done|]. etrans; [by apply HwtM|done]. }
  cbn [mbind outcome_bind]. rewrite Enext. cbn [mbind outcome_bind fst snd]. rewrite Ek, Hd. unfold plans in Hcp. fold a in Hcp. rewrite Hcp. cbn [mbind outcome_bind].
  rewrite Ecw. cbn [mbind outcome_bind]. rewrite Eo. cbn [mbind outcome_bind]. rewrite Er. cbn [mbind outcome_bind].
  destruct r as [sn|se].
  2:{ eexists _, _, _. split; [done|]. split; [exact Hcz|]. split; [exact Hcall|]. split; [by eexists|].
      intros Hpay. apply (Hneed (CliPaySelectProofs.everything (CliSelectProofs.wv_of <$> (vw <$> z')) o) z') in Hpay; [lia|done..]. }
  destruct Hr as (s & Hs1 & Hs2 & Hs3 & Hs4 & Hfin).
  destruct (CoinSelectProofs4.finish_ok_spec dbg s sn Hs3 (λ _, Hs4) Hfin) as (Hsel & _).
  destruct (CoinSelectProofs4.best_of_finish dbg s sn (ch_strategies ch (CoinSelectModel.sn_strategies sn)) Hs3 (λ _, Hs4) Hfin)
    as (k' & es' & Eb & Hin & Hmin); [rewrite Hs1, Ho; done|apply Hst|].
  rewrite Eb. cbn [mbind outcome_bind].
  rewrite CoinSelectProofs4.apply_selection_spec, Hsel, at_indices_fmap.
  2:{ rewrite Hsel. intros j Hj. rewrite fmap_length. destruct Hs3 as (_ & _ & Hs3). specialize (Hs3 j Hj). rewrite Hs2, !fmap_length in Hs3. done. }
  cbn [mbind outcome_bind]. set (sel := CoinSelectSpec.at_indices z' (CoinSelectModel.cs_sel s)).
  assert (sel `sublist_of` z') as Hsub by apply at_indices_sublist.
  match goal with |- context [sign_inputs km ?t ?pv 0 ?l] => destruct (CliPayPlanProofs.sign_inputs_total km t pv l (ch_keys ch)) with (i := 0%nat) as [ws Ews] end.
  { apply (sg_keys _ _ _ _ Hsg). } { apply (sg_derive _ _ _ _ Hsg). }
  { intros p Hin'. rewrite <-list_fmap_compose in Hin'. apply elem_of_list_fmap in Hin' as (e & -> & He). cbn [compose fst].
    destruct (Hplan e) as (d' & Hd' & Hpl). { eapply elem_of_submseteq; [exact He|by apply sublist_submseteq]. }
    exists (desc_at d' e.1.1.2). split; [exact Hpl|]. intros r Hr. by eapply (sg_needs _ _ _ _ Hsg). }
  { intros j Hj. apply (sg_hash _ _ _ _ Hsg); cbn [unsigned_tx ct_in Nat.add]; rewrite ?fmap_length in *; done. }
  rewrite Ews. cbn [mbind outcome_bind].
  eexists _, _, _. split; [done|]. split; [exact Hcz|]. split; [exact Hcall|]. cbn beta iota.
  exists (cn <$> sel). split; [by apply Hcoins|]. split.
  - apply (Hneed s sel Hs1); [|done|by eapply CliPaySelectProofs.ok_needed]. unfold CoinSelectSpec.picked, sel. by rewrite Hs2, !at_indices_fmap.
  - destruct (CliPlanProofs.sign_inputs_inv _ _ _ _ _ _ Ews) as [Hlen' _].
    match goal with |- context [put_witnesses ?t ws] => destruct (put_ins t ws) as (-> & _) end.
    { cbn [unsigned_tx ct_in]. rewrite !fmap_length in *. done. }
    cbn [unsigned_tx ct_in]. by rewrite <-!list_fmap_compose.
Qed.
Lemma create_tx_iff ch x value addr algo : good x → choices_ok ch → modest_wallet ext int ch x value addr → signer ext int ch km →
  (∀ l, coins ext int ch x l → (pay_weight addr l.*2 < 2 ^ 23)%Z) → (∀ kf n, coin ext int ch x kf n → worthwhile kf n) →
  (∃ x' t change, create_tx dbg ch km x value addr algo = Ret (x', Ok (t, change))) ↔ ∃ l, coins ext int ch x l ∧ pay value addr l.
Proof using All.
  intros Hx Hch Hm Hsg Hlight Hw.
  destruct (create_tx_exact ch x value addr algo Hx Hch Hm Hsg Hlight) as (x' & r & z & E & Hz & Hall & Hr). rewrite E. split.
  - intros (x2 & t & c & [= _ ->]). destruct Hr as (l & ? & ? & _). by exists l.
  - intros (l & Hl & Hp). destruct r as [[t c]|e]; [by eexists _, _, _|]. exfalso. apply (proj2 Hr).
    apply (pay_grow value addr l); [| | |done].
    + apply NoDup_submseteq; [eapply NoDup_fmap_1, Hl|]. intros [kf n] Hin. apply Hall. by apply Hl.
    + pose proof (pay_weight_range addr z.*2). pose proof (Hlight z Hz). rewrite fmap_length in *. lia.
    + intros kf n Hin. apply Hw. by apply Hz.
Qed.
End pay.
