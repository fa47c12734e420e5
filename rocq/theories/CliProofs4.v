(** Proofs about the command line wallet: the transactions it makes. *)
From Verif Require CliSelectProofs CliPlanProofs.
From Verif Require Export CliProofs3.
Local Open Scope N_scope.

(** ** Lists *)
Lemma insert_by_perm {A} le (a : A) l : insert_by le a l ≡ₚ a :: l.
Proof. induction l as [|b l IH]; cbn [insert_by]; [done|]. destruct (le a b); [done|]. rewrite IH. constructor. Qed.
Lemma stable_sort_perm {A} le (l : list A) : stable_sort le l ≡ₚ l.
Proof. unfold stable_sort. induction l as [|a l IH]; cbn [foldr]; [done|]. by rewrite insert_by_perm, IH. Qed.
Lemma all_ret_inv {A B} (f : A → outcome B) l : ∀ r, CoinSelectModel.all_ret (f <$> l) = Ret r → Forall2 (λ a b, f a = Ret b) l r.
Proof.
  induction l as [|a l IH]; intros r E; cbn in E; [injection E as <-; constructor|].
  destruct (f a) as [b|] eqn:Ea; [|done]. cbn [mbind outcome_bind] in E.
  match type of E with (?m ≫= _) = _ => destruct m as [r'|] eqn:Er; [|done] end. cbn [mbind outcome_bind] in E. injection E as <-.
  constructor; [done|]. by apply IH.
Qed.
Lemma at_indices_fmap {A B} (f : A → B) l sel :
  CoinSelectSpec.at_indices (f <$> l) sel = f <$> CoinSelectSpec.at_indices l sel.
Proof.
  unfold CoinSelectSpec.at_indices. rewrite imap_fmap.
  assert (∀ l' : list (nat * A), (filter (λ p, p.1 ∈ sel) ((λ p, (p.1, f p.2)) <$> l')).*2 = f <$> (filter (λ p, p.1 ∈ sel) l').*2) as Hf.
  { induction l' as [|[i a] l' IH]; [done|]. rewrite fmap_cons, !filter_cons. cbn [fst snd]. case_decide; [|done]. rewrite !fmap_cons. cbn [snd]. by rewrite IH. }
  rewrite <-Hf, fmap_imap. done.
Qed.
Lemma at_indices_sublist {A} (l : list A) sel : CoinSelectSpec.at_indices l sel `sublist_of` l.
Proof.
  unfold CoinSelectSpec.at_indices. assert ((imap pair l).*2 = l) as E.
  { rewrite fmap_imap. clear. induction l as [|a l IH]; [done|]. rewrite imap_cons. f_equal. done. }
  rewrite <-E at 2. generalize (imap (pair (B := A)) l). intros k. induction k as [|[i a] k IH]; [done|].
  rewrite filter_cons, fmap_cons. case_decide; cbn [snd]; [by apply sublist_skip|by apply sublist_cons].
Qed.
Lemma sumN_sublist (l k : list N) : l `sublist_of` k → sumN l ≤ sumN k.
Proof. induction 1 as [|a l k _ IH|a l k _ IH]; unfold sumN in *; cbn [foldr]; lia. Qed.

Lemma sublist_NoDup {A} (l k : list A) : l `sublist_of` k → NoDup k → NoDup l.
Proof.
  induction 1 as [|a l k Hs IH|a l k Hs IH]; intros Hn; [done| |]; apply NoDup_cons in Hn as [Ha Hn]; [|by apply IH].
  constructor; [|by apply IH]. intros Hin. apply Ha. eapply elem_of_submseteq; [exact Hin|by apply sublist_submseteq].
Qed.
Lemma filter_sublist {A} (Q : A → Prop) `{∀ a, Decision (Q a)} l : filter Q l `sublist_of` l.
Proof. induction l as [|a l IH]; [done|]. rewrite filter_cons. case_decide; [by apply sublist_skip|by apply sublist_cons]. Qed.

Section made.
Context `{!DescEnv, !CliEnv, !PlanModel.KeyEnv} `{ChainPositionLaws P} {C : Codec (KChangeSet Keychain P)}.
Context (W : Txid → list OutPoint) (dbg : bool) (ext : Desc) (int : option Desc) (km : PlanModel.KeyMap).
Notation A := (keychains ext int).
Context (HA : good_env A).
Implicit Types (x y : Tracker Keychain P) (ch : Choices P).
Notation good := (good W ext int).
Notation Plan := (PlanModel.Plan PlanModel.DescKey).
(** An output with its plan *)
Notation cand := ((Keychain * N * FullTxOut P) * Plan)%type.
Notation pf := (λ e : cand, (e.2, e.1.2)).
Definition wt (p : Plan) : N := match PlanModel.expected_weight p with Ret n => n | Panic => 0 end.
Definition vw (e : cand) : N * N := (value_of e.1, wt e.2).

Lemma plan_utxos_inv ks a l : ∀ r, plan_utxos ks a l = Ret r → ∃ z : list cand, z.*1 `sublist_of` l ∧ r = pf <$> z ∧
  ∀ e, e ∈ z → ∃ d, ks !! e.1.1.1 = Some d ∧ PlanModel.plan_satisfaction (desc_at d e.1.1.2) a = Ret (Some e.2).
Proof.
  induction l as [|kf l IH]; intros r E; cbn [plan_utxos] in E.
  - injection E as <-. exists []. split; [constructor|]. split; [done|]. by intros e ?%elem_of_nil.
  - destruct (ks !! kf.1.1) as [d|] eqn:Ed; [|done]. bind_in E p Ep. bind_in E r' Er. injection E as <-.
    destruct (IH r' Er) as (z & Hz & -> & Hp). destruct p as [p|].
    + exists ((kf, p) :: z). split; [by apply sublist_skip|]. split; [done|]. intros e [->|He]%elem_of_cons; [|by apply Hp]. exists d. done.
    + exists z. split; [by apply sublist_cons|]. done.
Qed.
Lemma sort_candidates_perm algo (l : list (Plan * FullTxOut P)) : sort_candidates algo l ≡ₚ l.
Proof. destruct algo; cbn [sort_candidates]; [apply stable_sort_perm..|done]. Qed.

Lemma weigh_inv d i a (p : Plan) (f : FullTxOut P) v : PlanModel.plan_satisfaction (desc_at d i) a = Ret (Some p) → wt p ≤ 4000000 →
  weigh dbg (p, f) = Ret v → PlanModel.expected_weight p = Ret (wt p) ∧ v = CliSelectProofs.wv_of (txo_value (fto_txout f), wt p).
Proof.
  intros Hp Hw E. unfold weigh in E. cbn [fst snd] in E. unfold wt in *. destruct (PlanModel.expected_weight p) as [n|]; [|done].
  cbn [mbind outcome_bind] in E. split; [done|]. rewrite (CliPlanProofs.planned_version _ _ _ Hp) in E.
  unfold CoinSelectModel.wv_new in E.
  rewrite (CoinSelectProofs.wrap_id MachineModel.U32 (Z.of_N n)) in E by (unfold CoinSelectSpec.in_type; cbn [MachineModel.imin MachineModel.imax]; lia).
  rewrite (CoinSelectProofs.fit_ret dbg MachineModel.U32 (CoinSelectModel.txin_base_weight + Z.of_N n)) in E
    by (unfold CoinSelectSpec.in_type, CoinSelectModel.txin_base_weight; cbn [MachineModel.imin MachineModel.imax]; lia).
  injection E as <-. unfold CliSelectProofs.wv_of. cbn [fst snd]. f_equal.
Qed.

(** The change script comes from the index. *)
Lemma change_next x ix i sp ad : good x → next_unused_spk (tr_index x) (change_keychain x) = Ret (ix, (i, sp), ad) →
  ∃ d, ki_keychains ix !! change_keychain x = Some d ∧ A (change_keychain x) = Some d ∧ derive d i = Some sp ∧
    reveals_spk (with_index x ix) (change_keychain x) i sp.
Proof.
  intros Hx E. destruct (good_keychain W ext int x (change_keychain x)) as (d & hs & Hi & Hd); [done|apply known_adds, (change_known W ext int x Hx)|].
  destruct (tr_next_unused A hs _ _ d HA Hi Hd) as (x2 & hs' & i' & s' & ad' & E' & Ht & _ & Hder & Hs & Hn & _).
  rewrite E in E'. injection E' as <- <- <- <-.
  assert (ki_keychains ix = ki_keychains (tr_index x)) as Ek by apply Ht.
  exists d. rewrite Ek. split; [done|]. split; [by apply (proj1 (proj1 Hi))|]. split; [done|].
  apply (reveals_intro ext int (hs ++ hs') (with_index x ix)); [apply Ht|done..].
Qed.
Lemma keychain_desc x k d : good x → ki_keychains (tr_index x) !! k = Some d → A k = Some d.
Proof. intros [((hs & Hi) & _) _] Hd. by apply (proj1 (proj1 Hi)). Qed.
Lemma change_keychain_is x : good x → change_keychain x = match int with Some _ => Internal | None => External end.
Proof.
  intros Hx. unfold change_keychain. destruct (ki_keychains (tr_index x) !! Internal) as [d|] eqn:E.
  - apply (keychain_desc x) in E; [|done]. cbn [keychains] in E. by rewrite E.
  - destruct int as [d|] eqn:Ei; [|done]. 
    destruct (good_keychain W ext (Some d) x Internal) as (d' & hs & _ & Hd'); [done|by eexists|]. congruence.
Qed.

(** ** What [create_tx] went through *)
Definition outs_of (value : N) (addr sp : Script) (drain : option Z) : list TxOut :=
  mkTxOut value addr :: match drain with Some v => [mkTxOut (Z.to_N v) sp] | None => [] end.
Definition sel_of (z : list cand) (s : CoinSelectModel.CoinSelector) : list cand := CoinSelectSpec.at_indices z (CoinSelectModel.cs_sel s).
Record made ch x (value : N) (addr : Script) x' (t : Ctx) (change : option (DerivationAdditions Keychain * (Keychain * N)))
  (z : list cand) (s : CoinSelectModel.CoinSelector) (sn : CoinSelectModel.Selection)
  (k : CoinSelectModel.ExcessStrategyKind) (es : CoinSelectModel.ExcessStrategy) (ws : list (list (list N)))
  (d : Desc) (i : N) (sp : Script) (cp : Plan) (cw : N) (o : CoinSelectModel.CoinSelectorOpt) : Prop := mk_made {
  md_nodup : NoDup ((λ e, fto_outpoint e.1.2) <$> z);
  md_owned : ∀ e, e ∈ z → owned x e.1.1 e.1.2 ∧ fto_spent_by e.1.2 = None ∧ PlanModel.expected_weight e.2 = Ret (wt e.2) ∧
    ∃ d', A e.1.1.1 = Some d' ∧ plans ch d' e.1.1.2 e.2;
  md_change : A (change_keychain x) = Some d ∧ derive d i = Some sp ∧ reveals_spk x' (change_keychain x) i sp ∧
    plans ch d i cp ∧ PlanModel.expected_weight cp = Ret cw;
  md_opts : let outs := [(Z.of_N value, Z.of_N (script_len addr))] in let dout := (0%Z, Z.of_N (script_len sp)) in
    ∃ o', CoinSelectModel.opt_fund_outputs dbg outs dout (Z.of_N cw) = Ret o' ∧
      CoinSelectSpec.in_type MachineModel.U32 (CoinSelectModel.outputs_weight outs) ∧
      CoinSelectSpec.in_type MachineModel.U32 (CoinSelectModel.outputs_weight (outs ++ [dout]) - CoinSelectModel.outputs_weight outs) ∧
      CoinSelectModel.o_base o' = CoinSelectModel.o_base o ∧ CoinSelectModel.o_drain o' = CoinSelectModel.o_drain o ∧
      o = CoinSelectModel.mkOpt (Some (Z.of_N value)) 0 f32_half None 0 (CoinSelectModel.o_base o) (CoinSelectModel.o_drain o)
            (160 + Z.of_N cw) (Z.of_N (dust_value d)) ∧
      (0 ≤ CoinSelectModel.o_base o ≤ 2 ^ 17)%Z ∧ (0 ≤ CoinSelectModel.o_drain o ≤ 2 ^ 17)%Z ∧ cw ≤ 4000000;
  md_cands : CoinSelectModel.cs_opts s = o ∧ CoinSelectModel.cs_cands s = CliSelectProofs.wv_of <$> (vw <$> z);
  md_typed : CoinSelectSpec.typed s; md_modest : CoinSelectSpec.modest s;
  md_finish : CoinSelectModel.finish dbg s = Ret (Ok sn);
  md_strategy : (k, es) ∈ CoinSelectModel.sn_strategies sn;
  md_best : ∀ k' e', (k', e') ∈ CoinSelectModel.sn_strategies sn → (CoinSelectModel.es_waste es ≤ CoinSelectModel.es_waste e')%Z;
  md_sign : sign_inputs km (unsigned_tx x (pf <$> (sel_of z s)) (outs_of value addr sp (CoinSelectModel.es_drain es)))
    ((λ c, fto_txout c.2) <$> (pf <$> (sel_of z s))) 0 (fst <$> (pf <$> (sel_of z s))) = Ret (Ok ws);
  md_t : t = put_witnesses (unsigned_tx x (pf <$> (sel_of z s)) (outs_of value addr sp (CoinSelectModel.es_drain es))) ws;
  md_out : ∃ ad, change = match CoinSelectModel.es_drain es with Some _ => Some (ad, (change_keychain x, i)) | None => None end
}.
Lemma create_tx_made ch x value addr algo x' t change : good x → choices_ok ch → modest_wallet ext int ch x value addr →
  create_tx dbg ch km x value addr algo = Ret (x', Ok (t, change)) →
  ∃ z s sn k es ws d i sp cp cw o, made ch x value addr x' t change z s sn k es ws d i sp cp cw o.
Proof using All.
  intros Hx (Hho & Hst & Hso & Hcl) (Hv & Ha & Hsum & Hdesc & Hmax). unfold create_tx. intros E.
  bind_in E cands E1. bind_in E wvs E2. bind_in E a E3. destruct a as [[ix [i sp]] ad]. cbn [fst snd] in E.
  destruct (ki_keychains ix !! change_keychain x) as [d|] eqn:Ed; [|done].
  bind_in E cp E4. destruct cp as [cp|]; [|done]. bind_in E cw E5. bind_in E o E6. bind_in E r E7. destruct r as [sl|]; [|done].
  bind_in E b E8. destruct b as [k es]. bind_in E selected E9. bind_in E ws E10. destruct ws as [ws|]; [|done].
  injection E as <- <- <-.
  destruct (change_next x ix i sp ad Hx E3) as (d' & Hd' & Hch & Hder & Hrev). rewrite Ed in Hd'. injection Hd' as <-.
  destruct Hmax as (M & HM & Hlen & Hwt).
  destruct (plan_utxos_inv _ _ _ _ E1) as (z & Hz & -> & Hp).
  destruct (Permutation_map_inv (l1 := sort_candidates algo (pf <$> z)) pf z) as (z' & Ez & Hzz).
  { apply sort_candidates_perm. }
  change (map pf z') with (pf <$> z') in Ez. rewrite Ez in *.
  assert (∀ e, e ∈ z' → ∃ d', A e.1.1.1 = Some d' ∧ plans ch d' e.1.1.2 e.2) as Hplan.
  { intros e He. rewrite <-Hzz in He. destruct (Hp e He) as (d' & Hd' & Hpl). exists d'. split; [by eapply keychain_desc|done]. }
  assert (∀ e, e ∈ z' → wt e.2 ≤ M) as HwtM.
  { intros e He. destruct (Hplan e He) as (d' & HdA & Hpl). unfold wt. destruct (PlanModel.expected_weight e.2) eqn:Ew; [by eapply Hwt|lia]. }
  assert (wvs = CliSelectProofs.wv_of <$> (vw <$> z') ∧ ∀ e, e ∈ z' → PlanModel.expected_weight e.2 = Ret (wt e.2)) as [-> Hew].
  { apply all_ret_inv in E2. clear -E2 Hplan HwtM HM. revert wvs E2 Hplan HwtM. induction z' as [|e z' IH]; intros wvs E2 Hplan HwtM.
    - inversion E2. split; [done|]. by intros e ?%elem_of_nil.
    - apply Forall2_cons_inv_l in E2 as (v & wvs' & Ev & E2 & ->).
      destruct (IH wvs' E2) as [-> IH2]; [intros; apply Hplan; by right|intros; apply HwtM; by right|].
      destruct (Hplan e ltac:(by left)) as (d' & _ & Hpl). pose proof (HwtM e ltac:(by left)).
      destruct (weigh_inv _ _ _ _ _ _ Hpl ltac:(lia) Ev) as [Hw ->]. split; [done|]. intros e' [->|He]%elem_of_cons; [done|by apply IH2]. }
  assert (Permutation (z'.*1) (z.*1)) as Hzz1 by (by rewrite Hzz).
  assert (Hutx : ∀ e, e ∈ z' → e.1 ∈ full_utxos (ch_hash ch (cg_graph (tr_cg x))) x).
  { intros e He. rewrite <-Hzz in He. eapply elem_of_submseteq; [|by apply sublist_submseteq, Hz]. by apply elem_of_list_fmap_1. }
  destruct (CliSelectProofs.create_opts_inv dbg d value addr sp cw o) as (o' & Ho' & Ht1 & Ht2 & Hb & Hdr & Ho & Hbr & Hdrr); try done.
  { by eapply Hdesc. }
  { etrans; [by eapply Hwt|done]. }
  destruct (CliSelectProofs.selector_typed (vw <$> z') M o) as [Htyped Hmod]; try (rewrite Ho; done); try done.
  { apply Forall_fmap, Forall_forall. exact HwtM. }
  { rewrite <-list_fmap_compose. change (fst ∘ vw) with (value_of ∘ fst (A := Keychain * N * FullTxOut P) (B := Plan)). rewrite list_fmap_compose.
    etrans; [|exact Hsum]. change (foldr N.add 0) with sumN. rewrite (sumN_perm _ _ (fmap_Permutation value_of _ _ Hzz1)). apply sumN_sublist. by apply fmap_sublist. }
  { rewrite fmap_length, <-Hzz. apply sublist_length in Hz. rewrite fmap_length in Hz. nia. }
  { intros v Hv'. rewrite Ho in Hv'. injection Hv' as <-. lia. }
  { rewrite Ho. cbn. pose proof (Hwt _ _ _ _ _ Hch E4 E5). lia. }
  { rewrite Ho. cbn. pose proof (proj1 (Hdesc _ _ Hch)). lia. }
  destruct (CliSelectProofs.run_selection_inv dbg ch algo _ o sl Htyped Hmod Hso Hcl E7) as (s & Hs1 & Hs2 & Hs3 & Hs4 & Hfin).
  destruct (CoinSelectProofs4.finish_ok_spec dbg s sl Hs3 (λ _, Hs4) Hfin) as (Hsel & _).
  destruct (CoinSelectProofs4.best_of_finish dbg s sl (ch_strategies ch (CoinSelectModel.sn_strategies sl)) Hs3 (λ _, Hs4) Hfin)
    as (k' & es' & Eb & Hin & Hmin); [rewrite Hs1, Ho; done|apply Hst|].
  rewrite Eb in E8. injection E8 as <- <-.
  rewrite CoinSelectProofs4.apply_selection_spec, Hsel, at_indices_fmap in E9.
  2:{ rewrite Hsel. intros j Hj. rewrite fmap_length. destruct Hs3 as (_ & _ & Hs3). specialize (Hs3 j Hj). rewrite Hs2, !fmap_length in Hs3. done. }
  injection E9 as <-.
  exists z', s, sl, k', es', ws, d, i, sp, cp, cw, o. split; try done.
  - assert (NoDup ((λ e, fto_outpoint e.2) <$> z'.*1)) as Hnd; [|by rewrite <-list_fmap_compose in Hnd].
    rewrite Hzz1. eapply sublist_NoDup; [by apply fmap_sublist, Hz|]. 
    eapply sublist_NoDup; [|apply (full_txouts_nodup (ch_hash ch (cg_graph (tr_cg x))) x)]. apply fmap_sublist, filter_sublist.
  - intros e He. apply Hutx in He as He'. unfold full_utxos in He'. apply elem_of_list_filter in He' as [Hun He'].
    destruct e as [[ki f] p]. cbn [fst snd] in *. apply full_txouts_owned in He'; [|by apply (good_ok W ext int)|apply Hho].
    split; [done|]. split; [done|]. split; [by apply (Hew (ki, f, p))|]. by apply (Hplan (ki, f, p)).
  - exists o'. do 8 (split; [done|]). etrans; [by eapply Hwt|done].
  - exists (da_append ∅ ad). done.
Qed.

(** ** The transaction made *)
Lemma put_ins t ws : length ws = length (ct_in t) →
  ci_prev <$> ct_in (put_witnesses t ws) = ci_prev <$> ct_in t ∧ ci_sequence <$> ct_in (put_witnesses t ws) = ci_sequence <$> ct_in t ∧
  ci_witness <$> ct_in (put_witnesses t ws) = ws.
Proof.
  unfold put_witnesses. cbn [ct_in]. generalize (ct_in t). intros l. revert ws. induction l as [|a l IH]; intros [|w ws] El; try done.
  cbn [zip_with fmap list_fmap ci_prev ci_sequence ci_witness]. destruct (IH ws) as (I1 & I2 & I3); [by injection El|]. rewrite I1, I2, I3. done.
Qed.
Lemma picked_sel ch x value addr x' t change z s sn k es ws d i sp cp cw o :
  made ch x value addr x' t change z s sn k es ws d i sp cp cw o →
  CoinSelectSpec.picked s = CliSelectProofs.wv_of <$> (vw <$> sel_of z s).
Proof. intros M. unfold CoinSelectSpec.picked, sel_of. rewrite (proj2 (md_cands _ _ _ _ _ _ _ _ _ _ _ _ _ _ _ _ _ _ _ M)), !at_indices_fmap. done. Qed.
Lemma sel_in ch x value addr x' t change z s sn k es ws d i sp cp cw o e :
  made ch x value addr x' t change z s sn k es ws d i sp cp cw o → e ∈ sel_of z s → e ∈ z.
Proof. intros M He. eapply elem_of_submseteq; [exact He|]. apply sublist_submseteq, at_indices_sublist. Qed.
Lemma wv_values (l : list (N * N)) : CoinSelectSpec.Zsum (CoinSelectModel.wv_value <$> (CliSelectProofs.wv_of <$> l)) = Z.of_N (sumN l.*1).
Proof.
  induction l as [|a l IH]; [done|]. rewrite !fmap_cons. unfold CoinSelectSpec.Zsum, sumN in *. cbn [foldr]. rewrite IH.
  cbn [CliSelectProofs.wv_of CoinSelectModel.wv_value]. lia.
Qed.
Lemma made_ins ch x value addr x' t change z s sn k es ws d i sp cp cw o :
  made ch x value addr x' t change z s sn k es ws d i sp cp cw o →
  ci_prev <$> ct_in t = (λ e, fto_outpoint e.1.2) <$> sel_of z s ∧
  (∀ n, n ∈ ci_sequence <$> ct_in t → n = rbf_sequence) ∧ ci_witness <$> ct_in t = ws ∧ length ws = length (sel_of z s).
Proof.
  intros M. pose proof (CliPlanProofs.sign_inputs_inv _ _ _ _ _ _ (md_sign _ _ _ _ _ _ _ _ _ _ _ _ _ _ _ _ _ _ _ M)) as [Hlen _].
  rewrite !fmap_length in Hlen. rewrite (md_t _ _ _ _ _ _ _ _ _ _ _ _ _ _ _ _ _ _ _ M).
  match goal with |- context [put_witnesses ?t ws] => destruct (put_ins t ws) as (H1' & H2' & H3') end.
  { cbn [unsigned_tx ct_in]. by rewrite !fmap_length. }
  rewrite H1', H2', H3'. split.
  { cbn [unsigned_tx ct_in]. rewrite <-!list_fmap_compose. done. }
  split; [|done]. intros n Hn. cbn [unsigned_tx ct_in] in Hn. rewrite <-!list_fmap_compose in Hn.
  apply elem_of_list_fmap in Hn as (e & -> & He). cbn.
  destruct (md_owned _ _ _ _ _ _ _ _ _ _ _ _ _ _ _ _ _ _ _ M e) as (_ & _ & _ & d' & _ & Hp); [by eapply sel_in|].
  destruct (CliPlanProofs.planned_sequence _ _ _ Hp) as [-> _]. done.
Qed.
Lemma made_fee ch x value addr x' t change z s sn k es ws d i sp cp cw o :
  made ch x value addr x' t change z s sn k es ws d i sp cp cw o →
  (0 ≤ CoinSelectModel.es_fee es)%Z ∧ pays_fee x t (Z.to_N (CoinSelectModel.es_fee es)) ∧
  ct_out t = outs_of value addr sp (CoinSelectModel.es_drain es) ∧
  match CoinSelectModel.es_drain es with Some v => (Z.of_N (dust_value d) ≤ v)%Z | None => True end.
Proof.
  intros M.
  assert (ct_out t = outs_of value addr sp (CoinSelectModel.es_drain es)) as Hout by (by rewrite (md_t _ _ _ _ _ _ _ _ _ _ _ _ _ _ _ _ _ _ _ M)).
  destruct (CoinSelectProofs4.finish_ok_spec dbg s sn (md_typed _ _ _ _ _ _ _ _ _ _ _ _ _ _ _ _ _ _ _ M)
    (λ _, md_modest _ _ _ _ _ _ _ _ _ _ _ _ _ _ _ _ _ _ _ M) (md_finish _ _ _ _ _ _ _ _ _ _ _ _ _ _ _ _ _ _ _ M)) as (_ & _ & _ & _ & Hg & _).
  destruct (Hg _ _ (md_strategy _ _ _ _ _ _ _ _ _ _ _ _ _ _ _ _ _ _ _ M)) as (Hval & _ & _ & Hmf & Hdr & Hrec).
  rewrite (proj1 (md_cands _ _ _ _ _ _ _ _ _ _ _ _ _ _ _ _ _ _ _ M)) in *.
  assert (∃ b dr sd, o = CoinSelectModel.mkOpt (Some (Z.of_N value)) 0 f32_half None 0 b dr sd (Z.of_N (dust_value d))) as (b & dr & sd & ->).
  { destruct (md_opts _ _ _ _ _ _ _ _ _ _ _ _ _ _ _ _ _ _ _ M) as (o' & _ & _ & _ & _ & _ & Ho & _). rewrite Ho. by eexists _, _, _. }
  cbn [CoinSelectModel.o_min_fee CoinSelectModel.o_min_drain CoinSelectModel.o_target CoinSelectModel.o_extra] in *.
  destruct Hrec as (r & Er & Hr & _). assert (r = Z.of_N value) as -> by lia. rewrite Er in Hval. cbn [default from_option] in Hval. unfold id in Hval.
  split; [done|]. split; [|split; [done|]].
  - exists ((λ e, e.1) <$> sel_of z s). split.
    + destruct (made_ins _ _ _ _ _ _ _ _ _ _ _ _ _ _ _ _ _ _ _ M) as (H1' & _). split; [by rewrite H1', <-list_fmap_compose|]. split.
      * rewrite H1'. eapply sublist_NoDup; [apply fmap_sublist, at_indices_sublist|]. apply (md_nodup _ _ _ _ _ _ _ _ _ _ _ _ _ _ _ _ _ _ _ M).
      * intros ki f Hin. apply elem_of_list_fmap in Hin as (e & He & Hin). 
        destruct (md_owned _ _ _ _ _ _ _ _ _ _ _ _ _ _ _ _ _ _ _ M e) as (Ho & Hu & _); [by eapply sel_in|]. rewrite <-He in Ho, Hu. done.
    + unfold CoinSelectSpec.value_in in Hval. rewrite (picked_sel _ _ _ _ _ _ _ _ _ _ _ _ _ _ _ _ _ _ _ M), wv_values in Hval.
      rewrite <-list_fmap_compose in Hval. change (fst ∘ vw) with (λ e : cand, value_of e.1) in Hval.
      rewrite <-list_fmap_compose. change (value_of ∘ (λ e : cand, e.1)) with (λ e : cand, value_of e.1).
      rewrite Hout. unfold outs_of. destruct (CoinSelectModel.es_drain es) as [v|]; unfold sumN at 2; cbn [fmap list_fmap foldr txo_value];
        cbn [default from_option] in Hval; unfold id in Hval; lia.
  - destruct (CoinSelectModel.es_drain es) as [v|]; [|done]. apply Hdr.
Qed.

Lemma create_tx_ok ch x value addr algo x' t change : good x → choices_ok ch → modest_wallet ext int ch x value addr →
  create_tx dbg ch km x value addr algo = Ret (x', Ok (t, change)) →
  (∃ fee, pays_fee x t fee) ∧ ct_version t = 2 ∧ (∀ tip, tip_is x tip → tip < 500000000 → ct_lock_time t = tip) ∧
  (∀ i, i ∈ ct_in t → ci_sequence i = 4294967293) ∧
  match change with
  | None => ct_out t = [mkTxOut value addr]
  | Some (_, (k, i)) => k = match int with Some _ => Internal | None => External end ∧
      ∃ d v s, A k = Some d ∧ derive d i = Some s ∧ reveals_spk x' k i s ∧ dust_value d ≤ v ∧ ct_out t = [mkTxOut value addr; mkTxOut v s]
  end.
Proof using All.
  intros Hx Hch Hm E. destruct (create_tx_made ch x value addr algo x' t change Hx Hch Hm E) as (z & s & sn & k & es & ws & d & i & sp & cp & cw & o & M).
  destruct (made_fee _ _ _ _ _ _ _ _ _ _ _ _ _ _ _ _ _ _ _ M) as (Hfee & Hpay & Hout & Hdust). destruct (made_ins _ _ _ _ _ _ _ _ _ _ _ _ _ _ _ _ _ _ _ M) as (_ & Hseq & _).
  split; [by eexists|]. split; [by rewrite (md_t _ _ _ _ _ _ _ _ _ _ _ _ _ _ _ _ _ _ _ M)|]. split.
  { intros tip Htip Hlt. rewrite (md_t _ _ _ _ _ _ _ _ _ _ _ _ _ _ _ _ _ _ _ M). cbn [put_witnesses unsigned_tx ct_lock_time].
    destruct Htip as [Htip|[-> Hno]].
    - apply latest_tip in Htip. destruct (latest_checkpoint _) as [b|]; [|done]. injection Htip as ->. unfold locktime_of_height.
      by rewrite (proj2 (N.ltb_lt _ _) Hlt).
    - unfold latest_checkpoint. assert (sc_cps (cg_chain (tr_cg x)) = ∅) as -> by (by apply map_empty). done. }
  split. { intros j Hj. apply Hseq. by apply elem_of_list_fmap_1. }
  destruct (md_out _ _ _ _ _ _ _ _ _ _ _ _ _ _ _ _ _ _ _ M) as [ad ->]. rewrite Hout. unfold outs_of. destruct (CoinSelectModel.es_drain es) as [v|]; [|done].
  destruct (md_change _ _ _ _ _ _ _ _ _ _ _ _ _ _ _ _ _ _ _ M) as (H1' & H2' & H3' & _). split; [by apply change_keychain_is|].
  exists d, (Z.to_N v), sp. repeat (split; [done|]). split; [lia|done].
Qed.
End made.
