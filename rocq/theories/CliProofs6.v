(** Proofs about the command line wallet: the witnesses of the transactions it makes. *)
From Verif Require PlanProofs3.
From Verif Require Export CliProofs5.
Local Open Scope N_scope.

Section witnesses.
Context `{!DescEnv, !CliEnv, !PlanModel.KeyEnv} `{ChainPositionLaws P} {C : Codec (KChangeSet Keychain P)}.
Context (W : Txid → list OutPoint) (dbg : bool) (ext : Desc) (int : option Desc) (km : PlanModel.KeyMap).
Notation A := (keychains ext int).
Context (HA : good_env A).
Implicit Types (x y : Tracker Keychain P) (ch : Choices P).
Notation good := (good W ext int).
Context `{!ScriptSpec.KeyLaws} (Hsig : ∀ sk m, length (PlanModel.schnorr_sign sk m) = 64%nat).

Lemma put_stripped t ws : length ws = length (ct_in t) → (∀ i, i ∈ ct_in t → ci_witness i = []) → stripped (put_witnesses t ws) = t.
Proof.
  destruct t as [v l ins outs]. unfold stripped, put_witnesses. cbn [ct_in ct_version ct_lock_time ct_out]. intros Hl Hn. f_equal.
  revert ws Hl. induction ins as [|i ins IH]; intros [|w ws] Hl; try done. cbn [zip_with fmap list_fmap]. f_equal.
  - specialize (Hn i ltac:(by left)). destruct i as [pr sq wi]. cbn in *. by rewrite Hn.
  - apply IH; [intros; apply Hn; by right|by injection Hl].
Qed.
Lemma create_tx_signed R valid ch x value addr algo x' t change : good x → choices_ok ch → modest_wallet ext int ch x value addr →
  PlanSpec.ring_laws R → PlanSpec.honest_keymap R km → honest_keys R ext int ch → simple_leaves ext int →
  (∀ k sk msg, PlanSpec.key_secret R k = Some sk → valid msg (PlanModel.xonly_bytes k) (PlanModel.schnorr_sign sk msg) = true) →
  create_tx dbg ch km x value addr algo = Ret (x', Ok (t, change)) →
  ∃ sel, spends x t sel ∧ ∀ j i ki f, ct_in t !! j = Some i → sel !! j = Some (ki, f) →
    ∃ d tr, A ki.1 = Some d ∧ desc_at d ki.2 = PlanModel.DTr tr ∧ input_signed R valid t ((λ kf, fto_txout kf.2) <$> sel) j tr i.
Proof using All.
  intros Hg Hch Hmod HR Hkm Hkeys Hleaf Hvalid E.
  destruct (create_tx_made W dbg ext int km HA ch x value addr algo x' t change Hg Hch Hmod E)
    as (z & s & sn & k & es & ws & d & i & sp & cp & cw & o & M).
  pose proof (λ e, sel_in _ _ _ _ _ _ _ _ _ _ _ _ _ _ _ _ _ _ _ _ _ _ _ e M) as Hsel.
  destruct (made_ins _ _ _ _ _ _ _ _ _ _ _ _ _ _ _ _ _ _ _ _ _ _ _ M) as (Hprev & Hseq & Hwit & Hlen).
  exists (fst <$> sel_of z s). split.
  { split; [by rewrite Hprev, <-list_fmap_compose|]. split.
    - rewrite Hprev. eapply sublist_NoDup; [apply fmap_sublist, at_indices_sublist|].
      exact (md_nodup _ _ _ _ _ _ _ _ _ _ _ _ _ _ _ _ _ _ _ _ _ _ _ M).
    - intros ki f He. apply elem_of_list_fmap in He as (e & Ee & He). apply Hsel in He.
      destruct (md_owned _ _ _ _ _ _ _ _ _ _ _ _ _ _ _ _ _ _ _ _ _ _ _ M e He) as (H1' & H2' & _). rewrite <-Ee in H1', H2'. done. }
  intros j ti ki f Hti Hf. rewrite list_lookup_fmap in Hf. destruct (sel_of z s !! j) as [e|] eqn:He; [|done]. injection Hf as Ee.
  destruct (CliPlanProofs.sign_inputs_inv _ _ _ _ _ _ (md_sign _ _ _ _ _ _ _ _ _ _ _ _ _ _ _ _ _ _ _ _ _ _ _ M)) as [Hlen' Hw].
  destruct (Hw j e.2) as (r & m & w & Hwj & Hr & _ & Hsign & Hc); [by rewrite !list_lookup_fmap, He|].
  destruct (md_owned _ _ _ _ _ _ _ _ _ _ _ _ _ _ _ _ _ _ _ _ _ _ _ M e) as (_ & _ & _ & d' & Hd' & Hp); [apply Hsel; by eapply elem_of_list_lookup_2|].
  rewrite Ee in Hd', Hp. pose proof (λ r key, Hkeys _ _ _ _ r key Hd' Hp) as Hkeys'. cbn [fst] in Hd', Hp.
  unfold plans in Hp. destruct (CliPlanProofs.planned_tr _ _ _ Hp) as [tr Htr].
  exists d', tr. split; [done|]. split; [done|]. rewrite Htr in Hp.
  assert (ci_witness ti = w) as Hwt.
  { rewrite <-Hwit, list_lookup_fmap, Hti in Hwj. by injection Hwj. }
  assert (stripped t = unsigned_tx x ((λ e, (e.2, e.1.2)) <$> sel_of z s) (outs_of value addr sp (CoinSelectModel.es_drain es))) as Hst.
  { rewrite (md_t _ _ _ _ _ _ _ _ _ _ _ _ _ _ _ _ _ _ _ _ _ _ _ M) at 1. apply put_stripped.
    - rewrite Hlen. unfold unsigned_tx. cbn [ct_in]. by rewrite !fmap_length.
    - intros i' Hi'. unfold unsigned_tx in Hi'. cbn [ct_in] in Hi'. apply elem_of_list_fmap in Hi' as (? & -> & _). done. }
  unfold input_signed. rewrite Hst, Hwt.
  rewrite Nat.add_0_l in Hsign. 
  assert (((λ c : PlanModel.Plan PlanModel.DescKey * FullTxOut P, fto_txout c.2) <$> ((λ e, (e.2, e.1.2)) <$> sel_of z s))
    = ((λ kf : Keychain * N * FullTxOut P, fto_txout kf.2) <$> (fst <$> sel_of z s))) as Hpv by (by rewrite <-!list_fmap_compose).
  rewrite Hpv in Hsign.
  eapply CliPlanProofs.signed_witness; [exact Hsig|exact Hvalid|exact HR|exact Hkm|exact Hp|exact Hr| | |exact Hsign|exact Hc].
  - intros key Hkey. exact (Hkeys' _ _ Hr Hkey).
  - intros leaf Hl. by eapply Hleaf.
Qed.
End witnesses.
