(** A wallet persisted through a store, and restored. *)
From Verif Require Export FileStoreProofs2.

Section store.
Context `{!DescEnv} `{Countable K, !Ord K, !OrdLaws K} `{ChainPositionLaws P} {C : Codec (KChangeSet K P)}.
Context (wf : KChangeSet K P → Prop) (HC : codec_ok C wf) (Hdef : wf kcs_default).
Implicit Types (f : File) (cs : KChangeSet K P) (l : list (KChangeSet K P)) (b t r : bytes).

Lemma persist_store_ok f0 faults (h : list (pe_op K P)) :
  fs_new_from_path None None = (magic, Ok f0) → Forall clean faults →
  (∀ l1 l2 l3, staged_in h = l1 ++ l2 ++ l3 → wf (fold_changes l2)) →
  ∃ segs rest f1, staged_in h = concat segs ++ rest ∧ pe_stage (pe_run (mkSB f0 faults) h) = fold_changes rest ∧
    reopen (sb_file (pe_backend (pe_run (mkSB f0 faults) h))) = Ok f1 ∧
    (∃ f2, aggregate_changeset f1 = Some (Ret (fold_changes (recorded (fold_changes <$> segs)), f2, Ok tt))) ∧
    ∀ x, ∃ f2, load_into_keychain_tracker f1 x = Some (y ← tr_replay x (recorded (fold_changes <$> segs)); Ret (y, f2, Ok tt)).
Proof.
  intros Hf0 Hfaults Hwf. destruct (staging_ok (mkSB f0 faults) h) as (at_ & segs & rest & I1 & I2 & I3 & I4 & I5).
  assert (f_bytes f0 = log_bytes [] ∧ f_pos f0 = length (log_bytes [])) as [Hb0 Hp0].
  { injection Hf0 as <-. done. }
  destruct (feed_store f0 faults [] at_ Hfaults Hb0 Hp0) as [Hb _]. rewrite I3 in Hb. cbn [app] in Hb.
  assert (Forall wf (fold_changes <$> segs)) as Hsegs.
  { apply Forall_forall. intros cs Hcs. apply elem_of_list_fmap in Hcs as (seg & -> & Hseg).
    apply elem_of_list_split in Hseg as (s1 & s2 & ->). rewrite concat_app in I4. cbn [concat] in I4.
    apply (Hwf (concat s1) seg (concat s2 ++ rest)). rewrite I4, <- !(assoc_L (++)). done. }
  rewrite I1. exists segs, rest. set (f := sb_file (feed (mkSB f0 faults) at_).1) in *.
  exists (mkFile (f_bytes f) (length magic)).
  assert (f_bytes f = log_bytes (recorded (fold_changes <$> segs)) ++ []) as Hb' by (by rewrite app_nil_r).
  split_and!; [done|done|by eapply reopen_log| |].
  - eexists. rewrite (aggregate_ok wf HC Hdef (mkFile (f_bytes f) (length magic)) _ [] Hb'); [done|by left|by apply recorded_wf].
  - intros x. eexists. rewrite (load_ok wf HC Hdef (mkFile (f_bytes f) (length magic)) _ [] x Hb'); [done|by left|by apply recorded_wf].
Qed.

(** Empty changesets, which are not written, do nothing. *)
Lemma is_empty_default cs : kcs_is_empty cs = true → cs = kcs_default.
Proof.
  unfold kcs_is_empty, cgs_is_empty, cs_is_empty, ad_is_empty, da_is_empty.
  destruct cs as [ind [[cps txs] [tx txo]]]. cbn [kcs_cg kcs_indices cgs_chain cgs_graph cs_cps cs_txids ad_tx ad_txout].
  rewrite !andb_true_iff, !bool_decide_eq_true. intros [[[-> ->] [-> ->]] ->]. done.
Qed.
Lemma apply_empty (x : Tracker K P) : within_limit (cg_chain (tr_cg x)) → tr_apply_changeset x kcs_default = Ret x.
Proof.
  intros Hw. unfold tr_apply_changeset.
  change (kcs_indices kcs_default) with (∅ : DerivationAdditions K).
  unfold ki_apply_additions, reveal_to_target_multi. rewrite bmap_list_empty. cbn [foldl mbind outcome_bind].
  change (ad_txouts (cgs_graph (kcs_cg kcs_default))) with (@nil (OutPoint * TxOut)).
  unfold ki_scan. cbn [foldl mbind outcome_bind fst].
  unfold cg_apply_changeset. change (cgs_chain (kcs_cg kcs_default)) with (cs_default : ChangeSet P).
  change (cgs_graph (kcs_cg kcs_default)) with ad_default.
  rewrite apply_default_chain, apply_additions_default, prune_within by done.
  by destruct x as [i [c g]].
Qed.
Lemma apply_within (x : Tracker K P) cs y : tr_apply_changeset x cs = Ret y → within_limit (cg_chain (tr_cg y)).
Proof.
  intros E. rewrite (apply_tr_cg _ _ _ E). unfold cg_apply_changeset. cbn [cg_chain]. unfold apply_changeset.
  intros n Hn. rewrite prune_limit in Hn. by apply prune_size.
Qed.
Lemma replay_recorded l (x : Tracker K P) : within_limit (cg_chain (tr_cg x)) → tr_replay x (recorded l) = tr_replay x l.
Proof.
  revert x. induction l as [|cs l IH]; intros x Hw; [done|]. unfold recorded. rewrite filter_cons.
  destruct (decide (kcs_is_empty cs = false)) as [Hne|Hne].
  - cbn [tr_replay]. destruct (tr_apply_changeset x cs) as [y|] eqn:E; [|done]. apply IH. by eapply apply_within.
  - assert (cs = kcs_default) as -> by (apply is_empty_default; by destruct (kcs_is_empty cs)).
    cbn [tr_replay]. rewrite apply_empty by done. by apply IH.
Qed.
Lemma setup_within s lm (x : Tracker K P) : tr_setup s lm = Ret x → within_limit (cg_chain (tr_cg x)).
Proof.
  unfold tr_setup. destruct (ki_run s) as [[[i o] a]|]; [|done]. intros [= <-]. cbn [tr_cg].
  intros n Hn. unfold cg_set_checkpoint_limit, cg_chain, set_checkpoint_limit in *.
  rewrite prune_limit in Hn. apply prune_size. done.
Qed.

(** What a sequence of commits leaves in the file. *)
Lemma commit_each_file (f : File) l1 l : f_bytes f = log_bytes l1 → f_pos f = length (log_bytes l1) →
  let p := foldl pe_step (mkPersist (mkSB f []) kcs_default) (commit_each l) in
  f_bytes (sb_file (pe_backend p)) = log_bytes (l1 ++ recorded l) ∧ pe_stage p = kcs_default.
Proof.
  revert f l1. induction l as [|cs l IH]; intros f l1 Hb Hp.
  - cbn. by rewrite app_nil_r.
  - unfold commit_each. cbn [mbind list_bind]. change (l ≫= _) with (commit_each l). cbn [app foldl].
    assert (pe_step (pe_step (mkPersist (mkSB f []) kcs_default) (PeStage cs)) PeCommit =
      mkPersist (mkSB (append_changeset f cs NoFault).1 []) kcs_default) as ->.
    { unfold pe_step, pe_stage_change, pe_commit. cbn [pe_backend pe_stage]. rewrite kcs_append_default_l.
      unfold backend_append, store_backend. cbn [sb_file sb_faults head tail default].
      assert ((append_changeset f cs NoFault).2 = Ok tt) as ->; [|done].
      unfold append_changeset. destruct (kcs_is_empty cs); [done|]. by rewrite andb_false_r. }
    assert (recorded (cs :: l) = recorded [cs] ++ recorded l) as ->.
    { unfold recorded. by rewrite <- filter_app. }
    rewrite (assoc_L (++)).
    pose proof (append_clean f l1 cs NoFault (or_introl eq_refl) Hb Hp) as Ha. cbn zeta in Ha.
    assert ((append_changeset f cs NoFault).2 = Ok tt) as Hok.
    { unfold append_changeset. destruct (kcs_is_empty cs); [done|]. by rewrite andb_false_r. }
    rewrite Hok in Ha. destruct Ha as [Hb' Hp']. by apply IH.
Qed.
Lemma wallet_ok A W s lm lm' (h : list (tr_op K P)) x0 y0 f0 :
  good_env A → ki_hist_ok A s → tr_setup s lm = Ret x0 → tr_setup s lm' = Ret y0 → Forall (tr_op_ok A W s) h →
  fs_new_from_path None None = (magic, Ok f0) →
  ∃ x l1, tr_run x0 h = Ret (x, l1) ∧
    (Forall wf l1 → ∃ f1 y f2,
      reopen (sb_file (pe_backend (pe_run (mkSB f0 []) (commit_each l1)))) = Ok f1 ∧
      load_into_keychain_tracker f1 y0 = Some (Ret (y, f2, Ok tt)) ∧
      same_index (tr_index x) (tr_index y) ∧ same_txs (tr_cg x) (tr_cg y) ∧
      (Forall (λ op, ¬ offers_outputs op) h → same_outputs (tr_index x) (tr_index y)) ∧
      (lm = lm' → Forall (λ op, ¬ sets_limit op) h → tr_cg x = tr_cg y)).
Proof.
  intros HA Hs Ex Ey Hh Hf0. destruct (replay_ok A W s lm lm' h x0 y0 HA Hs Ex Ey Hh) as (x & l1 & y & E1 & E2 & R1 & R2 & R3 & R4).
  exists x, l1. split; [done|]. intros Hwf.
  assert (f_bytes f0 = log_bytes [] ∧ f_pos f0 = length (log_bytes [])) as [Hb0 Hp0].
  { injection Hf0 as <-. done. }
  destruct (commit_each_file f0 [] l1 Hb0 Hp0) as [Hb _]. cbn [app] in Hb.
  change (foldl pe_step (mkPersist (mkSB f0 []) kcs_default) (commit_each l1)) with (pe_run (mkSB f0 []) (commit_each l1)) in Hb.
  set (f := sb_file _) in *.
  assert (f_bytes f = log_bytes (recorded l1) ++ []) as Hb' by (by rewrite app_nil_r).
  eexists (mkFile (f_bytes f) (length magic)), y, _. split_and!; [by eapply reopen_log| |done|done|done|done].
  rewrite (load_ok wf HC Hdef (mkFile (f_bytes f) (length magic)) _ [] y0 Hb'); [|by left|by apply recorded_wf].
  rewrite replay_recorded, E2 by (by eapply setup_within). cbn. reflexivity.
Qed.
End store.

(** With the encoding of CodecModel. *)
Section concrete.
Context `{!DescEnv} `{Countable K, !Ord K, !OrdLaws K} `{ChainPositionLaws P} `{!LeafCodecs K P, !LeafWf K P, !LeafOk K P}.
Lemma kcs_range_default : kcs_wf (kcs_default : KChangeSet K P).
Proof.
  assert (∀ A `{Countable A} V (wk : A → Prop) (wv : V → Prop), map_range wk wv (∅ : gmap A V)) as Hm.
  { intros A EA CA V wk wv. split; [rewrite map_size_empty; by apply N.le_0_l|]. intros k v Hk. by rewrite lookup_empty in Hk. }
  split_and!; try apply Hm. split; [cbn; rewrite size_empty; by apply N.le_0_l|]. intros a Ha. by apply elem_of_empty in Ha.
Qed.
End concrete.
