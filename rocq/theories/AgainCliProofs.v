(** A scan command repeated (C114). *)
From Verif Require Export RestoreProofs7 ElectrumProofs5 CliSyncProofs CliModel.
Local Open Scope N_scope.

Section apply.
Context `{!DescEnv, !CliEnv} `{ChainPosition P} {C : Codec (KChangeSet Keychain P)}.
(** A success applied the scan. *)
Lemma applied_Ok ch (w w' : World P) sc ord evs : electrum_apply ch w sc ord = Ret (w', evs, Ok tt) ∨ esplora_apply ch w sc ord = Ret (w', evs, Ok tt) →
  ∃ cs, tr_apply_update (ch_hash ch (cg_graph (tr_cg (w_tracker w)))) (w_tracker w) sc ord = Ret (Ok (w_tracker w', cs)).
Proof.
  intros [Ea|Ea].
  - unfold electrum_apply, tr_apply_update in *. destruct (tr_determine_changeset _ _ _ _) as [[cs|]|]; [|done..]. cbn [mbind outcome_bind] in Ea.
    unfold db_append in Ea. cbn [w_tracker] in Ea. destruct ((append_changeset _ _ _).2) as [[]|]; [|done].
    destruct (tr_apply_changeset (w_tracker w) cs) as [x|]; [|done]. cbn [mbind outcome_bind] in Ea. injection Ea as <- _. by exists cs.
  - unfold esplora_apply in Ea. destruct (tr_apply_update _ _ _ _) as [[[x cs]|]|]; [|done..]. cbn [mbind outcome_bind] in Ea.
    unfold db_append in Ea. injection Ea as <- _ _. by exists cs.
Qed.
(** Nothing changed: nothing is written. *)
Lemma applied_nothing ch (w : World P) sc ord :
  tr_apply_update (ch_hash ch (cg_graph (tr_cg (w_tracker w)))) (w_tracker w) sc ord = Ret (Ok (w_tracker w, kcs_default)) →
  ∃ r, electrum_apply ch w sc ord = Ret r ∧ esplora_apply ch w sc ord = Ret r ∧
    ∃ w2 evs2, r = (w2, evs2, Ok tt) ∧ w_tracker w2 = w_tracker w ∧ w_file w2 = w_file w.
Proof.
  intros E. exists (mkWorld (w_tracker w) (w_file w) (tail (w_faults w)), [EvAppend kcs_default (default NoFault (head (w_faults w)))], Ok tt).
  split_and!; [| |by eexists _, _].
  - unfold electrum_apply, tr_apply_update in *. destruct (tr_determine_changeset _ _ _ _) as [[cs|]|]; [|done..].
    destruct (tr_apply_changeset (w_tracker w) cs) as [x1|] eqn:E1; [|done]. cbn [mbind outcome_bind] in E. injection E as -> ->.
    cbn [mbind outcome_bind]. unfold db_append. change (append_changeset (w_file w) kcs_default (default NoFault (head (w_faults w)))) with (w_file w, Ok (E := IoError) tt).
    cbn [fst snd w_tracker]. rewrite E1. done.
  - unfold esplora_apply. rewrite E. cbn [mbind outcome_bind]. done.
Qed.
End apply.

(** A wallet that a synchronisation has left as it was. *)
Lemma sync_settled `{!DescEnv} `{ChainPosition P} v (wpos : Txid → P) f x ki g : in_sync v wpos f x x → sf_utxos (sync_flags f) = true → unspent x ki g →
  is_Some (w_tx v (op_txid (fto_outpoint g))) → true_output v wpos g ∧ ¬ w_spent v (fto_outpoint g).
Proof.
  intros Hin Hu Hg Ht. destruct (is_utxos _ _ _ _ _ Hin Hu ki g Hg Ht) as (g' & Hown & Ho & Htrue & Hsp).
  destruct Hg as [Hg Hn]. destruct Hg as (_ & t & Hgt & Hgp & Hgo & Hgc & Hgs). rewrite Hn in Hgs.
  destruct Hown as (_ & t' & Hgt' & Hgp' & Hgo' & Hgc' & Hgs'). rewrite Ho in *.
  assert (t' = t) as -> by congruence. assert (fto_pos g' = fto_pos g) as Ep by congruence. assert (fto_txout g' = fto_txout g) as Eo by congruence.
  split.
  - destruct Htrue as (a & A1 & A2 & A3 & A4). rewrite Ho in *. exists a. split_and!; [done|congruence|congruence|congruence].
  - destruct (fto_spent_by g') as [[p s]|] eqn:Es.
    + exfalso. destruct Hgs' as (Hp & b & Hb & Hbi & Hnn). apply Hnn, (Hgs s b); [by exists p|done|done].
    + destruct Hsp as [Hts|(p & s & ? & _)]; [|congruence]. unfold true_spend in Hts. by rewrite Es, Ho in Hts.
Qed.

Section commands.
Context `{!DescEnv, !CliEnv, !PlanModel.KeyEnv} {C : Codec (KChangeSet Keychain TxHeight)}.
Context (W : Txid → list OutPoint) (dbg : bool) (ext : Desc) (int : option Desc).
Notation A := (keychains ext int).
Context (HA : good_env A).
Context (v : ScanSpec.World) (Hw : world_ok v) (Hsane : world_sane W v) (Htx : ∀ t a, w_tx v t = Some a → tx_ok a).
Notation wpos := (w_position v).
Notation good := (CliProofs.good W ext int).

Lemma scan_asks (w w' : World TxHeight) srv fuel ch po (gap : N) batch n n' evs :
  (∀ h, is_Some (sc_cps (cg_chain (tr_cg (w_tracker w))) !! h) → h ≤ w_tip v) → good (w_tracker w) →
  (∀ n, electrum_honest v (srv n)) → hash_fun_ok (ch_hash ch) → (∀ c, po c ≡ₚ map_to_list (sc_pos c)) → (0 < batch)%nat →
  electrum_scan dbg srv (S fuel) ch po gap batch w n = Done n' (w', evs, Ok tt) →
  wallet_asks v gap (spks_of_all_keychains (tr_index (w_tracker w))) [] [] (w_tracker w) (w_tracker w').
Proof using Hw.
  intros Hlow Hg Hsrv Hho Hpo Hb E. unfold electrum_scan in E. set (kspks := spks_of_all_keychains (tr_index (w_tracker w))) in *. clearbody kspks.
  apply bnd_Done in E as (n1 & e & Es & E).
  destruct (scan_ends v Hw dbg srv Hsrv fuel _ kspks [] [] gap batch Hlow Hb (Forall_nil_2 _) (Forall_nil_2 _) n) as (n2 & e2 & Es2 & He).
  rewrite Es in Es2. injection Es2 as <- <-.
  unfold electrum_finish in E. apply bnd_Done in E as (n2 & new_txs & Er & E). unfold req in Er.
  destruct (batch_ok v Hw (srv n1) (missing_full_txs e (cg_graph (tr_cg (w_tracker w)))) (Hsrv n1)) as (ts & Eb & Hnew & Hall).
  { unfold missing_full_txs. apply Forall_fmap, Forall_forall. intros [p t] [_ Hin']%elem_of_list_filter.
    rewrite txids_elem in Hin' by apply (sf_usable _ _ _ _ _ _ _ He). by eapply (scan_known v Hw) in Hin' as [_ ?]. }
  rewrite Eb in Er. injection Er as _ <-. apply bnd_Done in E as (n3 & r & El & E). unfold lift in El.
  destruct (into_keychain_scan _ _ _ _) as [[sc|]|] eqn:Ei; [|injection El as _ <-; done|done]. injection El as _ <-. unfold lift in E.
  destruct (electrum_apply _ _ _ _) as [r|] eqn:Ea; [|done]. injection E as _ ->. destruct (applied_Ok ch w w' sc _ evs (or_introl Ea)) as [cs Eu].
  exists srv, dbg, fuel, n, n1, batch, e, ts, (ch_hash ch (inflate_graph (tr_cg (w_tracker w)) (eu_chain e) ts)), (ch_hash ch), sc, (po (eu_chain e)), cs.
  split_and!; try done; apply Forall_nil_2.
Qed.

Lemma scan_again (w w' : World TxHeight) srv fuel ch po (gap : N) batch n n' evs srv2 dbg2 fuel2 ch2 po2 (gap2 : N) batch2 :
  good (w_tracker w) → fit_seen v wpos (of_scripts v A (in_gap v gap A)) (w_tracker w) →
  (∀ n, electrum_honest v (srv n)) → hash_fun_ok (ch_hash ch) → (∀ c, po c ≡ₚ map_to_list (sc_pos c)) → (0 < batch)%nat →
  electrum_scan dbg srv (S fuel) ch po gap batch w n = Done n' (w', evs, Ok tt) →
  gap2 ≤ gap → (∀ n, electrum_honest v (srv2 n)) → hash_fun_ok (ch_hash ch2) → (∀ c, po2 c ≡ₚ map_to_list (sc_pos c)) → (0 < batch2)%nat →
  ends (electrum_scan dbg2 srv2 (S fuel2) ch2 po2 gap2 batch2 w') (λ r, ∃ w2 evs2, r = (w2, evs2, Ok tt) ∧
    w_tracker w2 = w_tracker w' ∧ w_file w2 = w_file w').
Proof using HA Hw Hsane Htx.
  intros Hg Hfit Hsrv Hho Hpo Hb E Hgap Hsrv2 Hho2 Hpo2 Hb2. set (x := w_tracker w) in *.
  destruct (good_parts W ext int HA x Hg) as ([hs Hi] & Hcg & Hin & Hk).
  pose proof (scan_asks w w' srv fuel ch po gap batch n n' evs (ls_low _ _ _ _ (proj1 (proj2 (proj2 (proj2 Hfit))))) Hg Hsrv Hho Hpo Hb E) as Hasks.
  fold x in Hasks. set (kspks := spks_of_all_keychains (tr_index x)) in *.
  assert (∀ k i, within v gap kspks k i ↔ in_gap v gap A k i) as Hin_gap by (intros k i; by apply all_within).
  assert (scripts_of (tr_index x) kspks) as Hsp by (apply (all_scripts A); [done|apply Hk]).
  assert (fit_seen v wpos (sought v kspks [] [] gap) x) as Hfit2.
  { eapply fit_seen_mono; [|exact Hfit]. intros t (k & i & d & sp & HF & Hd & Hder & Ht). apply Hin_gap in HF as (l & Hl & p & sp' & Hp & Hgp).
    left. exists k, l, p, i, sp'. split; [done|]. split; [done|]. split; [done|].
    destruct (Hsp k l Hl) as (d' & Hd'%Hk & Hall). destruct (Hall p i sp' Hp) as (_ & _ & Hder'). by simplify_eq. }
  pose proof Hasks as (srv0 & dbg0 & fuel0 & m & m' & batch0 & e & new_txs & ho1 & ho & sc & ord & cs &
    Hsrv0 & Hb0 & _ & _ & Es & Hnew & Hall & Hho1 & Hho0 & Hord & Ei & Ea).
  assert (ki_keychains (tr_index (w_tracker w')) = ki_keychains (tr_index x)) as Hkey.
  { destruct (electrum_ok W v Hw Hsane srv0 Hsrv0 dbg0 fuel0 x kspks [] [] gap batch0 Hcg Hin (proj2 (proj2 (proj2 (proj2 Hfit2))))
      (ls_low _ _ _ _ (proj1 (proj2 (proj2 (proj2 Hfit2))))) Hsp Hb0 (Forall_nil_2 _) (Forall_nil_2 _) m) as (m2 & e2 & Es2 & He).
    rewrite Es in Es2. injection Es2 as <- <-. destruct (He new_txs ho1 Hnew Hall Hho1) as (sc2 & Ei2 & Hch & Hso & Hfound).
    rewrite Ei in Ei2. injection Ei2 as <-. apply (fit_seen_mono v wpos _ _ x Hfound) in Hfit2. rewrite <- Hch in Hord.
    by destruct (synced_fit A HA W v wpos Hw Hsane ltac:(done) Htx x (w_tracker w') cs hs _ sc Hso Hi Hcg Hin Hfit2 ho ord Hho0 Hord Ea) as (_ & _ & _ & _ & Hkey & _). }
  assert (spks_of_all_keychains (tr_index (w_tracker w')) = kspks) as Hspks by (unfold kspks, spks_of_all_keychains; by rewrite Hkey).
  unfold electrum_scan. rewrite Hspks. eapply ends_bnd.
  { apply (sync_again A HA W v Hw Hsane Htx hs gap gap2 kspks kspks [] [] [] [] x (w_tracker w')); try done.
    - split; [done|]. split; [|done]. intros k l Hl. by exists l.
    - intros k l Hl. destruct (Hsp k l Hl) as (d & Hd & Hr). exists d. by rewrite Hkey. }
  intros e2 [Hmiss Hno]. unfold electrum_finish. rewrite Hmiss. eapply ends_bnd.
  { apply (ends_req _ _ (λ ts, ts = [])). intros k. by exists []. }
  intros ts ->. destruct (Hno (ch_hash ch2 (inflate_graph (tr_cg (w_tracker w')) (eu_chain e2) [])) (ch_hash ch2) (po2 (eu_chain e2))) as (sc2 & Ei2 & Ea2); [apply Hho2|done|apply Hpo2|].
  eapply ends_bnd. { apply ends_lift. exists (Ok sc2). split; [exact Ei2|]. exact (eq_refl (Ok sc2)). }
  intros r <-. destruct (applied_nothing ch2 w' sc2 _ Ea2) as (r & Er & _ & Hr). apply ends_lift. by exists r.
Qed.
End commands.
