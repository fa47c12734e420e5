(** Proofs about the command line wallet: what it gives away is on disk (C62, C78, C79). *)
From Verif Require Export CliSpec FileStoreProofs3.
Local Open Scope N_scope.

Global Instance Keychain_laws : OrdLaws Keychain.
Proof. split; intros; repeat match goal with k : Keychain |- _ => destruct k end; done. Qed.

Section cli.
Context `{!DescEnv, !CliEnv, !PlanModel.KeyEnv} `{ChainPositionLaws P} {C : Codec (KChangeSet Keychain P)}.
Context (wf : KChangeSet Keychain P → Prop) (HC : codec_ok C wf) (Hdef : wf kcs_default).
Context (W : Txid → list OutPoint) (dbg : bool) (limit : nat) (ext : Desc) (int : option Desc) (km : PlanModel.KeyMap).
Notation A := (keychains ext int).
Notation s := (adds ext int).
Context (HA : good_env A).
Implicit Types (x y z : Tracker Keychain P) (w : World P) (ch : Choices P) (evs : list (event P)).
Implicit Types (f : File) (cs : KChangeSet Keychain P) (l : list (KChangeSet Keychain P)) (b t : bytes).

(** ** Set-up *)
Lemma fresh_setup : fresh_tracker (P := P) limit ext int = tr_setup s (Some limit).
Proof.
  clear HA. unfold fresh_tracker, tr_setup, ki_run, tr_add_keychain, tr_set_checkpoint_limit. destruct int as [d|]; [|done].
  cbn. done.
Qed.
Lemma adds_ok : ki_hist_ok A s.
Proof.
  clear HA. intros h1 op h2 E. unfold adds in E.
  destruct h1 as [|o1 h1]; cbn [app] in E.
  - by injection E as <- _.
  - injection E as _ E. destruct int as [d|] eqn:Ei; [|by destruct h1].
    destruct h1 as [|o2 h1]; cbn [app] in E.
    + injection E as <- _. cbn. done.
    + injection E as _ E. by destruct h1.
Qed.
Lemma known_adds k : known s k ↔ is_Some (A k).
Proof.
  clear HA. unfold known, adds. split.
  - intros [d Hin]. apply elem_of_cons in Hin as [[= -> ->]|Hin]; [by eexists|].
    destruct int as [d'|] eqn:E; [|by apply elem_of_nil in Hin]. apply elem_of_list_singleton in Hin as [= -> ->]. cbn. eauto.
  - intros [d Hd]. exists d. destruct k; cbn in Hd.
    + injection Hd as <-. by left.
    + destruct int as [d'|] eqn:E; [|done]. injection Hd as <-. right. by left.
Qed.

(** ** Loaded wallets *)
Definition good y : Prop := twins A W s y y ∧ within_limit (cg_chain (tr_cg y)).
Lemma fresh_good : ∃ x0, fresh_tracker limit ext int = Ret x0 ∧ good x0.
Proof.
  destruct (setup_total (P := P) A s (Some limit) HA adds_ok) as [x0 E]. exists x0. rewrite fresh_setup. split; [done|].
  destruct (setup_twins A W s (Some limit) (Some limit) x0 x0 HA adds_ok E E) as (Ht & _ & _ & Hw). by split.
Qed.
Lemma good_keychain y k : good y → is_Some (A k) → ∃ d hs, ki_inv A hs (tr_index y) ∧ ki_keychains (tr_index y) !! k = Some d.
Proof.
  intros [((hs & Hi) & _ & _ & Hk & _) _] Hin. destruct (Hk k) as [d Hd]; [by apply known_adds|]. eauto.
Qed.
Lemma keychain_known y k d : good y → ki_keychains (tr_index y) !! k = Some d → known s k.
Proof. intros [((hs & Hi) & _) _] Hd. apply known_adds. rewrite (proj1 (proj1 Hi) k d Hd). eauto. Qed.
Lemma change_known y : good y → known s (change_keychain y).
Proof.
  intros Hy. unfold change_keychain. destruct (ki_keychains (tr_index y) !! Internal) as [d|] eqn:E.
  - by eapply keychain_known.
  - apply known_adds. by eexists.
Qed.

Lemma reveals_sim hs hs' x y k i sp :
  ki_inv A hs (tr_index x) → ki_inv A hs' (tr_index y) → sim (tr_index x) (tr_index y) → reveals_spk x k i sp → reveals_spk y k i sp.
Proof.
  intros Hx Hy Hs (H1' & H2' & H3'). pose proof (sim_indices A hs hs' _ _ Hx Hy Hs) as Ei. destruct Hs as (_ & E2 & _ & E4).
  unfold reveals_spk, n_revealed, si_spk_at, si_index_of_spk in *. by rewrite <- E2, <- E4, <- Ei.
Qed.
Lemma reveals_intro hs x k i sp : ki_inv A hs (tr_index x) →
  i < n_revealed (tr_index x) k → si_spk_at (ki_inner (tr_index x)) (k, i) = Some sp → reveals_spk x k i sp.
Proof.
  intros Hi Hn Hs. split; [done|]. split; [done|]. unfold si_index_of_spk, si_spk_at in *.
  by apply (si_good_inverse hs _ (k, i) sp (proj1 (proj2 (proj1 Hi)))).
Qed.
Lemma reveals_kept x y k i sp : good y → kept (tr_index x) (tr_index y) → reveals_spk x k i sp → reveals_spk y k i sp.
Proof.
  intros [((hs & Hi) & _) _] [K1 K2] (H1' & H2' & _). eapply (reveals_intro hs); [done| |by apply K2].
  specialize (K1 k). lia.
Qed.

(** ** Calls on a loaded wallet and their changesets *)
Lemma good_op y op : good y → tr_op_ok A W s op → ¬ sets_limit op →
  ∃ x' l0 y', tr_step y op = Ret (x', l0) ∧ tr_replay y l0 = Ret y' ∧ good y' ∧ kept (tr_index y) (tr_index y') ∧
    tr_cg y' = tr_cg x' ∧ (∀ k i sp, i < n_revealed (tr_index x') k → si_spk_at (ki_inner (tr_index x')) (k, i) = Some sp → reveals_spk y' k i sp).
Proof.
  intros [Ht Hw] Hop Hl. destruct (twins_step A W s y y op HA Ht Hop) as (x' & l0 & y' & E1 & E2 & Ht' & _ & Hct & Hk).
  exists x', l0, y'. split; [done|]. split; [done|]. destruct (Hct Hl eq_refl Hw) as [Ec Hw'].
  pose proof Ht' as ((hs1 & I1) & (hs2 & I2) & Hs & Hkn & Hb & Eg & Ep & Eo).
  assert (tr_cg y' = tr_cg x') as Ecg. { destruct (tr_cg x'), (tr_cg y'). cbn in *. congruence. }
  assert (good y') as Hy'.
  { split; [|by rewrite Ecg]. eapply twins_refl; [exact I2| |by rewrite Ecg]. intros k Hkk. rewrite <- (proj1 Hs). auto. }
  split; [done|]. split; [|split; [done|]].
  - destruct Hk as [K1 K2]. destruct Hs as (_ & S2 & _ & S4). split.
    + intros k. specialize (K1 k). unfold n_revealed in *. by rewrite <- S2.
    + intros ki sp Hsp. rewrite <- S4. by apply K2.
  - intros k i sp Hi Hsp. eapply (reveals_sim hs1 hs2); [done..|]. by eapply (reveals_intro hs1).
Qed.

(** ** Events *)
Lemma logged_app evs evs' : logged (evs ++ evs') = logged evs ++ logged evs'.
Proof. unfold logged, recorded. by rewrite omap_app, filter_app. Qed.
Lemma logged_append cs e : logged [EvAppend cs e] = if reached cs e then recorded [cs] else [].
Proof. unfold logged. cbn [omap list_omap]. by destruct (reached cs e). Qed.
Lemma disk_app f evs evs' : disk f (evs ++ evs') = disk (disk f evs) evs'.
Proof. apply foldl_app. Qed.

(** What the wallet on disk knows of what is given away. *)
Definition safe y (ev : event P) : Prop :=
  match ev with
  | EvAppend _ _ => True
  | EvAddress k i sp => reveals_spk y k i sp
  | EvBroadcast u None _ => ∃ r, ct_out u = [r]
  | EvBroadcast u (Some (k, i)) _ => ∃ r v sp, ct_out u = [r; mkTxOut v sp] ∧ reveals_spk y k i sp
  end.
Fixpoint story y f l evs : Prop :=
  match evs with
  | [] => True
  | EvAppend cs e :: evs =>
      let f' := (append_changeset f cs e).1 in
      let l' := logged [EvAppend cs e] in
      wf cs ∧ (∃ t, torn wf t ∧ f_bytes f' = log_bytes (l ++ l') ++ t) ∧
      ∃ y', tr_replay y l' = Ret y' ∧ good y' ∧ kept (tr_index y) (tr_index y') ∧ story y' f' (l ++ l') evs
  | ev :: evs => safe y ev ∧ story y f l evs
  end.
Lemma story_split evs1 : ∀ y f l t evs2,
  good y → f_bytes f = log_bytes l ++ t → torn wf t → story y f l (evs1 ++ evs2) →
  ∃ y' t', tr_replay y (logged evs1) = Ret y' ∧ good y' ∧ kept (tr_index y) (tr_index y') ∧ torn wf t' ∧
    f_bytes (disk f evs1) = log_bytes (l ++ logged evs1) ++ t' ∧ Forall wf (logged evs1) ∧
    story y' (disk f evs1) (l ++ logged evs1) evs2.
Proof.
  induction evs1 as [|ev evs1 IH]; intros y f l t evs2 Hy Hf Ht Hst; cbn [app] in Hst.
  - exists y, t. change (logged []) with (@nil (KChangeSet Keychain P)). rewrite app_nil_r. cbn [disk foldl tr_replay].
    do 2 (split; [done|]). split; [apply kept_refl|]. do 2 (split; [done|]). split; [constructor|done].
  - assert (ev :: evs1 = [ev] ++ evs1) as -> by done. rewrite logged_app, disk_app.
    assert (match ev with EvAppend _ _ => True | _ => logged [ev] = [] ∧ disk f [ev] = f ∧ story y f l (evs1 ++ evs2) end) as Hother.
    { destruct ev; [done|split_and!; [done|done|apply Hst]..]. }
    destruct ev as [cs e|k i sp|u c ok].
    + cbn [story] in Hst. destruct Hst as (Hwf & (t1 & Ht1 & Hf1) & y1 & E1 & Hy1 & K1 & Hst).
      destruct (IH y1 _ _ t1 evs2 Hy1 Hf1 Ht1 Hst) as (y' & t' & E & Hy' & K' & Ht' & Hf' & Hw' & Hst').
      exists y', t'. rewrite tr_replay_app, E1. split; [done|]. split; [done|]. split; [by eapply kept_trans|]. split; [done|].
      rewrite (assoc_L (++)). split; [exact Hf'|]. split; [|exact Hst']. apply Forall_app. split; [|done].
      rewrite logged_append. destruct (reached cs e); [|constructor]. apply recorded_wf. by repeat constructor.
    + destruct Hother as (-> & -> & Hst'). by apply (IH y f l t evs2).
    + destruct Hother as (-> & -> & Hst'). by apply (IH y f l t evs2).
Qed.

(** ** Appending *)
Definition at_end f l t : Prop := f_bytes f = log_bytes l ++ t ∧ f_pos f = length (log_bytes l) ∧ torn wf t.
Lemma recorded_one cs : kcs_is_empty cs = false → recorded [cs] = [cs].
Proof. intros He. unfold recorded. by rewrite filter_cons_True, filter_nil. Qed.
Lemma recorded_none cs : kcs_is_empty cs = true → recorded [cs] = [].
Proof. intros He. unfold recorded. by rewrite filter_cons_False, filter_nil by (by rewrite He). Qed.
Lemma append_step f l t cs e :
  at_end f l t → wf cs → t = [] ∨ whole e →
  let r := append_changeset f cs e in
  let l' := logged [EvAppend cs e] in
  ∃ t', torn wf t' ∧ f_bytes r.1 = log_bytes (l ++ l') ++ t' ∧
    (r.2 = Ok tt → at_end r.1 (l ++ l') t' ∧ l' = recorded [cs] ∧ (t' = [] ∨ t' = t)).
Proof.
  intros (Hb & Hp & Ht) Hwf Hte. cbn zeta. rewrite logged_append. destruct (kcs_is_empty cs) eqn:He.
  { exists t. rewrite (recorded_none cs He). unfold append_changeset. rewrite He. cbn [fst snd].
    assert ((if reached cs e then [] else []) = @nil (KChangeSet Keychain P)) as -> by (by destruct (reached cs e)).
    rewrite app_nil_r. split; [done|]. split; [done|]. intros _. split; [by split|]. split; [done|]. by right. }
  rewrite (recorded_one cs He).
  assert (∀ e', e' = NoFault ∨ e' = SyncFails → e = e' → ∃ t', torn wf t' ∧
    f_bytes (append_changeset f cs e).1 = log_bytes (l ++ if reached cs e then [cs] else []) ++ t' ∧
    ((append_changeset f cs e).2 = Ok tt → at_end (append_changeset f cs e).1 (l ++ if reached cs e then [cs] else []) t' ∧
       (if reached cs e then [cs] else []) = [cs] ∧ (t' = [] ∨ t' = t))) as Hfine.
  { intros e' He' ->. exists []. rewrite (append_fine f l t cs e' Hb Hp He He').
    assert (reached cs e' = true) as -> by (by destruct He' as [-> | ->]). cbn [f_bytes f_pos].
    split; [by left|]. rewrite app_nil_r. split; [done|]. intros _. split; [|by split; [|left]].
    split_and!; [cbn; by rewrite app_nil_r|done|by left]. }
  destruct Hte as [->|[->|[->| ->]]].
  - rewrite app_nil_r in Hb. destruct e as [|j| |]; [by apply (Hfine NoFault); [left|]| | |by apply (Hfine SyncFails); [right|]].
    + destruct (crash_append wf f l cs (WriteFails j) Hb Hp Hwf) as (t' & Ht' & _ & Hf'). exists t'. split; [done|].
      rewrite (recorded_one cs He) in Hf'. split; [done|]. unfold append_changeset. by rewrite He.
    + destruct (crash_append wf f l cs TruncFails Hb Hp Hwf) as (t' & Ht' & _ & Hf'). exists t'. split; [done|].
      rewrite (recorded_one cs He) in Hf'. split; [done|]. unfold append_changeset. by rewrite He.
  - by apply (Hfine NoFault); [left|].
  - by apply (Hfine SyncFails); [right|].
  - exists t. split; [done|]. unfold append_changeset. rewrite He. cbn [fst snd]. change (take 0 (enc cs)) with (@nil byte).
    rewrite (write_at (log_bytes l) t [] f Hb Hp). cbn [f_bytes]. split; [|done].
    assert (reached cs (WriteFails 0) = false) as ->.
    { cbn. apply bool_decide_eq_false. pose proof (enc_nonempty wf HC cs Hwf). destruct (enc cs); [done|cbn; lia]. }
    by rewrite app_nil_r.
Qed.
Lemma replay_logged y cs e y' :
  good y → tr_replay y [cs] = Ret y' → good y' → kept (tr_index y) (tr_index y') →
  ∃ y2, tr_replay y (logged [EvAppend cs e]) = Ret y2 ∧ good y2 ∧ kept (tr_index y) (tr_index y2) ∧
    (logged [EvAppend cs e] = recorded [cs] → y2 = y').
Proof.
  intros Hy E Hy' Hk. rewrite <- (replay_recorded [cs] y) in E by apply Hy. rewrite logged_append.
  destruct (reached cs e).
  - exists y'. done.
  - exists y. split; [done|]. split; [done|]. split; [apply kept_refl|]. intros E'. rewrite <- E' in E. by injection E.
Qed.

(** One changeset is handed to the store, and then more happens if that succeeded. *)
Lemma story_append w l t cs y y' w' ev r evs :
  at_end (w_file w) l t → good y → tr_replay y [cs] = Ret y' → good y' → kept (tr_index y) (tr_index y') →
  db_append w cs = (w', ev, r) → event_ok wf W ev → (t = [] ∨ ∀ cs e, EvAppend cs e ∈ ev :: evs → whole e) →
  (r ≠ Ok tt → evs = []) →
  (∀ l' t', r = Ok tt → at_end (w_file w') l' t' → (t' = [] ∨ ∀ cs e, EvAppend cs e ∈ evs → whole e) → story y' (w_file w') l' evs) →
  story y (w_file w) l (ev :: evs) ∧ w_tracker w' = w_tracker w.
Proof.
  intros Hat Hy E Hy' Hk Ed Hev Ht Hne Hst. unfold db_append in Ed. set (e := default NoFault (head (w_faults w))) in *.
  injection Ed as <- <- <-. cbn [event_ok w_tracker] in *. split; [|done].
  destruct (append_step (w_file w) l t cs e Hat Hev) as (t' & Ht' & Hf' & Hok).
  { destruct Ht as [->|Ht]; [by left|right]. apply (Ht cs). by left. }
  destruct (replay_logged y cs e y' Hy E Hy' Hk) as (y2 & E2 & Hy2 & Hk2 & Heq).
  cbn [story]. split; [done|]. split; [by exists t'|]. exists y2. do 3 (split; [done|]). cbn [w_file] in Hst.
  destruct ((append_changeset (w_file w) cs e).2) as [[]|er] eqn:Er.
  - destruct (Hok eq_refl) as (Hat' & Hl' & Ht''). rewrite (Heq Hl'). eapply Hst; [done|exact Hat'|].
    destruct Ht'' as [->| ->]; [by left|]. destruct Ht as [->|Ht]; [by left|right]. intros cs' e' Hin. apply (Ht cs'). by right.
  - rewrite Hne by done. done.
Qed.
End cli.
