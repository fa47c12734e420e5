(** Esplora synchronisations repeated until nothing changes (C115). *)
From Verif Require Export AgainEsploraProofs SettleProofs.
Local Open Scope N_scope.

Section commands.
Context `{!DescEnv, !CliEnv, !PlanModel.KeyEnv} {C : Codec (KChangeSet Keychain ConfirmationTime)}.
Context (W : Txid → list OutPoint) (ext : Desc) (int : option Desc).
Notation A := (keychains ext int).
Notation s := (adds ext int).
Context (HA : good_env A).
Context (v : ScanSpec.World) (time : N → N) (Hw : world_ok v) (Hsane : world_sane W v) (Htx : ∀ t a, w_tx v t = Some a → tx_ok a).
Context (Htime : ∀ h, time h ≤ u64_max).
Context (Haddr : ∀ k d i sp, A k = Some d → derive d i = Some sp → has_address sp = true).
Notation wpos := (w_time_position v time).
Notation good := (CliProofs.good W ext int).
Implicit Types (x : Tracker Keychain ConfirmationTime) (w : CliModel.World ConfirmationTime).

Lemma esplora_known_unspent x ki g : all_known v x → unspent x ki g → is_Some (w_tx v (op_txid (fto_outpoint g))).
Proof. intros Hk [(_ & t & _ & Hp & _) _]. apply Hk. by eexists. Qed.
Lemma pages_scripts x fuel : good x → pages_fit v A fuel →
  ∀ ki sp, si_spk_at (ki_inner (tr_index x)) ki = Some sp → (length (w_mempool v sp) ≤ 50)%nat ∧ (length (w_confirmed v sp) < 25 * S fuel)%nat.
Proof using HA.
  intros Hg Hpage [k i] sp Hsp. destruct (esplora_parts W ext int HA x Hg) as ([hs Hi] & _). destruct (proj1 Hi) as (C1 & _ & C3 & _).
  destruct (C3 _ _ _ Hsp) as (d & Hd & Hder). by eapply (Hpage k d i); [apply C1|].
Qed.
(** What is asked for is found. *)
Lemma esync_start w srv fuel ch po f par (Q : CliModel.World ConfirmationTime * list (event ConfirmationTime) * result unit CliError → Prop) :
  good (w_tracker w) → fit_seen v wpos (sync_sought v f (w_tracker w)) (w_tracker w) → all_known v (w_tracker w) →
  (∀ n, esplora_honest v time (srv n)) → pages_fit v A fuel → hash_fun_ok (ch_hash ch) →
  (∀ u, scan_ok v wpos (w_tracker w) (λ _ _, False) (kscan_of_cg u) →
     (∀ t, is_Some (get_tx (cg_graph u) t) → in_chain u t) → (∀ t, in_chain u t ↔ sync_finds v f (w_tracker w) t) →
     ends (lift (esplora_apply ch w (kscan_of_cg u) (po (cg_chain u)))) Q) →
  ends (esplora_sync_cmd srv (S fuel) ch po f par w) Q.
Proof using All.
  intros Hg Hfit Hknown Hsrv Hpage Hho HQ. set (x := w_tracker w) in *.
  destruct (esplora_parts W ext int HA x Hg) as ([hs Hi] & Hcg & Hin & Hk).
  destruct (sync_ok W ext int ch x f Hcg Hho Hg Haddr) as (spks & txids & outs & Er & R1 & R2 & R3).
  unfold esplora_sync_cmd. fold x.
  eapply ends_bnd. { apply ends_lift. eexists. split; [exact Er|]. exact (eq_refl (spks, txids, outs)). }
  intros r <-. cbn beta iota.
  eapply ends_bnd.
  { apply (plain_esplora_ends W v time (ch_hash ch) srv fuel (sc_cps (cg_chain (tr_cg x))) spks txids outs par Hw Hsane Htime Hho Hsrv).
    - apply (proj1 (proj2 (proj2 (proj2 Hfit)))).
    - apply Forall_forall. intros sp (ki & Hsp & _)%R1. by eapply pages_scripts.
    - by eapply (few_scripts A x hs Hi ch f). }
  intros u (Hok & Hus & Hcon & Hpos & Htxs & Hwhole & Hgraph & Hfs & Hft & Hfo & Honly). apply HQ; [|done|].
  - split; cbn [kscan_of_cg ks_update ks_active]; try done. intros t p Hp. split; [by apply Hpos|]. apply Honly. by exists p.
  - intros t. split.
    + intros Hp. destruct (Honly t Hp) as [Ht [(sp & (ki & Hsp & Ha)%R1 & Hh)|[(Hf & p & Hp' & Hu)%R2|(o & (Hf & ki & g & Hun & <-)%R3 & Har)]]].
      * left. left. by exists ki, sp.
      * right. split; [done|]. split; [done|]. by exists p.
      * left. right. split; [done|]. exists ki, g. split; [done|]. pose proof (esplora_known_unspent x ki g Hknown Hun) as [y Hy]. split; [by exists y|].
        destruct Har as [->|(a & Ha & Hoa)]; [by left|]. right.
        destruct Hun as [(_ & y' & Hgy & _ & Hz & _) _]. assert (y = y') as <- by (symmetry; by apply (proj1 (proj2 (proj2 (proj2 (proj2 Hfit)))) (op_txid (fto_outpoint g)))).
        split; [by exists a|]. intros t' b Hb' Hob. apply (ws_conflict W v Hsane t' t b a Hb' Ha). exists (fto_outpoint g).
        split; [|done]. intros E. rewrite E in *. apply Htx in Hy as [_ Hl]. apply lookup_lt_Some in Hz. cbn [null_outpoint op_vout] in Hz. lia.
    + intros [Hs|(Hf & Ht & p & Hp & Hu)].
      * apply (sought_in v x f spks outs); [apply Hfit|done|done| |done|done].
        intros o t' u' Ho Ht _. destruct (Hfo o Ho) as [F1 F2]; [by exists t'|]. split; [exact F1|]. intros s' _ Hsp. by apply F2.
      * apply Hft; [|done]. apply R2. split; [done|]. by exists p.
Qed.

(** A wallet that has synchronised with the network before. *)
Definition ecurrent x : Prop :=
  good x ∧ fit_for v wpos x ∧ all_known v x ∧ within_limit (cg_chain (tr_cg x)) ∧
  sc_cps (cg_chain (tr_cg x)) !! w_tip v = Some (w_block v (w_tip v)) ∧
  ∀ h b, sc_cps (cg_chain (tr_cg x)) !! h = Some b → h ≤ w_tip v ∧ b = w_block v h.

Lemma esync_progress w w' srv fuel ch po f par n n' evs :
  good (w_tracker w) → fit_seen v wpos (sync_sought v f (w_tracker w)) (w_tracker w) → all_known v (w_tracker w) →
  (∀ n, esplora_honest v time (srv n)) → pages_fit v A fuel → hash_fun_ok (ch_hash ch) → (∀ c, po c ≡ₚ map_to_list (sc_pos c)) →
  esplora_sync_cmd srv (S fuel) ch po f par w n = Done n' (w', evs, Ok tt) →
  ecurrent (w_tracker w') ∧
  (∀ t, sync_finds v f (w_tracker w) t → placed wpos (w_tracker w') t) ∧
  (ecurrent (w_tracker w) → ∀ t, is_Some (w_tx v t) → placed wpos (w_tracker w) t → placed wpos (w_tracker w') t) ∧
  ((∀ t, sync_finds v f (w_tracker w) t → placed wpos (w_tracker w) t) ∨
   ∃ t, is_Some (w_tx v t) ∧ placed wpos (w_tracker w') t ∧ ¬ placed wpos (w_tracker w) t).
Proof using All.
  intros Hg Hfit Hknown Hsrv Hpage Hho Hpo E. set (x := w_tracker w) in *. destruct (esplora_parts W ext int HA x Hg) as ([hs Hi] & Hcg & Hin & Hk).
  set (Q := λ r : CliModel.World ConfirmationTime * list (event ConfirmationTime) * result unit CliError, ∀ w' evs, r = (w', evs, Ok tt) →
    ecurrent (w_tracker w') ∧
    (∀ t, sync_finds v f x t → placed wpos (w_tracker w') t) ∧
    (ecurrent x → ∀ t, is_Some (w_tx v t) → placed wpos x t → placed wpos (w_tracker w') t) ∧
    ((∀ t, sync_finds v f x t → placed wpos x t) ∨ ∃ t, is_Some (w_tx v t) ∧ placed wpos (w_tracker w') t ∧ ¬ placed wpos x t)).
  assert (ends (esplora_sync_cmd srv (S fuel) ch po f par w) Q) as He.
  2:{ destruct (He n) as (n2 & r & E2 & Hr). rewrite E in E2. injection E2 as _ <-. by apply (Hr w' evs). }
  apply esync_start; try done. fold x. intros u Hso Hgraph Hfinds. set (sc := kscan_of_cg u) in *. change u with (ks_update sc) in Hfinds.
  change (cg_chain u) with (cg_chain (ks_update sc)). set (ord := po (cg_chain (ks_update sc))). assert (ord ≡ₚ map_to_list (sc_pos (cg_chain (ks_update sc)))) as Hord by apply Hpo.
  assert (∀ t p, sc_pos (cg_chain (ks_update sc)) !! t = Some p → p = wpos t ∧ is_Some (w_tx v t)) as Hpos by apply (so_pos _ _ _ _ _ Hso).
  assert (fit_seen v wpos (in_chain (ks_update sc)) x) as Hfit'.
  { eapply fit_seen_mono; [|exact Hfit]. intros t Ht. apply Hfinds. by left. }
  clearbody sc ord. pose proof Hfit' as (Hlim & Hbm & Hcbt & Htrue & Hag).
  destruct (synced A HA W v wpos Hw Hsane (time_height v time) Htx x hs _ sc Hso Hi Hcg Hin Hbm Hcbt Htrue Hag (ch_hash ch) ord Hho Hord)
    as (x1 & cs & hs' & Ea & _).
  apply ends_lift. assert (∃ r, esplora_apply ch w sc ord = Ret r) as [r Ee].
  { unfold esplora_apply. fold x. rewrite Ea. cbn [mbind outcome_bind]. destruct (db_append _ _) as [[w1 ev] r]. by eexists. }
  exists r. split; [done|]. intros w1 evs1 ->.
  destruct (applied_Ok ch w w1 sc _ evs1 (or_intror Ee)) as [cs2 Eu]. fold x in Eu. rewrite Ea in Eu. injection Eu as <- <-.
  destruct (synced_fit A HA W v wpos Hw Hsane (time_height v time) Htx x x1 cs hs _ sc Hso Hi Hcg Hin Hfit' (ch_hash ch) ord Hho Hord Ea)
    as (Hok' & Hin' & Hfit3 & Hlim' & Hkey & B2 & B1 & P1).
  assert (good x1) as Hg1.
  { destruct (good_op W ext int HA x (TrUpdate (ch_hash ch) sc ord) Hg) as (x2 & l0 & y' & E1 & E2 & Hy' & _); [|by intros [l' [=]]|].
    - cbn [tr_op_ok]. split; [done|]. split; [done|]. split; [|split].
      + apply (ok_built W (ch_hash ch)); [done|apply Hso|]. intros t a Ha. eapply ws_inputs; [done|]. by apply (so_tx _ _ _ _ _ Hso).
      + eapply (update_range v wpos Hw Htx x _ sc Hso).
      + intros k t Hkt. destruct (so_active _ _ _ _ _ Hso k t Hkt) as [[d Hd] Hm]. split; [|done].
        by eapply (CliProofs.keychain_known W ext int).
    - cbn [tr_step] in E1. rewrite Ea in E1. cbn [mbind outcome_bind] in E1. injection E1 as <- <-.
      cbn [tr_replay] in E2. unfold tr_apply_update in Ea. destruct (tr_determine_changeset _ _ _ _) as [[cs'|]|]; [|done..].
      destruct (tr_apply_changeset x cs') as [x3|] eqn:E3; [|done]. cbn [mbind outcome_bind] in Ea. injection Ea as -> ->.
      rewrite E3 in E2. cbn [mbind outcome_bind] in E2. by injection E2 as <-. }
  assert (∀ t, sync_finds v f x t → placed wpos x1 t) as Hplaced.
  { intros t Ht. apply Hfinds in Ht as [p Hp]. unfold placed. rewrite (P1 t p); [|done]. f_equal. by apply Hpos. }
  split_and!; [|done| |].
  - split; [done|]. split; [done|]. split; [|done].
    exact (applied_known A HA W v wpos Hw Hsane (time_height v time) Htx x x1 cs hs _ sc Hso Hi Hcg Hin Hfit' (ch_hash ch) ord Hho Hord Ea Hknown).
  - intros (_ & _ & _ & _ & Htip & _) t.
    apply (applied_placed A HA W v wpos Hw Hsane (time_height v time) Htx x x1 cs hs _ sc Hso Hi Hcg Hin Hfit' (ch_hash ch) ord Hho Hord Ea t Htip).
  - destruct (decide (map_Forall (λ t p, sc_pos (cg_chain (tr_cg x)) !! t = Some p) (sc_pos (cg_chain (ks_update sc))))) as [Hall|Hall].
    + left. intros t Ht. apply Hfinds in Ht as [p Hp]. unfold placed. rewrite (Hall t p Hp). f_equal. by apply Hpos.
    + right. apply map_not_Forall in Hall as (t & p & Hp & Hn); [|apply _]. destruct (Hpos t p Hp) as [-> Hkn]. exists t.
      split; [done|]. split; [|done]. apply Hplaced, Hfinds. by eexists.
Qed.
(** Nothing to be found that is not in its place. *)
Lemma esync_nothing w srv fuel ch po f par : ecurrent (w_tracker w) → (∀ t, sync_finds v f (w_tracker w) t → placed wpos (w_tracker w) t) →
  (∀ n, esplora_honest v time (srv n)) → pages_fit v A fuel → hash_fun_ok (ch_hash ch) → (∀ c, po c ≡ₚ map_to_list (sc_pos c)) →
  ends (esplora_sync_cmd srv (S fuel) ch po f par w) (λ r, ∃ w2 evs2, r = (w2, evs2, Ok tt) ∧
    w_tracker w2 = w_tracker w ∧ w_file w2 = w_file w).
Proof using All.
  intros (Hg & Hfit & Hknown & Hlim & Htip & Hcps) Hset Hsrv Hpage Hho Hpo. set (x := w_tracker w) in *.
  destruct (esplora_parts W ext int HA x Hg) as ([hs Hi] & Hcg & Hin & Hk).
  apply esync_start; try done. { by apply fit_for_seen. } fold x. intros u Hso Hgraph Hfinds.
  assert (∀ t p, sc_pos (cg_chain u) !! t = Some p → sc_pos (cg_chain (tr_cg x)) !! t = Some p) as Hin_x.
  { intros t p Hp. destruct (so_pos _ _ _ _ _ Hso t p Hp) as [-> _]. apply Hset, Hfinds. by eexists. }
  assert (∀ t, is_Some (get_tx (cg_graph u) t) → is_Some (get_tx (cg_graph (tr_cg x)) t)) as Hgr.
  { intros t [p Hp]%Hgraph. destruct Hcg as (_ & _ & Hfull & _). apply Hfull. exists p. by apply Hin_x. }
  assert (tr_apply_update (ch_hash ch (cg_graph (tr_cg x))) x (kscan_of_cg u) (po (cg_chain u)) = Ret (Ok (x, kcs_default))) as Ea.
  { apply nothing_changes; [done|apply Hso|apply Hfit|done|apply Hho|apply Hpo|].
    pose proof (so_con _ _ _ _ _ Hso) as Hcon2. rewrite connects_iff in Hcon2. constructor.
    - intros h b Hb'. apply Hcon2 in Hb' as [[->|[[b' Hb2] _]] ->]; [done|]. rewrite Hb2. f_equal. by apply Hcps.
    - exact Hin_x.
    - exact Hgr.
    - intros o y Ho. left. apply (update_txout v wpos x _ _ Hso) in Ho as (t & Ht & _). apply Hgr. by exists t.
    - cbn [kscan_of_cg ks_active]. intros k j Hj. by rewrite lookup_empty in Hj. }
  destruct (applied_nothing ch w (kscan_of_cg u) _ Ea) as (r & _ & Er & Hr). apply ends_lift. by exists r.
Qed.

Context (f : SyncFlags).
Definition eall_placed x : Prop := ∀ t, sync_finds v f x t → placed wpos x t.
Lemma esyncs_still n w w' : esplora_again v time A f n w w' → ecurrent (w_tracker w) → eall_placed (w_tracker w) →
  w_tracker w' = w_tracker w ∧ w_file w' = w_file w.
Proof using All.
  induction 1 as [w|n w w1 w2 srv fuel ch po par i j evs Hsrv Hpg Hho Hpo E Hs IH]; [done|]. intros Hc Ha.
  destruct (esync_nothing w srv fuel ch po f par Hc Ha Hsrv Hpg Hho Hpo i) as (j2 & r & E2 & w3 & evs3 & -> & Et & Ef).
  rewrite E in E2. injection E2 as _ <- _. rewrite <- Et in Hc, Ha. destruct (IH Hc Ha) as [-> ->]. done.
Qed.
Lemma efinds_known x t : sync_finds v f x t → is_Some (w_tx v t).
Proof using Hw.
  intros [[(ki & sp & _ & _ & Ht)|(_ & ki & g & _ & Hk & [->|[(a & Ha & _) _]])]|(_ & Hk & _)]; [by eapply wo_known|done|by exists a|done].
Qed.
Local Instance eplaced_dec x t : Decision (placed wpos x t).
Proof. unfold placed. apply _. Defined.
Lemma esyncs_place (L : list Txid) n w w' : (∀ t, is_Some (w_tx v t) ↔ t ∈ L) → esplora_again v time A f n w w' → ecurrent (w_tracker w) →
  (length (filter (λ t, ¬ placed wpos (w_tracker w) t) L) ≤ n)%nat → ecurrent (w_tracker w') ∧ eall_placed (w_tracker w').
Proof using All.
  intros HL. induction 1 as [w|n w w1 w2 srv fuel ch po par i j evs Hsrv Hpg Hho Hpo E Hs IH]; intros Hc Hm.
  - split; [done|]. intros t Ht. destruct (decide (placed wpos (w_tracker w) t)) as [?|Hn]; [done|]. exfalso.
    assert (t ∈ filter (λ t, ¬ placed wpos (w_tracker w) t) L) as Hin. { apply elem_of_list_filter. split; [done|]. by apply HL, (efinds_known (w_tracker w)). }
    destruct (filter _ L); [by apply elem_of_nil in Hin|cbn [length] in Hm; lia].
  - pose proof Hc as (Hg & Hfit & Hknown & _).
    destruct (esync_progress w w1 srv fuel ch po f par i j evs Hg (fit_for_seen v wpos _ _ Hfit) Hknown Hsrv Hpg Hho Hpo E) as (Hc1 & Hpl & Hmono & [Hall|(t & Ht & Hp & Hn)]).
    + assert (esplora_again v time A f (S n) w w2) as Hs' by by eapply esyncs_more.
      destruct (esyncs_still _ _ _ Hs' Hc Hall) as [Et _]. unfold eall_placed. by rewrite Et.
    + apply IH; [done|].
      destruct (filter_fewer (λ t, ¬ placed wpos (w_tracker w) t) (λ t, ¬ placed wpos (w_tracker w1) t) L) as [_ Hlt].
      { intros a Ha Hna Hpa. apply Hna, Hmono; [done|by apply HL|done]. }
      assert (length (filter (λ t, ¬ placed wpos (w_tracker w1) t) L) < length (filter (λ t, ¬ placed wpos (w_tracker w) t) L))%nat; [|lia].
      apply Hlt. exists t. split; [by apply HL|]. split; [done|]. by intros Hnn.
Qed.
Lemma esyncs_current n w w' : good (w_tracker w) → fit_seen v wpos (sync_sought v f (w_tracker w)) (w_tracker w) → all_known v (w_tracker w) →
  esplora_again v time A f n w w' → n ≠ 0%nat → ecurrent (w_tracker w').
Proof using All.
  intros Hg Hfit Hk Hs. induction Hs as [w|n w w1 w2 srv fuel ch po par i j evs Hsrv Hpg Hho Hpo E Hs IH]; [done|]. intros _.
  destruct (esync_progress w w1 srv fuel ch po f par i j evs Hg Hfit Hk Hsrv Hpg Hho Hpo E) as (Hc1 & _).
  destruct n as [|n]; [by inversion Hs; subst|]. apply IH; [apply Hc1|apply fit_for_seen, Hc1|apply Hc1|done].
Qed.
(** More synchronisations than the network has transactions. *)
Lemma esyncs_settle (L : list Txid) n w w' : good (w_tracker w) → fit_seen v wpos (sync_sought v f (w_tracker w)) (w_tracker w) → all_known v (w_tracker w) →
  (∀ t, is_Some (w_tx v t) ↔ t ∈ L) → esplora_again v time A f n w w' → (length L < n)%nat → ecurrent (w_tracker w') ∧ eall_placed (w_tracker w').
Proof using All.
  intros Hg Hfit Hk HL Hs Hn. destruct Hs as [w|n w w1 w2 srv fuel ch po par i j evs Hsrv Hpg Hho Hpo E Hs]; [lia|].
  destruct (esync_progress w w1 srv fuel ch po f par i j evs Hg Hfit Hk Hsrv Hpg Hho Hpo E) as (Hc1 & _).
  eapply (esyncs_place L n w1 w2); [done|done|done|]. pose proof (filter_length (λ t, ¬ placed wpos (w_tracker w1) t) L). lia.
Qed.
(** While the store does not fail, every synchronisation succeeds. *)
Lemma esync_once w srv fuel ch po par :
  good (w_tracker w) → fit_seen v wpos (sync_sought v f (w_tracker w)) (w_tracker w) → all_known v (w_tracker w) →
  (∀ n, esplora_honest v time (srv n)) → pages_fit v A fuel → hash_fun_ok (ch_hash ch) → (∀ c, po c ≡ₚ map_to_list (sc_pos c)) →
  default NoFault (head (w_faults w)) = NoFault →
  ends (esplora_sync_cmd srv (S fuel) ch po f par w) (λ r, ∃ w' evs', r = (w', evs', Ok tt) ∧ w_faults w' = tail (w_faults w)).
Proof using All.
  intros Hg Hfit Hk Hsrv Hpg Hho Hpo Hf.
  eapply ends_weaken. { apply (esplora_sync_applies W ext int HA v time Hw Hsane Htx Htime w srv fuel ch po f par); try done. by apply pages_scripts. }
  intros r (F & sc & ord & x' & cs & _ & _ & _ & _ & Ea & Ee & _).
  destruct (apply_fine ch w sc ord x' cs r Hf Ea (or_intror Ee)) as (w' & -> & _). exists w', [EvAppend cs NoFault]. split; [done|].
  unfold esplora_apply in Ee. rewrite Ea in Ee. cbn [mbind outcome_bind] in Ee. unfold db_append in Ee. injection Ee as <- _ _. done.
Qed.
Lemma esyncs_snoc n w w1 w2 srv fuel ch po par i j evs : esplora_again v time A f n w w1 →
  (∀ n, esplora_honest v time (srv n)) → pages_fit v A fuel → hash_fun_ok (ch_hash ch) → (∀ c, po c ≡ₚ map_to_list (sc_pos c)) →
  esplora_sync_cmd srv (S fuel) ch po f par w1 i = Done j (w2, evs, Ok tt) → esplora_again v time A f (S n) w w2.
Proof.
  intros Hs Hsrv Hpg Hho Hpo E. induction Hs as [w|n w w1 w3 srv' fuel' ch' po' par' i' j' evs' Hsrv' Hpg' Hho' Hpo' E' Hs IH].
  - exact (esyncs_more v time A f 0 w w2 w2 srv fuel ch po par i j evs Hsrv Hpg Hho Hpo E (esyncs_none _ _ _ _ _)).
  - exact (esyncs_more v time A f (S n) w w1 w2 srv' fuel' ch' po' par' i' j' evs' Hsrv' Hpg' Hho' Hpo' E' (IH E)).
Qed.
Lemma esyncs_go_on n w w' srv fuel ch po par : good (w_tracker w) → fit_seen v wpos (sync_sought v f (w_tracker w)) (w_tracker w) → all_known v (w_tracker w) →
  esplora_again v time A f n w w' →
  (∀ n, esplora_honest v time (srv n)) → pages_fit v A fuel → hash_fun_ok (ch_hash ch) → (∀ c, po c ≡ₚ map_to_list (sc_pos c)) →
  default NoFault (head (w_faults w')) = NoFault →
  ends (esplora_sync_cmd srv (S fuel) ch po f par w') (λ r, ∃ w2 evs2, r = (w2, evs2, Ok tt) ∧ w_faults w2 = tail (w_faults w') ∧ esplora_again v time A f (S n) w w2).
Proof using All.
  intros Hg Hfit Hk Hs Hsrv Hpg Hho Hpo Hf.
  assert (good (w_tracker w') ∧ fit_seen v wpos (sync_sought v f (w_tracker w')) (w_tracker w') ∧ all_known v (w_tracker w')) as (Hg' & Hfit' & Hk').
  { destruct n as [|n]; [by inversion Hs; subst|]. destruct (esyncs_current _ w w' Hg Hfit Hk Hs) as (? & ? & ? & _); [done|].
    split; [done|]. split; [by apply fit_for_seen|done]. }
  intros i. destruct (esync_once w' srv fuel ch po par Hg' Hfit' Hk' Hsrv Hpg Hho Hpo Hf i) as (j & r & E & w2 & evs2 & -> & Ef).
  exists j, (w2, evs2, Ok tt). split; [done|]. exists w2, evs2. split; [done|]. split; [done|]. by eapply esyncs_snoc.
Qed.
(** What a synchronisation promises then holds of the wallet as it is. *)
Lemma esyncs_right (L : list Txid) n w w' : good (w_tracker w) → fit_seen v wpos (sync_sought v f (w_tracker w)) (w_tracker w) → all_known v (w_tracker w) →
  (∀ t, is_Some (w_tx v t) ↔ t ∈ L) → esplora_again v time A f n w w' → (length L < n)%nat →
  all_known v (w_tracker w') ∧ in_sync v wpos f (w_tracker w') (w_tracker w').
Proof using All.
  intros Hg Hfit Hk HL Hs Hn. destruct (esyncs_settle L n w w' Hg Hfit Hk HL Hs Hn) as [Hc Ha].
  destruct Hs as [w|n w w1 w2 srv fuel ch po par i j evs Hsrv Hpg Hho Hpo E Hs]; [lia|]. pose proof Hc as (Hg2 & Hfit2 & Hk2 & _). split; [done|].
  destruct (esync_nothing w2 srv fuel ch po f par Hc Ha Hsrv Hpg Hho Hpo 0%nat) as (j2 & r & E2 & w3 & evs3 & -> & Et & _).
  destruct (esplora_sync_applies W ext int HA v time Hw Hsane Htx Htime w2 srv fuel ch po f par Hg2 (fit_for_seen v wpos _ _ Hfit2) Haddr
    (pages_scripts _ fuel Hg2 Hpg) Hsrv Hho Hpo 0%nat) as (j3 & r & E3 & F & sc & ord & x' & cs & _ & _ & _ & _ & Ea & Ee & Hin).
  rewrite E2 in E3. injection E3 as _ <-. destruct (applied_Ok ch w2 w3 sc ord evs3 (or_intror Ee)) as [cs' Ea']. rewrite Ea in Ea'. injection Ea' as -> _.
  by rewrite Et in Hin.
Qed.
End commands.
