(** The esplora sync and scan commands at an honest server (C99, C100). *)
From Verif Require Export CliSyncProofs RestoreProofs4.
From Verif Require Import CliProofs3.
Local Open Scope N_scope.

(** A proper chain graph is one that can be built. *)
Lemma ok_built `{ChainPositionLaws P} W ho (u : ChainGraph P) : hash_fun_ok ho → cg_ok u → inputs_by_txid W (cg_graph u) → built W u.
Proof.
  intros Hho (Hc & Hg & Hf & Hn) Hin. pose proof (cg_new_spec (ho (cg_graph u)) (cg_chain u) (cg_graph u) Hc Hg (Hho _)) as Hs.
  eapply (built_new W (ho (cg_graph u)) (cg_chain u) (cg_graph u)); try done.
  assert (mkCG (cg_chain u) (cg_graph u) = u) as Eu by (by destruct u).
  destruct (cg_new (ho (cg_graph u)) (cg_chain u) (cg_graph u)) as [[cg|[[p i] [q j]|m]]|].
  - destruct Hs as (-> & _). by rewrite Eu.
  - destruct Hs as (Hij & Hi & Hj & a & b & Ha & Hb & Hd). destruct Hij. eapply (Hn i j a b); try done; by eexists.
  - destruct Hs as (Hm & Hx & _). exfalso. apply Hm. apply set_eq. intros i. split; [|set_solver].
    intros [Hi Hnone]%Hx. apply Hf in Hi as [t Ht]. congruence.
  - done.
Qed.

(** ** Scripts up to the gap *)
Section scripts.
Context `{!DescEnv}.
Lemma all_stop_within v (gap : N) (A : Keychain → option Desc) (ix : KIndex Keychain) k i :
  good_env A → (∀ k d, ki_keychains ix !! k = Some d ↔ A k = Some d) →
  stop_within v gap (spks_of_all_keychains ix) k i ↔ in_stop_gap v gap A k i.
Proof.
  intros HA Hk. unfold stop_within, within_stop_gap, in_stop_gap, spks_of_all_keychains.
  pose proof cap_all as Hhi. revert Hhi. generalize (bip32_max + 1). intros hi Hhi. split.
  - intros (l & p & sp & Hl & Hp & [Ha Hgap]). apply lookup_fmap_Some in Hl as (d & <- & Hd%Hk). pose proof (proj1 HA k d Hd) as Hg.
    apply (all_lookup hi d p _ _ Hg (Hhi d)) in Hp as (-> & Hc & Hs). apply (all_activity hi v d p true Hg (Hhi d)) in Ha as [_ Ha].
    exists d. split; [done|]. split; [done|]. split; [done|]. intros (j & Hj & Hno). apply Hgap. exists (N.to_nat j). split; [lia|].
    intros m Hm1 Hm2. apply (all_activity hi v d m false Hg (Hhi d)). split; [lia|]. apply Hno; lia.
  - intros (d & Hd & Hc & Ha & Hgap). pose proof (proj1 HA k d Hd) as Hg. destruct (Hg i Hc) as [sp Hsp].
    exists (range_spks d 0 hi), (N.to_nat i), sp.
    split; [apply lookup_fmap_Some; exists d; split; [done|by apply Hk]|].
    split; [apply (all_lookup hi d _ _ _ Hg (Hhi d)); by rewrite N2Nat.id|]. split.
    + apply (all_activity hi v d _ true Hg (Hhi d)). by rewrite N2Nat.id.
    + intros (s & Hs & Hno). apply Hgap. exists (N.of_nat s). split; [lia|]. intros m Hm1 Hm2.
      assert (activity v (range_spks d 0 hi) !! N.to_nat m = Some false) as Hf by (apply Hno; lia).
      apply (all_activity hi v d _ false Hg (Hhi d)) in Hf as [_ Hf]. by rewrite N2Nat.id in Hf.
Qed.
(** A scan with more than one request at a time may look further. *)
Lemma all_stop_reach v (gap : N) (par : nat) (A : Keychain → option Desc) (ix : KIndex Keychain) k i :
  good_env A → (∀ k d, ki_keychains ix !! k = Some d ↔ A k = Some d) → 0 < gap →
  stop_reach v gap par (spks_of_all_keychains ix) k i → in_stop_gap v (gap + N.of_nat par - 1) A k i.
Proof.
  intros HA Hk Hpos (l & p & s & Hl & Hp & Ha & Hgap). apply (all_stop_within v _ A ix); [done|done|].
  exists l, p, s. split; [done|]. split; [done|]. split; [done|]. by apply Hgap.
Qed.
End scripts.

Section commands.
Context `{!DescEnv, !CliEnv, !PlanModel.KeyEnv} {C : Codec (KChangeSet Keychain ConfirmationTime)}.
Context (wf : KChangeSet Keychain ConfirmationTime → Prop) (HC : codec_ok C wf) (Hdef : wf kcs_default).
Context (W : Txid → list OutPoint) (dbg : bool) (limit : nat) (ext : Desc) (int : option Desc) (km : PlanModel.KeyMap).
Notation A := (keychains ext int).
Notation s := (adds ext int).
Notation in_session := (in_session (P := ConfirmationTime) wf W dbg limit ext int km).
Context (HA : good_env A).
Context (v : ScanSpec.World) (time : N → N) (Hw : world_ok v) (Hsane : world_sane W v) (Htx : ∀ t a, w_tx v t = Some a → tx_ok a).
Context (Htime : ∀ h, time h ≤ u64_max).
Notation wpos := (w_time_position v time).

Notation good := (CliProofs.good W ext int).
Lemma esplora_parts (x : Tracker Keychain ConfirmationTime) : good x →
  (∃ hs, ki_inv A hs (tr_index x)) ∧ cg_ok (tr_cg x) ∧ inputs_by_txid W (cg_graph (tr_cg x)) ∧
  (∀ k d, ki_keychains (tr_index x) !! k = Some d ↔ A k = Some d).
Proof using HA.
  intros Hg. destruct (built_ok W _ (good_built W ext int _ Hg)) as [Hcg Hin]. destruct (good_index W ext int _ Hg) as [hs Hi].
  split; [by exists hs|]. split; [done|]. split; [done|]. intros k d. split; [apply (proj1 (proj1 Hi))|].
  intros Hd. destruct (good_keychain W ext int _ k Hg) as (d' & hs' & Hi' & Hd'); [by exists d|]. rewrite Hd'. rewrite <- Hd. symmetry. by apply (proj1 (proj1 Hi')).
Qed.
(** A command has come so far: its scan, applied, leaves the wallet [x'] with [Q]. *)
Definition esplora_applies (w : World ConfirmationTime) ch (r : World ConfirmationTime * list (event ConfirmationTime) * result unit CliError)
    (Q : Tracker Keychain ConfirmationTime → Prop) : Prop :=
  ∃ F sc ord x' cs, fit_seen v wpos (in_chain (ks_update sc)) (w_tracker w) ∧ scan_ok v wpos (w_tracker w) F sc ∧ command_ok A W s ch (CmdEsplora sc ord) ∧ ord ≡ₚ map_to_list (sc_pos (cg_chain (ks_update sc))) ∧
    tr_apply_update (ch_hash ch (cg_graph (tr_cg (w_tracker w)))) (w_tracker w) sc ord = Ret (Ok (x', cs)) ∧ esplora_apply ch w sc ord = Ret r ∧ Q x'.
(** The end of both commands. *)
Lemma esplora_finish w hs ch (po : SparseChain ConfirmationTime → list (Txid * ConfirmationTime)) F sc (Q : Tracker Keychain ConfirmationTime → Prop) :
  good (w_tracker w) → hash_fun_ok (ch_hash ch) → (∀ c, po c ≡ₚ map_to_list (sc_pos c)) →
  ki_inv A hs (tr_index (w_tracker w)) → fit_seen v wpos (in_chain (ks_update sc)) (w_tracker w) → scan_ok v wpos (w_tracker w) F sc →
  (∀ x' cs, tr_apply_update (ch_hash ch (cg_graph (tr_cg (w_tracker w)))) (w_tracker w) sc (po (cg_chain (ks_update sc))) = Ret (Ok (x', cs)) → Q x') →
  ends (lift (esplora_apply ch w sc (po (cg_chain (ks_update sc))))) (λ r, esplora_applies w ch r Q).
Proof using HA Hw Hsane Htx H0.
  intros Hg Hho Hpo Hi (Hlim & Hbm & Hcbt & Htrue & Hag) Hso HQ.
  destruct (built_ok W _ (good_built W ext int _ Hg)) as [Hcg Hin].
  destruct (synced A HA W v wpos Hw Hsane (time_height v time) Htx (w_tracker w) hs F sc Hso Hi Hcg Hin Hbm Hcbt Htrue Hag (ch_hash ch) (po (cg_chain (ks_update sc))) Hho (Hpo _))
    as (x' & cs & hs' & E & _).
  apply ends_lift. assert (∃ r, esplora_apply ch w sc (po (cg_chain (ks_update sc))) = Ret r) as [r Ea].
  { unfold esplora_apply. rewrite E. cbn [mbind outcome_bind]. destruct (db_append _ _) as [[w1 ev] r]. by eexists. }
  exists r. split; [done|]. exists F, sc, (po (cg_chain (ks_update sc))), x', cs. split; [exact (conj Hlim (conj Hbm (conj Hcbt (conj Htrue Hag))))|]. split; [done|]. split; [|split; [done|]; split; [done|]; split; [done|by eapply HQ]].
  split; [done|]. cbn [tr_op_ok]. split; [done|]. split; [done|]. split; [|split].
  - apply (ok_built W (ch_hash ch)); [done|apply Hso|]. intros t a Ha. eapply ws_inputs; [done|]. by apply (so_tx _ _ _ _ _ Hso).
  - eapply (update_range v wpos Hw Htx (w_tracker w) F sc Hso).
  - intros k t Hk. destruct (so_active _ _ _ _ _ Hso k t Hk) as [[d Hd] Hm]. split; [|done].
    by eapply (CliProofs.keychain_known W ext int).
Qed.

Lemma esplora_sync_applies w srv fuel ch po f par :
  good (w_tracker w) → fit_seen v wpos (sync_sought v f (w_tracker w)) (w_tracker w) →
  (∀ k d i sp, A k = Some d → derive d i = Some sp → has_address sp = true) →
  (∀ ki sp, si_spk_at (ki_inner (tr_index (w_tracker w))) ki = Some sp → (length (w_mempool v sp) ≤ 50)%nat ∧ (length (w_confirmed v sp) < 25 * S fuel)%nat) →
  (∀ n, esplora_honest v time (srv n)) → hash_fun_ok (ch_hash ch) → (∀ c, po c ≡ₚ map_to_list (sc_pos c)) →
  ends (esplora_sync_cmd srv (S fuel) ch po f par w) (λ r, esplora_applies w ch r (in_sync v wpos f (w_tracker w))).
Proof using HA Hw Hsane Htx Htime H0.
  intros Hg Hfit Haddr Hpage Hsrv Hho Hpo. set (x := w_tracker w) in *.
  destruct (esplora_parts x Hg) as ([hs Hi] & Hcg & Hin & Hk).
  destruct (sync_ok W ext int ch x f Hcg Hho Hg Haddr) as (spks & txids & outs & Er & R1 & R2 & R3).
  unfold esplora_sync_cmd. fold x.
  eapply ends_bnd. { apply ends_lift. eexists. split; [exact Er|]. exact (eq_refl (spks, txids, outs)). }
  intros r <-. cbn beta iota.
  eapply ends_bnd.
  { apply (plain_esplora_ends W v time (ch_hash ch) srv fuel (sc_cps (cg_chain (tr_cg x))) spks txids outs par Hw Hsane Htime Hho Hsrv).
    - apply (proj1 (proj2 (proj2 (proj2 Hfit)))).
    - apply Forall_forall. intros sp (ki & Hsp & _)%R1. by eapply Hpage.
    - by eapply (few_scripts A x hs Hi ch f). }
  intros u (Hok & Hus & Hcon & Hpos & Htxs & Hwhole & Hgraph & Hfs & Hft & Hfo & Honly).
  assert (scan_ok v wpos x (λ _ _, False) (kscan_of_cg u)) as Hso.
  { split; cbn [kscan_of_cg ks_update ks_active]; try done.
    intros t p Hp. split; [by apply Hpos|]. apply Honly. by exists p. }
  assert (∀ o t z, o ∈ outs → w_tx v (op_txid o) = Some t → tx_out t !! N.to_nat (op_vout o) = Some z →
    is_Some (sc_pos (cg_chain u) !! op_txid o) ∧ ∀ s, s ≠ op_txid o → w_spends v o s → is_Some (sc_pos (cg_chain u) !! s)) as Hfo'.
  { intros o t z Ho Ht Hz. destruct (Hfo o Ho) as [F1 F2]; [by exists t|]. split; [exact F1|]. intros s' _ Hsp. by apply F2. }
  assert (fit_seen v wpos (in_chain u) x) as Hfit'.
  { eapply fit_seen_mono; [|exact Hfit]. intros t. apply (sought_in v x f spks outs); [apply Hfit|done..]. }
  apply (esplora_finish w hs ch po (λ _ _, False) (kscan_of_cg u)); try done. fold x. cbn [kscan_of_cg ks_update]. intros x' cs Ea.
  eapply (applied_in_sync A HA W v wpos Hw Hsane (time_height v time) Htx x hs Hi Hcg Hin f spks txids outs (cg_chain u) (λ _ _, False) (kscan_of_cg u) (ch_hash ch) (po (cg_chain u)) x' cs); try done.
  by intros k i [].
Qed.

Lemma esplora_scan_applies w srv fuel ch po gap par :
  good (w_tracker w) → fit_seen v wpos (of_scripts v A (in_stop_gap v gap A)) (w_tracker w) →
  (∀ k d i sp, A k = Some d → derive d i = Some sp → (length (w_mempool v sp) ≤ 50)%nat ∧ (length (w_confirmed v sp) < 25 * S fuel)%nat) →
  (∀ n, esplora_honest v time (srv n)) → hash_fun_ok (ch_hash ch) → (∀ c, po c ≡ₚ map_to_list (sc_pos c)) →
  ends (esplora_scan_cmd srv (S fuel) ch po gap par w) (λ r, esplora_applies w ch r (λ x', caught_up v wpos (w_tracker w) x' (in_stop_gap v gap A))).
Proof using HA Hw Hsane Htx Htime H0.
  intros Hg Hfit Hpage Hsrv Hho Hpo. set (x := w_tracker w) in *.
  destruct (esplora_parts x Hg) as ([hs Hi] & Hcg & Hin & Hk).
  unfold esplora_scan_cmd. fold x. set (kspks := spks_of_all_keychains (tr_index x)).
  assert (∀ k i, stop_within v gap kspks k i ↔ in_stop_gap v gap A k i) as Hin_gap by (intros k i; by apply all_stop_within).
  assert (scripts_of (tr_index x) kspks) as Hsp by (apply (all_scripts A); [done|apply Hk]).
  clearbody kspks.
  eapply ends_bnd.
  { apply (ps_scan_true W v time Hw Hsane Htime (ch_hash ch) Hho srv Hsrv fuel (sc_cps (cg_chain (tr_cg x))) kspks [] [] gap par).
    - apply (proj1 (proj2 (proj2 (proj2 Hfit)))).
    - intros k l i sp Hkl [p Hp]%elem_of_list_lookup. destruct (Hsp k l Hkl) as (dd & Hd & Hl). pose proof (Hl p i sp Hp) as Hder. destruct Hder as (Hp1 & Hp2 & Hder).
      eapply Hpage; [by apply Hk|done]. }
  intros sc [He _]. destruct (complete_ok v time Hw x kspks [] [] gap (Nat.max par 1) sc Hsp He) as (Hso & F1 & F2).
  assert (fit_seen v wpos (in_chain (ks_update sc)) x) as Hfit'.
  { eapply fit_seen_mono; [|exact Hfit]. intros t (k & i & d & sp & HF & Hd & Hder & Ht). apply (stop_found v time _ _ _ _ _ _ _ t He). left.
    apply Hin_gap in HF as (l & p & sp' & Hl & Hp & Hgap). exists k, l, p, i, sp'. do 3 (split; [done|]).
    destruct (Hsp k l Hl) as (d' & Hd'%Hk & Hall). destruct (Hall p i sp' Hp) as (_ & _ & Hder'). by simplify_eq. }
  eapply (esplora_finish w hs ch po _ sc); try done. fold x. intros x' cs Ea.
  destruct (rescanned A HA W v wpos Hw Hsane (time_height v time) Htx hs x _ sc (ch_hash ch) (po (cg_chain (ks_update sc))) Hi Hcg Hin Hfit' Hso Hho (Hpo _)) as (x1 & cs1 & E1 & Hc).
  rewrite Ea in E1. injection E1 as <- <-. destruct Hc as (M1 & M2 & M3 & M4 & M5 & M6).
  assert (∀ k i, in_stop_gap v gap A k i → RestoreProofs4.reached v kspks (ks_active sc) k i) as HF by (intros k i Hgi; by apply F1, Hin_gap).
  split_and!; try done; [intros o t u k i; intros; eapply M3; eauto|intros o t u k i; intros; eapply M4; eauto].
Qed.

(** ** In a session, with a store that works *)
Lemma esplora_session w pr evs ch r (Q : Tracker Keychain ConfirmationTime → Prop) : in_session w pr evs → default NoFault (head (w_faults w)) = NoFault → esplora_applies w ch r Q →
  ∃ w' evs', r = (w', evs', Ok tt) ∧ Q (w_tracker w') ∧ (Forall (event_ok wf W) evs' → in_session w' pr (evs ++ evs')).
Proof using.
  intros Hs Hf (F & sc & ord & x' & cs & _ & Hso & Hc & Hord & E & Ea & HQ). destruct (apply_fine ch w sc ord x' cs r Hf E (or_intror Ea)) as (w' & -> & <-).
  exists w', [EvAppend cs NoFault]. split; [done|]. split; [done|]. intros Hev.
  eapply (session_snoc wf W dbg limit ext int km w pr evs ch (Run (CmdEsplora sc ord)) w' pr); [done| |cbn [act handle_command fst snd]; by rewrite Ea|done].
  split; [apply Hc|done].
Qed.
Lemma esplora_sync_command w pr evs srv fuel ch po f par :
  in_session w pr evs → fit_seen v wpos (sync_sought v f (w_tracker w)) (w_tracker w) →
  (∀ k d i sp, A k = Some d → derive d i = Some sp → has_address sp = true) →
  (∀ ki sp, si_spk_at (ki_inner (tr_index (w_tracker w))) ki = Some sp → (length (w_mempool v sp) ≤ 50)%nat ∧ (length (w_confirmed v sp) < 25 * S fuel)%nat) →
  (∀ n, esplora_honest v time (srv n)) → hash_fun_ok (ch_hash ch) → (∀ c, po c ≡ₚ map_to_list (sc_pos c)) →
  default NoFault (head (w_faults w)) = NoFault →
  ends (esplora_sync_cmd srv (S fuel) ch po f par w) (λ r, ∃ w' evs', r = (w', evs', Ok tt) ∧
    in_sync v wpos f (w_tracker w) (w_tracker w') ∧ (Forall (event_ok wf W) evs' → in_session w' pr (evs ++ evs'))).
Proof using HC Hdef HA Hw Hsane Htx Htime.
  intros Hs Hfit Haddr Hpage Hsrv Hho Hpo Hf. destruct (session_good wf HC Hdef W dbg limit ext int km HA w pr evs Hs) as [Hg _].
  eapply ends_weaken; [by apply esplora_sync_applies|]. intros r Ha.
  exact (esplora_session w pr evs ch r (in_sync v wpos f (w_tracker w)) Hs Hf Ha).
Qed.
Lemma esplora_scan_command w pr evs srv fuel ch po gap par :
  in_session w pr evs → fit_seen v wpos (of_scripts v A (in_stop_gap v gap A)) (w_tracker w) →
  (∀ k d i sp, A k = Some d → derive d i = Some sp → (length (w_mempool v sp) ≤ 50)%nat ∧ (length (w_confirmed v sp) < 25 * S fuel)%nat) →
  (∀ n, esplora_honest v time (srv n)) → hash_fun_ok (ch_hash ch) → (∀ c, po c ≡ₚ map_to_list (sc_pos c)) →
  default NoFault (head (w_faults w)) = NoFault →
  ends (esplora_scan_cmd srv (S fuel) ch po gap par w) (λ r, ∃ w' evs', r = (w', evs', Ok tt) ∧
    caught_up v wpos (w_tracker w) (w_tracker w') (in_stop_gap v gap A) ∧ (Forall (event_ok wf W) evs' → in_session w' pr (evs ++ evs'))).
Proof using HC Hdef HA Hw Hsane Htx Htime.
  intros Hs Hfit Hpage Hsrv Hho Hpo Hf. destruct (session_good wf HC Hdef W dbg limit ext int km HA w pr evs Hs) as [Hg _].
  eapply ends_weaken; [by apply esplora_scan_applies|]. intros r Ha.
  exact (esplora_session w pr evs ch r (λ x', caught_up v wpos (w_tracker w) x' (in_stop_gap v gap A)) Hs Hf Ha).
Qed.
End commands.
