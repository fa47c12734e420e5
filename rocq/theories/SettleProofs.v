(** Synchronisations repeated until nothing changes (C115). *)
From Verif Require Export AgainCliProofs SettleSpec.
From Verif Require Import ElectrumProofs.
Local Open Scope N_scope.

Lemma filter_fewer {X} (P Q : X → Prop) `{∀ a, Decision (P a), ∀ a, Decision (Q a)} (l : list X) : (∀ a, a ∈ l → Q a → P a) →
  (length (filter Q l) ≤ length (filter P l))%nat ∧ ((∃ a, a ∈ l ∧ P a ∧ ¬ Q a) → (length (filter Q l) < length (filter P l))%nat).
Proof.
  induction l as [|a l IH]; intros HPQ; [split; [done|intros (a & Ha%elem_of_nil & _); done]|].
  destruct IH as [I1 I2]. { intros b Hb. apply HPQ. by right. }
  assert (Q a → P a) as Ha by (apply HPQ; by left). rewrite !filter_cons. split.
  - destruct (decide (Q a)), (decide (P a)); cbn [length]; try lia. naive_solver.
  - intros (b & [->|Hb]%elem_of_cons & Hp & Hq).
    + rewrite decide_False by done. rewrite decide_True by done. cbn [length]. lia.
    + assert (length (filter Q l) < length (filter P l))%nat by (apply I2; by exists b).
      destruct (decide (Q a)), (decide (P a)); cbn [length]; try lia. naive_solver.
Qed.

Section apply.
Context `{!DescEnv} `{Countable K, !Ord K, !OrdLaws K} `{ChainPositionLaws P}.
Context (A : K → option Desc) (HA : good_env A).
Context (W : Txid → list OutPoint) (w : ScanSpec.World) (wpos : Txid → P).
Context (Hw : world_ok w) (Hsane : world_sane W w) (Hwpos : ∀ t, pos_height (wpos t) = w_position w t).
Context (Htx : ∀ t a, w_tx w t = Some a → tx_ok a).
Context (x x' : Tracker K P) (cs : KChangeSet K P) (hs : list (si_op (K * N))) (F : K → N → Prop) (sc : KScan K P).
Context (Hso : scan_ok w wpos x F sc) (Hi : ki_inv A hs (tr_index x)) (Hcg : cg_ok (tr_cg x)) (Hin : inputs_by_txid W (cg_graph (tr_cg x))).
Context (Hfit : fit_seen w wpos (in_chain (ks_update sc)) x).
Context (ho : TxGraph → OutPoint → list Txid) (ord : list (Txid * P)).
Context (Hho : hash_fun_ok ho) (Hord : ord ≡ₚ map_to_list (sc_pos (cg_chain (ks_update sc)))).
Context (Ea : tr_apply_update (ho (cg_graph (tr_cg x))) x sc ord = Ret (Ok (x', cs))).

(** Where a transaction is after a scan. *)
Lemma applied_pos t : w_tx w t = None ∧ sc_pos (cg_chain (tr_cg x')) !! t = None ∨
  sc_pos (cg_chain (tr_cg x')) !! t =
    match sc_pos (cg_chain (ks_update sc)) !! t with
    | Some p => Some p
    | None => match invalid_from (cg_chain (tr_cg x)) (cg_chain (ks_update sc)), sc_pos (cg_chain (tr_cg x)) !! t with
              | Some f, Some p => match pos_height p with
                                  | Confirmed k => if bool_decide (f ≤ k) then Some (pos_max_of Unconfirmed) else Some p
                                  | Unconfirmed => Some p
                                  end
              | _, o => o
              end
    end.
Proof using All.
  destruct Hfit as (Hlim & Hbm & Hcbt & Htrue & Hag).
  destruct (synced A HA W w wpos Hw Hsane Hwpos Htx x hs F sc Hso Hi Hcg Hin Hbm Hcbt Htrue Hag ho ord Hho Hord)
    as (x2 & cs2 & hs' & E & E1 & _). rewrite Ea in E. injection E as <- <-.
  assert (inputs_by_txid W (cg_graph (ks_update sc))) as Huin.
  { intros t' a Hta. apply (ws_inputs W w Hsane). by apply (so_tx w wpos x F sc Hso). }
  destruct (update_positions _ _ _ _ _ _ Hcg (so_ok _ _ _ _ _ Hso) (Hho _) Hord E1) as (c' & ccs & Eu & _ & Hp).
  assert (determine_changeset (cg_chain (tr_cg x)) (cg_chain (ks_update sc)) ord = Ret (Ok ccs)) as Ed.
  { unfold apply_update in Eu. destruct (determine_changeset _ _ _) as [[?|?]|]; [|done..]. cbn [mbind outcome_bind] in Eu. by injection Eu as _ ->. }
  destruct (Hp t) as [[Hc Hn]|[_ Hc]].
  - left. split; [|done]. apply eq_None_not_Some.
    exact (conflicting_unknown W w wpos Hsane Hwpos (tr_cg x) (ks_update sc) Hcg Hin Hbm Hcbt Htrue (so_ok _ _ _ _ _ Hso) Huin
      (so_con _ _ _ _ _ Hso) (so_pos _ _ _ _ _ Hso) ord ccs t Hord Ed Hc).
  - right. rewrite Hc. by apply (update_result_pos _ _ ord _ ccs t (proj1 Hcg) Hord).
Qed.
(** The network goes on knowing the wallet's transactions. *)
Lemma applied_known : (∀ t, is_Some (sc_pos (cg_chain (tr_cg x)) !! t) → is_Some (w_tx w t)) →
  ∀ t, is_Some (sc_pos (cg_chain (tr_cg x')) !! t) → is_Some (w_tx w t).
Proof using All.
  intros Hk t [p Hp]. destruct (applied_pos t) as [[_ Hn]|Ht]; [congruence|]. rewrite Ht in Hp.
  destruct (sc_pos (cg_chain (ks_update sc)) !! t) as [q|] eqn:Eq; [by apply (so_pos _ _ _ _ _ Hso) in Eq as [_ ?]|].
  apply Hk. destruct (sc_pos (cg_chain (tr_cg x)) !! t) as [q|]; [by eexists|]. by destruct (invalid_from _ _).
Qed.
(** A wallet at the tip moves nothing away. *)
Lemma applied_placed t :
  sc_cps (cg_chain (tr_cg x)) !! w_tip w = Some (w_block w (w_tip w)) →
  is_Some (w_tx w t) → sc_pos (cg_chain (tr_cg x)) !! t = Some (wpos t) → sc_pos (cg_chain (tr_cg x')) !! t = Some (wpos t).
Proof using All.
  intros Htip [a Hk] Hp. destruct (applied_pos t) as [[Hn _]| ->]; [congruence|].
  destruct (sc_pos (cg_chain (ks_update sc)) !! t) as [q|] eqn:Eq; [by apply (so_pos _ _ _ _ _ Hso) in Eq as [-> _]|].
  destruct (invalid_from _ _) as [f|] eqn:Ef; [|done]. exfalso.
  apply invalid_from_Some in Ef as ((h & [b Hb] & Hab) & _); [|apply Hfit].
  pose proof (so_con _ _ _ _ _ Hso) as Hcon. rewrite connects_iff in Hcon.
  assert (w_tip w < h) as Hlt. { apply Hab. exists (w_block w (w_tip w)). split; [done|]. apply Hcon. split; [by left|done]. }
  apply Hcon in Hb as [[->|[Hs _]] _]; [lia|].
  pose proof (ls_low _ _ _ _ (proj1 (proj2 (proj2 (proj2 Hfit)))) h Hs). lia.
Qed.
End apply.

Section commands.
Context `{!DescEnv, !CliEnv, !PlanModel.KeyEnv} {C : Codec (KChangeSet Keychain TxHeight)}.
Context (W : Txid → list OutPoint) (dbg : bool) (ext : Desc) (int : option Desc).
Notation A := (keychains ext int).
Notation s := (adds ext int).
Context (HA : good_env A).
Context (v : ScanSpec.World) (Hw : world_ok v) (Hsane : world_sane W v) (Htx : ∀ t a, w_tx v t = Some a → tx_ok a).
Context (Haddr : ∀ k d i sp, A k = Some d → derive d i = Some sp → has_address sp = true).
Notation wpos := (w_position v).
Notation good := (CliProofs.good W ext int).
Implicit Types (x : Tracker Keychain TxHeight) (w : CliModel.World TxHeight).

Lemma known_unspent x ki g : all_known v x → unspent x ki g → is_Some (w_tx v (op_txid (fto_outpoint g))).
Proof. intros Hk [(_ & t & _ & Hp & _) _]. apply Hk. by eexists. Qed.
(** What is asked for is found. *)
Lemma sync_start w srv fuel ch po f batch (Q : CliModel.World TxHeight * list (event TxHeight) * result unit CliError → Prop) :
  good (w_tracker w) → fit_seen v wpos (sync_sought v f (w_tracker w)) (w_tracker w) → all_known v (w_tracker w) →
  (∀ n, electrum_honest v (srv n)) → hash_fun_ok (ch_hash ch) → (0 < batch)%nat →
  (∀ c, usable_update c → connects v (sc_cps (cg_chain (tr_cg (w_tracker w)))) (sc_cps c) →
     (∀ t p, sc_pos c !! t = Some p → p = wpos t ∧ is_Some (w_tx v t)) →
     (∀ t, is_Some (sc_pos c !! t) ↔ sync_finds v f (w_tracker w) t) →
     ends (electrum_finish srv ch po w (mkEU c ∅)) Q) →
  ends (electrum_sync dbg srv (S fuel) ch po f batch w) Q.
Proof using All.
  intros Hg Hfit Hknown Hsrv Hho Hb HQ. set (x := w_tracker w) in *.
  destruct (good_parts W ext int HA x Hg) as ([hs Hi] & Hcg & Hin & Hk).
  destruct (sync_ok W ext int ch x f Hcg Hho Hg Haddr) as (spks & txids & outs & Er & R1 & R2 & R3).
  unfold electrum_sync. fold x.
  eapply ends_bnd. { apply ends_lift. eexists. split; [exact Er|]. exact (eq_refl (spks, txids, outs)). }
  intros r <-. cbn beta iota.
  eapply ends_bnd.
  { apply (plain_scan_ends v srv dbg fuel (sc_cps (cg_chain (tr_cg x))) spks txids outs batch Hw Hsrv); [|done| | |].
    - apply (proj1 (proj2 (proj2 (proj2 Hfit)))).
    - by eapply (few_scripts A x hs Hi ch f).
    - apply Forall_forall. intros t (_ & p & Hp & _)%R2. by eapply (proj2 (proj1 Hcg)).
    - apply Forall_forall. intros o (Hu & ki & g & Hun & <-)%R3. by eapply known_unspent. }
  intros c (Hus & Hcon & Hpos & Hfo & Hfs & Hft & Honly). apply HQ; [done|done| |].
  - intros t p Hp. split; [by apply Hpos|]. destruct (Honly t) as [(sp & _ & Hh)|[[_ Ht]|(o & _ & (y & z & Hy & _) & [->|(y' & Hy' & _)])]]; [by exists p| |done|by exists y|by exists y'].
    by eapply wo_known.
  - intros t. split.
    + intros Hp. destruct (Honly t Hp) as [(sp & (ki & Hsp & Ha)%R1 & Hh)|[[(Hf & p & Hp' & Hu)%R2 Ht]|(o & (Hf & ki & g & Hun & <-)%R3 & (y & z & Hy & Hz) & Har)]].
      * left. left. by exists ki, sp.
      * right. split; [done|]. split; [done|]. by exists p.
      * left. right. split; [done|]. exists ki, g. split; [done|]. split; [by exists y|]. destruct Har as [->|(a & Ha & Hoa)]; [by left|]. right.
        split; [by exists a|]. intros t' b Hb' Hob. apply (ws_conflict W v Hsane t' t b a Hb' Ha). exists (fto_outpoint g).
        split; [|done]. intros E. rewrite E in *. apply Htx in Hy as [_ Hl]. apply lookup_lt_Some in Hz. cbn [null_outpoint op_vout] in Hz. lia.
    + intros [Hs|(Hf & Ht & p & Hp & Hu)].
      * apply (sought_in v x f spks outs); [apply Hfit|done|done| |done|done]. intros o t' u Ho Ht Hu. by eapply Hfo.
      * apply Hft; [|done]. apply R2. split; [done|]. by exists p.
Qed.

(** A wallet that has synchronised with the network before. *)
Definition current x : Prop :=
  good x ∧ fit_for v wpos x ∧ all_known v x ∧ within_limit (cg_chain (tr_cg x)) ∧
  sc_cps (cg_chain (tr_cg x)) !! w_tip v = Some (w_block v (w_tip v)) ∧
  ∀ h b, sc_cps (cg_chain (tr_cg x)) !! h = Some b → h ≤ w_tip v ∧ b = w_block v h.

Lemma sync_progress w w' srv fuel ch po f batch n n' evs :
  good (w_tracker w) → fit_seen v wpos (sync_sought v f (w_tracker w)) (w_tracker w) → all_known v (w_tracker w) →
  (∀ n, electrum_honest v (srv n)) → hash_fun_ok (ch_hash ch) → (∀ c, po c ≡ₚ map_to_list (sc_pos c)) → (0 < batch)%nat →
  electrum_sync dbg srv (S fuel) ch po f batch w n = Done n' (w', evs, Ok tt) →
  current (w_tracker w') ∧
  (∀ t, sync_finds v f (w_tracker w) t → placed wpos (w_tracker w') t) ∧
  (current (w_tracker w) → ∀ t, is_Some (w_tx v t) → placed wpos (w_tracker w) t → placed wpos (w_tracker w') t) ∧
  ((∀ t, sync_finds v f (w_tracker w) t → placed wpos (w_tracker w) t) ∨
   ∃ t, is_Some (w_tx v t) ∧ placed wpos (w_tracker w') t ∧ ¬ placed wpos (w_tracker w) t).
Proof using All.
  intros Hg Hfit Hknown Hsrv Hho Hpo Hb E. set (x := w_tracker w) in *. destruct (good_parts W ext int HA x Hg) as ([hs Hi] & Hcg & Hin & Hk).
  set (Q := λ r : CliModel.World TxHeight * list (event TxHeight) * result unit CliError, ∀ w' evs, r = (w', evs, Ok tt) →
    current (w_tracker w') ∧
    (∀ t, sync_finds v f x t → placed wpos (w_tracker w') t) ∧
    (current x → ∀ t, is_Some (w_tx v t) → placed wpos x t → placed wpos (w_tracker w') t) ∧
    ((∀ t, sync_finds v f x t → placed wpos x t) ∨ ∃ t, is_Some (w_tx v t) ∧ placed wpos (w_tracker w') t ∧ ¬ placed wpos x t)).
  assert (ends (electrum_sync dbg srv (S fuel) ch po f batch w) Q) as He.
  2:{ destruct (He n) as (n2 & r & E2 & Hr). rewrite E in E2. injection E2 as _ <-. by apply (Hr w' evs). }
  apply sync_start; try done. fold x. intros c Hus Hcon Hpos Hfinds.
  assert (fit_seen v wpos (λ t, is_Some (sc_pos c !! t)) x) as Hfit'.
  { eapply fit_seen_mono; [|exact Hfit]. intros t Ht. apply Hfinds. by left. }
  apply (finish_ok A HA W v Hw Hsane Htx x hs Hi Hcg Hin srv ch po w (mkEU c ∅) ∅ 0); try done.
  - apply Hus.
  - intros k j. cbn [eu_active]. rewrite lookup_empty. split; [done|]. intros (l & Hl & _). by rewrite lookup_empty in Hl.
  - intros sc x1 cs r ho1 new_txs Hso Hch Ei Hnew Hho1 Ea Ee w1 evs1 ->.
    destruct (applied_Ok ch w w1 sc _ evs1 (or_introl Ee)) as [cs2 Eu]. fold x in Eu. rewrite Ea in Eu. injection Eu as <- <-.
    cbn [eu_chain] in *. assert (fit_seen v wpos (in_chain (ks_update sc)) x) as Hfit2 by (unfold in_chain; by rewrite Hch).
    assert (po c ≡ₚ map_to_list (sc_pos (cg_chain (ks_update sc)))) as Hord by by rewrite Hch.
    destruct (synced_fit A HA W v wpos Hw Hsane ltac:(done) Htx x x1 cs hs _ sc Hso Hi Hcg Hin Hfit2 (ch_hash ch) (po c) Hho Hord Ea)
      as (Hok' & Hin' & Hfit3 & Hlim' & Hkey & B2 & B1 & P1).
    assert (good x1) as Hg1.
    { destruct (good_op W ext int HA x (TrUpdate (ch_hash ch) sc (po c)) Hg) as (x2 & l0 & y' & E1 & E2 & Hy' & _); [|by intros [l' [=]]|].
      - eapply (scan_command_ok W ext int HA v Hw Hsane Htx x ch po (mkEU c ∅)); try done. apply Hus.
      - cbn [tr_step] in E1. rewrite Ea in E1. cbn [mbind outcome_bind] in E1. injection E1 as <- <-.
        cbn [tr_replay] in E2. unfold tr_apply_update in Ea. destruct (tr_determine_changeset _ _ _ _) as [[cs'|]|]; [|done..].
        destruct (tr_apply_changeset x cs') as [x3|] eqn:E3; [|done]. cbn [mbind outcome_bind] in Ea. injection Ea as -> ->.
        rewrite E3 in E2. cbn [mbind outcome_bind] in E2. by injection E2 as <-. }
    assert (∀ t, sync_finds v f x t → placed wpos x1 t) as Hplaced.
    { intros t Ht. apply Hfinds in Ht as [p Hp]. unfold placed. rewrite (P1 t p); [|by rewrite Hch]. f_equal. by apply Hpos. }
    split_and!; [|done| |].
    + split; [done|]. split; [done|]. split; [|done].
      exact (applied_known A HA W v wpos Hw Hsane ltac:(done) Htx x x1 cs hs _ sc Hso Hi Hcg Hin Hfit2 (ch_hash ch) (po c) Hho Hord Ea Hknown).
    + intros (_ & _ & _ & _ & Htip & _) t.
      apply (applied_placed A HA W v wpos Hw Hsane ltac:(done) Htx x x1 cs hs _ sc Hso Hi Hcg Hin Hfit2 (ch_hash ch) (po c) Hho Hord Ea t Htip).
    + destruct (decide (map_Forall (λ t p, sc_pos (cg_chain (tr_cg x)) !! t = Some p) (sc_pos c))) as [Hall|Hall].
      * left. intros t Ht. apply Hfinds in Ht as [p Hp]. unfold placed. rewrite (Hall t p Hp). f_equal. by apply Hpos.
      * right. apply map_not_Forall in Hall as (t & p & Hp & Hn); [|apply _]. destruct (Hpos t p Hp) as [-> Hkn]. exists t.
        split; [done|]. split; [|done]. apply Hplaced, Hfinds. by eexists.
Qed.
(** Nothing to be found that is not in its place. *)
Lemma sync_nothing w srv fuel ch po f batch : current (w_tracker w) → (∀ t, sync_finds v f (w_tracker w) t → placed wpos (w_tracker w) t) →
  (∀ n, electrum_honest v (srv n)) → hash_fun_ok (ch_hash ch) → (∀ c, po c ≡ₚ map_to_list (sc_pos c)) → (0 < batch)%nat →
  ends (electrum_sync dbg srv (S fuel) ch po f batch w) (λ r, ∃ w2 evs2, r = (w2, evs2, Ok tt) ∧
    w_tracker w2 = w_tracker w ∧ w_file w2 = w_file w).
Proof using All.
  intros (Hg & Hfit & Hknown & Hlim & Htip & Hcps) Hset Hsrv Hho Hpo Hb. set (x := w_tracker w) in *.
  destruct (good_parts W ext int HA x Hg) as ([hs Hi] & Hcg & Hin & Hk).
  apply sync_start; try done. { by apply fit_for_seen. } fold x. intros c Hus Hcon Hpos Hfinds.
  assert (∀ t p, sc_pos c !! t = Some p → sc_pos (cg_chain (tr_cg x)) !! t = Some p) as Hin_x.
  { intros t p Hp. destruct (Hpos t p Hp) as [-> _]. apply Hset, Hfinds. by eexists. }
  assert (missing_full_txs (mkEU c ∅ : ElectrumUpdate Keychain TxHeight) (cg_graph (tr_cg x)) = []) as Hmiss.
  { apply elem_of_nil_inv. unfold missing_full_txs. intros t ([p t'] & -> & Hpt)%elem_of_list_fmap. apply elem_of_list_filter in Hpt as [Hn Hpt]. cbn [snd] in Hn.
    apply txids_elem in Hpt; [|apply Hus]. cbn [eu_chain] in Hpt. apply Hin_x in Hpt. destruct Hcg as (_ & _ & Hfull & _).
    destruct (Hfull t') as [b Hb']; [by eexists|congruence]. }
  unfold electrum_finish. fold x. rewrite Hmiss. eapply ends_bnd.
  { apply (ends_req _ _ (λ ts, ts = [])). intros k. by exists []. }
  intros ts ->. cbn [eu_chain].
  destruct (inflated_ok W v wpos Hsane x ∅ 0 (mkEU c ∅) [] (ch_hash ch (inflate_graph (tr_cg x) c [])))
    as (sc & Ei & Hch & Hso); try done.
  { apply Hfit. }
  { apply Hus. }
  { intros k j. cbn [eu_active]. rewrite lookup_empty. split; [done|]. intros (l & Hl & _). by rewrite lookup_empty in Hl. }
  { rewrite Hmiss. intros i Hi'. by apply elem_of_nil in Hi'. }
  cbn [eu_chain] in *. eapply ends_bnd. { apply ends_lift. exists (Ok sc). split; [exact Ei|]. exact (eq_refl (Ok sc)). }
  intros r <-.
  assert (∀ t, is_Some (get_tx (cg_graph (ks_update sc)) t) → is_Some (get_tx (cg_graph (tr_cg x)) t)) as Hgr.
  { intros t [a Hta]. unfold into_keychain_scan, inflate_update in Ei. cbn [eu_chain] in Ei.
    destruct (cg_new _ c (inflate_graph (tr_cg x) c [])) as [[u|?]|] eqn:E1; [|done..]. injection Ei as <-. cbn [ks_update] in *.
    destruct (cg_new_ok _ _ _ _ (proj1 Hus) (inflate_graph_ok (tr_cg x) c []) (Hho _) E1) as [_ Eg]. rewrite Eg in Hta.
    rewrite inflate_get_tx in Hta; [|apply Hcg|apply Hus].
    unfold in_chainb in Hta. destruct (sc_pos c !! t) as [p|] eqn:Ep; [|done]. destruct (get_tx (cg_graph (tr_cg x)) t); [by eexists|done]. }
  assert (tr_apply_update (ch_hash ch (cg_graph (tr_cg x))) x sc (po c) = Ret (Ok (x, kcs_default))) as Ea.
  { apply nothing_changes; [done|apply Hso|apply Hfit|done|apply Hho|by rewrite Hch|].
    pose proof (so_con _ _ _ _ _ Hso) as Hcon2. rewrite connects_iff in Hcon2. constructor.
    - intros h b Hb'. apply Hcon2 in Hb' as [[->|[[b' Hb2] _]] ->]; [done|]. rewrite Hb2. f_equal. by apply Hcps.
    - rewrite Hch. done.
    - done.
    - intros o u Ho. left. apply (update_txout v wpos x _ sc Hso) in Ho as (t & Ht & _). apply Hgr. by exists t.
    - unfold into_keychain_scan in Ei. destruct (inflate_update _ _ _ _) as [[?|?]|]; [|done..]. injection Ei as <-. cbn [ks_active eu_active].
      intros k j Hj. by rewrite lookup_empty in Hj. }
  destruct (applied_nothing ch w sc _ Ea) as (r & Er & _ & Hr). apply ends_lift. by exists r.
Qed.

Context (f : SyncFlags).
Definition all_placed x : Prop := ∀ t, sync_finds v f x t → placed wpos x t.
Lemma syncs_still n w w' : syncs dbg v f n w w' → current (w_tracker w) → all_placed (w_tracker w) →
  w_tracker w' = w_tracker w ∧ w_file w' = w_file w.
Proof using All.
  induction 1 as [w|n w w1 w2 srv fuel ch po batch i j evs Hsrv Hho Hpo Hb E Hs IH]; [done|]. intros Hc Ha.
  destruct (sync_nothing w srv fuel ch po f batch Hc Ha Hsrv Hho Hpo Hb i) as (j2 & r & E2 & w3 & evs3 & -> & Et & Ef).
  rewrite E in E2. injection E2 as _ <- _. rewrite <- Et in Hc, Ha. destruct (IH Hc Ha) as [-> ->]. done.
Qed.
Lemma finds_known x t : sync_finds v f x t → is_Some (w_tx v t).
Proof using Hw.
  intros [[(ki & sp & _ & _ & Ht)|(_ & ki & g & _ & Hk & [->|[(a & Ha & _) _]])]|(_ & Hk & _)]; [by eapply wo_known|done|by exists a|done].
Qed.
Local Instance placed_dec x t : Decision (placed wpos x t).
Proof. unfold placed. apply _. Defined.
Lemma syncs_place (L : list Txid) n w w' : (∀ t, is_Some (w_tx v t) ↔ t ∈ L) → syncs dbg v f n w w' → current (w_tracker w) →
  (length (filter (λ t, ¬ placed wpos (w_tracker w) t) L) ≤ n)%nat → current (w_tracker w') ∧ all_placed (w_tracker w').
Proof using All.
  intros HL. induction 1 as [w|n w w1 w2 srv fuel ch po batch i j evs Hsrv Hho Hpo Hb E Hs IH]; intros Hc Hm.
  - split; [done|]. intros t Ht. destruct (decide (placed wpos (w_tracker w) t)) as [?|Hn]; [done|]. exfalso.
    assert (t ∈ filter (λ t, ¬ placed wpos (w_tracker w) t) L) as Hin. { apply elem_of_list_filter. split; [done|]. by apply HL, (finds_known (w_tracker w)). }
    destruct (filter _ L); [by apply elem_of_nil in Hin|cbn [length] in Hm; lia].
  - pose proof Hc as (Hg & Hfit & Hknown & _).
    destruct (sync_progress w w1 srv fuel ch po f batch i j evs Hg (fit_for_seen v wpos _ _ Hfit) Hknown Hsrv Hho Hpo Hb E) as (Hc1 & Hpl & Hmono & [Hall|(t & Ht & Hp & Hn)]).
    + assert (syncs dbg v f (S n) w w2) as Hs' by by eapply syncs_more.
      destruct (syncs_still _ _ _ Hs' Hc Hall) as [Et _]. unfold all_placed. by rewrite Et.
    + apply IH; [done|].
      destruct (filter_fewer (λ t, ¬ placed wpos (w_tracker w) t) (λ t, ¬ placed wpos (w_tracker w1) t) L) as [_ Hlt].
      { intros a Ha Hna Hpa. apply Hna, Hmono; [done|by apply HL|done]. }
      assert (length (filter (λ t, ¬ placed wpos (w_tracker w1) t) L) < length (filter (λ t, ¬ placed wpos (w_tracker w) t) L))%nat; [|lia].
      apply Hlt. exists t. split; [by apply HL|]. split; [done|]. by intros Hnn.
Qed.
Lemma syncs_current n w w' : good (w_tracker w) → fit_seen v wpos (sync_sought v f (w_tracker w)) (w_tracker w) → all_known v (w_tracker w) →
  syncs dbg v f n w w' → n ≠ 0%nat → current (w_tracker w').
Proof using All.
  intros Hg Hfit Hk Hs. induction Hs as [w|n w w1 w2 srv fuel ch po batch i j evs Hsrv Hho Hpo Hb E Hs IH]; [done|]. intros _.
  destruct (sync_progress w w1 srv fuel ch po f batch i j evs Hg Hfit Hk Hsrv Hho Hpo Hb E) as (Hc1 & _).
  destruct n as [|n]; [by inversion Hs; subst|]. apply IH; [apply Hc1|apply fit_for_seen, Hc1|apply Hc1|done].
Qed.
(** More synchronisations than the network has transactions. *)
Lemma syncs_settle (L : list Txid) n w w' : good (w_tracker w) → fit_seen v wpos (sync_sought v f (w_tracker w)) (w_tracker w) → all_known v (w_tracker w) →
  (∀ t, is_Some (w_tx v t) ↔ t ∈ L) → syncs dbg v f n w w' → (length L < n)%nat → current (w_tracker w') ∧ all_placed (w_tracker w').
Proof using All.
  intros Hg Hfit Hk HL Hs Hn. destruct Hs as [w|n w w1 w2 srv fuel ch po batch i j evs Hsrv Hho Hpo Hb E Hs]; [lia|].
  destruct (sync_progress w w1 srv fuel ch po f batch i j evs Hg Hfit Hk Hsrv Hho Hpo Hb E) as (Hc1 & _).
  eapply (syncs_place L n w1 w2); [done|done|done|]. pose proof (filter_length (λ t, ¬ placed wpos (w_tracker w1) t) L). lia.
Qed.
(** While the store does not fail, every synchronisation succeeds. *)
Lemma sync_once w srv fuel ch po batch :
  good (w_tracker w) → fit_seen v wpos (sync_sought v f (w_tracker w)) (w_tracker w) → all_known v (w_tracker w) →
  (∀ n, electrum_honest v (srv n)) → hash_fun_ok (ch_hash ch) → (∀ c, po c ≡ₚ map_to_list (sc_pos c)) → (0 < batch)%nat →
  default NoFault (head (w_faults w)) = NoFault →
  ends (electrum_sync dbg srv (S fuel) ch po f batch w) (λ r, ∃ w' evs', r = (w', evs', Ok tt) ∧ w_faults w' = tail (w_faults w)).
Proof using All.
  intros Hg Hfit Hk Hsrv Hho Hpo Hb Hf.
  eapply ends_weaken. { apply (sync_applies W dbg ext int HA v Hw Hsane Htx w srv fuel ch po f batch); try done. intros _ ki g. by apply known_unspent. }
  intros r (F & sc & ord & x' & cs & _ & _ & _ & _ & Ea & Ee & _).
  destruct (apply_fine ch w sc ord x' cs r Hf Ea (or_introl Ee)) as (w' & -> & _). exists w', [EvAppend cs NoFault]. split; [done|].
  unfold electrum_apply, db_append in Ee. destruct (tr_determine_changeset _ _ _ _) as [[cs'|]|]; [|done..]. cbn [mbind outcome_bind] in Ee.
  destruct ((append_changeset _ _ _).2); [|done]. destruct (tr_apply_changeset _ _); [|done]. cbn [mbind outcome_bind] in Ee.
  injection Ee as <- _. done.
Qed.
Lemma syncs_snoc n w w1 w2 srv fuel ch po batch i j evs : syncs dbg v f n w w1 →
  (∀ n, electrum_honest v (srv n)) → hash_fun_ok (ch_hash ch) → (∀ c, po c ≡ₚ map_to_list (sc_pos c)) → (0 < batch)%nat →
  electrum_sync dbg srv (S fuel) ch po f batch w1 i = Done j (w2, evs, Ok tt) → syncs dbg v f (S n) w w2.
Proof.
  intros Hs Hsrv Hho Hpo Hb E. induction Hs as [w|n w w1 w3 srv' fuel' ch' po' batch' i' j' evs' Hsrv' Hho' Hpo' Hb' E' Hs IH].
  - exact (syncs_more dbg v f 0 w w2 w2 srv fuel ch po batch i j evs Hsrv Hho Hpo Hb E (syncs_none _ _ _ _)).
  - exact (syncs_more dbg v f (S n) w w1 w2 srv' fuel' ch' po' batch' i' j' evs' Hsrv' Hho' Hpo' Hb' E' (IH E)).
Qed.
Lemma syncs_go_on n w w' srv fuel ch po batch : good (w_tracker w) → fit_seen v wpos (sync_sought v f (w_tracker w)) (w_tracker w) → all_known v (w_tracker w) →
  syncs dbg v f n w w' →
  (∀ n, electrum_honest v (srv n)) → hash_fun_ok (ch_hash ch) → (∀ c, po c ≡ₚ map_to_list (sc_pos c)) → (0 < batch)%nat →
  default NoFault (head (w_faults w')) = NoFault →
  ends (electrum_sync dbg srv (S fuel) ch po f batch w') (λ r, ∃ w2 evs2, r = (w2, evs2, Ok tt) ∧ w_faults w2 = tail (w_faults w') ∧ syncs dbg v f (S n) w w2).
Proof using All.
  intros Hg Hfit Hk Hs Hsrv Hho Hpo Hb Hf.
  assert (good (w_tracker w') ∧ fit_seen v wpos (sync_sought v f (w_tracker w')) (w_tracker w') ∧ all_known v (w_tracker w')) as (Hg' & Hfit' & Hk').
  { destruct n as [|n]; [by inversion Hs; subst|]. destruct (syncs_current _ w w' Hg Hfit Hk Hs) as (? & ? & ? & _); [done|].
    split; [done|]. split; [by apply fit_for_seen|done]. }
  intros i. destruct (sync_once w' srv fuel ch po batch Hg' Hfit' Hk' Hsrv Hho Hpo Hb Hf i) as (j & r & E & w2 & evs2 & -> & Ef).
  exists j, (w2, evs2, Ok tt). split; [done|]. exists w2, evs2. split; [done|]. split; [done|]. by eapply syncs_snoc.
Qed.
(** What a synchronisation promises then holds of the wallet as it is. *)
Lemma syncs_right (L : list Txid) n w w' : good (w_tracker w) → fit_seen v wpos (sync_sought v f (w_tracker w)) (w_tracker w) → all_known v (w_tracker w) →
  (∀ t, is_Some (w_tx v t) ↔ t ∈ L) → syncs dbg v f n w w' → (length L < n)%nat →
  all_known v (w_tracker w') ∧ in_sync v wpos f (w_tracker w') (w_tracker w').
Proof using All.
  intros Hg Hfit Hk HL Hs Hn. destruct (syncs_settle L n w w' Hg Hfit Hk HL Hs Hn) as [Hc Ha].
  destruct Hs as [w|n w w1 w2 srv fuel ch po batch i j evs Hsrv Hho Hpo Hb E Hs]; [lia|]. pose proof Hc as (Hg2 & Hfit2 & Hk2 & _). split; [done|].
  destruct (sync_nothing w2 srv fuel ch po f batch Hc Ha Hsrv Hho Hpo Hb 0%nat) as (j2 & r & E2 & w3 & evs3 & -> & Et & _).
  destruct (sync_applies W dbg ext int HA v Hw Hsane Htx w2 srv fuel ch po f batch Hg2 (fit_for_seen v wpos _ _ Hfit2)
    (λ _ ki g, known_unspent _ ki g Hk2) Haddr Hsrv Hho Hpo Hb 0%nat) as (j3 & r & E3 & F & sc & ord & x' & cs & _ & _ & _ & _ & Ea & Ee & Hin).
  rewrite E2 in E3. injection E3 as _ <-. destruct (applied_Ok ch w2 w3 sc ord evs3 (or_introl Ee)) as [cs' Ea']. rewrite Ea in Ea'. injection Ea' as -> _.
  by rewrite Et in Hin.
Qed.
End commands.
