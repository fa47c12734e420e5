(** The life of the command line wallet: every synchronisation can rely on what came before (C101). *)
From Verif Require Export CliEsploraProofs RestoreProofs6 CliLifeSpec.
From Verif Require Import CliProofs3.
Local Open Scope N_scope.

Section life.
Context `{!DescEnv, !CliEnv, !PlanModel.KeyEnv} `{ChainPositionLaws P} {C : Codec (KChangeSet Keychain P)}.
Context (wf : KChangeSet Keychain P → Prop) (HC : codec_ok C wf) (Hdef : wf kcs_default).
Context (W : Txid → list OutPoint) (dbg : bool) (limit : nat) (ext : Desc) (int : option Desc) (km : PlanModel.KeyMap).
Notation A := (keychains ext int).
Notation s := (adds ext int).
Context (HA : good_env A).
Implicit Types (x y z : Tracker Keychain P) (w : CliModel.World P) (ch : Choices P) (evs : list (event P)) (v : ScanSpec.World).
Implicit Types (cs : KChangeSet Keychain P).
Notation good := (CliProofs.good W ext int).

(** ** What a command logs *)
(** [J] holds of the wallet on disk after every event. *)
Fixpoint entries (J : Tracker Keychain P → Prop) y evs : Prop :=
  match evs with
  | [] => True
  | EvAppend cs e :: evs => ∃ y', tr_replay y (logged [EvAppend cs e]) = Ret y' ∧ J y' ∧ entries J y' evs
  | _ :: evs => entries J y evs
  end.
Lemma entries_split (J : Tracker Keychain P → Prop) evs1 : ∀ y evs2, J y → entries J y (evs1 ++ evs2) → ∃ y', tr_replay y (logged evs1) = Ret y' ∧ J y'.
Proof.
  induction evs1 as [|ev evs1 IH]; intros y evs2 Hy He.
  - exists y. done.
  - assert (ev :: evs1 = [ev] ++ evs1) as -> by done. rewrite logged_app.
    destruct ev as [cs e|k i sp|u c ok].
    + cbn [app entries] in He. destruct He as (y1 & E1 & Hy1 & He). destruct (IH y1 evs2 Hy1 He) as (y' & E' & Hy'). exists y'. by rewrite tr_replay_app, E1.
    + exact (IH y evs2 Hy He).
    + exact (IH y evs2 Hy He).
Qed.
Lemma appended cs f e : (append_changeset f cs e).2 = Ok tt → logged [EvAppend cs e] = recorded [cs].
Proof.
  rewrite logged_append. unfold append_changeset. destruct (kcs_is_empty cs) eqn:He.
  - intros _. rewrite (recorded_none cs He). by destruct (reached cs e).
  - by destruct e.
Qed.
Lemma entries_append (J : Tracker Keychain P → Prop) w cs y y' w' ev r evs :
  good y → J y → tr_replay y [cs] = Ret y' → J y' → db_append w cs = (w', ev, r) →
  (r ≠ Ok tt → evs = []) → (r = Ok tt → entries J y' evs) → entries J y (ev :: evs).
Proof.
  intros Hg Hy E Hy' Ed Hne Hok. unfold db_append in Ed. set (e := default NoFault (head (w_faults w))) in *. injection Ed as <- <- <-. cbn [entries].
  pose proof (appended cs (w_file w) e) as Hl. rewrite <- (replay_recorded [cs] y) in E by apply Hg.
  destruct ((append_changeset (w_file w) cs e).2) as [[]|er].
  - exists y'. rewrite Hl by done. split; [done|]. split; [done|]. by apply Hok.
  - rewrite Hne by done. rewrite logged_append. destruct (reached cs e); [by exists y'|by exists y].
Qed.

(** ** The wallet on disk *)
Section inv.
Context (Fam : ScanSpec.World → Prop) (J : Tracker Keychain P → Prop) (Jgood : ∀ y, J y → good y).
(** [J] survives what the wallet does by itself. *)
Context (Jindex : ∀ y op x' l y', J y → (∀ l, op ≠ KiScan l) → tr_op_ok A W s (TrIndex op : tr_op Keychain P) → tr_step y (TrIndex op) = Ret (x', l) →
  tr_replay y l = Ret y' → good y' → kept (tr_index y) (tr_index y') → tr_cg y' = tr_cg y → sim (tr_index x') (tr_index y') → outs_eq (tr_index x') (tr_index y') → J y').
Context (Jtx : ∀ y ho t x' l, J y → own_call Fam (TrTx (K:=Keychain) (P:=P) ho t pos_unconfirmed) → tr_op_ok A W s (TrTx ho t pos_unconfirmed : tr_op Keychain P) →
  tr_step y (TrTx ho t pos_unconfirmed) = Ret (x', l) → good x' → J x').

Lemma next_entry y k ix i sp ad (nu : bool) : J y → known s k →
  (if nu then next_unused_spk (tr_index y) k else reveal_next_spk (tr_index y) k) = Ret (ix, (i, sp), ad) →
  ∃ y', tr_replay y [kcs_of_indices ad] = Ret y' ∧ J y' ∧ tr_cg y' = tr_cg y.
Proof using HA Jgood Jindex H5.
  intros HJ Hk E. pose proof (Jgood _ HJ) as Hy. set (op := TrIndex (if nu then KiNextUnused k else KiNext k) : tr_op Keychain P).
  assert (tr_op_ok A W s op) as Hop by (by destruct nu). assert (¬ sets_limit op) as Hl by (by intros [l' [=]]). assert (¬ offers_outputs op) as Hoff by (by destruct nu; intros [l1 [=]]).
  destruct (twins_step A W s y y op HA (proj1 Hy) Hop) as (x' & l0 & y' & E1 & E2 & Ht' & Ho & Hct & Hkp).
  destruct (good_op W ext int HA y op Hy Hop Hl) as (x2 & l2 & y2 & F1 & F2 & Hy2 & Hk2 & Ecg & _). rewrite E1 in F1. injection F1 as <- <-.
  rewrite E2 in F2. injection F2 as <-.
  assert (x' = with_index y ix ∧ l0 = [kcs_of_indices ad]) as [-> ->].
  { unfold op in E1. cbn [tr_step] in E1. destruct nu; cbn [ki_step] in E1; rewrite E in E1; cbn [addr_res] in E1; by injection E1 as <- <-. }
  exists y'. split; [done|]. split; [|done].
  eapply (Jindex y _ _ _ y' HJ); try done; [by destruct nu|apply Ht'|by apply Ho].
Qed.
Lemma finish_entries ch w y u change ok w' evs r :
  hash_fun_ok (ch_hash ch) → J y → tr_cg (w_tracker w) = tr_cg y → (length (ct_out u) ≤ 2)%nat →
  send_finish ch w u change ok = Ret (w', evs, r) → Forall (event_ok wf W) evs → own_sent Fam evs → entries J y evs.
Proof using HA Jgood Jtx H5.
  intros Hho HJ Ecg Hlen E Hev Hown. pose proof (Jgood _ HJ) as Hy. unfold send_finish in E. destruct ok.
  - bind_in E a E1. destruct a as [[x cs]|e].
    + destruct (db_append _ _) as [[w1 ev] r1] eqn:Ed. injection E as <- <- <-. cbn [entries].
      apply Forall_cons in Hev as [[Hid Hin] Hev].
      assert (tr_op_ok A W s (TrTx (ch_hash ch) (ctx_tx u) pos_unconfirmed : tr_op Keychain P)) as Hop.
      { split; [done|]. split; [|split; [|exact Hin]].
        - split; [done|]. cbn [ctx_tx tx_out]. assert (2 ≤ u32_max) by done. lia.
        - by apply pos_max_ok. }
      destruct (good_op W ext int HA y (TrTx (ch_hash ch) (ctx_tx u) pos_unconfirmed) Hy Hop) as (x' & l0 & y' & F1 & F2 & Hy' & Hkp & _ & _).
      { by intros [l' [=]]. }
      assert (l0 = [cs] ∧ x' = y') as [-> <-].
      { pose proof F1 as F1'. cbn [tr_step] in F1. unfold tr_insert_tx, tr_insert_tx_preview in E1, F1. rewrite Ecg in E1.
        destruct (cg_insert_tx_preview _ _ _ _) as [[c|e]|]; [|done|done].
        destruct (tr_apply_changeset (w_tracker w) _) as [xx|]; [|done]. destruct (tr_apply_changeset y _) as [yy|] eqn:Ey; [|done].
        cbn in E1, F1. injection E1 as _ <-. injection F1 as <- <-. split; [done|]. cbn [tr_replay] in F2. rewrite Ey in F2. by injection F2 as <-. }
      eapply (entries_append J (with_tracker w x) cs y x' w1 ev r1 []); try done.
      eapply Jtx; try done. split; [unfold pos_unconfirmed; apply pos_max_height|]. intros v a Hv Ha. eapply Hown; [by left|done|done].
    + destruct e as [[]|]; [done|by injection E as _ <- _..].
  - destruct change as [[k i]|]; [bind_in E a E1|]; by injection E as _ <- _.
Qed.
Lemma command_entries ch w c w' evs r :
  own_command c → hash_fun_ok (ch_hash ch) → J (w_tracker w) →
  handle_command dbg ch km w c = Ret (w', evs, r) → Forall (event_ok wf W) evs → own_sent Fam evs → entries J (w_tracker w) evs.
Proof using HA Jgood Jindex Jtx H5.
  intros Hown Hho HJ E Hev Hsent. pose proof (Jgood _ HJ) as Hy.
  assert (∀ (nu : bool) a, (if nu then next_unused_spk (tr_index (w_tracker w)) External else reveal_next_spk (tr_index (w_tracker w)) External) = Ret a →
    hand_out w a = Ret (w', evs, r) → entries J (w_tracker w) evs) as Hhand.
  { intros nu [[ix [i sp]] ad] En Eh. destruct (next_entry (w_tracker w) External ix i sp ad nu HJ) as (y' & E1 & Hy' & _); [|done|].
    { apply known_adds. by eexists. }
    unfold hand_out in Eh. destruct (db_append _ _) as [[w1 ev] r1] eqn:Ed. cbn [fst snd] in Eh.
    assert (∃ evs', evs = ev :: evs' ∧ (r1 ≠ Ok tt → evs' = []) ∧ (evs' = [] ∨ evs' = [EvAddress External i sp])) as (evs' & -> & Hne & Hevs').
    { destruct r1 as [[]|er]; [destruct (has_address sp)|]; injection Eh as _ <- _; eexists; (split; [done|]); (split; [done|]); auto. }
    eapply (entries_append J (with_tracker w (with_index (w_tracker w) ix)) _ _ y' w1 ev r1 evs'); try done. intros _. by destruct Hevs' as [->| ->]. }
  destruct c as [c| |c|value addr algo ok|sc ord|sc ord]; cbn [handle_command] in E; [| | | |done|done].
  - destruct c; cbn [run_address_cmd] in E.
    + bind_in E a E1. by eapply (Hhand true a).
    + bind_in E a E1. by eapply (Hhand false a).
    + bind_in E a E1. by injection E as _ <- _.
    + by injection E as _ <- _.
  - bind_in E a E1. by injection E as _ <- _.
  - bind_in E a E1. by injection E as _ <- _.
  - bind_in E a E1. destruct a as [[w1 evs1] r1].
    unfold send_prepare in E1. bind_in E1 a E2. destruct a as [x rr].
    destruct (create_tx_shape dbg km ch _ value addr algo x rr E2) as (ix & i & sp & ad & En & -> & Hsh).
    destruct rr as [[u [[ad' ki]|]]|e].
    + destruct Hsh as (-> & -> & a & Hout). destruct (db_append _ _) as [[w2 ev] r2] eqn:Ed.
      destruct (next_entry _ _ ix i sp ad true HJ (change_known W ext int _ Hy) En) as (y' & F1 & Hy' & Ecg).
      assert (∃ evs', evs = ev :: evs' ∧ (r2 ≠ Ok tt → evs' = []) ∧
        (r2 = Ok tt → ∃ w3 r3, tr_cg (w_tracker w3) = tr_cg (w_tracker w) ∧
           send_finish ch w3 u (Some (change_keychain (w_tracker w), i)) ok = Ret (w', evs', r3))) as (evs' & -> & Hne & Hfin).
      { destruct r2 as [[]|er].
        - injection E1 as <- <- <-. bind_in E a2 E3. destruct a2 as [[w4 evs4] r4]. injection E as <- <- <-. eexists. split; [done|].
          split; [done|]. intros _. eexists _, r4. split; [|exact E3].
          apply db_append_disk in Ed as (_ & Et & _). cbn [with_tracker w_tracker with_index tr_cg]. by rewrite Et.
        - injection E1 as <- <- <-. injection E as <- <- <-. by exists []. }
      apply Forall_cons in Hev as [Hev Hevs].
      eapply (entries_append J (with_tracker w (with_index (w_tracker w) ix)) _ _ y' w2 ev r2 evs'); try done.
      intros Hok. destruct (Hfin Hok) as (w3 & r3 & Et & E3). eapply (finish_entries ch w3 y'); try done.
      * by rewrite Et.
      * rewrite Hout. done.
      * intros t c o Hin. eapply Hsent. by right.
    + injection E1 as <- <- <-. bind_in E a2 E3. destruct a2 as [[w4 evs4] r4]. injection E as <- <- <-.
      eapply (finish_entries ch (with_tracker w (with_index (w_tracker w) ix)) (w_tracker w)); try done. rewrite Hsh. cbn. lia.
    + injection E1 as <- <- <-. by injection E as <- <- <-.
Qed.
End inv.

(** ** The life *)
Section dwells.
Context (Fam : ScanSpec.World → Prop) (R : ScanSpec.World → ScanSpec.World → Prop) (Ready : ScanSpec.World → Tracker Keychain P → Prop).
Context (Asks : ScanSpec.World → CliModel.World P → CliModel.World P * list (event P) * result unit CliError → Prop).
Notation dwells := (dwells wf W Fam R Ready Asks dbg limit ext int km).
Context (Inv : ScanSpec.World → Tracker Keychain P → Prop) (Igood : ∀ v y, Inv v y → good y) (Ifam : ∀ v y, Inv v y → Fam v).
Context (Inew : ∀ v x0, Fam v → fresh_tracker limit ext int = Ret x0 → Inv v x0).
Context (Iworld : ∀ v v' y, Inv v y → Fam v' → R v v' → Inv v' y).
Context (Iindex : ∀ v y op x' l y', Inv v y → (∀ l, op ≠ KiScan l) → tr_op_ok A W s (TrIndex op : tr_op Keychain P) → tr_step y (TrIndex op) = Ret (x', l) →
  tr_replay y l = Ret y' → good y' → kept (tr_index y) (tr_index y') → tr_cg y' = tr_cg y → sim (tr_index x') (tr_index y') → outs_eq (tr_index x') (tr_index y') → Inv v y').
Context (Itx : ∀ v y ho t x' l, Inv v y → own_call Fam (TrTx (K:=Keychain) (P:=P) ho t pos_unconfirmed) → tr_op_ok A W s (TrTx ho t pos_unconfirmed : tr_op Keychain P) →
  tr_step y (TrTx ho t pos_unconfirmed) = Ret (x', l) → good x' → Inv v x').
Context (Iasks : ∀ v w w' evs r, Inv v (w_tracker w) → Ready v (w_tracker w) → Asks v w (w', evs, r) →
  ∃ ch c, command_ok A W s ch c ∧ handle_command dbg ch km w c = Ret (w', evs, r) ∧ entries (Inv v) (w_tracker w) evs).

Lemma life_init d evs create faults b w x0 : life wf W dbg limit ext int km d evs → fresh_tracker limit ext int = Ret x0 →
  init limit ext int d create faults = Ret (b, Ok w) → tr_replay x0 (logged evs) = Ret (w_tracker w).
Proof using HC Hdef HA H5.
  intros Hl Ex Ei. destruct (life_alive wf HC Hdef W dbg limit ext int km HA d evs Hl)
    as [[-> [->|(b0 & -> & Hbr)]]|(x1 & y & t & Ex1 & -> & Ht & Hw & Ey & Hy & _)].
  - unfold init in Ei. rewrite Ex in Ei. cbn [mbind outcome_bind] in Ei. destruct create as [j|]; [done|].
    assert (fs_new_from_path None None = (magic, Ok (mkFile magic (length magic)))) as Hn by done. rewrite Hn in Ei.
    rewrite (load_ok wf HC Hdef (mkFile magic (length magic)) [] [] x0) in Ei; [|done|by left|constructor]. cbn [tr_replay mbind outcome_bind] in Ei.
    by injection Ei as <- <-.
  - unfold init in Ei. rewrite Ex in Ei. cbn [mbind outcome_bind] in Ei. rewrite Hbr in Ei. done.
  - rewrite Ex in Ex1. injection Ex1 as <-. rewrite (init_log wf HC Hdef limit ext int (logged evs) t x0 y create faults Ht Hw Ex Ey) in Ei. by injection Ei as <- <-.
Qed.
Lemma dwells_inv v d evs : dwells v d evs → life wf W dbg limit ext int km d evs ∧ Fam v ∧
  ∀ x0 y, fresh_tracker limit ext int = Ret x0 → tr_replay x0 (logged evs) = Ret y → Inv v y.
Proof using All.
  induction 1 as [v Hv|v v' d evs Hd (Hl & Hv & IH) Hv' HR|v d evs p b evs1 evs2 r Hd (Hl & Hv & IH) Hown Hho E Hev Hsent Hrd
    |v d evs create faults b w w' evs1 evs2 r Hd (Hl & Hv & IH) Ei HRd Hasks Hev Hrd].
  - split; [constructor|]. split; [done|]. intros x0 y Ex [= <-]. by apply Inew.
  - split; [done|]. split; [done|]. intros x0 y Ex Ey. eapply Iworld; [by eapply IH|done|done].
  - split; [|split; [done|]].
    + eapply life_process; try done. split; [done|]. by destruct (pr_cmd p).
    + intros x0 y Ex Ey. unfold process in E. bind_in E a Ei. destruct a as [b1 [w|e]].
      * pose proof (life_init d evs _ _ b1 w x0 Hl Ex Ei) as Ew. pose proof (IH x0 _ Ex Ew) as HI.
        bind_in E a E2. destruct a as [[w2 evs'] r2]. injection E as _ -> _.
        pose proof (command_entries Fam (Inv v) (Igood v) (Iindex v) (Itx v) (pr_ch p) w (pr_cmd p) w2 _ r2 Hown Hho HI E2 Hev Hsent) as He.
        destruct (entries_split (Inv v) evs1 (w_tracker w) evs2 HI He) as (y' & Ey' & Hy').
        rewrite logged_app, tr_replay_app, Ew in Ey. cbn [mbind outcome_bind] in Ey. rewrite Ey' in Ey. by injection Ey as <-.
      * injection E as _ E _. assert (evs1 = []) as -> by (by destruct evs1). rewrite app_nil_r in Ey. by eapply IH.
  - destruct (fresh_good (P := P) W limit ext int HA) as (x0 & Ex & Hx0).
    pose proof (life_init d evs _ _ b w x0 Hl Ex Ei) as Ew. pose proof (IH x0 _ Ex Ew) as HI.
    destruct (Iasks v w w' _ r HI HRd Hasks) as (ch & c & Hc & Eh & He). split; [|split; [done|]].
    + assert (left_behind limit ext int d (mkProc create faults ch c) evs1 = f_bytes (disk (w_file w) evs1)) as <-.
      { unfold left_behind. cbn [pr_create pr_faults]. by rewrite Ei. }
      eapply (life_process _ _ _ _ _ _ _ d evs (mkProc create faults ch c) _ evs1 evs2 r Hl Hc); [|done|done].
      cbn [pr_create pr_faults pr_ch pr_cmd]. unfold process. rewrite Ei. cbn [mbind outcome_bind]. by rewrite Eh.
    + intros x1 y Ex1 Ey. rewrite Ex in Ex1. injection Ex1 as <-.
      destruct (entries_split (Inv v) evs1 (w_tracker w) evs2 HI He) as (y' & Ey' & Hy').
      rewrite logged_app, tr_replay_app, Ew in Ey. cbn [mbind outcome_bind] in Ey. rewrite Ey' in Ey. by injection Ey as <-.
Qed.
Lemma dwells_opens v d evs create faults b w : dwells v d evs → init limit ext int d create faults = Ret (b, Ok w) →
  Fam v ∧ good (w_tracker w) ∧ Inv v (w_tracker w) ∧ in_session wf W dbg limit ext int km w [] [].
Proof using All.
  intros Hd Ei. destruct (dwells_inv v d evs Hd) as (Hl & Hv & HI). destruct (fresh_good (P := P) W limit ext int HA) as (x0 & Ex & Hx0).
  pose proof (HI x0 _ Ex (life_init d evs _ _ b w x0 Hl Ex Ei)) as Hw. split; [done|]. split; [by eapply Igood|]. split; [done|].
  exists d, evs, create, faults, b, w, []. split; [done|]. split; [done|]. split; [constructor|]. split; [done|constructor].
Qed.
End dwells.

(** ** The invariant *)
Context (Fam : ScanSpec.World → Prop) (HF : coherent W Fam) (Hlim : limit ≠ 0%nat) (wpos : ScanSpec.World → Txid → P) (Hwpos : ∀ v t, pos_height (wpos v t) = ScanSpec.w_position v t).
Section alive.
Context (x0 : Tracker Keychain P) (Ex0 : fresh_tracker limit ext int = Ret x0).
Notation living := (RestoreProofs6.alive A W Fam s x0 wpos).
Lemma living_setup : tr_setup s (Some limit) = Ret x0.
Proof using Ex0. by rewrite <- fresh_setup. Qed.
Lemma living_new v : Fam v → living v x0.
Proof using HA Hlim Ex0 H5.
  intros Hv. apply (alive_new A HA W Fam s (adds_ok ext int)) with (lim := Some limit); [|by intros [= E]|apply living_setup|done].
  unfold adds. destruct int; repeat constructor; done.
Qed.
Lemma living_twin v x y hs : living v x → ki_inv A hs (tr_index y) → tr_cg y = tr_cg x → sim (tr_index x) (tr_index y) → outs_eq (tr_index x) (tr_index y) → living v y.
Proof using.
  intros [a1 [hs' a2] a3 a4 a5 a6 a7 a8 a9 a10] Hi Ecg Hs [Ho _]. pose proof (sim_indices A hs' hs _ _ a2 Hi Hs) as Ei. destruct Hs as (Hk & _).
  assert (∀ o, si_txout (ki_inner (tr_index y)) o = si_txout (ki_inner (tr_index x)) o) as Et by (intros o; unfold si_txout; by rewrite Ho).
  assert (∀ sp, si_index_of_spk (ki_inner (tr_index y)) sp = si_index_of_spk (ki_inner (tr_index x)) sp) as Es by (intros sp; unfold si_index_of_spk; by rewrite Ei).
  constructor; rewrite ?Ecg; try done.
  - by exists hs.
  - by rewrite <- Hk.
  - intros v' Hv'. destruct (a8 v' Hv') as [b1 b2]. split; [by rewrite Ecg|]. intros o ki u t. rewrite Et. apply b2.
  - intros sp ki. rewrite Es. apply a9.
  - intros o t u ki. rewrite Et. apply a10.
Qed.
Lemma living_index v y op x' l y' : living v y → (∀ l, op ≠ KiScan l) → tr_op_ok A W s (TrIndex op : tr_op Keychain P) → tr_step y (TrIndex op) = Ret (x', l) →
  good y' → tr_cg y' = tr_cg y → sim (tr_index x') (tr_index y') → outs_eq (tr_index x') (tr_index y') → living v y'.
Proof using HA H5.
  intros Ha Hn Hop E Hg Ecg Hs Ho. destruct (good_index W ext int _ Hg) as [hs Hi].
  pose proof (alive_index A HA W Fam s x0 wpos v y op x' l Ha Hn Hop E) as Hx.
  eapply (living_twin v x' y' hs); try done. rewrite Ecg. cbn [tr_step] in E. destruct (ki_step _ _) as [[[i o] ad]|]; [|done]. by injection E as <- _.
Qed.
End alive.
Definition lives v y : Prop := good y ∧ ∀ x0, fresh_tracker limit ext int = Ret x0 → RestoreProofs6.alive A W Fam s x0 wpos v y.
Definition current v y : Prop := ∀ t p h, sc_pos (cg_chain (tr_cg y)) !! t = Some p → pos_height p = Confirmed h → p = wpos v t.
Lemma lives_new v x0 : Fam v → fresh_tracker limit ext int = Ret x0 → lives v x0.
Proof using HA Hlim H5.
  intros Hv Ex. destruct (fresh_good (P := P) W limit ext int HA) as (x1 & Ex1 & Hx0). rewrite Ex in Ex1. injection Ex1 as <-.
  split; [done|]. intros x1 Ex1. rewrite Ex in Ex1. injection Ex1 as <-. by apply living_new.
Qed.
Lemma lives_fam v y : lives v y → Fam v.
Proof using HA H5. intros [_ Ha]. destruct (fresh_good (P := P) W limit ext int HA) as (x1 & Ex1 & _). apply (Ha _ Ex1). Qed.
Lemma lives_fit v y : lives v y → no_hidden_reorg wpos v y → fit_for v (wpos v) y.
Proof using HA HF Hwpos H5.
  intros [_ Ha] Hn. destruct (fresh_good (P := P) W limit ext int HA) as (x1 & Ex1 & _). exact (alive_fit A W Fam HF s x1 wpos Hwpos v y (Ha _ Ex1) Hn).
Qed.
Lemma lives_index v y op x' l y' : lives v y → (∀ l, op ≠ KiScan l) → tr_op_ok A W s (TrIndex op : tr_op Keychain P) → tr_step y (TrIndex op) = Ret (x', l) →
  tr_replay y l = Ret y' → good y' → kept (tr_index y) (tr_index y') → tr_cg y' = tr_cg y → sim (tr_index x') (tr_index y') → outs_eq (tr_index x') (tr_index y') → lives v y'.
Proof using HA H5.
  intros [Hg Ha] Hn Hop E _ Hg' _ Ecg Hs Ho. split; [done|]. intros x0 Ex. by eapply (living_index x0 v y op x' l y' (Ha _ Ex)).
Qed.
Lemma lives_tx v y ho t x' l : lives v y → own_call Fam (TrTx (K:=Keychain) (P:=P) ho t pos_unconfirmed) → tr_op_ok A W s (TrTx ho t pos_unconfirmed : tr_op Keychain P) →
  tr_step y (TrTx ho t pos_unconfirmed) = Ret (x', l) → good x' → lives v x' ∧ (current v y → current v x').
Proof using HA HF Hwpos H5.
  intros [Hg Ha] Hown Hop E Hg'. destruct (fresh_good (P := P) W limit ext int HA) as (x1 & Ex1 & _). split; [split; [done|]|].
  - intros x0 Ex. by eapply (alive_tx A HA W Fam HF s x0 wpos Hwpos v y ho t pos_unconfirmed x' l (Ha _ Ex) Hown Hop E).
  - intros Hc t' p h Hp Eh. destruct (alive_tx A HA W Fam HF s x1 wpos Hwpos v y ho t pos_unconfirmed x' l (Ha _ Ex1) Hown Hop E) as [_ Hp']. eapply Hc; [by eapply Hp'|done].
Qed.
Lemma lives_seen v y found : blocks_commit wpos Fam → lives v y → seen_again wpos v found y → fit_seen v (wpos v) found y.
Proof using HA HF Hwpos H5.
  intros Hcom [_ Ha] Hn. destruct (fresh_good (P := P) W limit ext int HA) as (x1 & Ex1 & _). exact (alive_fit_seen A W Fam HF s x1 wpos Hwpos v y found Hcom (Ha _ Ex1) Hn).
Qed.
(** ** Synchronisations *)
Section asks.
Context (Ready : ScanSpec.World → Tracker Keychain P → Prop) (Asks : ScanSpec.World → CliModel.World P → CliModel.World P * list (event P) * result unit CliError → Prop).
Context (HAsks : ∀ x0 v w r, RestoreProofs6.alive A W Fam s x0 wpos v (w_tracker w) → good (w_tracker w) → Ready v (w_tracker w) → Asks v w r →
  ∃ ch c F sc ord x' cs, (c = CmdElectrum sc ord ∨ c = CmdEsplora sc ord) ∧ fit_seen v (wpos v) (in_chain (ks_update sc)) (w_tracker w) ∧ scan_ok v (wpos v) (w_tracker w) F sc ∧ command_ok A W s ch c ∧
    ord ≡ₚ map_to_list (sc_pos (cg_chain (ks_update sc))) ∧
    tr_apply_update (ch_hash ch (cg_graph (tr_cg (w_tracker w)))) (w_tracker w) sc ord = Ret (Ok (x', cs)) ∧ handle_command dbg ch km w c = Ret r).
Section asked.
Context (x0 : Tracker Keychain P).
Notation living := (RestoreProofs6.alive A W Fam s x0 wpos).
(** Applying a scan that the wallet asked for. *)
Lemma asked_entries v w w' evs r : living v (w_tracker w) → good (w_tracker w) → Ready v (w_tracker w) → Asks v w (w', evs, r) →
  ∃ ch c, command_ok A W s ch c ∧ handle_command dbg ch km w c = Ret (w', evs, r) ∧
    ∀ J : Tracker Keychain P → Prop, J (w_tracker w) → (∀ x', good x' → living v x' →
      (∀ t p h, sc_pos (cg_chain (tr_cg x')) !! t = Some p → pos_height p = Confirmed h → p = wpos v t) → J x') → entries J (w_tracker w) evs.
Proof using HA HF Hwpos HAsks H5.
  intros Ha Hg Hn Hasks.
  destruct (HAsks x0 v w _ Ha Hg Hn Hasks) as (ch & c & F & sc & ord & x' & cs & Hc & Hfit & Hso & Hcmd & Hord & E & Eh).
  exists ch, c. split; [done|]. split; [done|]. intros J HJ HJ'.
  assert (hash_fun_ok (ch_hash ch)) as Hho by apply Hcmd.
  destruct (alive_scan A HA W Fam HF s x0 wpos Hwpos v _ F sc (ch_hash ch) ord x' cs Ha Hfit Hso Hho Hord E) as [Ha' Hp'].
  assert (tr_replay (w_tracker w) [cs] = Ret x') as Er.
  { unfold tr_apply_update in E. destruct (tr_determine_changeset _ _ _ _) as [[cs'|e]|]; [|done|done].
    cbn [tr_replay]. destruct (tr_apply_changeset _ cs') as [x1|] eqn:E1; [|done]. injection E as -> ->. by rewrite E1. }
  assert (good x') as Hg'.
  { destruct (update_step W ext int HA ch (w_tracker w) sc ord cs) as (y' & E' & Hy' & _); [|done| |].
    - destruct Hc as [->| ->]; exact Hcmd.
    - unfold tr_apply_update in E. destruct (tr_determine_changeset _ _ _ _) as [[cs'|e]|]; [|done|done].
      destruct (tr_apply_changeset _ cs') as [x1|] eqn:E1; [|done]. by injection E as _ ->.
    - rewrite Er in E'. by injection E' as <-. }
  assert (∃ w2 w3 ev r3, db_append w2 cs = (w3, ev, r3) ∧ evs = [ev]) as (w2 & w3 & ev & r3 & Ed & ->).
  { destruct Hc as [->| ->]; cbn [handle_command] in Eh.
    - unfold electrum_apply in Eh. unfold tr_apply_update in E. destruct (tr_determine_changeset _ _ _ _) as [[cs'|e]|]; [|done|done].
      destruct (tr_apply_changeset _ cs') as [x1|] eqn:E1; [|done]. injection E as -> ->. cbn [mbind outcome_bind] in Eh.
      destruct (db_append w cs) as [[w1 ev] r1] eqn:Ed. exists w, w1, ev, r1. split; [done|]. destruct r1 as [u1|e1]; [bind_in Eh a2 Ea|]; by injection Eh as _ <- _.
    - unfold esplora_apply in Eh. rewrite E in Eh. cbn [mbind outcome_bind] in Eh. destruct (db_append _ cs) as [[w1 ev] r1] eqn:Ed.
      exists (with_tracker w x'), w1, ev, r1. split; [done|]. by injection Eh as _ <- _. }
  eapply (entries_append J w2 cs (w_tracker w) x' w3 ev r3 []); try done. by apply HJ'.
Qed.
End asked.

Lemma lives_asks v w w' evs r (J : Tracker Keychain P → Prop) : lives v (w_tracker w) → Ready v (w_tracker w) → Asks v w (w', evs, r) →
  J (w_tracker w) → (∀ x', lives v x' → current v x' → J x') →
  ∃ ch c, command_ok A W s ch c ∧ handle_command dbg ch km w c = Ret (w', evs, r) ∧ entries J (w_tracker w) evs.
Proof using HA HF Hwpos HAsks H5.
  intros [Hg Ha] Hn Hasks HJ HJ'. destruct (fresh_good (P := P) W limit ext int HA) as (x0 & Ex & _).
  destruct (asked_entries x0 v w w' evs r (Ha _ Ex) Hg Hn Hasks) as (ch & c & Hc & Eh & He). exists ch, c. split; [done|]. split; [done|].
  apply He; [done|]. intros x' Hg' Ha' Hp'. apply HJ'; [|done]. split; [done|]. intros x1 Ex1. rewrite Ex in Ex1. by injection Ex1 as <-.
Qed.

(** Every process finds the wallet as a wallet that has lived so far. *)
Lemma dwells_lives v d evs create faults b w : dwells wf W Fam higher Ready Asks dbg limit ext int km v d evs →
  init limit ext int d create faults = Ret (b, Ok w) →
  Fam v ∧ lives v (w_tracker w) ∧ in_session wf W dbg limit ext int km w [] [].
Proof using All.
  intros Hd Ei.
  destruct (dwells_opens Fam higher Ready Asks lives) with (v := v) (d := d) (evs := evs) (create := create) (faults := faults) (b := b) (w := w)
    as (Hv & Hg & Hl & Hs); try done.
  - by intros v' y [? _].
  - apply lives_fam.
  - apply lives_new.
  - intros v1 v2 y [Hg Ha] Hv2 HR. split; [done|]. intros x0 Ex. by eapply alive_world; [apply Ha| |].
  - apply lives_index.
  - intros; by eapply lives_tx.
  - intros; by eapply lives_asks.
Qed.
End asks.
(** A wallet is fit for the network, unless a reorganisation is hidden from it. *)
Section hidden.
Context (Asks : ScanSpec.World → CliModel.World P → CliModel.World P * list (event P) * result unit CliError → Prop).
Context (HAsks : ∀ v w r, Fam v → good (w_tracker w) → fit_for v (wpos v) (w_tracker w) → Asks v w r →
  ∃ ch c F sc ord x' cs, (c = CmdElectrum sc ord ∨ c = CmdEsplora sc ord) ∧ fit_seen v (wpos v) (in_chain (ks_update sc)) (w_tracker w) ∧ scan_ok v (wpos v) (w_tracker w) F sc ∧ command_ok A W s ch c ∧
    ord ≡ₚ map_to_list (sc_pos (cg_chain (ks_update sc))) ∧
    tr_apply_update (ch_hash ch (cg_graph (tr_cg (w_tracker w)))) (w_tracker w) sc ord = Ret (Ok (x', cs)) ∧ handle_command dbg ch km w c = Ret r).
Lemma hidden_asks x0 v w r : RestoreProofs6.alive A W Fam s x0 wpos v (w_tracker w) → good (w_tracker w) → no_hidden_reorg wpos v (w_tracker w) → Asks v w r →
  ∃ ch c F sc ord x' cs, (c = CmdElectrum sc ord ∨ c = CmdEsplora sc ord) ∧ fit_seen v (wpos v) (in_chain (ks_update sc)) (w_tracker w) ∧ scan_ok v (wpos v) (w_tracker w) F sc ∧ command_ok A W s ch c ∧
    ord ≡ₚ map_to_list (sc_pos (cg_chain (ks_update sc))) ∧
    tr_apply_update (ch_hash ch (cg_graph (tr_cg (w_tracker w)))) (w_tracker w) sc ord = Ret (Ok (x', cs)) ∧ handle_command dbg ch km w c = Ret r.
Proof using HF Hwpos HAsks.
  intros Ha Hg Hn Hasks. by apply HAsks; [apply Ha|done|eapply (alive_fit A W Fam HF s x0 wpos Hwpos)|].
Qed.
Lemma dwells_fit v d evs create faults b w : dwells wf W Fam higher (no_hidden_reorg wpos) Asks dbg limit ext int km v d evs →
  init limit ext int d create faults = Ret (b, Ok w) →
  Fam v ∧ good (w_tracker w) ∧ (no_hidden_reorg wpos v (w_tracker w) → fit_for v (wpos v) (w_tracker w)) ∧ in_session wf W dbg limit ext int km w [] [].
Proof using All.
  intros Hd Ei. destruct (dwells_lives (no_hidden_reorg wpos) Asks hidden_asks v d evs create faults b w Hd Ei) as (Hv & Hl & Hs).
  split; [done|]. split; [apply Hl|]. split; [intros Hn; by apply lives_fit|done].
Qed.
(** In a network that only grows nothing is hidden. *)
Lemma dwells_growing v d evs : dwells wf W Fam (extends wpos) (λ _ _, True) Asks dbg limit ext int km v d evs →
  dwells wf W Fam higher (no_hidden_reorg wpos) Asks dbg limit ext int km v d evs ∧
  ∀ create faults b w, init limit ext int d create faults = Ret (b, Ok w) → no_hidden_reorg wpos v (w_tracker w).
Proof using All.
  assert (∀ v d evs create faults b w, dwells wf W Fam (extends wpos) (λ _ _, True) Asks dbg limit ext int km v d evs →
    init limit ext int d create faults = Ret (b, Ok w) → no_hidden_reorg wpos v (w_tracker w)) as Hhid.
  { clear v d evs. intros v d evs create faults b w Hd Ei.
    destruct (dwells_opens Fam (extends wpos) (λ _ _, True) Asks (λ v y, lives v y ∧ current v y)) with (v := v) (d := d) (evs := evs) (create := create) (faults := faults) (b := b) (w := w)
      as (Hv & Hg & [Hl Hc] & Hs); try done.
    - by intros v' y [[? _] _].
    - intros v' y [? _]. by eapply lives_fam.
    - intros v' x0 Hv' Ex. split; [by apply lives_new|]. intros t p h. rewrite fresh_setup in Ex. unfold tr_setup in Ex.
      destruct (ki_run s) as [[[i outs] acc]|]; [|done]. injection Ex as <-. destruct (limit_fresh (P:=P) (Some limit)) as (_ & Hp & _). cbn zeta in Hp. cbn [tr_cg]. by rewrite Hp, lookup_empty.
    - intros v1 v2 y [[Hg Ha] Hc] Hv2 HR. split; [split; [done|]|].
      + intros x0 Ex. by eapply alive_world; [apply Ha| |apply HR].
      + intros t p h Hp Eh. pose proof (Hc t p h Hp Eh) as ->. symmetry. eapply HR. by eapply (wpos_confirmed wpos Hwpos).
    - intros v' y op x' l y' [Hl Hc] ? ? ? ? ? ? Ecg ? ?. split; [by eapply lives_index|]. intros t p h. rewrite Ecg. apply Hc.
    - intros v' y ho t x' l [Hl Hc] ? ? ? ?. destruct (lives_tx v' y ho t x' l) as [? ?]; auto.
    - intros v' w1 w2 evs' r [Hl Hc] _ Hasks. eapply (lives_asks (no_hidden_reorg wpos) Asks hidden_asks); try done. intros t p h Hp Eh. left. by eapply Hc.
    - intros t p h Hp Eh. left. by eapply Hc. }
  intros Hd. split; [|by intros; eapply Hhid].
  induction Hd as [v Hv|v v' d evs Hd IH Hv' HR|v d evs p b evs1 evs2 r Hd IH Hown Hho E Hev Hsent Hrd
    |v d evs create faults b w w' evs1 evs2 r Hd IH Ei HRd Hasks Hev Hrd].
  - by constructor.
  - eapply dwells_world; [exact IH|done|apply HR].
  - by eapply dwells_command.
  - eapply dwells_sync; [exact IH|exact Ei| |exact Hasks|done|done]. by eapply Hhid.
Qed.
End hidden.
End life.

(** ** The servers *)
Lemma opened_faults `{!DescEnv, !CliEnv} `{ChainPosition P} {C : Codec (KChangeSet Keychain P)} limit ext int d create faults b (w : CliModel.World P) :
  init limit ext int d create faults = Ret (b, Ok w) → w_faults w = faults.
Proof.
  unfold init. intros E. bind_in E x Ex. destruct (fs_new_from_path d create) as [b1 [f|e]]; [|done].
  destruct (load_into_keychain_tracker f x) as [[[[x1 f1] r]|]|]; [|done|done]. by injection E as <- <-.
Qed.
Section electrum.
Context `{!DescEnv, !CliEnv, !PlanModel.KeyEnv} {C : Codec (KChangeSet Keychain TxHeight)}.
Context (wf : KChangeSet Keychain TxHeight → Prop) (HC : codec_ok C wf) (Hdef : wf kcs_default).
Context (W : Txid → list OutPoint) (dbg : bool) (limit : nat) (ext : Desc) (int : option Desc) (km : PlanModel.KeyMap).
Notation A := (keychains ext int).
Notation s := (adds ext int).
Notation good := (CliProofs.good W ext int).
Context (HA : good_env A) (Fam : ScanSpec.World → Prop) (HF : coherent W Fam) (Hlim : limit ≠ 0%nat).
Context (Haddr : ∀ k d i sp, A k = Some d → derive d i = Some sp → has_address sp = true).
Implicit Types (v : ScanSpec.World) (w : CliModel.World TxHeight) (evs : list (event TxHeight)).

Lemma electrum_asked v w r : Fam v → good (w_tracker w) → fit_for v (w_position v) (w_tracker w) → electrum_asks dbg v w r →
  ∃ ch c F sc ord x' cs, (c = CmdElectrum sc ord ∨ c = CmdEsplora sc ord) ∧ fit_seen v (w_position v) (in_chain (ks_update sc)) (w_tracker w) ∧ scan_ok v (w_position v) (w_tracker w) F sc ∧ command_ok A W s ch c ∧
    ord ≡ₚ map_to_list (sc_pos (cg_chain (ks_update sc))) ∧
    tr_apply_update (ch_hash ch (cg_graph (tr_cg (w_tracker w)))) (w_tracker w) sc ord = Ret (Ok (x', cs)) ∧ handle_command dbg ch km w c = Ret r.
Proof using HA HF Haddr.
  intros Hv Hg Hfit (srv & fuel & ch & po & batch & n & n' & Hsrv & Hho & Hpo & Hb & Hr). destruct (co_ok W Fam HF v Hv) as (Hw & Hsane & Htx).
  assert (∃ Q, applies W ext int v w ch r Q) as (Q & F & sc & ord & x' & cs & R0 & R1 & R2 & R3 & R4 & R5 & _).
  { destruct Hr as [(f & Hk & E)|(gap & E)].
    - destruct (sync_applies W dbg ext int HA v Hw Hsane Htx w srv fuel ch po f batch Hg (fit_for_seen _ _ _ _ Hfit) Hk Haddr Hsrv Hho Hpo Hb n) as (n1 & r1 & E1 & Ha).
      rewrite E in E1. injection E1 as _ <-. by eexists.
    - destruct (scan_applies W dbg ext int HA v Hw Hsane Htx w srv fuel ch po gap batch Hg (fit_for_seen _ _ _ _ Hfit) Hsrv Hho Hpo Hb n) as (n1 & r1 & E1 & Ha).
      rewrite E in E1. injection E1 as _ <-. by eexists. }
  exists ch, (CmdElectrum sc ord), F, sc, ord, x', cs. split; [by left|]. done.
Qed.
Lemma electrum_sought x0 v w r : RestoreProofs6.alive A W Fam s x0 w_position v (w_tracker w) → good (w_tracker w) → blocks_commit w_position Fam → electrum_seeks dbg ext int v w r →
  ∃ ch c F sc ord x' cs, (c = CmdElectrum sc ord ∨ c = CmdEsplora sc ord) ∧ fit_seen v (w_position v) (in_chain (ks_update sc)) (w_tracker w) ∧ scan_ok v (w_position v) (w_tracker w) F sc ∧ command_ok A W s ch c ∧
    ord ≡ₚ map_to_list (sc_pos (cg_chain (ks_update sc))) ∧
    tr_apply_update (ch_hash ch (cg_graph (tr_cg (w_tracker w)))) (w_tracker w) sc ord = Ret (Ok (x', cs)) ∧ handle_command dbg ch km w c = Ret r.
Proof using HA HF Haddr.
  intros Ha0 Hg Hcom (srv & fuel & ch & po & batch & n & n' & Hsrv & Hho & Hpo & Hb & Hr). pose proof (RestoreProofs6.al_fam _ _ _ _ _ _ _ _ Ha0) as Hv. destruct (co_ok W Fam HF v Hv) as (Hw & Hsane & Htx).
  assert (∃ Q, applies W ext int v w ch r Q) as (Q & F & sc & ord & x' & cs & R0 & R1 & R2 & R3 & R4 & R5 & _).
  { destruct Hr as [(f & Hseen & Hk & E)|(gap & Hseen & E)].
    - destruct (sync_applies W dbg ext int HA v Hw Hsane Htx w srv fuel ch po f batch Hg (alive_fit_seen A W Fam HF s x0 w_position ltac:(done) v (w_tracker w) _ Hcom Ha0 Hseen) Hk Haddr Hsrv Hho Hpo Hb n) as (n1 & r1 & E1 & Ha).
      rewrite E in E1. injection E1 as _ <-. by eexists.
    - destruct (scan_applies W dbg ext int HA v Hw Hsane Htx w srv fuel ch po gap batch Hg (alive_fit_seen A W Fam HF s x0 w_position ltac:(done) v (w_tracker w) _ Hcom Ha0 Hseen) Hsrv Hho Hpo Hb n) as (n1 & r1 & E1 & Ha).
      rewrite E in E1. injection E1 as _ <-. by eexists. }
  exists ch, (CmdElectrum sc ord), F, sc, ord, x', cs. split; [by left|]. done.
Qed.
Lemma electrum_lives R Ready Asks (Sf : SyncFlags → Prop) (Sg : N → Prop) v d evs create faults b w srv fuel ch po batch :
  dwells wf W Fam R Ready Asks dbg limit ext int km v d evs → init limit ext int d create faults = Ret (b, Ok w) → Ready v (w_tracker w) →
  Fam v → good (w_tracker w) → (∀ f, Sf f → fit_seen v (w_position v) (sync_sought v f (w_tracker w)) (w_tracker w)) →
  (∀ gap, Sg gap → fit_seen v (w_position v) (of_scripts v A (in_gap v gap A)) (w_tracker w)) →
  (∀ f n n' r, Sf f → (sf_utxos (sync_flags f) = true → ∀ ki g, unspent (w_tracker w) ki g → is_Some (w_tx v (op_txid (fto_outpoint g)))) → electrum_sync dbg srv (S fuel) ch po f batch w n = Done n' r → Asks v w r) → (∀ gap n n' r, Sg gap → electrum_scan dbg srv (S fuel) ch po gap batch w n = Done n' r → Asks v w r) →
  in_session wf W dbg limit ext int km w [] [] → default NoFault (head (w_faults w)) = NoFault →
  (∀ n, electrum_honest v (srv n)) → hash_fun_ok (ch_hash ch) → (∀ c, po c ≡ₚ map_to_list (sc_pos c)) → (0 < batch)%nat →
  (∀ f, Sf f → (sf_utxos (sync_flags f) = true → ∀ ki g, unspent (w_tracker w) ki g → is_Some (w_tx v (op_txid (fto_outpoint g)))) →
    ends (electrum_sync dbg srv (S fuel) ch po f batch w) (λ r, ∃ w' evs', r = (w', evs', Ok tt) ∧ in_sync v (w_position v) f (w_tracker w) (w_tracker w') ∧
      (Forall (event_ok wf W) evs' → dwells wf W Fam R Ready Asks dbg limit ext int km v (Some (f_bytes (w_file w'))) (evs ++ evs')))) ∧
  (∀ gap, Sg gap → ends (electrum_scan dbg srv (S fuel) ch po gap batch w) (λ r, ∃ w' evs', r = (w', evs', Ok tt) ∧
      caught_up v (w_position v) (w_tracker w) (w_tracker w') (in_gap v gap A) ∧
      (Forall (event_ok wf W) evs' → dwells wf W Fam R Ready Asks dbg limit ext int km v (Some (f_bytes (w_file w'))) (evs ++ evs')))).
Proof using HA HF Haddr.
  intros Hd Ei HR Hv Hg Hf1 Hf2 Ha1 Ha2 Hs Hf Hsrv Hho Hpo Hb. destruct (co_ok W Fam HF v Hv) as (Hw & Hsane & Htx).
  assert (∀ r Q, applies W ext int v w ch r Q → Asks v w r → ∃ w' evs', r = (w', evs', Ok tt) ∧ Q (w_tracker w') ∧
    (Forall (event_ok wf W) evs' → dwells wf W Fam R Ready Asks dbg limit ext int km v (Some (f_bytes (w_file w'))) (evs ++ evs'))) as Hstep.
  { intros r Q (F & sc & ord & x' & cs & _ & Hso & Hc & Hord & E & Ea & HQ) Hasks.
    destruct (apply_fine ch w sc ord x' cs r Hf E (or_introl Ea)) as (w' & -> & <-). exists w', [EvAppend cs NoFault]. split; [done|]. split; [done|]. intros Hev.
    rewrite (handle_disk dbg km ch w (CmdElectrum sc ord) w' [EvAppend cs NoFault] (Ok tt) Ea).
    eapply (dwells_sync _ _ _ _ _ _ _ _ _ _ _ v d evs create faults b w w' [EvAppend cs NoFault] []); try done.
    right. intros cs' e Hin. rewrite app_nil_r in Hin. apply elem_of_list_singleton in Hin as [= -> ->]. by left. }
  split.
  - intros f HSf Hk n. destruct (sync_applies W dbg ext int HA v Hw Hsane Htx w srv fuel ch po f batch Hg (Hf1 f HSf) Hk Haddr Hsrv Hho Hpo Hb n) as (n' & r & E & Ha).
    exists n', r. split; [done|]. apply (Hstep r (in_sync v (w_position v) f (w_tracker w)) Ha).
    by eapply Ha1.
  - intros gap HSg n. destruct (scan_applies W dbg ext int HA v Hw Hsane Htx w srv fuel ch po gap batch Hg (Hf2 gap HSg) Hsrv Hho Hpo Hb n) as (n' & r & E & Ha).
    exists n', r. split; [done|]. apply (Hstep r (λ x', caught_up v (w_position v) (w_tracker w) x' (in_gap v gap A)) Ha).
    by eapply Ha2.
Qed.
Lemma electrum_life v d evs create faults b w srv fuel ch po batch :
  dwells wf W Fam higher (no_hidden_reorg w_position) (electrum_asks dbg) dbg limit ext int km v d evs → init limit ext int d create faults = Ret (b, Ok w) →
  no_hidden_reorg w_position v (w_tracker w) → default NoFault (head faults) = NoFault →
  (∀ n, electrum_honest v (srv n)) → hash_fun_ok (ch_hash ch) → (∀ c, po c ≡ₚ map_to_list (sc_pos c)) → (0 < batch)%nat →
  (∀ f, (sf_utxos (sync_flags f) = true → ∀ ki g, unspent (w_tracker w) ki g → is_Some (w_tx v (op_txid (fto_outpoint g)))) →
    ends (electrum_sync dbg srv (S fuel) ch po f batch w) (λ r, ∃ w' evs', r = (w', evs', Ok tt) ∧ in_sync v (w_position v) f (w_tracker w) (w_tracker w') ∧
      (Forall (event_ok wf W) evs' → dwells wf W Fam higher (no_hidden_reorg w_position) (electrum_asks dbg) dbg limit ext int km v (Some (f_bytes (w_file w'))) (evs ++ evs')))) ∧
  (∀ gap, ends (electrum_scan dbg srv (S fuel) ch po gap batch w) (λ r, ∃ w' evs', r = (w', evs', Ok tt) ∧
      caught_up v (w_position v) (w_tracker w) (w_tracker w') (in_gap v gap A) ∧
      (Forall (event_ok wf W) evs' → dwells wf W Fam higher (no_hidden_reorg w_position) (electrum_asks dbg) dbg limit ext int km v (Some (f_bytes (w_file w'))) (evs ++ evs')))).
Proof using All.
  intros Hd Ei Hn Hf Hsrv Hho Hpo Hb.
  destruct (dwells_fit wf HC Hdef W dbg limit ext int km HA Fam HF Hlim w_position ltac:(done) (electrum_asks dbg) electrum_asked v d evs create faults b w Hd Ei) as (Hv & Hg & Hfit & Hs). specialize (Hfit Hn).
  assert (w_faults w = faults) as <- by exact (opened_faults limit ext int d create faults b w Ei).
  destruct (electrum_lives higher (no_hidden_reorg w_position) (electrum_asks dbg) (λ _, True) (λ _, True) v d evs create (w_faults w) b w srv fuel ch po batch) as [L1 L2]; try done.
  - intros f _. by apply fit_for_seen.
  - intros gap _. by apply fit_for_seen.
  - intros f n n' r _ Hk E. exists srv, fuel, ch, po, batch, n, n'. do 4 (split; [done|]). left. by exists f.
  - intros gap n n' r _ E. exists srv, fuel, ch, po, batch, n, n'. do 4 (split; [done|]). right. by exists gap.
  - split; [intros f; by apply L1|intros gap; by apply L2].
Qed.
Lemma electrum_growing v d evs create faults b w srv fuel ch po batch :
  dwells wf W Fam (extends w_position) (λ _ _, True) (electrum_asks dbg) dbg limit ext int km v d evs → init limit ext int d create faults = Ret (b, Ok w) →
  default NoFault (head faults) = NoFault →
  (∀ n, electrum_honest v (srv n)) → hash_fun_ok (ch_hash ch) → (∀ c, po c ≡ₚ map_to_list (sc_pos c)) → (0 < batch)%nat →
  (∀ f, (sf_utxos (sync_flags f) = true → ∀ ki g, unspent (w_tracker w) ki g → is_Some (w_tx v (op_txid (fto_outpoint g)))) →
    ends (electrum_sync dbg srv (S fuel) ch po f batch w) (λ r, ∃ w' evs', r = (w', evs', Ok tt) ∧ in_sync v (w_position v) f (w_tracker w) (w_tracker w') ∧
      (Forall (event_ok wf W) evs' → dwells wf W Fam (extends w_position) (λ _ _, True) (electrum_asks dbg) dbg limit ext int km v (Some (f_bytes (w_file w'))) (evs ++ evs')))) ∧
  (∀ gap, ends (electrum_scan dbg srv (S fuel) ch po gap batch w) (λ r, ∃ w' evs', r = (w', evs', Ok tt) ∧
      caught_up v (w_position v) (w_tracker w) (w_tracker w') (in_gap v gap A) ∧
      (Forall (event_ok wf W) evs' → dwells wf W Fam (extends w_position) (λ _ _, True) (electrum_asks dbg) dbg limit ext int km v (Some (f_bytes (w_file w'))) (evs ++ evs')))).
Proof using All.
  intros Hd Ei Hf Hsrv Hho Hpo Hb.
  destruct (dwells_growing wf HC Hdef W dbg limit ext int km HA Fam HF Hlim w_position ltac:(done) (electrum_asks dbg) electrum_asked v d evs Hd) as [Hd' Hn].
  destruct (dwells_fit wf HC Hdef W dbg limit ext int km HA Fam HF Hlim w_position ltac:(done) (electrum_asks dbg) electrum_asked v d evs create faults b w Hd' Ei) as (Hv & Hg & Hfit & Hs). specialize (Hfit (Hn _ _ _ _ Ei)).
  assert (w_faults w = faults) as <- by exact (opened_faults limit ext int d create faults b w Ei).
  destruct (electrum_lives (extends w_position) (λ _ _, True) (electrum_asks dbg) (λ _, True) (λ _, True) v d evs create (w_faults w) b w srv fuel ch po batch) as [L1 L2]; try done.
  - intros f _. by apply fit_for_seen.
  - intros gap _. by apply fit_for_seen.
  - intros f n n' r _ Hk E. exists srv, fuel, ch, po, batch, n, n'. do 4 (split; [done|]). left. by exists f.
  - intros gap n n' r _ E. exists srv, fuel, ch, po, batch, n, n'. do 4 (split; [done|]). right. by exists gap.
  - split; [intros f; by apply L1|intros gap; by apply L2].
Qed.
Lemma electrum_seen v d evs create faults b w srv fuel ch po batch :
  dwells wf W Fam higher (λ _ _, True) (electrum_seeks dbg ext int) dbg limit ext int km v d evs → init limit ext int d create faults = Ret (b, Ok w) →
  blocks_commit w_position Fam → default NoFault (head faults) = NoFault →
  (∀ n, electrum_honest v (srv n)) → hash_fun_ok (ch_hash ch) → (∀ c, po c ≡ₚ map_to_list (sc_pos c)) → (0 < batch)%nat →
  (∀ f, seen_again w_position v (sync_sought v f (w_tracker w)) (w_tracker w) → (sf_utxos (sync_flags f) = true → ∀ ki g, unspent (w_tracker w) ki g → is_Some (w_tx v (op_txid (fto_outpoint g)))) →
    ends (electrum_sync dbg srv (S fuel) ch po f batch w) (λ r, ∃ w' evs', r = (w', evs', Ok tt) ∧ in_sync v (w_position v) f (w_tracker w) (w_tracker w') ∧
      (Forall (event_ok wf W) evs' → dwells wf W Fam higher (λ _ _, True) (electrum_seeks dbg ext int) dbg limit ext int km v (Some (f_bytes (w_file w'))) (evs ++ evs')))) ∧
  (∀ gap, seen_again w_position v (of_scripts v A (in_gap v gap A)) (w_tracker w) → ends (electrum_scan dbg srv (S fuel) ch po gap batch w) (λ r, ∃ w' evs', r = (w', evs', Ok tt) ∧
      caught_up v (w_position v) (w_tracker w) (w_tracker w') (in_gap v gap A) ∧
      (Forall (event_ok wf W) evs' → dwells wf W Fam higher (λ _ _, True) (electrum_seeks dbg ext int) dbg limit ext int km v (Some (f_bytes (w_file w'))) (evs ++ evs')))).
Proof using All.
  intros Hd Ei Hcom Hf Hsrv Hho Hpo Hb.
  destruct (dwells_lives wf HC Hdef W dbg limit ext int km HA Fam HF Hlim w_position ltac:(done) (λ _ _, True) (electrum_seeks dbg ext int) (λ x0 v w r Ha Hg _, electrum_sought x0 v w r Ha Hg Hcom) v d evs create faults b w Hd Ei) as (Hv & Hl & Hs).
  assert (w_faults w = faults) as <- by exact (opened_faults limit ext int d create faults b w Ei).
  destruct (electrum_lives higher (λ _ _, True) (electrum_seeks dbg ext int) (λ f, seen_again w_position v (sync_sought v f (w_tracker w)) (w_tracker w))
    (λ gap, seen_again w_position v (of_scripts v A (in_gap v gap A)) (w_tracker w)) v d evs create (w_faults w) b w srv fuel ch po batch) as [L1 L2]; try done.
  - apply Hl.
  - intros f Hsn. by eapply (lives_seen W limit ext int HA Fam HF w_position ltac:(done)).
  - intros gap Hsn. by eapply (lives_seen W limit ext int HA Fam HF w_position ltac:(done)).
  - intros f n n' r Hsn Hk E. exists srv, fuel, ch, po, batch, n, n'. do 4 (split; [done|]). left. by exists f.
  - intros gap n n' r Hsn E. exists srv, fuel, ch, po, batch, n, n'. do 4 (split; [done|]). right. by exists gap.
Qed.
End electrum.

Section esplora.
Context `{!DescEnv, !CliEnv, !PlanModel.KeyEnv} {C : Codec (KChangeSet Keychain ConfirmationTime)}.
Context (wf : KChangeSet Keychain ConfirmationTime → Prop) (HC : codec_ok C wf) (Hdef : wf kcs_default).
Context (W : Txid → list OutPoint) (dbg : bool) (limit : nat) (ext : Desc) (int : option Desc) (km : PlanModel.KeyMap).
Notation A := (keychains ext int).
Notation s := (adds ext int).
Notation good := (CliProofs.good W ext int).
Context (HA : good_env A) (Fam : ScanSpec.World → Prop) (HF : coherent W Fam) (Hlim : limit ≠ 0%nat).
Context (Haddr : ∀ k d i sp, A k = Some d → derive d i = Some sp → has_address sp = true).
Context (time : ScanSpec.World → N → N) (Htime : ∀ v h, time v h ≤ u64_max).
Notation tpos := (λ v, w_time_position v (time v)).
Implicit Types (v : ScanSpec.World) (w : CliModel.World ConfirmationTime) (evs : list (event ConfirmationTime)).

(** Whatever script the wallet has stored comes from a descriptor. *)
Lemma spk_pages v w fuel : good (w_tracker w) →
  (∀ k d i sp, A k = Some d → derive d i = Some sp → (length (w_mempool v sp) ≤ 50)%nat ∧ (length (w_confirmed v sp) < 25 * S fuel)%nat) →
  ∀ ki sp, si_spk_at (ki_inner (tr_index (w_tracker w))) ki = Some sp → (length (w_mempool v sp) ≤ 50)%nat ∧ (length (w_confirmed v sp) < 25 * S fuel)%nat.
Proof using HA.
  intros Hg Hp [k i] sp Hs. destruct (esplora_parts W ext int HA (w_tracker w) Hg) as ([hs Hi] & _ & _ & Hk). destruct (proj1 Hi) as (_ & _ & C3 & _).
  destruct (C3 _ _ _ Hs) as (d & Hd & Hder). eapply Hp; [by apply Hk|done].
Qed.
Lemma esplora_asked v w r : Fam v → good (w_tracker w) → fit_for v (w_time_position v (time v)) (w_tracker w) → esplora_asks time ext int v w r →
  ∃ ch c F sc ord x' cs, (c = CmdElectrum sc ord ∨ c = CmdEsplora sc ord) ∧ fit_seen v (w_time_position v (time v)) (in_chain (ks_update sc)) (w_tracker w) ∧ scan_ok v (w_time_position v (time v)) (w_tracker w) F sc ∧ command_ok A W s ch c ∧
    ord ≡ₚ map_to_list (sc_pos (cg_chain (ks_update sc))) ∧
    tr_apply_update (ch_hash ch (cg_graph (tr_cg (w_tracker w)))) (w_tracker w) sc ord = Ret (Ok (x', cs)) ∧ handle_command dbg ch km w c = Ret r.
Proof using HA HF Haddr Htime.
  intros Hv Hg Hfit (srv & fuel & ch & po & par & n & n' & Hsrv & Hho & Hpo & Hb & Hr). destruct (co_ok W Fam HF v Hv) as (Hw & Hsane & Htx).
  assert (∃ Q, esplora_applies W ext int v (time v) w ch r Q) as (Q & F & sc & ord & x' & cs & R0 & R1 & R2 & R3 & R4 & R5 & _).
  { destruct Hr as [(f & E)|(gap & E)].
    - destruct (esplora_sync_applies W ext int HA v (time v) Hw Hsane Htx (Htime v) w srv fuel ch po f par Hg (fit_for_seen _ _ _ _ Hfit) Haddr (spk_pages v w fuel Hg Hb) Hsrv Hho Hpo n) as (n1 & r1 & E1 & Ha).
      rewrite E in E1. injection E1 as _ <-. by eexists.
    - destruct (esplora_scan_applies W ext int HA v (time v) Hw Hsane Htx (Htime v) w srv fuel ch po gap par Hg (fit_for_seen _ _ _ _ Hfit) Hb Hsrv Hho Hpo n) as (n1 & r1 & E1 & Ha).
      rewrite E in E1. injection E1 as _ <-. by eexists. }
  exists ch, (CmdEsplora sc ord), F, sc, ord, x', cs. split; [by right|]. done.
Qed.
Lemma esplora_sought x0 v w r : RestoreProofs6.alive A W Fam s x0 tpos v (w_tracker w) → good (w_tracker w) → blocks_commit tpos Fam → esplora_seeks time ext int v w r →
  ∃ ch c F sc ord x' cs, (c = CmdElectrum sc ord ∨ c = CmdEsplora sc ord) ∧ fit_seen v (w_time_position v (time v)) (in_chain (ks_update sc)) (w_tracker w) ∧ scan_ok v (w_time_position v (time v)) (w_tracker w) F sc ∧ command_ok A W s ch c ∧
    ord ≡ₚ map_to_list (sc_pos (cg_chain (ks_update sc))) ∧
    tr_apply_update (ch_hash ch (cg_graph (tr_cg (w_tracker w)))) (w_tracker w) sc ord = Ret (Ok (x', cs)) ∧ handle_command dbg ch km w c = Ret r.
Proof using HA HF Haddr Htime.
  intros Ha0 Hg Hcom (srv & fuel & ch & po & par & n & n' & Hsrv & Hho & Hpo & Hb & Hr). pose proof (RestoreProofs6.al_fam _ _ _ _ _ _ _ _ Ha0) as Hv. destruct (co_ok W Fam HF v Hv) as (Hw & Hsane & Htx).
  assert (∃ Q, esplora_applies W ext int v (time v) w ch r Q) as (Q & F & sc & ord & x' & cs & R0 & R1 & R2 & R3 & R4 & R5 & _).
  { destruct Hr as [(f & Hseen & E)|(gap & Hseen & E)].
    - destruct (esplora_sync_applies W ext int HA v (time v) Hw Hsane Htx (Htime v) w srv fuel ch po f par Hg (alive_fit_seen A W Fam HF s x0 tpos (λ v, time_height v (time v)) v (w_tracker w) _ Hcom Ha0 Hseen) Haddr (spk_pages v w fuel Hg Hb) Hsrv Hho Hpo n) as (n1 & r1 & E1 & Ha).
      rewrite E in E1. injection E1 as _ <-. by eexists.
    - destruct (esplora_scan_applies W ext int HA v (time v) Hw Hsane Htx (Htime v) w srv fuel ch po gap par Hg (alive_fit_seen A W Fam HF s x0 tpos (λ v, time_height v (time v)) v (w_tracker w) _ Hcom Ha0 Hseen) Hb Hsrv Hho Hpo n) as (n1 & r1 & E1 & Ha).
      rewrite E in E1. injection E1 as _ <-. by eexists. }
  exists ch, (CmdEsplora sc ord), F, sc, ord, x', cs. split; [by right|]. done.
Qed.
Lemma esplora_lives R Ready Asks (Sf : SyncFlags → Prop) (Sg : N → Prop) v d evs create faults b w srv fuel ch po par :
  dwells wf W Fam R Ready Asks dbg limit ext int km v d evs → init limit ext int d create faults = Ret (b, Ok w) → Ready v (w_tracker w) →
  Fam v → good (w_tracker w) → (∀ f, Sf f → fit_seen v (w_time_position v (time v)) (sync_sought v f (w_tracker w)) (w_tracker w)) →
  (∀ gap, Sg gap → fit_seen v (w_time_position v (time v)) (of_scripts v A (in_stop_gap v gap A)) (w_tracker w)) →
  (∀ f n n' r, Sf f → esplora_sync_cmd srv (S fuel) ch po f par w n = Done n' r → Asks v w r) → (∀ gap n n' r, Sg gap → esplora_scan_cmd srv (S fuel) ch po gap par w n = Done n' r → Asks v w r) →
  in_session wf W dbg limit ext int km w [] [] → default NoFault (head (w_faults w)) = NoFault →
  (∀ n, esplora_honest v (time v) (srv n)) → hash_fun_ok (ch_hash ch) → (∀ c, po c ≡ₚ map_to_list (sc_pos c)) → (∀ k d i sp, A k = Some d → derive d i = Some sp → (length (w_mempool v sp) ≤ 50)%nat ∧ (length (w_confirmed v sp) < 25 * S fuel)%nat) →
  (∀ f, Sf f →
    ends (esplora_sync_cmd srv (S fuel) ch po f par w) (λ r, ∃ w' evs', r = (w', evs', Ok tt) ∧ in_sync v (w_time_position v (time v)) f (w_tracker w) (w_tracker w') ∧
      (Forall (event_ok wf W) evs' → dwells wf W Fam R Ready Asks dbg limit ext int km v (Some (f_bytes (w_file w'))) (evs ++ evs')))) ∧
  (∀ gap, Sg gap → ends (esplora_scan_cmd srv (S fuel) ch po gap par w) (λ r, ∃ w' evs', r = (w', evs', Ok tt) ∧
      caught_up v (w_time_position v (time v)) (w_tracker w) (w_tracker w') (in_stop_gap v gap A) ∧
      (Forall (event_ok wf W) evs' → dwells wf W Fam R Ready Asks dbg limit ext int km v (Some (f_bytes (w_file w'))) (evs ++ evs')))).
Proof using HA HF Haddr Htime.
  intros Hd Ei HR Hv Hg Hf1 Hf2 Ha1 Ha2 Hs Hf Hsrv Hho Hpo Hb. destruct (co_ok W Fam HF v Hv) as (Hw & Hsane & Htx).
  assert (∀ r Q, esplora_applies W ext int v (time v) w ch r Q → Asks v w r → ∃ w' evs', r = (w', evs', Ok tt) ∧ Q (w_tracker w') ∧
    (Forall (event_ok wf W) evs' → dwells wf W Fam R Ready Asks dbg limit ext int km v (Some (f_bytes (w_file w'))) (evs ++ evs'))) as Hstep.
  { intros r Q (F & sc & ord & x' & cs & _ & Hso & Hc & Hord & E & Ea & HQ) Hasks.
    destruct (apply_fine ch w sc ord x' cs r Hf E (or_intror Ea)) as (w' & -> & <-). exists w', [EvAppend cs NoFault]. split; [done|]. split; [done|]. intros Hev.
    rewrite (handle_disk dbg km ch w (CmdEsplora sc ord) w' [EvAppend cs NoFault] (Ok tt) Ea).
    eapply (dwells_sync _ _ _ _ _ _ _ _ _ _ _ v d evs create faults b w w' [EvAppend cs NoFault] []); try done.
    right. intros cs' e Hin. rewrite app_nil_r in Hin. apply elem_of_list_singleton in Hin as [= -> ->]. by left. }
  split.
  - intros f HSf n. destruct (esplora_sync_applies W ext int HA v (time v) Hw Hsane Htx (Htime v) w srv fuel ch po f par Hg (Hf1 f HSf) Haddr (spk_pages v w fuel Hg Hb) Hsrv Hho Hpo n) as (n' & r & E & Ha).
    exists n', r. split; [done|]. apply (Hstep r (in_sync v (w_time_position v (time v)) f (w_tracker w)) Ha).
    by eapply Ha1.
  - intros gap HSg n. destruct (esplora_scan_applies W ext int HA v (time v) Hw Hsane Htx (Htime v) w srv fuel ch po gap par Hg (Hf2 gap HSg) Hb Hsrv Hho Hpo n) as (n' & r & E & Ha).
    exists n', r. split; [done|]. apply (Hstep r (λ x', caught_up v (w_time_position v (time v)) (w_tracker w) x' (in_stop_gap v gap A)) Ha).
    by eapply Ha2.
Qed.
Lemma esplora_life v d evs create faults b w srv fuel ch po par :
  dwells wf W Fam higher (no_hidden_reorg tpos) (esplora_asks time ext int) dbg limit ext int km v d evs → init limit ext int d create faults = Ret (b, Ok w) →
  no_hidden_reorg tpos v (w_tracker w) → default NoFault (head faults) = NoFault →
  (∀ n, esplora_honest v (time v) (srv n)) → hash_fun_ok (ch_hash ch) → (∀ c, po c ≡ₚ map_to_list (sc_pos c)) → (∀ k d i sp, A k = Some d → derive d i = Some sp → (length (w_mempool v sp) ≤ 50)%nat ∧ (length (w_confirmed v sp) < 25 * S fuel)%nat) →
  (∀ f,
    ends (esplora_sync_cmd srv (S fuel) ch po f par w) (λ r, ∃ w' evs', r = (w', evs', Ok tt) ∧ in_sync v (w_time_position v (time v)) f (w_tracker w) (w_tracker w') ∧
      (Forall (event_ok wf W) evs' → dwells wf W Fam higher (no_hidden_reorg tpos) (esplora_asks time ext int) dbg limit ext int km v (Some (f_bytes (w_file w'))) (evs ++ evs')))) ∧
  (∀ gap, ends (esplora_scan_cmd srv (S fuel) ch po gap par w) (λ r, ∃ w' evs', r = (w', evs', Ok tt) ∧
      caught_up v (w_time_position v (time v)) (w_tracker w) (w_tracker w') (in_stop_gap v gap A) ∧
      (Forall (event_ok wf W) evs' → dwells wf W Fam higher (no_hidden_reorg tpos) (esplora_asks time ext int) dbg limit ext int km v (Some (f_bytes (w_file w'))) (evs ++ evs')))).
Proof using All.
  intros Hd Ei Hn Hf Hsrv Hho Hpo Hb.
  destruct (dwells_fit wf HC Hdef W dbg limit ext int km HA Fam HF Hlim tpos (λ v, time_height v (time v)) (esplora_asks time ext int) esplora_asked v d evs create faults b w Hd Ei) as (Hv & Hg & Hfit & Hs). specialize (Hfit Hn).
  assert (w_faults w = faults) as <- by exact (opened_faults limit ext int d create faults b w Ei).
  destruct (esplora_lives higher (no_hidden_reorg tpos) (esplora_asks time ext int) (λ _, True) (λ _, True) v d evs create (w_faults w) b w srv fuel ch po par) as [L1 L2]; try done.
  - intros f _. by apply fit_for_seen.
  - intros gap _. by apply fit_for_seen.
  - intros f n n' r _ E. exists srv, fuel, ch, po, par, n, n'. do 4 (split; [done|]). left. by exists f.
  - intros gap n n' r _ E. exists srv, fuel, ch, po, par, n, n'. do 4 (split; [done|]). right. by exists gap.
  - split; [intros f; by apply L1|intros gap; by apply L2].
Qed.
Lemma esplora_grow v d evs create faults b w srv fuel ch po par :
  dwells wf W Fam (extends tpos) (λ _ _, True) (esplora_asks time ext int) dbg limit ext int km v d evs → init limit ext int d create faults = Ret (b, Ok w) →
  default NoFault (head faults) = NoFault →
  (∀ n, esplora_honest v (time v) (srv n)) → hash_fun_ok (ch_hash ch) → (∀ c, po c ≡ₚ map_to_list (sc_pos c)) → (∀ k d i sp, A k = Some d → derive d i = Some sp → (length (w_mempool v sp) ≤ 50)%nat ∧ (length (w_confirmed v sp) < 25 * S fuel)%nat) →
  (∀ f,
    ends (esplora_sync_cmd srv (S fuel) ch po f par w) (λ r, ∃ w' evs', r = (w', evs', Ok tt) ∧ in_sync v (w_time_position v (time v)) f (w_tracker w) (w_tracker w') ∧
      (Forall (event_ok wf W) evs' → dwells wf W Fam (extends tpos) (λ _ _, True) (esplora_asks time ext int) dbg limit ext int km v (Some (f_bytes (w_file w'))) (evs ++ evs')))) ∧
  (∀ gap, ends (esplora_scan_cmd srv (S fuel) ch po gap par w) (λ r, ∃ w' evs', r = (w', evs', Ok tt) ∧
      caught_up v (w_time_position v (time v)) (w_tracker w) (w_tracker w') (in_stop_gap v gap A) ∧
      (Forall (event_ok wf W) evs' → dwells wf W Fam (extends tpos) (λ _ _, True) (esplora_asks time ext int) dbg limit ext int km v (Some (f_bytes (w_file w'))) (evs ++ evs')))).
Proof using All.
  intros Hd Ei Hf Hsrv Hho Hpo Hb.
  destruct (dwells_growing wf HC Hdef W dbg limit ext int km HA Fam HF Hlim tpos (λ v, time_height v (time v)) (esplora_asks time ext int) esplora_asked v d evs Hd) as [Hd' Hn].
  destruct (dwells_fit wf HC Hdef W dbg limit ext int km HA Fam HF Hlim tpos (λ v, time_height v (time v)) (esplora_asks time ext int) esplora_asked v d evs create faults b w Hd' Ei) as (Hv & Hg & Hfit & Hs). specialize (Hfit (Hn _ _ _ _ Ei)).
  assert (w_faults w = faults) as <- by exact (opened_faults limit ext int d create faults b w Ei).
  destruct (esplora_lives (extends tpos) (λ _ _, True) (esplora_asks time ext int) (λ _, True) (λ _, True) v d evs create (w_faults w) b w srv fuel ch po par) as [L1 L2]; try done.
  - intros f _. by apply fit_for_seen.
  - intros gap _. by apply fit_for_seen.
  - intros f n n' r _ E. exists srv, fuel, ch, po, par, n, n'. do 4 (split; [done|]). left. by exists f.
  - intros gap n n' r _ E. exists srv, fuel, ch, po, par, n, n'. do 4 (split; [done|]). right. by exists gap.
  - split; [intros f; by apply L1|intros gap; by apply L2].
Qed.
Lemma esplora_seen v d evs create faults b w srv fuel ch po par :
  dwells wf W Fam higher (λ _ _, True) (esplora_seeks time ext int) dbg limit ext int km v d evs → init limit ext int d create faults = Ret (b, Ok w) →
  blocks_commit tpos Fam → default NoFault (head faults) = NoFault →
  (∀ n, esplora_honest v (time v) (srv n)) → hash_fun_ok (ch_hash ch) → (∀ c, po c ≡ₚ map_to_list (sc_pos c)) → (∀ k d i sp, A k = Some d → derive d i = Some sp → (length (w_mempool v sp) ≤ 50)%nat ∧ (length (w_confirmed v sp) < 25 * S fuel)%nat) →
  (∀ f, seen_again tpos v (sync_sought v f (w_tracker w)) (w_tracker w) →
    ends (esplora_sync_cmd srv (S fuel) ch po f par w) (λ r, ∃ w' evs', r = (w', evs', Ok tt) ∧ in_sync v (w_time_position v (time v)) f (w_tracker w) (w_tracker w') ∧
      (Forall (event_ok wf W) evs' → dwells wf W Fam higher (λ _ _, True) (esplora_seeks time ext int) dbg limit ext int km v (Some (f_bytes (w_file w'))) (evs ++ evs')))) ∧
  (∀ gap, seen_again tpos v (of_scripts v A (in_stop_gap v gap A)) (w_tracker w) → ends (esplora_scan_cmd srv (S fuel) ch po gap par w) (λ r, ∃ w' evs', r = (w', evs', Ok tt) ∧
      caught_up v (w_time_position v (time v)) (w_tracker w) (w_tracker w') (in_stop_gap v gap A) ∧
      (Forall (event_ok wf W) evs' → dwells wf W Fam higher (λ _ _, True) (esplora_seeks time ext int) dbg limit ext int km v (Some (f_bytes (w_file w'))) (evs ++ evs')))).
Proof using All.
  intros Hd Ei Hcom Hf Hsrv Hho Hpo Hb.
  destruct (dwells_lives wf HC Hdef W dbg limit ext int km HA Fam HF Hlim tpos (λ v, time_height v (time v)) (λ _ _, True) (esplora_seeks time ext int) (λ x0 v w r Ha Hg _, esplora_sought x0 v w r Ha Hg Hcom) v d evs create faults b w Hd Ei) as (Hv & Hl & Hs).
  assert (w_faults w = faults) as <- by exact (opened_faults limit ext int d create faults b w Ei).
  destruct (esplora_lives higher (λ _ _, True) (esplora_seeks time ext int) (λ f, seen_again tpos v (sync_sought v f (w_tracker w)) (w_tracker w))
    (λ gap, seen_again tpos v (of_scripts v A (in_stop_gap v gap A)) (w_tracker w)) v d evs create (w_faults w) b w srv fuel ch po par) as [L1 L2]; try done.
  - apply Hl.
  - intros f Hsn. by eapply (lives_seen W limit ext int HA Fam HF tpos (λ v, time_height v (time v))).
  - intros gap Hsn. by eapply (lives_seen W limit ext int HA Fam HF tpos (λ v, time_height v (time v))).
  - intros f n n' r Hsn E. exists srv, fuel, ch, po, par, n, n'. do 4 (split; [done|]). left. by exists f.
  - intros gap n n' r Hsn E. exists srv, fuel, ch, po, par, n, n'. do 4 (split; [done|]). right. by exists gap.
Qed.
End esplora.
