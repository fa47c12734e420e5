(** Proofs about the command line wallet: the commands, and the life of a wallet. *)
From Verif Require Export CliProofs.
Local Open Scope N_scope.

Lemma bind_ret {X Y} (o : outcome X) (g : X → outcome Y) v : (o ≫= g) = Ret v → ∃ a, o = Ret a ∧ g a = Ret v.
Proof. destruct o; [|done]. eauto. Qed.
Ltac bind_in H a E := apply bind_ret in H as (a & E & H).

Section cli.
Context `{!DescEnv, !CliEnv, !PlanModel.KeyEnv} `{ChainPositionLaws P} {C : Codec (KChangeSet Keychain P)}.
Implicit Types (x y z : Tracker Keychain P) (w : World P) (ch : Choices P) (evs : list (event P)).

(** ** What a created transaction pays to *)
Lemma create_tx_shape dbg km ch x value addr algo x' r :
  create_tx dbg ch km x value addr algo = Ret (x', r) →
  ∃ ix i sp ad, next_unused_spk (tr_index x) (change_keychain x) = Ret (ix, (i, sp), ad) ∧ x' = with_index x ix ∧
    match r with
    | Err _ => True
    | Ok (t, None) => ct_out t = [mkTxOut value addr]
    | Ok (t, Some (ad', ki)) => ad' = ad ∧ ki = (change_keychain x, i) ∧ ∃ v, ct_out t = [mkTxOut value addr; mkTxOut v sp]
    end.
Proof.
  unfold create_tx. intros E. bind_in E cands E1. bind_in E wvs E2. bind_in E a E3. destruct a as [[ix [i sp]] ad].
  cbn [fst snd] in E. exists ix, i, sp, ad. split; [done|].
  destruct (ki_keychains ix !! change_keychain x) as [d|]; [|done].
  bind_in E cp E4. destruct cp as [cp|]; [|done]. bind_in E cw E5. bind_in E o E6. bind_in E sl E7.
  destruct sl as [sl|e]; [|by injection E as <- <-].
  bind_in E es E8. destruct es as [ek es]. bind_in E sel E9. bind_in E ws E10.
  injection E as <- <-. split; [done|]. destruct ws as [ws|e]; [|done].
  destruct (CoinSelectModel.es_drain es) as [v|]; cbn [put_witnesses ct_out unsigned_tx].
  - split; [by rewrite da_append_empty_l|]. split; [done|]. by eexists.
  - done.
Qed.

(** ** What a command does to the file *)
Lemma db_append_disk w cs w' ev r : db_append w cs = (w', ev, r) →
  w_file w' = disk (w_file w) [ev] ∧ w_tracker w' = w_tracker w ∧ ∃ e, ev = EvAppend cs e.
Proof. unfold db_append. intros [= <- <- <-]. cbn. eauto. Qed.
Lemma hand_out_disk w a w' evs r : hand_out w a = Ret (w', evs, r) → w_file w' = disk (w_file w) evs.
Proof.
  unfold hand_out. destruct a as [[ix is] ad]. destruct (db_append _ _) as [[w1 ev] r1] eqn:Ed.
  apply db_append_disk in Ed as (Ed & _ & e & ->). cbn [with_tracker w_file] in Ed.
  destruct r1 as [u|er]; [destruct (has_address is.2)|]; intros [= <- <- <-]; done.
Qed.
Lemma prepare_disk dbg km ch w value addr algo w' evs r :
  send_prepare dbg ch km w value addr algo = Ret (w', evs, r) → w_file w' = disk (w_file w) evs.
Proof.
  unfold send_prepare. intros E. bind_in E a E1. destruct a as [x rr].
  destruct rr as [[t [[ad ki]|]]|e]; [|by injection E as <- <- <-..].
  destruct (db_append _ _) as [[w1 ev] r1] eqn:Ed. apply db_append_disk in Ed as (Ed & _ & e & ->). cbn [with_tracker w_file] in Ed.
  destruct r1; injection E as <- <- <-; done.
Qed.
Lemma finish_disk ch w t change ok w' evs r :
  send_finish ch w t change ok = Ret (w', evs, r) → w_file w' = disk (w_file w) evs.
Proof.
  unfold send_finish. intros E. destruct ok.
  - bind_in E a E1. destruct a as [[x cs]|e].
    + destruct (db_append _ _) as [[w1 ev] r1] eqn:Ed. apply db_append_disk in Ed as (Ed & _ & e & ->).
      cbn [with_tracker w_file] in Ed. by injection E as <- <- <-.
    + destruct e as [[]|]; [done|by injection E as <- <- <-..].
  - destruct change as [[k i]|]; [|by injection E as <- <- <-]. bind_in E a E1. by injection E as <- <- <-.
Qed.
Lemma handle_disk dbg km ch w c w' evs r : handle_command dbg ch km w c = Ret (w', evs, r) → w_file w' = disk (w_file w) evs.
Proof.
  destruct c as [c| |c|value addr algo ok|sc ord|sc ord]; cbn [handle_command]; intros E.
  - destruct c; cbn [run_address_cmd] in E.
    + bind_in E a E1. by eapply hand_out_disk.
    + bind_in E a E1. by eapply hand_out_disk.
    + bind_in E a E1. by injection E as <- <- <-.
    + by injection E as <- <- <-.
  - bind_in E a E1. by injection E as <- <- <-.
  - bind_in E a E1. by injection E as <- <- <-.
  - bind_in E a E1. destruct a as [[w1 evs1] r1]. apply prepare_disk in E1. destruct r1 as [[t change]|e].
    + bind_in E a E2. destruct a as [[w2 evs2] r2]. apply finish_disk in E2. injection E as <- <- <-.
      rewrite disk_app. by rewrite <- E1.
    + injection E as <- <- <-. done.
  - unfold electrum_apply in E. bind_in E a E1. destruct a as [cs|e]; [|by injection E as <- <- <-].
    destruct (db_append _ _) as [[w1 ev] r1] eqn:Ed. apply db_append_disk in Ed as (Ed & _ & e & ->).
    destruct r1; [bind_in E a2 E2|]; by injection E as <- <- <-.
  - unfold esplora_apply in E. bind_in E a E1. destruct a as [[x cs]|e]; [|by injection E as <- <- <-].
    destruct (db_append _ _) as [[w1 ev] r1] eqn:Ed. apply db_append_disk in Ed as (Ed & _ & e & ->).
    by injection E as <- <- <-.
Qed.
End cli.

Section life.
Context `{!DescEnv, !CliEnv, !PlanModel.KeyEnv} `{ChainPositionLaws P} {C : Codec (KChangeSet Keychain P)}.
Context (wf : KChangeSet Keychain P → Prop) (HC : codec_ok C wf) (Hdef : wf kcs_default).
Context (W : Txid → list OutPoint) (dbg : bool) (limit : nat) (ext : Desc) (int : option Desc) (km : PlanModel.KeyMap).
Notation A := (keychains ext int).
Notation s := (adds ext int).
Context (HA : good_env A).
Implicit Types (x y z : Tracker Keychain P) (w : World P) (ch : Choices P) (evs : list (event P)).
Implicit Types (f : File) (cs : KChangeSet Keychain P) (l : list (KChangeSet Keychain P)) (b t : bytes).
Notation good := (good W ext int).
Notation safe := (safe (P := P)).
Notation story := (story wf W ext int).
Notation at_end := (at_end wf).

(** ** Commands on a loaded wallet *)
Lemma next_step y k ix i sp ad (nu : bool) : good y → known s k →
  (if nu then next_unused_spk (tr_index y) k else reveal_next_spk (tr_index y) k) = Ret (ix, (i, sp), ad) →
  ∃ y', tr_replay y [kcs_of_indices ad] = Ret y' ∧ good y' ∧ kept (tr_index y) (tr_index y') ∧ tr_cg y' = tr_cg y ∧
    reveals_spk y' k i sp.
Proof.
  intros Hy Hk E.
  destruct (good_op W ext int HA y (TrIndex (if nu then KiNextUnused k else KiNext k)) Hy) as (x' & l0 & y' & E1 & E2 & Hy' & Hkp & Ecg & Hrev).
  { by destruct nu. }
  { by intros [l' [=]]. }
  assert (x' = with_index y ix ∧ l0 = [kcs_of_indices ad]) as [-> ->].
  { cbn [tr_step] in E1. destruct nu; cbn [ki_step] in E1; rewrite E in E1; cbn [addr_res] in E1; by injection E1 as <- <-. }
  exists y'. do 4 (split; [done|]). cbn [with_index tr_index] in Hrev.
  assert (∃ d hs, ki_inv A hs (tr_index y) ∧ ki_keychains (tr_index y) !! k = Some d) as (d & hs & Hi & Hd).
  { apply (good_keychain W ext int); [done|]. by apply known_adds. }
  destruct nu.
  - destruct (tr_next_unused A hs _ k d HA Hi Hd) as (x2 & hs' & i' & s' & ad' & E' & _ & _ & _ & Hs & Hn & _).
    rewrite E in E'. injection E' as <- <- <- <-. by apply Hrev.
  - destruct (tr_next A hs _ k d HA Hi Hd) as (x2 & hs' & i' & s' & ad' & E' & _ & _ & _ & Hs & Hn & _).
    rewrite E in E'. injection E' as <- <- <- <-. by apply Hrev.
Qed.
Lemma hand_out_story w l t (nu : bool) a w' evs r :
  good (w_tracker w) → at_end (w_file w) l t →
  (if nu then next_unused_spk (tr_index (w_tracker w)) External else reveal_next_spk (tr_index (w_tracker w)) External) = Ret a →
  hand_out w a = Ret (w', evs, r) → Forall (event_ok wf W) evs →
  (t = [] ∨ ∀ cs e, EvAppend cs e ∈ evs → whole e) → story (w_tracker w) (w_file w) l evs.
Proof.
  intros Hy Hat E Eh Hev Ht. destruct a as [[ix [i sp]] ad].
  destruct (next_step (w_tracker w) External ix i sp ad nu Hy) as (y' & E1 & Hy' & Hk & _ & Hrev); [|done|].
  { apply known_adds. by eexists. }
  unfold hand_out in Eh. destruct (db_append _ _) as [[w1 ev] r1] eqn:Ed. cbn [fst snd] in Eh.
  assert (∃ evs', evs = ev :: evs' ∧ (r1 ≠ Ok tt → evs' = []) ∧ (evs' = [] ∨ evs' = [EvAddress External i sp])) as (evs' & -> & Hne & Hevs').
  { destruct r1 as [[]|er]; [destruct (has_address sp)|]; injection Eh as _ <- _; eexists; (split; [done|]); (split; [done|]); auto. }
  apply Forall_cons in Hev as [Hev _].
  eapply (story_append wf HC W ext int (with_tracker w (with_index (w_tracker w) ix)) l t _ _ y' w1 ev r1 evs' Hat Hy E1 Hy' Hk Ed Hev Ht Hne).
  intros l' t' _ _ _. by destruct Hevs' as [->| ->].
Qed.

Lemma finish_story ch w y l t u change ok w' evs r :
  hash_fun_ok (ch_hash ch) → good y → tr_cg (w_tracker w) = tr_cg y → at_end (w_file w) l t →
  safe y (EvBroadcast u change ok) → (length (ct_out u) ≤ 2)%nat →
  send_finish ch w u change ok = Ret (w', evs, r) → Forall (event_ok wf W) evs →
  (t = [] ∨ ∀ cs e, EvAppend cs e ∈ evs → whole e) → story y (w_file w) l evs.
Proof.
  intros Hho Hy Ecg Hat Hsafe Hlen E Hev Ht. unfold send_finish in E.
  assert (∀ evs, story y (w_file w) l evs → story y (w_file w) l (EvBroadcast u change ok :: evs)) as Hcons by (intros evs0 Hs; by split).
  destruct ok.
  - bind_in E a E1. destruct a as [[x cs]|e].
    + destruct (db_append _ _) as [[w1 ev] r1] eqn:Ed. injection E as <- <- <-. apply Hcons.
      apply Forall_cons in Hev as [[Hid Hin] Hev]. apply Forall_cons in Hev as [Hev _].
      destruct (good_op W ext int HA y (TrTx (ch_hash ch) (ctx_tx u) pos_unconfirmed) Hy) as (x' & l0 & y' & F1 & F2 & Hy' & Hkp & _ & _).
      { split; [done|]. split; [|split; [|exact Hin]].
        - split; [done|]. cbn [ctx_tx tx_out]. assert (2 ≤ u32_max) by done. lia.
        - by apply pos_max_ok. }
      { by intros [l' [=]]. }
      assert (l0 = [cs]) as ->.
      { cbn [tr_step] in F1. unfold tr_insert_tx, tr_insert_tx_preview in E1, F1. rewrite Ecg in E1.
        destruct (cg_insert_tx_preview _ _ _ _) as [[c|e]|]; [|done|done].
        destruct (tr_apply_changeset (w_tracker w) _) as [xx|]; [|done]. destruct (tr_apply_changeset y _) as [yy|]; [|done].
        cbn in E1, F1. injection E1 as _ <-. by injection F1 as _ <-. }
      eapply (story_append wf HC W ext int (with_tracker w x) l t cs y y' w1 ev r1 []); try done.
      destruct Ht as [->|Ht]; [by left|right]. intros cs' e' Hc. apply (Ht cs'). by right.
    + assert (evs = [EvBroadcast u change true]) as ->; [|by apply Hcons].
      destruct e as [[]|]; [done|by injection E as _ <- _..].
  - assert (evs = [EvBroadcast u change false]) as ->; [|by apply Hcons].
    destruct change as [[k i]|]; [|by injection E as _ <- _]. bind_in E a E1. by injection E as _ <- _.
Qed.
Lemma send_story ch w l t value addr algo ok w' evs r :
  hash_fun_ok (ch_hash ch) → good (w_tracker w) → at_end (w_file w) l t →
  handle_command dbg ch km w (CmdSend value addr algo ok) = Ret (w', evs, r) → Forall (event_ok wf W) evs →
  (t = [] ∨ ∀ cs e, EvAppend cs e ∈ evs → whole e) → story (w_tracker w) (w_file w) l evs.
Proof.
  intros Hho Hy Hat E Hev Ht. cbn [handle_command] in E. bind_in E a E1. destruct a as [[w1 evs1] r1].
  unfold send_prepare in E1. bind_in E1 a E2. destruct a as [x rr].
  destruct (create_tx_shape dbg km ch _ value addr algo x rr E2) as (ix & i & sp & ad & En & -> & Hsh).
  destruct rr as [[u [[ad' ki]|]]|e].
  - destruct Hsh as (-> & -> & v & Hout). destruct (db_append _ _) as [[w2 ev] r2] eqn:Ed.
    destruct (next_step _ _ ix i sp ad true Hy (change_known W ext int _ Hy) En) as (y' & F1 & Hy' & Hk & Ecg & Hrev).
    assert (∃ evs', evs = ev :: evs' ∧ (r2 ≠ Ok tt → evs' = []) ∧
      (r2 = Ok tt → ∃ w3 r3, w_file w3 = w_file w2 ∧ tr_cg (w_tracker w3) = tr_cg (w_tracker w) ∧
         send_finish ch w3 u (Some (change_keychain (w_tracker w), i)) ok = Ret (w', evs', r3))) as (evs' & -> & Hne & Hfin).
    { destruct r2 as [[]|er].
      - injection E1 as <- <- <-. bind_in E a2 E3. destruct a2 as [[w4 evs4] r4]. injection E as <- <- <-. eexists. split; [done|].
        split; [done|]. intros _. eexists _, r4. split; [|split; [|exact E3]]; [done|].
        apply db_append_disk in Ed as (_ & Et & _). cbn [with_tracker w_tracker with_index tr_cg]. by rewrite Et.
      - injection E1 as <- <- <-. injection E as <- <- <-. by exists []. }
    apply Forall_cons in Hev as [Hev Hevs].
    eapply (story_append wf HC W ext int (with_tracker w (with_index (w_tracker w) ix)) l t _ _ y' w2 ev r2 evs' Hat Hy F1 Hy' Hk Ed Hev Ht Hne).
    intros l' t' Hok Hat' Ht'. destruct (Hfin Hok) as (w3 & r3 & Ef & Et & E3). rewrite <- Ef in Hat' |- *.
    eapply (finish_story ch w3 y' l' t'); try done.
    + by rewrite Et.
    + exists (mkTxOut value addr), v, sp. done.
    + rewrite Hout. done.
  - injection E1 as <- <- <-. bind_in E a2 E3. destruct a2 as [[w4 evs4] r4]. injection E as <- <- <-.
    eapply (finish_story ch (with_tracker w (with_index (w_tracker w) ix)) (w_tracker w) l t); try done.
    + by eexists.
    + rewrite Hsh. cbn. lia.
  - injection E1 as <- <- <-. by injection E as <- <- <-.
Qed.
Lemma update_step ch y sc ord cs :
  command_ok A W s ch (CmdElectrum sc ord) → good y → tr_determine_changeset (ch_hash ch (cg_graph (tr_cg y))) y sc ord = Ret (Ok cs) →
  ∃ y', tr_replay y [cs] = Ret y' ∧ good y' ∧ kept (tr_index y) (tr_index y').
Proof.
  intros [_ Hop] Hy E.
  destruct (good_op W ext int HA y (TrUpdate (ch_hash ch) sc ord) Hy Hop) as (x' & l0 & y' & F1 & F2 & Hy' & Hkp & _ & _).
  { by intros [l' [=]]. }
  assert (l0 = [cs]) as ->; [|eauto]. cbn [tr_step] in F1. unfold tr_apply_update in F1. rewrite E in F1.
  destruct (tr_apply_changeset y cs); [|done]. by injection F1 as _ <-.
Qed.
Lemma handle_story ch w l t c w' evs r :
  command_ok A W s ch c → good (w_tracker w) → at_end (w_file w) l t →
  handle_command dbg ch km w c = Ret (w', evs, r) → Forall (event_ok wf W) evs →
  (t = [] ∨ ∀ cs e, EvAppend cs e ∈ evs → whole e) → story (w_tracker w) (w_file w) l evs.
Proof.
  intros Hc Hy Hat E Hev Ht. destruct c as [c| |c|value addr algo ok|sc ord|sc ord].
  - cbn [handle_command] in E. destruct c; cbn [run_address_cmd] in E.
    + bind_in E a E1. by eapply (hand_out_story w l t true a).
    + bind_in E a E1. by eapply (hand_out_story w l t false a).
    + bind_in E a E1. by injection E as _ <- _.
    + by injection E as _ <- _.
  - cbn [handle_command] in E. bind_in E a E1. by injection E as _ <- _.
  - cbn [handle_command] in E. bind_in E a E1. by injection E as _ <- _.
  - eapply send_story; try done. apply Hc.
  - cbn [handle_command] in E. unfold electrum_apply in E. bind_in E a E1. destruct a as [cs|e]; [|by injection E as _ <- _].
    destruct (update_step ch _ sc ord cs Hc Hy E1) as (y' & F & Hy' & Hk).
    destruct (db_append _ _) as [[w1 ev] r1] eqn:Ed.
    assert (evs = [ev]) as ->. { destruct r1; [bind_in E a2 E2|]; by injection E as _ <- _. }
    apply Forall_cons in Hev as [Hev _].
    by eapply (story_append wf HC W ext int w l t cs _ y' w1 ev r1 []).
  - cbn [handle_command] in E. unfold esplora_apply in E. bind_in E a E1. destruct a as [[x cs]|e]; [|by injection E as _ <- _].
    assert (tr_determine_changeset (ch_hash ch (cg_graph (tr_cg (w_tracker w)))) (w_tracker w) sc ord = Ret (Ok cs)) as E2.
    { unfold tr_apply_update in E1. destruct (tr_determine_changeset _ _ _ _) as [[cs'|e]|]; [|done|done].
      destruct (tr_apply_changeset _ _); [|done]. by injection E1 as _ <-. }
    destruct (update_step ch _ sc ord cs Hc Hy E2) as (y' & F & Hy' & Hk).
    destruct (db_append _ _) as [[w1 ev] r1] eqn:Ed. injection E as _ <- _.
    apply Forall_cons in Hev as [Hev _].
    by eapply (story_append wf HC W ext int (with_tracker w x) l t cs _ y' w1 ev r1 []).
Qed.

(** ** Lives *)
Notation lives := (life wf W dbg limit ext int km).
Definition broken b : Prop := ∀ e, fs_new_from_path (Some b) e = (b, Err FeIo).
Definition alive (d : option bytes) evs : Prop :=
  (evs = [] ∧ (d = None ∨ ∃ b, d = Some b ∧ broken b)) ∨
  ∃ x0 y t, fresh_tracker limit ext int = Ret x0 ∧ d = Some (log_bytes (logged evs) ++ t) ∧ torn wf t ∧
    Forall wf (logged evs) ∧ tr_replay x0 (logged evs) = Ret y ∧ good y ∧
    ∀ e1 ev e2, evs = e1 ++ ev :: e2 → ∃ y1 t1, tr_replay x0 (logged e1) = Ret y1 ∧ good y1 ∧ kept (tr_index y1) (tr_index y) ∧ safe y1 ev ∧
      torn wf t1 ∧ Forall wf (logged e1) ∧ lives (Some (log_bytes (logged e1) ++ t1)) e1.
Lemma init_log l t x0 y create faults :
  torn wf t → Forall wf l → fresh_tracker limit ext int = Ret x0 → tr_replay x0 l = Ret y →
  init limit ext int (Some (log_bytes l ++ t)) create faults =
    Ret (log_bytes l ++ t, Ok (mkWorld y (mkFile (log_bytes l ++ t) (length (log_bytes l))) faults)).
Proof.
  intros Ht Hl Ex Ey. unfold init. rewrite Ex. cbn [mbind outcome_bind fs_new_from_path].
  assert (log_bytes l ++ t = magic ++ ((l ≫= enc) ++ t)) as E by (unfold log_bytes; by rewrite (assoc_L (++))).
  assert (fs_new (mkFile (log_bytes l ++ t) 0) = Ok (mkFile (log_bytes l ++ t) (length magic))) as -> by (rewrite E; apply fs_new_log).
  rewrite (load_ok wf HC Hdef (mkFile (log_bytes l ++ t) (length magic)) l t x0 eq_refl Ht Hl), Ey. done.
Qed.
Lemma life_alive d evs : lives d evs → alive d evs.
Proof.
  induction 1 as [|d evs p b evs1 evs2 r Hlife IH Hcmd E Hev Hrd]; [left; by split; [|left]|].
  destruct (fresh_good (P := P) W limit ext int HA) as (x0 & Ex & Hx0).
  pose proof E as Ep. unfold process in E. bind_in E a Ei. destruct a as [b1 ri].
  assert (∀ e1 e2, evs1 ++ evs2 = e1 ++ e2 → ∀ w, ri = Ok w → lives (Some (f_bytes (disk (w_file w) e1))) (evs ++ e1)) as Hkill.
  { intros e1 e2 He w ->. assert (left_behind limit ext int d p e1 = f_bytes (disk (w_file w) e1)) as <-; [unfold left_behind; by rewrite Ei|].
    rewrite He in Ep, Hev, Hrd. by eapply life_process. }
  unfold left_behind. rewrite Ei.
  (* a process that starts on a log *)
  assert (∀ l t y create, d = Some (log_bytes l ++ t) ∨ (l = [] ∧ t = []) → torn wf t → Forall wf l → tr_replay x0 l = Ret y → good y →
    l = logged evs → ri = Ok (mkWorld y (mkFile (log_bytes l ++ t) (length (log_bytes l))) create) →
    (t = [] ∨ ∀ cs e, EvAppend cs e ∈ evs1 ++ evs2 → whole e) →
    (∀ e1 ev e2, evs = e1 ++ ev :: e2 → ∃ y1 t1, tr_replay x0 (logged e1) = Ret y1 ∧ good y1 ∧ kept (tr_index y1) (tr_index y) ∧ safe y1 ev ∧
      torn wf t1 ∧ Forall wf (logged e1) ∧ lives (Some (log_bytes (logged e1) ++ t1)) e1) →
    match ri with Ok w => alive (Some (f_bytes (disk (w_file w) evs1))) (evs ++ evs1) | Err _ => True end) as Hgo.
  { intros l t y fs _ Ht Hl Ey Hy El -> Hwh Hold. cbn [w_file]. bind_in E a E2. destruct a as [[w2 evs'] r2]. injection E as _ -> _.
    set (f := mkFile (log_bytes l ++ t) (length (log_bytes l))).
    pose proof (handle_story (pr_ch p) (mkWorld y f fs) l t (pr_cmd p) w2 _ r2 Hcmd Hy (conj eq_refl (conj eq_refl Ht)) E2 Hev Hwh) as Hst.
    cbn [w_tracker w_file] in Hst.
    destruct (story_split wf W ext int evs1 y f l t evs2 Hy eq_refl Ht Hst) as (y' & t' & Ey' & Hy' & Hk' & Ht' & Hf' & Hl' & _).
    right. exists x0, y', t'. rewrite logged_app, <- El. split; [done|]. split; [by rewrite Hf'|]. split; [done|].
    split; [by apply Forall_app|]. split; [by rewrite tr_replay_app, Ey|]. split; [done|].
    intros e1 ev e2 He. apply app_eq_inv in He as [(k & Ha & Hb)|(k & Ha & Hb)].
    - destruct k as [|ev' k]; cbn [app] in Hb.
      + (* the first event of the process *)
        rewrite app_nil_r in Ha. subst e1. exists y, t. rewrite <- El. split; [done|]. split; [done|]. split; [done|]. split.
        * rewrite <- Hb in Hst. cbn [app] in Hst. destruct ev; [done|apply Hst..].
        * do 2 (split; [done|]). rewrite <- (app_nil_r evs). eapply (Hkill [] (evs1 ++ evs2) eq_refl _ eq_refl).
      + injection Hb as -> ->. destruct (Hold e1 ev' k Ha) as (y1 & t1 & F1 & F2 & F3 & F4). exists y1, t1. do 2 (split; [done|]). split; [|done].
        by eapply kept_trans.
    - rewrite Ha. rewrite Hb, <- (assoc_L (++)) in Hst. cbn [app] in Hst.
      destruct (story_split wf W ext int k y f l t _ Hy eq_refl Ht Hst) as (y1 & t1 & Ey1 & Hy1 & Hk1 & Ht1 & Hf1 & Hl1 & Hst1).
      exists y1, t1. rewrite logged_app, <- El, tr_replay_app, Ey. split; [done|]. split; [done|]. split; [|split; [destruct ev; [done|apply Hst1..]|]].
      2:{ split; [done|]. split; [by apply Forall_app|]. rewrite <- Hf1.
          assert (evs1 ++ evs2 = k ++ ev :: e2 ++ evs2) as Hsp by (by rewrite Hb, <- (assoc_L (++))). exact (Hkill _ _ Hsp _ eq_refl). }
      rewrite Hb, logged_app, tr_replay_app, Ey1 in Ey'.
      destruct (story_split wf W ext int (ev :: e2) y1 _ _ t1 evs2 Hy1 Hf1 Ht1 Hst1) as (y2 & t2 & Ey2 & _ & Hk2 & _).
      rewrite Ey2 in Ey'. by injection Ey' as <-. }
  destruct IH as [[-> Hd]|(x0' & y & t & Ex' & -> & Ht & Hl & Ey & Hy & Hold)].
  - destruct Hd as [->|(b0 & -> & Hbr)].
    + unfold init in Ei. rewrite Ex in Ei. cbn [mbind outcome_bind] in Ei. destruct (pr_create p) as [j|].
      * assert (evs1 = []) as ->. { cbn in Ei. injection Ei as _ <-. injection E as _ E _. by destruct evs1. }
        destruct (decide (j < 12)%nat) as [Hj|Hj].
        -- destruct (create_crash j Hj) as (bb & Hc & Hbr). rewrite Hc in Ei. injection Ei as <- <-. left. split; [done|]. right. eauto.
        -- destruct (create_done wf HC Hdef j) as [Hc _]; [lia|]. rewrite Hc in Ei. injection Ei as <- <-.
           right. exists x0, x0, []. split; [done|]. rewrite app_nil_r. split; [done|]. split; [by left|]. split; [constructor|]. do 2 (split; [done|]).
           intros [|] ev e2 He; done.
      * assert (fs_new_from_path None None = (magic, Ok (mkFile magic (length magic)))) as Hn by done. rewrite Hn in Ei.
        rewrite (load_ok wf HC Hdef (mkFile magic (length magic)) [] [] x0) in Ei; [|done|by left|constructor]. cbn [tr_replay mbind outcome_bind] in Ei.
        injection Ei as <- <-. eapply (Hgo [] [] x0 (pr_faults p)); try done.
        -- by right.
        -- by left.
        -- by left.
        -- intros [|] ev e2 He; done.
    + unfold init in Ei. rewrite Ex in Ei. cbn [mbind outcome_bind] in Ei. rewrite Hbr in Ei. injection Ei as <- <-.
      assert (evs1 = []) as ->. { injection E as _ E _. by destruct evs1. }
      left. split; [done|]. right. eauto.
  - rewrite Ex in Ex'. injection Ex' as <-.
    rewrite (init_log (logged evs) t x0 y (pr_create p) (pr_faults p) Ht Hl Ex Ey) in Ei. injection Ei as <- <-.
    eapply (Hgo (logged evs) t y (pr_faults p)); try done; [by left|].
    destruct Hrd as [(a & f & Hag)|Hwh]; [left|by right].
    rewrite (aggregate_ok wf HC Hdef (mkFile (log_bytes (logged evs) ++ t) (length magic)) (logged evs) t eq_refl Ht Hl) in Hag. injection Hag as _ _ Hrr.
    unfold read_result in Hrr. by case_bool_decide.
Qed.

(** ** Theorems *)
Lemma life_opens b evs x0 y t : fresh_tracker limit ext int = Ret x0 → b = log_bytes (logged evs) ++ t → torn wf t →
  Forall wf (logged evs) → tr_replay x0 (logged evs) = Ret y → opens limit ext int b y.
Proof. intros Ex -> Ht Hl Ey create faults. eexists. by eapply init_log. Qed.
(** What is given away is on disk when it is given away. *)
Lemma on_disk_ok d e1 ev e2 : lives d (e1 ++ ev :: e2) →
  ∃ b y, lives (Some b) e1 ∧ opens limit ext int b y ∧ safe y ev.
Proof.
  intros Hl. destruct (life_alive d _ Hl) as [[He _]|(x0 & y & t & Ex & Hd & Ht & Hw & Ey & Hy & Hall)]; [by destruct e1|].
  destruct (Hall e1 ev e2 eq_refl) as (y1 & t1 & Ey1 & Hy1 & _ & Hs1 & Ht1 & Hw1 & Hl1).
  eexists _, y1. split; [exact Hl1|]. split; [|done]. by eapply life_opens.
Qed.
(** What was given away is recognized by every later process. *)
Lemma durable_ok b evs k i sp : lives (Some b) evs → given_away evs k i sp →
  ∃ y, opens limit ext int b y ∧ reveals_spk y k i sp.
Proof.
  intros Hl Hg. assert (∃ ev, ev ∈ evs ∧ ∀ y, safe y ev → reveals_spk y k i sp) as (ev & Hin & Hev).
  { destruct Hg as [Hin|(u & ok & r & v & Hin & Hout)].
    - by exists (EvAddress k i sp).
    - eexists. split; [exact Hin|]. intros y (r' & v' & sp' & Hout' & Hr). rewrite Hout in Hout'. by injection Hout' as _ _ <-. }
  destruct (life_alive _ _ Hl) as [[-> _]|(x0 & y & t & Ex & [= ->] & Ht & Hw & Ey & Hy & Hall)]; [by apply elem_of_nil in Hin|].
  apply elem_of_list_split in Hin as (e1 & e2 & He). destruct (Hall e1 ev e2 He) as (y1 & t1 & Ey1 & Hy1 & Hk & Hs1 & _).
  exists y. split; [by eapply life_opens|]. eapply (reveals_kept W ext int); [done|exact Hk|]. by apply Hev.
Qed.
End life.
