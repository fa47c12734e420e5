(** Proofs about power loss: the life of the command line wallet. *)
From Verif Require Export PowerCliSpec PowerProofs2.
Local Open Scope N_scope.

Section stops.
Context `{!DescEnv, !CliEnv, !PlanModel.KeyEnv} `{ChainPositionLaws P} {C : Codec (KChangeSet Keychain P)}.
Implicit Types (w : World P) (ch : Choices P) (evs : list (event P)).
Definition wrote (cs : KChangeSet Keychain P) (e : fault) : bool :=
  match (append_changeset (mkFile [] 0) cs e).2 with Ok _ => true | Err _ => false end.
Lemma wrote_ok f cs e : wrote cs e = match (append_changeset f cs e).2 with Ok _ => true | Err _ => false end.
Proof.
  unfold wrote, append_changeset. destruct (kcs_is_empty cs); [done|]. destruct e; cbn [snd]; [|done|done|].
  - by rewrite !andb_false_r.
  - by destruct (negb (da_is_empty (kcs_indices cs)) && true).
Qed.
(** After an append that failed nothing happens. *)
Fixpoint stops evs : Prop :=
  match evs with
  | [] => True
  | EvAppend cs e :: evs => (wrote cs e = false → evs = []) ∧ stops evs
  | _ :: evs => stops evs
  end.
Lemma db_append_stops w cs w' ev r : db_append w cs = (w', ev, r) → ∃ e, ev = EvAppend cs e ∧ wrote cs e = match r with Ok _ => true | Err _ => false end.
Proof.
  unfold db_append. intros [= <- <- <-]. eexists. split; [done|]. rewrite (wrote_ok (w_file w)). by destruct (append_changeset _ _ _).2.
Qed.
Lemma hand_out_stops w a w' evs r : hand_out w a = Ret (w', evs, r) → stops evs.
Proof.
  unfold hand_out. destruct a as [[ix is] ad]. destruct (db_append _ _) as [[w1 ev] r1] eqn:Ed.
  apply db_append_stops in Ed as (e & -> & Hw). destruct r1 as [u|er]; [destruct (has_address is.2)|]; intros [= <- <- <-]; cbn [stops]; rewrite ?Hw; done.
Qed.
Lemma handle_stops dbg km ch w c w' evs r : handle_command dbg ch km w c = Ret (w', evs, r) → stops evs.
Proof.
  destruct c as [c| |c|value addr algo ok|sc ord|sc ord]; cbn [handle_command]; intros E.
  - destruct c; cbn [run_address_cmd] in E.
    + bind_in E a E1. by eapply hand_out_stops.
    + bind_in E a E1. by eapply hand_out_stops.
    + bind_in E a E1. by injection E as <- <- <-.
    + by injection E as <- <- <-.
  - bind_in E a E1. by injection E as <- <- <-.
  - bind_in E a E1. by injection E as <- <- <-.
  - bind_in E a E1. destruct a as [[w1 evs1] r1].
    assert (match r1 with Ok _ => ∀ evs2, stops evs2 → stops (evs1 ++ evs2) | Err _ => stops evs1 end) as H1'.
    { unfold send_prepare in E1. bind_in E1 a E2. destruct a as [x [[t [[ad ki]|]]|e]]; [|by injection E1 as _ <- <-..].
      destruct (db_append _ _) as [[w2 ev] r2] eqn:Ed. apply db_append_stops in Ed as (e & -> & Hw).
      destruct r2; injection E1 as _ <- <-; [|cbn; by split]. intros evs2 H2'. cbn [app stops]. by rewrite Hw. }
    destruct r1 as [[t change]|e]; [|by injection E as _ <- _].
    bind_in E a E2. destruct a as [[w2 evs2] r2]. injection E as _ <- _. apply H1'. clear H1' E1. unfold send_finish in E2. destruct ok.
    + bind_in E2 a E3. destruct a as [[x cs]|e].
      * destruct (db_append _ _) as [[w3 ev] r3] eqn:Ed. apply db_append_stops in Ed as (e & -> & Hw). by injection E2 as _ <- _.
      * destruct e as [[]|]; [done|by injection E2 as _ <- _..].
    + destruct change as [[k i]|]; [|by injection E2 as _ <- _]. bind_in E2 a E3. by injection E2 as _ <- _.
  - unfold electrum_apply in E. bind_in E a E1. destruct a as [cs|e]; [|by injection E as <- <- <-].
    destruct (db_append _ _) as [[w1 ev] r1] eqn:Ed. apply db_append_stops in Ed as (e & -> & Hw).
    destruct r1; [bind_in E a2 E2|]; by injection E as _ <- _.
  - unfold esplora_apply in E. bind_in E a E1. destruct a as [[x cs]|e]; [|by injection E as <- <- <-].
    destruct (db_append _ _) as [[w1 ev] r1] eqn:Ed. apply db_append_stops in Ed as (e & -> & Hw).
    by injection E as _ <- _.
Qed.
End stops.

Section life.
Context `{!DescEnv, !CliEnv, !PlanModel.KeyEnv} `{ChainPositionLaws P} {C : Codec (KChangeSet Keychain P)}.
Context (wf : KChangeSet Keychain P → Prop) (HC : codec_ok C wf) (Hdef : wf kcs_default) (HS : streams (@dec _ C)).
Context (W : Txid → list OutPoint) (dbg : bool) (limit : nat) (ext : Desc) (int : option Desc) (km : PlanModel.KeyMap).
Notation A := (keychains ext int).
Context (HA : good_env A).
Implicit Types (x y z : Tracker Keychain P) (w : World P) (ch : Choices P) (evs : list (event P)) (d : Disk).
Implicit Types (f : File) (cs : KChangeSet Keychain P) (l : list (KChangeSet Keychain P)) (b t : bytes).
Notation good := (good W ext int).
Notation at_end := (at_end wf).
Notation lives := (life wf W dbg limit ext int km).
Notation powers := (power_life wf W dbg limit ext int km).

(** ** Loading what starts with whole entries *)
Lemma load_from_entries b : ∀ n t p fuel x fl c0 l0 t0, (length t ≤ n)%nat → (length t < fuel)%nat → drop p b = t → (p ≤ length b)%nat →
  t = c0 ++ t0 → decoded c0 l0 →
  it_for fuel tr_apply_changeset x (FileStoreModel.mkIter (mkFile b p) fl) = Some Panic ∨
  ∃ y0 y l' f r, tr_replay x l0 = Ret y0 ∧ tr_replay y0 l' = Ret y ∧
    it_for fuel tr_apply_changeset x (FileStoreModel.mkIter (mkFile b p) fl) = Some (Ret (y, f, r)).
Proof using HC HS.
  induction n as [|n IH]; intros t p [|fuel] x fl c0 l0 t0 Hn Hf Ht Hp Hc0 Hd; try lia.
  all: assert (∀ e, @dec _ C t = DErr e → ∃ f r, it_for (S fuel) tr_apply_changeset x (FileStoreModel.mkIter (mkFile b p) fl) = Some (Ret (x, f, r))) as Herr.
  1,3: intros e E; cbn [it_for]; unfold it_next, read_entry; cbn [it_file it_error f_bytes f_pos]; rewrite Ht, E;
    destruct (bool_decide (e = Eof)); cbn [andb]; [destruct (bool_decide (p = length b))|]; eauto.
  - destruct t; [|simpl in Hn; lia]. destruct Hd as [|c1 cs c l Hne _ _]; [|by destruct c1].
    destruct (@dec _ C []) as [cs r|e] eqn:E; [destruct (dec_head wf HC HS _ _ _ E) as (c & Hc & Hne & _); by destruct c|].
    right. destruct (Herr e eq_refl) as (f & r & Er). exists x, x, [], f, r. done.
  - destruct (@dec _ C t) as [cs r|e] eqn:E.
    + assert (l0 = [] ∨ ∃ c1 l1, l0 = cs :: l1 ∧ r = c1 ++ t0 ∧ decoded c1 l1) as Hrest.
      { destruct Hd as [|c1 cs' c l Hne Hc Hd]; [by left|]. right. rewrite <- (assoc_L (++)) in Hc0. rewrite Hc0, Hc in E. injection E as -> <-. eauto. }
      destruct (dec_head wf HC HS _ _ _ E) as (c & Etc & Hne & _). assert (0 < length c)%nat by (destruct c; simpl; [done|lia]).
      cbn [it_for]. unfold it_next, read_entry. cbn [it_file it_error f_bytes f_pos]. rewrite Ht, E. cbn [it_error]. unfold seek. cbn [f_bytes f_pos].
      assert (length t = (length c + length r)%nat) as Hlt by (rewrite Etc, app_length; done).
      assert (length b = (p + length t)%nat) as Hlb by (rewrite <- Ht, drop_length; lia).
      destruct (tr_apply_changeset x cs) as [x1|] eqn:Ea; [|by left].
      assert (drop (p + (length t - length r)) b = r) as Hdr.
      { rewrite <- drop_drop, Ht, Hlt. replace (length c + length r - length r)%nat with (length c) by lia. by rewrite Etc, drop_app. }
      destruct Hrest as [->|(c1 & l1 & -> & Hr & Hd1)].
      * destruct (IH r _ fuel x1 fl [] [] r ltac:(lia) ltac:(lia) Hdr ltac:(lia) eq_refl ltac:(constructor)) as [Hpn|(y0 & y & l' & f' & r' & E1 & E2 & E3)]; [by left|].
        right. injection E1 as <-. exists x, y, (cs :: l'), f', r'. split; [done|]. split; [|exact E3]. cbn [tr_replay]. by rewrite Ea.
      * destruct (IH r _ fuel x1 fl c1 l1 t0 ltac:(lia) ltac:(lia) Hdr ltac:(lia) Hr Hd1) as [Hpn|(y0 & y & l' & f' & r' & E1 & E2 & E3)]; [by left|].
        right. exists y0, y, l', f', r'. split; [cbn [tr_replay]; by rewrite Ea|]. done.
    + destruct Hd as [|c1 cs' c l Hne Hc Hd].
      * right. destruct (Herr e eq_refl) as (f & r & Er). exists x, x, [], f, r. done.
      * rewrite <- (assoc_L (++)) in Hc0. by rewrite Hc0, Hc in E.
Qed.
Lemma decoded_log l : Forall wf l → decoded (l ≫= enc) l.
Proof using HC.
  induction 1 as [|cs l Hw _ IH]; [constructor|]. change ((cs :: l) ≫= enc) with (enc cs ++ (l ≫= enc)).
  constructor; [by eapply enc_nonempty|intros r; by apply (co_roundtrip _ _ HC)|done].
Qed.
Lemma init_after x0 y0 l t create faults : fresh_tracker limit ext int = Ret x0 → Forall wf l → tr_replay x0 l = Ret y0 →
  let b := log_bytes l ++ t in
  init limit ext int (Some b) create faults = Panic ∨
  ∃ y l' f, tr_replay y0 l' = Ret y ∧ init limit ext int (Some b) create faults = Ret (b, Ok (mkWorld y f faults)).
Proof using HC HS.
  intros Ex Hl Ey b. unfold init. rewrite Ex. cbn [mbind outcome_bind fs_new_from_path].
  assert (b = magic ++ ((l ≫= enc) ++ t)) as E by (unfold b, log_bytes; by rewrite (assoc_L (++))).
  assert (fs_new (mkFile b 0) = Ok (mkFile b (length magic))) as -> by (rewrite E; apply fs_new_log).
  unfold load_into_keychain_tracker, iter_changesets, it_new, seek. cbn [f_bytes].
  destruct (load_from_entries b (length ((l ≫= enc) ++ t)) ((l ≫= enc) ++ t) (length magic) (S (length b)) x0 false (l ≫= enc) l t)
    as [->|(y1 & y & l' & f & r & E1 & E2 & ->)]; [done|rewrite E, (app_length magic); lia|rewrite E; by rewrite drop_app|rewrite E, (app_length magic); lia|done|by apply decoded_log|by left|].
  right. rewrite Ey in E1. injection E1 as <-. eauto.
Qed.

(** ** The disk follows the file *)
Lemma dk_events_view evs : ∀ d f, dk_view d = f_bytes f →
  dk_view (dk_events d f evs).1 = f_bytes (disk f evs) ∧ (dk_events d f evs).2 = disk f evs.
Proof using.
  induction evs as [|ev evs IH]; intros d f Hv; [done|]. unfold dk_events, disk. cbn [foldl].
  destruct ev as [cs e|k i sp|u c ok]; cbn [fst snd]; apply IH; try done. by apply dk_append_view.
Qed.
Lemma dk_events_app d f e1 e2 : dk_events d f (e1 ++ e2) = dk_events (dk_events d f e1).1 (dk_events d f e1).2 e2.
Proof using. unfold dk_events. rewrite foldl_app. by destruct (foldl _ (d, f) e1). Qed.

(** What is on the disk for good: all entries up to the last one that was synced. *)
Definition backed d evs : Prop :=
  ∃ e0 e1 b0, evs = e0 ++ e1 ∧ (∀ cs, cs ∈ logged e1 → da_is_empty (kcs_indices cs) = true) ∧
    (e0 = [] ∧ b0 = [] ∨ b0 = log_bytes (logged e0)) ∧ ∀ m, moment d m → b0 `prefix_of` m.
Lemma log_prefix l1 l2 : log_bytes l1 `prefix_of` log_bytes (l1 ++ l2).
Proof using. unfold log_bytes. rewrite bind_app. exists (l2 ≫= enc). by rewrite (assoc_L (++)). Qed.
Lemma append_backed d f t evs cs e : dk_view d = f_bytes f → at_end f (logged evs) t → Forall wf (logged evs) → wf cs → backed d evs →
  backed (dk_append d f cs e) evs ∧
  (da_is_empty (kcs_indices cs) = true ∨ e = NoFault ∨ reached cs e = false → backed (dk_append d f cs e) (evs ++ [EvAppend cs e])).
Proof using HC.
  intros Hv (Hb & Hp & Ht) Hw Hwc (e0 & e1 & b0 & He & Hno & Hb0 & Hm).
  assert (∀ d', (∀ m, moment d' m → b0 `prefix_of` m) → backed d' evs) as Hsame by (intros; exists e0, e1, b0; done).
  assert (∀ d', (∀ m, moment d' m → b0 `prefix_of` m) → (∀ cs', cs' ∈ logged [EvAppend cs e] → da_is_empty (kcs_indices cs') = true) →
    backed d' (evs ++ [EvAppend cs e])) as Hmore.
  { intros d' Hd' Hl. exists e0, (e1 ++ [EvAppend cs e]), b0. split; [by rewrite He, (assoc_L (++))|]. split; [|done].
    intros cs'. rewrite logged_app. intros [Hin|Hin]%elem_of_app; [by apply Hno|by apply Hl]. }
  assert (∀ cs', cs' ∈ logged [EvAppend cs e] → cs' = cs ∧ reached cs e = true ∧ kcs_is_empty cs = false) as Hlog.
  { intros cs'. rewrite logged_append. destruct (reached cs e); [|by intros ?%elem_of_nil]. unfold recorded.
    intros [Hne Hin]%elem_of_list_filter. apply elem_of_list_singleton in Hin as ->. done. }
  destruct (kcs_is_empty cs) eqn:Hne.
  { assert (dk_append d f cs e = d) as -> by (unfold dk_append; by rewrite Hne). split; [by apply Hsame|]. intros _. apply Hmore; [done|].
    intros cs' Hin. by apply Hlog in Hin as (_ & _ & ?). }
  assert (log_bytes (logged evs) = magic ++ (logged evs ≫= enc)) as Elog by done.
  assert (b0 `prefix_of` magic ++ (logged evs ≫= enc)) as Hpre.
  { destruct Hb0 as [[-> ->]| ->]; [apply prefix_nil|]. rewrite <- Elog, He, logged_app. apply log_prefix. }
  assert (base b0 (logged e0)) as Hbase.
  { destruct Hb0 as [[-> ->]| ->]; [by left|]. right. eexists. split; [done|]. apply decoded_log. rewrite He, logged_app in Hw. by apply Forall_app in Hw as [? _]. }
  destruct (append_on_disk d f (logged e0) cs e b0 (logged e0) (logged evs ≫= enc) (logged evs) t Hbase Hm (eq_sym Hv)) as (Hv1 & Hv2 & Hm').
  { by rewrite Hb, Elog, (assoc_L (++)). } { by rewrite Hp, Elog. } { done. } { done. }
  assert (∀ m, moment (dk_append d f cs e) m → b0 `prefix_of` m) as Hall.
  { destruct Hm' as [Hm'|Hm']; [|done]. intros m Hmo. rewrite (Hm' _ Hmo). by trans (magic ++ (logged evs ≫= enc)). }
  split; [by apply Hsame|]. intros Hsure.
  destruct (da_is_empty (kcs_indices cs)) eqn:Hda. { apply Hmore; [done|]. intros cs' Hin. by apply Hlog in Hin as (-> & _). }
  destruct (reached cs e) eqn:Hre. 2:{ apply Hmore; [done|]. intros cs' Hin. by apply Hlog in Hin as (_ & ? & _). }
  destruct Hsure as [Hs|[->|Hs]]; [done| |done].
  exists (evs ++ [EvAppend cs NoFault]), [], (log_bytes (logged (evs ++ [EvAppend cs NoFault]))). split; [by rewrite app_nil_r|].
  split; [intros cs' Hin; by apply elem_of_nil in Hin|]. split; [by right|]. intros m Hmo. specialize (Hv2 (or_introl eq_refl)).
  unfold dk_append in Hmo, Hv2. rewrite Hne, Hda in Hmo, Hv2. apply moment_sync in Hmo. subst m.
  unfold dk_sync in Hv2. unfold dk_view at 1 in Hv2. cbn [foldl dk_synced dk_pending] in Hv2. rewrite Hv2.
  rewrite logged_app, logged_append, Hre, (recorded_one cs Hne). unfold log_bytes. rewrite bind_app. cbn. by rewrite app_nil_r.
Qed.
Lemma events_backed ea : ∀ d f t evs eb rest, dk_view d = f_bytes f → at_end f (logged evs) t → Forall wf (logged evs) →
  Forall (event_ok wf W) (ea ++ eb) → (t = [] ∨ ∀ cs e, EvAppend cs e ∈ ea ++ eb → whole e) → stops (ea ++ eb ++ rest) →
  synced ea → (length eb ≤ 1)%nat → backed d evs → backed (dk_events d f (ea ++ eb)).1 (evs ++ ea).
Proof using HC.
  induction ea as [|ev ea IH]; intros d f t evs eb rest Hv Hat Hw Hev Ht Hst Hsy Hlen Hb.
  - rewrite app_nil_r. cbn [app] in *. destruct eb as [|ev eb]; [done|]. destruct eb; [|simpl in Hlen; lia]. unfold dk_events. cbn [foldl].
    destruct ev as [cs e|k i sp|u c ok]; cbn [fst snd]; [|done|done]. apply Forall_cons in Hev as [Hwc _].
    by eapply append_backed.
  - assert (ev :: ea = [ev] ++ ea) as Econs by done. rewrite Econs, (assoc_L (++) evs).
    cbn [app] in Hev, Hst, Ht. apply Forall_cons in Hev as [Hwc Hev].
    assert (synced ea) as Hsy' by (intros cs e Hin; apply Hsy; by right).
    assert (t = [] ∨ ∀ cs e, EvAppend cs e ∈ ea ++ eb → whole e) as Ht' by (destruct Ht as [?|Ht]; [by left|right; intros cs e Hin; apply (Ht cs); by right]).
    assert (logged [ev] = [] → backed d (evs ++ [ev])) as Hskip.
    { intros El. destruct Hb as (e0 & e1 & b0 & He & Hno & Hrest). exists e0, (e1 ++ [ev]), b0. split; [by rewrite He, (assoc_L (++))|].
      split; [|done]. by rewrite logged_app, El, app_nil_r. }
    destruct ev as [cs e|k i sp|u c ok].
    + cbn [stops] in Hst. destruct Hst as [Hlast Hst]. unfold dk_events. cbn [app foldl fst snd]. fold (dk_events (dk_append d f cs e) (append_changeset f cs e).1 (ea ++ eb)).
      destruct (append_backed d f t evs cs e Hv Hat Hw Hwc Hb) as [_ Hb']. specialize (Hb' (Hsy cs e ltac:(left))).
      pose proof (dk_append_view d f cs e Hv) as Hv'.
      destruct (wrote cs e) eqn:Hwr.
      * rewrite (wrote_ok f) in Hwr. destruct (append_changeset f cs e).2 as [[]|] eqn:Er; [|done].
        destruct (append_step wf HC f (logged evs) t cs e Hat Hwc) as (t' & Ht1 & Hf' & Hok).
        { destruct Ht as [->|Ht]; [by left|right]. apply (Ht cs). by left. }
        destruct (Hok Er) as (Hat' & Hl' & Ht'').
        eapply (IH _ _ t' _ _ rest); [done|rewrite logged_app; exact Hat'| |done| |exact Hst|done|done|exact Hb'].
        -- rewrite logged_app, Hl'. apply Forall_app. split; [done|]. apply recorded_wf. by repeat constructor.
        -- destruct Ht'' as [->| ->]; [by left|done].
      * specialize (Hlast eq_refl). apply app_nil in Hlast as [-> Hlast]. apply app_nil in Hlast as [-> _]. rewrite (app_nil_r (evs ++ _)). exact Hb'.
    + eapply (IH d f t _ eb rest); try done; [by rewrite logged_app, app_nil_r|by rewrite logged_app, app_nil_r|by apply Hskip].
    + eapply (IH d f t _ eb rest); try done; [by rewrite logged_app, app_nil_r|by rewrite logged_app, app_nil_r|by apply Hskip].
Qed.

(** ** Lives with a disk are lives *)
Lemma it_for_bytes {St} (g : St → KChangeSet Keychain P → outcome St) fuel : ∀ st it st' f' r, it_for fuel g st it = Some (Ret (st', f', r)) → f_bytes f' = f_bytes (it_file it).
Proof using.
  induction fuel as [|fuel IH]; intros st it st' f' r E; cbn [it_for] in E; [done|].
  assert (∀ a it', it_next it = (it', a) → f_bytes (it_file it') = f_bytes (it_file it)) as Hn.
  { intros a it' Ei. unfold it_next, read_entry in Ei. repeat case_match; simplify_eq; done. }
  destruct (it_next it) as [it' a] eqn:Ei. specialize (Hn _ _ eq_refl). destruct a as [[cs|e]|].
  - destruct (g st cs) as [st1|]; [|done]. apply IH in E. congruence.
  - injection E as <- <- <-. done.
  - injection E as <- <- <-. done.
Qed.
Lemma init_view (d : option Disk) (p : Proc P) b r : init limit ext int (dk_view <$> d) (pr_create p) (pr_faults p) = Ret (b, r) →
  let d0 := default (match pr_create p with None => dk_new | Some j => dk_create j end) d in
  dk_view d0 = b ∧ ∀ w : World P, r = Ok w → f_bytes (w_file w) = b.
Proof using.
  intros E. unfold init in E. bind_in E x Ex.
  assert (∀ (a : option bytes) cf b' f, fs_new_from_path a cf = (b', Ok f) → f_bytes f = b') as Hf.
  { intros a cf b' f. unfold fs_new_from_path, fs_new. repeat case_match; intros; simplify_eq; done. }
  assert (∀ b' r', fs_new_from_path (dk_view <$> d) (pr_create p) = (b', r') → dk_view (default (match pr_create p with None => dk_new | Some j => dk_create j end) d) = b') as Hb.
  { intros b' r'. destruct d as [d|]; cbn; [by intros [= <- _]|]. destruct (pr_create p) as [j|]; by intros [= <- _]. }
  destruct (fs_new_from_path _ _) as [b1 [f|e]] eqn:Efs.
  - destruct (load_into_keychain_tracker f x) as [[[[x' f'] r']|]|] eqn:El; [|done|done]. injection E as <- <-.
    split; [by eapply Hb|]. intros w [= <-]. cbn [w_file]. unfold load_into_keychain_tracker in El. apply it_for_bytes in El. rewrite El.
    cbn. by eapply Hf.
  - injection E as <- <-. split; [by eapply Hb|done].
Qed.
Lemma powers_none od evs : powers od evs → od = None → evs = [].
Proof using. by destruct 1. Qed.
Lemma powers_lives od evs : powers od evs → lives (dk_view <$> od) evs.
Proof using.
  induction 1 as [|od evs p b evs1 evs2 r Hlife IH Hcmd E Hev Hrd]; [constructor|].
  assert (dk_view (dk_behind limit ext int od p evs1) = left_behind limit ext int (dk_view <$> od) p evs1) as Hv; [|cbn [fmap option_fmap option_map]; rewrite Hv; by eapply life_process].
  unfold process in E. bind_in E a Ei. destruct a as [b1 ri]. unfold dk_behind, left_behind. rewrite Ei.
  destruct (init_view od p b1 ri Ei) as [Hb Hw]. destruct ri as [w|e]; [|done].
  apply dk_events_view. by rewrite Hb, (Hw w eq_refl).
Qed.
Lemma powers_backed od evs : powers od evs → ∀ d ea eb, od = Some d → evs = ea ++ eb → (length eb ≤ 1)%nat → synced ea → backed d ea.
Proof using H5 HA HC Hdef.
  induction 1 as [|od evs p b evs1 evs2 r Hlife IH Hcmd E Hev Hrd]; [done|].
  intros d ea eb [= <-] He Hlen Hsy.
  destruct (fresh_good (P := P) W limit ext int HA) as (x0 & Ex & Hx0).
  pose proof (powers_lives _ _ Hlife) as Hli. pose proof (life_alive wf HC Hdef W dbg limit ext int km HA _ _ Hli) as Hal.
  set (d0 := default (match pr_create p with None => dk_new | Some j => dk_create j end) od).
  assert (∀ d', backed d' []) as Hnil. { intros d'. exists [], [], []. split; [done|]. split; [by intros ? ?%elem_of_nil|]. split; [by left|]. intros m _. apply prefix_nil. }
  assert (∀ ea eb, evs = ea ++ eb → (length eb ≤ 1)%nat → synced ea → backed d0 ea) as Hold.
  { intros ea' eb' He' Hl' Hs'. destruct od as [d'|]; [by apply (IH d' ea' eb')|].
    pose proof (powers_none _ _ Hlife eq_refl) as ->. destruct ea'; [|done]. apply Hnil. }
  pose proof E as Ep. unfold process in E. bind_in E a Ei. destruct a as [b1 ri].
  destruct (init_view od p b1 ri Ei) as [Hb Hw]. fold d0 in Hb.
  unfold dk_behind. fold d0. rewrite Ei.
  assert (∀ w, ri = Ok w → ∃ t, at_end (w_file w) (logged evs) t ∧ Forall wf (logged evs) ∧ (t = [] ∨ ∀ cs e, EvAppend cs e ∈ evs1 ++ evs2 → whole e)) as Hstart.
  { intros w ->. destruct Hal as [[-> Hd]|(x0' & y & t & Ex' & Hd & Ht & Hl & Ey & Hy & _)].
    - destruct Hd as [Hd|(bb & Hd & Hbr)]; rewrite Hd in Ei; unfold init in Ei; rewrite Ex in Ei; cbn [mbind outcome_bind] in Ei.
      + destruct (pr_create p) as [j|]; [done|].
        assert (fs_new_from_path None None = (magic, Ok (mkFile magic (length magic)))) as Hn by done. rewrite Hn in Ei.
        rewrite (load_ok wf HC Hdef (mkFile magic (length magic)) [] [] x0) in Ei; [|done|by left|constructor]. cbn [tr_replay mbind outcome_bind] in Ei.
        injection Ei as _ <-. exists []. split; [|split; [constructor|by left]]. split; [done|]. split; [done|by left].
      + rewrite Hbr in Ei. done.
    - rewrite Hd, (init_log wf HC Hdef limit ext int (logged evs) t x0' y _ _ Ht Hl Ex' Ey) in Ei. injection Ei as _ <-.
      exists t. split; [by split|]. split; [done|]. rewrite Hd in Hrd. destruct Hrd as [(a & f & Hag)|Hwh]; [left|by right].
      rewrite (aggregate_ok wf HC Hdef (mkFile (log_bytes (logged evs) ++ t) (length magic)) (logged evs) t eq_refl Ht Hl) in Hag. injection Hag as _ _ Hrr.
      unfold read_result in Hrr. by case_bool_decide. }
  assert (∀ k, evs1 = k ++ eb → ea = evs ++ k → backed (match ri with Ok w => (dk_events d0 (w_file w) evs1).1 | Err _ => d0 end) ea) as Hnew.
  { intros k Hk Hea. destruct ri as [w|e].
    - bind_in E a E2. destruct a as [[w2 evs'] r2]. injection E as _ -> _. destruct (Hstart w eq_refl) as (t & Hat & Hl & Hwh).
      rewrite Hk, Hea. rewrite Hk in Hev, Hwh. eapply (events_backed k d0 (w_file w) t evs eb evs2).
      + by rewrite Hb, (Hw w).
      + done.
      + done.
      + apply Forall_app in Hev as [? _]. done.
      + destruct Hwh as [->|Hwh]; [by left|right]. intros cs e Hin. apply (Hwh cs). apply elem_of_app. by left.
      + rewrite Hk, <- (assoc_L (++)) in E2. by eapply handle_stops.
      + intros cs e Hin. apply Hsy. rewrite Hea. apply elem_of_app. by right.
      + done.
      + apply (Hold evs []); [by rewrite app_nil_r|cbn; lia|]. intros cs e Hin. apply Hsy. rewrite Hea. apply elem_of_app. by left.
    - injection E as _ E _. symmetry in E. apply app_nil in E as [E _]. rewrite Hk in E. apply app_nil in E as [-> ->].
      rewrite app_nil_r in Hea. subst ea. apply (Hold evs []); [by rewrite app_nil_r|cbn; lia|done]. }
  apply app_eq_inv in He as [(k & Ha & Hbb)|(k & Ha & Hbb)].
  - destruct k as [|ev k]; [apply (Hnew []); [by rewrite Hbb|by rewrite Ha, !app_nil_r]|].
    rewrite Hbb in Hlen. cbn in Hlen. rewrite app_length in Hlen. assert (k = [] ∧ evs1 = []) as [-> ->].
    { destruct k; [|cbn in Hlen; lia]. destruct evs1; [done|cbn in Hlen; lia]. }
    assert (match ri with Ok w => (dk_events d0 (w_file w) []).1 | Err _ => d0 end = d0) as -> by (by destruct ri).
    by apply (Hold ea [ev]).
  - by apply (Hnew k).
Qed.

(** ** What was given away *)
Lemma reveals_keeps x y k i sp : keeps (tr_index x) (tr_index y) → reveals_spk x k i sp → reveals_spk y k i sp.
Proof using.
  intros (K1 & K2 & K3) (R1 & R2 & R3). split; [specialize (K1 k); lia|]. split; [by apply K2|by apply K3].
Qed.
Lemma fresh_tight x0 k : fresh_tracker limit ext int = Ret x0 → tight (tr_index x0) k ∧ n_revealed (tr_index x0) k = 0.
Proof using H HA.
  intros E. assert (ki_inner (tr_index x0) = si_default ∧ ki_revealed (tr_index x0) = ∅ ∧ ki_lookahead (tr_index x0) = ∅) as (E1 & E2 & E3).
  { unfold fresh_tracker, tr_add_keychain, add_keychain in E. cbn in E. destruct int as [d|].
    - cbn in E. by injection E as <-.
    - by injection E as <-. }
  unfold tight, bounded, n_revealed, lookahead_of. rewrite E1, E2, E3, !lookup_empty. done.
Qed.
Lemma power_cli_ok d evs evs' k i sp b : powers (Some d) (evs ++ evs') → (length evs' ≤ 1)%nat → synced evs → given_away evs k i sp → survives d b →
  ∀ create faults, init limit ext int (Some b) create faults = Panic ∨
    ∃ y f, init limit ext int (Some b) create faults = Ret (b, Ok (mkWorld y f faults)) ∧ reveals_spk y k i sp.
Proof using H5 HA HC HS Hdef.
  intros Hp Hlen Hsy Hg Hsv create faults.
  pose proof (powers_backed _ _ Hp d evs evs' eq_refl eq_refl Hlen Hsy) as (e0 & e1 & b0 & He & Hno & Hb0 & Hm).
  assert (∃ ev, ev ∈ evs ∧ ∀ y, safe y ev → reveals_spk y k i sp) as (ev & Hin & Hev).
  { destruct Hg as [Hin|(u & ok & r & v & Hin & Hout)].
    - by exists (EvAddress k i sp).
    - eexists. split; [exact Hin|]. intros y (r' & v' & sp' & Hout' & Hr). rewrite Hout in Hout'. by injection Hout' as _ _ <-. }
  apply elem_of_list_split in Hin as (a & c & Hac).
  destruct (life_alive wf HC Hdef W dbg limit ext int km HA _ _ (powers_lives _ _ Hp)) as [[Hnil _]|(x0 & y & t & Ex & _ & _ & Hw & Ey & Hy & Hall)].
  { rewrite Hac in Hnil. by destruct a. }
  destruct (Hall a ev (c ++ evs')) as (y1 & t1 & Ey1 & Hy1 & _ & Hs1 & _). { by rewrite Hac, <- (assoc_L (++)). }
  apply Hev in Hs1.
  assert (∃ y0, tr_replay x0 (logged e0) = Ret y0 ∧ good y0) as (y0 & Ey0 & Hy0).
  { destruct (e1 ++ evs') as [|ev' rest] eqn:Er.
    - apply app_nil in Er as [-> ->]. rewrite He, !app_nil_r in Ey. eauto.
    - destruct (Hall e0 ev' rest) as (y2 & _ & Ey2 & Hy2 & _); [by rewrite He, <- (assoc_L (++)), Er|]. eauto. }
  assert (reveals_spk y0 k i sp) as Hrev.
  { rewrite He in Hac. apply app_eq_inv in Hac as [(j & Ha & Hbb)|(j & Ha & Hbb)].
    - (* a is a part of e0 *)
      rewrite Ha, logged_app, tr_replay_app, Ey1 in Ey0. cbn [mbind outcome_bind] in Ey0.
      eapply reveals_keeps; [by eapply replay_keeps|done].
    - rewrite Ha, logged_app, tr_replay_app, Ey0 in Ey1. cbn [mbind outcome_bind] in Ey1.
      pose proof (replay_tight k _ _ _ Ey0 (proj1 (fresh_tight x0 k Ex))) as Ht0.
      assert (n_revealed (tr_index y1) k ≤ n_revealed (tr_index y0) k) as Hle.
      { eapply replay_no_index; [exact Ey1|done|]. intros cs Hcs. assert (da_is_empty (kcs_indices cs) = true) as Hda.
        { apply Hno. rewrite Hbb, logged_app. apply elem_of_app. by left. }
        apply bool_decide_eq_true in Hda. by rewrite Hda, lookup_empty. }
      destruct Hs1 as (R1 & R2 & R3). pose proof Hy0 as [((hs & Hi) & _) _].
      assert (i < n_revealed (tr_index y0) k) as Hi0 by lia.
      assert (is_Some (ki_revealed (tr_index y0) !! k)) as Hrk. { unfold n_revealed in Hi0. destruct (ki_revealed (tr_index y0) !! k); [done|lia]. }
      destruct Hi as [Hcore Hlook]. pose proof Hcore as (_ & _ & _ & _ & C5). destruct (C5 _ Hrk) as [dd Hdd].
      destruct (revealed_script A hs _ k dd i (conj Hcore Hlook) HA Hdd Hi0) as (s & S1 & _ & S3).
      destruct (replay_keeps _ _ _ Ey1) as (_ & K2 & _). unfold si_spk_at in *. rewrite (K2 _ _ S1) in R2. injection R2 as ->. done. }
  destruct Hb0 as [[-> ->]|Hb0].
  { cbn in Ey0. injection Ey0 as <-. destruct Hrev as [Hr _]. rewrite (proj2 (fresh_tight _ k Ex)) in Hr. lia. }
  destruct (survives_prefix d b0 b Hm Hsv) as [t' Ht']. rewrite Ht', Hb0.
  assert (Forall wf (logged e0)) as Hw0. { rewrite He, !logged_app in Hw. apply Forall_app in Hw as [Hw _]. by apply Forall_app in Hw as [? _]. }
  destruct (init_after x0 y0 (logged e0) t' create faults Ex Hw0 Ey0) as [Hpn|(y2 & l' & f & E1 & E2)]; [by left|right].
  exists y2, f. split; [exact E2|]. eapply reveals_keeps; [by eapply replay_keeps|done].
Qed.
End life.
