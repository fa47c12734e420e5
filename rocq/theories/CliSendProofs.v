(** What a command line wallet sends in its life (C102, C103). *)
From Verif Require Export CliProofs9 CliSendSpec.
Local Open Scope N_scope.

Section send.
Context `{!DescEnv, !CliEnv, !PlanModel.KeyEnv} `{ChainPositionLaws P} {C : Codec (KChangeSet Keychain P)}.
Context (wf : KChangeSet Keychain P → Prop) (HC : codec_ok C wf) (Hdef : wf kcs_default).
Context (W : Txid → list OutPoint) (dbg : bool) (limit : nat) (ext : Desc) (int : option Desc) (km : PlanModel.KeyMap).
Notation A := (keychains ext int).
Notation s := (adds ext int).
Context (HA : good_env A).
Implicit Types (x y z : Tracker Keychain P) (w : World P) (ch : Choices P) (evs : list (event P)).
Implicit Types (cs : KChangeSet Keychain P).
Notation good := (good W ext int).
Notation lives := (life wf W dbg limit ext int km).

(** ** The inputs of a transaction *)
Lemma zip_ins l ws i : i ∈ zip_with (λ (i : CtxIn) v, mkCtxIn (ci_prev i) (ci_sequence i) v) l ws → ∃ j, j ∈ l ∧ ci_prev i = ci_prev j.
Proof.
  revert ws. induction l as [|j l IH]; intros [|v ws] Hin; cbn [zip_with] in Hin; try (by apply elem_of_nil in Hin).
  apply elem_of_cons in Hin as [->|Hin]; [exists j; split; [by left|done]|]. destruct (IH ws Hin) as (j' & Hj & E). exists j'. split; [by right|done].
Qed.
Lemma apply_selection_in {T} sn (l r : list T) a : CoinSelectModel.apply_selection sn l = Ret r → a ∈ r → a ∈ l.
Proof.
  unfold CoinSelectModel.apply_selection. intros E Ha. apply all_ret_inv in E.
  apply elem_of_list_lookup in Ha as [j Hj]. destruct (Forall2_lookup_r _ _ _ _ _ E Hj) as (n & _ & Hn).
  destruct (l !! n) as [b|] eqn:El; [|done]. injection Hn as ->. by eapply elem_of_list_lookup_2.
Qed.
Lemma create_ins ch x value addr algo x' t a o : good x → hash_fun_ok (ch_hash ch) →
  create_tx dbg ch km x value addr algo = Ret (x', Ok (t, a)) → o ∈ ci_prev <$> ct_in t → ∃ ki f, unspent x ki f ∧ o = fto_outpoint f.
Proof.
  intros Hx Hho E Ho. unfold create_tx in E. bind_in E cands E1. bind_in E wvs E2. bind_in E a3 E3. destruct a3 as [[ix [i sp]] ad].
  cbn [fst snd] in E. destruct (ki_keychains ix !! change_keychain x) as [d|]; [|done].
  bind_in E cp E4. destruct cp as [cp|]; [|done]. bind_in E cw E5. bind_in E oo E6. bind_in E sl E7.
  destruct sl as [sl|e]; [|done]. bind_in E es E8. destruct es as [ek es]. bind_in E sel E9. bind_in E ws E10.
  destruct ws as [ws|]; [|done]. injection E as <- <- <-. cbn [put_witnesses ct_in unsigned_tx] in Ho.
  apply elem_of_list_fmap in Ho as (i0 & -> & Hi). apply zip_ins in Hi as (j & Hj & ->).
  apply elem_of_list_fmap in Hj as ([p f] & -> & Hsel). apply (apply_selection_in _ _ _ _ E9) in Hsel.
  rewrite sort_candidates_perm in Hsel. destruct (plan_utxos_inv _ _ _ _ E1) as (zz & Hz & -> & _).
  apply elem_of_list_fmap in Hsel as ([[ki f'] p'] & [= -> ->] & Hin).
  assert ((ki, f') ∈ full_utxos (ch_hash ch (cg_graph (tr_cg x))) x) as Hu.
  { eapply elem_of_submseteq; [|by apply sublist_submseteq, Hz]. by apply (elem_of_list_fmap_1 fst _ (ki, f', p')). }
  unfold full_utxos in Hu. apply elem_of_list_filter in Hu as [Hun Hu].
  apply full_txouts_owned in Hu; [|by apply (good_ok W ext int)|apply Hho]. by exists ki, f'.
Qed.

(** ** The wallet on disk *)
Lemma life_log d evs : lives d evs → ∃ x0 y, fresh_tracker limit ext int = Ret x0 ∧ tr_replay x0 (logged evs) = Ret y ∧ good y.
Proof.
  intros Hl. destruct (life_alive wf HC Hdef W dbg limit ext int km HA d evs Hl) as [[-> _]|(x0 & y & t & Ex & _ & _ & _ & Ey & Hy & _)].
  - destruct (fresh_good (P := P) W limit ext int HA) as (x0 & Ex & Hx0). by exists x0, x0.
  - by exists x0, y.
Qed.
Lemma init_tracker d evs create faults b w x0 : lives d evs → init limit ext int d create faults = Ret (b, Ok w) → fresh_tracker limit ext int = Ret x0 →
  tr_replay x0 (logged evs) = Ret (w_tracker w).
Proof.
  intros Hl Ei Ex. destruct (life_alive wf HC Hdef W dbg limit ext int km HA d evs Hl)
    as [[-> [->|(b0 & -> & Hbr)]]|(x1 & y & t & Ex1 & -> & Ht & Hw & Ey & Hy & _)].
  - unfold init in Ei. rewrite Ex in Ei. cbn [mbind outcome_bind] in Ei. destruct create as [j|]; [done|].
    assert (fs_new_from_path None None = (magic, Ok (mkFile magic (length magic)))) as Hn by done. rewrite Hn in Ei.
    rewrite (load_ok wf HC Hdef (mkFile magic (length magic)) [] [] x0) in Ei; [|done|by left|constructor]. cbn [tr_replay mbind outcome_bind] in Ei.
    by injection Ei as <- <-.
  - unfold init in Ei. bind_in Ei x1 Ex1. rewrite Hbr in Ei. done.
  - rewrite (init_log wf HC Hdef limit ext int (logged evs) t x1 y create faults Ht Hw Ex1 Ey) in Ei. injection Ei as <- <-.
    rewrite Ex in Ex1. by injection Ex1 as <-.
Qed.
Lemma opens_log b evs x0 y : lives (Some b) evs → fresh_tracker limit ext int = Ret x0 → opens limit ext int b y → tr_replay x0 (logged evs) = Ret y.
Proof. intros Hl Ex Ho. destruct (Ho None []) as [f Hf]. exact (init_tracker _ _ _ _ _ _ _ Hl Hf Ex). Qed.

(** No transaction in the chain spends an input of [t]. *)
Definition clear y (t : Ctx) : Prop := ∀ o i a, o ∈ ci_prev <$> ct_in t → in_chain (tr_cg y) i → get_tx (cg_graph (tr_cg y)) i = Some a →
  o ∈ tx_in a → o = null_outpoint.
Lemma create_clear ch x value addr algo x' t a : good x → hash_fun_ok (ch_hash ch) →
  create_tx dbg ch km x value addr algo = Ret (x', Ok (t, a)) → clear x t.
Proof.
  intros Hx Hho E o i u Ho Hi Hu Hin. destruct (create_ins _ _ _ _ _ _ _ _ _ Hx Hho E Ho) as (ki & f & [[_ (t0 & _ & _ & _ & _ & Hn)] Hs] & ->).
  rewrite Hs in Hn. by eapply Hn.
Qed.
Lemma replay_entry y cs e y' : good y → tr_replay y [cs] = Ret y' → tr_cg y' = tr_cg y →
  ∃ y2, tr_replay y (logged [EvAppend cs e]) = Ret y2 ∧ tr_cg y2 = tr_cg y.
Proof.
  intros Hy E Ec. rewrite logged_append. destruct (reached cs e); [|by exists y]. rewrite (replay_recorded [cs] y) by apply Hy. by exists y'.
Qed.

Lemma send_clear ch w value addr algo ok w' evs r pre t c k post : hash_fun_ok (ch_hash ch) → good (w_tracker w) →
  handle_command dbg ch km w (CmdSend value addr algo ok) = Ret (w', evs, r) → evs = pre ++ EvBroadcast t c k :: post →
  ∃ y w1, tr_replay (w_tracker w) (logged pre) = Ret y ∧ clear y t ∧ tr_cg y = tr_cg (w_tracker w) ∧
    tr_cg (w_tracker w1) = tr_cg (w_tracker w) ∧ send_finish ch w1 t c ok = Ret (w', EvBroadcast t c k :: post, r) ∧
    broadcasts pre = [] ∧ ∃ x' a, create_tx dbg ch km (w_tracker w) value addr algo = Ret (x', Ok (t, a)) ∧ c = snd <$> a.
Proof.
  intros Hho Hy E Eev. cbn [handle_command] in E. bind_in E a E1. destruct a as [[w1 evs1] r1].
  destruct r1 as [[t' change]|e].
  2:{ exfalso. injection E as <- <- <-. pose proof (prepare_silent _ _ _ _ _ _ _ _ _ _ E1) as Hs. rewrite Eev, broadcasts_app in Hs.
      apply app_nil in Hs as [_ Hs]. done. }
  destruct (prepare_state W dbg ext int km HA ch w value addr algo w1 evs1 t' change Hy E1) as (Ew1 & _ & x' & a & Ec & Ech & _).
  pose proof (create_clear _ _ _ _ _ _ _ _ Hy Hho Ec) as Hclear.
  bind_in E a2 E2. destruct a2 as [[w2 evs2] r2]. injection E as <- <- <-.
  assert (∃ evs3, evs2 = EvBroadcast t' change ok :: evs3 ∧ broadcasts evs3 = []) as (evs3 & -> & Hs3).
  { clear Eev. unfold send_finish in E2. destruct ok.
    - bind_in E2 b E3. destruct b as [[x2 cs]|e].
      + destruct (db_append _ _) as [[w3 ev] r3] eqn:Ed. injection E2 as <- <- <-. exists [ev]. split; [done|]. by eapply db_append_silent.
      + destruct e as [[]|]; [done|injection E2 as <- <- <-; by exists []..].
    - destruct change as [[kk i]|]; [bind_in E2 b E3|]; injection E2 as <- <- <-; by exists []. }
  pose proof (prepare_silent _ _ _ _ _ _ _ _ _ _ E1) as Hs1.
  assert (pre = evs1 ∧ t = t' ∧ c = change ∧ k = ok ∧ post = evs3) as (-> & -> & -> & -> & ->).
  { clear -Eev Hs1 Hs3. revert pre Eev. induction evs1 as [|ev evs1 IH]; intros pre Eev.
    - destruct pre as [|ev pre]; cbn [app] in Eev; [by injection Eev as -> -> -> ->|]. exfalso. injection Eev as _ Eev. rewrite Eev, broadcasts_app in Hs3.
      apply app_nil in Hs3 as [_ Hs3]. done.
    - destruct pre as [|ev' pre]; cbn [app] in Eev; injection Eev as Eh Eev.
      + subst ev. done.
      + subst ev'. destruct (IH) with (pre := pre) as (-> & -> & -> & -> & ->); [|done|done].
        change (ev :: evs1) with ([ev] ++ evs1) in Hs1. rewrite broadcasts_app in Hs1. by apply app_nil in Hs1 as [_ ?]. }
  unfold send_prepare in E1. bind_in E1 b E3. destruct b as [x rr].
  destruct (create_tx_shape dbg km ch _ value addr algo x rr E3) as (ix & i & sp & ad & En & -> & Hsh).
  rewrite Ec in E3. injection E3 as -> <-. destruct a as [[ad' ki]|].
  - destruct Hsh as (-> & -> & v & Hout). destruct (db_append _ _) as [[w3 ev] r3] eqn:Ed. apply db_append_disk in Ed as (_ & _ & e & ->).
    destruct (next_step W ext int HA _ _ _ i sp ad true Hy (change_known W ext int _ Hy) En) as (y' & F1 & Hy' & _ & Ecg & _).
    destruct r3 as [u|er]; [|done]. injection E1 as <- <- <-.
    destruct (replay_entry _ _ e _ Hy F1 Ecg) as (y2 & E5 & Ec2). eexists y2, _. split; [done|]. split; [unfold clear; rewrite Ec2; exact Hclear|].
    split; [done|]. split; [exact Ew1|]. split; [exact E2|]. split; [exact Hs1|by eexists _, _].
  - injection E1 as <- <- <-. eexists (w_tracker w), _. do 3 (split; [done|]). split; [exact Ew1|]. split; [exact E2|]. split; [exact Hs1|by eexists _, _].
Qed.
Lemma broadcast_in evs pre t c k post : evs = pre ++ EvBroadcast t c k :: post → broadcasts evs ≠ [].
Proof. intros ->. rewrite broadcasts_app. intros Hs. by apply app_nil in Hs as [_ Hs]. Qed.
Lemma hand_out_silent w r w' evs q : hand_out w r = Ret (w', evs, q) → broadcasts evs = [].
Proof.
  unfold hand_out. intros E. destruct r as [[ix [i sp]] ad]. destruct (db_append _ _) as [[w1 ev] r1] eqn:Ed. apply db_append_silent in Ed.
  destruct r1; [|by injection E as _ <- _]. cbn [fst snd] in E. destruct (has_address sp); [|by injection E as _ <- _]. injection E as _ <- _.
  change [ev; EvAddress External i sp] with ([ev] ++ [EvAddress (P := P) External i sp]). by rewrite broadcasts_app, Ed.
Qed.
(** Only [send] broadcasts. *)
Lemma handle_silent ch w c w' evs r : handle_command dbg ch km w c = Ret (w', evs, r) → broadcasts evs = [] ∨ ∃ value addr algo ok, c = CmdSend value addr algo ok.
Proof.
  intros E. destruct c as [c| |c|value addr algo ok|sc ord|sc ord]; cbn [handle_command] in E; [| | |right; by eauto| |]; left.
  - destruct c; cbn [run_address_cmd] in E; [bind_in E a E1; by eapply hand_out_silent|bind_in E a E1; by eapply hand_out_silent|bind_in E a E1|];
      by injection E as _ <- _.
  - bind_in E a E1. by injection E as _ <- _.
  - bind_in E a E1. by injection E as _ <- _.
  - unfold electrum_apply in E. bind_in E a E1. destruct a as [cs|]; [|by injection E as _ <- _].
    destruct (db_append _ _) as [[w1 ev] r1] eqn:Ed. apply db_append_silent in Ed. destruct r1; [bind_in E x2 E2|]; by injection E as _ <- _.
  - unfold esplora_apply in E. bind_in E a E1. destruct a as [[x2 cs]|]; [|by injection E as _ <- _].
    destruct (db_append _ _) as [[w1 ev] r1] eqn:Ed. apply db_append_silent in Ed. by injection E as _ <- _.
Qed.
Lemma broadcast_clear d e t c ok e' : lives d (e ++ EvBroadcast t c ok :: e') →
  ∃ x0 y, fresh_tracker limit ext int = Ret x0 ∧ tr_replay x0 (logged e) = Ret y ∧ clear y t.
Proof.
  remember (e ++ EvBroadcast t c ok :: e') as evs eqn:Eevs. intros Hl. revert e e' Eevs.
  induction Hl as [|d evs p b evs1 evs2 r Hlife IH Hcmd E Hev Hrd]; intros e e' Eevs; [by destruct e|].
  assert ((∃ k, evs = e ++ EvBroadcast t c ok :: k) ∨ ∃ k, e = evs ++ k ∧ evs1 = k ++ EvBroadcast t c ok :: e') as [[k ->]|(k & -> & ->)].
  { apply app_eq_inv in Eevs as [(k & Ha & Hb)|(k & Ha & Hb)]; [|right; by exists k]. destruct k as [|ev k]; cbn [app] in Hb.
    - right. exists []. by rewrite app_nil_r in *.
    - left. injection Hb as <- ->. by exists k. }
  - by eapply IH.
  - destruct (fresh_good (P := P) W limit ext int HA) as (x0 & Ex & Hx0). unfold process in E. bind_in E a Ei.
    destruct a as [b1 [w|er]]; [|injection E as _ E _; by destruct k].
    pose proof (init_tracker _ _ _ _ _ _ _ Hlife Ei Ex) as Hw. destruct (init_good wf HC Hdef W dbg limit ext int km HA _ _ _ _ _ _ Hlife Ei) as [Hg _].
    bind_in E a E2. destruct a as [[w2 evs'] r2]. injection E as _ -> _. rewrite <- app_assoc in E2. cbn [app] in E2.
    destruct (handle_silent _ _ _ _ _ _ E2) as [Hs|(value & addr & algo & ok' & Hc)]; [by apply broadcast_in with (1 := eq_refl) in Hs|]. rewrite Hc in E2.
    destruct (send_clear _ _ _ _ _ _ _ _ _ _ _ _ _ _ (proj1 Hcmd) Hg E2 eq_refl) as (y & w1 & Ey & Hy & _).
    exists x0, y. split; [done|]. rewrite logged_app, tr_replay_app, Hw. done.
Qed.

(** ** What is in the chain stays there unless an entry says otherwise *)
Lemma apply_tx_whole l : ∀ g i, is_Some (get_tx g i) → is_Some (get_tx (foldl apply_tx g l) i).
Proof.
  induction l as [|t l IH]; intros g i Hi; cbn [foldl]; [done|]. apply IH. unfold get_tx, apply_tx in *. cbn [tg_txs].
  destruct (decide (i = txid t)) as [->|]; [rewrite lookup_insert; by eexists|by rewrite lookup_insert_ne].
Qed.
Lemma additions_whole g a i : is_Some (get_tx g i) → is_Some (get_tx (apply_additions g a) i).
Proof.
  intros Hi. apply (apply_tx_whole (bset_list (ad_tx a))) in Hi. unfold get_tx in *. rewrite apply_additions_lookup.
  by destruct (tg_txs (foldl apply_tx g (bset_list (ad_tx a))) !! i) as [[t|outs]|]; [|destruct Hi as [? [=]]..].
Qed.
Lemma chain_stays l : ∀ x x' i, tr_replay x l = Ret x' → (∀ cs, cs ∈ l → ¬ drops cs i) → in_chain (tr_cg x) i → in_chain (tr_cg x') i.
Proof.
  induction l as [|cs l IH]; intros x x' i E Hd Hi; cbn [tr_replay] in E; [by injection E as <-|].
  destruct (tr_apply_changeset x cs) as [x1|] eqn:Ea; [|done]. apply (IH x1 x' i E); [intros cs' Hc; apply Hd; by right|].
  apply apply_tr_cg in Ea. unfold in_chain. rewrite Ea. cbn [cg_apply_changeset cg_chain]. rewrite apply_changeset_pos.
  destruct (cs_txids (cgs_chain (kcs_cg cs)) !! i) as [[p|]|] eqn:Ei; [by eexists| |done]. exfalso. by apply (Hd cs); [left|].
Qed.
(** What is in the chain is known in full, with the inputs of its txid. *)
Lemma chain_known y i : good y → in_chain (tr_cg y) i → ∃ a, get_tx (cg_graph (tr_cg y)) i = Some a ∧ tx_in a = W i.
Proof.
  intros Hy Hi. pose proof Hy as [(_ & _ & _ & _ & Hb & _) _]. destruct (built_ok W _ Hb) as [(_ & _ & Hc & _) HW].
  destruct (Hc i Hi) as [a Ha]. exists a. split; [done|by apply HW].
Qed.
Lemma life_event d e ev : lives d e → ev ∈ e → event_ok wf W ev.
Proof.
  induction 1 as [|d evs p b evs1 evs2 r Hlife IH Hcmd E Hev Hrd]; intros Hin; [by apply elem_of_nil in Hin|].
  apply elem_of_app in Hin as [Hin|Hin]; [by apply IH|]. rewrite Forall_forall in Hev. apply Hev, elem_of_app. by left.
Qed.
(** ** C102 *)
Lemma never_again d b y e1 e2 e3 t1 c1 ok1 t2 c2 ok2 :
  lives (Some b) e1 → opens limit ext int b y → EvBroadcast t1 c1 ok1 ∈ e1 → in_chain (tr_cg y) (ctx_txid t1) →
  lives d (e1 ++ e2 ++ EvBroadcast t2 c2 ok2 :: e3) → (∀ cs, cs ∈ logged e2 → ¬ drops cs (ctx_txid t1)) → ¬ double_spends t1 t2.
Proof.
  intros Hl1 Ho Hin Hc Hl Hd (o & Hn & Ho1 & Ho2). apply Hn. rewrite app_assoc in Hl.
  destruct (broadcast_clear _ _ _ _ _ _ Hl) as (x0 & y2 & Ex & Ey2 & Hclear).
  destruct (on_disk_ok wf HC Hdef W dbg limit ext int km HA _ _ _ _ Hl) as (b2 & y2' & Hl2 & Ho' & _).
  pose proof (opens_log _ _ _ _ Hl1 Ex Ho) as Ey1. pose proof (opens_log _ _ _ _ Hl2 Ex Ho') as Ey2'. rewrite Ey2 in Ey2'. injection Ey2' as <-.
  destruct (life_log _ _ Hl2) as (x0' & y3 & Ex' & Ey3 & Hy2). rewrite Ex in Ex'. injection Ex' as <-. rewrite Ey2 in Ey3. injection Ey3 as <-.
  rewrite logged_app, tr_replay_app, Ey1 in Ey2. pose proof (chain_stays _ _ _ _ Ey2 Hd Hc) as Hc2.
  destruct (chain_known _ _ Hy2 Hc2) as (a & Ha & HWa). apply (Hclear o (ctx_txid t1) a Ho2 Hc2 Ha). rewrite HWa.
  pose proof (life_event _ _ _ Hl1 Hin) as [_ <-]. done.
Qed.
Lemma append_logged w cs w' ev : db_append w cs = (w', ev, Ok tt) → logged [ev] = recorded [cs].
Proof.
  unfold db_append, append_changeset. intros E. injection E as _ <- E. rewrite logged_append. destruct (kcs_is_empty cs) eqn:Ee.
  - destruct (reached _ _); [done|]. unfold recorded. rewrite filter_cons, decide_False by congruence. done.
  - by destruct (default NoFault (head (w_faults w))).
Qed.
(** A transaction inserted is in the chain. *)
Lemma insert_there ho (cg : ChainGraph P) t p c : cg_ok cg → hash_order (cg_graph cg) ho → cg_insert_tx_preview ho cg t p = Ret (Ok c) →
  in_chain (cg_apply_changeset cg c) (txid t).
Proof.
  intros Hok Hho E. pose proof (insert_conflicts ho cg t p Hok Hho) as Hic.
  destruct (insert_tx_preview (cg_chain cg) (txid t) p) as [[ccs|e]|] eqn:Ei; [| |done]; [|by rewrite E in Hic].
  destruct Hic as [(e & Hic & _)|(cs & Hic & (_ & _ & _ & _ & Hkeep))]; rewrite E in Hic; [done|]. injection Hic as <-.
  unfold in_chain. cbn [cg_apply_changeset cg_chain]. rewrite apply_changeset_pos. rewrite (Hkeep (txid t)).
  - pose proof (insert_tx_preview_as_update _ _ _ _ Ei) as Eu.
    pose proof (update_result_pos (cg_chain cg) (tip_update (cg_chain cg) {[(p, txid t)]} {[txid t := p]}) [(txid t, p)] (apply_changeset (cg_chain cg) ccs) ccs (txid t) (proj1 Hok) (singleton_ord (txid t) p)) as Hr.
    rewrite apply_changeset_pos in Hr. rewrite Hr by (unfold apply_update; by rewrite Eu). cbn [sc_pos tip_update]. rewrite lookup_singleton. by eexists.
  - intros (n & t' & q & (Hn & Hni & _) & Hi & _). apply not_in_chain in Hni. destruct (insert_tx_new _ _ _ _ _ _ (proj1 Hok) Ei Hn Hni) as [-> _].
    apply not_in_chain in Hni. done.
Qed.
Lemma inserted_used ho y t p c y' hs o u ki : cg_ok (tr_cg y) → hash_order (cg_graph (tr_cg y)) ho → ki_inv A hs (tr_index y) → tx_ok t →
  cg_insert_tx_preview ho (tr_cg y) t p = Ret (Ok c) → tr_apply_changeset y (kcs_of_cg c) = Ret y' → get_tx (cg_graph (tr_cg y)) (txid t) = None →
  op_txid o = txid t → tx_out t !! N.to_nat (op_vout o) = Some u → si_index_of_spk (ki_inner (tr_index y)) (txo_spk u) = Some ki →
  si_txout (ki_inner (tr_index y')) o = Some (ki, u).
Proof.
  intros Hok Hho Hi Ht E Ea Hnew Ho Hu Hx. pose proof (insert_conflicts ho (tr_cg y) t p Hok Hho) as Hic.
  destruct (insert_tx_preview (cg_chain (tr_cg y)) (txid t) p) as [[ccs|e]|] eqn:Ei; [| |done]; [|by rewrite E in Hic].
  destruct Hic as [(e & Hic & _)|(cs & Hic & (_ & Had & _))]; rewrite E in Hic; [done|]. injection Hic as <-.
  unfold tr_apply_changeset in Ea. cbn [kcs_of_cg kcs_indices kcs_cg] in Ea. rewrite Had, one_additions in Ea by done.
  bind_in Ea i0 Eia. assert (i0 = tr_index y) as ->.
  { unfold ki_apply_additions, reveal_to_target_multi in Eia. rewrite bmap_list_empty in Eia. cbn in Eia. by injection Eia as <-. }
  bind_in Ea r Es. destruct r as [i1 ad1]. injection Ea as <-. cbn [tr_index fst]. unfold ki_scan in Es.
  match type of Es with foldl _ _ ?l = _ => destruct (scan_marks A l hs (tr_index y) ∅ i1 ad1 HA Hi) as (_ & S2 & _); [|exact Es|] end.
  { intros o' u' [Ho' Hl]%elem_enum. apply (one_tx_in_range t Ht o' u'). apply all_txouts_exact. unfold get_txout, one_tx. cbn [tg_txs].
    by rewrite Ho', lookup_singleton. }
  apply S2; [apply enum_fst_nodup|by apply elem_enum|done].
Qed.
Lemma txout_used hs (i : KIndex Keychain) o ki u : ki_inv A hs i → si_txout (ki_inner i) o = Some (ki, u) → si_is_used (ki_inner i) ki = true.
Proof.
  intros Hi Ho. destruct (si_is_used (ki_inner i) ki) eqn:Eu; [done|]. exfalso. apply (unused_no_outputs A hs i ki Hi Eu o).
  destruct (si_good_inv hs (ki_inner i) (proj1 (proj2 (proj1 Hi)))) as (_ & I2 & I3 & _). apply I2. exists u. by apply I3.
Qed.
Lemma sent_noted d evs create faults ch value addr algo b evs' : lives d evs → hash_fun_ok (ch_hash ch) →
  process dbg limit ext int km d create faults ch (CmdSend value addr algo true) = Ret (b, evs', Ok tt) → Forall (event_ok wf W) evs' →
  (reads d ∨ ∀ cs e, EvAppend cs e ∈ evs' → whole e) →
  ∃ t change y, broadcasts evs' = [t] ∧ EvBroadcast t change true ∈ evs' ∧ lives (Some b) (evs ++ evs') ∧ opens limit ext int b y ∧
    in_chain (tr_cg y) (ctx_txid t) ∧
    ∀ b0 w k i, init limit ext int d create faults = Ret (b0, Ok w) → get_tx (cg_graph (tr_cg (w_tracker w))) (ctx_txid t) = None → change = Some (k, i) →
      ∃ sp, reveals_spk y k i sp ∧ si_is_used (ki_inner (tr_index y)) (k, i) = true.
Proof.
  intros Hl Hho E Hev Hrd. pose proof E as Ep.
  assert (lives (Some (left_behind limit ext int d (mkProc create faults ch (CmdSend value addr algo true)) evs')) (evs ++ evs')) as Hl'.
  { apply (life_process wf W dbg limit ext int km d evs (mkProc create faults ch (CmdSend value addr algo true)) b evs' [] (Ok tt)); try done; by rewrite app_nil_r. }
  unfold process in E. bind_in E a Ei. destruct a as [b1 [w|er]]; [|done]. bind_in E a E2. destruct a as [[w2 evs2] r2]. injection E as <- -> ->.
  assert (left_behind limit ext int d (mkProc create faults ch (CmdSend value addr algo true)) evs' = f_bytes (w_file w2)) as Elb.
  { unfold left_behind. cbn [pr_create pr_faults]. rewrite Ei. by rewrite (handle_disk _ _ _ _ _ _ _ _ E2). }
  rewrite Elb in Hl'. destruct (init_good wf HC Hdef W dbg limit ext int km HA _ _ _ _ _ _ Hl Ei) as [Hg _].
  destruct (fresh_good (P := P) W limit ext int HA) as (x0 & Ex & Hx0). pose proof (init_tracker _ _ _ _ _ _ _ Hl Ei Ex) as Hw.
  assert (∃ pre t c k post, evs' = pre ++ EvBroadcast t c k :: post) as (pre & t & c & k & post & ->).
  { pose proof E2 as E3. cbn [handle_command] in E3. bind_in E3 a F1. destruct a as [[w1 evs1] [[t c]|e]]; [|done].
    bind_in E3 a F2. destruct a as [[w3 evs3] r3]. injection E3 as <- <- ->. unfold send_finish in F2. bind_in F2 bb F3.
    destruct bb as [[x2 cs]|e]; [|by destruct e as [[]|]]. destruct (db_append _ _) as [[w4 ev] r4]. injection F2 as <- <- ->. eauto 10. }
  destruct (send_clear _ _ _ _ _ _ _ _ _ _ _ _ _ _ Hho Hg E2 eq_refl) as (y1 & w1 & Ey1 & _ & Ecy & Ecw & Ef & Epre & _).
  unfold send_finish in Ef. bind_in Ef bb F3.
  destruct bb as [[x2 cs]|e]; [|by destruct e as [[]|]]. destruct (db_append _ _) as [[w4 ev] r4] eqn:Ed. injection Ef as <- <- <- ->.
  exists t, c. destruct (life_alive wf HC Hdef W dbg limit ext int km HA _ _ Hl') as [[He _]|(x1 & y & tt' & Ex1 & Hb & Ht & Hwf & Ey & Hy & Hall)].
  { exfalso. apply app_nil in He as [_ He]. by apply app_nil in He as [_ He]. }
  rewrite Ex in Ex1. injection Ex1 as <-. exists y. split.
  { rewrite broadcasts_app. change ([EvBroadcast t c true; ev]) with ([EvBroadcast t c true] ++ [ev]). rewrite broadcasts_app, (db_append_silent _ _ _ _ _ Ed).
    rewrite app_nil_r. cbn [broadcasts omap list_omap]. by rewrite Epre. }
  split; [apply elem_of_app; right; left|]. split; [done|]. split.
  { refine (life_opens wf HC Hdef limit ext int _ _ x0 y tt' Ex _ Ht Hwf Ey). congruence. }
  rewrite logged_app, logged_app, tr_replay_app, Hw, tr_replay_app, Ey1 in Ey.
  unfold tr_insert_tx, tr_insert_tx_preview in F3. destruct (cg_insert_tx_preview _ _ _ _) as [[c4|e]|] eqn:Ec; [|done|done].
  bind_in F3 x4 Ea. injection F3 as <- <-. rewrite Ecw in Ec.
  pose proof (insert_there _ _ _ _ _ (good_ok W ext int _ Hg) (Hho _) Ec) as Hin. rewrite <- Ecy in Hin.
  change (logged [EvBroadcast t c true; ev]) with (logged [ev]) in Ey. rewrite (append_logged _ _ _ _ Ed), replay_recorded in Ey.
  - cbn [tr_replay] in Ey. destruct (tr_apply_changeset y1 (kcs_of_cg c4)) as [y5|] eqn:E5; [|done]. injection Ey as <-.
    split; [rewrite (apply_tr_cg _ _ _ E5); exact Hin|]. intros b0 w0 k i Ei0 Hnew ->. rewrite Ei in Ei0. injection Ei0 as <- <-.
    destruct (Hall (evs ++ pre) (EvBroadcast t (Some (k, i)) true) [ev]) as (y1' & t1 & Ey1' & Hy1 & Hk & (r & v & sp & Hout & Hrev) & _).
    { by rewrite <- app_assoc. }
    rewrite logged_app, tr_replay_app, Hw, Ey1 in Ey1'. injection Ey1' as <-. exists sp. split; [by eapply (reveals_kept W ext int)|].
    destruct (good_index W ext int _ Hy) as (hs & Hi). destruct (good_index W ext int _ Hy1) as (hs1 & Hi1).
    apply Forall_app in Hev as [_ Hev]. apply Forall_cons in Hev as [[Hid _] _].
    apply (txout_used hs _ (mkOutPoint (ctx_txid t) 1) (k, i) (mkTxOut v sp) Hi). rewrite <- Ecy in Ec, Hnew.
    eapply (inserted_used _ y1 (ctx_tx t) pos_unconfirmed c4 y5 hs1); [by apply (good_ok W ext int)|apply Hho|exact Hi1| |exact Ec|exact E5|exact Hnew|done| |].
    + split; [done|]. cbn [ctx_tx tx_out]. rewrite Hout. assert (2 ≤ u32_max) by done. cbn [length]. lia.
    + cbn [ctx_tx tx_out]. by rewrite Hout.
    + cbn [txo_spk]. apply Hrev.
  - rewrite Ecy. apply Hg.
Qed.

(** ** Addresses (C103) *)
Notation ix x := (tr_index x).
Lemma replay_mono l : ∀ x x', tr_replay x l = Ret x' → mono (ki_inner (ix x)) (ki_inner (ix x')).
Proof.
  induction l as [|cs l IH]; intros x x' E; cbn [tr_replay] in E; [injection E as <-; apply mono_refl|].
  destruct (tr_apply_changeset x cs) as [x1|] eqn:Ea; [|done]. eapply mono_trans; [by eapply apply_changeset_mono|by eapply IH].
Qed.
(** What is in the file at some time and at a later one. *)
Lemma later b y e1 d e2 create faults b2 w : lives (Some b) e1 → opens limit ext int b y → lives d (e1 ++ e2) →
  init limit ext int d create faults = Ret (b2, Ok w) →
  kept (ix y) (ix (w_tracker w)) ∧ mono (ki_inner (ix y)) (ki_inner (ix (w_tracker w))) ∧ good (w_tracker w).
Proof.
  intros Hl1 Ho Hl Ei. destruct (fresh_good (P := P) W limit ext int HA) as (x0 & Ex & Hx0).
  pose proof (opens_log _ _ _ _ Hl1 Ex Ho) as Ey. pose proof (init_tracker _ _ _ _ _ _ _ Hl Ei Ex) as Ew.
  destruct (init_good wf HC Hdef W dbg limit ext int km HA _ _ _ _ _ _ Hl Ei) as [Hg _]. split; [|split; [|done]].
  - destruct e2 as [|ev e2].
    { rewrite app_nil_r, Ey in Ew. injection Ew as ->. apply kept_refl. }
    destruct (life_alive wf HC Hdef W dbg limit ext int km HA d _ Hl) as [[He _]|(x1 & y1 & t & Ex1 & _ & _ & _ & Ey1 & _ & Hall)]; [by destruct e1|].
    rewrite Ex in Ex1. injection Ex1 as <-. rewrite Ew in Ey1. injection Ey1 as <-.
    destruct (Hall e1 ev e2 eq_refl) as (y2 & t2 & Ey2 & _ & Hk & _). rewrite Ey in Ey2. injection Ey2 as <-. done.
  - rewrite logged_app, tr_replay_app, Ey in Ew. by eapply replay_mono.
Qed.
Lemma db_append_shows w cs w' ev r k i sp : db_append w cs = (w', ev, r) → EvAddress k i sp ∉ [ev].
Proof. intros E Hin. apply db_append_disk in E as (_ & _ & e & ->). by apply elem_of_list_singleton in Hin. Qed.
(** Only [address] shows an address. *)
Lemma handle_shows ch w c w' evs r : handle_command dbg ch km w c = Ret (w', evs, r) → (∀ k i sp, EvAddress k i sp ∉ evs) ∨ ∃ c', c = CmdAddress c'.
Proof.
  intros E. destruct c as [c| |c|value addr algo ok|sc ord|sc ord]; cbn [handle_command] in E; [right; by eauto| | | | |]; left; intros k i sp Hin.
  - bind_in E a E1. injection E as _ <- _. by apply elem_of_nil in Hin.
  - bind_in E a E1. injection E as _ <- _. by apply elem_of_nil in Hin.
  - bind_in E a E1. destruct a as [[w1 evs1] r1]. assert (EvAddress k i sp ∉ evs1) as Hn1.
    { unfold send_prepare in E1. bind_in E1 b E2. destruct b as [x rr]. destruct rr as [[t [[ad ki]|]]|e].
      - destruct (db_append _ _) as [[w2 ev] r2] eqn:Ed. destruct r2; injection E1 as _ <- _; by eapply db_append_shows.
      - injection E1 as _ <- _. by intros ?%elem_of_nil.
      - injection E1 as _ <- _. by intros ?%elem_of_nil. }
    destruct r1 as [[t change]|e]; [|injection E as _ <- _; by apply Hn1]. bind_in E a E2. destruct a as [[w2 evs2] r2]. injection E as _ <- _.
    apply elem_of_app in Hin as [Hin|Hin]; [by apply Hn1|]. clear E1 Hn1. unfold send_finish in E2. destruct ok.
    + bind_in E2 b E3. destruct b as [[x2 cs]|e].
      * destruct (db_append _ _) as [[w3 ev] r3] eqn:Ed. injection E2 as _ <- _. apply elem_of_cons in Hin as [|Hin]; [done|].
        by apply (db_append_shows _ _ _ _ _ k i sp Ed).
      * destruct e as [[]|]; [done|injection E2 as _ <- _; by apply elem_of_list_singleton in Hin..].
    + destruct change as [[k' i']|]; [bind_in E2 b E3|]; injection E2 as _ <- _; by apply elem_of_list_singleton in Hin.
  - unfold electrum_apply in E. bind_in E a E1. destruct a as [cs|]; [|injection E as _ <- _; by apply elem_of_nil in Hin].
    destruct (db_append _ _) as [[w1 ev] r1] eqn:Ed. apply (db_append_shows _ _ _ _ _ k i sp) in Ed. destruct r1; [bind_in E x2 E2|]; injection E as _ <- _; by apply Ed.
  - unfold esplora_apply in E. bind_in E a E1. destruct a as [[x2 cs]|]; [|injection E as _ <- _; by apply elem_of_nil in Hin].
    destruct (db_append _ _) as [[w1 ev] r1] eqn:Ed. apply (db_append_shows _ _ _ _ _ k i sp) in Ed. injection E as _ <- _; by apply Ed.
Qed.
Lemma not_again b y e1 d e2 create faults b2 w ch c b' evs r k i sp : lives (Some b) e1 → opens limit ext int b y →
  reveals_spk y k i sp → si_is_used (ki_inner (ix y)) (k, i) = true → lives d (e1 ++ e2) →
  init limit ext int d create faults = Ret (b2, Ok w) → (∀ k d, A k = Some d → n_revealed (ix (w_tracker w)) k < cap d) →
  process dbg limit ext int km d create faults ch c = Ret (b', evs, r) → hash_fun_ok (ch_hash ch) →
  (∀ t ok, EvBroadcast t (Some (k, i)) ok ∉ evs) ∧ ∀ sp, EvAddress k i sp ∉ evs.
Proof.
  intros Hl1 Ho (Hlt & Hsp & Hix) Hu Hl Ei Hf E Hho. destruct (later _ _ _ _ _ _ _ _ _ Hl1 Ho Hl Ei) as ([Hk1 _] & Hm & Hg).
  destruct (Hm (k, i) sp Hsp) as [_ Hu']. specialize (Hu' Hu). assert (i < n_revealed (ix (w_tracker w)) k) as Hlt' by (specialize (Hk1 k); lia).
  unfold process in E. rewrite Ei in E. cbn [mbind outcome_bind] in E. bind_in E a E1. destruct a as [[w' evs'] r']. injection E as <- <- <-.
  assert (∃ dd, A k = Some dd) as [dd Hdd].
  { destruct (good_index W ext int _ Hg) as (hs & Hi). destruct (ki_keychains (ix (w_tracker w)) !! k) as [dd|] eqn:Ek; [exists dd; by apply (proj1 (proj1 Hi))|].
    exfalso. destruct (proj1 Hi) as (_ & _ & C3 & _). destruct (Hm (k, i) sp Hsp) as [Hsp' _]. destruct (C3 _ _ _ Hsp') as (dd & Hdd & _). congruence. }
  split.
  - intros t ok Hin. apply elem_of_list_split in Hin as (pre & post & Hev).
    destruct (handle_silent _ _ _ _ _ _ E1) as [Hs|(value & addr & algo & ok' & ->)]; [by apply broadcast_in in Hev|].
    destruct (send_clear _ _ _ _ _ _ _ _ _ _ _ _ _ _ Hho Hg E1 Hev) as (y1 & w1 & _ & _ & _ & _ & _ & _ & x' & a & Ec & Ech).
    by apply (used_change W dbg ext int km HA ch (w_tracker w) value addr algo x' t a k dd i Hg Hdd (Hf k dd Hdd) Hu' Hlt' Ec).
  - intros sp' Hin. destruct (handle_shows _ _ _ _ _ _ E1) as [Hs|(c' & ->)]; [by apply Hs in Hin|].
    by apply (used_address W ext int HA w c' w' evs' r' k dd i Hg Hdd (Hf k dd Hdd) Hu' Hlt' E1 sp').
Qed.
Lemma new_above d evs create faults b2 w ch b' evs' r k i sp : lives d evs → init limit ext int d create faults = Ret (b2, Ok w) →
  n_revealed (ix (w_tracker w)) External < cap ext → process dbg limit ext int km d create faults ch (CmdAddress AddrNew) = Ret (b', evs', r) →
  EvAddress k i sp ∈ evs' → k = External ∧ ∀ j sp', given_away evs External j sp' → j < i.
Proof.
  intros Hl Ei Hf E Hin. unfold process in E. rewrite Ei in E. cbn [mbind outcome_bind] in E. bind_in E a E1. destruct a as [[w' evs0] r']. injection E as <- <- <-.
  destruct (init_good wf HC Hdef W dbg limit ext int km HA _ _ _ _ _ _ Hl Ei) as [Hg _].
  cbn [handle_command run_address_cmd] in E1. bind_in E1 a E2. destruct a as [[ix1 [i1 sp1]] ad].
  destruct (good_known W ext int _ External ext Hg eq_refl) as (hs & Hi & Hd).
  destruct (tr_next A hs _ External ext HA Hi Hd) as (x2 & hs2 & i2 & s2 & ad2 & E3 & _ & _ & _ & _ & _ & Hif). rewrite E2 in E3. injection E3 as <- <- <- <-.
  rewrite bool_decide_true in Hif by done. destruct Hif as (Hi1 & _).
  assert (k = External ∧ i = i1) as [-> ->].
  { unfold hand_out in E1. destruct (db_append _ _) as [[w2 ev] r2] eqn:Ed. pose proof (db_append_shows _ _ _ _ _ k i sp Ed) as Hs.
    cbn [fst snd] in E1. destruct r2; [destruct (has_address sp1)|]; injection E1 as _ <- _; [|done|done].
    apply elem_of_cons in Hin as [Hin|Hin]; [exfalso; apply Hs; rewrite Hin; by left|]. apply elem_of_list_singleton in Hin. by injection Hin as -> -> _. }
  split; [done|]. intros j sp' Hga. rewrite Hi1.
  destruct d as [b|].
  - destruct (durable_ok wf HC Hdef W dbg limit ext int km HA b evs _ _ _ Hl Hga) as (y & Ho & Hr & _). destruct (Ho create faults) as [f Hff]. rewrite Ei in Hff. injection Hff as _ ->. exact Hr.
  - exfalso. assert (evs = []) as -> by (by inversion Hl). destruct Hga as [Hin'|(? & ? & ? & ? & Hin' & _)]; by apply elem_of_nil in Hin'.
Qed.
End send.
