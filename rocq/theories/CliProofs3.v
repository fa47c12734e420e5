(** Proofs about the command line wallet: sessions are histories of tracker calls. *)
From Verif Require Export CliProofs2.
Local Open Scope N_scope.

Section session.
Context `{!DescEnv, !CliEnv, !PlanModel.KeyEnv} `{ChainPositionLaws P} {C : Codec (KChangeSet Keychain P)}.
Context (wf : KChangeSet Keychain P → Prop) (HC : codec_ok C wf) (Hdef : wf kcs_default).
Context (W : Txid → list OutPoint) (dbg : bool) (limit : nat) (ext : Desc) (int : option Desc) (km : PlanModel.KeyMap).
Notation A := (keychains ext int).
Notation s := (adds ext int).
Context (HA : good_env A).
Implicit Types (x y z : Tracker Keychain P) (w : World P) (ch : Choices P) (evs : list (event P)).
Implicit Types (h : list (tr_op Keychain P)) (pr : prepared).
Notation good := (good W ext int).

Definition quiet (op : tr_op Keychain P) : Prop := ¬ offers_outputs op ∧ ¬ sets_limit op.
(** [x'] is reached from [x] by calls as they are allowed. *)
Definition steps x x' : Prop :=
  ∃ h l, Forall (tr_op_ok A W s) h ∧ Forall quiet h ∧ tr_run x h = Ret (x', l).
Lemma steps_refl x : steps x x.
Proof. by exists [], []. Qed.
Lemma run_app h h' : ∀ x y z l l', tr_run x h = Ret (y, l) → tr_run y h' = Ret (z, l') → tr_run x (h ++ h') = Ret (z, l ++ l').
Proof.
  induction h as [|op h IH]; intros x y z l l' E E'; cbn [tr_run app] in *; [by injection E as -> <-|].
  destruct (tr_step x op) as [[x1 l1]|]; [|done]. destruct (tr_run x1 h) as [[x2 l2]|] eqn:E2; [|done]. injection E as -> <-.
  by rewrite (IH x1 y z l2 l' E2 E'), (assoc_L (++)).
Qed.
Lemma steps_trans x y z : steps x y → steps y z → steps x z.
Proof.
  intros (h & l & A1 & A2 & A3) (h' & l' & B1 & B2 & B3). exists (h ++ h'), (l ++ l').
  split; [by apply Forall_app|]. split; [by apply Forall_app|]. by eapply run_app.
Qed.
Lemma steps_one x op x' l : tr_op_ok A W s op → quiet op → tr_step x op = Ret (x', l) → steps x x'.
Proof. intros H1' H2' E. exists [op], (l ++ []). split; [by constructor|]. split; [by constructor|]. cbn [tr_run]. by rewrite E. Qed.
Lemma index_quiet op : (∀ l, op ≠ KiScan l) → quiet (TrIndex op).
Proof. intros Hn. split; [intros [l [= E]]; by apply (Hn l)|by intros [l [=]]]. Qed.
Lemma steps_next x k ix i sp ad (nu : bool) : known s k →
  (if nu then next_unused_spk (tr_index x) k else reveal_next_spk (tr_index x) k) = Ret (ix, (i, sp), ad) →
  steps x (with_index x ix).
Proof.
  intros Hk E. eapply (steps_one _ (TrIndex (if nu then KiNextUnused k else KiNext k))).
  - by destruct nu.
  - apply index_quiet. by destruct nu.
  - cbn [tr_step]. destruct nu; cbn [ki_step]; by rewrite E.
Qed.
Lemma steps_good x x' : good x → steps x x' → good x' ∧ kept (tr_index x) (tr_index x').
Proof.
  intros [Ht Hw] (h & l & Hh & Hq & E).
  destruct (twins_run A W s h x x HA Ht Hh) as (x1 & l1 & y & E1 & _ & Ht' & _ & Hct & Hk). rewrite E in E1. injection E1 as <- <-.
  destruct (Hct ltac:(eapply Forall_impl; [exact Hq|by intros op []]) eq_refl Hw) as [_ Hw']. split; [|done]. split; [|done].
  destruct Ht' as ((hs1 & I1) & _ & _ & Hkn & Hb & _). by eapply twins_refl.
Qed.
Lemma good_ok x : good x → cg_ok (tr_cg x).
Proof. intros [(_ & _ & _ & _ & Hb & _) _]. by apply (built_ok W). Qed.

Lemma hand_out_steps w (nu : bool) a w' evs r : good (w_tracker w) →
  (if nu then next_unused_spk (tr_index (w_tracker w)) External else reveal_next_spk (tr_index (w_tracker w)) External) = Ret a →
  hand_out w a = Ret (w', evs, r) → steps (w_tracker w) (w_tracker w').
Proof.
  intros Hy E Eh. destruct a as [[ix [i sp]] ad]. unfold hand_out in Eh. destruct (db_append _ _) as [[w1 ev] r1] eqn:Ed.
  apply db_append_disk in Ed as (_ & Ed & _).
  assert (w_tracker w' = with_index (w_tracker w) ix) as ->.
  { cbn [fst snd] in Eh. destruct r1 as [[]|er]; [destruct (has_address sp)|]; injection Eh as <- _ _; by rewrite Ed. }
  eapply (steps_next _ External); [|exact E]. apply known_adds. by eexists.
Qed.
Lemma update_steps ch x sc ord cs x' : command_ok A W s ch (CmdElectrum sc ord) →
  tr_determine_changeset (ch_hash ch (cg_graph (tr_cg x))) x sc ord = Ret (Ok cs) → tr_apply_changeset x cs = Ret x' → steps x x'.
Proof.
  intros [Hho Hop] E E'. eapply (steps_one _ (TrUpdate (ch_hash ch) sc ord)); [done| |].
  - split; by intros [l [=]].
  - cbn [tr_step]. unfold tr_apply_update. rewrite E. cbn [mbind outcome_bind]. by rewrite E'.
Qed.
Lemma prepare_steps ch w value addr algo w' evs r : good (w_tracker w) →
  send_prepare dbg ch km w value addr algo = Ret (w', evs, r) → steps (w_tracker w) (w_tracker w') ∧
  ∀ t change, r = Ok (t, change) → (length (ct_out t) ≤ 2)%nat.
Proof.
  intros Hy E. unfold send_prepare in E. bind_in E a E1. destruct a as [x rr].
  destruct (create_tx_shape dbg km ch _ value addr algo x rr E1) as (ix & i & sp & ad & En & -> & Hsh).
  pose proof (steps_next _ _ ix i sp ad true (change_known W ext int _ Hy) En) as Hs.
  destruct rr as [[t [[ad' ki]|]]|e].
  - destruct Hsh as (_ & _ & v & Ho). destruct (db_append _ _) as [[w1 ev] r1] eqn:Ed. apply db_append_disk in Ed as (_ & Ed & _). cbn [with_tracker w_tracker] in Ed.
    destruct r1 as [u|e]; injection E as <- <- <-.
    + split; [|intros t' c' [= <- <-]; by rewrite Ho].
      eapply steps_trans; [exact Hs|]. cbn [with_tracker w_tracker]. rewrite Ed.
      eapply (steps_one _ (TrIndex (KiMark ki.1 ki.2))); [done|by apply index_quiet|done].
    + rewrite Ed. by split.
  - injection E as <- <- <-. split; [done|]. intros t' c' [= <- <-]. rewrite Hsh. cbn. lia.
  - injection E as <- <- <-. by split.
Qed.
Lemma finish_steps ch w t change ok w' evs r : hash_fun_ok (ch_hash ch) → good (w_tracker w) → (length (ct_out t) ≤ 2)%nat →
  Forall (event_ok wf W) evs → send_finish ch w t change ok = Ret (w', evs, r) → steps (w_tracker w) (w_tracker w').
Proof.
  intros Hho Hy Hlen Hev E. unfold send_finish in E. destruct ok.
  - bind_in E a E1. destruct a as [[x cs]|e].
    + destruct (db_append _ _) as [[w1 ev] r1] eqn:Ed. injection E as <- <- _. apply db_append_disk in Ed as (_ & Ed & _).
      apply Forall_cons in Hev as [[Hid Hin] _]. rewrite Ed. cbn [with_tracker w_tracker].
      eapply (steps_one _ (TrTx (ch_hash ch) (ctx_tx t) pos_unconfirmed)).
      * split; [done|]. split; [|split; [by apply pos_max_ok|exact Hin]].
        split; [done|]. cbn [ctx_tx tx_out]. assert (2 ≤ u32_max) by done. lia.
      * split; by intros [l [=]].
      * cbn [tr_step]. by rewrite E1.
    + destruct e as [[]|]; [done|injection E as <- _ _; apply steps_refl..].
  - destruct change as [[k i]|]; [|injection E as <- _ _; apply steps_refl]. bind_in E a E1. injection E as <- _ _.
    eapply (steps_one _ (TrIndex (KiUnmark k i))); [done|by apply index_quiet|]. cbn [tr_step ki_step]. by rewrite E1.
Qed.
Lemma handle_steps ch w c w' evs r : command_ok A W s ch c → good (w_tracker w) → Forall (event_ok wf W) evs →
  handle_command dbg ch km w c = Ret (w', evs, r) → steps (w_tracker w) (w_tracker w').
Proof.
  intros Hc Hy Hev E. destruct c as [c| |c|value addr algo ok|sc ord|sc ord]; cbn [handle_command] in E.
  - destruct c; cbn [run_address_cmd] in E.
    + bind_in E a E1. by eapply (hand_out_steps w true a).
    + bind_in E a E1. by eapply (hand_out_steps w false a).
    + bind_in E a E1. injection E as <- _ _. apply steps_refl.
    + injection E as <- _ _. apply steps_refl.
  - bind_in E a E1. injection E as <- _ _. apply steps_refl.
  - bind_in E a E1. injection E as <- _ _. apply steps_refl.
  - bind_in E a E1. destruct a as [[w1 evs1] r1]. destruct (prepare_steps ch w value addr algo w1 evs1 r1 Hy E1) as [Hs Hl].
    destruct r1 as [[t change]|e]; [|by injection E as <- _ _].
    bind_in E a E2. destruct a as [[w2 evs2] r2]. injection E as <- <- <-. apply Forall_app in Hev as [_ Hev].
    eapply steps_trans; [exact Hs|]. eapply finish_steps; try done; [apply Hc|by apply (steps_good _ _ Hy Hs)|by eapply Hl].
  - unfold electrum_apply in E. bind_in E a E1. destruct a as [cs|e]; [|injection E as <- _ _; apply steps_refl].
    destruct (db_append _ _) as [[w1 ev] r1] eqn:Ed. apply db_append_disk in Ed as (_ & Ed & _).
    destruct r1; [bind_in E a2 E2|]; injection E as <- _ _.
    + rewrite Ed in E2. by eapply update_steps.
    + rewrite Ed. apply steps_refl.
  - unfold esplora_apply in E. bind_in E a E1. destruct a as [[x cs]|e]; [|injection E as <- _ _; apply steps_refl].
    destruct (db_append _ _) as [[w1 ev] r1] eqn:Ed. apply db_append_disk in Ed as (_ & Ed & _). injection E as <- _ _. rewrite Ed.
    unfold tr_apply_update in E1. destruct (tr_determine_changeset _ _ _ _) as [[cs'|e]|] eqn:E2; [|done|done].
    cbn [mbind outcome_bind] in E1. bind_in E1 a3 E3. injection E1 as -> <-. eapply update_steps; [exact Hc|exact E2|exact E3].
Qed.
Definition small pr : Prop := Forall (λ tc : Ctx * option (Keychain * N), (length (ct_out tc.1) ≤ 2)%nat) pr.
Lemma act_steps ch a w pr w' pr' evs : action_ok A W s ch a → good (w_tracker w) → small pr → Forall (event_ok wf W) evs →
  act dbg km (w, pr) ch a = Ret (w', pr', evs) → steps (w_tracker w) (w_tracker w') ∧ small pr'.
Proof.
  intros [Hho Hok] Hy Hpr Hev E. destruct a as [c|value addr algo|n ok]; cbn [act fst snd] in E.
  - bind_in E a E1. destruct a as [[w1 evs1] r1]. injection E as <- <- <-. split; [by eapply handle_steps|done].
  - bind_in E a E1. destruct a as [[w1 evs1] r1]. injection E as <- <- <-.
    destruct (prepare_steps ch w value addr algo w1 evs1 r1 Hy E1) as [Hs Hl]. split; [done|].
    apply Forall_app. split; [done|]. destruct r1 as [[t change]|e]; [|done]. apply Forall_singleton. by eapply Hl.
  - destruct (pr !! n) as [[t change]|] eqn:En; [|injection E as <- <- <-; split; [apply steps_refl|done]].
    bind_in E a E1. destruct a as [[w1 evs1] r1]. injection E as <- <- <-. split; [|done].
    eapply finish_steps; try done. by apply (proj1 (Forall_lookup _ _) Hpr n _ En).
Qed.
Lemma acts_steps l : ∀ w pr w' pr' evs, Forall (λ p, action_ok A W s p.1 p.2) l → good (w_tracker w) → small pr → Forall (event_ok wf W) evs →
  acts dbg km (w, pr) l = Ret (w', pr', evs) → steps (w_tracker w) (w_tracker w') ∧ small pr'.
Proof.
  induction l as [|[ch a] l IH]; intros w pr w' pr' evs Hl Hy Hpr Hev E; cbn [acts] in E.
  - injection E as <- <- <-. split; [apply steps_refl|done].
  - apply Forall_cons in Hl as [Ha Hl]. bind_in E r E1. destruct r as [[w1 pr1] evs1]. bind_in E r E2. destruct r as [[w2 pr2] evs2].
    injection E as <- <- <-. apply Forall_app in Hev as [Hev1 Hev2]. cbn [fst snd] in Ha.
    destruct (act_steps ch a w pr w1 pr1 evs1 Ha Hy Hpr Hev1 E1) as [Hs Hpr1].
    destruct (IH w1 pr1 w2 pr2 evs2 Hl) as [Hs2 Hpr2]; try done; [by apply (steps_good _ _ Hy Hs)|].
    split; [by eapply steps_trans|done].
Qed.

(** ** Opening *)
Lemma init_good d evs create faults b w : life wf W dbg limit ext int km d evs → init limit ext int d create faults = Ret (b, Ok w) →
  good (w_tracker w) ∧ w_faults w = faults ∧ ∃ t, at_end wf (w_file w) (logged evs) t.
Proof.
  intros Hl Ei. destruct (life_alive wf HC Hdef W dbg limit ext int km HA d evs Hl)
    as [[-> [->|(b0 & -> & Hbr)]]|(x0 & y & t & Ex & -> & Ht & Hw & Ey & Hy & _)].
  - destruct (fresh_good (P := P) W limit ext int HA) as (x0 & Ex & Hx0). unfold init in Ei. rewrite Ex in Ei. cbn [mbind outcome_bind] in Ei.
    destruct create as [j|]; [done|].
    assert (fs_new_from_path None None = (magic, Ok (mkFile magic (length magic)))) as Hn by done. rewrite Hn in Ei.
    rewrite (load_ok wf HC Hdef (mkFile magic (length magic)) [] [] x0) in Ei; [|done|by left|constructor]. cbn [tr_replay mbind outcome_bind] in Ei.
    injection Ei as <- <-. split; [done|]. split; [done|]. exists []. split; [done|]. split; [done|by left].
  - unfold init in Ei. bind_in Ei x0 Ex. rewrite Hbr in Ei. done.
  - rewrite (init_log wf HC Hdef limit ext int (logged evs) t x0 y create faults Ht Hw Ex Ey) in Ei. injection Ei as <- <-.
    split; [done|]. split; [done|]. by exists t.
Qed.
Lemma session_good w pr evs : in_session wf W dbg limit ext int km w pr evs → good (w_tracker w) ∧ small pr.
Proof.
  intros (d & evs0 & create & faults & b & w0 & l & Hl & Hi & Hok & E & Hev).
  destruct (init_good d evs0 create faults b w0 Hl Hi) as [Hg _].
  destruct (acts_steps l w0 [] w pr evs Hok Hg) as [Hs Hpr]; try done; [constructor|].
  split; [by apply (steps_good _ _ Hg Hs)|done].
Qed.
Lemma acts_snoc ch a l : ∀ st st1 st2 evs evs', acts dbg km st l = Ret (st1, evs) → act dbg km st1 ch a = Ret (st2, evs') →
  acts dbg km st (l ++ [(ch, a)]) = Ret (st2, evs ++ evs').
Proof.
  induction l as [|[ch1 a1] l IH]; intros st st1 st2 evs evs' E Ea; cbn [acts app] in *.
  - injection E as -> <-. rewrite Ea. cbn. by rewrite app_nil_r.
  - bind_in E r E1. destruct r as [st3 e1]. bind_in E r E2. destruct r as [st4 e2]. injection E as -> <-.
    rewrite E1. cbn [mbind outcome_bind]. rewrite (IH _ _ _ _ _ E2 Ea). cbn [mbind outcome_bind]. by rewrite (assoc_L (++)).
Qed.
(** Each call of the session is one on such a wallet. *)
Lemma session_snoc w pr evs ch a w' pr' evs' : in_session wf W dbg limit ext int km w pr evs → action_ok A W s ch a →
  act dbg km (w, pr) ch a = Ret (w', pr', evs') → Forall (event_ok wf W) evs' → in_session wf W dbg limit ext int km w' pr' (evs ++ evs').
Proof.
  intros (d & evs0 & create & faults & b & w0 & l & Hl & Hi & Hok & E & Hev) Ha Ea Hev'.
  exists d, evs0, create, faults, b, w0, (l ++ [(ch, a)]). split; [done|]. split; [done|].
  split; [apply Forall_app; split; [done|by apply Forall_singleton]|]. split; [|by apply Forall_app].
  by eapply acts_snoc.
Qed.
End session.
