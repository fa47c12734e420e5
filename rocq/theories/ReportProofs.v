(** Proofs about what the command line wallet reports (C89, C116). *)
From Verif Require Export ReportSpec CliProofs8 CliSendProofs.
Local Open Scope N_scope.

(** ** The flags of a sync *)
Lemma flags_all f : sf_all (sync_flags f) = true ↔ sf_all f = true.
Proof. destruct f as [[] [] [] []]; cbn; naive_solver. Qed.
Lemma flags_unused f : sf_all (sync_flags f) = true ∨ sf_unused (sync_flags f) = true ↔ sf_all f = true ∨ sf_unused f = true ∨ no_flags f.
Proof. unfold no_flags. destruct f as [[] [] [] []]; cbn; naive_solver. Qed.
Lemma flags_unconfirmed f : sf_unconfirmed (sync_flags f) = true ↔ sf_unconfirmed f = true ∨ no_flags f.
Proof. unfold no_flags. destruct f as [[] [] [] []]; cbn; naive_solver. Qed.
Lemma flags_utxos f : sf_utxos (sync_flags f) = true ↔ sf_utxos f = true ∨ no_flags f.
Proof. unfold no_flags. destruct f as [[] [] [] []]; cbn; naive_solver. Qed.

Section report.
Context `{!DescEnv, !CliEnv, !PlanModel.KeyEnv} `{ChainPositionLaws P} {C : Codec (KChangeSet Keychain P)}.
Implicit Types (x : Tracker Keychain P) (w : World P) (ch : Choices P) (evs : list (event P)).

(** ** The store *)
Definition failed evs : Prop := ∃ cs e, EvAppend cs e ∈ evs ∧ store_fails cs e.
Definition refused evs : Prop := ∃ t change, EvBroadcast t change false ∈ evs.
Lemma is_empty_iff (cs : KChangeSet Keychain P) : kcs_is_empty cs = true ↔ cs = kcs_default.
Proof. split; [apply is_empty_default|intros ->; done]. Qed.
Lemma append_fails f (cs : KChangeSet Keychain P) e : match (append_changeset f cs e).2 with Ok _ => ¬ store_fails cs e | Err _ => store_fails cs e end.
Proof.
  unfold append_changeset, store_fails. destruct (kcs_is_empty cs) eqn:Ee.
  { apply is_empty_iff in Ee. cbn. tauto. }
  assert (cs ≠ kcs_default) as Hn. { intros Hc. apply is_empty_iff in Hc. congruence. }
  destruct e as [|j| |]; cbn [snd]; try tauto.
  - rewrite andb_false_r. cbn. tauto.
  - rewrite andb_true_r. unfold da_is_empty. case_bool_decide as Hd; cbn; [|tauto]. intros [_ Hc]. done.
Qed.
Lemma failed_one cs e : failed [EvAppend cs e] ↔ store_fails cs e.
Proof. split; [|intros Hs; exists cs, e; split; [by left|done]]. intros (cs' & e' & Hin & Hs). apply elem_of_list_singleton in Hin. by injection Hin as -> ->. Qed.
Lemma failed_nil : ¬ failed [].
Proof. by intros (cs & e & Hin%elem_of_nil & _). Qed.
Lemma failed_app evs evs' : failed (evs ++ evs') ↔ failed evs ∨ failed evs'.
Proof. unfold failed. setoid_rewrite elem_of_app. naive_solver. Qed.
Lemma failed_other ev evs : (∀ cs e, ev ≠ EvAppend cs e) → failed (ev :: evs) ↔ failed evs.
Proof. intros Hn. unfold failed. setoid_rewrite elem_of_cons. naive_solver. Qed.
Lemma refused_nil : ¬ refused [].
Proof. by intros (cs & e & Hin%elem_of_nil). Qed.
Lemma refused_app evs evs' : refused (evs ++ evs') ↔ refused evs ∨ refused evs'.
Proof. unfold refused. setoid_rewrite elem_of_app. naive_solver. Qed.
Lemma refused_other ev evs : (∀ t c, ev ≠ EvBroadcast t c false) → refused (ev :: evs) ↔ refused evs.
Proof. intros Hn. unfold refused. setoid_rewrite elem_of_cons. naive_solver. Qed.
Lemma db_append_failed w cs w' ev r : db_append w cs = (w', ev, r) →
  (∃ e, ev = EvAppend cs e) ∧ match r with Ok _ => ¬ failed [ev] | Err e => e = EStore ∧ failed [ev] end.
Proof.
  unfold db_append. set (e := default NoFault _). pose proof (append_fails (w_file w) cs e) as Ha. intros [= <- <- <-]. split; [by eexists|].
  destruct (append_changeset _ _ _).2; rewrite failed_one; done.
Qed.
Lemma sign_inputs_err km t prevouts (l : list (PlanModel.Plan PlanModel.DescKey)) : ∀ i e, sign_inputs km t prevouts i l = Ret (Err e) → e ≠ EStore ∧ e ≠ EBroadcast.
Proof.
  induction l as [|p l IH]; intros i e E; [done|]. cbn [sign_inputs] in E. bind_in E rq E1.
  destruct (PlanModel.requires_hash_preimages rq); [done|]. bind_in E s E2. destruct (s.1) as [[|]|e']; [|done|by injection E as <-].
  bind_in E st E3. destruct st as [wit|]; [|by injection E as <-]. bind_in E r E4. destruct r as [ws|e']; injection E as E; [done|]. subst e'. by eapply IH.
Qed.
Lemma create_tx_err dbg km ch x value addr algo x' e : create_tx dbg ch km x value addr algo = Ret (x', Err e) → e ≠ EStore ∧ e ≠ EBroadcast.
Proof.
  unfold create_tx. intros E. bind_in E cands E1. bind_in E wvs E2. bind_in E a E3. destruct a as [[ix [i sp]] ad].
  cbn [fst snd] in E. destruct (ki_keychains ix !! change_keychain x) as [d|]; [|done].
  bind_in E cp E4. destruct cp as [cp|]; [|done]. bind_in E cw E5. bind_in E o E6. bind_in E sl E7.
  destruct sl as [sl|e0]; [|by injection E as _ <-].
  bind_in E es E8. destruct es as [ek es]. bind_in E sel E9. bind_in E ws E10.
  destruct ws as [ws|e0]; injection E as _ E; [done|]. subst e0. by eapply sign_inputs_err.
Qed.

Lemma append_refused cs e evs : refused (EvAppend cs e :: evs) ↔ refused evs.
Proof. by apply refused_other. Qed.
Definition told {X} evs (r : result X CliError) : Prop :=
  match r with Ok _ => ¬ failed evs ∧ ¬ refused evs | Err e => (e = EStore ↔ failed evs) ∧ (e = EBroadcast ↔ refused evs) end.
Lemma told_none {X} (e : CliError) : e ≠ EStore → e ≠ EBroadcast → told (X := X) [] (Err e).
Proof. intros Hn1 Hn2. pose proof failed_nil. pose proof refused_nil. cbn. tauto. Qed.
Lemma told_nil {X} (a : X) : told [] (Ok a).
Proof. split; [apply failed_nil|apply refused_nil]. Qed.
Lemma told_append w cs w' ev r : db_append w cs = (w', ev, r) → told [ev] r ∧ ¬ refused [ev].
Proof.
  intros E. destruct (db_append_failed _ _ _ _ _ E) as [[e ->] Hr]. assert (¬ refused [EvAppend cs e]) as Hn by (rewrite append_refused; apply refused_nil).
  split; [|done]. destruct r as [u|er]; cbn; [done|]. destruct Hr as [-> Hf]. split; [tauto|]. split; [done|tauto].
Qed.
Lemma told_hand_out w a w' evs r : hand_out w a = Ret (w', evs, r) → told evs r.
Proof.
  destruct a as [[ix is] ad]. unfold hand_out. destruct (db_append _ _) as [[w1 ev] r1] eqn:Ed. destruct (told_append _ _ _ _ _ Ed) as [Ht Hn].
  destruct r1 as [u|e]; [|by intros [= <- <- <-]]. cbn in Ht. destruct (has_address _); intros [= <- <- <-].
  - match goal with |- told [ev; ?b] _ => change [ev; b] with ([ev] ++ [b]); pose proof (failed_other b [] ltac:(done)); pose proof (refused_other b [] ltac:(done)) end.
    cbn [told]. rewrite failed_app, refused_app. pose proof failed_nil. pose proof refused_nil. tauto.
  - cbn. naive_solver.
Qed.
Lemma told_command dbg km ch w c w' evs r : handle_command dbg ch km w c = Ret (w', evs, r) → told evs r.
Proof.
  intros E. destruct c as [c| |c|value addr algo ok|sc ord|sc ord]; cbn [handle_command] in E.
  - destruct c as [| |change|]; cbn [run_address_cmd] in E.
    + bind_in E a Ea. by eapply told_hand_out.
    + bind_in E a Ea. by eapply told_hand_out.
    + bind_in E a Ea. injection E as <- <- <-. apply told_nil.
    + injection E as <- <- <-. apply told_nil.
  - bind_in E a Ea. injection E as <- <- <-. apply told_nil.
  - bind_in E a Ea. injection E as <- <- <-. apply told_nil.
  - bind_in E a Ea. destruct a as [[w1 evs1] r1]. unfold send_prepare in Ea. bind_in Ea b Eb. destruct b as [x1 rb].
    assert (match r1 with Err _ => told evs1 r1 | Ok _ => ¬ failed evs1 ∧ ¬ refused evs1 end) as Hp1.
    { destruct rb as [[t [[ad ki]|]]|e].
      - destruct (db_append _ _) as [[w2 ev] r2] eqn:Ed. destruct (told_append _ _ _ _ _ Ed) as [Ht Hn].
        destruct r2 as [u|e2]; injection Ea as <- <- <-; done.
      - injection Ea as <- <- <-. apply (told_nil tt).
      - injection Ea as <- <- <-. destruct (create_tx_err _ _ _ _ _ _ _ _ _ Eb). by apply told_none. }
    clear Ea. destruct r1 as [[t change]|e]; [|by injection E as <- <- <-]. bind_in E b E2. destruct b as [[w2 evs2] r2]. injection E as <- <- <-.
    enough (told evs2 r2) as Hp2. { destruct r2 as [u|e]; cbn in *; rewrite failed_app, refused_app; tauto. }
    clear -E2. unfold send_finish in E2. destruct ok.
    + bind_in E2 b Eb. destruct b as [[x1 cs]|e].
      * destruct (db_append _ _) as [[w3 ev] r3] eqn:Ed. injection E2 as <- <- <-. destruct (told_append _ _ _ _ _ Ed) as [Ht Hn].
        destruct r3 as [u|e]; cbn in *; rewrite failed_other, refused_other by done; done.
      * pose proof failed_nil. pose proof refused_nil.
        destruct e as [[]|]; try done; injection E2 as <- <- <-; cbn; rewrite failed_other, refused_other by done; naive_solver.
    + assert (told [EvBroadcast t change false] (Err (A := unit) EBroadcast)) as Hb.
      { cbn. rewrite failed_other by done. split; [split; [done|]; intros Hf; by destruct (failed_nil Hf)|]. split; [|done]. intros _. exists t, change. by left. }
      destruct change as [[k i]|]; [bind_in E2 b Eb|]; by injection E2 as <- <- <-.
  - unfold electrum_apply in E. bind_in E a Ea. destruct a as [cs|e]; [|injection E as <- <- <-; by apply told_none].
    destruct (db_append _ _) as [[w2 ev] r2] eqn:Ed. destruct (told_append _ _ _ _ _ Ed) as [Ht Hn].
    destruct r2 as [u|e]; [bind_in E b Eb|]; by injection E as <- <- <-.
  - unfold esplora_apply in E. bind_in E a Ea. destruct a as [[x1 cs]|e]; [|injection E as <- <- <-; by apply told_none].
    destruct (db_append _ _) as [[w2 ev] r2] eqn:Ed. destruct (told_append _ _ _ _ _ Ed) as [Ht Hn]. by injection E as <- <- <-.
Qed.
Lemma reported dbg km ch w c w' evs r : handle_command dbg ch km w c = Ret (w', evs, r) →
  (r = Err EStore ↔ ∃ cs e, EvAppend cs e ∈ evs ∧ store_fails cs e) ∧ (r = Err EBroadcast ↔ ∃ t change, EvBroadcast t change false ∈ evs).
Proof.
  intros E%told_command. change ((r = Err EStore ↔ failed evs) ∧ (r = Err EBroadcast ↔ refused evs)).
  destruct r as [u|e]; cbn in E; [split; (split; [done|tauto])|]. 
  assert (∀ e', Err (A := unit) e = Err e' ↔ e = e') as He by (intros e'; split; [by intros [= ->]|by intros ->]). by rewrite !He.
Qed.

Context (W : Txid → list OutPoint) (ext : Desc) (int : option Desc).
Notation A := (keychains ext int).
Context (HA : good_env A).
Notation good := (good W ext int).
Notation ix := tr_index.

(** ** The addresses listed *)
Lemma all_ret_map {X Y} (q : X → bool) (f : X → Y) l :
  CoinSelectModel.all_ret ((λ a, if q a then Ret (f a) else Panic) <$> l) = if forallb q l then Ret (f <$> l) else Panic.
Proof using Type.
  induction l as [|a l IH]; [done|]. rewrite !fmap_cons. cbn [CoinSelectModel.all_ret forallb]. rewrite IH.
  destruct (q a); [|done]. cbn [andb mbind outcome_bind]. by destruct (forallb q l).
Qed.
Lemma list_shows x (change : bool) : good x → let k := if change then Internal else External in
  ∃ l : list (N * Script), (match A k with Some d => derived d 0 (n_revealed (ix x) k) l | None => l = [] end) ∧
    address_list x change = (if forallb (λ e, has_address e.2) l then Ret ((λ e, (e, si_is_used (ki_inner (ix x)) (k, e.1))) <$> l) else Panic) ∧
    ∀ i o u, si_txout (ki_inner (ix x)) o = Some ((k, i), u) → si_is_used (ki_inner (ix x)) (k, i) = true.
Proof using All.
  intros Hx k. destruct (good_index W ext int _ Hx) as (hs & Hi).
  assert (∀ i o u, si_txout (ki_inner (ix x)) o = Some ((k, i), u) → si_is_used (ki_inner (ix x)) (k, i) = true) as Hu.
  { intros i o u Ho. by eapply (txout_used ext int hs). }
  unfold address_list. fold k. destruct (A k) as [d|] eqn:Ed.
  - destruct (good_keychain W ext int x k Hx) as (d' & hs' & Hi' & Hd'); [by exists d|].
    assert (d' = d) as ->. { pose proof (proj1 (proj1 Hi') _ _ Hd'). congruence. }
    destruct (revealed_list_ok A hs' (ix x) k d HA Hi' Hd') as (l & El & Hl). exists l. rewrite El. cbn [mbind outcome_bind].
    rewrite (all_ret_map (λ e : N * Script, has_address e.2)). done.
  - exists []. split; [done|]. destruct (proj1 Hi) as (C1 & _ & C3 & C4 & C5). split; [|done]. unfold revealed_spks_of_keychain, next_reveal.
    destruct (ki_revealed (ix x) !! k) as [v|] eqn:Ev. { destruct (C5 k) as [d Hd]; [by eexists|]. apply C1 in Hd. congruence. }
    cbn [mbind outcome_bind].
    match goal with |- context [filter ?Q ?l] => assert (filter Q l = []) as -> end; [|done].
    apply list.elem_of_nil_inv. intros [[k' i'] sp'] [[Hle Hlt] _]%elem_of_list_filter. cbn [fst] in Hle, Hlt.
    apply ord_le_lteq in Hle as [Hle|Heq]; [|rewrite <- Heq in Hlt; by apply ord_lt_irrefl in Hlt]. apply (ord_lt_irrefl (k, 0)). by eapply ord_lt_trans.
Qed.

(** ** What a sync asks for *)
Lemma sync_asks ch x f : cg_ok (tr_cg x) → hash_fun_ok (ch_hash ch) → good x →
  (∀ k d i sp, A k = Some d → derive d i = Some sp → has_address sp = true) →
  ∃ spks txids outs, sync_request ch x f = Ret (spks, txids, outs) ∧
    (∀ sp, sp ∈ spks ↔ ∃ ki, si_spk_at (ki_inner (ix x)) ki = Some sp ∧
       (sf_all f = true ∨ (sf_unused f = true ∨ no_flags f) ∧ si_is_used (ki_inner (ix x)) ki = false)) ∧
    (∀ t, t ∈ txids ↔ (sf_unconfirmed f = true ∨ no_flags f) ∧ ∃ p, sc_pos (cg_chain (tr_cg x)) !! t = Some p ∧ pos_height p = Unconfirmed) ∧
    (∀ o, o ∈ outs ↔ (sf_utxos f = true ∨ no_flags f) ∧ ∃ ki g, unspent x ki g ∧ fto_outpoint g = o).
Proof using All.
  intros Hok Hho Hx Ha. destruct (sync_ok W ext int ch x f Hok Hho Hx Ha) as (spks & txids & outs & E & Ha1 & Ha2 & Ha3).
  exists spks, txids, outs. split; [done|]. split; [|split].
  - intros sp. rewrite Ha1. pose proof (flags_all f). pose proof (flags_unused f). split; intros (ki & Hs & Hf); exists ki; (split; [done|]); tauto.
  - intros t. by rewrite Ha2, flags_unconfirmed.
  - intros o. by rewrite Ha3, flags_utxos.
Qed.
End report.
