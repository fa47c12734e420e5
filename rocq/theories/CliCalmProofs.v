(** Proofs about the command line wallet: its commands do not panic (C113). *)
From Verif Require Export CliPayProofs CliCalmSpec CliProofs8.
Local Open Scope N_scope.

Section calm.
Context `{!DescEnv, !CliEnv, !PlanModel.KeyEnv} `{ChainPositionLaws P} {C : Codec (KChangeSet Keychain P)}.
Context (wf : KChangeSet Keychain P → Prop) (HC : codec_ok C wf) (Hdef : wf kcs_default).
Context (W : Txid → list OutPoint) (dbg : bool) (limit : nat) (ext : Desc) (int : option Desc) (km : PlanModel.KeyMap).
Notation A := (keychains ext int).
Notation s := (adds ext int).
Context (HA : good_env A).
Implicit Types (x y : Tracker Keychain P) (w : World P) (ch : Choices P) (evs : list (event P)) (pr : prepared).
Notation good := (good W ext int).

(** ** Starting *)
Lemma init_total d evs create faults : life wf W dbg limit ext int km d evs → ∃ r, init (P := P) limit ext int d create faults = Ret r.
Proof using All.
  intros Hl. destruct (life_alive wf HC Hdef W dbg limit ext int km HA d evs Hl)
    as [[-> [->|(b0 & -> & Hbr)]]|(x0 & y & t & Ex & -> & Ht & Hw & Ey & Hy & _)].
  - destruct (fresh_good (P := P) W limit ext int HA) as (x0 & Ex & Hx0). unfold init. rewrite Ex. cbn [mbind outcome_bind].
    destruct create as [j|]; [by eexists|].
    assert (fs_new_from_path None None = (magic, Ok (mkFile magic (length magic)))) as -> by done.
    rewrite (load_ok wf HC Hdef (mkFile magic (length magic)) [] [] x0); [|done|by left|constructor]. cbn [tr_replay mbind outcome_bind]. by eexists.
  - destruct (fresh_good (P := P) W limit ext int HA) as (x0 & Ex & Hx0). unfold init. rewrite Ex. cbn [mbind outcome_bind]. rewrite Hbr. by eexists.
  - rewrite (init_log wf HC Hdef limit ext int (logged evs) t x0 y create faults Ht Hw Ex Ey). by eexists.
Qed.

Lemma init_err d create faults b : init (P := P) limit ext int d create faults ≠ Ret (b, Err ENoAddress).
Proof.
  unfold init. destruct (fresh_tracker _ _ _); [|done]. cbn [mbind outcome_bind]. destruct (fs_new_from_path _ _) as [b1 [f|e]]; [|done].
  destruct (load_into_keychain_tracker _ _) as [[[[x1 f1] r1]|]|]; done.
Qed.

(** ** The parts of a command *)
Lemma next_total x k (nu : bool) : good x → known s k →
  ∃ ix i sp ad d, (if nu then next_unused_spk (tr_index x) k else reveal_next_spk (tr_index x) k) = Ret (ix, (i, sp), ad) ∧
    A k = Some d ∧ derive d i = Some sp.
Proof using All.
  intros Hx Hk. assert (∃ d hs, ki_inv A hs (tr_index x) ∧ ki_keychains (tr_index x) !! k = Some d) as (d & hs & Hi & Hd).
  { apply (good_keychain W ext int); [done|]. by apply known_adds. }
  assert (A k = Some d) as Hk' by by apply (proj1 Hi).
  destruct nu.
  - destruct (tr_next_unused A hs _ k d HA Hi Hd) as (x2 & hs' & i & sp & ad & E & _ & _ & Hs & _). by exists x2, i, sp, ad, d.
  - destruct (tr_next A hs _ k d HA Hi Hd) as (x2 & hs' & i & sp & ad & E & _ & _ & Hs & _). by exists x2, i, sp, ad, d.
Qed.
Lemma db_append_err w cs w1 ev r : db_append w cs = (w1, ev, r) → r ≠ Err ENoAddress.
Proof. unfold db_append. intros [= _ _ <-]. by destruct (append_changeset _ _ _).2. Qed.
Lemma hand_out_total w ix i sp ad : has_address sp = true → ∃ w' evs r, hand_out w (ix, (i, sp), ad) = Ret (w', evs, r) ∧ r ≠ Err ENoAddress.
Proof.
  intros Ha. unfold hand_out. destruct (db_append _ _) as [[w1 ev] [u|e]] eqn:Ed; cbn [fst snd]; [rewrite Ha|]; eexists _, _, _; (split; [done|]); [done|].
  by eapply db_append_err.
Qed.
Lemma list_total x change : good x → addressable ext int x → ∃ r, address_list x change = Ret r.
Proof using All.
  intros Hx [Ha _]. unfold address_list. set (k := if change then Internal else External).
  destruct (good_index W ext int _ Hx) as (hs & Hi). destruct (proj1 Hi) as (C1 & _ & C3 & C4 & C5). unfold revealed_spks_of_keychain.
  assert (∃ n, next_reveal (tr_index x) k = Ret n) as [n ->].
  { unfold next_reveal. destruct (ki_revealed (tr_index x) !! k) as [v|] eqn:Ev; [|by eexists]. destruct (C5 k) as [d Hd]; [by eexists|].
    destruct (C4 k d Hd) as (n & _ & Hn & Hr). pose proof (cap_bound d). unfold n_revealed in Hr. rewrite Ev in Hr. unfold add_u32.
    rewrite bool_decide_true; [by eexists|]. unfold u32_max. lia. }
  cbn [mbind outcome_bind].
  assert (∀ l : list (N * Script), (∀ is, is ∈ l → has_address is.2 = true) →
    ∃ r, CoinSelectModel.all_ret ((λ is, if has_address is.2 then Ret (is, si_is_used (ki_inner (tr_index x)) (k, is.1)) else Panic) <$> l) = Ret r) as Hall.
  { intros l Hl. eexists. apply all_ret_total. intros is Hin. by rewrite (Hl is Hin). }
  apply Hall. intros [i sp] Hin. apply elem_of_list_fmap in Hin as ([[k' i'] sp'] & [= -> ->] & Hin). apply elem_of_list_filter in Hin as [_ Hin].
  apply elem_of_bmap_list in Hin. destruct (C3 _ _ _ Hin) as (d & Hd & Hder). cbn [snd]. by eapply Ha; [apply C1|].
Qed.
Lemma insert_total ch x t : good x → hash_fun_ok (ch_hash ch) → (length (ct_out t) ≤ 2)%nat → own_txid W t →
  ∃ r, tr_insert_tx (ch_hash ch (cg_graph (tr_cg x))) x (ctx_tx t) pos_unconfirmed = Ret r ∧
    ∀ i h tip, r ≠ Err (CgTxChain (TxTooHigh i h tip)).
Proof using All.
  intros Hx Hho Hlen [Hid Hin]. destruct (good_op W ext int HA x (TrTx (ch_hash ch) (ctx_tx t) pos_unconfirmed) Hx) as (x' & l0 & y' & E & _).
  { split; [done|]. split; [|split; [by apply pos_max_ok|exact Hin]]. split; [done|]. cbn [ctx_tx tx_out]. assert (2 ≤ u32_max) by done. lia. }
  { by intros [l' [=]]. }
  cbn [tr_step] in E. destruct (tr_insert_tx _ _ _ _) as [r|] eqn:Ei; [|done]. exists r. split; [done|]. intros i h tip ->.
  unfold tr_insert_tx, tr_insert_tx_preview in Ei. destruct (cg_insert_tx_preview _ _ _ _) as [[cs|e]|] eqn:Ep; cbn [mbind outcome_bind] in Ei; [|injection Ei as ->|done].
  { by destruct (tr_apply_changeset _ _). }
  unfold cg_insert_tx_preview in Ep. destruct (insert_tx_preview _ _ _) as [[ccs|e]|] eqn:Et; [| |done].
  { destruct (fix_conflicts _ _ _) as [[]|]; done. }
  injection Ep as ->. unfold insert_tx_preview, pos_unconfirmed in Et. rewrite pos_max_height in Et.
  destruct (determine_changeset _ _ _) as [[?|[]]|]; done.
Qed.
Lemma finish_send_total ch w t change ok : good (w_tracker w) → hash_fun_ok (ch_hash ch) → (length (ct_out t) ≤ 2)%nat → own_txid W t →
  ∃ w' evs r, send_finish ch w t change ok = Ret (w', evs, r) ∧ r ≠ Err ENoAddress.
Proof using All.
  intros Hx Hho Hlen Ht. unfold send_finish. destruct ok.
  - destruct (insert_total ch (w_tracker w) t Hx Hho Hlen Ht) as (r & -> & Hr). cbn [mbind outcome_bind].
    destruct r as [[x cs]|[[i h tip|i o p]|e]].
    + destruct (db_append _ _) as [[w1 ev] r] eqn:Ed. eexists _, _, _. split; [done|by eapply db_append_err].
    + by destruct (Hr i h tip).
    + by eexists _, _, _.
    + by eexists _, _, _.
  - destruct change as [[k i]|]; [|by eexists _, _, _].
    destruct (good_op W ext int HA (w_tracker w) (TrIndex (KiUnmark k i)) Hx) as (x' & l0 & y' & E & _); [done|by intros [l' [=]]|].
    cbn [tr_step ki_step] in E. destruct (ki_unmark_used _ _ _); [|done]. by eexists _, _, _.
Qed.
Lemma prepare_total ch w value addr algo : good (w_tracker w) → may_pay ext int km ch (w_tracker w) value addr →
  ∃ w' evs r, send_prepare dbg ch km w value addr algo = Ret (w', evs, r) ∧ r ≠ Err ENoAddress.
Proof using All.
  intros Hx (Hch & Hm & Hs & Hl). destruct (create_tx_exact W dbg ext int km HA ch (w_tracker w) value addr algo Hx Hch Hm Hs Hl) as (x' & r & z & E & _ & _ & Hr).
  unfold send_prepare. rewrite E. cbn [mbind outcome_bind]. destruct r as [[t [[ad ki]|]]|e]; [|by eexists _, _, _|].
  - destruct (db_append _ _) as [[w1 ev] [u|e]] eqn:Ed; eexists _, _, _; (split; [done|]); [done|]. apply db_append_err in Ed. congruence.
  - destruct Hr as [[se ->] _]. by eexists _, _, _.
Qed.
Lemma update_total ch x sc ord : good x → command_ok A W s ch (CmdElectrum sc ord) →
  ∃ r, tr_determine_changeset (ch_hash ch (cg_graph (tr_cg x))) x sc ord = Ret r ∧
    ∀ cs, r = Ok cs → ∃ x', tr_apply_changeset x cs = Ret x'.
Proof using All.
  intros Hx [Hho Hc]. destruct (good_op W ext int HA x (TrUpdate (ch_hash ch) sc ord) Hx Hc) as (x' & l0 & y' & E & _); [by intros [l' [=]]|].
  cbn [tr_step] in E. unfold tr_apply_update in E. destruct (tr_determine_changeset _ _ _ _) as [r|]; [|done]. exists r. split; [done|].
  intros cs ->. cbn [mbind outcome_bind] in E. destruct (tr_apply_changeset x cs) as [x1|]; [by eexists|done].
Qed.

(** ** Commands and steps *)
Lemma handle_total ch w c : good (w_tracker w) → command_ok A W s ch c → addressable ext int (w_tracker w) →
  fair W dbg ext int km (w_tracker w) [] ch (Run c) →
  ∃ w' evs r, handle_command dbg ch km w c = Ret (w', evs, r) ∧ r ≠ Err ENoAddress.
Proof using All.
  intros Hx Hc Ha Hf. destruct c as [c| |c|value addr algo ok|sc ord|sc ord]; cbn [handle_command].
  - assert (known s External) as Hk by (apply known_adds; by eexists). destruct c as [| |change|]; cbn [run_address_cmd].
    + destruct (next_total (w_tracker w) External true Hx Hk) as (ix & i & sp & ad & d & -> & Hd & Hs). cbn [mbind outcome_bind].
      apply hand_out_total. by eapply (proj1 Ha).
    + destruct (next_total (w_tracker w) External false Hx Hk) as (ix & i & sp & ad & d & -> & Hd & Hs). cbn [mbind outcome_bind].
      apply hand_out_total. by eapply (proj1 Ha).
    + destruct (list_total (w_tracker w) change Hx Ha) as [r ->]. by eexists _, _, _.
    + by eexists _, _, _.
  - destruct Hf as (l & Hn & Hl & Hs). pose proof (balance_exact ch (w_tracker w) l (good_ok W ext int _ Hx) (proj1 Hc) Hn Hl) as Hb. cbn zeta in Hb.
    rewrite Hb. clear Hb. pose proof (balance_total l) as Ht. unfold confirmed_in in Ht. rewrite bool_decide_true by lia. by eexists _, _, _.
  - destruct (txo_list ch (w_tracker w) c (good_ok W ext int _ Hx) (proj1 Hc)) as (l & _ & Hl & ->).
    assert (forallb (λ kf : Keychain * N * FullTxOut P, has_address (txo_spk (fto_txout kf.2))) l = true) as ->; [|by eexists _, _, _].
    apply forallb_forall. intros [ki f] Hin%elem_of_list_In. apply Hl in Hin as [Ho _]. exact (proj2 Ha ki f Ho).
  - destruct Hf as [Hp Ht]. destruct (prepare_total ch w value addr algo Hx Hp) as (w1 & evs1 & r1 & E & Hr1). rewrite E. cbn [mbind outcome_bind].
    destruct r1 as [[t change]|e]; [|eexists _, _, _; split; [done|congruence]].
    destruct (prepare_steps W dbg ext int km ch w value addr algo w1 evs1 _ Hx E) as [Hs Hl].
    destruct (prepare_state W dbg ext int km HA ch w value addr algo w1 evs1 t change Hx E) as (_ & _ & x' & a & Ec & _).
    destruct (finish_send_total ch w1 t change ok) as (w2 & evs2 & r2 & -> & Hr2); [by apply (steps_good W ext int HA _ _ Hx Hs)|apply Hc|by eapply Hl|by eapply Ht|].
    cbn [mbind outcome_bind]. by eexists _, _, _.
  - destruct (update_total ch (w_tracker w) sc ord Hx Hc) as (r & E & Hr). unfold electrum_apply. rewrite E. cbn [mbind outcome_bind].
    destruct r as [cs|e]; [|by eexists _, _, _]. destruct (db_append _ _) as [[w1 ev] [u|e]] eqn:Ed.
    + apply db_append_disk in Ed as (_ & Ed & _). rewrite Ed. destruct (Hr cs eq_refl) as [x' ->]. by eexists _, _, _.
    + eexists _, _, _. split; [done|by eapply db_append_err].
  - destruct (update_total ch (w_tracker w) sc ord Hx Hc) as (r & E & Hr). unfold esplora_apply, tr_apply_update. rewrite E. cbn [mbind outcome_bind].
    destruct r as [cs|e]; [|by eexists _, _, _]. destruct (Hr cs eq_refl) as [x' ->]. cbn [mbind outcome_bind].
    destruct (db_append _ _) as [[w1 ev] r] eqn:Ed. eexists _, _, _. split; [done|by eapply db_append_err].
Qed.
Lemma act_total ch a w pr : good (w_tracker w) → small pr → action_ok A W s ch a → addressable ext int (w_tracker w) →
  fair W dbg ext int km (w_tracker w) pr ch a → (∃ r, act dbg km (w, pr) ch a = Ret r) ∧
  ∀ c w' evs, a = Run c → handle_command dbg ch km w c ≠ Ret (w', evs, Err ENoAddress).
Proof using All.
  intros Hx Hpr [Hho Hok] Ha Hf. destruct a as [c|value addr algo|n ok]; cbn [act fst snd].
  - destruct (handle_total ch w c Hx Hok Ha Hf) as (w1 & evs & r & E & Hr). rewrite E. split; [by eexists|]. intros c' w' evs' [= <-]. rewrite E. congruence.
  - destruct (prepare_total ch w value addr algo Hx Hf) as (w1 & evs & r & -> & _). split; [by eexists|done].
  - split; [|done]. destruct (pr !! n) as [[t change]|] eqn:En; [|by eexists]. cbn [fair] in Hf.
    destruct (finish_send_total ch w t change ok Hx Hho) as (w1 & evs & r & -> & _); [by apply (proj1 (Forall_lookup _ _) Hpr n _ En)|by eapply Hf|]. by eexists.
Qed.
Lemma process_total d evs create faults ch c : life wf W dbg limit ext int km d evs → command_ok A W s ch c →
  (∀ b w, init limit ext int d create faults = Ret (b, Ok w) →
     addressable ext int (w_tracker w) ∧ fair W dbg ext int km (w_tracker w) [] ch (Run c)) →
  ∃ b evs r, process dbg limit ext int km d create faults ch c = Ret (b, evs, r) ∧ r ≠ Err ENoAddress.
Proof using All.
  intros Hl Hc Hf. destruct (init_total d evs create faults Hl) as [[b r] Ei]. unfold process. rewrite Ei. cbn [mbind outcome_bind].
  destruct r as [w|e]; [|eexists _, _, _; split; [done|intros [= ->]; by eapply init_err]]. destruct (Hf b w Ei) as [Ha Hfc].
  destruct (init_good wf HC Hdef W dbg limit ext int km HA d evs create faults b w Hl Ei) as [Hg _].
  destruct (handle_total ch w c Hg Hc Ha Hfc) as (w1 & evs1 & r1 & -> & Hr). by eexists _, _, _.
Qed.
End calm.
