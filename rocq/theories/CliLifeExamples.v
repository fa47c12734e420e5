(** Lives of the command line wallet for C101. *)
From Verif Require Export CliEsploraExamples CliLifeProofs.
Local Open Scope N_scope.
Local Existing Instances ex_env cli_env PlanExamples.toy_env kcs_codec.

(** ** Networks *)
(** A network: the height of the tip, the blocks, and the transactions with their heights. *)
Record Net := mkNet { n_tip : N; n_block : N → BlockHash; n_txs : list (Tx * option N) }.
Definition net (n : Net) : ScanSpec.World := list_world (n_tip n) (n_block n) (n_txs n).
Definition among (ns : list Net) (v : ScanSpec.World) : Prop := ∃ n, n ∈ ns ∧ v = net n.
(** Two networks do not have different transactions under one id. *)
Definition same_txs (ns : list Net) : bool :=
  let l := mjoin ((λ n, fst <$> n_txs n) <$> ns) in forallb (λ a, forallb (λ b, negb (txid a =? txid b) || bool_decide (a = b)) l) l.
Lemma among_coherent W ns : Forall (λ n, list_check W (n_tip n) (n_txs n) = true) ns → same_txs ns = true →
  (∀ n m a b, n ∈ ns → m ∈ ns → a ≤ b → n_block n b = n_block m b → n_block n a = n_block m a) → coherent W (among ns).
Proof.
  intros Hc Hs Hb. rewrite Forall_forall in Hc. split.
  - intros v (n & Hn%Hc & ->). split; [exact (list_ok _ _ _ _ Hn)|]. split; [exact (list_sane _ _ _ _ Hn)|exact (list_txs _ _ _ _ Hn)].
  - intros v w a b (n & Hn & ->) (m & Hm & ->) Hab _ _. cbn [net list_world w_block]. by apply Hb.
  - assert (∀ n t a, n ∈ ns → w_tx (net n) t = Some a → txid a = t ∧ a ∈ mjoin ((λ n, fst <$> n_txs n) <$> ns)) as Hin.
    { intros n t a Hn Ha. pose proof (Hc _ Hn) as Hn'. apply (list_tx _ _ _ _ Hn') in Ha as (h & Hin & Ht). split; [done|].
      apply elem_of_list_join. exists (fst <$> n_txs n). split; [apply elem_of_list_fmap; by exists (a, h)|]. apply elem_of_list_fmap. by exists n. }
    intros v w t a b (n & Hn & ->) (m & Hm & ->) Ha Hb'. destruct (Hin _ _ _ Hn Ha) as [Ta Ia]. destruct (Hin _ _ _ Hm Hb') as [Tb Ib].
    unfold same_txs in Hs. cbn zeta in Hs. rewrite forallb_forall in Hs. apply elem_of_list_In, Hs in Ia. rewrite forallb_forall in Ia. apply elem_of_list_In, Ia in Ib.
    apply orb_prop in Ib as [Ib%negb_true_iff%N.eqb_neq|Ib%bool_decide_eq_true]; [congruence|done].
Qed.

(** ** Running a life *)
Section step.
Context `{ChainPosition P}.
Inductive Step := GoTo (i : nat) | Own (p : Proc P) | Ask (f : SyncFlags).
End step.
Global Arguments Step _ {_ _}.
Section run.
Context `{ChainPositionLaws P} {C : Codec (KChangeSet Keychain P)} (wf : KChangeSet Keychain P → Prop) (HC : codec_ok C wf) (Hdef : wf kcs_default).
Context (W : Txid → list OutPoint) (limit : nat) (ns : list Net).
Context (R : ScanSpec.World → ScanSpec.World → Prop) (Ready : ScanSpec.World → Tracker Keychain P → Prop).
Context (Asks : ScanSpec.World → CliModel.World P → CliModel.World P * list (event P) * result unit CliError → Prop).
Context (evb : event P → bool) (evb_ok : ∀ ev, evb ev = true → event_ok wf W ev) (goes : Net → Net → bool) (goes_ok : ∀ n m, n ∈ ns → m ∈ ns → goes n m = true → R (net n) (net m)).
Context (ready : Net → Tracker Keychain P → bool) (ready_ok : ∀ n x, ready n x = true → Ready (net n) x).
Context (ask : Net → SyncFlags → CliModel.World P → option (CliModel.World P * list (event P) * result unit CliError)).
Notation dwelt := (dwells wf W (among ns) R Ready Asks true limit 1 (Some 3) cli_km).
Context (ask_ok : ∀ n f w r d evs create faults b, n ∈ ns → dwelt (net n) d evs → init limit 1 (Some 3) d create faults = Ret (b, Ok w) → Ready (net n) (w_tracker w) →
  ask n f w = Some r → Asks (net n) w r).
Definition own_commandb (c : Command P) : bool := match c with CmdElectrum _ _ | CmdEsplora _ _ => false | _ => true end.
Definition sentb (evs : list (event P)) : bool :=
  forallb (λ ev, match ev with EvBroadcast t _ _ => forallb (λ n, match w_tx (net n) (ctx_txid t) with Some a => bool_decide (a = ctx_tx t) | None => true end) ns | _ => true end) evs.
Definition evsb (d : option bytes) (evs : list (event P)) : bool :=
  forallb evb evs && (match d with None => true | Some _ => false end || forallb (λ ev, match ev with EvAppend _ e => wholeb e | _ => true end) evs).
Lemma evsb_ok d evs : evsb d evs = true → Forall (event_ok wf W) evs ∧ (reads (P := P) d ∨ ∀ cs e, EvAppend cs e ∈ evs → whole e).
Proof using evb_ok.
  intros [E1 E2]%andb_prop. split; [by eapply forallb_ok|]. apply orb_true_iff in E2 as [E2|E2]; [left; by destruct d|right].
  intros cs e Hin. rewrite forallb_forall in E2. apply elem_of_list_In, E2 in Hin. unfold whole. destruct e as [|[|j]| |]; cbn in Hin; try done; auto.
Qed.
Fixpoint dwell (n : Net) (d : option bytes) (evs : list (event P)) (ss : list (Step P)) : option (Net * option bytes * list (event P)) :=
  match ss with
  | [] => Some (n, d, evs)
  | GoTo i :: ss => m ← ns !! i; if goes n m then dwell m d evs ss else None
  | Own p :: ss =>
      match process true limit 1 (Some 3) cli_km d (pr_create p) (pr_faults p) (pr_ch p) (pr_cmd p) with
      | Ret (b, evs', r) =>
          if own_commandb (pr_cmd p) && evsb d evs' && sentb evs'
          then dwell n (Some (left_behind limit 1 (Some 3) d p evs')) (evs ++ evs') ss else None
      | Panic => None
      end
  | Ask f :: ss =>
      match init limit 1 (Some 3) d None [] with
      | Ret (b, Ok w) =>
          if ready n (w_tracker w) then
          '(w', evs', r) ← ask n f w;
          if evsb d evs' then dwell n (Some (f_bytes (disk (w_file w) evs'))) (evs ++ evs') ss else None
          else None
      | _ => None
      end
  end.
Definition hashed (s : Step P) : Prop := match s with Own p => hash_fun_ok (ch_hash (pr_ch p)) | _ => True end.
Lemma dwell_ok ss : ∀ n d evs n' d' evs', Forall hashed ss → n ∈ ns → dwelt (net n) d evs → dwell n d evs ss = Some (n', d', evs') → n' ∈ ns ∧ dwelt (net n') d' evs'.
Proof using goes_ok ready_ok ask_ok evb_ok.
  induction ss as [|s ss IH]; intros n d evs n' d' evs' Hss Hn Hd E; cbn [dwell] in E; [by injection E as <- <- <-|].
  apply Forall_cons in Hss as [Hs Hss]. destruct s as [i|p|f].
  - destruct (ns !! i) as [m|] eqn:Em; [|done]. cbn in E. destruct (goes n m) eqn:Eg; [|done]. apply elem_of_list_lookup_2 in Em. eapply (IH m); [done|done| |exact E].
    eapply (dwells_world _ _ _ _ _ _ _ _ _ _ _ (net n)); [done|by exists m|by apply goes_ok].
  - destruct (process _ _ _ _ _ _ _ _ _ _) as [[[b evs1] r]|] eqn:Ep; [|done].
    destruct (_ && _) eqn:Eb; [|done]. apply andb_true_iff in Eb as [[E1 E2]%andb_prop E3]. destruct (evsb_ok _ _ E2) as [Hev Hrd]. rewrite <- (app_nil_r evs1) in Ep.
    eapply (IH n); [done|done| |exact E]. eapply (dwells_command _ _ _ _ _ _ _ _ _ _ _ (net n) d evs p b evs1 []); [done| |done|exact Ep|rewrite app_nil_r; done| |rewrite app_nil_r; done].
    + by destruct (pr_cmd p).
    + rewrite app_nil_r. intros t c ok Hin v a (m & Hm & ->) Ha. unfold sentb in E3. rewrite forallb_forall in E3. apply elem_of_list_In, E3 in Hin.
      rewrite forallb_forall in Hin. apply elem_of_list_In, Hin in Hm. rewrite Ha in Hm. by apply bool_decide_eq_true in Hm.
  - destruct (init _ _ _ _ _ _) as [[b [w|]]|] eqn:Ei; [|done..]. destruct (ready n (w_tracker w)) eqn:Er; [|done].
    destruct (ask n f w) as [[[w' evs1] r]|] eqn:Ea; [|done]. cbn in E. destruct (evsb d evs1) eqn:E2; [|done]. destruct (evsb_ok _ _ E2) as [Hev Hrd].
    pose proof (ask_ok n f w _ d evs _ _ b Hn Hd Ei (ready_ok _ _ Er) Ea) as Hk.
    eapply (IH n); [done|done| |exact E]. eapply (dwells_sync _ _ _ _ _ _ _ _ _ _ _ (net n) d evs None [] b w w' evs1 [] r); [done|exact Ei|by apply ready_ok|by rewrite app_nil_r|by rewrite app_nil_r|by rewrite app_nil_r].
Qed.
(** A life that ends with another process. *)
Definition last_obs {B} (ss : list (Step P)) (g : Net → CliModel.World P → option B) : option B :=
  match ns with
  | n :: _ =>
      '(n', d', evs') ← dwell n None [] ss;
      match init limit 1 (Some 3) d' None [] with Ret (_, Ok w) => g n' w | _ => None end
  | [] => None
  end.
Lemma last_obs_ok {B} ss (g : Net → CliModel.World P → option B) o : Forall hashed ss → last_obs ss g = Some o →
  ∃ n d evs b w, n ∈ ns ∧ dwelt (net n) d evs ∧ init limit 1 (Some 3) d None [] = Ret (b, Ok w) ∧ g n w = Some o.
Proof using goes_ok ready_ok ask_ok evb_ok.
  unfold last_obs. intros Hss E. destruct ns as [|n0 ns0] eqn:En; [done|]. destruct (dwell n0 None [] ss) as [[[n d] evs]|] eqn:Ed; [|done].
  cbn in E. destruct (init _ _ _ _ _ _) as [[b [w|]]|] eqn:Ei; [|done..]. rewrite <- En in *.
  destruct (dwell_ok ss n0 None [] n d evs Hss) as [Hn Hd]; [rewrite En; left| |done|].
  - apply dwells_new. exists n0. split; [rewrite En; left|done].
  - by exists n, d, evs, b, w.
Qed.
End run.

(** ** Checks *)
Definition hiddenb {P} `{ChainPosition P} (wpos : ScanSpec.World → Txid → P) (n : Net) (x : Tracker Keychain P) : bool :=
  forallb (λ tp, match pos_height tp.2 with
    | Confirmed h => bool_decide (tp.2 = wpos (net n) tp.1) || existsb (λ kb, (kb.1 <=? h) && negb (kb.2 =? n_block n kb.1)) (bmap_list (sc_cps (cg_chain (tr_cg x))))
    | Unconfirmed => true end) (bmap_list (sc_pos (cg_chain (tr_cg x)))).
Lemma hiddenb_ok {P} `{ChainPosition P} (wpos : ScanSpec.World → Txid → P) n (x : Tracker Keychain P) : hiddenb wpos n x = true → no_hidden_reorg wpos (net n) x.
Proof.
  unfold hiddenb. rewrite forallb_forall. intros Hc t p h Hp%elem_of_bmap_list%elem_of_list_In%Hc Eh. cbn [fst snd] in Hp. rewrite Eh in Hp.
  apply orb_prop in Hp as [?%bool_decide_eq_true|Hp]; [by left|right].
  apply existsb_exists in Hp as ([k b] & Hin%elem_of_list_In%elem_of_bmap_list & Hb). apply andb_prop in Hb as [?%N.leb_le ?%negb_true_iff%N.eqb_neq].
  exists k, b. done.
Qed.
Definition higherb (n m : Net) : bool := n_tip n <=? n_tip m.
Definition growsb (n m : Net) : bool :=
  higherb n m && forallb (λ e, match e.2 with Some h => bool_decide (w_height (net m) (txid e.1) = Some h) | None => true end) (n_txs n).
Lemma growsb_ok n m : growsb n m = true → n_tip n ≤ n_tip m ∧ ∀ t h, w_height (net n) t = Some h → w_height (net m) t = Some h.
Proof.
  intros [H1%N.leb_le H2]%andb_prop. split; [done|]. intros t h. cbn [net list_world w_height]. intros Hh.
  destruct (w_find (n_txs n) t) as [[a h']|] eqn:E; [|done]. subst h'. apply w_find_Some in E as [Hin Ht].
  rewrite forallb_forall in H2. apply elem_of_list_In, H2 in Hin. cbn [fst snd] in Hin, Ht. rewrite Ht in Hin. by apply bool_decide_eq_true in Hin.
Qed.

(** ** Networks for the wallet *)
(** Transaction 21 pays the wallet; the wallet spends its output with 41000, and 50 pays its second address.
    Then the blocks from 109 on are replaced, and 41000 is in another block. *)
Definition cn1 : Net := mkNet 110 cs_block [(cs90, Some 10); (cliA, Some 105)].
Definition cn2 : Net := mkNet 120 cs_block (cs_l 1 7).
Definition cn_block (h : N) : BlockHash := if h <? 109 then h else 3000 + h.
Definition cn3 : Net := mkNet 122 cn_block [(cs90, Some 10); (cliA, Some 105); (cs50 1, Some 112); (cs_sent 7, Some 118)].
(** The block that has 21 is replaced, and the wallet knows no block so low. *)
Definition cn_deep (h : N) : BlockHash := if h <? 104 then h else 4000 + h.
Definition cn4 : Net := mkNet 122 cn_deep [(cs90, Some 10); (cliA, Some 108); (cs50 1, Some 112); (cs_sent 7, Some 118)].
Definition cns : list Net := [cn1; cn2; cn3; cn4].
Lemma cns_coherent : coherent cliW (among cns).
Proof.
  apply among_coherent.
  - repeat (apply Forall_cons; split; [vm_compute; reflexivity|]). constructor.
  - vm_compute. reflexivity.
  - unfold cns. intros n m a b Hn Hm Hab. rewrite !elem_of_cons, elem_of_nil in Hn, Hm.
    destruct Hn as [->|[->|[->|[->|[]]]]]; destruct Hm as [->|[->|[->|[->|[]]]]]; cbn [n_block cn1 cn2 cn3 cn4]; try done;
      unfold cs_block, cn_block, cn_deep; intros Hb; repeat case_match; repeat match goal with Hz : (_ <? _) = true |- _ => apply N.ltb_lt in Hz | Hz : (_ <? _) = false |- _ => apply N.ltb_ge in Hz end; lia.
Qed.
Lemma cns_sound n : n ∈ cns → world_ok (net n) ∧ electrum_honest (net n) (ScanExamples.honest (net n)).
Proof.
  intros Hn. assert (Forall (λ n, list_check cliW (n_tip n) (n_txs n) = true) cns) as Hc.
  { repeat (apply Forall_cons; split; [vm_compute; reflexivity|]). constructor. }
  rewrite Forall_forall in Hc. apply Hc in Hn. split; [exact (list_ok _ _ _ _ Hn)|exact (list_honest _ _ _ _ Hn)].
Qed.
Definition cn_run (n : Net) (f : SyncFlags) (w : CliModel.World TxHeight) := electrum_sync true (λ _, ScanExamples.honest (net n)) 2 cli_ch cs_po f 2 w 0%nat.
Definition cn_ask (n : Net) (f : SyncFlags) (w : CliModel.World TxHeight) : option (CliModel.World TxHeight * list (event TxHeight) * result unit CliError) :=
  if known_check (net n) (w_tracker w) then match cn_run n f w with Done _ r => Some r | _ => None end else None.
Lemma cn_asks n f w r : n ∈ cns → cg_ok (tr_cg (w_tracker w)) → cn_ask n f w = Some r → electrum_asks true (net n) w r.
Proof.
  unfold cn_ask. intros Hn Hok E. destruct (known_check _ _) eqn:Ek; [|done]. destruct (cn_run n f w) as [k r'| | |] eqn:Er; try done. injection E as ->.
  exists (λ _, ScanExamples.honest (net n)), 1%nat, cli_ch, cs_po, 2%nat, 0%nat, k. split; [intros _; by apply cns_sound|]. split; [exact exho_ok|]. split; [exact cs_po_ok|].
  split; [lia|]. left. exists f. split; [|exact Er]. intros _. by apply known_check_ok.
Qed.
(** Lives through reorganisations that show; *)
Notation cn_life := (dwells kcs_wf cliW (among cns) higher (no_hidden_reorg w_position) (electrum_asks true) true 10 1 (Some 3) cli_km).
Lemma cn_ok n d evs create faults b (w : CliModel.World TxHeight) : cn_life (net n) d evs → init 10 1 (Some 3) d create faults = Ret (b, Ok w) →
  cg_ok (tr_cg (w_tracker w)).
Proof.
  intros Hd Ei.
  destruct (dwells_fit (P := TxHeight) kcs_wf kcs_codec_ok kcs_range_default cliW true 10 1 (Some 3) cli_km cli_good (among cns) cns_coherent ltac:(done) w_position ltac:(done) (electrum_asks true)
    (electrum_asked cliW true 1 (Some 3) cli_km cli_good (among cns) cns_coherent cli_addresses) (net n) d evs create faults b w Hd Ei) as (_ & Hg & _). exact (good_ok cliW 1 (Some 3) _ Hg).
Qed.
Definition cn_obs {B} (ss : list (Step TxHeight)) (g : Net → CliModel.World TxHeight → option B) : option B :=
  last_obs 10 cns (event_okb cliW) higherb (hiddenb w_position) cn_ask ss g.
Lemma cn_obs_ok {B} ss (g : Net → CliModel.World TxHeight → option B) o : Forall hashed ss → cn_obs ss g = Some o →
  ∃ n d evs b w, n ∈ cns ∧ cn_life (net n) d evs ∧ init 10 1 (Some 3) d None [] = Ret (b, Ok w) ∧ g n w = Some o.
Proof.
  apply last_obs_ok.
  - intros ev. apply event_okb_ok.
  - intros n m _ _ Hh%N.leb_le. exact Hh.
  - intros n x. apply hiddenb_ok.
  - intros n f w r d evs create faults b Hn Hd Ei Hr Ea. eapply cn_asks; [done|by eapply cn_ok|done].
Qed.
Definition cn_address : Step TxHeight := Own (mkProc None [] cli_ch (CmdAddress AddrNew)).
Definition cn_steps : list (Step TxHeight) :=
  [Own (mkProc None [WriteFails 1] cli_ch (CmdAddress AddrNew)); cn_address; Ask ct_default; cn_address; Own (mkProc None [] cli_ch (CmdSend 40000 7 LargestFirst true))].
Definition cn_see (n : Net) (w : CliModel.World TxHeight) :=
  Some (n_tip n, hiddenb w_position n (w_tracker w), known_check (net n) (w_tracker w), cs_show (w_tracker w),
    match cn_run n ct_default w with Done _ (w', evs', r) => Some (forallb (event_okb cliW) evs', match r with Ok _ => None | Err e => Some e end, cs_show (w_tracker w')) | _ => None end).
Definition cn_spent : Keychain * N * (N * N) * N * TxHeight * option N := (External, 0, (21, 0), 100000, Confirmed 105, Some 41000).
Lemma cn_steps_hashed l : Forall hashed l → Forall hashed (cn_steps ++ l).
Proof. intros Hl. repeat (apply Forall_cons; split; [first [exact exho_ok|exact I]|]). exact Hl. Qed.
Lemma cn_obs3 : cn_obs (cn_steps ++ [GoTo 1; Ask ct_default; GoTo 2]) cn_see = Some (122, true, true,
  (Some 120, [cn_spent; (External, 1, (50, 0), 7000, Unconfirmed, None); (Internal, 0, (41000, 1), 59692, Confirmed 115, None)]),
  Some (true, None, (Some 122, [cn_spent; (External, 1, (50, 0), 7000, Confirmed 112, None); (Internal, 0, (41000, 1), 59692, Confirmed 118, None)]))).
Proof. vm_compute. reflexivity. Qed.
Lemma cn_example : ∃ n d evs b w k w' evs', n ∈ cns ∧ cn_life (net n) d evs ∧ init 10 1 (Some 3) d None [] = Ret (b, Ok w) ∧
  no_hidden_reorg w_position (net n) (w_tracker w) ∧ (∀ ki g, unspent (w_tracker w) ki g → is_Some (w_tx (net n) (op_txid (fto_outpoint g)))) ∧
  cs_show (w_tracker w) = (Some 120, [cn_spent; (External, 1, (50, 0), 7000, Unconfirmed, None); (Internal, 0, (41000, 1), 59692, Confirmed 115, None)]) ∧
  cn_run n ct_default w = Done k (w', evs', Ok tt) ∧ Forall (event_ok kcs_wf cliW) evs' ∧
  cs_show (w_tracker w') = (Some 122, [cn_spent; (External, 1, (50, 0), 7000, Confirmed 112, None); (Internal, 0, (41000, 1), 59692, Confirmed 118, None)]).
Proof.
  destruct (cn_obs_ok _ _ _ (cn_steps_hashed [GoTo 1; Ask ct_default; GoTo 2] ltac:(by repeat constructor)) cn_obs3) as (n & d & evs & b & w & Hn & Hd & Ei & Ho).
  exists n, d, evs, b, w. unfold cn_see in Ho. apply (inj Some) in Ho. apply pair_equal_spec in Ho as [Ho Hr]. apply pair_equal_spec in Ho as [Ho Hw].
  apply pair_equal_spec in Ho as [Ho Hk]. apply pair_equal_spec in Ho as [_ Hh]. apply hiddenb_ok in Hh.
  destruct (cn_run n ct_default w) as [k [[w' evs'] [[]|]]| | |]; try discriminate Hr.
  apply (inj Some) in Hr. apply pair_equal_spec in Hr as [Hr Hw']. apply pair_equal_spec in Hr as [He _].
  exists k, w', evs'. do 3 (split; [done|]). split; [exact Hh|]. split; [by apply known_check_ok; [eapply cn_ok|]|]. split; [exact Hw|]. split; [done|]. split; [|exact Hw'].
  eapply forallb_ok; [|exact He]. intros ev. apply event_okb_ok.
Qed.
(** or do not show: the wallet keeps the old height, and does not accept the new one. *)
Lemma cn_hidden : ∃ n d evs b w k w1 evs1 k2 w2, n ∈ cns ∧ cn_life (net n) d evs ∧ init 10 1 (Some 3) d None [] = Ret (b, Ok w) ∧
  (∀ ki g, unspent (w_tracker w) ki g → is_Some (w_tx (net n) (op_txid (fto_outpoint g)))) ∧
  cn_run n ct_default w = Done k (w1, evs1, Ok tt) ∧ latest_checkpoint (cg_chain (tr_cg (w_tracker w1))) = Some (mkBlockId 122 4122) ∧ w_position (net n) 21 = Confirmed 108 ∧
  sc_pos (cg_chain (tr_cg (w_tracker w1))) !! 21 = Some (Confirmed 105) ∧ cn_run n cs_all w1 = Done k2 (w2, [], Err EUpdate).
Proof.
  destruct (cn_obs_ok (cn_steps ++ [GoTo 3]) (λ n w, match cn_run n ct_default w with
    | Done _ (w', _, Ok _) => match cn_run n cs_all w' with Done _ (w2, evs2, Err e) =>
        Some (known_check (net n) (w_tracker w), latest_checkpoint (cg_chain (tr_cg (w_tracker w'))), w_position (net n) 21, sc_pos (cg_chain (tr_cg (w_tracker w'))) !! 21, evs2, e) | _ => None end
    | _ => None end) (true, Some (mkBlockId 122 4122), Confirmed 108, Some (Confirmed 105), [], EUpdate)) as (n & d & evs & b & w & Hn & Hd & Ei & Ho).
  { apply cn_steps_hashed. by repeat constructor. }
  { vm_compute. reflexivity. }
  destruct (cn_run n ct_default w) as [k [[w1 evs1] [[]|]]| | |] eqn:E1; try discriminate Ho.
  destruct (cn_run n cs_all w1) as [k2 [[w2 evs2] [|e]]| | |] eqn:E2; try discriminate Ho.
  apply (inj Some) in Ho. apply pair_equal_spec in Ho as [Ho ->]. apply pair_equal_spec in Ho as [Ho ->]. apply pair_equal_spec in Ho as [Ho H4].
  apply pair_equal_spec in Ho as [Ho H3]. apply pair_equal_spec in Ho as [H1 H2].
  exists n, d, evs, b, w, k, w1, evs1, k2, w2. do 3 (split; [done|]). split; [|by repeat split].
  apply known_check_ok; [by eapply cn_ok|done].
Qed.
(** In a network that only grows nothing needs to show. *)
Definition cgs : list Net := [cn1; cn2].
Lemma cgs_coherent : coherent cliW (among cgs).
Proof.
  apply among_coherent.
  - repeat (apply Forall_cons; split; [vm_compute; reflexivity|]). constructor.
  - vm_compute. reflexivity.
  - unfold cgs. intros n m a b Hn Hm. rewrite !elem_of_cons, elem_of_nil in Hn, Hm. by destruct Hn as [->|[->|[]]]; destruct Hm as [->|[->|[]]].
Qed.
Lemma cgs_block n : n ∈ cgs → n ∈ cns ∧ n_block n = cs_block.
Proof. unfold cgs, cns. rewrite !elem_of_cons, elem_of_nil. intros [->|[->|[]]]; (split; [tauto|done]). Qed.
Lemma cgs_extends {P} `{ChainPosition P} (wpos : ScanSpec.World → Txid → P) n m :
  (∀ v v' t h, w_height v t = Some h → w_height v' t = Some h → wpos v t = wpos v' t) → n ∈ cgs → m ∈ cgs → growsb n m = true → extends wpos (net n) (net m).
Proof.
  intros Hp [_ Hn]%cgs_block [_ Hm]%cgs_block [Ht Hg]%growsb_ok. split; [done|]. split; [cbn [net list_world w_block]; by rewrite Hn, Hm|]. intros t h Hh. eapply Hp; [by apply Hg|done].
Qed.
Notation cg_life := (dwells kcs_wf cliW (among cgs) (extends w_position) (λ _ _, True) (electrum_asks true) true 10 1 (Some 3) cli_km).
Lemma cg_life_ok n d evs create faults b (w : CliModel.World TxHeight) : cg_life (net n) d evs → init 10 1 (Some 3) d create faults = Ret (b, Ok w) → cg_ok (tr_cg (w_tracker w)).
Proof.
  intros Hd Ei.
  destruct (dwells_growing (P := TxHeight) kcs_wf kcs_codec_ok kcs_range_default cliW true 10 1 (Some 3) cli_km cli_good (among cgs) cgs_coherent ltac:(done) w_position ltac:(done) (electrum_asks true)
    (electrum_asked cliW true 1 (Some 3) cli_km cli_good (among cgs) cgs_coherent cli_addresses) (net n) d evs Hd) as (Hd' & _).
  destruct (dwells_fit (P := TxHeight) kcs_wf kcs_codec_ok kcs_range_default cliW true 10 1 (Some 3) cli_km cli_good (among cgs) cgs_coherent ltac:(done) w_position ltac:(done) (electrum_asks true)
    (electrum_asked cliW true 1 (Some 3) cli_km cli_good (among cgs) cgs_coherent cli_addresses) (net n) d evs create faults b w Hd' Ei) as (_ & Hg & _). exact (good_ok cliW 1 (Some 3) _ Hg).
Qed.
Lemma cg_obs_ok {B} ss (g : Net → CliModel.World TxHeight → option B) o : Forall hashed ss →
  last_obs 10 cgs (event_okb cliW) growsb (λ _ _, true) cn_ask ss g = Some o →
  ∃ n d evs b w, n ∈ cgs ∧ cg_life (net n) d evs ∧ init 10 1 (Some 3) d None [] = Ret (b, Ok w) ∧ g n w = Some o.
Proof.
  apply last_obs_ok.
  - intros ev. apply event_okb_ok.
  - intros n m Hn Hm Hg. apply cgs_extends; try done. intros v v' t h E1 E2. unfold w_position. by rewrite E1, E2.
  - done.
  - intros n f w r d evs create faults b Hn Hd Ei Hr Ea. eapply cn_asks; [by apply cgs_block|by eapply cg_life_ok|done].
Qed.
Lemma cg_example : ∃ n d evs b w, n ∈ cgs ∧ cg_life (net n) d evs ∧ init 10 1 (Some 3) d None [] = Ret (b, Ok w) ∧
  (∀ ki g, unspent (w_tracker w) ki g → is_Some (w_tx (net n) (op_txid (fto_outpoint g)))) ∧
  cs_show (w_tracker w) = (Some 110, [cn_spent; (Internal, 0, (41000, 1), 59692, Unconfirmed, None)]) ∧
  cs_does (cn_run n ct_default w) = Some (Some 120, [cn_spent; (External, 1, (50, 0), 7000, Unconfirmed, None); (Internal, 0, (41000, 1), 59692, Confirmed 115, None)], true).
Proof.
  destruct (cg_obs_ok (cn_steps ++ [GoTo 1]) (λ n w, Some (known_check (net n) (w_tracker w), cs_show (w_tracker w), cs_does (cn_run n ct_default w)))
    (true, (Some 110, [cn_spent; (Internal, 0, (41000, 1), 59692, Unconfirmed, None)]),
     Some (Some 120, [cn_spent; (External, 1, (50, 0), 7000, Unconfirmed, None); (Internal, 0, (41000, 1), 59692, Confirmed 115, None)], true)))
    as (n & d & evs & b & w & Hn & Hd & Ei & Ho).
  { apply cn_steps_hashed. by repeat constructor. }
  { vm_compute. reflexivity. }
  apply (inj Some), pair_equal_spec in Ho as [Ho Hr]. apply pair_equal_spec in Ho as [Hk Hw]. exists n, d, evs, b, w.
  do 3 (split; [done|]). split; [by apply known_check_ok; [eapply cg_life_ok|]|]. done.
Qed.

(** ** The esplora wallet *)
(** Transaction 21 pays the wallet, and gets into a block; later the blocks from 109 on are replaced, 21 is in another block, and 50 pays the wallet as well. *)
Definition tn1 : Net := mkNet 110 cs_block [(cs90, Some 10); (cliA, None)].
Definition tn2 : Net := mkNet 122 cs_block [(cs90, Some 10); (cliA, Some 111); (cs50 1, None)].
Definition tn3 : Net := mkNet 123 cn_block [(cs90, Some 10); (cliA, Some 119); (cs50 1, Some 113)].
Definition tns : list Net := [tn1; tn2; tn3].
Definition tgs : list Net := [tn1; tn2].
Definition tn_time (_ : ScanSpec.World) : N → N := rs_time.
Notation tn_pos := (λ v, w_time_position v (tn_time v)).
Lemma tns_checked : Forall (λ n, list_check cliW (n_tip n) (n_txs n) = true ∧ list_apart (n_txs n) = true ∧ (length (n_txs n) ≤ 20)%nat) tns.
Proof. repeat (apply Forall_cons; split; [split; [vm_compute; reflexivity|split; [vm_compute; reflexivity|cbn; lia]]|]). constructor. Qed.
Lemma tns_coherent : coherent cliW (among tns).
Proof.
  apply among_coherent.
  - eapply Forall_impl; [exact tns_checked|]. by intros n [? _].
  - vm_compute. reflexivity.
  - unfold tns. intros n m a b Hn Hm Hab. rewrite !elem_of_cons, elem_of_nil in Hn, Hm.
    destruct Hn as [->|[->|[->|[]]]]; destruct Hm as [->|[->|[->|[]]]]; cbn [n_block tn1 tn2 tn3]; try done;
      unfold cs_block, cn_block; intros Hb; repeat case_match; repeat match goal with Hz : (_ <? _) = true |- _ => apply N.ltb_lt in Hz | Hz : (_ <? _) = false |- _ => apply N.ltb_ge in Hz end; lia.
Qed.
Lemma tgs_coherent : coherent cliW (among tgs).
Proof.
  assert (∀ v, among tgs v → among tns v) as Hin.
  { intros v (n & Hn & ->). exists n. split; [|done]. unfold tgs, tns in *. rewrite !elem_of_cons, elem_of_nil in *. tauto. }
  destruct tns_coherent as [c1 c2 c3]. split; eauto.
Qed.
Definition tn_server (n : Net) : PSnap := esplora (net n) rs_time (list_ids (n_txs n)).
Lemma tns_sound n : n ∈ tns → esplora_honest (net n) (tn_time (net n)) (tn_server n) ∧
  ∀ sp, (length (w_mempool (net n) sp) ≤ 50)%nat ∧ (length (w_confirmed (net n) sp) < 25 * 1)%nat.
Proof.
  intros Hn. pose proof tns_checked as Hc. rewrite Forall_forall in Hc. apply Hc in Hn as (H1 & H2 & H3). split; [exact (list_esplora _ _ _ _ _ H1 H2)|].
  intros sp. by apply list_pages.
Qed.
Definition tn_run (n : Net) (f : SyncFlags) (w : CliModel.World ConfirmationTime) := esplora_sync_cmd (λ _, tn_server n) 1 ct_ch ct_po f 2 w 0%nat.
Definition tn_ask (n : Net) (f : SyncFlags) (w : CliModel.World ConfirmationTime) : option (CliModel.World ConfirmationTime * list (event ConfirmationTime) * result unit CliError) :=
  match tn_run n f w with Done _ r => Some r | _ => None end.
Lemma tn_asks n f w r : n ∈ tns → tn_ask n f w = Some r → esplora_asks tn_time 1 (Some 3) (net n) w r.
Proof.
  unfold tn_ask. intros Hn E. destruct (tn_run n f w) as [k r'| | |] eqn:Er; try done. injection E as ->. destruct (tns_sound n Hn) as [H1 H2].
  exists (λ _, tn_server n), 0%nat, ct_ch, ct_po, 2%nat, 0%nat, k. split; [done|]. split; [exact exho_ok|]. split; [done|].
  split; [intros; apply H2|]. left. exists f. exact Er.
Qed.
Notation tn_life := (dwells kcs_wf cliW (among tns) higher (no_hidden_reorg tn_pos) (esplora_asks tn_time 1 (Some 3)) true 10 1 (Some 3) cli_km).
Notation tg_life := (dwells kcs_wf cliW (among tgs) (extends tn_pos) (λ _ _, True) (esplora_asks tn_time 1 (Some 3)) true 10 1 (Some 3) cli_km).
Lemma tn_obs_ok {B} ss (g : Net → CliModel.World ConfirmationTime → option B) o : Forall hashed ss →
  last_obs 10 tns ct_eventb higherb (hiddenb tn_pos) tn_ask ss g = Some o →
  ∃ n d evs b w, n ∈ tns ∧ tn_life (net n) d evs ∧ init 10 1 (Some 3) d None [] = Ret (b, Ok w) ∧ g n w = Some o.
Proof.
  apply last_obs_ok.
  - intros ev. apply ct_eventb_ok.
  - intros n m _ _ Hh%N.leb_le. exact Hh.
  - intros n x. apply hiddenb_ok.
  - intros n f w r d evs create faults b Hn Hd Ei Hr Ea. by eapply tn_asks.
Qed.
Lemma tg_obs_ok {B} ss (g : Net → CliModel.World ConfirmationTime → option B) o : Forall hashed ss →
  last_obs 10 tgs ct_eventb growsb (λ _ _, true) tn_ask ss g = Some o →
  ∃ n d evs b w, n ∈ tgs ∧ tg_life (net n) d evs ∧ init 10 1 (Some 3) d None [] = Ret (b, Ok w) ∧ g n w = Some o.
Proof.
  apply last_obs_ok.
  - intros ev. apply ct_eventb_ok.
  - intros n m Hn Hm [H1 H2]%growsb_ok. assert (∀ n, n ∈ tgs → n_block n = cs_block) as Hb.
    { unfold tgs. intros k. rewrite !elem_of_cons, elem_of_nil. by intros [->|[->|[]]]. }
    split; [done|]. split; [cbn [net list_world w_block]; by rewrite (Hb _ Hn), (Hb _ Hm)|]. intros t h Hh. unfold w_time_position. by rewrite Hh, (H2 _ _ Hh).
  - done.
  - intros n f w r d evs create faults b Hn Hd Ei Hr Ea. eapply tn_asks; [|done]. unfold tgs, tns in *. rewrite !elem_of_cons, elem_of_nil in *. tauto.
Qed.
Definition tn_address : Step ConfirmationTime := Own (mkProc None [] ct_ch (CmdAddress AddrNew)).
Definition tn_steps : list (Step ConfirmationTime) := [Own (mkProc None [WriteFails 1] ct_ch (CmdAddress AddrNew)); tn_address; tn_address; Ask ct_default; GoTo 1].
Definition tn_does (n : Net) (w : CliModel.World ConfirmationTime) :=
  Some (hiddenb tn_pos n (w_tracker w), ct_show (w_tracker w), match tn_run n ct_default w with Done _ (w', evs', Ok _) => Some (forallb ct_eventb evs', ct_show (w_tracker w')) | _ => None end).
Lemma tn_steps_hashed l : Forall hashed l → Forall hashed (tn_steps ++ l).
Proof. intros Hl. repeat (apply Forall_cons; split; [first [exact exho_ok|exact I]|]). exact Hl. Qed.
Lemma tn_example : ∃ n d evs b w k w' evs', n ∈ tns ∧ tn_life (net n) d evs ∧ init 10 1 (Some 3) d None [] = Ret (b, Ok w) ∧ no_hidden_reorg tn_pos (net n) (w_tracker w) ∧
  ct_show (w_tracker w) = (Some 122, [(External, 0, (21, 0), 100000, CtConfirmed 111 1600066600, None); (External, 1, (50, 0), 7000, CtUnconfirmed, None)]) ∧
  tn_run n ct_default w = Done k (w', evs', Ok tt) ∧ Forall (event_ok kcs_wf cliW) evs' ∧
  ct_show (w_tracker w') = (Some 123, [(External, 0, (21, 0), 100000, CtConfirmed 119 1600071400, None); (External, 1, (50, 0), 7000, CtConfirmed 113 1600067800, None)]).
Proof.
  destruct (tn_obs_ok (tn_steps ++ [Ask ct_default; GoTo 2]) tn_does
    (true, (Some 122, [(External, 0, (21, 0), 100000, CtConfirmed 111 1600066600, None); (External, 1, (50, 0), 7000, CtUnconfirmed, None)]),
     Some (true, (Some 123, [(External, 0, (21, 0), 100000, CtConfirmed 119 1600071400, None); (External, 1, (50, 0), 7000, CtConfirmed 113 1600067800, None)]))))
    as (n & d & evs & b & w & Hn & Hd & Ei & Ho).
  { apply tn_steps_hashed. by repeat constructor. }
  { vm_compute. reflexivity. }
  unfold tn_does in Ho. apply (inj Some), pair_equal_spec in Ho as [Ho Hr]. apply pair_equal_spec in Ho as [Hh Hw]. apply hiddenb_ok in Hh.
  destruct (tn_run n ct_default w) as [k [[w' evs'] [[]|]]| | |] eqn:Er; try discriminate Hr. apply (inj Some), pair_equal_spec in Hr as [He Hw'].
  exists n, d, evs, b, w, k, w', evs'. do 3 (split; [done|]). split; [exact Hh|]. split; [exact Hw|]. split; [exact Er|]. split; [|exact Hw'].
  eapply forallb_ok; [|exact He]. intros ev. apply ct_eventb_ok.
Qed.
Lemma tg_example : ∃ n d evs b w k w' evs', n ∈ tgs ∧ tg_life (net n) d evs ∧ init 10 1 (Some 3) d None [] = Ret (b, Ok w) ∧
  ct_show (w_tracker w) = (Some 110, [(External, 0, (21, 0), 100000, CtUnconfirmed, None)]) ∧
  tn_run n ct_default w = Done k (w', evs', Ok tt) ∧ Forall (event_ok kcs_wf cliW) evs' ∧
  ct_show (w_tracker w') = (Some 122, [(External, 0, (21, 0), 100000, CtConfirmed 111 1600066600, None); (External, 1, (50, 0), 7000, CtUnconfirmed, None)]).
Proof.
  destruct (tg_obs_ok tn_steps tn_does
    (true, (Some 110, [(External, 0, (21, 0), 100000, CtUnconfirmed, None)]),
     Some (true, (Some 122, [(External, 0, (21, 0), 100000, CtConfirmed 111 1600066600, None); (External, 1, (50, 0), 7000, CtUnconfirmed, None)]))))
    as (n & d & evs & b & w & Hn & Hd & Ei & Ho).
  { rewrite <- (app_nil_r tn_steps). apply tn_steps_hashed. constructor. }
  { vm_compute. reflexivity. }
  unfold tn_does in Ho. apply (inj Some), pair_equal_spec in Ho as [Ho Hr]. apply pair_equal_spec in Ho as [_ Hw].
  destruct (tn_run n ct_default w) as [k [[w' evs'] [[]|]]| | |] eqn:Er; try discriminate Hr. apply (inj Some), pair_equal_spec in Hr as [He Hw'].
  exists n, d, evs, b, w, k, w', evs'. do 3 (split; [done|]). split; [exact Hw|]. split; [exact Er|]. split; [|exact Hw'].
  eapply forallb_ok; [|exact He]. intros ev. apply ct_eventb_ok.
Qed.
