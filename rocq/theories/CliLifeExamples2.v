(** Lives of the command line wallet through reorganisations that its checkpoints do not show (C101). *)
From Verif Require Export CliLifeExamples.
Local Open Scope N_scope.
Local Existing Instances ex_env cli_env PlanExamples.toy_env kcs_codec.

(** ** Checks *)
Definition commitsb (ns : list Net) : bool :=
  forallb (λ n, forallb (λ m, forallb (λ e, match e.2 with
    | Some h => negb (h <=? n_tip m) || negb (n_block n h =? n_block m h) || bool_decide (w_height (net m) (txid e.1) = Some h)
    | None => true end) (n_txs n)) ns) ns.
Lemma commitsb_ok {P} `{ChainPosition P} (wpos : ScanSpec.World → Txid → P) ns :
  (∀ v v' t h, w_height v t = Some h → w_height v' t = Some h → wpos v t = wpos v' t) → commitsb ns = true → blocks_commit wpos (among ns).
Proof.
  intros Hp Hc v w t h (n & Hn & ->) (m & Hm & ->) Hh Hle Hb. eapply Hp; [|exact Hh].
  unfold commitsb in Hc. rewrite forallb_forall in Hc. apply elem_of_list_In, Hc in Hn. rewrite forallb_forall in Hn. apply elem_of_list_In, Hn in Hm.
  cbn [net list_world w_height w_tip w_block] in Hh, Hle, Hb. destruct (w_find (n_txs n) t) as [[a h']|] eqn:E; [|done]. subst h'. apply w_find_Some in E as [Hin Ht].
  rewrite forallb_forall in Hm. apply elem_of_list_In, Hm in Hin. cbn [fst snd] in Hin, Ht. rewrite Ht in Hin.
  apply orb_prop in Hin as [Hin|Hin%bool_decide_eq_true]; [|done]. apply orb_prop in Hin as [Hin%negb_true_iff%N.leb_gt|Hin%negb_true_iff%N.eqb_neq]; [lia|done].
Qed.
(** [l]: what is found again *)
Definition seenb {P} `{ChainPosition P} (wpos : ScanSpec.World → Txid → P) (l : list Txid) (n : Net) (x : Tracker Keychain P) : bool :=
  forallb (λ tp, match pos_height tp.2 with
    | Confirmed h => bool_decide (tp.2 = wpos (net n) tp.1) || existsb (λ kb, (kb.1 <=? h) && negb (kb.2 =? n_block n kb.1)) (bmap_list (sc_cps (cg_chain (tr_cg x)))) ||
        bool_decide (tp.1 ∈ l)
    | Unconfirmed => true end) (bmap_list (sc_pos (cg_chain (tr_cg x)))).
Lemma seenb_ok {P} `{ChainPosition P} (wpos : ScanSpec.World → Txid → P) l n (found : Txid → Prop) (x : Tracker Keychain P) :
  seenb wpos l n x = true → (∀ t, t ∈ l → found t) → seen_again wpos (net n) found x.
Proof.
  unfold seenb. rewrite forallb_forall. intros Hc Hl t p h Hp%elem_of_bmap_list%elem_of_list_In%Hc Eh. cbn [fst snd] in Hp. rewrite Eh in Hp.
  apply orb_prop in Hp as [Hp|Hp%bool_decide_eq_true]; [|right; right; by apply Hl].
  apply orb_prop in Hp as [?%bool_decide_eq_true|Hp]; [by left|right; left].
  apply existsb_exists in Hp as ([k b] & Hin%elem_of_list_In%elem_of_bmap_list & Hb). apply andb_prop in Hb as [?%N.leb_le ?%negb_true_iff%N.eqb_neq].
  exists k, b. done.
Qed.
(** Something is hidden. *)
Lemma hiddenb_not {P} `{ChainPosition P} (wpos : ScanSpec.World → Txid → P) n (x : Tracker Keychain P) : hiddenb wpos n x = false → ¬ no_hidden_reorg wpos (net n) x.
Proof.
  intros Hf Hn. assert (hiddenb wpos n x = true) as Ht; [|by rewrite Hf in Ht]. unfold hiddenb. apply forallb_forall.
  intros [t p] Hin%elem_of_list_In%elem_of_bmap_list. cbn [fst snd]. destruct (pos_height p) as [h|] eqn:Eh; [|done]. apply orb_true_iff.
  destruct (Hn t p h Hin Eh) as [Hp|(k & b & Hk & Hb & Hne)]; [left; by apply bool_decide_eq_true|right].
  apply existsb_exists. exists (k, b). split; [by apply elem_of_list_In, elem_of_bmap_list|]. cbn [fst snd]. apply andb_true_iff. split; [by apply N.leb_le|].
  by apply negb_true_iff, N.eqb_neq.
Qed.

(** ** The electrum wallet *)
Notation cn_seen_life := (dwells kcs_wf cliW (among cns) higher (λ _ _, True) (electrum_seeks true 1 (Some 3)) true 10 1 (Some 3) cli_km).
Lemma cns_commit : blocks_commit w_position (among cns).
Proof. apply commitsb_ok; [|vm_compute; reflexivity]. intros v v' t h E1 E2. unfold w_position. by rewrite E1, E2. Qed.
Definition cn_seek (n : Net) (f : SyncFlags) (w : CliModel.World TxHeight) : option (CliModel.World TxHeight * list (event TxHeight) * result unit CliError) :=
  if hiddenb w_position n (w_tracker w) then cn_ask n f w else None.
Lemma cn_seeks n f w r : n ∈ cns → cg_ok (tr_cg (w_tracker w)) → cn_seek n f w = Some r → electrum_seeks true 1 (Some 3) (net n) w r.
Proof.
  unfold cn_seek, cn_ask. intros Hn Hok E. destruct (hiddenb _ _ _) eqn:Eh; [|done]. apply hiddenb_ok in Eh.
  destruct (known_check _ _) eqn:Ek; [|done]. destruct (cn_run n f w) as [k r'| | |] eqn:Er; try done. injection E as ->.
  exists (λ _, ScanExamples.honest (net n)), 1%nat, cli_ch, cs_po, 2%nat, 0%nat, k. split; [intros _; by apply cns_sound|]. split; [exact exho_ok|]. split; [exact cs_po_ok|].
  split; [lia|]. left. exists f. split; [|split; [|exact Er]; intros _; by apply known_check_ok].
  intros t p h Hp Hh. destruct (Eh t p h Hp Hh) as [Hq|Hq]; [by left|right; by left].
Qed.
Lemma cn_seen_ok n d evs create faults b (w : CliModel.World TxHeight) : cn_seen_life (net n) d evs → init 10 1 (Some 3) d create faults = Ret (b, Ok w) →
  cg_ok (tr_cg (w_tracker w)).
Proof.
  intros Hd Ei.
  destruct (dwells_lives (P := TxHeight) kcs_wf kcs_codec_ok kcs_range_default cliW true 10 1 (Some 3) cli_km cli_good (among cns) cns_coherent ltac:(done) w_position ltac:(done)
    (λ _ _, True) (electrum_seeks true 1 (Some 3)) (λ x0 v w r Ha Hg _, electrum_sought cliW true 1 (Some 3) cli_km cli_good (among cns) cns_coherent cli_addresses x0 v w r Ha Hg cns_commit)
    (net n) d evs create faults b w Hd Ei) as (_ & [Hg _] & _). exact (good_ok cliW 1 (Some 3) _ Hg).
Qed.
Lemma cn_seen_obs {B} ss (g : Net → CliModel.World TxHeight → option B) o : Forall hashed ss → last_obs 10 cns (event_okb cliW) higherb (λ _ _, true) cn_seek ss g = Some o →
  ∃ n d evs b w, n ∈ cns ∧ cn_seen_life (net n) d evs ∧ init 10 1 (Some 3) d None [] = Ret (b, Ok w) ∧ g n w = Some o.
Proof.
  apply last_obs_ok.
  - intros ev. apply event_okb_ok.
  - intros n m _ _ Hh%N.leb_le. exact Hh.
  - done.
  - intros n f w r d evs create faults b Hn Hd Ei Hr Ea. eapply cn_seeks; [done|by eapply cn_seen_ok|done].
Qed.
Definition cn_sees (n : Net) (w : CliModel.World TxHeight) :=
  Some (hiddenb w_position n (w_tracker w), seenb w_position [21] n (w_tracker w), known_check (net n) (w_tracker w), cs_show (w_tracker w),
    (si_spk_at (ki_inner (tr_index (w_tracker w))) (External, 0), bool_decide (21 ∈ w_history (net n) (exs 1 0))),
    match cn_run n cs_all w with Done _ (w', evs', r) => Some (forallb (event_okb cliW) evs', match r with Ok _ => None | Err e => Some e end, cs_show (w_tracker w')) | _ => None end).
Definition cn_moved : Keychain * N * (N * N) * N * TxHeight * option N := (External, 0, (21, 0), 100000, Confirmed 108, Some 41000).
Lemma cn_seen_example : ∃ n d evs b w k w' evs', n ∈ cns ∧ cn_seen_life (net n) d evs ∧ init 10 1 (Some 3) d None [] = Ret (b, Ok w) ∧
  ¬ no_hidden_reorg w_position (net n) (w_tracker w) ∧ seen_again w_position (net n) (sync_sought (net n) cs_all (w_tracker w)) (w_tracker w) ∧
  cs_show (w_tracker w) = (Some 110, [cn_spent; (Internal, 0, (41000, 1), 59692, Unconfirmed, None)]) ∧
  cn_run n cs_all w = Done k (w', evs', Ok tt) ∧ Forall (event_ok kcs_wf cliW) evs' ∧
  cs_show (w_tracker w') = (Some 122, [cn_moved; (External, 1, (50, 0), 7000, Confirmed 112, None); (Internal, 0, (41000, 1), 59692, Confirmed 118, None)]).
Proof.
  destruct (cn_seen_obs (cn_steps ++ [GoTo 3]) cn_sees (false, true, true, (Some 110, [cn_spent; (Internal, 0, (41000, 1), 59692, Unconfirmed, None)]), (Some (exs 1 0), true),
    Some (true, None, (Some 122, [cn_moved; (External, 1, (50, 0), 7000, Confirmed 112, None); (Internal, 0, (41000, 1), 59692, Confirmed 118, None)]))))
    as (n & d & evs & b & w & Hn & Hd & Ei & Ho).
  { apply cn_steps_hashed. by repeat constructor. }
  { vm_compute. reflexivity. }
  unfold cn_sees in Ho. apply (inj Some), pair_equal_spec in Ho as [Ho Hr]. apply pair_equal_spec in Ho as [Ho [Hsp Hh]%pair_equal_spec].
  apply pair_equal_spec in Ho as [Ho Hw]. apply pair_equal_spec in Ho as [Ho _]. apply pair_equal_spec in Ho as [Hid Hs].
  destruct (cn_run n cs_all w) as [k [[w' evs'] [[]|]]| | |] eqn:Er; try discriminate Hr. apply (inj Some), pair_equal_spec in Hr as [Hr Hw'].
  apply pair_equal_spec in Hr as [He _]. apply bool_decide_eq_true in Hh.
  exists n, d, evs, b, w, k, w', evs'. do 3 (split; [done|]). split; [by apply hiddenb_not|].
  split. { apply (seenb_ok w_position [21]); [exact Hs|]. intros t Ht. apply elem_of_list_singleton in Ht as ->. left. exists (External, 0), (exs 1 0).
    split; [exact Hsp|]. split; [left; reflexivity|exact Hh]. }
  split; [exact Hw|]. split; [exact Er|]. split; [|exact Hw']. eapply forallb_ok; [|exact He]. intros ev. apply event_okb_ok.
Qed.

(** ** The esplora wallet *)
(** Transaction 21 is in another block, and the wallet knows none of the blocks from 111 on but the last. *)
Definition tn_deep (h : N) : BlockHash := if h <? 111 then h else 5000 + h.
Definition tn4 : Net := mkNet 124 tn_deep [(cs90, Some 10); (cliA, Some 120); (cs50 1, Some 113)].
Definition ths : list Net := [tn1; tn2; tn4].
Lemma ths_checked : Forall (λ n, list_check cliW (n_tip n) (n_txs n) = true ∧ list_apart (n_txs n) = true ∧ (length (n_txs n) ≤ 20)%nat) ths.
Proof. repeat (apply Forall_cons; split; [split; [vm_compute; reflexivity|split; [vm_compute; reflexivity|cbn; lia]]|]). constructor. Qed.
Lemma ths_coherent : coherent cliW (among ths).
Proof.
  apply among_coherent.
  - eapply Forall_impl; [exact ths_checked|]. by intros n [? _].
  - vm_compute. reflexivity.
  - unfold ths. intros n m a b Hn Hm Hab. rewrite !elem_of_cons, elem_of_nil in Hn, Hm.
    destruct Hn as [->|[->|[->|[]]]]; destruct Hm as [->|[->|[->|[]]]]; cbn [n_block tn1 tn2 tn4]; try done;
      unfold cs_block, tn_deep; intros Hb; repeat case_match; repeat match goal with Hz : (_ <? _) = true |- _ => apply N.ltb_lt in Hz | Hz : (_ <? _) = false |- _ => apply N.ltb_ge in Hz end; lia.
Qed.
Lemma ths_commit : blocks_commit tn_pos (among ths).
Proof. apply commitsb_ok; [|vm_compute; reflexivity]. intros v v' t h E1 E2. unfold w_time_position, tn_time. by rewrite E1, E2. Qed.
Lemma ths_sound n : n ∈ ths → esplora_honest (net n) (tn_time (net n)) (tn_server n) ∧
  ∀ sp, (length (w_mempool (net n) sp) ≤ 50)%nat ∧ (length (w_confirmed (net n) sp) < 25 * 1)%nat.
Proof.
  intros Hn. pose proof ths_checked as Hc. rewrite Forall_forall in Hc. apply Hc in Hn as (H1 & H2 & H3). split; [exact (list_esplora _ _ _ _ _ H1 H2)|].
  intros sp. by apply list_pages.
Qed.
Notation th_life := (dwells kcs_wf cliW (among ths) higher (λ _ _, True) (esplora_seeks tn_time 1 (Some 3)) true 10 1 (Some 3) cli_km).
Definition th_seek (n : Net) (f : SyncFlags) (w : CliModel.World ConfirmationTime) : option (CliModel.World ConfirmationTime * list (event ConfirmationTime) * result unit CliError) :=
  if hiddenb tn_pos n (w_tracker w) then tn_ask n f w else None.
Lemma th_seeks n f w r : n ∈ ths → th_seek n f w = Some r → esplora_seeks tn_time 1 (Some 3) (net n) w r.
Proof.
  unfold th_seek, tn_ask. intros Hn E. destruct (hiddenb _ _ _) eqn:Eh; [|done]. apply hiddenb_ok in Eh.
  destruct (tn_run n f w) as [k r'| | |] eqn:Er; try done. injection E as ->. destruct (ths_sound n Hn) as [H1 H2].
  exists (λ _, tn_server n), 0%nat, ct_ch, ct_po, 2%nat, 0%nat, k. split; [done|]. split; [exact exho_ok|]. split; [done|].
  split; [intros; apply H2|]. left. exists f. split; [|exact Er]. intros t p h Hp Hh. destruct (Eh t p h Hp Hh) as [Hq|Hq]; [by left|right; by left].
Qed.
Lemma th_obs_ok {B} ss (g : Net → CliModel.World ConfirmationTime → option B) o : Forall hashed ss →
  last_obs 10 ths ct_eventb higherb (λ _ _, true) th_seek ss g = Some o →
  ∃ n d evs b w, n ∈ ths ∧ th_life (net n) d evs ∧ init 10 1 (Some 3) d None [] = Ret (b, Ok w) ∧ g n w = Some o.
Proof.
  apply last_obs_ok.
  - intros ev. apply ct_eventb_ok.
  - intros n m _ _ Hh%N.leb_le. exact Hh.
  - done.
  - intros n f w r d evs create faults b Hn Hd Ei Hr Ea. by eapply th_seeks.
Qed.
Lemma th_ok n d evs create faults b (w : CliModel.World ConfirmationTime) : th_life (net n) d evs → init 10 1 (Some 3) d create faults = Ret (b, Ok w) → cg_ok (tr_cg (w_tracker w)).
Proof.
  intros Hd Ei.
  destruct (dwells_lives (P := ConfirmationTime) kcs_wf kcs_codec_ok kcs_range_default cliW true 10 1 (Some 3) cli_km cli_good (among ths) ths_coherent ltac:(done) tn_pos (λ v, time_height v (tn_time v))
    (λ _ _, True) (esplora_seeks tn_time 1 (Some 3))
    (λ x0 v w r Ha Hg _, esplora_sought cliW true 1 (Some 3) cli_km cli_good (among ths) ths_coherent cli_addresses tn_time (λ _, rs_time_ok) x0 v w r Ha Hg ths_commit)
    (net n) d evs create faults b w Hd Ei) as (_ & [Hg _] & _). exact (good_ok cliW 1 (Some 3) _ Hg).
Qed.
(** The wallet shows an unspent output of [t]. *)
Definition unspentb (x : Tracker Keychain ConfirmationTime) (t : Txid) : bool :=
  existsb (λ kf, (op_txid (fto_outpoint kf.2) =? t) && bool_decide (fto_spent_by kf.2 = None)) (full_txouts (exho (cg_graph (tr_cg x))) x).
Lemma unspentb_ok x t : cg_ok (tr_cg x) → unspentb x t = true → ∃ ki g, unspent x ki g ∧ op_txid (fto_outpoint g) = t.
Proof.
  intros Hok (kf & Hin%elem_of_list_In & [Ht%N.eqb_eq Hs%bool_decide_eq_true]%andb_prop)%existsb_exists. destruct kf as [ki g]. exists ki, g. split; [|exact Ht]. split; [|exact Hs].
  apply (full_txouts_owned (exho (cg_graph (tr_cg x)))) in Hin; [done|done|apply exho_ok].
Qed.
Lemma th_example : ∃ n d evs b w k w' evs', n ∈ ths ∧ th_life (net n) d evs ∧ init 10 1 (Some 3) d None [] = Ret (b, Ok w) ∧
  ¬ no_hidden_reorg tn_pos (net n) (w_tracker w) ∧ seen_again tn_pos (net n) (sync_sought (net n) ct_default (w_tracker w)) (w_tracker w) ∧
  ct_show (w_tracker w) = (Some 122, [(External, 0, (21, 0), 100000, CtConfirmed 111 1600066600, None); (External, 1, (50, 0), 7000, CtUnconfirmed, None)]) ∧
  tn_run n ct_default w = Done k (w', evs', Ok tt) ∧ Forall (event_ok kcs_wf cliW) evs' ∧
  ct_show (w_tracker w') = (Some 124, [(External, 0, (21, 0), 100000, CtConfirmed 120 1600072000, None); (External, 1, (50, 0), 7000, CtConfirmed 113 1600067800, None)]).
Proof.
  destruct (th_obs_ok (tn_steps ++ [Ask ct_default; GoTo 2])
    (λ n w, Some (seenb tn_pos [21] n (w_tracker w), unspentb (w_tracker w) 21, bool_decide (is_Some (w_tx (net n) 21)), tn_does n w))
    (true, true, true, Some (false, (Some 122, [(External, 0, (21, 0), 100000, CtConfirmed 111 1600066600, None); (External, 1, (50, 0), 7000, CtUnconfirmed, None)]),
     Some (true, (Some 124, [(External, 0, (21, 0), 100000, CtConfirmed 120 1600072000, None); (External, 1, (50, 0), 7000, CtConfirmed 113 1600067800, None)])))))
    as (n & d & evs & b & w & Hn & Hd & Ei & Ho).
  { apply tn_steps_hashed. by repeat constructor. }
  { vm_compute. reflexivity. }
  apply (inj Some), pair_equal_spec in Ho as [Ho Hdo]. apply pair_equal_spec in Ho as [Ho Htx%bool_decide_eq_true]. apply pair_equal_spec in Ho as [Hs Hu].
  unfold tn_does in Hdo. apply (inj Some), pair_equal_spec in Hdo as [Hdo Hr]. apply pair_equal_spec in Hdo as [Hh Hw]. apply hiddenb_not in Hh.
  destruct (tn_run n ct_default w) as [k [[w' evs'] [[]|]]| | |] eqn:Er; try discriminate Hr. apply (inj Some), pair_equal_spec in Hr as [He Hw'].
  exists n, d, evs, b, w, k, w', evs'. do 3 (split; [done|]). split; [exact Hh|].
  split. { apply (seenb_ok tn_pos [21]); [exact Hs|]. intros t Ht. apply elem_of_list_singleton in Ht as ->. right. split; [reflexivity|].
    apply unspentb_ok in Hu as (ki & g & Hg & Ht); [|exact (th_ok _ _ _ _ _ _ _ Hd Ei)]. exists ki, g. rewrite Ht. split; [exact Hg|]. split; [exact Htx|]. by left. }
  split; [exact Hw|]. split; [exact Er|]. split; [|exact Hw']. eapply forallb_ok; [|exact He]. intros ev. apply ct_eventb_ok.
Qed.
