(** The sync and scan commands at an honest server (C99, C100). *)
From Verif Require Export RestoreProofs7 SyncProofs2 CliProofs8 CliSyncSpec HashCliProofs.
From Verif Require Import ElectrumProofs CliProofs3.
Local Open Scope N_scope.

Lemma ord_sorted_NoDup `{OrdLaws X} (l : list X) : StronglySorted ord_lt l → NoDup l.
Proof.
  induction 1 as [|a l Hs IH Ha]; constructor; [|done]. intros Hin. rewrite Forall_forall in Ha. by apply (ord_lt_irrefl a), Ha.
Qed.
(** A wallet's scripts can be counted. *)
Lemma few_keys (l : list (Keychain * N)) (b : N) : NoDup l → Forall (λ ki, ki.2 < b) l → N.of_nat (length l) ≤ 2 * b.
Proof.
  intros Hn Hl. set (f := λ ki : Keychain * N, N.to_nat (match ki.1 with External => 2 * ki.2 | Internal => 2 * ki.2 + 1 end)).
  assert (length l ≤ N.to_nat (2 * b))%nat as H; [|lia].
  rewrite <- (fmap_length f l), <- (seq_length (N.to_nat (2 * b)) 0). apply submseteq_length. apply NoDup_submseteq.
  - apply (NoDup_fmap_2_strong f); [|done]. intros [k i] [k' i'] _ _ Hf. unfold f in Hf. cbn [fst snd] in Hf.
    destruct k, k'; [|lia|lia|]; by assert (i = i') as -> by lia.
  - intros n Hn'. apply elem_of_list_fmap in Hn' as ([k i] & -> & Hin). apply elem_of_seq. rewrite Forall_forall in Hl. apply Hl in Hin.
    unfold f. cbn [fst snd] in *. destruct k; lia.
Qed.

Section finish.
Context `{!DescEnv, !CliEnv} {C : Codec (KChangeSet Keychain TxHeight)}.
Context (A : Keychain → option Desc) (HA : good_env A).
Context (W : Txid → list OutPoint) (v : ScanSpec.World) (Hw : world_ok v) (Hsane : world_sane W v).
Context (Htx : ∀ t a, w_tx v t = Some a → tx_ok a).
Notation wpos := (w_position v).

(** The server hands out what is missing. *)
Lemma batch_ok s l : electrum_honest v s → Forall (λ t, is_Some (w_tx v t)) l →
  ∃ ts, batch_txs s l = Ok ts ∧ Forall (λ t, w_tx v (txid t) = Some t) ts ∧ ∀ i, i ∈ l → ∃ t, t ∈ ts ∧ txid t = i.
Proof using Hw.
  intros Hs. induction l as [|i l IH]; intros Hl; cbn [batch_txs].
  - exists []. split; [done|]. split; [constructor|]. by intros i Hi%elem_of_nil.
  - apply Forall_cons in Hl as [[t Ht] Hl]. rewrite (eh_tx _ _ Hs i), Ht. destruct (IH Hl) as (ts & -> & H1 & H2).
    destruct (wo_tx v Hw i t Ht) as [Ei _]. exists (t :: ts). split; [done|]. split.
    + constructor; [by rewrite Ei|done].
    + intros j [->|Hj]%elem_of_cons; [exists t; split; [by left|done]|]. destruct (H2 j Hj) as (t' & Ht' & <-). exists t'. split; [by right|done].
Qed.

Context (x : Tracker Keychain TxHeight) (hs : list (si_op (Keychain * N))).
Context (Hi : ki_inv A hs (tr_index x)) (Hcg : cg_ok (tr_cg x)) (Hin : inputs_by_txid W (cg_graph (tr_cg x))).

(** The end of both commands: the scan is applied, whatever the store says. *)
Lemma finish_ok srv ch po w (e : ElectrumUpdate Keychain TxHeight) kspks (gap : N) (Q : World TxHeight * list (event TxHeight) * result unit CliError → Prop) :
  w_tracker w = x → fit_seen v wpos (λ t, is_Some (sc_pos (eu_chain e) !! t)) x →
  (∀ n, electrum_honest v (srv n)) → hash_fun_ok (ch_hash ch) → (∀ c, po c ≡ₚ map_to_list (sc_pos c)) →
  chain_ok (eu_chain e) → connects v (sc_cps (cg_chain (tr_cg x))) (sc_cps (eu_chain e)) →
  (∀ t p, sc_pos (eu_chain e) !! t = Some p → p = wpos t ∧ is_Some (w_tx v t)) →
  scripts_of (tr_index x) kspks →
  (∀ k l p i s t, kspks !! k = Some l → l !! p = Some (i, s) → within_gap gap (activity v l) p →
    t ∈ w_history v s → is_Some (sc_pos (eu_chain e) !! t)) →
  (∀ k j, eu_active e !! k = Some j ↔
      ∃ l, kspks !! k = Some l ∧ found_index v gap l j ∧ ∀ j2, found_index v gap l j2 → j2 ≤ j) →
  (∀ sc x' cs r ho1 new_txs, scan_ok v wpos x (within v gap kspks) sc → cg_chain (ks_update sc) = eu_chain e →
     into_keychain_scan ho1 e new_txs (tr_cg x) = Ret (Ok sc) → Forall (λ t, w_tx v (txid t) = Some t) new_txs →
     hash_order (inflate_graph (tr_cg x) (eu_chain e) new_txs) ho1 →
     tr_apply_update (ch_hash ch (cg_graph (tr_cg x))) x sc (po (eu_chain e)) = Ret (Ok (x', cs)) →
     electrum_apply ch w sc (po (eu_chain e)) = Ret r → Q r) →
  ends (electrum_finish srv ch po w e) Q.
Proof using All.
  intros Ex Hfit Hsrv Hho Hpo Hc Hcon Hpos Hsp Hfound Hact HQ. unfold electrum_finish. rewrite Ex.
  destruct Hfit as (Hlim & Hbm & Hcbt & Htrue & Hag).
  eapply ends_bnd. { apply ends_req. intros n. apply (batch_ok (srv n)); [done|]. unfold missing_full_txs. apply Forall_fmap, Forall_forall.
    intros [p t] [_ Hin']%elem_of_list_filter. rewrite txids_elem in Hin' by apply Hc. by apply Hpos in Hin' as [_ ?]. }
  intros new_txs [Hnew Hall].
  destruct (inflated_ok W v wpos Hsane x kspks gap e new_txs (ch_hash ch (inflate_graph (tr_cg x) (eu_chain e) new_txs))
    Hcg Hin Hag Hsp Hc Hcon Hpos Hfound Hact Hnew Hall (Hho _)) as (sc & Ei & Hch & Hso).
  eapply ends_bnd. { apply ends_lift. exists (Ok sc). split; [exact Ei|]. exact (eq_refl (Ok sc)). }
  intros r <-. apply ends_lift.
  assert (po (eu_chain e) ≡ₚ map_to_list (sc_pos (cg_chain (ks_update sc)))) as Hord by (by rewrite Hch).
  assert (local_seen v wpos (in_chain (ks_update sc)) (cg_chain (tr_cg x))) as Htrue' by (eapply seen_mono; [|exact Htrue]; intros t Ht; unfold in_chain; by rewrite Hch).
  destruct (synced A HA W v wpos Hw Hsane ltac:(done) Htx x hs (within v gap kspks) sc Hso Hi Hcg Hin Hbm Hcbt Htrue' Hag (ch_hash ch) (po (eu_chain e)) Hho Hord)
    as (x' & cs & hs' & E & _).
  assert (∃ r, electrum_apply ch w sc (po (eu_chain e)) = Ret r) as [r Ea]; [|exists r; split; [done|by eapply HQ]].
  unfold electrum_apply. rewrite Ex. unfold tr_apply_update in E.
  destruct (tr_determine_changeset _ _ _ _) as [[cs'|]|]; [|done..]. destruct (tr_apply_changeset x cs') as [x1|] eqn:E1; [|done].
  cbn [mbind outcome_bind]. destruct (db_append w cs') as [[w1 ev] [u|er]] eqn:Ed; [|by eexists].
  apply db_append_disk in Ed as (_ & -> & _). rewrite Ex, E1. cbn [mbind outcome_bind]. by eexists.
Qed.

End finish.

(** Nothing happens to the store. *)
Lemma apply_fine `{!DescEnv, !CliEnv} `{ChainPosition P} {C : Codec (KChangeSet Keychain P)} ch (w : World P) sc ord x' cs r :
  default NoFault (head (w_faults w)) = NoFault → tr_apply_update (ch_hash ch (cg_graph (tr_cg (w_tracker w)))) (w_tracker w) sc ord = Ret (Ok (x', cs)) →
  electrum_apply ch w sc ord = Ret r ∨ esplora_apply ch w sc ord = Ret r → ∃ w', r = (w', [EvAppend cs NoFault], Ok tt) ∧ w_tracker w' = x'.
Proof.
  intros Hf E. assert (∀ f, (append_changeset f cs NoFault).2 = Ok tt) as Hok.
  { intros f. unfold append_changeset. destruct (kcs_is_empty cs); [done|]. cbn [snd]. by rewrite andb_false_r. }
  intros [Ea|Ea].
  - unfold electrum_apply, tr_apply_update in *. destruct (tr_determine_changeset _ _ _ _) as [[cs'|]|]; [|done..].
    destruct (tr_apply_changeset (w_tracker w) cs') as [x1|] eqn:E1; [|done]. injection E as -> ->. cbn [mbind outcome_bind] in Ea.
    unfold db_append in Ea. rewrite Hf, Hok in Ea. cbn [w_tracker] in Ea. rewrite E1 in Ea. injection Ea as <-. by eexists.
  - unfold esplora_apply in Ea. rewrite E in Ea. cbn [mbind outcome_bind] in Ea. unfold db_append in Ea. cbn [w_faults with_tracker] in Ea.
    rewrite Hf, Hok in Ea. injection Ea as <-. by eexists.
Qed.

Section sync.
Context `{!DescEnv, !CliEnv} `{ChainPositionLaws P}.
Context (A : Keychain → option Desc) (HA : good_env A).
Context (W : Txid → list OutPoint) (v : ScanSpec.World) (wpos : Txid → P) (Hw : world_ok v) (Hsane : world_sane W v).
Context (Hwpos : ∀ t, pos_height (wpos t) = w_position v t) (Htx : ∀ t a, w_tx v t = Some a → tx_ok a).
Context (x : Tracker Keychain P) (hs : list (si_op (Keychain * N))).
Context (Hi : ki_inv A hs (tr_index x)) (Hcg : cg_ok (tr_cg x)) (Hin : inputs_by_txid W (cg_graph (tr_cg x))).

(** What the wallet has stored it can be paid at, and recognizes. *)
Lemma stored_paid k i sp u : si_spk_at (ki_inner (tr_index x)) (k, i) = Some sp → txo_spk u = sp → paid (tr_index x) k i u.
Proof using Hi HA.
  intros Hs <-. destruct (proj1 Hi) as (C1 & _ & C3 & C4 & _). destruct (C3 _ _ _ Hs) as (d & Hd & Hder). exists d. split; [done|]. split; [|done].
  destruct (C4 k d Hd) as (n & Hn & Hc & _). assert (i < n) by (apply Hn; by exists (txo_spk u)). lia.
Qed.
Lemma stored_found ki sp : si_spk_at (ki_inner (tr_index x)) ki = Some sp → si_index_of_spk (ki_inner (tr_index x)) sp = Some ki.
Proof using Hi.
  destruct (proj1 (proj2 (proj1 Hi))) as (Erun & Hsok & Ho & _). intros Hs.
  apply (spk_at_exact hs _ ki sp) in Hs; [|done..]. unfold si_index_of_spk. pose proof (si_good_inv hs _ (proj1 (proj2 (proj1 Hi)))) as (J1 & _). by rewrite J1.
Qed.

(** The scripts asked for can be counted in a [usize]. *)
Lemma few_scripts ch (f : SyncFlags) spks txids outs : sync_request ch x f = Ret (spks, txids, outs) → N.of_nat (length spks) ≤ u64_max.
Proof using Hi.
  assert (∀ ki sp, si_spk_at (ki_inner (tr_index x)) ki = Some sp → ki.2 < 1073741825) as Hb.
  { intros [k i] sp Hs. destruct (proj1 Hi) as (C1 & _ & C3 & C4 & _). destruct (C3 _ _ _ Hs) as (d & Hd & _).
    destruct (C4 k d Hd) as (n & Hn & Hc & _). assert (i < n) by (apply Hn; by exists sp). pose proof (cap_bound d). cbn. lia. }
  destruct (proj1 (proj2 (proj1 Hi))) as (Erun & Hsok & Ho & _).
  pose proof (unused_spks_exact hs (ki_inner (tr_index x)) Unb Unb Hsok Ho Erun) as Hu.
  unfold sync_request. intros E. bind_in E un E1. bind_in E tx E2. injection E as <- _ _. rewrite app_length.
  assert (∀ B : Prop, 2 * 1073741825 + 2 * 1073741825 ≤ u64_max) as Hm by (intros _; by apply N.leb_le).
  assert (N.of_nat (length (if sf_all (sync_flags f) then snd <$> bmap_list (si_spks (ki_inner (tr_index x))) else [])) ≤ 2 * 1073741825) as Ha.
  { destruct (sf_all _); [|cbn; lia]. rewrite fmap_length, <- (fmap_length fst). apply few_keys; [apply NoDup_fst_bmap_list|].
    apply Forall_fmap, Forall_forall. intros [ki sp] Hin'%elem_of_bmap_list. by eapply Hb. }
  assert (N.of_nat (length un) ≤ 2 * 1073741825) as Hun.
  { destruct (sf_unused _); [|injection E1 as <-; cbn; lia]. destruct (si_unused_spks _ _ _) as [l|]; [|done]. cbn [mbind outcome_bind] in E1.
    destruct Hu as (_ & Hs & Hl). rewrite (all_ret_if has_address (l.*2)) in E1. destruct (forallb _ _); [|done]. injection E1 as <-.
    rewrite fmap_length, <- (fmap_length fst). apply few_keys.
    - by apply ord_sorted_NoDup.
    - apply Forall_fmap, Forall_forall. intros [ki sp] (Hin' & _)%Hl. apply (spk_at_exact hs (ki_inner (tr_index x)) ki sp) in Hin'; [|done..]. by eapply Hb. }
  specialize (Hm True). lia.
Qed.

(** What the flags ask for is found. *)
Lemma sought_in (f : SyncFlags) (spks : list Script) (outs : list OutPoint) (c : SparseChain P) t : agrees v x →
  (∀ sp, sp ∈ spks ↔ ∃ ki, si_spk_at (ki_inner (tr_index x)) ki = Some sp ∧ asked_script f x ki) →
  (∀ o, o ∈ outs ↔ sf_utxos (sync_flags f) = true ∧ ∃ ki g, unspent x ki g ∧ fto_outpoint g = o) →
  (∀ o t u, o ∈ outs → w_tx v (op_txid o) = Some t → tx_out t !! N.to_nat (op_vout o) = Some u →
     is_Some (sc_pos c !! op_txid o) ∧ ∀ s, s ≠ op_txid o → w_spends v o s → is_Some (sc_pos c !! s)) →
  (∀ s t, s ∈ spks → t ∈ w_history v s → is_Some (sc_pos c !! t)) →
  sync_sought v f x t → is_Some (sc_pos c !! t).
Proof using.
  intros Hag Hspks Houts Hfo Hfs [(ki & sp & Hs & Ha & Ht)|(Hf & ki & g & Hg & [a Ha] & Ht)].
  - eapply Hfs; [|done]. apply Hspks. by exists ki.
  - assert (fto_outpoint g ∈ outs) as Ho by (apply Houts; split; [done|by exists ki, g]).
    destruct Hg as [[[u Hu] _] _]. pose proof (proj2 Hag _ _ _ _ Hu Ha) as Hu1. destruct (Hfo _ a u Ho Ha Hu1) as [F1 F2].
    destruct (decide (t = op_txid (fto_outpoint g))) as [->|Hne]; [done|]. destruct Ht as [->|Ht]; [done|by apply F2].
Qed.
(** A scan for what the flags ask for, applied. *)
Lemma applied_in_sync (f : SyncFlags) (spks : list Script) (txids : list Txid) (outs : list OutPoint) (c : SparseChain P) (F : Keychain → N → Prop) sc ho ord x' cs :
  fit_seen v wpos (λ t, is_Some (sc_pos c !! t)) x →
  (∀ sp, sp ∈ spks ↔ ∃ ki, si_spk_at (ki_inner (tr_index x)) ki = Some sp ∧ asked_script f x ki) →
  (∀ t, t ∈ txids ↔ sf_unconfirmed (sync_flags f) = true ∧ ∃ p, sc_pos (cg_chain (tr_cg x)) !! t = Some p ∧ pos_height p = Unconfirmed) →
  (∀ o, o ∈ outs ↔ sf_utxos (sync_flags f) = true ∧ ∃ ki g, unspent x ki g ∧ fto_outpoint g = o) →
  (∀ k i, ¬ F k i) →
  (∀ o t u, o ∈ outs → w_tx v (op_txid o) = Some t → tx_out t !! N.to_nat (op_vout o) = Some u →
     is_Some (sc_pos c !! op_txid o) ∧ ∀ s, s ≠ op_txid o → w_spends v o s → is_Some (sc_pos c !! s)) →
  (∀ s t, s ∈ spks → t ∈ w_history v s → is_Some (sc_pos c !! t)) →
  (∀ t, t ∈ txids → is_Some (w_tx v t) → is_Some (sc_pos c !! t)) →
  (∀ t p, sc_pos c !! t = Some p → p = wpos t) →
  scan_ok v wpos x F sc → cg_chain (ks_update sc) = c → hash_fun_ok ho → ord ≡ₚ map_to_list (sc_pos c) →
  tr_apply_update (ho (cg_graph (tr_cg x))) x sc ord = Ret (Ok (x', cs)) → in_sync v wpos f x x'.
Proof using All.
  intros Hfit0 Hspks Htxids Houts HF Hfo Hfs Hft Hpos Hso Hch Hho Hord E. rewrite <- Hch in Hord.
  assert (fit_seen v wpos (in_chain (ks_update sc)) x) as Hfit by (eapply fit_seen_mono; [|exact Hfit0]; intros t Ht; unfold in_chain; by rewrite Hch).
  destruct (rescanned A HA W v wpos Hw Hsane Hwpos Htx hs x _ sc ho ord Hi Hcg Hin Hfit Hso Hho Hord)
    as (x1 & cs1 & E1 & T1 & T2 & _ & _ & T3 & T4). rewrite E in E1. injection E1 as <- <-.
  pose proof Hfit as (Hlim & Hbm & Hcbt & Htrue & Hag).
  destruct (synced A HA W v wpos Hw Hsane Hwpos Htx x hs _ sc Hso Hi Hcg Hin Hbm Hcbt Htrue Hag ho ord Hho Hord)
    as (x1 & cs1 & hs' & E1 & _ & Hok & _ & _ & P1 & _ & G & _ & _ & _ & I3 & _ & I8). rewrite E in E1. injection E1 as <- <-.
  assert (∀ ki o t u, w_tx v (op_txid o) = Some t → tx_out t !! N.to_nat (op_vout o) = Some u → si_txout (ki_inner (tr_index x')) o = Some (ki, u) →
    is_Some (sc_pos c !! op_txid o) → (∀ s b, w_tx v s = Some b → o ∈ tx_in b → is_Some (sc_pos c !! s)) → has_right v wpos x' ki o) as Hright.
  { intros ki o t u Ht Hu Ho Hc Hsp.
    destruct (found_owned A HA W v wpos Hw Hsane Hwpos Htx x hs _ sc Hso Hi Hcg Hin Hbm Hcbt Htrue Hag ho ord x' cs o t u ki Hho Hord E Ht Hu Ho)
      as (g & R1 & R2 & R3 & R4 & R5).
    - unfold in_chain. by rewrite Hch.
    - unfold in_chain. by rewrite Hch.
    - by exists g. }
  constructor.
  - done.
  - done.
  - done.
  - done.
  - intros Hf t p0 Hp Hu Hk. destruct (Hft t) as [p Hc]; [|done|].
    { apply Htxids. split; [done|]. by exists p0. }
    rewrite (P1 t p) by (by rewrite Hch). f_equal. by apply Hpos.
  - intros Hf ki g Hg [t Ht]. assert (fto_outpoint g ∈ outs) as Ho by (apply Houts; split; [done|by exists ki, g]).
    destruct Hg as [[[u Hu] (a & Ha & _ & Ha1 & _)] _].
    assert (a = t) as -> by (by eapply (proj1 Hag)).
    pose proof (proj2 Hag _ _ _ _ Hu Ht) as Hu1. assert (u = fto_txout g) as -> by congruence.
    destruct (Hfo _ t (fto_txout g) Ho Ht Hu1) as [F1 F2].
    eapply Hright; [done|done| |done|].
    + by rewrite (I3 _ t Ha).
    + intros s b Hb Hin'. destruct (decide (s = op_txid (fto_outpoint g))) as [->|Hne]; [done|]. apply F2; [done|]. split; [by exists b|].
      intros s' b' Hb' Ho'. apply (ws_conflict W v Hsane s' s b' b Hb' Hb). exists (fto_outpoint g).
      split; [|done]. intros En. rewrite En in Hu1. apply Htx in Ht as [_ Hl]. apply lookup_lt_Some in Hu1. cbn [null_outpoint op_vout] in Hu1. lia.
  - intros [k i] sp Hs Hask o (t & u & Ht & Hu & Hsp) Hno.
    assert (txo_spk u ∈ spks) as Hin' by (apply Hspks; exists (k, i); by rewrite Hsp).
    assert (is_Some (sc_pos c !! op_txid o)) as Hc.
    { apply (Hfs (txo_spk u)); [done|]. eapply wo_creates; [done|done|]. by eapply elem_of_list_lookup_2. }
    pose proof (stored_paid k i sp u Hs Hsp) as Hpd.
    eapply Hright; [done|done| |done|].
    + destruct (get_tx (cg_graph (tr_cg x)) (op_txid o)) as [a|] eqn:Ea.
      * assert (a = t) as -> by (by eapply (proj1 Hag)). rewrite (I3 _ t Ea).
        destruct (si_txout (ki_inner (tr_index x)) o) as [[[k' i'] u']|] eqn:Ho; [|by destruct Hno; split; [exists t|]].
        pose proof (proj2 Hag o (k', i') u' t Ho Ht) as Hu2. assert (u' = u) as -> by congruence.
        apply (entry_paid A hs) in Ho; [|done]. destruct (paid_fun A (tr_index x) k' i' k i u HA (proj1 (proj1 Hi)) Ho Hpd) as [-> ->]. done.
      * destruct (proj1 (proj2 (proj2 Hok)) (op_txid o)) as [a Ha].
        { destruct Hc as [p Hp]. exists p. apply P1. by rewrite Hch. }
        rewrite <- Hsp in Hs. pose proof Ha as Ha'. rewrite G, Ea in Ha'. apply (so_tx _ _ _ _ _ Hso) in Ha'. assert (a = t) as -> by congruence.
        eapply I8; [done|done|done|]. by apply stored_found.
    + intros s b Hb Ho. apply (Hfs (txo_spk u)); [done|]. by eapply wo_spends.
Qed.
End sync.

(** ** All the scripts of a descriptor *)
Section scripts.
Context `{!DescEnv}.
Lemma range_index d n : ∀ i p j s, range_spks_go d n i !! p = Some (j, s) → j = i + N.of_nat p.
Proof.
  induction n as [|n IH]; intros i p j s; cbn [range_spks_go]; [done|].
  destruct (has_wildcard d || bool_decide (i = 0)); [|done]. destruct (bool_decide (i ≤ bip32_max)); [|done].
  destruct (derive d i) as [s0|]; [|done]. destruct p as [|p]; cbn [lookup list_lookup].
  - intros [= <- <-]. lia.
  - intros Hr%IH. lia.
Qed.
Lemma all_lookup hi d p j s : good_desc d → cap d ≤ hi → range_spks d 0 hi !! p = Some (j, s) ↔ j = N.of_nat p ∧ j < cap d ∧ derive d j = Some s.
Proof.
  intros Hg Hhi. destruct (range_spks_spec d 0 hi Hg) as [_ He].
  assert (∀ p j s, range_spks d 0 hi !! p = Some (j, s) → j = N.of_nat p) as Hp.
  { intros p' j' s' Hr. apply range_index in Hr. lia. }
  split.
  - intros Hr. split; [by eapply Hp|]. apply elem_of_list_lookup_2, He in Hr as (_ & H1 & H2). split; [lia|done].
  - intros (-> & Hc & Hd). assert ((N.of_nat p, s) ∈ range_spks d 0 hi) as Hr.
    { apply He. split; [lia|]. split; [lia|done]. }
    apply elem_of_list_lookup in Hr as [q Hq]. pose proof (Hp _ _ _ Hq). by assert (q = p) as -> by lia.
Qed.
Lemma all_activity hi v d p (b : bool) : good_desc d → cap d ≤ hi →
  activity v (range_spks d 0 hi) !! p = Some b ↔
  N.of_nat p < cap d ∧ if b then known_script v d (N.of_nat p) else ¬ known_script v d (N.of_nat p).
Proof.
  intros Hg Hhi. unfold activity. rewrite list_lookup_fmap_Some. split.
  - intros ([j s] & Hl & Hb). apply (all_lookup hi d p j s Hg Hhi) in Hl as (-> & Hc & Hd). split; [done|]. cbn [snd] in Hb.
    destruct (bool_decide (w_history v s = [])) eqn:E; cbn in Hb; subst b.
    + intros (s' & Hs & Hn). apply bool_decide_eq_true in E. congruence.
    + exists s. split; [done|]. by apply bool_decide_eq_false in E.
  - intros [Hc Hb]. destruct (Hg _ Hc) as [s Hs]. exists (N.of_nat p, s). split; [by apply (all_lookup hi d p)|]. cbn [snd].
    destruct b.
    + destruct Hb as (s' & Hs' & Hn). rewrite bool_decide_false; [done|congruence].
    + rewrite bool_decide_true; [done|]. destruct (w_history v s) eqn:E; [done|]. destruct Hb. exists s. split; [done|]. by rewrite E.
Qed.
Lemma cap_all d : cap d ≤ bip32_max + 1.
Proof. unfold cap. destruct (has_wildcard d); lia. Qed.
Lemma all_within v (gap : N) (A : Keychain → option Desc) (ix : KIndex Keychain) k i :
  good_env A → (∀ k d, ki_keychains ix !! k = Some d ↔ A k = Some d) →
  within v gap (spks_of_all_keychains ix) k i ↔ in_gap v gap A k i.
Proof.
  intros HA Hk. unfold within, in_gap, spks_of_all_keychains.
  pose proof cap_all as Hhi. revert Hhi. generalize (bip32_max + 1). intros hi Hhi. split.
  - intros (l & Hl & p & sp & Hp & [Ha Hgap]). apply lookup_fmap_Some in Hl as (d & <- & Hd%Hk). pose proof (proj1 HA k d Hd) as Hg.
    apply (all_lookup hi d p _ _ Hg (Hhi d)) in Hp as (-> & Hc & Hs). apply (all_activity hi v d p true Hg (Hhi d)) in Ha as [_ Ha].
    exists d. split; [done|]. split; [done|]. split; [done|]. intros (j & Hj & Hno). apply Hgap. exists (N.to_nat j). split; [lia|].
    intros m Hm1 Hm2. apply (all_activity hi v d m false Hg (Hhi d)). split; [lia|]. apply Hno; lia.
  - intros (d & Hd & Hc & Ha & Hgap). pose proof (proj1 HA k d Hd) as Hg. exists (range_spks d 0 hi).
    split; [apply lookup_fmap_Some; exists d; split; [done|by apply Hk]|]. destruct (Hg i Hc) as [sp Hsp]. exists (N.to_nat i), sp.
    split; [apply (all_lookup hi d _ _ _ Hg (Hhi d)); by rewrite N2Nat.id|]. split.
    + apply (all_activity hi v d _ true Hg (Hhi d)). by rewrite N2Nat.id.
    + intros (s & Hs & Hno). apply Hgap. exists (N.of_nat s). split; [lia|]. intros m Hm1 Hm2.
      assert (activity v (range_spks d 0 hi) !! N.to_nat m = Some false) as Hf by (apply Hno; lia).
      apply (all_activity hi v d _ false Hg (Hhi d)) in Hf as [_ Hf]. by rewrite N2Nat.id in Hf.
Qed.
Lemma all_scripts A (ix : KIndex Keychain) : good_env A → (∀ k d, ki_keychains ix !! k = Some d → A k = Some d) → scripts_of ix (spks_of_all_keychains ix).
Proof.
  intros HA Hk k l. unfold spks_of_all_keychains. pose proof cap_all as Hhi. revert Hhi. generalize (bip32_max + 1). intros hi Hhi Hl. apply lookup_fmap_Some in Hl as (d & <- & Hd). exists d. split; [done|].
  intros p j s. apply all_lookup; [|done]. eapply (proj1 HA). by apply Hk.
Qed.
End scripts.

Section commands.
Context `{!DescEnv, !CliEnv, !PlanModel.KeyEnv} {C : Codec (KChangeSet Keychain TxHeight)}.
Context (wf : KChangeSet Keychain TxHeight → Prop) (HC : codec_ok C wf) (Hdef : wf kcs_default).
Context (W : Txid → list OutPoint) (dbg : bool) (limit : nat) (ext : Desc) (int : option Desc) (km : PlanModel.KeyMap).
Notation A := (keychains ext int).
Notation s := (adds ext int).
Notation in_session := (in_session (P := TxHeight) wf W dbg limit ext int km).
Context (HA : good_env A).
Context (v : ScanSpec.World) (Hw : world_ok v) (Hsane : world_sane W v) (Htx : ∀ t a, w_tx v t = Some a → tx_ok a).
Notation wpos := (w_position v).

(** The parts of a wallet. *)
Notation good := (CliProofs.good W ext int).
Lemma good_parts (x : Tracker Keychain TxHeight) : good x →
  (∃ hs, ki_inv A hs (tr_index x)) ∧ cg_ok (tr_cg x) ∧ inputs_by_txid W (cg_graph (tr_cg x)) ∧
  (∀ k d, ki_keychains (tr_index x) !! k = Some d ↔ A k = Some d).
Proof using HA.
  intros Hg. destruct (built_ok W _ (good_built W ext int _ Hg)) as [Hcg Hin]. destruct (good_index W ext int _ Hg) as [hs Hi].
  split; [by exists hs|]. split; [done|]. split; [done|]. intros k d. split; [apply (proj1 (proj1 Hi))|].
  intros Hd. destruct (good_keychain W ext int _ k Hg) as (d' & hs' & Hi' & Hd'); [by exists d|]. rewrite Hd'. rewrite <- Hd. symmetry. by apply (proj1 (proj1 Hi')).
Qed.
(** What the commands apply is a scan. *)
Lemma scan_command_ok (x : Tracker Keychain TxHeight) ch (po : SparseChain TxHeight → list (Txid * TxHeight)) (e : ElectrumUpdate Keychain TxHeight) F sc ho1 new_txs :
  good x → hash_fun_ok (ch_hash ch) → (∀ c, po c ≡ₚ map_to_list (sc_pos c)) → chain_ok (eu_chain e) →
  scan_ok v wpos x F sc → cg_chain (ks_update sc) = eu_chain e →
  into_keychain_scan ho1 e new_txs (tr_cg x) = Ret (Ok sc) → Forall (λ t, w_tx v (txid t) = Some t) new_txs →
  hash_order (inflate_graph (tr_cg x) (eu_chain e) new_txs) ho1 →
  command_ok A W s ch (CmdElectrum sc (po (eu_chain e))).
Proof using HA Hw Hsane Htx H0.
  intros Hg Hho Hpo Hc Hso Hch Ei Hnew Hho1.
  split; [done|]. cbn [tr_op_ok]. split; [done|]. split; [by rewrite Hch|]. split; [|split].
  - unfold into_keychain_scan in Ei. destruct (inflate_update _ _ _ _) as [[u|]|] eqn:Eu; [|done..]. injection Ei as <-. cbn [ks_update].
    eapply built_inflate; [by apply (HashCliProofs.good_built W ext int)|done| |done|exact Eu].
    eapply Forall_impl; [exact Hnew|]. intros t Ht. cbn. by eapply ws_inputs.
  - eapply (update_range v wpos Hw Htx x F sc Hso).
  - intros k t Hk. destruct (so_active _ _ _ _ _ Hso k t Hk) as [[d Hd] Hm]. split; [|done].
    by eapply (CliProofs.keychain_known W ext int).
Qed.
(** A command has come so far: its scan, applied, leaves the wallet [x'] with [Q]. *)
Definition applies (w : World TxHeight) ch (r : World TxHeight * list (event TxHeight) * result unit CliError) (Q : Tracker Keychain TxHeight → Prop) : Prop :=
  ∃ F sc ord x' cs, fit_seen v wpos (in_chain (ks_update sc)) (w_tracker w) ∧ scan_ok v wpos (w_tracker w) F sc ∧ command_ok A W s ch (CmdElectrum sc ord) ∧ ord ≡ₚ map_to_list (sc_pos (cg_chain (ks_update sc))) ∧
    tr_apply_update (ch_hash ch (cg_graph (tr_cg (w_tracker w)))) (w_tracker w) sc ord = Ret (Ok (x', cs)) ∧ electrum_apply ch w sc ord = Ret r ∧ Q x'.

Lemma sync_applies w srv fuel ch po f batch :
  good (w_tracker w) → fit_seen v wpos (sync_sought v f (w_tracker w)) (w_tracker w) →
  (sf_utxos (sync_flags f) = true → ∀ ki g, unspent (w_tracker w) ki g → is_Some (w_tx v (op_txid (fto_outpoint g)))) →
  (∀ k d i sp, A k = Some d → derive d i = Some sp → has_address sp = true) →
  (∀ n, electrum_honest v (srv n)) → hash_fun_ok (ch_hash ch) → (∀ c, po c ≡ₚ map_to_list (sc_pos c)) → (0 < batch)%nat →
  ends (electrum_sync dbg srv (S fuel) ch po f batch w) (λ r, applies w ch r (in_sync v wpos f (w_tracker w))).
Proof using HA Hw Hsane Htx H0.
  intros Hg Hfit Hknown Haddr Hsrv Hho Hpo Hb. set (x := w_tracker w) in *.
  destruct (good_parts x Hg) as ([hs Hi] & Hcg & Hin & Hk).
  destruct (sync_ok W ext int ch x f Hcg Hho Hg Haddr) as (spks & txids & outs & Er & R1 & R2 & R3).
  unfold electrum_sync. fold x.
  eapply ends_bnd. { apply ends_lift. eexists. split; [exact Er|]. exact (eq_refl (spks, txids, outs)). }
  intros r <-. cbn beta iota.
  assert (∀ o, o ∈ outs → is_Some (w_tx v (op_txid o))) as Hknown'.
  { intros o (Hu & ki & g & Hun & <-)%R3. by eapply Hknown. }
  eapply ends_bnd.
  { apply (plain_scan_ends v srv dbg fuel (sc_cps (cg_chain (tr_cg x))) spks txids outs batch Hw Hsrv); [|done| | |].
    - apply (proj1 (proj2 (proj2 (proj2 Hfit)))).
    - by eapply (few_scripts A x hs Hi ch f).
    - apply Forall_forall. intros t (_ & p & Hp & _)%R2. by eapply (proj2 (proj1 Hcg)).
    - apply Forall_forall. exact Hknown'. }
  intros c (Hus & Hcon & Hpos & Hfo & Hfs & Hft & Honly).
  assert (∀ t p, sc_pos c !! t = Some p → p = wpos t ∧ is_Some (w_tx v t)) as Hpos'.
  { intros t p Hp. split; [by apply Hpos|]. destruct (Honly t) as [(sp & _ & Hh)|[[_ Ht]|(o & _ & (y & z & Hy & _) & [->|(y' & Hy' & _)])]]; [by exists p| |done|by exists y|by exists y'].
    by eapply wo_known. }
  assert (fit_seen v wpos (λ t, is_Some (sc_pos c !! t)) x) as Hfit'.
  { eapply fit_seen_mono; [|exact Hfit]. intros t. apply (sought_in v x f spks outs); [apply Hfit|done|done| |done]. intros o t' u Ho Ht Hu. by eapply Hfo. }
  apply (finish_ok A HA W v Hw Hsane Htx x hs Hi Hcg Hin srv ch po w (mkEU c ∅) ∅ 0); try done.
  - apply Hus.
  - intros k j. cbn [eu_active]. rewrite lookup_empty. split; [done|]. intros (l & Hl & _). by rewrite lookup_empty in Hl.
  - intros sc x' cs r ho1 new_txs Hso Hch Ei Hnew Hho1 Ea Ee. exists (within v 0 ∅), sc, (po c), x', cs. split; [unfold in_chain; by rewrite Hch|]. split; [done|].
    split; [eapply (scan_command_ok x ch po (mkEU c ∅)); try done; apply Hus|]. split; [by rewrite Hch|]. split; [done|]. split; [done|].
    eapply (applied_in_sync A HA W v wpos Hw Hsane ltac:(done) Htx x hs Hi Hcg Hin f spks txids outs c _ sc (ch_hash ch) (po c) x' cs); try done.
    + intros k i (l & Hl & _). by rewrite lookup_empty in Hl.
    + intros o t u Ho Ht Hu. by eapply Hfo.
Qed.

Lemma caught_up_mono (x x' : Tracker Keychain TxHeight) (F F' : Keychain → N → Prop) :
  (∀ k i, F' k i → F k i) → caught_up v wpos x x' F → caught_up v wpos x x' F'.
Proof. intros HF (M1 & M2 & M3 & M4 & M5 & M6). split_and!; try done; [intros o t u k i; intros; eapply M3; eauto|intros o t u k i; intros; eapply M4; eauto]. Qed.

Lemma scan_applies w srv fuel ch po gap batch :
  good (w_tracker w) → fit_seen v wpos (of_scripts v A (in_gap v gap A)) (w_tracker w) →
  (∀ n, electrum_honest v (srv n)) → hash_fun_ok (ch_hash ch) → (∀ c, po c ≡ₚ map_to_list (sc_pos c)) → (0 < batch)%nat →
  ends (electrum_scan dbg srv (S fuel) ch po gap batch w) (λ r, applies w ch r (λ x', caught_up v wpos (w_tracker w) x' (in_gap v gap A))).
Proof using HA Hw Hsane Htx H0.
  intros Hg Hfit Hsrv Hho Hpo Hb. set (x := w_tracker w) in *.
  destruct (good_parts x Hg) as ([hs Hi] & Hcg & Hin & Hk).
  unfold electrum_scan. fold x. set (kspks := spks_of_all_keychains (tr_index x)).
  assert (∀ k i, within v gap kspks k i ↔ in_gap v gap A k i) as Hin_gap by (intros k i; by apply all_within).
  assert (scripts_of (tr_index x) kspks) as Hsp by (apply (all_scripts A); [done|apply Hk]).
  clearbody kspks.
  eapply ends_bnd.
  { apply (scan_ends v Hw dbg srv Hsrv fuel (sc_cps (cg_chain (tr_cg x))) kspks [] [] gap batch); [|done|constructor|constructor].
    apply (proj1 (proj2 (proj2 (proj2 Hfit)))). }
  intros e He.
  assert (fit_seen v wpos (λ t, is_Some (sc_pos (eu_chain e) !! t)) x) as Hfit'.
  { eapply fit_seen_mono; [|exact Hfit]. intros t (k & i & d & sp & HF & Hd & Hder & Ht). apply Hin_gap in HF as (l & Hl & p & sp' & Hp & Hgap).
    eapply (sf_scripts _ _ _ _ _ _ _ He k l p i sp'); [done|done|done|]. destruct (Hsp k l Hl) as (d' & Hd'%Hk & Hall). destruct (Hall p i sp' Hp) as (_ & _ & Hder').
    by simplify_eq. }
  apply (finish_ok A HA W v Hw Hsane Htx x hs Hi Hcg Hin srv ch po w e kspks gap); try done.
  - apply He.
  - apply He.
  - by eapply (scan_known v Hw).
  - apply He.
  - apply (sf_active _ _ _ _ _ _ _ He). by eapply scripts_fit.
  - intros sc x' cs r ho1 new_txs Hso Hch Ei Hnew Hho1 Ea Ee. exists (within v gap kspks), sc, (po (eu_chain e)), x', cs. split; [unfold in_chain; by rewrite Hch|]. split; [done|].
    split; [eapply (scan_command_ok x ch po e); try done; apply He|]. split; [by rewrite Hch|]. split; [done|]. split; [done|].
    apply (caught_up_mono x x' (within v gap kspks)); [apply Hin_gap|].
    assert (fit_seen v wpos (in_chain (ks_update sc)) x) as Hfit2 by (unfold in_chain; by rewrite Hch).
    destruct (rescanned A HA W v wpos Hw Hsane ltac:(done) Htx hs x _ sc (ch_hash ch) (po (eu_chain e)) Hi Hcg Hin Hfit2 Hso Hho) as (x1 & cs1 & E1 & Hc).
    { by rewrite Hch. }
    rewrite Ea in E1. by injection E1 as <- <-.
Qed.

(** ** In a session, with a store that works *)
Lemma applies_session w pr evs ch r (Q : Tracker Keychain TxHeight → Prop) : in_session w pr evs → default NoFault (head (w_faults w)) = NoFault → applies w ch r Q →
  ∃ w' evs', r = (w', evs', Ok tt) ∧ Q (w_tracker w') ∧ (Forall (event_ok wf W) evs' → in_session w' pr (evs ++ evs')).
Proof using.
  intros Hs Hf (F & sc & ord & x' & cs & _ & Hso & Hc & Hord & E & Ea & HQ). destruct (apply_fine ch w sc ord x' cs r Hf E (or_introl Ea)) as (w' & -> & <-).
  exists w', [EvAppend cs NoFault]. split; [done|]. split; [done|]. intros Hev.
  eapply (session_snoc wf W dbg limit ext int km w pr evs ch (Run (CmdElectrum sc ord)) w' pr); [done| |cbn [act handle_command fst snd]; by rewrite Ea|done].
  split; [apply Hc|done].
Qed.
Lemma sync_command w pr evs srv fuel ch po f batch :
  in_session w pr evs → fit_seen v wpos (sync_sought v f (w_tracker w)) (w_tracker w) →
  (sf_utxos (sync_flags f) = true → ∀ ki g, unspent (w_tracker w) ki g → is_Some (w_tx v (op_txid (fto_outpoint g)))) →
  (∀ k d i sp, A k = Some d → derive d i = Some sp → has_address sp = true) →
  (∀ n, electrum_honest v (srv n)) → hash_fun_ok (ch_hash ch) → (∀ c, po c ≡ₚ map_to_list (sc_pos c)) → (0 < batch)%nat →
  default NoFault (head (w_faults w)) = NoFault →
  ends (electrum_sync dbg srv (S fuel) ch po f batch w) (λ r, ∃ w' evs', r = (w', evs', Ok tt) ∧
    in_sync v wpos f (w_tracker w) (w_tracker w') ∧ (Forall (event_ok wf W) evs' → in_session w' pr (evs ++ evs'))).
Proof using HC Hdef HA Hw Hsane Htx.
  intros Hs Hfit Hknown Haddr Hsrv Hho Hpo Hb Hf. destruct (session_good wf HC Hdef W dbg limit ext int km HA w pr evs Hs) as [Hg _].
  eapply ends_weaken; [by apply sync_applies|]. intros r Ha.
  exact (applies_session w pr evs ch r (in_sync v wpos f (w_tracker w)) Hs Hf Ha).
Qed.
Lemma scan_command w pr evs srv fuel ch po gap batch :
  in_session w pr evs → fit_seen v wpos (of_scripts v A (in_gap v gap A)) (w_tracker w) →
  (∀ n, electrum_honest v (srv n)) → hash_fun_ok (ch_hash ch) → (∀ c, po c ≡ₚ map_to_list (sc_pos c)) → (0 < batch)%nat →
  default NoFault (head (w_faults w)) = NoFault →
  ends (electrum_scan dbg srv (S fuel) ch po gap batch w) (λ r, ∃ w' evs', r = (w', evs', Ok tt) ∧
    caught_up v wpos (w_tracker w) (w_tracker w') (in_gap v gap A) ∧ (Forall (event_ok wf W) evs' → in_session w' pr (evs ++ evs'))).
Proof using HC Hdef HA Hw Hsane Htx.
  intros Hs Hfit Hsrv Hho Hpo Hb Hf. destruct (session_good wf HC Hdef W dbg limit ext int km HA w pr evs Hs) as [Hg _].
  eapply ends_weaken; [by apply scan_applies|]. intros r Ha.
  exact (applies_session w pr evs ch r (λ x', caught_up v wpos (w_tracker w) x' (in_gap v gap A)) Hs Hf Ha).
Qed.
End commands.
