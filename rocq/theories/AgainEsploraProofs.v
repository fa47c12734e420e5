(** An esplora scan command repeated (C114). *)
From Verif Require Export CliEsploraProofs AgainCliProofs AgainEsploraSpec.
Local Open Scope N_scope.

Lemma gap_before_mono (m m2 : N) act p : m ≤ m2 → gap_before m2 act p → gap_before m act p.
Proof. intros Hm (s & Hs & Ha). exists s. split; [lia|]. intros i Hi Hlt. apply Ha; lia. Qed.
(** What a second scan of a keychain asks for that is active, the first one has asked for. *)
Lemma scanned_less v (gap gap2 : N) (par par2 : nat) l n a n2 a2 p i sp : no_further gap par gap2 par2 →
  scanned_first v gap (Nat.max par 1) l n a → scanned_first v gap2 (Nat.max par2 1) l n2 a2 → (p < n2)%nat → l !! p = Some (i, sp) → w_history v sp ≠ [] → (p < n)%nat.
Proof.
  intros [[-> Ep]|[Hpos Hle]] Hs Hs2 Hp Hl Hh.
  - rewrite Ep in Hs2. destruct (scanned_once v gap (Nat.max par 1) l n a n2 a2 ltac:(lia) Hs Hs2) as [-> _]. done.
  - apply (sn_within _ _ _ _ _ _ Hs). split.
    + unfold activity. rewrite list_lookup_fmap, Hl. cbn. by rewrite bool_decide_eq_false_2.
    + intros Hg. apply (gap_before_mono (gap2 + N.of_nat (Nat.max par2 1) - 1)) in Hg; [|done]. pose proof (sn_beyond _ _ _ _ _ _ Hs2 p Hpos Hg). lia.
Qed.

Section commands.
Context `{!DescEnv, !CliEnv, !PlanModel.KeyEnv} {C : Codec (KChangeSet Keychain ConfirmationTime)}.
Context (W : Txid → list OutPoint) (ext : Desc) (int : option Desc).
Notation A := (keychains ext int).
Context (HA : good_env A).
Context (v : ScanSpec.World) (time : N → N) (Hw : world_ok v) (Hsane : world_sane W v) (Htx : ∀ t a, w_tx v t = Some a → tx_ok a).
Context (Htime : ∀ h, time h ≤ u64_max).
Notation wpos := (w_time_position v time).
Notation good := (CliProofs.good W ext int).

Lemma esplora_scan_again (w w' : CliModel.World ConfirmationTime) srv fuel ch po (gap : N) par n n' evs srv2 fuel2 ch2 po2 (gap2 : N) par2 :
  good (w_tracker w) → fit_seen v wpos (of_scripts v A (in_stop_gap v gap A)) (w_tracker w) →
  pages_fit v A fuel → (∀ n, esplora_honest v time (srv n)) → hash_fun_ok (ch_hash ch) → (∀ c, po c ≡ₚ map_to_list (sc_pos c)) →
  esplora_scan_cmd srv (S fuel) ch po gap par w n = Done n' (w', evs, Ok tt) →
  no_further gap par gap2 par2 → pages_fit v A fuel2 → (∀ n, esplora_honest v time (srv2 n)) → hash_fun_ok (ch_hash ch2) → (∀ c, po2 c ≡ₚ map_to_list (sc_pos c)) →
  ends (esplora_scan_cmd srv2 (S fuel2) ch2 po2 gap2 par2 w') (λ r, ∃ w2 evs2, r = (w2, evs2, Ok tt) ∧
    w_tracker w2 = w_tracker w' ∧ w_file w2 = w_file w').
Proof using HA Hw Hsane Htx Htime.
  intros Hg Hfit Hpage Hsrv Hho Hpo E Hno Hpage2 Hsrv2 Hho2 Hpo2. set (x := w_tracker w) in *. set (x' := w_tracker w').
  destruct (esplora_parts W ext int HA x Hg) as ([hs Hi] & Hcg & Hin & Hk).
  set (kspks := spks_of_all_keychains (tr_index x)) in *.
  assert (∀ k i, stop_within v gap kspks k i ↔ in_stop_gap v gap A k i) as Hin_gap by (intros k i; by apply all_stop_within).
  assert (scripts_of (tr_index x) kspks) as Hsp by (apply (all_scripts A); [done|apply Hk]).
  assert (∀ fuel, pages_fit v A fuel → ∀ k l i sc, kspks !! k = Some l → (i, sc) ∈ l → pageable v fuel sc) as Hpages.
  { intros fu Hpf k l i sp Hkl [p Hp]%elem_of_list_lookup. destruct (Hsp k l Hkl) as (dd & Hd & Hl). destruct (Hl p i sp Hp) as (Hp1 & Hp2 & Hder).
    eapply Hpf; [by apply Hk|done]. }
  unfold esplora_scan_cmd in E. fold x kspks in E. apply bnd_Done in E as (n1 & sc & Es & E).
  destruct (ps_scan_true W v time Hw Hsane Htime (ch_hash ch) Hho srv Hsrv fuel (sc_cps (cg_chain (tr_cg x))) kspks [] [] gap par) with (n := n) as (n2 & sc2 & Es2 & He & _).
  { apply (proj1 (proj2 (proj2 (proj2 Hfit)))). }
  { by apply Hpages. }
  rewrite Es in Es2. injection Es2 as <- <-. unfold lift in E. destruct (esplora_apply _ _ _ _) as [r|] eqn:Ee; [|done]. injection E as _ ->.
  destruct (applied_Ok ch w w' sc _ evs (or_intror Ee)) as [cs Ea]. fold x x' in Ea.
  destruct (complete_ok v time Hw x kspks [] [] gap (Nat.max par 1) sc Hsp He) as (Hso & _ & _).
  assert (fit_seen v wpos (in_chain (ks_update sc)) x) as Hfit'.
  { eapply fit_seen_mono; [|exact Hfit]. intros t (k & i & d & sp & HF & Hd & Hder & Ht). apply (stop_found v time _ _ _ _ _ _ _ t He). left.
    apply Hin_gap in HF as (l & p & sp' & Hl & Hp & Hgap). exists k, l, p, i, sp'. do 3 (split; [done|]).
    destruct (Hsp k l Hl) as (d' & Hd'%Hk & Hall). destruct (Hall p i sp' Hp) as (_ & _ & Hder'). by simplify_eq. }
  destruct (synced_fit A HA W v wpos Hw Hsane (time_height v time) Htx x x' cs hs _ sc Hso Hi Hcg Hin Hfit' (ch_hash ch) (po (cg_chain (ks_update sc))) Hho (Hpo _) Ea)
    as (Hok' & Hin' & Hfit2 & Hlim' & Hkey & B2 & B1 & P1).
  assert (spks_of_all_keychains (tr_index x') = kspks) as Hspks by (unfold kspks, spks_of_all_keychains; by rewrite Hkey).
  assert (scripts_of (tr_index x') kspks) as Hsp2 by (intros k l Hl; destruct (Hsp k l Hl) as (d & Hd & Hr); exists d; by rewrite Hkey).
  unfold esplora_scan_cmd. fold x'. rewrite Hspks. clearbody kspks. pose proof Hfit2 as (_ & Hbm' & _ & Htrue' & Hag'). eapply ends_bnd.
  { apply (ps_scan_true W v time Hw Hsane Htime (ch_hash ch2) Hho2 srv2 Hsrv2 fuel2 (sc_cps (cg_chain (tr_cg x'))) kspks [] [] gap2 par2).
    - apply (lt_low _ _ _ Htrue').
    - by apply Hpages. }
  intros sc2 [He2 _]. destruct (complete_ok v time Hw x' kspks [] [] gap2 (Nat.max par2 1) sc2 Hsp2 He2) as (Hso2 & _ & _).
  assert (∀ t, in_chain (ks_update sc2) t → in_chain (ks_update sc) t) as Hless.
  { intros t Ht. destruct (pc_only _ _ _ _ _ _ _ _ _ He2 t Ht) as [_ [(k & l & m2 & i & sp & Hl & Hm2 & Hi2 & Hh)|[[]%elem_of_nil|(o & []%elem_of_nil & _)]]].
    destruct (pc_scripts _ _ _ _ _ _ _ _ _ He k l Hl) as (m & Hm & Hall). eapply Hall; [|done].
    apply elem_of_take in Hi2 as (p & Hp & Hlt). apply elem_of_take. exists p. split; [done|].
    eapply scanned_less; [done|done|done|done|done|]. intros E0. rewrite E0 in Hh. by apply elem_of_nil in Hh. }
  assert (tr_apply_update (ch_hash ch2 (cg_graph (tr_cg x'))) x' sc2 (po2 (cg_chain (ks_update sc2))) = Ret (Ok (x', kcs_default))) as Ea2.
  { apply nothing_changes; [done|apply Hso2|done|done|apply Hho2|apply Hpo2|].
    apply (resync_nothing_new A HA W v wpos Hw Hsane (time_height v time) Htx x x' cs hs _ sc Hso Hi Hcg Hin Hfit' (ch_hash ch) (po (cg_chain (ks_update sc))) Hho (Hpo _) Ea _ sc2 Hso2).
    - exact Hless.
    - intros t [q Hq]%(pc_graph _ _ _ _ _ _ _ _ _ He2)%Hless. apply Hok'. exists q. by apply P1.
    - intros k j2 Hj2. destruct (pc_keychains _ _ _ _ _ _ _ _ _ He2 k j2 Hj2) as [l Hl].
      destruct (pc_scripts _ _ _ _ _ _ _ _ _ He2 k l Hl) as (m2 & Hm2 & _). destruct (pc_scripts _ _ _ _ _ _ _ _ _ He k l Hl) as (m & Hm & _).
      pose proof (sn_active _ _ _ _ _ _ Hm2) as Ha2. rewrite Hj2 in Ha2. symmetry in Ha2. apply fmap_Some in Ha2 as ([j' s2] & Hlast & Ej). cbn in Ej. subst j'.
      apply last_Some in Hlast as [l0 Hl0]. assert ((j2, s2) ∈ filter (λ e : N * Script, w_history v e.2 ≠ []) (take m2 l)) as Hlast by (rewrite Hl0; apply elem_of_app; right; by left). apply elem_of_list_filter in Hlast as [Hh2 Hi2]. cbn in Hh2. apply elem_of_take in Hi2 as (p & Hp & Hlt).
      assert (p < m)%nat as Hpm by (eapply scanned_less; eauto).
      destruct (last_kept (λ e, w_history v e.2 ≠ []) l m) as [L1 L2]; [intros p' j s3; by eapply scripts_index|].
      destruct (L1 j2 s2) as (j & s' & Hj & Hle). { apply elem_of_list_filter. split; [done|]. apply elem_of_take. by exists p. }
      pose proof (sn_active _ _ _ _ _ _ Hm) as Ha. rewrite Hj in Ha. cbn in Ha. apply L2 in Hj as [Hlj _].
      destruct (Hsp k l Hl) as (d & Hd & Hds). destruct (Hds _ _ _ Hlj) as (_ & Hc & _). by exists d, j. }
  destruct (applied_nothing ch2 w' sc2 _ Ea2) as (r & _ & Er & Hr). apply ends_lift. by exists r.
Qed.
End commands.
