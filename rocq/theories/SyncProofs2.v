(** From a scan of an honest server to an updated wallet (C72). *)
From Verif Require Export ElectrumProofs5 SyncProofs.

Section inflated.
Context `{ChainPositionLaws P, Countable K, !Ord K}.
Lemma inflated_sync (W : Txid → list OutPoint) (w : World) (wpos : Txid → P) (cg : ChainGraph P)
  (e : ElectrumUpdate K P) (new_txs : list Tx) ho1 ho (ord : list (Txid * P)) :
  world_sane W w → (∀ t, pos_height (wpos t) = w_position w t) →
  cg_ok cg → inputs_by_txid W (cg_graph cg) → below_max (cg_chain cg) → confirmed_below_tip (cg_chain cg) →
  local_seen w wpos (λ t, is_Some (sc_pos (eu_chain e) !! t)) (cg_chain cg) →
  chain_ok (eu_chain e) → connects w (sc_cps (cg_chain cg)) (sc_cps (eu_chain e)) →
  (∀ t p, sc_pos (eu_chain e) !! t = Some p → p = wpos t ∧ is_Some (w_tx w t)) →
  Forall (λ t, w_tx w (txid t) = Some t) new_txs →
  (∀ i, i ∈ missing_full_txs e (cg_graph cg) → ∃ t, t ∈ new_txs ∧ txid t = i) →
  hash_order (inflate_graph cg (eu_chain e) new_txs) ho1 → hash_order (cg_graph cg) ho →
  ord ≡ₚ map_to_list (sc_pos (eu_chain e)) →
  ∃ s cg' cs, into_keychain_scan ho1 e new_txs cg = Ret (Ok s) ∧ ks_active s = eu_active e ∧
    cg_apply_update ho cg (ks_update s) ord = Ret (Ok (cg', cs)) ∧
    (∀ t p, sc_pos (eu_chain e) !! t = Some p → sc_pos (cg_chain cg') !! t = Some p) ∧
    (∀ t p h, sc_pos (cg_chain cg') !! t = Some p → pos_height p = Confirmed h → p = wpos t).
Proof.
  intros Hsane Hwpos Hcg Hin Hbm Hcbt Htrue Hc Hcon Hupos Hnew Hall Hho1 Hho Hord.
  assert (Hnin : Forall (λ t, tx_in t = W (txid t)) new_txs).
  { eapply Forall_impl; [exact Hnew|]. intros t. apply (ws_inputs W w Hsane). }
  assert (Hcgk : keyed (cg_graph cg)) by apply Hcg.
  pose proof (into_scan_spec ho1 e new_txs cg Hcg Hc Hho1 Hall) as Hs.
  destruct (into_keychain_scan ho1 e new_txs cg) as [[s|[[p i] [q j]|m]]|] eqn:E; [| |done|done].
  - destruct Hs as (Hch & Hact & Hok & _). exists s.
    assert (Hg : cg_graph (ks_update s) = inflate_graph cg (eu_chain e) new_txs).
    { unfold into_keychain_scan, inflate_update in E.
      destruct (cg_new ho1 (eu_chain e) (inflate_graph cg (eu_chain e) new_txs)) as [[u|?]|] eqn:E1; [|done..].
      injection E as <-. cbn [ks_update].
      destruct (cg_new_ok _ _ _ _ Hc (inflate_graph_ok cg (eu_chain e) new_txs) Hho1 E1) as [_ ->]. done. }
    assert (Htrue' : local_seen w wpos (in_chain (ks_update s)) (cg_chain cg)).
    { eapply seen_mono; [|exact Htrue]. intros t. unfold in_chain. by rewrite Hch. }
    destruct (sync_accepted W w wpos Hsane Hwpos cg (ks_update s) Hcg Hin Hbm Hcbt Htrue' Hok) with (ho := ho) (ord := ord)
      as (cg' & cs & Ha & Hp & Hq).
    + rewrite Hg. apply inflate_inputs; [done|done|apply Hc|done].
    + by rewrite Hch.
    + by rewrite Hch.
    + done.
    + by rewrite Hch.
    + rewrite Hch in Hp. exists cg', cs. done.
  - exfalso. destruct Hs as (Hne & Hi & Hj & a & b & Ha & Hb & Hia & Hjb & o & Hnn & Hoa & Hob).
    apply Hupos in Hi as [_ [x Hx]], Hj as [_ [y Hy]]. apply Hne.
    assert (tx_in a = W i).
    { destruct Ha as [Ha|Ha]; [by apply Hin|]. rewrite Forall_forall in Hnin. rewrite <- Hia. by apply Hnin. }
    assert (tx_in b = W j).
    { destruct Hb as [Hb|Hb]; [by apply Hin|]. rewrite Forall_forall in Hnin. rewrite <- Hjb. by apply Hnin. }
    eapply (ws_conflict W w Hsane i j x y Hx Hy). exists o. split; [done|].
    rewrite (ws_inputs W w Hsane i x Hx), (ws_inputs W w Hsane j y Hy). split; congruence.
Qed.
End inflated.

Section electrum_sync.
Context (W : Txid → list OutPoint) (w : World) (Hw : world_ok w) (Hsane : world_sane W w).
Context (srv : nat → ESnap) (Hhonest : ∀ n, electrum_honest w (srv n)).
Context `{Countable K, !Ord K, !OrdLaws K}.
Lemma scan_known local (kspks : gmap K (list (N * Script))) (txids : list Txid) (outpoints : list OutPoint) (gap : N) e :
  Forall (λ o, is_Some (w_tx w (op_txid o))) outpoints → scan_complete w local kspks txids outpoints gap e →
  ∀ t p, sc_pos (eu_chain e) !! t = Some p → p = w_position w t ∧ is_Some (w_tx w t).
Proof using Hw.
  intros Hops Hc t p Ht. split; [by apply (sf_true _ _ _ _ _ _ _ Hc)|].
  destruct (sf_only _ _ _ _ _ _ _ Hc t) as [(k & l & p' & i & s & _ & _ & _ & Hh)|[[_ Hk]|(o & Ho & _ & Har)]]; [eauto| |done|].
  - by apply (wo_known w Hw s).
  - destruct Har as [->|(x & Hx & _)]; [|eauto]. rewrite Forall_forall in Hops. by apply Hops.
Qed.

Lemma scan_sought local (kspks : gmap K (list (N * Script))) (txids : list Txid) (outpoints : list OutPoint) (gap : N) e t :
  scan_complete w local kspks txids outpoints gap e → sought w kspks txids outpoints gap t → is_Some (sc_pos (eu_chain e) !! t).
Proof using.
  intros Hc [(k & l & p & i & s & Hk & Hl & Hg & Ht)|[[Ht Hk]|(o & Ho & (x & z & Hx & Hz) & Har)]].
  - by eapply (sf_scripts _ _ _ _ _ _ _ Hc).
  - by apply (sf_txids _ _ _ _ _ _ _ Hc).
  - destruct (sf_outpoints _ _ _ _ _ _ _ Hc o Ho x z Hx Hz) as [H1' H2']. destruct (decide (t = op_txid o)) as [->|Hne]; [done|].
    destruct Har as [?|Har]; [done|]. by apply H2'.
Qed.
(** Everything the wallet does in one synchronisation: scan, fetch what is missing, inflate, apply *)
Lemma electrum_sync dbg fuel (cg : ChainGraph TxHeight) (kspks : gmap K (list (N * Script)))
  (txids : list Txid) (outpoints : list OutPoint) (gap : N) (batch : nat) :
  cg_ok cg → inputs_by_txid W (cg_graph cg) → below_max (cg_chain cg) → confirmed_below_tip (cg_chain cg) →
  local_seen w (w_position w) (sought w kspks txids outpoints gap) (cg_chain cg) → (0 < batch)%nat →
  Forall (λ t, t ≤ max_txid) txids → Forall (λ o, is_Some (w_tx w (op_txid o))) outpoints →
  ends (scan dbg srv (S fuel) (sc_cps (cg_chain cg)) kspks txids outpoints gap batch)
    (λ e, scan_complete w (sc_cps (cg_chain cg)) kspks txids outpoints gap e ∧
      ∀ (new_txs : list Tx) ho1 ho ord,
      Forall (λ t, w_tx w (txid t) = Some t) new_txs →
      (∀ i, i ∈ missing_full_txs e (cg_graph cg) → ∃ t, t ∈ new_txs ∧ txid t = i) →
      hash_order (inflate_graph cg (eu_chain e) new_txs) ho1 → hash_order (cg_graph cg) ho →
      ord ≡ₚ map_to_list (sc_pos (eu_chain e)) →
      ∃ s cg' cs, into_keychain_scan ho1 e new_txs cg = Ret (Ok s) ∧ ks_active s = eu_active e ∧
        cg_apply_update ho cg (ks_update s) ord = Ret (Ok (cg', cs)) ∧
        (∀ t p, sc_pos (eu_chain e) !! t = Some p → sc_pos (cg_chain cg') !! t = Some p) ∧
        (∀ t h, sc_pos (cg_chain cg') !! t = Some (Confirmed h) → w_height w t = Some h)).
Proof using All.
  intros Hcg Hin Hbm Hcbt Htrue Hb Htx Hops.
  eapply ends_weaken; [apply (scan_ends w Hw dbg srv Hhonest); [apply Htrue|done..]|].
  intros e He. split; [done|]. intros new_txs ho1 ho ord Hnew Hall Hho1 Hho Hord.
  destruct (inflated_sync W w (w_position w) cg e new_txs ho1 ho ord) as (s & cg' & cs & H1 & H2 & H3 & H4 & H5);
    [done|done|done|done|done|done|eapply seen_mono; [|exact Htrue]; intros t; by eapply scan_sought|apply He|apply He|by eapply scan_known|done|done|done|done|done|].
  exists s, cg', cs. split; [done|]. split; [done|]. split; [done|]. split; [done|].
  intros t h Ht. specialize (H5 t _ h Ht eq_refl). unfold w_position in H5. destruct (w_height w t); congruence.
Qed.
(** The same with confirmation times *)
Lemma electrum_sync_times (time : N → N) dbg fuel (cg : ChainGraph ConfirmationTime) (kspks : gmap K (list (N * Script)))
  (txids : list Txid) (outpoints : list OutPoint) (gap : N) (batch : nat) :
  (∀ h, time h ≤ u64_max) → (∀ n l, es_times (srv n) l = Ok (time <$> l)) →
  cg_ok cg → inputs_by_txid W (cg_graph cg) → below_max (cg_chain cg) → confirmed_below_tip (cg_chain cg) →
  local_seen w (timed time ∘ w_position w) (sought w kspks txids outpoints gap) (cg_chain cg) → (0 < batch)%nat →
  Forall (λ t, t ≤ max_txid) txids → Forall (λ o, is_Some (w_tx w (op_txid o))) outpoints →
  ends (bnd (scan dbg srv (S fuel) (sc_cps (cg_chain cg)) kspks txids outpoints gap batch)
          (into_confirmation_time_update srv))
    (λ e, ∀ (new_txs : list Tx) ho1 ho ord,
      Forall (λ t, w_tx w (txid t) = Some t) new_txs →
      (∀ i, i ∈ missing_full_txs e (cg_graph cg) → ∃ t, t ∈ new_txs ∧ txid t = i) →
      hash_order (inflate_graph cg (eu_chain e) new_txs) ho1 → hash_order (cg_graph cg) ho →
      ord ≡ₚ map_to_list (sc_pos (eu_chain e)) →
      ∃ s cg' cs, into_keychain_scan ho1 e new_txs cg = Ret (Ok s) ∧ ks_active s = eu_active e ∧
        cg_apply_update ho cg (ks_update s) ord = Ret (Ok (cg', cs)) ∧
        (∀ k l p i s t, kspks !! k = Some l → l !! p = Some (i, s) → within_gap gap (activity w l) p →
           t ∈ w_history w s → sc_pos (cg_chain cg') !! t = Some (timed time (w_position w t))) ∧
        (∀ t h tm, sc_pos (cg_chain cg') !! t = Some (CtConfirmed h tm) → w_height w t = Some h ∧ tm = time h)).
Proof using All.
  intros Htime Hts Hcg Hin Hbm Hcbt Htrue Hb Htx Hops.
  eapply ends_bnd; [apply (scan_ends w Hw dbg srv Hhonest); [apply Htrue|done..]|].
  intros e He. destruct (sf_usable _ _ _ _ _ _ _ He) as (He1 & He2 & He3).
  eapply ends_weaken; [by apply (confirmation_times_ends time Htime srv e)|].
  intros e' (Hok' & Hcps' & Hact' & Hpos'). intros new_txs ho1 ho ord Hnew Hall Hho1 Hho Hord.
  destruct (inflated_sync W w (timed time ∘ w_position w) cg e' new_txs ho1 ho ord) as (s & cg' & cs & H1 & H2 & H3 & H4 & H5);
    [done|intros t; apply timed_height|done|done|done|done| |done|rewrite Hcps'; apply He| |done|done|done|done|done|].
  { eapply seen_mono; [|exact Htrue]. intros t Ht. rewrite Hpos', fmap_is_Some. by eapply scan_sought. }
  { intros t p. rewrite Hpos', fmap_Some. intros (q & Hq & ->).
    destruct (scan_known _ _ _ _ _ _ Hops He t q Hq) as [-> ?]. done. }
  exists s, cg', cs. split; [done|]. split; [done|]. split; [done|]. split.
  - intros k l p i s' t Hk Hl Hg Ht. apply H4. rewrite Hpos'.
    destruct (sf_scripts _ _ _ _ _ _ _ He k l p i s' t Hk Hl Hg Ht) as [q Hq]. rewrite Hq. simpl.
    by rewrite (sf_true _ _ _ _ _ _ _ He t q Hq).
  - intros t h tm Ht. specialize (H5 t _ h Ht eq_refl). unfold compose, w_position in H5.
    destruct (w_height w t); [|done]. simpl in H5. by injection H5 as -> ->.
Qed.
End electrum_sync.

(** ** Scanning plain scripts *)
Lemma no_gap_below (w : World) (l : list (N * Script)) (p : nat) :
  N.of_nat (length l) ≤ u64_max → (p < length l)%nat → ¬ gap_before (u64_max + 1) (activity w l) p.
Proof. intros Hl Hp (s & Hs & _). lia. Qed.
Lemma plain_scan_ends (w : World) (srv : nat → ESnap) dbg fuel (local : gmap N BlockHash) (spks : list Script)
  (txids : list Txid) (outpoints : list OutPoint) (batch : nat) :
  world_ok w → (∀ n, electrum_honest w (srv n)) → (∀ h, is_Some (local !! h) → h ≤ w_tip w) → (0 < batch)%nat →
  N.of_nat (length spks) ≤ u64_max →
  Forall (λ t, t ≤ max_txid) txids → Forall (λ o, is_Some (w_tx w (op_txid o))) outpoints →
  ends (scan_without_keychain dbg srv (S fuel) local spks txids outpoints batch) (λ c,
    usable_update c ∧ connects w local (sc_cps c) ∧
    (∀ t p, sc_pos c !! t = Some p → p = w_position w t) ∧
    (∀ o, o ∈ outpoints → outpoint_found w c o) ∧
    (∀ s t, s ∈ spks → t ∈ w_history w s → is_Some (sc_pos c !! t)) ∧
    (∀ t, t ∈ txids → is_Some (w_tx w t) → is_Some (sc_pos c !! t)) ∧
    (∀ t, is_Some (sc_pos c !! t) → (∃ s, s ∈ spks ∧ t ∈ w_history w s) ∨ t ∈ txids ∧ is_Some (w_tx w t) ∨ ∃ o, o ∈ outpoints ∧ w_output w o ∧ around w o t)).
Proof.
  intros Hw Hh Hlocal Hb Hlen Htx Hops. unfold scan_without_keychain.
  set (l := imap (λ i s, (N.of_nat i, s)) spks).
  assert (Hl : length l = length spks) by apply imap_length.
  eapply ends_bnd; [by apply (scan_ends w Hw dbg srv Hh)|]. intros e He. apply ends_ret.
  split; [apply He|]. split; [apply He|]. split; [apply He|]. split; [apply He|]. split; [|split; [apply He|]].
  - intros s t Hs Ht. apply elem_of_list_lookup in Hs as [p Hp].
    eapply (sf_scripts _ _ _ _ _ _ _ He 0 l p (N.of_nat p) s t); [by rewrite lookup_singleton| | |done].
    + unfold l. rewrite list_lookup_imap, Hp. done.
    + assert (Hpl : l !! p = Some (N.of_nat p, s)) by (unfold l; by rewrite list_lookup_imap, Hp).
      split.
      * unfold activity. rewrite list_lookup_fmap, Hpl. simpl. rewrite bool_decide_false; [done|].
        intros E. rewrite E in Ht. by apply elem_of_nil in Ht.
      * apply no_gap_below; [by rewrite Hl|]. by eapply lookup_lt_Some.
  - intros t Ht. apply (sf_only _ _ _ _ _ _ _ He) in Ht as [(k & l' & p & i & s & Hk & Hp & _ & Hs)|[?|?]]; [left|by right; left|by right; right].
    apply lookup_singleton_Some in Hk as [_ <-]. exists s. split; [|done].
    unfold l in Hp. rewrite list_lookup_imap in Hp.
    destruct (spks !! p) eqn:E; [|done]. simpl in Hp. injection Hp as _ ->. by eapply elem_of_list_lookup_2.
Qed.
