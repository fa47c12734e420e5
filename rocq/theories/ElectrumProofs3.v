(** Electrum scans against an honest server that does not change: what is found (C60, C69). *)
From Verif Require Export ElectrumProofs2.

(** ** The scripts a scan looks at, whatever the batch size *)
Section processed.
Context (w : World) {J : Type}.
Implicit Types (l : list (J * Script)).
Definition active (s : Script) : bool := negb (bool_decide (w_history w s = [])).
(** The scripts looked at, and the count of inactive ones at the end if not stopped *)
Fixpoint processed (gap unused : N) l : list (J * Script) * option N :=
  match l with
  | [] => ([], Some unused)
  | e :: l =>
      if active e.2 then let r := processed gap 0 l in (e :: r.1, r.2)
      else if gap <? unused + 1 then ([e], None)
      else let r := processed gap (unused + 1) l in (e :: r.1, r.2)
  end.
Lemma processed_app gap unused l1 l2 :
  processed gap unused (l1 ++ l2) =
    match processed gap unused l1 with
    | (p, None) => (p, None)
    | (p, Some unused') => let r := processed gap unused' l2 in (p ++ r.1, r.2)
    end.
Proof.
  revert unused. induction l1 as [|e l1 IH]; intros unused; simpl.
  { by destruct (processed gap unused l2). }
  destruct (active e.2).
  - rewrite IH. by destruct (processed gap 0 l1) as [p [u'|]].
  - destruct (gap <? unused + 1); [done|]. rewrite IH. by destruct (processed gap (unused + 1) l1) as [p [u'|]].
Qed.
Lemma processed_prefix gap unused l : (processed gap unused l).1 `prefix_of` l.
Proof.
  revert unused. induction l as [|e l IH]; intros unused; simpl; [done|].
  destruct (active e.2); [by apply prefix_cons|].
  destruct (gap <? unused + 1); [|by apply prefix_cons]. simpl. apply prefix_cons, prefix_nil.
Qed.

Lemma lookup_rep_false (n : nat) (act : list bool) i :
  (replicate n false ++ act) !! i = if decide (i < n)%nat then Some false else act !! (i - n)%nat.
Proof.
  destruct (decide (i < n)%nat) as [Hlt|Hge].
  - rewrite lookup_app_l by (by rewrite replicate_length). by apply lookup_replicate_2.
  - rewrite lookup_app_r by (rewrite replicate_length; lia). by rewrite replicate_length.
Qed.
Lemma processed_length gap (unused : nat) l (p : nat) :
  N.of_nat unused ≤ gap → (p < length l)%nat →
  (p < length (processed gap (N.of_nat unused) l).1)%nat ↔
  ¬ gap_before (gap + 1) (replicate unused false ++ ((λ e : J * Script, active e.2) <$> l)) (unused + p).
Proof.
  revert unused p. induction l as [|e l IH]; intros unused p Hun Hp; simpl in Hp; [lia|].
  destruct p as [|p].
  { split.
    - intros _ (s & Hs & _). lia.
    - intros _. simpl. destruct (active e.2); [simpl; lia|]. destruct (gap <? _); simpl; lia. }
  cbn [processed fmap list_fmap]. destruct (active e.2) eqn:Ea.
  - simpl. rewrite <- Nat.succ_lt_mono.
    pose proof (IH 0%nat p) as IH0. simpl in IH0. rewrite IH0; [|lia|lia]. clear IH IH0.
    apply not_iff_compat. split.
    + intros (s & Hs & Hall). exists (s + S unused)%nat. split; [lia|]. intros i Hi1 Hi2.
      rewrite lookup_rep_false. destruct (decide (i < unused)%nat); [done|].
      specialize (Hall (i - S unused)%nat). replace (i - unused)%nat with (S (i - S unused)) by lia. simpl. apply Hall; lia.
    + intros (s & Hs & Hall).
      destruct (decide (s ≤ unused)%nat) as [Hle|Hgt].
      { specialize (Hall unused Hle). rewrite lookup_rep_false in Hall.
        destruct (decide (unused < unused)%nat); [lia|]. replace (unused - unused)%nat with 0%nat in Hall by lia.
        simpl in Hall. assert (Some true = Some false) as [=]. apply Hall. lia. }
      exists (s - S unused)%nat. split; [lia|]. intros i Hi1 Hi2. specialize (Hall (i + S unused)%nat).
      rewrite lookup_rep_false in Hall. destruct (decide (i + S unused < unused)%nat); [lia|].
      replace (i + S unused - unused)%nat with (S i) in Hall by lia. simpl in Hall. apply Hall; lia.
  - assert (Hrep: replicate unused false ++ false :: ((λ e : J * Script, active e.2) <$> l) =
                  replicate (S unused) false ++ ((λ e : J * Script, active e.2) <$> l)).
    { replace (S unused) with (unused + 1)%nat by lia. rewrite replicate_add, <- app_assoc. done. }
    rewrite Hrep. destruct (N.ltb_spec gap (N.of_nat unused + 1)) as [Hlt|Hge].
    + cbn [fst length]. split; [lia|]. intros Hn. destruct Hn. exists 0%nat. split; [lia|].
      intros i _ Hi. rewrite lookup_rep_false. destruct (decide (i < S unused)%nat); [done|lia].
    + cbn [fst length]. rewrite <- Nat.succ_lt_mono.
      replace (N.of_nat unused + 1) with (N.of_nat (S unused)) by lia. rewrite IH by lia.
      by replace (unused + S p)%nat with (S unused + p)%nat by lia.
Qed.
End processed.

Section honest.
Context (w : World) (Hw : world_ok w) (dbg : bool).
Implicit Types (u : SparseChain TxHeight) (t : Txid).

Lemma honest_height t raw :
  electrum_height w t raw → determine_tx_height dbg raw (w_tip w) t = Ret (w_position w t).
Proof using Hw.
  unfold electrum_height, determine_tx_height, w_position. destruct (w_height w t) as [h|] eqn:E.
  - intros [-> Hg]. apply (wo_height w Hw) in E. destruct (N.eqb_spec t genesis_txid) as [Ht|Ht].
    + by rewrite (proj2 Hg Ht).
    + destruct (Z.leb_spec (Z.of_N h) 0) as [Hle|Hgt].
      { assert (h = 0) as Hz by lia. by apply Hg in Hz. }
      rewrite N2Z.id. destruct (N.ltb_spec (w_tip w) h); [lia|done].
  - intros [Hraw Hg]. destruct (N.eqb_spec t genesis_txid); [done|].
    destruct (Z.leb_spec raw 0) as [Hle|Hgt]; [|lia].
    assert (dbg && negb ((raw =? 0)%Z || (raw =? -1)%Z) = false) as ->; [|done].
    destruct Hraw as [-> | ->]; by destruct dbg.
Qed.

(** An update that says what the world says *)
Definition true_upd (cps : gmap N BlockHash) u : Prop :=
  upd_on cps u ∧ is_tip u (w_tip w) ∧ ∀ t p, sc_pos u !! t = Some p → p = w_position w t.
(** [u'] has the transactions of [u] and those in [ts] *)
Definition grows cps u u' (ts : list Txid) : Prop :=
  true_upd cps u' ∧ ∀ t, is_Some (sc_pos u' !! t) ↔ is_Some (sc_pos u !! t) ∨ t ∈ ts.

Lemma grows_refl cps u : true_upd cps u → grows cps u u [].
Proof using. intros Hu. split; [done|]. intros t. rewrite elem_of_nil. tauto. Qed.
Lemma grows_trans cps u1 u2 u3 ts1 ts2 : grows cps u1 u2 ts1 → grows cps u2 u3 ts2 → grows cps u1 u3 (ts1 ++ ts2).
Proof using.
  intros [H1 H2] [H3 H4]. split; [done|]. intros t. rewrite H4, H2, elem_of_app. tauto.
Qed.

Lemma insert_found_true cps u t :
  true_upd cps u → t ≤ max_txid →
  ∃ u', insert_found u t (w_position w t) = Ret (u', true) ∧ grows cps u u' [t].
Proof using Hw.
  intros ([Hu Hc] & Htip & Htrue) Ht. unfold insert_found.
  destruct (upd_ok_insert_tx u t (w_position w t)) as (u' & cs & -> & Hu' & Hc' & Hp'); [done|done| |].
  { split.
    - intros h Hh. exists (w_tip w). split; [apply Htip|]. simpl in Hh. unfold w_position in Hh.
      destruct (w_height w t) as [k|] eqn:E; [|done]. injection Hh as <-. by apply (wo_height w Hw) in E.
    - intros q Hq _. by apply Htrue. }
  exists u'. split; [done|]. split; [split; [split; [done|congruence]|split]|].
  - by eapply is_tip_cps; [|done].
  - intros t' p. rewrite Hp'. destruct (decide (t = t')) as [<- |Hne].
    + rewrite lookup_insert. by intros [= <-].
    + rewrite lookup_insert_ne by done. apply Htrue.
  - intros t'. rewrite Hp', elem_of_list_singleton. destruct (decide (t = t')) as [<- |Hne].
    + rewrite lookup_insert. split; [by right|by eexists].
    + rewrite lookup_insert_ne by done. split; [by left|]. by intros [?| ->].
Qed.

Lemma insert_history_true cps u l :
  true_upd cps u → (∀ t raw, (t, raw) ∈ l → electrum_height w t raw ∧ t ≤ max_txid) →
  ∃ u', insert_history dbg (w_tip w) u l = Ret (u', true) ∧ grows cps u u' l.*1.
Proof using Hw.
  revert u. induction l as [|[t raw] l IH]; intros u Hu Hl; simpl.
  { exists u. split; [done|]. by apply grows_refl. }
  destruct (Hl t raw) as [Hraw Ht]; [by left|].
  rewrite honest_height by done. cbn [mbind outcome_bind].
  destruct (insert_found_true cps u t Hu Ht) as (u1 & -> & Hg1). cbn [mbind outcome_bind].
  destruct (IH u1) as (u2 & -> & Hg2); [apply Hg1|intros t' raw' Hin; apply Hl; by right|].
  exists u2. split; [done|]. by apply (grows_trans cps u u1 u2 [t]).
Qed.
Lemma history_entries s l : electrum_history w s l → ∀ t raw, (t, raw) ∈ l → electrum_height w t raw ∧ t ≤ max_txid.
Proof using Hw.
  intros [H1 H2] t raw Hin. split; [by apply H2|]. apply (wo_txid w Hw s). rewrite <- H1.
  apply elem_of_list_fmap. by exists (t, raw).
Qed.

Section spks.
Context `{Countable J, !Ord J}.
Implicit Types (scanned : gmap J (Script * bool)) (l : list (J * Script)).

(** what the scan records about the scripts it looked at *)
Definition record l scanned : gmap J (Script * bool) :=
  foldl (λ m (e : J * Script), <[e.1 := (e.2, active w e.2)]> m) scanned l.
Definition histories l : list Txid := l ≫= (λ e : J * Script, w_history w e.2).

Lemma spks_batch_true cps gap l hists u unused scanned :
  true_upd cps u → Forall2 (electrum_history w) l.*2 hists →
  ∃ u', spks_batch dbg gap (w_tip w) (zip l hists) u unused scanned =
      Ret (match processed w gap unused l with
           | (p, None) => BatchStop u' (record p scanned)
           | (p, Some unused') => BatchMore u' unused' (record p scanned)
           end) ∧
    grows cps u u' (histories (processed w gap unused l).1).
Proof using Hw.
  revert hists u unused scanned. induction l as [|[i s] l IH]; intros hists u unused scanned Hu Hh; simpl.
  { exists u. split; [done|]. by apply grows_refl. }
  simpl in Hh. apply Forall2_cons_inv_l in Hh as (hist & hists' & Hhist & Hh & ->). cbn [zip_with spks_batch].
  pose proof (proj1 Hhist) as Hfst.
  destruct (active w s) eqn:Ea.
  - assert (Hact: w_history w s ≠ []).
    { unfold active in Ea. apply negb_true_iff, bool_decide_eq_false in Ea. done. }
    destruct hist as [|h0 hist0]; [by destruct Hact|].
    destruct (insert_history_true cps u (h0 :: hist0)) as (u1 & E1 & Hg1); [done|by apply (history_entries s)|].
    rewrite E1. cbn [mbind outcome_bind].
    destruct (IH hists' u1 0 (<[i:=(s, true)]> scanned)) as (u' & -> & Hg); [apply Hg1|done|].
    exists u'. split.
    + destruct (processed w gap 0 l) as [p [un'|]]; simpl; by rewrite Ea.
    + simpl. rewrite <- Hfst. by eapply grows_trans.
  - assert (Hact: w_history w s = []).
    { unfold active in Ea. by apply negb_false_iff, bool_decide_eq_true in Ea. }
    assert (hist = []) as -> by (apply (fmap_nil_inv fst); by rewrite Hfst).
    destruct (gap <? unused + 1) eqn:Eg.
    + exists u. split; [simpl; by rewrite Ea|]. simpl. rewrite Hact. by apply grows_refl.
    + destruct (IH hists' u (unused + 1) (<[i:=(s, false)]> scanned)) as (u' & -> & Hg); [done|done|].
      exists u'. split.
      * destruct (processed w gap (unused + 1) l) as [p [un'|]]; simpl; by rewrite Ea.
      * simpl. by rewrite Hact.
Qed.

Section srv.
Context (srv : nat → ESnap) (Hhonest : ∀ n, electrum_honest w (srv n)).
Lemma spks_loop_true cps fuel gap batch l u unused scanned :
  true_upd cps u → (0 < batch)%nat → (length l < fuel)%nat →
  ends (spks_loop dbg srv fuel gap batch (w_tip w) l u unused scanned)
    (λ r, ∃ rest, r = (r.1.1, rest, Some (record (processed w gap unused l).1 scanned)) ∧
          grows cps u r.1.1 (histories (processed w gap unused l).1)).
Proof using Hw Hhonest.
  revert l u unused scanned. induction fuel as [|fuel IH]; intros l u unused scanned Hu Hb Hf; [lia|].
  cbn [spks_loop]. destruct (take batch l) as [|b0 bl] eqn:Eb.
  { destruct l as [|e l]; [|destruct batch; [lia|done]]. apply ends_ret. eexists. split; [done|]. by apply grows_refl. }
  assert (Hlen: (length (drop batch l) < length l)%nat).
  { rewrite drop_length. destruct l; [by destruct batch|]. simpl. lia. }
  assert (Hl: l = (b0 :: bl) ++ drop batch l) by (rewrite <- Eb; by rewrite take_drop).
  set (bt := b0 :: bl) in *. clearbody bt. set (rest := drop batch l) in *. clearbody rest. clear Eb. subst l.
  apply (ends_bnd _ _ (λ ls, Forall2 (electrum_history w) bt.*2 ls)).
  { apply ends_req. intros n. destruct (eh_histories w _ (Hhonest n) bt.*2) as (ls & -> & Hls). eauto. }
  intros ls Hls. destruct (spks_batch_true cps gap bt ls u unused scanned) as (u1 & -> & Hg1); [done|done|].
  rewrite processed_app.
  apply (ends_bnd _ _ (λ r, r = match processed w gap unused bt with
           | (p, None) => BatchStop u1 (record p scanned)
           | (p, Some unused') => BatchMore u1 unused' (record p scanned)
           end)); [apply ends_lift; eauto|]. intros r ->.
  destruct (processed w gap unused bt) as [p [un'|]]; simpl in *.
  - eapply ends_weaken; [apply IH; [apply Hg1|done|lia]|]. intros [[u2 rest'] o] (rest'' & Heq & Hg2). simpl in *.
    injection Heq as -> ->. exists rest''. split.
    + unfold record. by rewrite foldl_app.
    + unfold histories. rewrite bind_app. by eapply grows_trans.
  - apply ends_ret. by exists rest.
Qed.
Lemma populate_with_spks_true cps gap batch l u :
  true_upd cps u → (0 < batch)%nat →
  ends (populate_with_spks dbg srv gap batch u l)
    (λ r, ∃ rest, r = (r.1.1, rest, Some (record (processed w gap 0 l).1 ∅)) ∧
          grows cps u r.1.1 (histories (processed w gap 0 l).1)).
Proof using Hw Hhonest.
  intros Hu Hb. unfold populate_with_spks.
  assert (∃ x, latest_checkpoint u = Some (mkBlockId (w_tip w) x)) as (x & ->).
  { destruct Hu as (_ & Htip & _). pose proof (proj1 Htip) as [x Hx]. exists x. by apply latest_tip. }
  cbv beta iota zeta. cbn [bi_height]. apply spks_loop_true; [done|done|lia].
Qed.
End srv.
End spks.

Section srv.
Context (srv : nat → ESnap) (Hhonest : ∀ n, electrum_honest w (srv n)).
Lemma true_latest cps u : true_upd cps u → ∃ x, latest_checkpoint u = Some (mkBlockId (w_tip w) x).
Proof using.
  intros (_ & Htip & _). pose proof (proj1 Htip) as [x Hx]. exists x. by apply latest_tip.
Qed.

(** ** Transactions asked for *)
Lemma txids_loop_true cps l u :
  true_upd cps u → Forall (λ t, t ≤ max_txid) l →
  ends (txids_loop dbg srv (w_tip w) l u)
    (λ r, r.2 = true ∧ grows cps u r.1 (filter (λ t, is_Some (w_tx w t)) l)).
Proof using Hw Hhonest.
  revert u. induction l as [|i l IH]; intros u Hu Hl; cbn [txids_loop]; [apply ends_ret; split; [done|]; by apply grows_refl|].
  apply Forall_cons in Hl as [Hi Hl].
  apply (ends_bnd _ _ (λ a, a = match w_tx w i with Some x => Ok x | None => Err Protocol end)).
  { apply ends_ask. intros n. by apply eh_tx. }
  intros a ->. rewrite filter_cons. destruct (w_tx w i) as [x|] eqn:Ex.
  2: { rewrite decide_False by (by intros []). by apply IH. }
  rewrite decide_True by done.
  destruct (wo_tx w Hw i x Ex) as [_ Hout]. destruct (tx_out x) as [|o os] eqn:Eo; [done|].
  assert (Hin: i ∈ w_history w (txo_spk o)) by (apply (wo_creates w Hw i x); [done|rewrite Eo; by left]).
  apply (ends_bnd _ _ (electrum_history w (txo_spk o))).
  { apply ends_req. intros n. apply (eh_history w _ (Hhonest n)). }
  intros hist Hh. pose proof Hh as [Hfst _]. rewrite <- Hfst in Hin.
  apply elem_of_list_fmap in Hin as ([i' raw'] & Hi' & Hin). simpl in Hi'. subst i'.
  destruct (List.find (λ e : Txid * Z, e.1 =? i) hist) as [[i' raw]|] eqn:Ef.
  2: { rewrite find_none_elem in Ef. specialize (Ef _ Hin). simpl in Ef. by rewrite N.eqb_refl in Ef. }
  apply find_some_elem in Ef as [Hin' Heq]. simpl in Heq. apply N.eqb_eq in Heq as ->. simpl.
  destruct (history_entries _ _ Hh i raw Hin') as [Hraw Hmax].
  rewrite honest_height by done. apply (ends_bnd _ _ (λ h, h = w_position w i)); [apply ends_lift; eauto|]. intros ? ->.
  destruct (insert_found_true cps u i Hu Hmax) as (u' & -> & Hg).
  apply (ends_bnd _ _ (λ r, r = (u', true))); [apply ends_lift; eauto|]. intros ? ->. simpl.
  eapply ends_weaken; [apply IH; [apply Hg|done]|]. intros [u2 ok] [Hok Hg2]. simpl in *. split; [done|].
  by apply (grows_trans cps u u' u2 [i]).
Qed.
Lemma populate_with_txids_true cps l u :
  true_upd cps u → Forall (λ t, t ≤ max_txid) l →
  ends (populate_with_txids dbg srv u l)
    (λ r, r.2 = true ∧ grows cps u r.1 (filter (λ t, is_Some (w_tx w t)) l)).
Proof using Hw Hhonest.
  intros Hu Hl. unfold populate_with_txids. destruct (true_latest cps u Hu) as (x & ->). by apply txids_loop_true.
Qed.

(** ** Outpoints asked for *)
(** [u'] says more than [u] *)
Definition more cps u u' : Prop := true_upd cps u' ∧ ∀ t, is_Some (sc_pos u !! t) → is_Some (sc_pos u' !! t).
Lemma more_refl cps u : true_upd cps u → more cps u u.
Proof using. done. Qed.
Lemma more_trans cps u1 u2 u3 : more cps u1 u2 → more cps u2 u3 → more cps u1 u3.
Proof using. intros [_ H1] [H2 H3]. split; [done|]. auto. Qed.
Lemma grows_more cps u u' l : grows cps u u' l → more cps u u'.
Proof using. intros [H1 H2]. split; [done|]. intros t Ht. apply H2. by left. Qed.

Definition full_true (full : gmap Txid Tx) : Prop := ∀ t x, full !! t = Some x → w_tx w t = Some x.
Lemma outpoint_history_true cps o (t : Tx) (l : list (Txid * Z)) u full residing spending :
  true_upd cps u → w_tx w (op_txid o) = Some t → full_true full →
  (∀ i raw, (i, raw) ∈ l → electrum_height w i raw ∧ i ≤ max_txid ∧ is_Some (w_tx w i)) →
  ends (outpoint_history dbg srv o t (w_tip w) l u full residing spending)
    (λ r, more cps u r.1 ∧ (∃ full', r.2 = Some full' ∧ full_true full') ∧
      (∀ t, is_Some (sc_pos r.1 !! t) → is_Some (sc_pos u !! t) ∨ around w o t) ∧
      (residing = true ∨ (op_txid o ∈ l.*1 → is_Some (sc_pos r.1 !! op_txid o))) ∧
      (spending = true ∨ ∀ s, s ≠ op_txid o → s ∈ l.*1 → w_spends w o s → is_Some (sc_pos r.1 !! s))).
Proof using Hw Hhonest.
  intros Hu Ho. revert u full residing spending Hu.
  induction l as [|[i raw] l IH]; intros u full residing spending Hu Hfull Hl; cbn [outpoint_history].
  { apply ends_ret. split; [by apply more_refl|]. split; [eauto|]. split; [by left|]. split; right; simpl; [by intros []%elem_of_nil|].
    intros s _ []%elem_of_nil. }
  destruct (Hl i raw) as (Hraw & Hmax & [x Hx]); [by left|].
  assert (Hl': ∀ i raw, (i, raw) ∈ l → electrum_height w i raw ∧ i ≤ max_txid ∧ is_Some (w_tx w i))
    by (intros i' raw' Hin; apply Hl; by right).
  destruct (residing && spending) eqn:Ers.
  { apply andb_true_iff in Ers as [-> ->]. apply ends_ret. split; [by apply more_refl|]. split; [eauto|]. split; [by left|].
    split; by left. }
  assert (Hins: ∀ full' residing' spending',
    full_true full' → around w o i →
    ends (bnd (lift (determine_tx_height dbg raw (w_tip w) i)) (λ h, bnd (lift (insert_found u i h)) (λ r : SparseChain TxHeight * bool,
      if r.2 then outpoint_history dbg srv o t (w_tip w) l r.1 full' residing' spending' else ret (r.1, None))))
     (λ r, more cps u r.1 ∧ (∃ full', r.2 = Some full' ∧ full_true full') ∧ is_Some (sc_pos r.1 !! i) ∧
      (∀ t, is_Some (sc_pos r.1 !! t) → is_Some (sc_pos u !! t) ∨ around w o t) ∧
      (residing' = true ∨ (op_txid o ∈ l.*1 → is_Some (sc_pos r.1 !! op_txid o))) ∧
      (spending' = true ∨ ∀ s, s ≠ op_txid o → s ∈ l.*1 → w_spends w o s → is_Some (sc_pos r.1 !! s)))).
  { intros full' residing' spending' Hfull' Hio. rewrite honest_height by done.
    apply (ends_bnd _ _ (λ h, h = w_position w i)); [apply ends_lift; eauto|]. intros ? ->.
    destruct (insert_found_true cps u i Hu Hmax) as (u' & -> & Hg).
    apply (ends_bnd _ _ (λ r, r = (u', true))); [apply ends_lift; eauto|]. intros ? ->. simpl.
    eapply ends_weaken; [apply IH; [apply Hg|done|done]|]. intros [u2 ok] (Hm & Hfu & Har & Hr & Hs). simpl in *.
    split; [eapply more_trans; [by eapply grows_more|done]|]. split; [done|]. split; [|split; [|done]].
    - apply Hm, Hg. right. by left.
    - intros t' Ht'. apply Har in Ht' as [Ht'|Ht']; [|by right]. apply Hg in Ht' as [Ht'|Ht']; [by left|].
      apply elem_of_list_singleton in Ht' as ->. by right. }
  destruct (N.eqb_spec i (op_txid o)) as [-> |Hne].
  - destruct residing.
    + eapply ends_weaken; [by apply IH|]. intros [u2 ok] (Hm & Hfu & Har & Hr & Hs). simpl in *.
      split; [done|]. split; [done|]. split; [done|]. split; [by left|]. destruct Hs as [Hs|Hs]; [by left|]. right.
      intros s Hsne [->|Hin]%elem_of_cons; [done|]. by apply Hs.
    + eapply ends_weaken; [apply Hins|].
      { intros t' y. destruct (decide (op_txid o = t')) as [<- |?]; [rewrite lookup_insert|by rewrite lookup_insert_ne; auto].
        by intros [= <-]. }
      { by left. }
      intros [u2 ok] (Hm & Hfu & Hi & Har & Hr & Hs). simpl in *.
      split; [done|]. split; [done|]. split; [done|]. split; [by right|]. destruct Hs as [Hs|Hs]; [by left|]. right.
      intros s Hsne [->|Hin]%elem_of_cons; [done|]. by apply Hs.
  - destruct spending.
    + eapply ends_weaken; [by apply IH|]. intros [u2 ok] (Hm & Hfu & Har & Hr & Hs). simpl in *.
      split; [done|]. split; [done|]. split; [done|]. split; [|by left]. destruct Hr as [Hr|Hr]; [by left|]. right.
      intros [Heq|Hin]%elem_of_cons; [congruence|]. by apply Hr.
    + apply (ends_bnd _ _ (λ y, w_tx w i = Some y)).
      { destruct (full !! i) as [y|] eqn:Ey; [apply ends_ret; by apply Hfull|].
        apply ends_req. intros n. exists x. rewrite (eh_tx w _ (Hhonest n)), Hx. done. }
      intros y Hy. rewrite Hx in Hy. injection Hy as <-.
      assert (Hfull': full_true (<[i:=x]> full)).
      { intros t' y. destruct (decide (i = t')) as [<- |?]; [rewrite lookup_insert|by rewrite lookup_insert_ne; auto].
        by intros [= <-]. }
      destruct (existsb (λ p, bool_decide (p = o)) (tx_in x)) eqn:Esp.
      * assert (around w o i) as Hio.
        { right. exists x. split; [done|]. apply existsb_exists in Esp as (p & Hp & ->%bool_decide_eq_true).
          by apply elem_of_list_In. }
        eapply ends_weaken; [by apply Hins|]. intros [u2 ok] (Hm & Hfu & Hi & Har & Hr & Hs). simpl in *.
        split; [done|]. split; [done|]. split; [done|]. split.
        { destruct Hr as [Hr|Hr]; [by left|]. right. intros [Heq|Hin]%elem_of_cons; [congruence|]. by apply Hr. }
        right. intros s Hsne Hin [_ Huniq]. apply existsb_exists in Esp as (p & Hp & Hpo%bool_decide_eq_true).
        subst p. apply elem_of_list_In in Hp. by rewrite <- (Huniq i x Hx Hp).
      * eapply ends_weaken; [by apply IH|]. intros [u2 ok] (Hm & Hfu & Har & Hr & Hs). simpl in *.
        split; [done|]. split; [done|]. split; [done|]. split.
        { destruct Hr as [Hr|Hr]; [by left|]. right. intros [Heq|Hin]%elem_of_cons; [congruence|]. by apply Hr. }
        right. destruct Hs as [Hs|Hs]; [done|].
        intros s Hsne [->|Hin]%elem_of_cons Hws; [|by apply Hs].
        destruct Hws as [(y & Hy & Hoin) _]. rewrite Hx in Hy. injection Hy as <-.
        assert (false = true) as [=]. rewrite <- Esp. apply existsb_exists. exists o.
        split; [by apply elem_of_list_In|]. by apply bool_decide_eq_true.
Qed.

Lemma outpoints_loop_true cps l u full :
  true_upd cps u → full_true full → Forall (λ o, is_Some (w_tx w (op_txid o))) l →
  ends (outpoints_loop dbg srv (w_tip w) l u full)
    (λ r, more cps u r.1 ∧ r.2 ≠ None ∧ (∀ o, o ∈ l → outpoint_found w r.1 o) ∧
      ∀ t, is_Some (sc_pos r.1 !! t) → is_Some (sc_pos u !! t) ∨ ∃ o, o ∈ l ∧ w_output w o ∧ around w o t).
Proof using Hw Hhonest.
  revert u full. induction l as [|o l IH]; intros u full Hu Hfull Hl; cbn [outpoints_loop].
  { apply ends_ret. split; [by apply more_refl|]. split; [done|]. split; [by intros o ?%elem_of_nil|by left]. }
  apply Forall_cons in Hl as [[x Hx] Hl].
  apply (ends_bnd _ _ (λ y, y = x)).
  { apply ends_req. intros n. exists x. by rewrite (eh_tx w _ (Hhonest n)), Hx. }
  intros ? ->. destruct (wo_tx w Hw _ _ Hx) as [Htxid _]. rewrite Htxid, N.eqb_refl, andb_false_r.
  destruct (tx_out x !! N.to_nat (op_vout o)) as [z|] eqn:Ez.
  2: { eapply ends_weaken; [by apply IH|]. intros [u2 r2] (Hm & Hn & Hf & Har). split; [done|]. split; [done|]. split.
       - intros o' [->|Hin]%elem_of_cons; [|by apply Hf]. intros x' z' Hx' Hz'. congruence.
       - intros t Ht. apply Har in Ht as [?|(o' & ? & ?)]; [by left|]. right. exists o'. split; [by right|done]. }
  apply (ends_bnd _ _ (electrum_history w (txo_spk z))).
  { apply ends_req. intros n. apply (eh_history w _ (Hhonest n)). }
  intros hist Hh. eapply ends_bnd.
  { apply (outpoint_history_true cps o x hist u full false false Hu Hx Hfull).
    intros i raw Hin. destruct (history_entries _ _ Hh i raw Hin) as [H1 H2]. split; [done|]. split; [done|].
    apply (wo_known w Hw (txo_spk z)). rewrite <- (proj1 Hh). apply elem_of_list_fmap. by exists (i, raw). }
  intros [u1 full1] (Hm & (full' & Hf' & Hfull') & Har1 & Hres & Hsp). simpl in *. subst full1.
  eapply ends_weaken; [apply IH; [apply Hm|done|done]|]. intros [u2 r2] (Hm2 & Hn & Hf & Har2). simpl in *.
  split; [by eapply more_trans|]. split; [done|]. split.
  2: { intros t Ht. apply Har2 in Ht as [Ht|(o' & ? & ?)].
       - apply Har1 in Ht as [?|?]; [by left|]. right. exists o. split; [by left|]. split; [by exists x, z|done].
       - right. exists o'. split; [by right|done]. }
  intros o' [->|Hin]%elem_of_cons; [|by apply Hf]. intros x' z' Hx' Hz'.
  rewrite Hx in Hx'. injection Hx' as <-. rewrite Ez in Hz'. injection Hz' as <-.
  rewrite (proj1 Hh) in Hres, Hsp. destruct Hres as [|Hres]; [done|]. destruct Hsp as [|Hsp]; [done|]. split.
  - apply Hm2, Hres. apply (wo_creates w Hw _ x); [done|]. by eapply elem_of_list_lookup_2.
  - intros s Hne Hs. apply Hm2, Hsp; [done| |done]. destruct Hs as [(y & Hy & Hin) _].
    by eapply (wo_spends w Hw s y o x z).
Qed.
Lemma populate_with_outpoints_true cps l u :
  true_upd cps u → Forall (λ o, is_Some (w_tx w (op_txid o))) l →
  ends (populate_with_outpoints dbg srv u l)
    (λ r, more cps u r.1 ∧ r.2 ≠ None ∧ (∀ o, o ∈ l → outpoint_found w r.1 o) ∧
      ∀ t, is_Some (sc_pos r.1 !! t) → is_Some (sc_pos u !! t) ∨ ∃ o, o ∈ l ∧ w_output w o ∧ around w o t).
Proof using Hw Hhonest.
  intros Hu Hl. unfold populate_with_outpoints. destruct (true_latest cps u Hu) as (x & ->).
  apply outpoints_loop_true; [done| |done]. intros t y. by rewrite lookup_empty.
Qed.
End srv.
End honest.
