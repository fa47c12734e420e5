(** Esplora scans against an honest server that does not change: stop gaps and whole scans (C58, C60, C69, C72). *)
From Verif Require Export EsploraProofs2 SyncProofs.

(** ** The stop gap *)
Section gap.
Context (w : World).
Implicit Types (l : list (N * Script)).
Lemma activity_app l1 l2 : activity w (l1 ++ l2) = activity w l1 ++ activity w l2.
Proof. apply fmap_app. Qed.
Lemma activity_length l : length (activity w l) = length l.
Proof. apply fmap_length. Qed.
(** The inactive scripts at the end of a batch *)
Lemma run_shape l (n : nat) : ∃ (X : list bool) (n' : nat),
  run_empty w l (N.of_nat n) = N.of_nat n' ∧ replicate n false ++ activity w l = X ++ replicate n' false ∧
  (X = [] ∨ last X = Some true).
Proof.
  revert n. induction l as [|[i k] l IH]; intros n.
  { exists [], n. split; [done|]. rewrite app_nil_r. split; [done|by left]. }
  change (activity w ((i, k) :: l)) with (active w k :: activity w l). simpl. destruct (active w k) eqn:E.
  - destruct (IH 0%nat) as (X & n' & Hr & Hx & HX). exists (replicate n false ++ true :: X), n'. split; [done|]. simpl in Hx.
    rewrite Hx, <- app_assoc. split; [done|]. right. rewrite last_app_cons. destruct HX as [-> |HX]; [done|].
    destruct X; [done|]. by rewrite last_cons_cons.
  - destruct (IH (n + 1)%nat) as (X & n' & Hr & Hx & HX). exists X, n'. rewrite Nat2N.inj_add in Hr. split; [done|]. split; [|done].
    rewrite <- Hx. rewrite replicate_add. by rewrite <- app_assoc.
Qed.
Lemma gap_before_suffix m (X Y : list bool) (p : nat) : gap_before m Y p → gap_before m (X ++ Y) (length X + p).
Proof.
  intros (s & Hs & Hall). exists (length X + s)%nat. split; [lia|]. intros i H1 H2. rewrite lookup_app_r by lia.
  apply Hall; lia.
Qed.
Lemma asked_spec rounds gap (par : nat) l (n : nat) :
  (0 < par)%nat → (length l < rounds)%nat →
  (asked_count w rounds gap par l (N.of_nat n) ≤ length l)%nat ∧
  (∀ p, activity w l !! p = Some true → ¬ gap_before gap (replicate n false ++ activity w l) (n + p) →
     (p < asked_count w rounds gap par l (N.of_nat n))%nat) ∧
  (N.of_nat n < gap → ∀ p, gap_before (gap + N.of_nat par - 1) (replicate n false ++ activity w l) (n + p) →
     (asked_count w rounds gap par l (N.of_nat n) ≤ p)%nat).
Proof.
  intros Hpar. revert l n. induction rounds as [|rounds IH]; intros l n Hr; [lia|]. cbn [asked_count]. cbv zeta.
  destruct (run_shape (take par l) n) as (X & n' & Hrun & Hx & HX). rewrite Hrun.
  set (b := take par l) in *. set (l' := drop par l) in *.
  assert (Hl : l = b ++ l') by (symmetry; apply take_drop).
  assert (Hbl : (length b ≤ par)%nat) by (subst b; rewrite take_length; lia).
  assert (Hb0 : b = [] → l = []).
  { subst b. destruct l; [done|]. destruct par; [lia|done]. }
  assert (Hlen : (n + length b = length X + n')%nat).
  { apply (f_equal length) in Hx. rewrite !app_length, !replicate_length, activity_length in Hx. done. }
  clearbody b l'. 
  assert (Hearly: N.of_nat n < gap → ∀ p, gap_before (gap + N.of_nat par - 1) (replicate n false ++ activity w l) (n + p) →
    (length b ≤ p)%nat).
  { intros Hn p (s & Hs & _). lia. }
  destruct (bool_decide (b = []) || (gap <=? N.of_nat n')) eqn:Estop.
  - split; [subst l; rewrite app_length; lia|]. split; [|done]. intros p Hp Hg.
    apply orb_true_iff in Estop as [Hb%bool_decide_eq_true|Hgap%N.leb_le].
    { rewrite (Hb0 Hb) in Hp. done. }
    destruct (Nat.lt_ge_cases p (length b)) as [?|Hge]; [done|]. exfalso. apply Hg. subst l.
    exists (length X). split; [lia|]. intros i H1 H2. rewrite activity_app, app_assoc, Hx, <- app_assoc.
    rewrite lookup_app_r by lia. rewrite lookup_rep_false. rewrite decide_True by lia. done.
  - apply orb_false_iff in Estop as [Hb%bool_decide_eq_false Hgap%N.leb_gt].
    assert (0 < length b)%nat by (destruct b; [done|simpl; lia]).
    subst l. rewrite app_length in *. destruct (IH l' n') as (H1 & H2 & H3); [lia|]. rewrite activity_app.
    split; [lia|]. split.
    + intros p Hp Hg. destruct (Nat.lt_ge_cases p (length b)) as [?|Hge]; [lia|].
      rewrite lookup_app_r in Hp by (by rewrite activity_length). rewrite activity_length in Hp.
      specialize (H2 (p - length b)%nat Hp). feed specialize H2; [|lia]. intros Hgb. apply Hg.
      rewrite app_assoc, Hx, <- app_assoc. replace (n + p)%nat with (length X + (n' + (p - length b)))%nat by lia.
      by apply gap_before_suffix.
    + intros Hn p Hgb. pose proof (Hearly Hn p) as Hge. rewrite activity_app in Hge. specialize (Hge Hgb).
      specialize (H3 Hgap (p - length b)%nat). feed specialize H3; [|lia].
      destruct Hgb as (s & Hs & Hall). rewrite app_assoc, Hx, <- app_assoc in Hall.
      destruct (Nat.lt_ge_cases s (length X)) as [Hsx|Hsx].
      * exfalso. destruct HX as [-> |HX]; [simpl in Hsx; lia|]. rewrite last_lookup in HX.
        destruct (N.lt_ge_cases (N.of_nat (pred (length X))) (N.of_nat s + (gap + N.of_nat par - 1))) as [Hlt|Hle]; [|lia].
        specialize (Hall (pred (length X))). rewrite lookup_app_l in Hall by lia. rewrite HX in Hall.
        assert (Some true = Some false); [|done]. apply Hall; lia.
      * exists (s - length X)%nat. split; [lia|]. intros i Hi1 Hi2. specialize (Hall (length X + i)%nat).
        rewrite lookup_app_r in Hall by lia. replace (length X + i - length X)%nat with i in Hall by lia. apply Hall; lia.
Qed.
Lemma last_active_last l a :
  last_found w l a = match last (filter (λ e : N * Script, w_history w e.2 ≠ []) l) with Some e => Some e.1 | None => a end.
Proof.
  revert a. induction l as [|[i k] l IH]; intros a; [done|]. simpl. rewrite IH. unfold active.
  rewrite filter_cons. destruct (decide (w_history w (i, k).2 ≠ [])) as [Hne|He]; simpl in *.
  - rewrite bool_decide_eq_false_2 by done. simpl. rewrite last_cons. by destruct (last _).
  - rewrite bool_decide_eq_true_2 by (by destruct (decide (w_history w k = []))). done.
Qed.
(** Where a scan stops. *)
Lemma asked_stops rounds gap (par : nat) l (e : N) : (0 < par)%nat → (length l < rounds)%nat →
  (asked_count w rounds gap par l e ≤ length l)%nat ∧
  (asked_count w rounds gap par l e = length l ∨
     (∃ m, 0 < m ∧ asked_count w rounds gap par l e = m * par)%nat ∧ gap ≤ run_empty w (take (asked_count w rounds gap par l e) l) e) ∧
  (∀ m, (0 < m)%nat → (m * par < asked_count w rounds gap par l e)%nat → run_empty w (take (m * par) l) e < gap).
Proof.
  intros Hpar. revert l e. induction rounds as [|rounds IH]; intros l e Hr; [lia|]. cbn [asked_count]. cbv zeta.
  assert (length (take par l) = par `min` length l)%nat as Hlen by apply take_length.
  destruct (bool_decide (take par l = []) || (gap <=? run_empty w (take par l) e)) eqn:Estop.
  - split; [lia|]. split.
    + destruct (Nat.le_gt_cases (length l) par) as [Hle|Hgt]; [left; lia|]. right. rewrite Hlen, Nat.min_l by lia. split; [exists 1%nat; lia|].
      apply orb_true_iff in Estop as [Hb%bool_decide_eq_true|Hgap%N.leb_le]; [|done]. apply (f_equal length) in Hb. rewrite Hlen in Hb. cbn in Hb. lia.
    + intros m Hm Hlt. exfalso. rewrite Hlen in Hlt. destruct m; [lia|]. cbn in Hlt. lia.
  - apply orb_false_iff in Estop as [Hb%bool_decide_eq_false Hgap%N.leb_gt].
    assert (0 < length l)%nat by (destruct l; [by rewrite take_nil in Hb|cbn; lia]).
    destruct (IH (drop par l) (run_empty w (take par l) e)) as (H1 & H2 & H3); [rewrite drop_length; lia|]. rewrite drop_length in H1, H2.
    set (a := asked_count w rounds gap par (drop par l) (run_empty w (take par l) e)) in *. clearbody a.
    split; [lia|]. rewrite take_more, run_empty_app. split.
    + destruct H2 as [H2|[(m & Hm0 & Hm) H2]]; [left; lia|].
      destruct (Nat.le_gt_cases (length l) par) as [Hle|Hgt]; [left; lia|]. right. split; [|done]. exists (S m). rewrite Hlen, Nat.min_l by lia. cbn. lia.
    + intros m Hm Hlt. destruct m as [|m]; [lia|]. cbn [Nat.mul] in Hlt |- *.
      destruct (Nat.le_gt_cases (length l) par) as [Hle|Hgt]; [rewrite Hlen in Hlt; lia|]. rewrite Hlen, Nat.min_l in Hlt by lia.
      destruct m as [|m]; [by rewrite Nat.add_0_r|].
      pose proof (take_more l par (S m * par)) as Ht. rewrite Hlen, Nat.min_l in Ht by lia. rewrite Ht, run_empty_app. apply H3; lia.
Qed.
Lemma run_idle gap l (n : nat) : (n ≤ length l)%nat → gap ≤ run_empty w (take n l) 0 ↔ idle_end gap (activity w l) n.
Proof.
  intros Hn. destruct (run_shape (take n l) 0) as (X & n' & Hr & Hx & HX). cbn [replicate app] in Hx. change (N.of_nat 0) with 0 in Hr. rewrite Hr.
  assert (activity w (take n l) = take n (activity w l)) as Ht by (unfold activity; by rewrite fmap_take).
  assert (length X + n' = n)%nat as Hlen.
  { apply (f_equal length) in Hx. rewrite activity_length, app_length, replicate_length, take_length in Hx. lia. }
  rewrite Ht in Hx. assert (∀ i, (i < n)%nat → activity w l !! i = (X ++ replicate n' false) !! i) as Hi.
  { intros i Hi. by rewrite <- Hx, lookup_take by done. }
  split.
  - intros Hg. exists (length X). split; [lia|]. intros i H1 H2. rewrite Hi by done. rewrite lookup_app_r by done. apply lookup_replicate_2. lia.
  - intros (s & Hs & Hall). destruct (Nat.le_gt_cases (length X) s) as [Hle|Hgt]; [lia|]. exfalso. destruct HX as [-> |HX]; [cbn in Hgt; lia|].
    rewrite last_lookup in HX. specialize (Hall (pred (length X)) ltac:(lia) ltac:(lia)). rewrite Hi in Hall by lia. rewrite lookup_app_l in Hall by lia. congruence.
Qed.
(** There is only one such place. *)
Lemma scanned_once gap par l n a n2 a2 : (0 < par)%nat → scanned_first w gap par l n a → scanned_first w gap par l n2 a2 → n = n2 ∧ a = a2.
Proof.
  assert (∀ n a n2 a2, (0 < par)%nat → scanned_first w gap par l n a → scanned_first w gap par l n2 a2 → (n2 ≤ n)%nat) as Hle.
  { clear. intros n a n2 a2 Hpar Hs Hs2. destruct (Nat.le_gt_cases n2 n) as [?|Hlt]; [done|]. exfalso.
    pose proof (sn_length _ _ _ _ _ _ Hs2). destruct (sn_stops _ _ _ _ _ _ Hs) as [->|[(m & Hm & ->) Hi]]; [lia|].
    by apply (sn_first _ _ _ _ _ _ Hs2 m) in Hlt. }
  intros Hpar Hs Hs2. assert (n = n2) as <- by (apply Nat.le_antisymm; by eapply Hle). split; [done|].
  rewrite (sn_active _ _ _ _ _ _ Hs), (sn_active _ _ _ _ _ _ Hs2). done.
Qed.
Lemma asked_scanned gap par l :
  (0 < par)%nat →
  scanned_first w gap par l (asked_count w (S (length l)) gap par l 0)
    (last_found w (take (asked_count w (S (length l)) gap par l 0) l) None).
Proof.
  intros Hpar. destruct (asked_spec (S (length l)) gap par l 0 Hpar) as (H1 & H2 & H3); [lia|].
  destruct (asked_stops (S (length l)) gap par l 0 Hpar) as (_ & S2 & S3); [lia|].
  change (N.of_nat 0) with 0 in *. constructor.
  - done.
  - destruct S2 as [S2|[S2 S4]]; [by left|]. right. split; [done|]. by apply run_idle.
  - intros m Hm Hlt Hi. specialize (S3 m Hm Hlt). apply run_idle in Hi; lia.
  - intros p [Ha Hg]. by apply H2.
  - intros p Hgap Hg. by apply H3.
  - rewrite last_active_last. by destruct (last _).
Qed.
End gap.

(** ** Whole scans *)
Section honest.
Context (W : Txid → list OutPoint) (w : World) (time : N → N).
Context (Hw : world_ok w) (Hsane : world_sane W w) (Htime : ∀ h, time h ≤ u64_max).
Context (ho : TxGraph → OutPoint → list Txid) (Hho : hash_fun_ok ho).
Context (srv : nat → PSnap) (Hhonest : ∀ n, esplora_honest w time (srv n)).
Implicit Types (u : ChainGraph ConfirmationTime) (local : gmap N BlockHash).

Lemma ps_prepare_ends local dn l cps u :
  (∀ h, is_Some (local !! h) → h ≤ w_tip w) →
  reverse (bmap_list local) = dn ++ l →
  cgu_ok W cps u → sc_pos (cg_chain u) = ∅ → cg_graph u = tg_default →
  (∀ h y, cps !! h = Some y ↔ h ∈ dn.*1 ∧ y = w_block w h) →
  (∀ h x, (h, x) ∈ dn → x ≠ w_block w h) →
  ends (ps_prepare_loop srv l u) (λ u', ∃ cps', cgu_ok W cps' u' ∧ sc_pos (cg_chain u') = ∅ ∧ cg_graph u' = tg_default ∧
    ∀ h y, cps' !! h = Some y ↔ asked w local h ∧ y = w_block w h).
Proof using Hw Hhonest.
  intros Hlocal. revert dn cps u. induction l as [|[h x] l IH]; intros dn cps u Hl Hu Hpos Hgr Hcps Hdn; simpl.
  - apply ends_ret. exists cps. split; [done|]. split; [done|]. split; [done|]. intros h y. rewrite Hcps. rewrite app_nil_r in Hl.
    rewrite <- Hl, local_in. unfold asked. split; [|by intros [[Hs _] ->]]. intros [Hs ->]. split; [|done]. split; [done|].
    intros k x Hk _. apply Hdn. rewrite <- Hl. rewrite elem_of_reverse. by apply elem_of_bmap_list.
  - pose proof (local_desc local) as Hs. rewrite Hl in Hs.
    assert (Hin: ∀ k y, local !! k = Some y ↔ (k, y) ∈ dn ∨ k = h ∧ y = x ∨ (k, y) ∈ l).
    { intros k y. rewrite <- elem_of_bmap_list, <- elem_of_reverse, Hl, elem_of_app, elem_of_cons.
      assert ((k, y) = (h, x) ↔ k = h ∧ y = x) as ->; [split; [by intros [= -> ->]|by intros [-> ->]]|done]. }
    assert (Hh: local !! h = Some x) by (apply Hin; right; by left).
    assert (Hht: h ≤ w_tip w) by (apply Hlocal; eauto).
    pose proof (wo_tip w Hw) as Htip.
    apply (ends_bnd _ _ (λ y, y = w_block w h)).
    { apply ends_req. intros n. eexists. split; [|done]. by apply (ph_block w time). }
    intros y ->.
    assert (Hnew: ∀ z, cps !! h = Some z → False).
    { intros z [Hz _]%Hcps. apply elem_of_list_fmap in Hz as ([k y] & -> & Hz). simpl in *.
      apply (desc_split _ _ k x k y) in Hs as [Hs _]. specialize (Hs Hz). lia. }
    destruct (cgu_checkpoint W cps u (mkBlockId h (w_block w h)) Hu) as [(u' & cs & E & Hu' & Hp & Hg)|(Ht & _)]; [simpl; lia| |].
    2:{ destruct Hu as (_ & _ & _ & Hc). destruct Ht as [[z Hz] _]. simpl in Hz. rewrite Hc in Hz. by apply Hnew in Hz. }
    simpl in Hu'. set (cps' := <[h := w_block w h]> cps) in *.
    apply (ends_bnd _ _ (λ r, r = Ok (u', cs))); [apply ends_lift; eauto|]. intros r ->.
    assert (Hc': ∀ k y, cps' !! k = Some y ↔ k ∈ (dn ++ [(h, x)]).*1 ∧ y = w_block w k).
    { intros k y. subst cps'. rewrite fmap_app, elem_of_app. simpl. rewrite elem_of_list_singleton.
      destruct (decide (h = k)) as [<- |Hne].
      - rewrite lookup_insert. split; [intros [= <-]; by split; [right|]|by intros [_ ->]].
      - rewrite lookup_insert_ne by done. rewrite Hcps. split; intros [Hk ->]; (split; [|done]).
        + by left.
        + by destruct Hk as [Hk| ->]. }
    destruct (N.eqb_spec (w_block w h) x) as [Heq|Hne].
    + apply ends_ret. exists cps'. split; [done|]. split; [by rewrite Hp|]. split; [by rewrite Hg|]. intros k y. rewrite Hc'.
      rewrite fmap_app, elem_of_app. simpl. rewrite elem_of_list_singleton. unfold asked.
      split.
      * intros [Hk ->]. split; [|done]. destruct Hk as [Hk| ->].
        -- apply elem_of_list_fmap in Hk as ([k' z] & -> & Hk). simpl.
           split; [exists z; apply Hin; by left|]. intros j v Hj Hlt. apply Hin in Hj as [Hj|[[-> ->]|Hj]].
           ++ by apply Hdn.
           ++ apply (desc_split _ _ h x k' z) in Hs as [Hs _]. specialize (Hs Hk). lia.
           ++ pose proof (desc_split _ _ h x k' z Hs) as [H1 _]. pose proof (desc_split _ _ h x j v Hs) as [_ H2].
              specialize (H1 Hk). specialize (H2 Hj). lia.
        -- split; [by exists x|]. intros j v Hj Hlt. apply Hin in Hj as [Hj|[[-> ->]|Hj]].
           ++ by apply Hdn.
           ++ lia.
           ++ pose proof (desc_split _ _ h x j v Hs) as [_ H2]. specialize (H2 Hj). lia.
      * intros [[[z Hz] Hall] ->]. split; [|done]. apply Hin in Hz as [Hz|[[-> ->]|Hz]].
        -- left. apply elem_of_list_fmap. by exists (k, z).
        -- by right.
        -- exfalso. apply (Hall h x Hh); [|done]. by apply (desc_split _ _ h x k z) in Hs as [_ Hs]; auto.
    + apply (IH (dn ++ [(h, x)]) cps'); [by rewrite <- app_assoc|done|by rewrite Hp|by rewrite Hg|done|].
      intros k z [Hk|[= -> ->]%elem_of_list_singleton]%elem_of_app; [by apply Hdn|congruence].
Qed.

Lemma ps_txids_true cps (l : list Txid) u :
  true_cg W w time cps u →
  ends (ps_txids_loop srv ho (w_tip w) l u) (λ u', ∃ ts, cg_grows W w time cps u u' ts ∧
    ∀ t, t ∈ ts ↔ t ∈ l ∧ is_Some (w_tx w t)).
Proof using Hw Hsane Htime Hho Hhonest.
  revert u. induction l as [|i l IH]; intros u Hu; simpl.
  { apply ends_ret. exists []. split; [by apply cg_grows_refl|]. intros t. rewrite elem_of_nil. tauto. }
  apply (ends_bnd _ _ (λ t, t = w_tx w i)).
  { apply ends_req. intros n. eexists. split; [|done]. by apply (ph_tx w time). }
  intros ? ->. apply (ends_bnd _ _ (λ s, is_Some (w_tx w i) → s = Some (w_status w time i))).
  { apply ends_req. intros n. destruct (ph_status_any w time _ (Hhonest n) i) as [st Hst]. exists st. split; [done|].
    intros Hi. pose proof (ph_status w time _ (Hhonest n) i Hi). congruence. }
  intros s Hs. destruct (w_tx w i) as [x|] eqn:Ex.
  - rewrite Hs by eauto. rewrite map_status by done.
    destruct (ps_insert_true W w time Hw Hsane Htime ho Hho cps u i x Hu Ex) as (u1 & E & Hg1).
    apply (ends_bnd _ _ (λ r, r = u1)); [apply ends_lift; eauto|]. intros ? ->.
    eapply ends_weaken; [apply IH; apply Hg1|]. intros u' (ts & Hg & Hts). exists ([i] ++ ts).
    split; [by eapply cg_grows_trans|]. intros t. simpl. rewrite !elem_of_cons, Hts. split.
    + intros [-> |[? ?]]; [split; [by left|by rewrite Ex]|split; [by right|done]].
    + intros [[-> |?] ?]; [by left|by right].
  - eapply ends_weaken; [by apply IH|]. intros u' (ts & Hg & Hts). exists ts. split; [done|].
    intros t. rewrite Hts, elem_of_cons. split; [naive_solver|]. intros [[-> |?] Hk]; [|done]. rewrite Ex in Hk. by destruct Hk.
Qed.
Lemma ps_outpoint_true (o : OutPoint) :
  ends (outpoint_txs srv o) (λ l, ∃ ts, Forall2 (λ t e, w_tx w t = Some e.1 ∧ e.2 = w_status w time t) ts l ∧
    (∀ t, t ∈ ts → is_Some (w_tx w t) ∧ around w o t) ∧
    (is_Some (w_tx w (op_txid o)) → op_txid o ∈ ts ∧ ∀ i, w_spends w o i → i ∈ ts)).
Proof using Hw Hhonest.
  unfold outpoint_txs. apply (ends_bnd _ _ (λ t, t = w_tx w (op_txid o))).
  { apply ends_req. intros n. eexists. split; [|done]. by apply (ph_tx w time). }
  intros ? ->. apply (ends_bnd _ _ (λ s, is_Some (w_tx w (op_txid o)) → s = Some (w_status w time (op_txid o)))).
  { apply ends_req. intros n. destruct (ph_status_any w time _ (Hhonest n) (op_txid o)) as [st Hst]. exists st. split; [done|].
    intros Hi. pose proof (ph_status w time _ (Hhonest n) _ Hi). congruence. }
  intros s Hs. destruct (w_tx w (op_txid o)) as [x|] eqn:Ex.
  2:{ apply ends_ret. exists []. split; [constructor|]. split; [by intros t ?%elem_of_nil|]. by intros []. }
  rewrite Hs by eauto.
  set (Q := λ os : option OutputStatus, 
    (∀ p, os = Some p → ∀ i st, os_txid p = Some i → os_status p = Some st → w_spends w o i ∧ st = w_status w time i) ∧
    (∀ i, w_spends w o i → ∃ p, os = Some p ∧ os_txid p = Some i ∧ os_status p = Some (w_status w time i))).
  apply (ends_bnd _ _ Q).
  { apply ends_req. intros n. destruct (ph_output w time _ (Hhonest n) (op_txid o) (op_vout o)) as (os & E & H1 & H2).
    exists os. split; [done|]. destruct o as [ot ov]. done. }
  intros os [H1 H2].
  assert (Hnone: (∀ i, ¬ w_spends w o i) → ends (ret [(x, w_status w time (op_txid o))])
   (λ l, ∃ ts, Forall2 (λ t e, w_tx w t = Some e.1 ∧ e.2 = w_status w time t) ts l ∧
    (∀ t, t ∈ ts → is_Some (w_tx w t) ∧ around w o t) ∧
    (is_Some (Some x) → op_txid o ∈ ts ∧ ∀ i, w_spends w o i → i ∈ ts))).
  { intros Hno. apply ends_ret. exists [op_txid o]. split; [by repeat constructor|]. split.
    - intros t ->%elem_of_list_singleton. split; [by rewrite Ex|by left].
    - intros _. split; [by left|]. intros i Hi. by apply Hno in Hi. }
  destruct os as [[[i|] [st|]]|]; try (apply Hnone; intros j Hj; apply H2 in Hj as (p & [= <-] & ? & ?); done).
  - destruct (H1 _ eq_refl i st eq_refl eq_refl) as [Hi ->].
    apply (ends_bnd _ _ (λ t, t = w_tx w i)).
    { apply ends_req. intros n. eexists. split; [|done]. by apply (ph_tx w time). }
    intros ? ->. pose proof Hi as [(y & Hy & Hoy) Huniq]. rewrite Hy. apply ends_ret. exists [op_txid o; i].
    split; [by repeat constructor|]. split.
    + intros t [-> | ->%elem_of_list_singleton]%elem_of_cons; [split; [by rewrite Ex|by left]|].
      split; [by rewrite Hy|]. right. eauto.
    + intros _. split; [by left|]. intros j [(z & Hz & Hoz) Hj2]. right. apply elem_of_list_singleton.
      by eapply Huniq.
Qed.
Lemma ps_outpoints_true cps (l : list OutPoint) u :
  true_cg W w time cps u →
  ends (ps_outpoints_loop srv ho (w_tip w) l u) (λ u', ∃ ts, cg_grows W w time cps u u' ts ∧
    (∀ t, t ∈ ts → is_Some (w_tx w t) ∧ ∃ o, o ∈ l ∧ around w o t) ∧
    (∀ o, o ∈ l → is_Some (w_tx w (op_txid o)) → op_txid o ∈ ts ∧ ∀ i, w_spends w o i → i ∈ ts)).
Proof using Hw Hsane Htime Hho Hhonest.
  revert u. induction l as [|o l IH]; intros u Hu; simpl.
  { apply ends_ret. exists []. split; [by apply cg_grows_refl|]. split; [by intros t ?%elem_of_nil|by intros o ?%elem_of_nil]. }
  eapply ends_bnd; [apply ps_outpoint_true|]. intros txs (ts1 & Hf & Hin1 & Hall1).
  destruct (ps_insert_all_true W w time Hw Hsane Htime ho Hho cps u ts1 txs Hu Hf) as (u1 & E & Hg1).
  apply (ends_bnd _ _ (λ r, r = u1)); [apply ends_lift; eauto|]. intros ? ->.
  eapply ends_weaken; [apply IH; apply Hg1|]. intros u' (ts & Hg & Hin & Hall). exists (ts1 ++ ts).
  split; [by eapply cg_grows_trans|]. split.
  - intros t [Ht|Ht]%elem_of_app.
    + destruct (Hin1 t Ht) as [Hk Ha]. split; [done|]. exists o. split; [by left|done].
    + destruct (Hin t Ht) as (Hk & o' & Ho' & Ha). split; [done|]. exists o'. split; [by right|done].
  - intros o' [-> |Ho']%elem_of_cons Hk.
    + destruct (Hall1 Hk) as [Ha Hb]. split; [by apply elem_of_app; left|]. intros i Hi. apply elem_of_app. left. by apply Hb.
    + destruct (Hall o' Ho' Hk) as [Ha Hb]. split; [by apply elem_of_app; right|]. intros i Hi. apply elem_of_app. right. by apply Hb.
Qed.

Lemma keychains_true cps `{Countable K} fuel gap par (l : list (K * list (N * Script))) u (m : gmap K N) :
  true_cg W w time cps u → NoDup l.*1 → (∀ k, is_Some (m !! k) → k ∉ l.*1) →
  (∀ k spks, (k, spks) ∈ l → Forall (λ e, pageable w fuel e.2) spks) → (0 < par)%nat →
  ends (keychains_loop srv ho fuel gap par (w_tip w) l u m) (λ r, ∃ ts, cg_grows W w time cps u r.1 ts ∧
    (∀ k spks, (k, spks) ∈ l → ∃ n, scanned_first w gap par spks n (r.2 !! k) ∧
       ∀ i sc t, (i, sc) ∈ take n spks → t ∈ w_history w sc → t ∈ ts) ∧
    (∀ k, k ∉ l.*1 → r.2 !! k = m !! k) ∧
    (∀ t, t ∈ ts → ∃ k spks n i sc, (k, spks) ∈ l ∧ scanned_first w gap par spks n (r.2 !! k) ∧ (i, sc) ∈ take n spks ∧ t ∈ w_history w sc)).
Proof using Hw Hsane Htime Hho Hhonest.
  intros Hu Hnd Hm Hp Hpar. revert u m Hu Hm. induction l as [|[k spks] l IH]; intros u m Hu Hm; cbn [keychains_loop].
  { apply ends_ret. exists []. split; [by apply cg_grows_refl|]. split; [by intros k spks ?%elem_of_nil|].
    split; [done|by intros t ?%elem_of_nil]. }
  cbn [fmap list_fmap fst] in Hnd. apply NoDup_cons in Hnd as [Hk Hnd].
  eapply ends_bnd.
  { apply (keychain_loop_true W w time Hw Hsane Htime ho Hho srv Hhonest cps); [done| |done|lia]. eapply Hp. by left. }
  intros [u1 a] [Ha Hg1]. cbn [fst snd] in Ha, Hg1. set (n := asked_count w (S (length spks)) gap par spks 0) in *.
  set (m1 := match a with Some i => <[k:=i]> m | None => m end).
  assert (Hm1: m1 !! k = a).
  { subst m1. destruct a as [i|]; [by rewrite lookup_insert|]. apply eq_None_not_Some. intros Hs. apply (Hm k Hs). by left. }
  assert (Hm1': ∀ j, j ≠ k → m1 !! j = m !! j).
  { intros j Hj. subst m1. destruct a; [|done]. by rewrite lookup_insert_ne by done. }
  eapply ends_weaken.
  { apply (IH Hnd); [|apply Hg1|].
    - intros k' spks' Hin. eapply Hp. by right.
    - intros j Hj Hjl. destruct (decide (j = k)) as [-> |Hne]; [done|]. rewrite Hm1' in Hj by done. apply (Hm j Hj). by right. }
  intros [u2 m2] (ts & Hg & Hs & Hrest & Honly). cbn [fst snd] in *. exists (batch_txs w (take n spks) ++ ts).
  assert (Hbt: ∀ t, t ∈ batch_txs w (take n spks) ↔ ∃ i sc, (i, sc) ∈ take n spks ∧ t ∈ w_history w sc).
  { intros t. unfold batch_txs. rewrite elem_of_list_bind. split.
    - intros ([i sc] & Ht & Hin). exists i, sc. split; [done|]. by apply all_txs_in.
    - intros (i & sc & Hin & Ht). exists (i, sc). split; [|done]. by apply all_txs_in. }
  split; [by eapply cg_grows_trans|]. split; [|split].
  - intros k' spks' [Heq|Hin]%elem_of_cons.
    + injection Heq as -> ->. exists n. split.
      * rewrite (Hrest k Hk), Hm1, Ha. by apply asked_scanned.
      * intros i sc t Hin Ht. apply elem_of_app. left. apply Hbt. eauto.
    + destruct (Hs k' spks' Hin) as (n' & Hn' & Hall). exists n'. split; [done|]. intros i sc t Hi Ht. apply elem_of_app. right.
      by eapply Hall.
  - intros j Hj. cbn [fmap list_fmap fst] in Hj. apply not_elem_of_cons in Hj as [Hne Hj]. rewrite (Hrest j Hj). by apply Hm1'.
  - intros t [Ht|Ht]%elem_of_app.
    + apply Hbt in Ht as (i & sc & Hin & Ht). exists k, spks, n, i, sc. split; [by left|]. split; [|done].
      rewrite (Hrest k Hk), Hm1, Ha. by apply asked_scanned.
    + destruct (Honly t Ht) as (k' & spks' & n' & i & sc & H1 & H2 & H3). exists k', spks', n', i, sc. split; [by right|done].
Qed.

Lemma ps_scan_true fuel `{Countable K, !Ord K, !OrdLaws K} local (kspks : gmap K (list (N * Script))) (txs : list Txid)
  (outpoints : list OutPoint) (gap : N) (par : nat) :
  (∀ h, is_Some (local !! h) → h ≤ w_tip w) →
  (∀ k l i sc, kspks !! k = Some l → (i, sc) ∈ l → pageable w fuel sc) →
  ends (ps_scan srv ho (S fuel) local kspks txs outpoints gap par)
    (λ s, esplora_complete w time local kspks txs outpoints gap (Nat.max par 1) s ∧
          inputs_by_txid W (cg_graph (ks_update s))).
Proof using Hw Hsane Htime Hho Hhonest.
  intros Hlocal Hpage. cbn [ps_scan]. cbv zeta.
  eapply ends_bnd.
  { apply (ps_prepare_ends local [] _ ∅); [done|done|apply cgu_default|done|done| |].
    - intros h y. rewrite lookup_empty. split; [done|]. intros [[]%elem_of_nil _].
    - intros h x []%elem_of_nil. }
  intros u (cps & Hu & Hpos & Hgr & Hcps). pose proof (wo_tip w Hw) as Htip.
  apply (ends_bnd _ _ (λ h, h = w_tip w)).
  { apply ends_req. intros n. eexists. split; [|done]. by apply (ph_height w time). }
  intros ? ->. apply (ends_bnd _ _ (λ h, h = w_block w (w_tip w))).
  { apply ends_req. intros n. eexists. split; [|done]. by apply (ph_tip w time). }
  intros ? ->.
  destruct (cgu_checkpoint W cps u (mkBlockId (w_tip w) (w_block w (w_tip w))) Hu Htip) as [(u0 & cs & E & Hu0 & Hp & Hg)|(Ht & Hne & _)].
  2:{ exfalso. apply Hne. destruct Hu as (_ & _ & _ & Hc). destruct Ht as [[z Hz] _]. simpl in *. rewrite Hc in Hz.
      rewrite Hz. apply Hcps in Hz as [_ ->]. done. }
  apply (ends_bnd _ _ (λ r, r = Ok (u0, cs))); [apply ends_lift; eauto|]. intros ? ->. cbn [bi_height bi_hash] in Hu0.
  set (cps0 := <[w_tip w := w_block w (w_tip w)]> cps) in *.
  assert (Hcon: connects w local cps0).
  { apply connects_iff. intros h y. subst cps0. destruct (decide (w_tip w = h)) as [<- |Hne].
    - rewrite lookup_insert. split; [intros [= <-]; by split; [left|]|by intros [_ ->]].
    - rewrite lookup_insert_ne by done. rewrite Hcps. split; intros [Hk ->]; (split; [|done]); [by right|by destruct Hk as [-> |Hk]]. }
  assert (Htip0: cps0 !! w_tip w = Some (w_block w (w_tip w))) by (subst cps0; by rewrite lookup_insert).
  assert (Ht0: true_cg W w time cps0 u0).
  { split; [done|]. split; [by eexists|]. unfold in_chain. rewrite Hp, Hpos, Hg, Hgr. split; [intros t p; by rewrite lookup_empty|]. split; [done|].
    split; [intros t m; cbn; by rewrite lookup_empty|]. intros t [? Ht]. done. }
  assert (Hin0: ∀ t, ¬ in_chain u0 t).
  { intros t. unfold in_chain. rewrite Hp, Hpos, lookup_empty. by intros []. }
  eapply ends_bnd.
  { apply (keychains_true cps0 fuel gap (Nat.max par 1) (bmap_list kspks) u0 ∅); [done|apply NoDup_fst_bmap_list| | |lia].
    - intros k. rewrite lookup_empty. by intros [].
    - intros k spks Hin%elem_of_bmap_list. apply Forall_forall. intros [i sc] Hi. by eapply Hpage. }
  intros [u1 active] (ts1 & Hg1 & Hs1 & Hr1 & Ho1). cbn [fst snd] in *.
  eapply ends_bnd; [apply (ps_txids_true cps0 txs u1); apply Hg1|]. intros u2 (ts2 & Hg2 & Hs2).
  eapply ends_bnd; [apply (ps_outpoints_true cps0 outpoints u2); apply Hg2|]. intros u3 (ts3 & Hg3 & Ho3 & Hs3).
  assert (Hgg: cg_grows W w time cps0 u0 u3 (ts1 ++ ts2 ++ ts3)).
  { eapply cg_grows_trans; [done|]. by eapply cg_grows_trans. }
  destruct Hgg as [((Hok3 & HW3 & (Hc3 & Hbm3 & Hl3 & Hcbt3) & Hcps3) & _ & Htrue3 & Hgr3 & Hwh3 & Hgc3) Hin3].
  assert (Hin: ∀ t, in_chain u3 t ↔ t ∈ ts1 ∨ t ∈ ts2 ∨ t ∈ ts3).
  { intros t. rewrite Hin3, !elem_of_app. split; [|by right]. by intros [?%Hin0|?]. }
  apply (ends_bnd _ _ (λ b, b = false)).
  { destruct (latest_checkpoint (cg_chain u3)) as [b|] eqn:El; [|by apply ends_ret].
    assert (sc_cps (cg_chain u3) !! bi_height b = Some (bi_hash b)) as Hb.
    { unfold latest_checkpoint in El. apply fmap_Some in El as ([k x] & Hla & ->). simpl. apply bmap_last_spec in Hla. apply Hla. }
    rewrite Hcps3 in Hb. pose proof Hcon as Hcon'. rewrite connects_iff in Hcon'. apply Hcon' in Hb as [Hb Hbh].
    apply (ends_bnd _ _ (λ y, y = bi_hash b)).
    - apply ends_req. intros n. exists (bi_hash b). split; [|done]. rewrite Hbh. apply (ph_block w time); [done|].
      destruct Hb as [-> |[Hb _]]; [done|by apply Hlocal].
    - intros ? ->. apply ends_ret. by rewrite N.eqb_refl. }
  intros ? ->. apply ends_ret. split; [|done]. constructor; cbn [ks_update ks_active].
  - done.
  - by split.
  - by rewrite Hcps3.
  - done.
  - done.
  - done.
  - done.
  - intros k l Hk. destruct (Hs1 k l) as (n & Hn & Hall); [by apply elem_of_bmap_list|]. exists n. split; [done|].
    intros i sc t Hi Ht. apply Hin. left. by eapply Hall.
  - intros k i Hk. destruct (kspks !! k) as [l|] eqn:El; [by eexists|]. exfalso. rewrite Hr1 in Hk.
    + by rewrite lookup_empty in Hk.
    + intros ([k' l] & -> & Hkl)%elem_of_list_fmap. apply elem_of_bmap_list in Hkl. simpl in El. congruence.
  - intros t Ht Hk. apply Hin. right; left. by apply Hs2.
  - intros o Ho Hk. destruct (Hs3 o Ho Hk) as [Ha Hb]. split; [apply Hin; by right; right|]. intros i Hi. apply Hin. right; right.
    by apply Hb.
  - intros t Ht%Hin. destruct Ht as [Ht|[Ht|Ht]].
    + destruct (Ho1 t Ht) as (k & spks & n & i & sc & Hk & Hn & Hi & Hh). split; [by eapply wo_known|]. left. exists k, spks, n, i, sc.
      by apply elem_of_bmap_list in Hk.
    + apply Hs2 in Ht as [Ht Hk]. split; [done|]. by right; left.
    + destruct (Ho3 t Ht) as (Hk & o & Ho & Ha). split; [done|]. right; right. eauto.
Qed.
End honest.
