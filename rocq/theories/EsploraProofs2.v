(** Esplora scans against an honest server that does not change (C58, C60, C69). *)
From Verif Require Export EsploraProofs ElectrumProofs3.

Section honest.
Context (W : Txid → list OutPoint) (w : World) (time : N → N).
Context (Hw : world_ok w) (Hsane : world_sane W w) (Htime : ∀ h, time h ≤ u64_max).
Context (ho : TxGraph → OutPoint → list Txid) (Hho : hash_fun_ok ho).
Implicit Types (u : ChainGraph ConfirmationTime) (local : gmap N BlockHash).
Notation wpos := (w_time_position w time).

(** ** Updates that say what the world says *)
Definition true_cg (cps : gmap N BlockHash) u : Prop :=
  cgu_ok W cps u ∧ is_Some (cps !! w_tip w) ∧
  (∀ t p, sc_pos (cg_chain u) !! t = Some p → p = wpos t) ∧
  (∀ t x, get_tx (cg_graph u) t = Some x → w_tx w t = Some x) ∧
  (∀ t m, tg_txs (cg_graph u) !! t ≠ Some (Partial m)) ∧
  (∀ t, is_Some (get_tx (cg_graph u) t) → in_chain u t).
Definition cg_grows cps u u' (ts : list Txid) : Prop :=
  true_cg cps u' ∧ ∀ t, in_chain u' t ↔ in_chain u t ∨ t ∈ ts.

Lemma cg_grows_refl cps u : true_cg cps u → cg_grows cps u u [].
Proof using. intros Hu. split; [done|]. intros t. rewrite elem_of_nil. tauto. Qed.
Lemma cg_grows_trans cps u1 u2 u3 ts1 ts2 : cg_grows cps u1 u2 ts1 → cg_grows cps u2 u3 ts2 → cg_grows cps u1 u3 (ts1 ++ ts2).
Proof using.
  intros [H1 H2] [H3 H4]. split; [done|]. intros t. rewrite H4, H2, elem_of_app. tauto.
Qed.

Lemma known_max t x : w_tx w t = Some x → t ≤ max_txid ∧ tx_typed W x ∧ txid x = t.
Proof using Hw Hsane.
  intros Hx. destruct (wo_tx w Hw t x Hx) as [Hid Hout]. destruct (tx_out x) as [|o l] eqn:Eo; [done|].
  assert (t ≤ max_txid).
  { apply (wo_txid w Hw (txo_spk o)). eapply wo_creates; [done|done|]. rewrite Eo. by left. }
  split; [done|]. split; [|done]. split; [by rewrite Hid|]. rewrite Hid. by eapply ws_inputs.
Qed.
Lemma map_status t : map_confirmation_time (w_status w time t) (w_tip w) = wpos t.
Proof using Hw.
  unfold map_confirmation_time, w_status, w_time_position. destruct (w_height w t) as [h|] eqn:E; [|done]. simpl.
  apply (wo_height w Hw) in E. by apply N.leb_le in E as ->.
Qed.
Lemma wpos_low t h : pos_height (wpos t) = Confirmed h → h ≤ w_tip w.
Proof using Hw.
  unfold w_time_position. destruct (w_height w t) as [k|] eqn:E; [|done]. simpl. intros [= <-]. by apply (wo_height w Hw) in E.
Qed.
Lemma wpos_ok t : pos_ok (wpos t).
Proof using Hw Htime.
  unfold w_time_position. destruct (w_height w t) as [k|] eqn:E; [|done]. apply (wo_height w Hw) in E.
  pose proof (wo_tip w Hw). split; [lia|done].
Qed.

Lemma ps_insert_true cps u t x :
  true_cg cps u → w_tx w t = Some x → ∃ u', ps_insert ho u x (wpos t) = Ret u' ∧ cg_grows cps u u' [t].
Proof using Hw Hsane Htime Hho.
  intros (Hu & Htip & Htrue & Hgr & Hwh & Hgc) Hx. destruct (known_max t x Hx) as (Ht & Hty & Hid).
  destruct (ps_insert_ok W ho Hho cps u (w_tip w) x (wpos t)) as (u' & E & Hu'); [done|done|done|apply wpos_ok|apply wpos_low|].
  exists u'. split; [done|]. pose proof Hu as (Hok & HW & (Hc & Hbm & Hl & Hcbt) & Hcps).
  assert (Hal: tx_allowed (cg_chain u) (txid x) (wpos t)).
  { rewrite Hid. split.
    - intros h Hh. exists (w_tip w). rewrite Hcps. split; [done|]. by eapply wpos_low.
    - intros q Hq _. by apply Htrue. }
  destruct (insert_tx_allowed (cg_chain u) (txid x) (wpos t) Hc Hbm Hal) as (ccs & Hi & Hcs & Hpos).
  assert (E1: insert_tx_preview (cg_chain u) (txid x) (wpos t) = Ret (Ok ccs)).
  { unfold insert_tx in Hi. destruct (insert_tx_preview _ _ _) as [[?|?]|]; simplify_eq. done. }
  assert (Hnc: ∀ t' i, tx_in t' = W t → txid t' = t → ¬ conflicts_with u t' i).
  { intros t' i Ht' Hid' [_ Hr].
    assert (∃ s, ∃ vin, conflicts_at (cg_graph u) t' vin s) as (s & vin & Hne & o & ts & Ho & Hnn & Hs & Hos).
    { induction Hr; eauto. }
    apply Hne. rewrite Hid'. symmetry. apply Hgr in Hs. eapply (ws_conflict W w Hsane t s x ts); [done|done|].
    exists o. split; [done|]. split; [|done]. rewrite (ws_inputs W w Hsane t x Hx), <- Ht'. by eapply elem_of_list_lookup_2. }
  set (ad := tg_insert_tx_preview (cg_graph u) x).
  assert (Hnew: ∀ n t' p, newly_added u (mkCGS ccs ad) n t' p → tx_in t' = W t ∧ txid t' = t).
  { intros n t' p (Hn & Hni & Ht'). apply not_in_chain in Hni.
    destruct (insert_tx_new _ _ _ _ _ _ Hc E1 Hn Hni) as [-> _]. rewrite Hid in *. destruct Ht' as [Ht'|(Hn' & Ht' & Hid')].
    - apply Hgr in Ht'. apply known_max in Ht' as Hk. split; [|apply Hk]. by eapply ws_inputs.
    - split; [|done]. cbn [cgs_graph] in Ht'. subst ad.
      apply (determine_tx (cg_graph u) (one_tx x)) in Ht' as (j & Hj & _). apply get_tx_Some, one_tx_get in Hj as [_ ->].
      by eapply ws_inputs. }
  assert (Hncf: ∀ i, ¬ conflicting u (mkCGS ccs ad) i).
  { intros i (n & t' & p & Hn & Hcw). destruct (Hnew n t' p Hn) as [H1 H2]. by eapply Hnc. }
  pose proof (insert_conflicts (ho (cg_graph u)) u x (wpos t) Hok (Hho _)) as Hs. rewrite E1 in Hs. cbn zeta in Hs.
  destruct Hs as [(e & _ & t' & Hn & _ & Hcw & _)|(cs & E2 & _ & Hg & _ & _ & Hke)].
  { exfalso. eapply (Hncf (uc_confirmed e).2). by eexists _, _, _. }
  assert (E3: cg_insert_tx (ho (cg_graph u)) u x (wpos t) = Ret (Ok (cg_apply_changeset u cs, cs))).
  { unfold cg_insert_tx. by rewrite E2. }
  unfold ps_insert in E. rewrite E3 in E. injection E as <-.
  assert (Hp': ∀ i, sc_pos (cg_chain (cg_apply_changeset u cs)) !! i = <[t := wpos t]> (sc_pos (cg_chain u)) !! i).
  { intros i. rewrite <- Hid at 1. rewrite <- Hpos. cbn [cg_apply_changeset cg_chain]. rewrite !apply_changeset_pos.
    by rewrite (Hke i (Hncf i)). }
  split; [split; [done|split; [done|split; [|split; [|split]]]]|].
  - intros i p. rewrite Hp'. intros [[<- <-]|[_ Hi']]%lookup_insert_Some; [done|by apply Htrue].
  - intros i y Hy. rewrite (insert_graph _ _ _ _ _ _ E3 Hok (Hho _)) in Hy.
    assert ((tg_insert_tx (cg_graph u) x).1 = (tg_apply_update (cg_graph u) (one_tx x)).1) as Heq by done.
    rewrite Heq, update_get_tx in Hy by apply one_tx_keyed.
    destruct (get_tx (cg_graph u) i) as [z|] eqn:Ez; [injection Hy as <-; by apply Hgr|].
    apply one_tx_get in Hy as [-> ->]. by rewrite Hid.
  - intros i m. rewrite (insert_graph _ _ _ _ _ _ E3 Hok (Hho _)).
    assert ((tg_insert_tx (cg_graph u) x).1 = (tg_apply_update (cg_graph u) (one_tx x)).1) as -> by done.
    rewrite update_lookup by apply one_tx_keyed. unfold merge_node. destruct (tg_txs (cg_graph u) !! i) as [[a|m']|] eqn:Ei; [done|by apply Hwh in Ei|].
    unfold one_tx. cbn [tg_txs]. destruct (decide (i = txid x)) as [->|Hne]; [by rewrite lookup_singleton|by rewrite lookup_singleton_ne].
  - intros i [y Hy]. rewrite (insert_graph _ _ _ _ _ _ E3 Hok (Hho _)) in Hy.
    assert ((tg_insert_tx (cg_graph u) x).1 = (tg_apply_update (cg_graph u) (one_tx x)).1) as Heq by done.
    rewrite Heq, update_get_tx in Hy by apply one_tx_keyed. unfold in_chain. rewrite Hp'.
    destruct (decide (t = i)) as [<- |Hne]; [rewrite lookup_insert; by eexists|]. rewrite lookup_insert_ne by done.
    destruct (get_tx (cg_graph u) i) as [z|] eqn:Ez; [apply Hgc; by eexists|]. apply one_tx_get in Hy as [-> _]. by rewrite Hid in Hne.
  - intros i. unfold in_chain. rewrite Hp', elem_of_list_singleton. destruct (decide (t = i)) as [<- |Hne].
    + rewrite lookup_insert. split; [by right|by eexists].
    + rewrite lookup_insert_ne by done. split; [by left|]. by intros [?| ->].
Qed.
Lemma ps_insert_all_true cps u (ts : list Txid) (l : list (Tx * TxStatus)) :
  true_cg cps u → Forall2 (λ t e, w_tx w t = Some e.1 ∧ e.2 = w_status w time t) ts l →
  ∃ u', ps_insert_all ho (w_tip w) u l = Ret u' ∧ cg_grows cps u u' ts.
Proof using Hw Hsane Htime Hho.
  intros Hu Hl. revert u Hu. induction Hl as [|t [x s] ts l [Hx Hs] Hl IH]; intros u Hu; simpl in *.
  { exists u. split; [done|by apply cg_grows_refl]. }
  rewrite Hs, map_status. destruct (ps_insert_true cps u t x Hu Hx) as (u1 & -> & Hg1). simpl.
  destruct (IH u1) as (u2 & -> & Hg2); [apply Hg1|]. exists u2. split; [done|]. by apply (cg_grows_trans cps u u1 u2 [t]).
Qed.
Lemma insert_entries_true cps u ts l :
  true_cg cps u → esplora_entries w time ts l →
  ∃ u', ps_insert_all ho (w_tip w) u ((λ e, (et_tx e, et_status e)) <$> l) = Ret u' ∧ cg_grows cps u u' ts.
Proof using Hw Hsane Htime Hho.
  intros Hu Hl. apply ps_insert_all_true; [done|]. apply Forall2_fmap_r. eapply Forall2_impl; [exact Hl|].
  intros t e (_ & Hx & Hs). done.
Qed.

(** ** Pages *)
Section srv.
Context (srv : nat → PSnap) (Hhonest : ∀ n, esplora_honest w time (srv n)).
Lemma entries_last ts t l : esplora_entries w time (ts ++ [t]) l → ∃ e, last l = Some e ∧ et_txid e = t.
Proof using.
  intros (l1 & l2 & _ & H2 & ->)%Forall2_app_inv_l. apply Forall2_cons_inv_l in H2 as (e & l3 & (He & _) & H3 & ->).
  apply Forall2_nil_inv_l in H3 as ->. exists e. by rewrite last_snoc.
Qed.
Lemma more_pages_true fuel k ts related (m : nat) :
  esplora_entries w time (ts ++ take m (w_confirmed w k)) related →
  (0 < m ≤ length (w_confirmed w k))%nat → (length (w_confirmed w k) < m + 25 * fuel)%nat →
  ends (more_pages srv fuel k related) (esplora_entries w time (ts ++ w_confirmed w k)).
Proof using Hhonest.
  revert related m. induction fuel as [|fuel IH]; intros related m Hr Hm Hf; [lia|]. cbn [more_pages].
  assert (is_Some (w_confirmed w k !! pred m)) as [t Ht] by (apply lookup_lt_is_Some; lia).
  assert (take m (w_confirmed w k) = take (pred m) (w_confirmed w k) ++ [t]) as Htk.
  { destruct m as [|m]; [lia|]. simpl in Ht. by apply take_S_r. }
  rewrite Htk, app_assoc in Hr. destruct (entries_last _ _ _ Hr) as (e & -> & He). rewrite <- app_assoc, <- Htk in Hr.
  apply (ends_bnd _ _ (esplora_entries w time (take 25 (drop m (w_confirmed w k))))).
  { apply ends_req. intros n. destruct (ph_next w time _ (Hhonest n) k (pred m) t Ht) as (l & E & Hl). exists l.
    split; [by rewrite He|]. by replace (S (pred m)) with m in Hl by lia. }
  intros new Hnew. cbn zeta. pose proof (Forall2_length _ _ _ Hnew) as Hlen. rewrite take_length, drop_length in Hlen.
  assert (Hall: esplora_entries w time (ts ++ take (m + 25) (w_confirmed w k)) (related ++ new)).
  { assert (take (m + 25) (w_confirmed w k) = take m (w_confirmed w k) ++ take 25 (drop m (w_confirmed w k))) as ->.
    { rewrite <- (take_drop m (w_confirmed w k)) at 1. rewrite take_app_ge by (rewrite take_length; lia).
      f_equal. f_equal. rewrite take_length. lia. }
    rewrite app_assoc. by apply Forall2_app. }
  destruct (Nat.ltb_spec (length new) 25) as [Hlt|Hge].
  - apply ends_ret. by rewrite take_ge in Hall by lia.
  - apply (IH _ (m + 25)%nat); [done|lia|lia].
Qed.

(** What the pages of a script add up to *)
Definition pageable (fuel : nat) (k : Script) : Prop :=
  (length (w_mempool w k) ≤ 50)%nat ∧ (length (w_confirmed w k) < 25 * S fuel)%nat.
Definition all_txs (k : Script) : list Txid := w_mempool w k ++ w_confirmed w k.
Lemma all_txs_in k t : t ∈ all_txs k ↔ t ∈ w_history w k.
Proof using.
  unfold all_txs, w_mempool, w_confirmed. rewrite elem_of_app, !elem_of_list_filter.
  destruct (w_height w t); naive_solver.
Qed.
Lemma all_txs_nil k : all_txs k = [] ↔ w_history w k = [].
Proof using.
  split; intros E.
  - destruct (w_history w k) as [|t l] eqn:E2; [done|]. exfalso. apply (elem_of_nil (A:=Txid) t). rewrite <- E.
    apply all_txs_in. rewrite E2. by left.
  - unfold all_txs, w_mempool, w_confirmed. by rewrite E.
Qed.
Lemma entries_confirmed ts l :
  esplora_entries w time ts l →
  length (filter (λ e, st_confirmed (et_status e) = true) l) = length (filter (λ t, is_Some (w_height w t)) ts).
Proof using.
  induction 1 as [|t e ts l (_ & _ & Hs) Hl IH]; [done|]. unfold w_status in Hs. destruct (w_height w t) as [h|] eqn:E.
  - rewrite !filter_cons_True; [simpl; by rewrite IH|by rewrite E|by rewrite Hs].
  - rewrite !filter_cons_False; [done|rewrite E; by intros []|by rewrite Hs].
Qed.
Lemma filter_all {A} (Q : A → Prop) `{∀ x, Decision (Q x)} (l : list A) : Forall Q l → filter Q l = l.
Proof using. induction 1 as [|x l Hx Hl IH]; [done|]. rewrite filter_cons_True by done. by rewrite IH. Qed.
Lemma filter_none {A} (Q : A → Prop) `{∀ x, Decision (Q x)} (l : list A) : Forall (λ x, ¬ Q x) l → filter Q l = [].
Proof using. induction 1 as [|x l Hx Hl IH]; [done|]. by rewrite filter_cons_False. Qed.
Lemma related_txs_true fuel k :
  pageable fuel k → ends (related_txs srv fuel k) (esplora_entries w time (all_txs k)).
Proof using Hhonest.
  intros [Hmem Hconf]. unfold related_txs.
  apply (ends_bnd _ _ (esplora_entries w time (w_mempool w k ++ take 25 (w_confirmed w k)))).
  { apply ends_req. intros n. destruct (ph_first w time _ (Hhonest n) k) as (l & E & Hl). exists l.
    split; [done|]. by rewrite take_ge in Hl by done. }
  intros l Hl. rewrite (entries_confirmed _ _ Hl). rewrite filter_app, filter_none, filter_all.
  - rewrite app_nil_l, take_length. destruct (Nat.leb_spec 25 (25 `min` length (w_confirmed w k))) as [Hle|Hgt].
    + apply (more_pages_true fuel k _ l 25); [done|lia|lia].
    + apply ends_ret. rewrite take_ge in Hl by lia. done.
  - apply Forall_take. unfold w_confirmed. apply Forall_forall. intros t Ht. by apply elem_of_list_filter in Ht as [Ht _].
  - unfold w_mempool. apply Forall_forall. intros t Ht. apply elem_of_list_filter in Ht as [-> _]. by intros [].
Qed.
Lemma fetch_batch_true fuel (l : list (N * Script)) :
  Forall (λ e, pageable fuel e.2) l →
  ends (fetch_batch srv fuel l) (λ rs, Forall2 (λ e r, e.1 = r.1 ∧ esplora_entries w time (all_txs e.2) r.2) l rs).
Proof using Hhonest.
  induction 1 as [|[i k] l Hk Hl IH]; simpl; [by apply ends_ret|].
  eapply ends_bnd; [by apply related_txs_true|]. intros r Hr. eapply ends_bnd; [apply IH|]. intros rs Hrs.
  apply ends_ret. by constructor.
Qed.

(** ** Batches *)
Notation act := (active w).
Definition last_found (l : list (N * Script)) (a : option N) : option N :=
  foldl (λ a e, if act e.2 then Some e.1 else a) a l.
Definition run_empty (l : list (N * Script)) (n : N) : N :=
  foldl (λ n e, if act e.2 then 0 else n + 1) n l.
Definition batch_txs (l : list (N * Script)) : list Txid := l ≫= λ e, all_txs e.2.
Lemma act_all k : act k = negb (bool_decide (all_txs k = [])).
Proof using. unfold active. f_equal. apply bool_decide_ext. by rewrite all_txs_nil. Qed.
Lemma join_batch_true cps l rs u a n :
  true_cg cps u → Forall2 (λ e r, e.1 = r.1 ∧ esplora_entries w time (all_txs e.2) r.2) l rs →
  ∃ u', join_batch ho (w_tip w) rs u a n = Ret (u', last_found l a, run_empty l n) ∧ cg_grows cps u u' (batch_txs l).
Proof using Hw Hsane Htime Hho.
  intros Hu Hl. revert u a n Hu. induction Hl as [|[i k] [j r] l rs [He Hr] Hl IH]; intros u a n Hu; simpl in *.
  { exists u. split; [done|by apply cg_grows_refl]. }
  subst j. rewrite act_all. destruct r as [|e r].
  - apply Forall2_nil_inv_r in Hr. rewrite Hr. rewrite bool_decide_eq_true_2 by done. simpl.
    destruct (IH u a (n + 1) Hu) as (u' & -> & Hg). exists u'. done.
  - rewrite bool_decide_eq_false_2.
    2:{ intros E. rewrite E in Hr. by apply Forall2_nil_cons_inv in Hr. }
    destruct (insert_entries_true cps u (all_txs k) (e :: r) Hu Hr) as (u1 & -> & Hg1). simpl.
    destruct (IH u1 (Some i) 0) as (u' & -> & Hg); [apply Hg1|]. exists u'. split; [done|]. by eapply cg_grows_trans.
Qed.

(** How many scripts are asked for *)
Fixpoint asked_count (rounds : nat) (gap : N) (par : nat) (l : list (N * Script)) (n : N) : nat :=
  match rounds with
  | O => 0
  | S rounds =>
      let b := take par l in
      if bool_decide (b = []) || (gap <=? run_empty b n) then length b
      else length b + asked_count rounds gap par (drop par l) (run_empty b n)
  end.
Lemma last_active_app l1 l2 a : last_found (l1 ++ l2) a = last_found l2 (last_found l1 a).
Proof using. apply foldl_app. Qed.
Lemma run_empty_app l1 l2 n : run_empty (l1 ++ l2) n = run_empty l2 (run_empty l1 n).
Proof using. apply foldl_app. Qed.
Lemma batch_txs_app l1 l2 : batch_txs (l1 ++ l2) = batch_txs l1 ++ batch_txs l2.
Proof using. apply bind_app. Qed.
Lemma take_more {A} (l : list A) (a b : nat) : take (length (take a l) + b) l = take a l ++ take b (drop a l).
Proof using.
  destruct (decide (a ≤ length l)%nat).
  - rewrite take_length. rewrite Nat.min_l by done. rewrite <- (take_drop a l) at 1.
    rewrite take_app_ge by (rewrite take_length; lia). f_equal. f_equal. rewrite take_length. lia.
  - rewrite (take_ge l a), (drop_ge l a) by lia. rewrite take_nil, app_nil_r. apply take_ge. lia.
Qed.
Lemma keychain_loop_true cps rounds fuel gap par l u a n :
  true_cg cps u → Forall (λ e, pageable fuel e.2) l → (0 < par)%nat → (length l < rounds)%nat →
  ends (keychain_loop srv ho rounds fuel gap par (w_tip w) l u a n) (λ r,
    r.2 = last_found (take (asked_count rounds gap par l n) l) a ∧
    cg_grows cps u r.1 (batch_txs (take (asked_count rounds gap par l n) l))).
Proof using Hw Hsane Htime Hho Hhonest.
  intros Hu Hl Hpar. revert l u a n Hu Hl. induction rounds as [|rounds IH]; intros l u a n Hu Hl Hr; [lia|].
  cbn [keychain_loop asked_count]. cbv zeta.
  eapply ends_bnd; [apply fetch_batch_true; by apply Forall_take|]. intros rs Hrs.
  destruct (join_batch_true cps (take par l) rs u a n Hu Hrs) as (u1 & E & Hg1).
  apply (ends_bnd _ _ (λ r, r = (u1, last_found (take par l) a, run_empty (take par l) n))); [apply ends_lift; eauto|].
  intros ? ->. destruct (_ || _) eqn:Eb.
  - apply ends_ret. simpl. assert (take (length (take par l)) l = take par l) as ->; [|done].
    rewrite take_length. destruct (decide (par ≤ length l)%nat); [by rewrite Nat.min_l by done|]. rewrite Nat.min_r by lia.
    rewrite !take_ge by lia. done.
  - apply orb_false_iff in Eb as [Eb _]. apply bool_decide_eq_false in Eb.
    assert (0 < length l)%nat by (destruct l; [by rewrite take_nil in Eb|simpl; lia]).
    eapply ends_weaken; [apply (IH (drop par l) u1); [apply Hg1|by apply Forall_drop|rewrite drop_length; lia]|].
    intros r [Ha Hg]. rewrite take_more, last_active_app, batch_txs_app. split; [done|]. by eapply cg_grows_trans.
Qed.
End srv.
End honest.
