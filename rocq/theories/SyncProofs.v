(** Applying what an honest server says to a wallet's chain graph (C72). *)
From Verif Require Export ElectrumProofs2 ElectrumProofs6 ChainGraphProofs4.

Lemma invalid_exists `{ChainPositionLaws P} (c u : SparseChain P) k :
  update_reaches_beyond c u → is_Some (sc_cps c !! k) → above_agreement c u k →
  ∃ f, invalid_from c u = Some f ∧ f ≤ k.
Proof.
  intros Hb [v Hv] Hab. destruct (invalid_from c u) as [f|] eqn:E.
  - exists f. split; [done|]. apply invalid_from_raw in E as (_ & _ & Hm). apply Hm; [eauto|]. by apply invalid_lb_yes.
  - exfalso. unfold invalid_from in E. apply fmap_None in E.
    assert (Hin: (k, v) ∈ filter (λ kv : N * BlockHash, invalid_lb c u ≤ kv.1) (bmap_list (sc_cps c))).
    { apply elem_of_list_filter. split; [by apply invalid_lb_yes|]. by apply elem_of_bmap_list. }
    destruct (filter _ _); [by apply elem_of_nil in Hin|done].
Qed.

Lemma true_seen `{ChainPosition P} w (wpos : Txid → P) found (c : SparseChain P) : local_true w wpos c → local_seen w wpos found c.
Proof. intros Ht. constructor; [apply Ht..|]. intros t p h Hp Eh Hall. left. by eapply (lt_pos _ _ _ Ht). Qed.
Lemma seen_mono `{ChainPosition P} w (wpos : Txid → P) (F G : Txid → Prop) (c : SparseChain P) : (∀ t, F t → G t) → local_seen w wpos F c → local_seen w wpos G c.
Proof. intros Hm Hs. constructor; [apply Hs..|]. intros t p h Hp Eh Hall. destruct (ls_pos _ _ _ _ Hs t p h Hp Eh Hall) as [?|[??]]; [by left|right; auto]. Qed.

Section sync.
Context `{ChainPositionLaws P}.
Context (W : Txid → list OutPoint) (w : World) (wpos : Txid → P).
Context (Hsane : world_sane W w) (Hwpos : ∀ t, pos_height (wpos t) = w_position w t).
Context (cg u : ChainGraph P).
Context (Hcg : cg_ok cg) (Hin : inputs_by_txid W (cg_graph cg)) (Hbm : below_max (cg_chain cg)).
Context (Hcbt : confirmed_below_tip (cg_chain cg)) (Htrue : local_seen w wpos (in_chain u) (cg_chain cg)).
Context (Hu : cg_ok u) (Huin : inputs_by_txid W (cg_graph u)).
Context (Hcon : connects w (sc_cps (cg_chain cg)) (sc_cps (cg_chain u))).
Context (Hupos : ∀ t p, sc_pos (cg_chain u) !! t = Some p → p = wpos t ∧ is_Some (w_tx w t)).
Notation c := (cg_chain cg).
Notation v := (cg_chain u).

Lemma agree_world a : agree_at c v a → sc_cps c !! a = Some (w_block w a).
Proof using All.
  intros (x & Hc & Hv). rewrite connects_iff in Hcon. apply Hcon in Hv as [_ ->]. done.
Qed.
Lemma disagree_beyond h k x :
  k ≤ h → (∃ j, is_Some (sc_cps c !! j) ∧ h ≤ j) → sc_cps c !! k = Some x → x ≠ w_block w k →
  above_agreement c v k ∧ update_reaches_beyond c v.
Proof using All.
  intros Hle (j & Hj & Hhj) Hk Hx.
  assert (Hab : above_agreement c v k).
  { intros a Ha%agree_world. destruct (N.lt_ge_cases a k) as [?|Hge]; [done|]. exfalso. apply Hx.
    by apply (ls_fork w wpos _ c Htrue k a x). }
  split; [done|]. exists (w_tip w). rewrite connects_iff in Hcon. split.
  - exists (w_block w (w_tip w)). apply Hcon. split; [by left|done].
  - intros a Ha. apply Hab in Ha. pose proof (ls_low w wpos _ c Htrue j Hj). lia.
Qed.
(** A confirmed position that is settled or not invalidated is the server's *)
Lemma settled_true t q h :
  sc_pos c !! t = Some q → pos_height q = Confirmed h → settled c v q → q = wpos t.
Proof using All.
  intros Ht Hq (h' & Hq' & Hset). assert (h' = h) as -> by congruence.
  destruct (ls_pos w wpos _ c Htrue t q h Ht Hq) as [?|[_ Hno]]; [|done|].
  - intros k x Hk Hx. destruct (decide (x = w_block w k)) as [?|Hne]; [done|]. exfalso.
    destruct (disagree_beyond h k x Hk (Hcbt t q h Ht Hq) Hx Hne) as [Hab Hb].
    destruct (Hset Hb) as (a & Ha & Hha). apply Hab in Ha. lia.
  - exfalso. destruct (Hcbt t q h Ht Hq) as (j & [y Hj] & Hhj). pose proof (ls_low w wpos _ c Htrue j ltac:(by exists y)) as Hjt.
    destruct Hset as (a & Ha & Hha).
    + exists (w_tip w). split; [exists (w_block w (w_tip w)); rewrite connects_iff in Hcon; apply Hcon; split; [by left|done]|].
      intros a Ha%agree_world. destruct (N.lt_ge_cases a (w_tip w)) as [?|Hge]; [done|]. exfalso. by apply (Hno a _ ltac:(lia) Ha).
    + apply agree_world in Ha. by apply (Hno a _ Hha Ha).
Qed.
Lemma kept_true t q h :
  sc_pos v !! t = None → sc_pos c !! t = Some q → pos_height q = Confirmed h →
  (∀ f, invalid_from c v = Some f → h < f) → q = wpos t.
Proof using All.
  intros Hv Ht Hq Hinv. destruct (ls_pos w wpos _ c Htrue t q h Ht Hq) as [?|[[y Hy] _]]; [|done|congruence]. intros k x Hk Hx.
  destruct (decide (x = w_block w k)) as [?|Hne]; [done|]. exfalso.
  destruct (disagree_beyond h k x Hk (Hcbt t q h Ht Hq) Hx Hne) as [Hab Hb].
  destruct (invalid_exists c v k Hb) as (f & Hf & Hle); [eauto|done|]. specialize (Hinv f Hf). lia.
Qed.
Lemma determine_succeeds ord : ord ≡ₚ map_to_list (sc_pos v) → ∃ ccs, determine_changeset c v ord = Ret (Ok ccs).
Proof using All.
  intros Hord. apply determine_accepted; [apply Hcg|done|done|]. split.
  - intros f Hf. destruct (sc_cps v !! f) as [y|] eqn:E; [eauto|]. exfalso.
    eapply (connects_connected w c v ord); [apply Hcg|done|done|apply Htrue|done|].
    apply determine_not_connected; [apply Hcg|done|done|]. by split.
  - intros t q p Hp Hq Hs. destruct (Hupos t p Hp) as [-> _]. pose proof Hs as (h & Hh & _).
    by apply (settled_true t q h).
Qed.

(** What the chain would hold as confirmed is known to the server *)
Lemma wpos_known t h : pos_height (wpos t) = Confirmed h → is_Some (w_tx w t).
Proof using All.
  rewrite Hwpos. unfold w_position. destruct (w_height w t) as [k|] eqn:E; [|done]. intros _. by eapply ws_block.
Qed.
Lemma result_true c' ccs ord t q h :
  ord ≡ₚ map_to_list (sc_pos v) → apply_update c v ord = Ret (Ok (c', ccs)) →
  sc_pos c' !! t = Some q → pos_height q = Confirmed h → q = wpos t.
Proof using All.
  intros Hord Ha. rewrite (update_result_pos c v ord c' ccs t); [|apply Hcg|done..].
  destruct (sc_pos v !! t) as [p|] eqn:Ev.
  { intros [= <-] _. by apply Hupos. }
  intros Hq Hh. destruct (sc_pos c !! t) as [p|] eqn:Ec; [|by destruct (invalid_from c v)].
  destruct (invalid_from c v) as [f|] eqn:Ef.
  - destruct (pos_height p) as [k|] eqn:Ep.
    + case_bool_decide as Hb; injection Hq as <-; [by rewrite pos_max_height in Hh|].
      apply (kept_true t p k); [done|done|done|]. rewrite Ef. intros f' [= <-]. lia.
    + injection Hq as <-. congruence.
  - injection Hq as <-. apply (kept_true t p h); [done|done|done|]. by rewrite Ef.
Qed.
Lemma known_up keep root i :
  reach_from (cg_graph cg) keep root i → is_Some (w_tx w i) → ∃ s, root s ∧ is_Some (w_tx w s).
Proof using All.
  induction 1 as [j Hj|i j Hr IH Hk (t & o & Ht & Ho & Hnn & <-)]; intros Hw; [eauto|]. apply IH.
  destruct Hw as [x Hx]. eapply ws_parents; [done|done| |done].
  rewrite (ws_inputs W w Hsane j x Hx), <- (Hin j t Ht). done.
Qed.
Lemma newly_world ord ccs n t p :
  ord ≡ₚ map_to_list (sc_pos v) → determine_changeset c v ord = Ret (Ok ccs) →
  newly_added cg (mkCGS ccs (determine_additions (cg_graph cg) (cg_graph u))) n t p →
  is_Some (w_tx w n) ∧ tx_in t = W n ∧ txid t = n.
Proof using All.
  intros Hord Hd (Hn & Hni & Ht). cbn [cgs_chain cgs_graph] in *.
  assert (Hv : sc_pos v !! n = Some p).
  { eapply determine_new; [apply Hcg|done|done|done|]. by apply not_in_chain. }
  split; [by apply (Hupos n p)|]. destruct Ht as [Ht|(_ & Ht & Hid)].
  - split; [by apply Hin|]. destruct Hcg as (_ & [Hk _] & _). apply Hk. by apply get_tx_Some.
  - split; [|done]. apply determine_tx in Ht as (i & Hi & _). destruct Hu as (_ & [Hk _] & _).
    apply Hk in Hi as Ei. rewrite <- Hid, Ei. apply Huin. by apply get_tx_Some.
Qed.
Lemma conflicting_unknown ord ccs i :
  ord ≡ₚ map_to_list (sc_pos v) → determine_changeset c v ord = Ret (Ok ccs) →
  conflicting cg (mkCGS ccs (determine_additions (cg_graph cg) (cg_graph u))) i → ¬ is_Some (w_tx w i).
Proof using All.
  intros Hord Hd (n & t & p & Hnew & _ & Hr) Hk.
  destruct (newly_world ord ccs n t p Hord Hd Hnew) as ([tn Htn] & Hti & Hid).
  destruct (known_up _ _ i Hr Hk) as (s & (vin & Hne & o & ts & Ho & Hnn & Hs & Hos) & [xs Hxs]).
  apply Hne. rewrite Hid. symmetry. eapply (ws_conflict W w Hsane n s tn xs); [done|done|]. exists o.
  split; [done|]. rewrite (ws_inputs W w Hsane n tn Htn), (ws_inputs W w Hsane s xs Hxs).
  split; [rewrite <- Hti; by eapply elem_of_list_lookup_2|]. by rewrite <- (Hin s ts Hs).
Qed.

Lemma sync_accepted ho ord :
  hash_order (cg_graph cg) ho → ord ≡ₚ map_to_list (sc_pos v) →
  ∃ cg' cs, cg_apply_update ho cg u ord = Ret (Ok (cg', cs)) ∧
    (∀ t p, sc_pos v !! t = Some p → sc_pos (cg_chain cg') !! t = Some p) ∧
    (∀ t p h, sc_pos (cg_chain cg') !! t = Some p → pos_height p = Confirmed h → p = wpos t).
Proof using All.
  intros Hho Hord. destruct (determine_succeeds ord Hord) as [ccs Hd].
  assert (Ha : apply_update c v ord = Ret (Ok (apply_changeset c ccs, ccs))) by (unfold apply_update; by rewrite Hd).
  pose proof (update_conflicts ho cg u ord Hcg Hu Hho Hord) as Hs. rewrite Hd in Hs. cbn zeta in Hs.
  destruct Hs as [(e & _ & t & Hnew & Hpos & Hcw & q & k & Hq & Hqk)|(cs & E & _)].
  { exfalso. eapply (conflicting_unknown ord ccs (uc_confirmed e).2 Hord Hd); [by exists (uc_update e).2, t, (uc_update e).1|].
    apply (wpos_known _ k). rewrite <- Hqk. f_equal. symmetry.
    eapply (result_true _ ccs ord _ q k Hord Ha); [|done]. by rewrite apply_changeset_pos. }
  assert (E' : cg_apply_update ho cg u ord = Ret (Ok (cg_apply_changeset cg cs, cs))).
  { unfold cg_apply_update. by rewrite E. }
  exists (cg_apply_changeset cg cs), cs. split; [done|].
  destruct (update_positions ho cg u ord _ _ Hcg Hu Hho Hord E') as (c' & ccs' & Ha' & _ & Hp).
  rewrite Ha in Ha'. injection Ha' as <- <-. split.
  - intros t p Ht. destruct (Hp t) as [[Hc _]|[_ ->]].
    + exfalso. eapply (conflicting_unknown ord ccs t Hord Hd Hc). by apply (Hupos t p).
    + rewrite (update_result_pos c v ord _ ccs t); [|apply Hcg|done..]. by rewrite Ht.
  - intros t p h Ht Hh. destruct (Hp t) as [[_ Hc]|[_ Hc]]; rewrite Hc in Ht; [done|].
    by apply (result_true _ ccs ord t p h Hord Ha).
Qed.
End sync.
