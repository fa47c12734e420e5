(** Proofs about the keychain index: histories. *)
From Verif Require Export KeychainIndexProofs3.

Section proofs.
Context `{!DescEnv} `{Countable K, !Ord K, !OrdLaws K}.
Implicit Types (x : KIndex K) (k : K) (h : list (ki_op K)) (hs : list (si_op (K * N))).

(** Lookaheads are set only for added keychains. *)
Definition look_known x : Prop := ∀ k, is_Some (ki_lookahead x !! k) → is_Some (ki_keychains x !! k).
Definition op_keychains (op : ki_op K) (m : gmap K Desc) : gmap K Desc :=
  match op with KiAdd k d => <[k := d]> m | _ => m end.
Definition op_look (op : ki_op K) x k : N := (look_op k op (bool_decide (is_Some (ki_keychains x !! k)), lookahead_of x k)).2.
Definition step_rel A hs x op x' hs' (o : option (K * N * Script)) (ad : gmap K N) : Prop :=
  ki_inv A (hs ++ hs') x' ∧ look_known x' ∧ ki_keychains x' = op_keychains op (ki_keychains x) ∧
  ki_revealed x' = da_append (ki_revealed x) ad ∧ (∀ k i, ad !! k = Some i → n_revealed x k ≤ i) ∧
  spks_sub x x' ∧ scans hs' = op_outs op ∧ (∀ k, lookahead_of x' k = op_look op x k) ∧
  ∀ k i s, o = Some (k, i, s) → ∃ d, ki_keychains x' !! k = Some d ∧ derive d i = Some s ∧ i < n_revealed x' k.

Lemma step_tr A hs x op x' hs' o ad :
  tr A x hs x' hs' ad (op_outs op) → op_keychains op (ki_keychains x) = ki_keychains x → look_known x' →
  (∀ k, lookahead_of x' k = op_look op x k) →
  (∀ k i s, o = Some (k, i, s) → ∃ d, ki_keychains x' !! k = Some d ∧ derive d i = Some s ∧ i < n_revealed x' k) →
  step_rel A hs x op x' hs' o ad.
Proof.
  intros (T1 & T2 & T3 & T4 & T5 & T6) Hk Hl Hla Ho. split_and!; try done. by rewrite Hk.
Qed.
Lemma look_known_same x x' : look_known x → ki_lookahead x' = ki_lookahead x → ki_keychains x' = ki_keychains x → look_known x'.
Proof. unfold look_known. by intros ? -> ->. Qed.

Lemma op_look_same op x x' : ki_lookahead x' = ki_lookahead x → (∀ k r, look_op k op r = r) → ∀ k, lookahead_of x' k = op_look op x k.
Proof. intros E Hop k. unfold op_look. rewrite Hop. unfold lookahead_of. cbn [snd]. by rewrite E. Qed.

Lemma add_ok A hs x k d :
  ki_inv A hs x → look_known x → A k = Some d →
  ∃ x', add_keychain x k d = Ret x' ∧ step_rel A hs x (KiAdd k d) x' [] None ∅.
Proof.
  intros [Hc Hl] Hlk Ha. unfold add_keychain. pose proof Hc as (C1 & C2 & C3 & C4 & C5).
  destruct (ki_keychains x !! k) as [d'|] eqn:Ek.
  - assert (d' = d) as -> by (apply C1 in Ek; congruence). rewrite bool_decide_true by done. eexists. split; [done|].
    split; [by rewrite app_nil_r|]. split; [done|]. split; [cbn; by rewrite insert_id|]. split; [by rewrite da_append_empty_r|].
    split; [intros ? ?; by rewrite lookup_empty|]. split; [by intros ? ?|].
    split; [done|]. split; [|done]. intros k'. unfold op_look, look_op. by case_decide.
  - eexists. split; [done|]. set (x' := mkKI _ _ _ _).
    assert (∀ k' n, stored x' k' n ↔ stored x k' n) as Hst by done.
    assert (ki_lookahead x !! k = None) as Elk.
    { destruct (ki_lookahead x !! k) eqn:E; [|done]. destruct (Hlk k); [eauto|congruence]. }
    assert (ki_revealed x !! k = None) as Erk.
    { destruct (ki_revealed x !! k) eqn:E; [|done]. destruct (C5 k); [eauto|congruence]. }
    pose proof (core_not_stored A hs x k Hc Ek) as H0s.
    split; [|split].
    + rewrite app_nil_r. split; [split_and!|split].
      * intros k' d'. unfold x'. cbn [ki_keychains]. destruct (decide (k' = k)) as [->|Hne]; [rewrite lookup_insert; congruence|].
        rewrite lookup_insert_ne by done. apply C1.
      * exact C2.
      * intros k' i s Hs. destruct (C3 k' i s Hs) as (d' & Hd' & Hder). exists d'. split; [|done].
        unfold x'. cbn [ki_keychains]. rewrite lookup_insert_ne; [done|]. congruence.
      * intros k' d'. unfold x'. cbn [ki_keychains]. destruct (decide (k' = k)) as [->|Hne].
        -- rewrite lookup_insert. intros [= <-]. exists 0. split; [by apply Hst|]. split; [lia|].
           unfold n_revealed. cbn [ki_revealed]. rewrite Erk. lia.
        -- rewrite lookup_insert_ne by done. apply C4.
      * intros k' Hr. apply C5 in Hr. unfold x'. cbn [ki_keychains]. destruct (decide (k' = k)) as [->|Hne]; [rewrite lookup_insert; eauto|].
        by rewrite lookup_insert_ne.
      * intros k' d' n. unfold x' at 1. cbn [ki_keychains]. destruct (decide (k' = k)) as [->|Hne].
        -- rewrite lookup_insert. intros [= <-] Hn. unfold n_revealed, lookahead_of, x'. cbn [ki_revealed ki_lookahead].
           rewrite Erk, Elk. cbn. lia.
        -- rewrite lookup_insert_ne by done. intros Hd' Hn. by apply (proj1 Hl k' d' n Hd').
      * apply (proj2 Hl).
    + intros k' Hr. apply Hlk in Hr. unfold x'. cbn [ki_keychains]. destruct (decide (k' = k)) as [->|Hne]; [rewrite lookup_insert; eauto|].
      by rewrite lookup_insert_ne.
    + split; [done|]. split; [by rewrite da_append_empty_r|]. split; [intros ? ?; by rewrite lookup_empty|]. split; [by intros ? ?|].
    split; [done|]. split; [|done]. intros k'. unfold op_look, look_op. by case_decide.
Qed.

Lemma step_ok A h hs x op :
  good_env A → ki_inv A hs x → look_known x → (∀ k, known h k → is_Some (ki_keychains x !! k)) → ki_op_ok A h op →
  ∃ x' o ad hs', ki_step x op = Ret (x', o, ad) ∧ step_rel A hs x op x' hs' o ad.
Proof.
  intros HA Hi Hlk Hkn Hop. destruct op as [k d|k n|n|k t|m|k t|m|k|k|k|k|k i|k i|l]; cbn [ki_step ki_op_ok] in *.
  - destruct (add_ok A hs x k d Hi Hlk Hop) as (x' & E & Hs). rewrite E. eauto 10.
  - destruct Hop as [Hk Hn]. destruct (tr_set_lookahead A hs x k n HA Hi (Hkn k Hk) Hn) as (x' & hs' & E & Ht & El).
    rewrite E. eexists _, _, _, hs'. split; [done|]. apply step_tr; [done|done| | |done].
    { intros k'. rewrite El, (proj1 (proj2 Ht)). destruct (decide (k' = k)) as [->|Hne]; [by auto|]. rewrite lookup_insert_ne by done. apply Hlk. }
    intros k'. unfold op_look, look_op, lookahead_of. rewrite El. case_decide as Hk'; [subst; by rewrite lookup_insert|by rewrite lookup_insert_ne].
  - unfold set_lookahead_for_all.
    destruct (tr_all A n (bmap_list (ki_keychains x)) hs x HA Hi Hop) as (x' & hs' & E & Ht & El).
    { intros [k d] Hin. apply elem_of_bmap_list in Hin. cbn. eauto. }
    rewrite E. eexists _, _, _, hs'. split; [done|]. apply step_tr; [done|done| | |done].
    { intros k'. rewrite El, (proj1 (proj2 Ht)). case_bool_decide as Hb; [|apply Hlk]. intros _.
      apply elem_of_list_fmap in Hb as ([k d] & -> & Hin). apply elem_of_bmap_list in Hin. cbn. eauto. }
    intros k'. unfold op_look, look_op, lookahead_of. rewrite El. cbn [fst].
    destruct (decide (is_Some (ki_keychains x !! k'))) as [[d Hd]|Hn].
    + rewrite (bool_decide_true (is_Some _)) by eauto. rewrite bool_decide_true; [done|].
      apply elem_of_list_fmap. exists (k', d). split; [done|]. by apply elem_of_bmap_list.
    + rewrite (bool_decide_false (is_Some _)) by done. rewrite bool_decide_false; [done|].
      intros Hb. apply elem_of_list_fmap in Hb as ([k d] & -> & Hin). apply elem_of_bmap_list in Hin. apply Hn. cbn. eauto.
  - destruct Hop as [Hk Hn]. destruct (tr_look_to A hs x k t HA Hi (Hkn k Hk) Hn) as (x' & hs' & E & Ht & El).
    rewrite E. eexists _, _, _, hs'. split; [done|]. apply step_tr; [done|done| | |done].
    { by apply (look_known_same x); [|done|apply Ht]. }
    by apply op_look_same.
  - unfold lookahead_to_target_multi.
    destruct (tr_look_multi A (bmap_list m) hs x HA Hi) as (x' & hs' & E & Ht & El).
    { intros [k t] Hin. apply elem_of_bmap_list in Hin. destruct (Hop k t Hin) as [Hk Ht]. split; [by apply Hkn|done]. }
    rewrite E. eexists _, _, _, hs'. split; [done|]. apply step_tr; [done|done| | |done].
    { by apply (look_known_same x); [|done|apply Ht]. }
    by apply op_look_same.
  - destruct Hop as [Hk Hn]. destruct (Hkn k Hk) as [d Hd].
    destruct (tr_reveal A hs x k d t HA Hi Hd (target_cap d t Hn)) as (x' & hs' & E & Ht & El & _).
    rewrite E. eexists _, _, _, hs'. split; [done|]. apply step_tr; [done|done| | |done].
    { by apply (look_known_same x); [|done|apply Ht]. }
    by apply op_look_same.
  - unfold reveal_to_target_multi.
    destruct (tr_reveal_multi A (bmap_list m) hs x ∅ ∅ HA Hi) as (x' & hs' & sp & ad & E & Ht & El & _).
    { apply NoDup_fst_bmap_list. }
    { intros [k t] Hin. apply elem_of_bmap_list in Hin. destruct (Hop k t Hin) as [Hk Ht]. split; [by apply Hkn|done]. }
    rewrite E, da_append_empty_l. eexists _, _, _, hs'. split; [done|]. apply step_tr; [done|done| | |done].
    { by apply (look_known_same x); [|done|apply Ht]. }
    by apply op_look_same.
  - destruct (Hkn k Hop) as [d Hd]. destruct (tr_next A hs x k d HA Hi Hd) as (x' & hs' & i & s & ad & E & Ht & El & Hder & Hsp & Hlt & _).
    rewrite E. eexists _, _, _, hs'. split; [done|]. apply step_tr; [done|done| | |].
    + by apply (look_known_same x); [|done|apply Ht].
    + by apply op_look_same.
    + intros ? ? ? [= <- <- <-]. exists d. rewrite (proj1 (proj2 Ht)). done.
  - destruct (Hkn k Hop) as [d Hd]. destruct (tr_next_unused A hs x k d HA Hi Hd) as (x' & hs' & i & s & ad & E & Ht & El & Hder & Hsp & Hlt & _).
    rewrite E. eexists _, _, _, hs'. split; [done|]. apply step_tr; [done|done| | |].
    + by apply (look_known_same x); [|done|apply Ht].
    + by apply op_look_same.
    + intros ? ? ? [= <- <- <-]. exists d. rewrite (proj1 (proj2 Ht)). done.
  - destruct (Hkn k Hop) as [d Hd]. destruct (tr_next A hs x k d HA Hi Hd) as (x' & hs' & i & s & ad & E & Ht & El & Hder & Hsp & Hlt & _).
    destruct (tr_reserve A hs x x' hs' k i s ad Hi Ht Hsp) as (x2 & hs2 & E2 & Ht2 & Er2 & El2 & _).
    unfold reveal_and_reserve_next_spk. rewrite E. cbn [mbind outcome_bind]. rewrite E2.
    eexists _, _, _, hs2. split; [done|]. apply step_tr; [done|done| | |].
    + apply (look_known_same x); [done|congruence|apply Ht2].
    + apply op_look_same; [congruence|done].
    + intros ? ? ? [= <- <- <-]. exists d. rewrite (proj1 (proj2 Ht2)). split; [done|]. split; [done|]. unfold n_revealed in *. by rewrite Er2.
  - destruct (Hkn k Hop) as [d Hd]. destruct (tr_next_unused A hs x k d HA Hi Hd) as (x' & hs' & i & s & ad & E & Ht & El & Hder & Hsp & Hlt & _).
    destruct (tr_reserve A hs x x' hs' k i s ad Hi Ht Hsp) as (x2 & hs2 & E2 & Ht2 & Er2 & El2 & _).
    unfold reserve_next_unused_spk. rewrite E. cbn [mbind outcome_bind]. rewrite E2.
    eexists _, _, _, hs2. split; [done|]. apply step_tr; [done|done| | |].
    + apply (look_known_same x); [done|congruence|apply Ht2].
    + apply op_look_same; [congruence|done].
    + intros ? ? ? [= <- <- <-]. exists d. rewrite (proj1 (proj2 Ht2)). split; [done|]. split; [done|]. unfold n_revealed in *. by rewrite Er2.
  - destruct (tr_mark A hs x k i Hi) as [Ht _]. eexists _, _, _, _. split; [done|]. apply step_tr; [exact Ht|done| | |done].
    { by apply (look_known_same x). }
    by apply op_look_same.
  - destruct (tr_unmark A hs x k i Hi) as (r & E & Ht). rewrite E. eexists _, _, _, _. split; [done|]. apply step_tr; [exact Ht|done| | |done].
    all: assert (ki_lookahead r.1 = ki_lookahead x) as El by
      (unfold ki_unmark_used in E; destruct (si_unmark_used (ki_inner x) (k, i)) as [[s' b]|]; [|done]; by injection E as <-).
    { apply (look_known_same x); [done|done|apply Ht]. }
    by apply op_look_same.
  - unfold ki_scan. destruct (tr_scan A l hs x ∅ HA Hi Hop) as (x' & hs' & ad & E & Ht & El & _).
    rewrite E, da_append_empty_l. eexists _, _, _, hs'. split; [done|]. apply step_tr; [done|done| | |done].
    { by apply (look_known_same x); [|done|apply Ht]. }
    by apply op_look_same.
Qed.

(** ** Histories *)
Lemma ki_run_snoc h op : ki_run (h ++ [op]) =
  match ki_run h with
  | Panic => Panic
  | Ret (x, outs, acc) => match ki_step x op with
      | Panic => Panic
      | Ret (x', o, ad) => Ret (x', outs ++ option_list o, da_append acc ad) end
  end.
Proof. unfold ki_run. rewrite foldl_app. cbn [foldl]. destruct (foldl _ _ h) as [[[x outs] acc]|]; done. Qed.
Lemma hist_ok_snoc A h op : ki_hist_ok A (h ++ [op]) ↔ ki_hist_ok A h ∧ ki_op_ok A h op.
Proof.
  unfold ki_hist_ok. split.
  - intros Hh. split; [|by apply (Hh h op [])]. intros h1 op' h2 ->. apply (Hh h1 op' (h2 ++ [op])). by rewrite <- app_assoc.
  - intros [Hh Hop] h1 op' h2 E. destruct h2 as [|op2 h2 _] using rev_ind.
    + apply app_inj_tail in E as [-> ->]. done.
    + rewrite app_comm_cons, app_assoc in E. apply app_inj_tail in E as [-> _]. by apply (Hh h1 op' h2).
Qed.
Definition hist_inv A h hs x (outs : list (K * N * Script)) (acc : gmap K N) : Prop :=
  ki_inv A hs x ∧ look_known x ∧ (∀ k d, ki_keychains x !! k = Some d ↔ KiAdd k d ∈ h) ∧ acc = ki_revealed x ∧
  scans hs = hist_outs h ∧ (∀ k, lookahead_of x k = look_after h k) ∧
  ∀ k i s, (k, i, s) ∈ outs → ∃ d, ki_keychains x !! k = Some d ∧ derive d i = Some s ∧ i < n_revealed x k.

Lemma known_keychain A h hs x outs acc k : hist_inv A h hs x outs acc → known h k ↔ is_Some (ki_keychains x !! k).
Proof.
  intros (_ & _ & H3 & _). unfold known. split; intros [d Hd]; exists d; by apply H3.
Qed.
Lemma known_desc A h hs x outs acc k d : hist_inv A h hs x outs acc → A k = Some d → known h k → ki_keychains x !! k = Some d.
Proof.
  intros Hi Ha Hk. apply (known_keychain _ _ _ _ _ _ _ Hi) in Hk as [d' Hd]. rewrite Hd. f_equal.
  pose proof (proj1 (proj1 (proj1 Hi)) k d' Hd). congruence.
Qed.
Lemma look_added h k : ∀ r, (foldl (λ r op, look_op k op r) r h).1 = true ↔ r.1 = true ∨ known h k.
Proof.
  unfold known. induction h as [|op h IH]; intros r.
  - cbn. split; [by left|]. intros [|[d ?%elem_of_nil]]; done.
  - cbn [foldl]. rewrite IH. setoid_rewrite elem_of_cons.
    destruct op as [k0 d0|? ?|?|? ?|?|? ?|?|?|?|?|?|? ?|? ?|?]; cbn [look_op]; try (case_decide as Hk); cbn [fst]; try (destruct r as [[] ?]; cbn [fst]); naive_solver.
Qed.
Global Instance known_dec h k : Decision (known h k).
Proof.
  destruct ((foldl (λ r op, look_op k op r) (false, 0) h).1) eqn:E.
  - left. apply look_added in E as [|]; done.
  - right. intros Hk. assert ((foldl (λ r op, look_op k op r) (false, 0) h).1 = true) by (apply look_added; by right). congruence.
Qed.
Lemma look_known_fst h k : (foldl (λ r op, look_op k op r) (false, 0) h).1 = bool_decide (known h k).
Proof.
  apply eq_true_iff_eq. rewrite bool_decide_eq_true, look_added. naive_solver.
Qed.
Lemma hist_step A h op hs x outs acc :
  good_env A → hist_inv A h hs x outs acc → ki_op_ok A h op →
  ∃ x' o ad hs', ki_step x op = Ret (x', o, ad) ∧ step_rel A hs x op x' hs' o ad ∧
    hist_inv A (h ++ [op]) (hs ++ hs') x' (outs ++ option_list o) (da_append acc ad).
Proof.
  intros HA Hi Hop. pose proof Hi as (I1 & I2 & I3 & I4 & I5 & I7 & I6).
  destruct (step_ok A h hs x op HA I1 I2) as (x' & o & ad & hs' & E & Hs); [|done|].
  { intros k Hk. by apply (known_keychain _ _ _ _ _ _ _ Hi). }
  exists x', o, ad, hs'. split; [done|]. split; [done|].
  destruct Hs as (S1 & S2 & S3 & S4 & S5 & S6 & S7 & S9 & S8).
  split; [done|]. split; [done|]. split; [|split; [|split; [|split]]].
  - intros k d. rewrite S3, elem_of_app, elem_of_list_singleton, <- I3. destruct op as [k0 d0|? ?|?|? ?|?|? ?|?|?|?|?|?|? ?|? ?|?]; cbn [op_keychains]; try (split; [by left|by intros [|]]).
    destruct (decide (k = k0)) as [->|Hne].
    + rewrite lookup_insert. split; [intros [= ->]; by right|]. intros [Hk|[= ->]]; [|done].
      apply (proj1 (proj1 I1)) in Hk. cbn in Hop. congruence.
    + rewrite lookup_insert_ne by done. split; [by left|]. intros [|[= -> ->]]; done.
  - by rewrite I4, S4.
  - unfold scans, hist_outs. rewrite !bind_app. fold (scans hs). rewrite I5. unfold hist_outs. f_equal.
    fold (scans hs'). rewrite S7. cbn. by rewrite app_nil_r.
  - intros k. rewrite S9. unfold op_look, look_after. rewrite foldl_app. cbn [foldl]. do 2 f_equal.
    apply injective_projections; [|apply I7]. cbn [fst]. rewrite look_known_fst. apply bool_decide_ext.
    symmetry. by apply (known_keychain _ _ _ _ _ _ _ Hi).
  - intros k i s Hin. apply elem_of_app in Hin as [Hin|Hin].
    + destruct (I6 k i s Hin) as (d & Hd & Hder & Hlt). exists d. split; [|split; [done|]].
      * rewrite S3. destruct op; cbn [op_keychains]; try done. destruct (decide (k = k0)) as [->|Hne].
        -- apply (proj1 (proj1 I1)) in Hd. cbn in Hop. rewrite lookup_insert. congruence.
        -- by rewrite lookup_insert_ne.
      * pose proof (n_revealed_mono x x' ad k S4). lia.
    + destruct o as [kis|]; [|by apply elem_of_nil in Hin]. apply elem_of_list_singleton in Hin as <-. by apply S8.
Qed.
Lemma hist_nil A : hist_inv A [] [] ki_default [] ∅.
Proof.
  split_and!.
  - split; [split_and!|split].
    + intros k d; cbn; by rewrite lookup_empty.
    + split; [done|]. split; [by intros ? ? ? ?%elem_of_nil|]. split; [constructor|]. by intros ? ? ?%elem_of_nil.
    + intros k i s; cbn; by rewrite lookup_empty.
    + intros k d; cbn; by rewrite lookup_empty.
    + intros k [? E]; cbn in E; by rewrite lookup_empty in E.
    + intros k d n; cbn; by rewrite lookup_empty.
    + intros k. unfold lookahead_of. cbn. rewrite lookup_empty. cbn. unfold id; lia.
  - intros k [? E]; cbn in E; by rewrite lookup_empty in E.
  - intros k d. rewrite elem_of_nil. cbn. by rewrite lookup_empty.
  - done.
  - done.
  - intros k. unfold lookahead_of. cbn. by rewrite lookup_empty.
  - by intros ? ? ? ?%elem_of_nil.
Qed.
Lemma hist_run A h : good_env A → ki_hist_ok A h →
  ∃ x outs acc hs, ki_run h = Ret (x, outs, acc) ∧ hist_inv A h hs x outs acc.
Proof.
  intros HA. induction h as [|op h IH] using rev_ind; intros Hh.
  - eexists _, _, _, _. split; [done|]. apply hist_nil.
  - apply hist_ok_snoc in Hh as [Hh Hop]. destruct (IH Hh) as (x & outs & acc & hs & E & Hi).
    destruct (hist_step A h op hs x outs acc HA Hi Hop) as (x' & o & ad & hs' & E' & _ & Hi').
    eexists _, _, _, _. split; [|exact Hi']. by rewrite ki_run_snoc, E, E'.
Qed.
Lemma hist_run' A h x outs acc : good_env A → ki_hist_ok A h → ki_run h = Ret (x, outs, acc) →
  ∃ hs, hist_inv A h hs x outs acc.
Proof. intros HA Hh E. destruct (hist_run A h HA Hh) as (x' & outs' & acc' & hs & E' & Hi). rewrite E in E'. simplify_eq. eauto. Qed.
End proofs.
