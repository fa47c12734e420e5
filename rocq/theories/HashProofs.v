(** Proofs that the iteration order of hash maps and sets does not matter (C96). *)
From Verif Require Export HashSpec TrackerProofs4 ChainGraphProofs4.

Section chain.
Context `{ChainPositionLaws P}.
Implicit Types (cg u : ChainGraph P) (cs : CgChangeSet P) (c : SparseChain P) (g : TxGraph).

Lemma update_spec_unique c (u : SparseChain P) o (a b : ChangeSet P) : update_cs_spec c u o a → update_cs_spec c u o b → a = b.
Proof.
  intros [A1 A2] [B1 B2]. destruct a as [ac at'], b as [bc bt]. cbn in *. f_equal; apply map_eq; intros i.
  - by rewrite A1, B1.
  - by rewrite A2, B2.
Qed.
Definition same_chain_error (e e' : UpdateError P) : Prop := same_update_error (CgUpdChain e) (CgUpdChain e').
Lemma determine_agree c (u : SparseChain P) ord ord' : chain_ok c → ord ≡ₚ map_to_list (sc_pos u) → ord' ≡ₚ map_to_list (sc_pos u) →
  agree same_chain_error (determine_changeset c u ord) (determine_changeset c u ord').
Proof.
  intros Hok Ho Ho'. unfold same_chain_error.
  assert (∀ (Q : connected c u) f, invalid_from c u = Some f → sc_cps u !! f = None → False) as Hx.
  { intros Q f E1 E2. destruct (Q f E1) as [? ?]. congruence. }
  destruct (determine_cases c u ord Hok Ho)
    as [(f & Ef & Hn & ->)|[(Hc & t & p & q & Hp & Hq & Hi & ->)|(Hc & Hi & cs & -> & Hs)]];
  destruct (determine_cases c u ord' Hok Ho')
    as [(f' & Ef' & Hn' & ->)|[(Hc' & t' & p' & q' & Hp' & Hq' & Hi' & ->)|(Hc' & Hi' & cs' & -> & Hs')]]; cbn; try done;
  try (by exfalso; eauto); try congruence.
  - apply Hi'. by exists t, p.
  - apply Hi. by exists t', p'.
  - by eapply update_spec_unique.
Qed.

(** The walk over a transaction's conflicts in the chain: no two transactions of the chain spend one
    output, so the order of its spenders is that of what is left out. *)
Lemma descend_same {R} ho ho' g (f : nat → Txid → option R) (keep : Txid → bool) :
  (∀ d i, f d i = None ↔ keep i = false) →
  (∀ d i, filter (λ x : nat * Txid, keep x.2 = true) (spend_paths ho g d i) = filter (λ x : nat * Txid, keep x.2 = true) (spend_paths ho' g d i)) →
  ∀ n n' V V' st st' l l', descend ho g f n V st = Some l → descend ho' g f n' V' st' = Some l' →
    filter (λ x : nat * Txid, keep x.2 = true) st = filter (λ x : nat * Txid, keep x.2 = true) st' →
    (∀ i, keep i = true → i ∈ V ↔ i ∈ V') → l = l'.
Proof.
  intros Hf Hp. induction n as [|n IH].
  - intros n'. induction n' as [|n' IH']; intros V V' st st' l l' E E' Hst HV.
    + destruct st, st'; try done. cbn in *. congruence.
    + destruct st; [|done]. cbn in E. injection E as <-. destruct st' as [|[d i] st']; [cbn in E'; congruence|].
      cbn [descend] in E'. rewrite filter_cons in Hst. cbn [snd] in Hst.
      destruct (decide (keep i = true)) as [|Hk]; [done|]. apply not_true_is_false in Hk.
      destruct (bool_decide (i ∈ V')); [by eapply (IH' V V' [] st')|].
      rewrite (proj2 (Hf d i) Hk) in E'. eapply (IH' V _ [] st'); [done|exact E'|done|]. intros j Hj. rewrite (HV j Hj). assert (j ≠ i) by congruence. set_solver.
  - intros n'. induction n' as [|n' IH']; intros V V' st st' l l' E E' Hst HV.
    + destruct st'; [|done]. cbn in E'. injection E' as <-. destruct st as [|[d i] st]; [cbn in E; congruence|].
      cbn [descend] in E. rewrite filter_cons in Hst. cbn [snd] in Hst.
      destruct (decide (keep i = true)) as [|Hk]; [done|]. apply not_true_is_false in Hk.
      destruct (bool_decide (i ∈ V)); [by eapply (IH 0%nat V V' st [])|].
      rewrite (proj2 (Hf d i) Hk) in E. eapply (IH 0%nat _ V' st []); [exact E|done|done|]. intros j Hj. rewrite <- (HV j Hj). assert (j ≠ i) by congruence. set_solver.
    + destruct st as [|[d i] st].
      * cbn in E. injection E as <-. destruct st' as [|[d i] st']; [cbn in E'; congruence|].
        cbn [descend] in E'. rewrite filter_cons in Hst. cbn [snd] in Hst.
        destruct (decide (keep i = true)) as [|Hk]; [done|]. apply not_true_is_false in Hk.
        destruct (bool_decide (i ∈ V')); [by eapply (IH' V V' [] st')|].
        rewrite (proj2 (Hf d i) Hk) in E'. eapply (IH' V _ [] st'); [done|exact E'|done|]. intros j Hj. rewrite (HV j Hj). assert (j ≠ i) by congruence. set_solver.
      * destruct (keep i) eqn:Hk.
        2: { cbn [descend] in E. rewrite filter_cons in Hst. cbn [snd] in Hst. rewrite decide_False in Hst by congruence.
             destruct (bool_decide (i ∈ V)); [by eapply (IH (S n') V V' st st')|].
             rewrite (proj2 (Hf d i) Hk) in E. eapply (IH (S n') _ V' st st'); [exact E|exact E'|done|]. intros j Hj. rewrite <- (HV j Hj). assert (j ≠ i) by congruence. set_solver. }
        rewrite filter_cons in Hst. cbn [snd] in Hst. rewrite decide_True in Hst by done.
        destruct st' as [|[d' i'] st']; [done|]. rewrite filter_cons in Hst. cbn [snd] in Hst.
        destruct (decide (keep i' = true)) as [Hk'|Hk'].
        2: { apply not_true_is_false in Hk'. cbn [descend] in E'. destruct (bool_decide (i' ∈ V')).
             - eapply (IH' V V' ((d, i) :: st) st'); [exact E|exact E'| |done]. rewrite filter_cons. cbn [snd]. by rewrite decide_True.
             - rewrite (proj2 (Hf d' i') Hk') in E'. eapply (IH' V _ ((d, i) :: st) st'); [exact E|exact E'| |].
               + rewrite filter_cons. cbn [snd]. by rewrite decide_True.
               + intros j Hj. rewrite (HV j Hj). assert (j ≠ i') by congruence. set_solver. }
        injection Hst as <- <- Hst. cbn [descend] in E, E'.
        assert (bool_decide (i ∈ V) = bool_decide (i ∈ V')) as Hb by (apply bool_decide_ext, HV, Hk). rewrite <- Hb in E'.
        destruct (bool_decide (i ∈ V)); [by eapply (IH n' V V' st st')|].
        destruct (f d i) as [r|] eqn:Er; [|apply Hf in Er; congruence].
        apply fmap_Some in E as (l1 & E & ->). apply fmap_Some in E' as (l2 & E' & ->). f_equal.
        eapply (IH n'); [exact E|exact E'| |].
        -- unfold populate_stack. rewrite !filter_app, !filter_reverse. f_equal; [|done]. by rewrite Hp.
        -- intros j Hj. specialize (HV j Hj). set_solver.
Qed.
Lemma one_spender ho ho' cg o : cg_ok cg → hash_order (cg_graph cg) ho → hash_order (cg_graph cg) ho' →
  filter (λ i, in_chainb (cg_chain cg) i = true) (ho o) = filter (λ i, in_chainb (cg_chain cg) i = true) (ho' o).
Proof.
  intros (_ & [_ Hs] & _ & Hds) Hh Hh'.
  assert (filter (λ i, in_chainb (cg_chain cg) i = true) (ho o) ≡ₚ filter (λ i, in_chainb (cg_chain cg) i = true) (ho' o)) as Hp.
  { apply filter_Permutation. by rewrite (Hh o), (Hh' o). }
  assert (NoDup (filter (λ i, in_chainb (cg_chain cg) i = true) (ho o))) as Hnd.
  { apply NoDup_filter. rewrite (Hh o). apply NoDup_elements. }
  assert (∀ a b, a ∈ filter (λ i, in_chainb (cg_chain cg) i = true) (ho o) → b ∈ filter (λ i, in_chainb (cg_chain cg) i = true) (ho o) → a = b) as Hu.
  { intros a b [Ha Hao]%elem_of_list_filter [Hb Hbo]%elem_of_list_filter. rewrite (Hh o), elem_of_elements in Hao, Hbo.
    apply Hs in Hao as (Hn & ta & Hta & Hia), Hbo as (_ & tb & Htb & Hib). apply in_chainb_iff in Ha, Hb.
    eapply Hds; [exact Ha|exact Hb|exact Hta|exact Htb|]. by exists o. }
  destruct (filter _ (ho o)) as [|a [|b l]].
  - by apply Permutation_nil in Hp as ->.
  - by apply Permutation_singleton_l in Hp as ->.
  - exfalso. assert (a = b) as -> by (apply Hu; set_solver). apply NoDup_cons in Hnd as [Hn _]. apply Hn. by left.
Qed.
Lemma filter_bind {X Y} (Q : Y → Prop) `{∀ y, Decision (Q y)} (h : X → list Y) l : filter Q (l ≫= h) = l ≫= λ x, filter Q (h x).
Proof. induction l as [|x l IH]; [done|]. cbn. by rewrite filter_app, IH. Qed.
Lemma filter_map_pair {X} (a : X) (keep : Txid → bool) (l : list Txid) :
  filter (λ x : X * Txid, keep x.2 = true) ((λ i, (a, i)) <$> l) = (λ i, (a, i)) <$> filter (λ i, keep i = true) l.
Proof. induction l as [|i l IH]; [done|]. rewrite fmap_cons, !filter_cons. cbn [snd]. destruct (decide (keep i = true)); cbn; by rewrite IH. Qed.
Lemma bind_same {X Y} (h h' : X → list Y) l : (∀ x, h x = h' x) → l ≫= h = l ≫= h'.
Proof. intros He. induction l as [|x l IH]; [done|]. cbn. rewrite He. f_equal. exact IH. Qed.
Lemma direct_filter (v : nat) (n : Txid) (keep : Txid → bool) (l : list Txid) :
  filter (λ x : nat * Txid, keep x.2 = true) ((λ c : nat * Txid, (0%nat, c.2)) <$> filter (λ c : nat * Txid, c.2 ≠ n) ((λ s, (v, s)) <$> l))
  = (λ i, (0%nat, i)) <$> filter (λ i, i ≠ n) (filter (λ i, keep i = true) l).
Proof.
  induction l as [|i l IH]; [done|]. rewrite fmap_cons, !filter_cons. cbn [snd].
  destruct (decide (keep i = true)) as [Hk|Hk]; destruct (decide (i ≠ n)) as [Hn|Hn];
    rewrite ?fmap_cons, ?filter_cons; cbn [snd]; rewrite ?(decide_True _ _ Hk), ?(decide_False _ _ Hk), ?(decide_True _ _ Hn), ?(decide_False _ _ Hn);
    rewrite ?fmap_cons; try exact IH; f_equal; exact IH.
Qed.
Lemma conflicts_same ho ho' cg t : cg_ok cg → hash_order (cg_graph cg) ho → hash_order (cg_graph cg) ho' →
  tx_conflicts_in_chain ho (cg_chain cg) (cg_graph cg) t = tx_conflicts_in_chain ho' (cg_chain cg) (cg_graph cg) t.
Proof.
  intros Hok Hh Hh'.
  destruct (conflicts_in_chain_spec ho (cg_chain cg) (cg_graph cg) t (proj1 (proj2 Hok)) Hh) as (l & E & _).
  destruct (conflicts_in_chain_spec ho' (cg_chain cg) (cg_graph cg) t (proj1 (proj2 Hok)) Hh') as (l' & E' & _).
  rewrite E, E'. f_equal. unfold tx_conflicts_in_chain, walk_conflicts, descend_all in *.
  destruct (descend ho _ _ _ _ _) as [l1|] eqn:D; [|done]. injection E as ->.
  destruct (descend ho' _ _ _ _ _) as [l2|] eqn:D'; [|done]. injection E' as ->.
  eapply (descend_same ho ho' (cg_graph cg) _ (in_chainb (cg_chain cg))); [| |exact D|exact D'| |done].
  - intros d i. unfold in_chainb, tx_position. by destruct (sc_pos (cg_chain cg) !! i).
  - intros d i. unfold spend_paths. rewrite !filter_bind. apply bind_same. intros [o ss].
    cbn [fst snd]. by rewrite !filter_map_pair, (one_spender ho ho').
  - rewrite !filter_reverse. f_equal. unfold direct_conflicts_of_tx.
    induction (imap (λ vin o, (vin, o)) (tx_in t)) as [|[v o] vs IH]; [done|].
    cbn [mbind list_bind]. rewrite !filter_app, !fmap_app, !filter_app. f_equal; [|exact IH]. cbn [fst snd].
    destruct (tg_spends (cg_graph cg) !! o); [|done].
    by rewrite !direct_filter, (one_spender ho ho').
Qed.
Lemma collect_same ho ho' cg cs l : cg_ok cg → hash_order (cg_graph cg) ho → hash_order (cg_graph cg) ho' →
  collect_conflicts ho cg cs l = collect_conflicts ho' cg cs l.
Proof.
  intros Hok Hh Hh'. induction l as [|[n [q|]] l IH]; cbn [collect_conflicts]; [done| |done].
  destruct (tx_position _ _); [done|]. destruct (find_full cg cs n) as [t|]; [|done].
  by rewrite (conflicts_same ho ho'), IH.
Qed.
Lemma fix_same ho ho' cg cs : cg_ok cg → hash_order (cg_graph cg) ho → hash_order (cg_graph cg) ho' →
  fix_conflicts ho cg cs = fix_conflicts ho' cg cs.
Proof. intros Hok Hh Hh'. unfold fix_conflicts. by rewrite (collect_same ho ho'). Qed.

Lemma cg_determine_agree ho ho' cg u ord ord' :
  cg_ok cg → cg_ok u → hash_order (cg_graph cg) ho → hash_order (cg_graph cg) ho' →
  ord ≡ₚ map_to_list (sc_pos (cg_chain u)) → ord' ≡ₚ map_to_list (sc_pos (cg_chain u)) →
  agree same_update_error (cg_determine_changeset ho cg u ord) (cg_determine_changeset ho' cg u ord').
Proof.
  intros Hok Hu Hh Hh' Ho Ho'. pose proof (determine_agree (cg_chain cg) (cg_chain u) ord ord' (proj1 Hok) Ho Ho') as Ha.
  pose proof (update_conflicts ho' cg u ord' Hok Hu Hh' Ho') as Hs'.
  unfold cg_determine_changeset in *.
  destruct (determine_changeset (cg_chain cg) (cg_chain u) ord) as [[ccs|e]|] eqn:E;
    destruct (determine_changeset (cg_chain cg) (cg_chain u) ord') as [[ccs'|e']|] eqn:E'; try done.
  cbn in Ha. subst ccs'. rewrite (fix_same ho ho') by done. destruct (fix_conflicts _ _ _) as [[cs|e]|]; try done.
  cbn zeta in Hs'. destruct Hs' as [(? & ? & _)|(? & ? & _)]; done.
Qed.
Lemma cg_determine_same ho ho' cg u ord : cg_ok cg → hash_order (cg_graph cg) ho → hash_order (cg_graph cg) ho' →
  cg_determine_changeset ho cg u ord = cg_determine_changeset ho' cg u ord.
Proof.
  intros Hok Hh Hh'. unfold cg_determine_changeset. destruct (determine_changeset _ _ _) as [[ccs|e]|]; [|done|done].
  by rewrite (fix_same ho ho').
Qed.
Lemma cg_insert_same ho ho' cg t p : cg_ok cg → hash_order (cg_graph cg) ho → hash_order (cg_graph cg) ho' →
  cg_insert_tx_preview ho cg t p = cg_insert_tx_preview ho' cg t p.
Proof.
  intros Hok Hh Hh'. unfold cg_insert_tx_preview. destruct (insert_tx_preview _ _ _) as [[ccs|e]|]; [|done|done].
  by rewrite (fix_same ho ho').
Qed.

Lemma conflicts_agree ho ho' c g t : graph_ok g → hash_order g ho → hash_order g ho' →
  ∃ l l', tx_conflicts_in_chain ho c g t = Ret l ∧ tx_conflicts_in_chain ho' c g t = Ret l' ∧ ∀ pi, pi ∈ l ↔ pi ∈ l'.
Proof.
  intros Hg Hh Hh'. destruct (conflicts_in_chain_spec ho c g t Hg Hh) as (l & E & Hl), (conflicts_in_chain_spec ho' c g t Hg Hh') as (l' & E' & Hl').
  exists l, l'. split; [done|]. split; [done|]. intros [q i]. by rewrite Hl, Hl'.
Qed.
Lemma new_loop_agree ho ho' c g l : ∀ m, graph_ok g → hash_order g ho → hash_order g ho' →
  agree same_new_error (cg_new_loop ho c g l m) (cg_new_loop ho' c g l m).
Proof.
  induction l as [|[q i] l IH]; intros m Hg Hh Hh'; cbn [cg_new_loop]; [done|].
  destruct (get_tx g i) as [t|]; [|by apply IH].
  destruct (conflicts_agree ho ho' c g t Hg Hh Hh') as (l1 & l2 & -> & -> & Hl).
  destruct l1 as [|a l1], l2 as [|b l2]; [by apply IH|..|done].
  - exfalso. apply (elem_of_nil b), Hl. by left.
  - exfalso. apply (elem_of_nil a), Hl. by left.
Qed.
Lemma cg_new_agree ho ho' c g : graph_ok g → hash_order g ho → hash_order g ho' →
  agree same_new_error (cg_new ho c g) (cg_new ho' c g).
Proof.
  intros Hg Hh Hh'. pose proof (new_loop_agree ho ho' c g (txids c) ∅ Hg Hh Hh') as Ha. unfold cg_new.
  destruct (cg_new_loop ho c g (txids c) ∅) as [[m|e]|], (cg_new_loop ho' c g (txids c) ∅) as [[m'|e']|]; try done.
  cbn in Ha. subst m'. by case_bool_decide.
Qed.
Lemma inflate_agree ho ho' cg c txs : hash_order (inflate_graph cg c txs) ho → hash_order (inflate_graph cg c txs) ho' →
  agree same_new_error (inflate_update ho cg c txs) (inflate_update ho' cg c txs).
Proof. apply cg_new_agree, inflate_graph_ok. Qed.

(** The views *)
Lemma spent_by_agree ho ho' cg o : cg_ok cg → hash_order (cg_graph cg) ho → hash_order (cg_graph cg) ho' →
  cg_spent_by ho cg o = cg_spent_by ho' cg o.
Proof.
  intros Hok Hh Hh'. apply option_eq. intros [q s]. by rewrite !spent_by_exact.
Qed.
Lemma full_txout_agree ho ho' cg o : cg_ok cg → hash_order (cg_graph cg) ho → hash_order (cg_graph cg) ho' →
  cg_full_txout ho cg o = cg_full_txout ho' cg o.
Proof.
  intros Hok Hh Hh'. pose proof (spent_by_agree ho ho' cg o Hok Hh Hh') as Hs. unfold cg_spent_by in Hs.
  unfold cg_full_txout, sc_full_txout. rewrite Hs. done.
Qed.
End chain.

Section tracker.
Context `{!DescEnv} `{Countable K, !Ord K, !OrdLaws K} `{ChainPositionLaws P}.
Implicit Types (x y : Tracker K P) (k : K) (s : list (ki_op K)) (h : list (tr_op K P)).

Lemma views_order ho ho' x : cg_ok (tr_cg x) → hash_order (cg_graph (tr_cg x)) ho → hash_order (cg_graph (tr_cg x)) ho' →
  full_txouts ho x = full_txouts ho' x ∧ full_utxos ho x = full_utxos ho' x ∧
  (∀ trust, balance ho x trust = balance ho' x trust) ∧ ∀ n, balance_at ho x n = balance_at ho' x n.
Proof.
  intros Hok Hh Hh'. assert (full_txouts ho x = full_txouts ho' x) as E.
  { unfold full_txouts. apply list_omap_ext. apply Forall2_same_length_lookup_2; [done|]. intros i a b -> [= <-].
    by rewrite (full_txout_agree ho ho'). }
  assert (full_utxos ho x = full_utxos ho' x) as E2 by (unfold full_utxos; by rewrite E).
  split; [done|]. split; [done|]. split; [intros trust; unfold balance; by rewrite E2|intros n; unfold balance_at; by rewrite E].
Qed.

Lemma tr_update_order A W s ho ho' sc ord ord' x :
  built W (tr_cg x) → tr_op_ok A W s (TrUpdate ho sc ord) → tr_op_ok A W s (TrUpdate ho' sc ord') →
  agree same_update_error (tr_determine_changeset (ho (cg_graph (tr_cg x))) x sc ord) (tr_determine_changeset (ho' (cg_graph (tr_cg x))) x sc ord').
Proof.
  intros Hb (Hh & Ho & Hu & _) (Hh' & Ho' & _). unfold tr_determine_changeset.
  pose proof (cg_determine_agree (ho (cg_graph (tr_cg x))) (ho' (cg_graph (tr_cg x))) (tr_cg x) (ks_update sc) ord ord'
    (proj1 (built_ok W _ Hb)) (proj1 (built_ok W _ Hu)) (Hh _) (Hh' _) Ho Ho') as Ha.
  destruct (cg_determine_changeset _ _ _ ord) as [[cs|e]|], (cg_determine_changeset _ _ _ ord') as [[cs'|e']|]; try done.
  cbn in Ha. by subst cs'.
Qed.
Lemma tr_insert_order ho ho' t p x :
  cg_ok (tr_cg x) → hash_order (cg_graph (tr_cg x)) ho → hash_order (cg_graph (tr_cg x)) ho' →
  tr_insert_tx_preview ho x t p = tr_insert_tx_preview ho' x t p.
Proof. intros Hok Hh Hh'. unfold tr_insert_tx_preview. by rewrite (cg_insert_same ho ho'). Qed.
Lemma step_order A W s x op op' : built W (tr_cg x) → tr_op_ok A W s op → tr_op_ok A W s op' → same_call op op' →
  tr_step x op = tr_step x op'.
Proof.
  intros Hb Hop Hop' Hs. destruct op as [o|ho sc ord|ho t p|b|l], op' as [o'|ho' sc' ord'|ho' t' p'|b'|l']; try done; cbn [same_call] in Hs.
  - by subst o'.
  - subst sc'. pose proof (tr_update_order A W s ho ho' sc ord ord' x Hb Hop Hop') as Ha. cbn [tr_step]. unfold tr_apply_update.
    destruct (tr_determine_changeset _ _ _ ord) as [[cs|e]|], (tr_determine_changeset _ _ _ ord') as [[cs'|e']|]; try done.
    cbn in Ha. by subst cs'.
  - destruct Hs as [<- <-]. destruct Hop as (Hh & _), Hop' as (Hh' & _).
    pose proof (tr_insert_order (ho (cg_graph (tr_cg x))) (ho' (cg_graph (tr_cg x))) t p x (proj1 (built_ok W _ Hb)) (Hh _) (Hh' _)) as Ha.
    cbn [tr_step]. unfold tr_insert_tx. by rewrite Ha.
  - by subst b'.
  - by subst l'.
Qed.
Lemma run_order A W s h : ∀ h' x y, good_env A → twins A W s x y → Forall (tr_op_ok A W s) h → Forall (tr_op_ok A W s) h' →
  Forall2 same_call h h' → tr_run x h = tr_run x h'.
Proof.
  induction h as [|op h IH]; intros h' x y HA Ht Hh Hh' HF.
  - by apply Forall2_nil_inv_l in HF as ->.
  - apply Forall2_cons_inv_l in HF as (op' & h1 & Hs & HF & ->). apply Forall_cons in Hh as [Ho Hh], Hh' as [Ho' Hh'].
    destruct (twins_step A W s x y op HA Ht Ho) as (x1 & l1 & y1 & E1 & _ & Ht1 & _).
    pose proof Ht as (_ & _ & _ & _ & Hb & _). cbn [tr_run]. rewrite <- (step_order A W s x op op' Hb Ho Ho' Hs), E1.
    by rewrite (IH h1 x1 y1).
Qed.
Lemma history_order A W s l h h' x0 : good_env A → ki_hist_ok A s → tr_setup s l = Ret x0 →
  Forall (tr_op_ok A W s) h → Forall (tr_op_ok A W s) h' → Forall2 same_call h h' →
  ∃ x l1, tr_run x0 h = Ret (x, l1) ∧ tr_run x0 h' = Ret (x, l1) ∧
    ∀ ho ho', hash_order (cg_graph (tr_cg x)) ho → hash_order (cg_graph (tr_cg x)) ho' →
      full_txouts ho x = full_txouts ho' x ∧ full_utxos ho x = full_utxos ho' x ∧
      (∀ trust, balance ho x trust = balance ho' x trust) ∧ ∀ n, balance_at ho x n = balance_at ho' x n.
Proof.
  intros HA Hs Ex Hh Hh' HF. destruct (setup_twins A W s l l x0 x0 HA Hs Ex Ex) as (Ht & _).
  destruct (twins_run A W s h x0 x0 HA Ht Hh) as (x & l1 & y & E & _ & Ht' & _). exists x, l1. split; [done|].
  rewrite <- (run_order A W s h h' x0 x0 HA Ht Hh Hh' HF). split; [done|]. intros ho ho' Ho Ho'. apply views_order; [|done..].
  destruct Ht' as (_ & _ & _ & _ & Hb & _). by apply (built_ok W).
Qed.
End tracker.
