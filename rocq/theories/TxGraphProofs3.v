(** Proofs about the transaction graph: accumulated additions, read accessors. *)
From Verif Require Export TxGraphProofs2.

Lemma get_tx_apply_log g op i t :
  g_op_ok op → t ∈ ad_tx (g_step g op).2 → txid t = i → get_tx g i = None ∧ get_tx (g_step g op).1 i = Some t.
Proof.
  intros Hop Ht Hi. rewrite step_update in *. pose proof (op_graph_keyed _ Hop) as Hk.
  cbn [snd tg_apply_update] in Ht. apply determine_tx in Ht as (j & Hj & Hn).
  pose proof (Hk _ _ Hj) as Hj'. assert (j = i) as -> by congruence. split; [done|].
  rewrite update_get_tx by done. rewrite Hn. by apply get_tx_Some.
Qed.
Lemma append_log acc os g0 :
  Forall g_op_ok os →
  ad_inj (ad_tx acc) →
  (∀ t, t ∈ ad_tx acc → get_tx (apply_additions g0 acc) (txid t) = Some t) →
  apply_additions g0 (foldl ad_append acc (g_log (apply_additions g0 acc) os)) =
  foldl (λ g o, (g_step g o).1) (apply_additions g0 acc) os.
Proof.
  revert acc. induction os as [|op os IH]; intros acc Hok Hinj Hin; [done|].
  apply Forall_cons in Hok as [Hop Hok]. cbn [g_log foldl].
  set (g := apply_additions g0 acc) in *.
  assert ((g_step g op).1 = apply_additions g (g_step g op).2) as Hstep.
  { rewrite step_update. done. }
  assert (ad_inj (ad_tx acc ∪ ad_tx (g_step g op).2)) as Hinj'.
  { intros t t' Ht Ht' E. apply elem_of_union in Ht, Ht'.
    destruct Ht as [Ht|Ht], Ht' as [Ht'|Ht'].
    - by apply Hinj.
    - destruct (get_tx_apply_log g op _ t' Hop Ht' eq_refl) as [Hn _].
      rewrite <- E, (Hin _ Ht) in Hn. done.
    - destruct (get_tx_apply_log g op _ t Hop Ht eq_refl) as [Hn _].
      rewrite E, (Hin _ Ht') in Hn. done.
    - destruct (get_tx_apply_log g op _ t Hop Ht eq_refl) as [_ H1].
      destruct (get_tx_apply_log g op _ t' Hop Ht' eq_refl) as [_ H2]. congruence. }
  assert (apply_additions g0 (ad_append acc (g_step g op).2) = (g_step g op).1) as Hg.
  { rewrite ad_append_apply by done. done. }
  rewrite <- Hg. apply IH; [done..|].
  intros t Ht. rewrite Hg. cbn [ad_tx ad_append] in Ht. apply elem_of_union in Ht as [Ht|Ht].
  - apply step_get_tx; [done|]. by apply Hin.
  - by apply (get_tx_apply_log g op _ t Hop Ht eq_refl).
Qed.
Lemma append_log_run os :
  Forall g_op_ok os →
  apply_additions tg_default (foldl ad_append ad_default (g_log tg_default os)) = g_run os.
Proof.
  intros Hok.
  assert (apply_additions tg_default ad_default = tg_default) as E by (vm_compute; done).
  pose proof (append_log ad_default os tg_default Hok) as Hx. rewrite E in Hx. apply Hx; intros ?; set_solver.
Qed.

Lemma all_txouts_exact g o x : (o, x) ∈ all_txouts g ↔ get_txout g o = Some x.
Proof.
  unfold all_txouts, get_txout. rewrite elem_of_list_bind. split.
  - intros ([i n] & Hin & Hm). apply elem_of_map_to_list in Hm. simpl in Hin.
    destruct n as [t|m]; simpl in Hin; apply elem_of_list_fmap in Hin as ([v y] & [= -> ->] & Hin); simpl; rewrite Hm.
    + by apply elem_of_enum_outs.
    + by apply elem_of_bmap_list in Hin.
  - intros Hg. destruct o as [i v]. simpl in *. destruct (tg_txs g !! i) as [n|] eqn:E; [|done].
    exists (i, n). split; [|by apply elem_of_map_to_list]. destruct n as [t|m]; simpl; apply elem_of_list_fmap; exists (v, x); (split; [done|]).
    + by apply elem_of_enum_outs.
    + by apply elem_of_bmap_list.
Qed.
Lemma enum_outs_nodup l : NoDup (enum_outs l).*1.
Proof.
  unfold enum_outs. apply NoDup_fmap_fst.
  - intros x y1 y2 H1 H2. apply elem_of_enum_outs in H1, H2. congruence.
  - apply NoDup_alt. intros a b x Ha Hb. rewrite list_lookup_imap in Ha, Hb.
    destruct (l !! a), (l !! b); simplify_eq/=; lia.
Qed.
Lemma txouts_exact g i v :
  (txouts g i = None ↔ tg_txs g !! i = None) ∧ (txouts g i ≫= (.!! v)) = get_txout g (mkOutPoint i v).
Proof.
  unfold txouts, get_txout. simpl. destruct (tg_txs g !! i) as [[t|m]|] eqn:E; split; try done.
  simpl. apply option_eq. intros x. rewrite <- elem_of_enum_outs.
  rewrite elem_of_list_to_map by apply enum_outs_nodup. done.
Qed.
Lemma tx_outspends_exact g i v s :
  graph_ok g →
  (∃ X, (v, X) ∈ tx_outspends g i ∧ s ∈ X) ↔
  mkOutPoint i v ≠ null_outpoint ∧ ∃ t, get_tx g s = Some t ∧ mkOutPoint i v ∈ tx_in t.
Proof.
  intros [_ Hs]. rewrite <- (Hs (mkOutPoint i v) s). unfold tx_outspends, outspends. split.
  - intros (X & Hin & Hx). apply elem_of_list_fmap in Hin as ([[i' v'] Y] & [= -> ->] & Hin).
    apply elem_of_list_filter in Hin as [Hi Hin]. simpl in *. subst.
    apply elem_of_bmap_list in Hin. by rewrite Hin.
  - intros Hin. destruct (tg_spends g !! mkOutPoint i v) as [X|] eqn:E; [|simpl in Hin; set_solver].
    exists X. split; [|done]. apply elem_of_list_fmap. exists (mkOutPoint i v, X). split; [done|].
    apply elem_of_list_filter. split; [done|]. by apply elem_of_bmap_list.
Qed.
Lemma tg_new_run l : tg_new l = g_run (GTx <$> l).
Proof.
  unfold tg_new, g_run. generalize tg_default. induction l as [|t l IH]; intros g; [done|]. cbn [fmap list_fmap foldl]. apply IH.
Qed.
Lemma elem_of_partial g i m :
  (i, m) ∈ partial_transactions g ↔ tg_txs g !! i = Some (Partial m).
Proof.
  unfold partial_transactions. rewrite elem_of_list_omap. split.
  - intros ([j n] & Hin & E). apply elem_of_map_to_list in Hin. destruct n; simplify_eq/=. done.
  - intros E. exists (i, Partial m). split; [by apply elem_of_map_to_list|done].
Qed.
