(** Proofs about the tracker: outputs, balance, staging. *)
From Verif Require Export TrackerSpec ChainGraphProofs4 KeychainIndexProofs5 SparseChainProofs3 ChainDataProofs.

Section outputs.
Context `{!DescEnv} `{Countable K, !Ord K, !OrdLaws K} `{ChainPositionLaws P}.
Implicit Types (x y : Tracker K P) (f : FullTxOut P) (ki : K * N) (k : K) (trust : K → bool) (ho : OutPoint → list Txid).

Lemma full_txouts_owned ho x ki f :
  cg_ok (tr_cg x) → hash_order (cg_graph (tr_cg x)) ho →
  (ki, f) ∈ full_txouts ho x ↔ owned x ki f.
Proof.
  intros Hok Hho. unfold full_txouts, si_txouts_list. rewrite elem_of_list_omap. split.
  - intros ([[ki' o] u] & Hin & E). apply elem_of_list_fmap in Hin as ([o' [ki2 u']] & E' & Hin). cbn in E'. simplify_eq.
    apply elem_of_bmap_list in Hin. cbn [fst snd] in E. destruct (cg_full_txout ho (tr_cg x) o') as [f'|] eqn:Ef; [|done].
    cbn in E. simplify_eq. apply (full_txout_exact ho) in Ef as (t & E1 & E2 & E3 & E4 & E5 & E6); [|done..]. subst o'. split.
    { exists u'. exact Hin. }
    exists t. split_and!; try done. destruct (fto_spent_by f) as [[p s]|] eqn:Es.
    + symmetry in E5. apply (spent_by_exact ho) in E5 as (? & ? & t' & ? & ?); [|done..]. eauto.
    + intros s t' [p Hp] Ht' Hi. destruct (decide (fto_outpoint f = null_outpoint)) as [|Hn]; [done|].
      assert (cg_spent_by ho (tr_cg x) (fto_outpoint f) = Some (p, s)) as Hx; [|congruence].
      apply spent_by_exact; eauto 10.
  - intros [[u Hu] (t & E1 & E2 & E3 & E4 & E5)]. exists (ki, fto_outpoint f, u). split.
    + apply elem_of_list_fmap. exists (fto_outpoint f, (ki, u)). split; [done|]. by apply elem_of_bmap_list.
    + cbn [fst snd]. assert (cg_full_txout ho (tr_cg x) (fto_outpoint f) = Some f) as ->; [|done].
      apply full_txout_exact; [done..|]. exists t. split_and!; try done.
      destruct (fto_spent_by f) as [[p s]|] eqn:Es.
      * symmetry. apply spent_by_exact; [done..|]. destruct E5 as (? & t' & ? & ? & ?). eauto 10.
      * destruct (cg_spent_by ho (tr_cg x) (fto_outpoint f)) as [[p s]|] eqn:Ec; [|done].
        apply (spent_by_exact ho) in Ec as (Hp & Hn & t' & Ht' & Hi); [|done..]. destruct Hn. apply (E5 s t'); [by exists p|done|done].
Qed.
Lemma full_outpoint ho x o f : cg_full_txout ho (tr_cg x) o = Some f → fto_outpoint f = o.
Proof.
  unfold cg_full_txout, sc_full_txout. destruct (tx_position _ _); [|done]. destruct (get_tx _ _); [|done].
  destruct (tx_out _ !! _); [|done]. by intros [= <-].
Qed.
Lemma full_txouts_outpoints ho x (l : list (OutPoint * (K * N * TxOut))) :
  NoDup l.*1 →
  NoDup ((λ kf, fto_outpoint kf.2) <$>
    omap (λ e, (λ f, (e.1.1, f)) <$> cg_full_txout ho (tr_cg x) e.1.2)
      ((λ kv, (kv.2.1, kv.1, kv.2.2)) <$> l)) ∧
  ∀ o, o ∈ ((λ kf, fto_outpoint kf.2) <$>
    omap (λ e, (λ f, (e.1.1, f)) <$> cg_full_txout ho (tr_cg x) e.1.2)
      ((λ kv, (kv.2.1, kv.1, kv.2.2)) <$> l)) → o ∈ l.*1.
Proof.
  induction l as [|[o [ki u]] l IH]; intros Hn.
  - split; [constructor|]. by intros o ?%elem_of_nil.
  - rewrite fmap_cons in Hn. apply NoDup_cons in Hn as [Hno Hn]. destruct (IH Hn) as [I1 I2].
    rewrite fmap_cons. cbn [fst snd omap list_omap]. 
    destruct (cg_full_txout ho (tr_cg x) o) as [f|] eqn:Ef; cbn [option_fmap option_map fmap].
    + rewrite fmap_cons. cbn [snd]. rewrite (full_outpoint _ _ _ _ Ef). split.
      * constructor; [|done]. intros Hin. by apply I2 in Hin.
      * intros o' Hin. apply elem_of_cons in Hin as [->|Hin]; [by left|]. right. by apply I2.
    + split; [done|]. intros o' Hin. right. by apply I2.
Qed.
Lemma full_txouts_nodup ho x : NoDup ((λ kf, fto_outpoint kf.2) <$> full_txouts ho x).
Proof. apply full_txouts_outpoints. apply NoDup_fst_bmap_list. Qed.

(** ** Balance *)
Lemma sumN_perm (l l' : list N) : l ≡ₚ l' → sumN l = sumN l'.
Proof. induction 1; unfold sumN in *; cbn in *; lia. Qed.
Lemma add_u64_ok a b : a + b ≤ u64_max → add_u64 a b = Ret (a + b).
Proof. intros. unfold add_u64. by rewrite bool_decide_true. Qed.

Definition addto (b : Balance) (c : category) (v : N) : Balance :=
  match c with
  | Immature => mkBalance (bal_immature b + v) (bal_trusted b) (bal_untrusted b) (bal_confirmed b)
  | TrustedPending => mkBalance (bal_immature b) (bal_trusted b + v) (bal_untrusted b) (bal_confirmed b)
  | UntrustedPending => mkBalance (bal_immature b) (bal_trusted b) (bal_untrusted b + v) (bal_confirmed b)
  | ConfirmedFunds => mkBalance (bal_immature b) (bal_trusted b) (bal_untrusted b) (bal_confirmed b + v)
  end.
Definition bsum (b : Balance) : N := bal_immature b + bal_trusted b + bal_untrusted b + bal_confirmed b.
(** The tip the code sees for outputs that need one. *)
Definition tip_good (tipo : option N) (tip : N) (kf : K * N * FullTxOut P) : Prop :=
  ∀ c, pos_height (fto_pos kf.2) = Confirmed c → fto_on_coinbase kf.2 = true → tipo = Some tip ∧ tip - c < u32_max.
Lemma balance_step_ok tipo tip trust b kf :
  tip_good tipo tip kf → bsum b + value_of kf ≤ u64_max →
  balance_step tipo trust b kf = Ret (addto b (categorize trust tip kf) (value_of kf)).
Proof.
  intros Ht Hs. unfold balance_step, categorize, value_of in *. unfold bsum in Hs.
  destruct (pos_height (fto_pos kf.2)) as [c|] eqn:Ep.
  - destruct (fto_on_coinbase kf.2) eqn:Ec; cbn [andb].
    + destruct (Ht c Ep Ec) as [-> Hlt]. rewrite (is_mature_coinbase kf.2 c tip Ec Ep Hlt). cbn [mbind outcome_bind].
      destruct (bool_decide (tip < c + 99)) eqn:E1; destruct (bool_decide (c + 99 ≤ tip)) eqn:E2;
        rewrite ?bool_decide_eq_true, ?bool_decide_eq_false in *; try lia; rewrite add_u64_ok by lia; done.
    + rewrite add_u64_ok by lia. done.
  - destruct (trust kf.1.1); rewrite add_u64_ok by lia; done.
Qed.
Lemma amount_addto b c c' v : amount (addto b c v) c' = amount b c' + if decide (c = c') then v else 0.
Proof. destruct c, c'; cbn [addto amount bal_immature bal_trusted bal_untrusted bal_confirmed]; case_decide; try done; lia. Qed.
Lemma bsum_addto b c v : bsum (addto b c v) = bsum b + v.
Proof. unfold bsum. destruct c; cbn [addto bal_immature bal_trusted bal_untrusted bal_confirmed]; lia. Qed.
Lemma balance_fold tipo tip trust l : ∀ b,
  (∀ kf, kf ∈ l → tip_good tipo tip kf) → bsum b + sumN (value_of <$> l) ≤ u64_max →
  ∃ b', foldl (λ r kf, b ← r; balance_step tipo trust b kf) (Ret b) l = Ret b' ∧
    bsum b' = bsum b + sumN (value_of <$> l) ∧
    ∀ c, amount b' c = amount b c + sumN (value_of <$> filter (λ kf, categorize trust tip kf = c) l).
Proof.
  induction l as [|kf l IH]; intros b Ht Hs.
  - exists b. split; [done|]. unfold sumN. cbn. split; [lia|]. intros c. lia.
  - rewrite fmap_cons in Hs. unfold sumN in Hs. cbn [foldr] in Hs. fold (sumN (value_of <$> l)) in Hs.
    cbn [foldl mbind outcome_bind]. rewrite (balance_step_ok tipo tip) by (try (apply Ht; left); lia).
    destruct (IH (addto b (categorize trust tip kf) (value_of kf))) as (b' & E & E1 & E2).
    { intros. apply Ht. by right. } { rewrite bsum_addto. lia. }
    exists b'. split; [exact E|]. rewrite E1, bsum_addto, fmap_cons. unfold sumN at 2. cbn [foldr]. fold (sumN (value_of <$> l)). split; [lia|].
    intros c. rewrite E2, amount_addto, filter_cons. case_decide; [|lia]. rewrite fmap_cons. unfold sumN at 2. cbn [foldr].
    fold (sumN (value_of <$> filter (λ kf0, categorize trust tip kf0 = c) l)). lia.
Qed.

Lemma latest_tip x tip : is_tip (cg_chain (tr_cg x)) tip → bi_height <$> latest_checkpoint (cg_chain (tr_cg x)) = Some tip.
Proof.
  intros [[v Hv] Hmax]. unfold latest_checkpoint.
  pose proof (last_filter_keys (sc_cps (cg_chain (tr_cg x))) (λ _, True)) as Hl.
  rewrite filter_all in Hl by done. destruct (last (bmap_list _)) as [[k w]|].
  - cbn. f_equal. destruct Hl as (Hk & _ & Hle). apply N.le_antisymm; [apply Hmax; eauto|].
    apply N_ord_le. by apply (Hle tip v).
  - by destruct (Hl tip v Hv).
Qed.
Lemma owned_unspent_perm ho x l :
  cg_ok (tr_cg x) → hash_order (cg_graph (tr_cg x)) ho → NoDup l →
  (∀ ki f, (ki, f) ∈ l ↔ owned x ki f ∧ fto_spent_by f = None) → full_utxos ho x ≡ₚ l.
Proof.
  intros Hok Hho Hn Hl. apply NoDup_Permutation; [|done|].
  - unfold full_utxos. apply NoDup_filter. eapply NoDup_fmap_1, full_txouts_nodup.
  - intros [ki f]. unfold full_utxos. rewrite elem_of_list_filter, Hl, full_txouts_owned by done. cbn. naive_solver.
Qed.
Lemma balance_ok ho x trust tip l :
  cg_ok (tr_cg x) → hash_order (cg_graph (tr_cg x)) ho → confirmed_below_tip (cg_chain (tr_cg x)) →
  tip_is x tip → tip < u32_max → NoDup l →
  (∀ ki f, (ki, f) ∈ l ↔ owned x ki f ∧ fto_spent_by f = None) → sumN (value_of <$> l) ≤ u64_max →
  ∃ b, balance ho x trust = Ret b ∧
    (∀ c, amount b c = sumN (value_of <$> filter (λ kf, categorize trust tip kf = c) l)) ∧
    bal_total b = Ret (sumN (value_of <$> l)) ∧
    trusted_spendable b = Ret (sumN (value_of <$> filter (λ kf, categorize trust tip kf = ConfirmedFunds ∨ categorize trust tip kf = TrustedPending) l)).
Proof.
  intros Hok Hho Hcbt Htip Hlt Hn Hl Hs. pose proof (owned_unspent_perm ho x l Hok Hho Hn Hl) as Hp.
  assert (∀ Q : K * N * FullTxOut P → Prop, ∀ (D : ∀ kf, Decision (Q kf)),
    sumN (value_of <$> filter Q (full_utxos ho x)) = sumN (value_of <$> filter Q l)) as Hf.
  { intros Q D. apply sumN_perm, fmap_Permutation. by rewrite Hp. }
  pose proof (sumN_perm _ _ (fmap_Permutation value_of _ _ Hp)) as Hsum.
  unfold balance.
  destruct (balance_fold (bi_height <$> latest_checkpoint (cg_chain (tr_cg x))) tip trust (full_utxos ho x) bal_default)
    as (b & E & E1 & E2).
  { intros [ki f] Hin c Hc Hcb. cbn [snd] in *. rewrite Hp in Hin. apply Hl in Hin as [[_ (t & _ & Hpos & _)] _].
    destruct (Hcbt _ _ c Hpos Hc) as (k & Hk & Hle). destruct Htip as [Ht|[_ Hno]].
    - split; [by apply latest_tip|]. lia.
    - destruct Hk as [? Hk]. by rewrite Hno in Hk. }
  { unfold bsum. cbn. rewrite Hsum. lia. }
  exists b. split; [done|].
  assert (∀ c, amount b c = sumN (value_of <$> filter (λ kf, categorize trust tip kf = c) l)) as Ha.
  { intros c. rewrite E2, Hf. by destruct c. }
  split; [done|]. unfold bsum in E1. cbn in E1. rewrite Hsum in E1. split.
  - unfold bal_total. rewrite add_u64_ok by lia. cbn [mbind outcome_bind]. rewrite add_u64_ok by lia. cbn [mbind outcome_bind].
    rewrite add_u64_ok by lia. f_equal. lia.
  - unfold trusted_spendable. rewrite add_u64_ok by lia. f_equal.
    pose proof (Ha ConfirmedFunds) as A1. pose proof (Ha TrustedPending) as A2. cbn [amount] in A1, A2. rewrite A1, A2.
    clear. induction l as [|kf l IH]; [done|]. rewrite !filter_cons. 
    repeat case_decide; rewrite ?fmap_cons; unfold sumN in *; cbn [foldr]; try lia; naive_solver congruence.
Qed.
Lemma sum_at ho h (l : list (K * N * FullTxOut P)) : ∀ s,
  (∀ kf, kf ∈ l → fto_on_coinbase kf.2 = true → ∃ c, pos_height (fto_pos kf.2) = Confirmed c ∧ h - c < u32_max) →
  s + sumN (value_of <$> filter (λ kf, spendable_by h kf = true) l) ≤ u64_max →
  foldl (λ r kf, s ← r; b ← is_spendable_at kf.2 h;
           if (b : bool) then add_u64 s (txo_value (fto_txout kf.2)) else Ret s) (Ret s) l =
  Ret (s + sumN (value_of <$> filter (λ kf, spendable_by h kf = true) l)) ∧ ho = ho.
Proof.
  induction l as [|kf l IH]; intros s Hc Hs.
  - unfold sumN. cbn. by rewrite N.add_0_r.
  - cbn [foldl mbind outcome_bind].
    destruct (is_spendable_spec kf.2 h) as (b & -> & Hb); [intros; apply Hc; [left|done]|]. cbn [mbind outcome_bind].
    assert (b = spendable_by h kf) as ->.
    { apply eq_true_iff_eq. rewrite Hb. unfold spendable_by. destruct (pos_height (fto_pos kf.2)) as [c|] eqn:Ep.
      - rewrite !andb_true_iff, orb_true_iff, negb_true_iff, !bool_decide_eq_true.
        destruct (fto_spent_by kf.2) as [[p t]|] eqn:Es.
        + destruct (pos_height p) as [sp|] eqn:Eq; [rewrite bool_decide_eq_true|].
          * split.
            -- intros [(c' & [= <-] & Hle & Hm) Hno]. split; [split; [done|]|].
               ++ destruct (fto_on_coinbase kf.2); [right; by apply Hm|by left].
               ++ apply N.nle_gt. intros Hx. apply Hno. eauto 10.
            -- intros [[Hle Hm] Hx]. split; [exists c; split; [done|split; [done|]]; intros; by destruct Hm as [?|?]; [congruence|]|].
               intros (p' & t' & s' & [= <- <-] & Es' & Hle'). assert (s' = sp) as -> by congruence. lia.
          * split.
            -- intros [(c' & [= <-] & Hle & Hm) Hno]. split; [split; [done|]|done].
               destruct (fto_on_coinbase kf.2); [right; by apply Hm|by left].
            -- intros [[Hle Hm] _]. split; [exists c; split; [done|split; [done|]]; intros; by destruct Hm as [?|?]; [congruence|]|].
               intros (p' & t' & s' & [= <- <-] & Es' & Hle'). congruence.
        + split.
            -- intros [(c' & [= <-] & Hle & Hm) Hno]. split; [split; [done|]|done].
               destruct (fto_on_coinbase kf.2); [right; by apply Hm|by left].
            -- intros [[Hle Hm] _]. split; [exists c; split; [done|split; [done|]]; intros; by destruct Hm as [?|?]; [congruence|]|].
               intros (p' & t' & s' & [=] & _).
      - split; [|done]. intros [(c & [=] & _) _]. }
    rewrite filter_cons in *. destruct (spendable_by h kf) eqn:Esp.
    + rewrite decide_True in * by done. rewrite fmap_cons in *. unfold sumN in *. cbn [foldr] in *. fold (value_of kf).
      rewrite add_u64_ok by lia. destruct (IH (s + value_of kf)) as [-> _]; [intros; apply Hc; [by right|done]|lia|].
      split; [|done]. f_equal. lia.
    + rewrite decide_False in * by congruence. apply IH; [|done]. intros; apply Hc; [by right|done].
Qed.
Lemma balance_at_ok ho x h l :
  cg_ok (tr_cg x) → hash_order (cg_graph (tr_cg x)) ho →
  (∀ ki f, owned x ki f → fto_on_coinbase f = true → ∃ c, pos_height (fto_pos f) = Confirmed c) →
  h < u32_max → NoDup l → (∀ ki f, (ki, f) ∈ l ↔ owned x ki f ∧ spendable_by h (ki, f) = true) →
  sumN (value_of <$> l) ≤ u64_max →
  balance_at ho x h = Ret (sumN (value_of <$> l)).
Proof.
  intros Hok Hho Hcb Hh Hn Hl Hs.
  assert (filter (λ kf, spendable_by h kf = true) (full_txouts ho x) ≡ₚ l) as Hp.
  { apply NoDup_Permutation; [|done|].
    - apply NoDup_filter. eapply NoDup_fmap_1, full_txouts_nodup.
    - intros [ki f]. rewrite elem_of_list_filter, Hl, full_txouts_owned by done. naive_solver. }
  pose proof (sumN_perm _ _ (fmap_Permutation value_of _ _ Hp)) as Hsum.
  unfold balance_at. destruct (sum_at ho h (full_txouts ho x) 0) as [-> _].
  - intros [ki f] Hin Hc. apply full_txouts_owned in Hin; [|done..]. destruct (Hcb ki f Hin Hc) as [c Hx]. exists c. split; [done|]. lia.
  - rewrite Hsum. lia.
  - rewrite Hsum. done.
Qed.
End outputs.

Section staging.
Context `{Countable K} `{ChainPosition P} `{!Backend K P B E}.
Implicit Types (cs : KChangeSet K P) (p : Persist K P B) (h : list (pe_op K P)).

Lemma fold_changes_snoc (l : list (KChangeSet K P)) cs : fold_changes (l ++ [cs]) = kcs_append (fold_changes l) cs.
Proof. unfold fold_changes. by rewrite foldl_app. Qed.
Lemma feed_snoc (b : B) l cs : feed b (l ++ [cs]) =
  match backend_append (feed b l).1 cs with
  | (b', Ok _) => (b', (feed b l).2 ++ [cs])
  | (b', Err _) => (b', (feed b l).2)
  end.
Proof. unfold feed. by rewrite foldl_app. Qed.
Lemma pe_run_snoc b h op : pe_run b (h ++ [op]) = pe_step (pe_run b h) op.
Proof. unfold pe_run. by rewrite foldl_app. Qed.
Lemma staged_le h : (length (staged_in h) ≤ length h)%nat.
Proof. induction h as [|[] h IH]; unfold staged_in in *; cbn [omap list_omap length]; lia. Qed.
Lemma staging_ok b h :
  ∃ attempts segs rest,
    pe_backend (pe_run b h) = (feed b attempts).1 ∧ length attempts = commits_in h ∧
    (feed b attempts).2 = fold_changes <$> segs ∧
    staged_in h = concat segs ++ rest ∧ pe_stage (pe_run b h) = fold_changes rest.
Proof.
  induction h as [|op h IH] using rev_ind.
  - exists [], [], []. done.
  - destruct IH as (at_ & segs & rest & I1 & I2 & I3 & I4 & I5). rewrite pe_run_snoc. pose proof (staged_le h).
    unfold commits_in, staged_in in *. rewrite omap_app, !app_length. destruct op as [cs|]; cbn [pe_step omap list_omap length].
    + exists at_, segs, (rest ++ [cs]). split; [done|]. split; [lia|]. split; [done|]. split; [by rewrite I4, <- app_assoc|].
      cbn [pe_stage pe_stage_change]. by rewrite fold_changes_snoc, I5.
    + unfold pe_commit. rewrite I1. rewrite app_nil_r.
      destruct (backend_append (feed b at_).1 (pe_stage (pe_run b h))) as [b' [[]|e]] eqn:Ea.
      * exists (at_ ++ [pe_stage (pe_run b h)]), (segs ++ [rest]), []. rewrite feed_snoc, Ea, app_length. cbn [fst snd length].
        split; [done|]. split; [lia|]. split; [by rewrite I3, fmap_app, I5|]. split; [|done].
        rewrite concat_app. cbn. by rewrite !app_nil_r.
      * exists (at_ ++ [pe_stage (pe_run b h)]), segs, rest. rewrite feed_snoc, Ea, app_length. cbn [fst snd length].
        split; [done|]. split; [lia|]. done.
Qed.

(** Merging is associative with the empty changeset neutral, so what the backend accepted
    merges to everything staged. *)
Lemma kcs_append_assoc (a b c : KChangeSet K P) : kcs_append a (kcs_append b c) = kcs_append (kcs_append a b) c.
Proof.
  unfold kcs_append, cgs_append, cs_append, ad_append. cbn. f_equal; [apply da_append_assoc|]. f_equal; f_equal.
  - by rewrite (assoc_L (∪)).
  - by rewrite (assoc_L (∪)).
  - by rewrite (assoc_L (∪)).
  - by rewrite (assoc_L (∪)).
Qed.
Lemma kcs_append_default_l (a : KChangeSet K P) : kcs_append kcs_default a = a.
Proof.
  destruct a as [m [[c t] [x o]]]. unfold kcs_append, cgs_append, cs_append, ad_append. cbn.
  rewrite da_append_empty_l. f_equal. f_equal; f_equal; rewrite ?(right_id_L ∅ (∪)), ?(left_id_L ∅ (∪)); done.
Qed.
Lemma kcs_append_default_r (a : KChangeSet K P) : kcs_append a kcs_default = a.
Proof.
  destruct a as [m [[c t] [x o]]]. unfold kcs_append, cgs_append, cs_append, ad_append. cbn.
  rewrite da_append_empty_r. f_equal. f_equal; f_equal; rewrite ?(right_id_L ∅ (∪)), ?(left_id_L ∅ (∪)); done.
Qed.
Lemma fold_changes_app (l1 l2 : list (KChangeSet K P)) : fold_changes (l1 ++ l2) = kcs_append (fold_changes l1) (fold_changes l2).
Proof.
  induction l2 as [|cs l2 IH] using rev_ind.
  - rewrite app_nil_r. unfold fold_changes at 3. cbn. by rewrite kcs_append_default_r.
  - by rewrite app_assoc, !fold_changes_snoc, IH, kcs_append_assoc.
Qed.
Lemma fold_changes_concat (segs : list (list (KChangeSet K P))) : fold_changes (fold_changes <$> segs) = fold_changes (concat segs).
Proof.
  induction segs as [|s segs IH] using rev_ind; [done|].
  rewrite fmap_app, concat_app, !fold_changes_app, IH. cbn [concat]. rewrite app_nil_r. f_equal.
  rewrite list_fmap_singleton. unfold fold_changes at 1. cbn [foldl]. apply kcs_append_default_l.
Qed.
Lemma staging_total b h :
  ∃ attempts, pe_backend (pe_run b h) = (feed b attempts).1 ∧
    fold_changes (staged_in h) = kcs_append (fold_changes (feed b attempts).2) (pe_stage (pe_run b h)).
Proof.
  destruct (staging_ok b h) as (at_ & segs & rest & I1 & _ & I3 & I4 & I5). exists at_. split; [done|].
  by rewrite I3, I4, fold_changes_concat, fold_changes_app, I5.
Qed.
Lemma commit_ok (p : Persist K P B) :
  let r := backend_append (pe_backend p) (pe_stage p) in
  pe_commit p = (mkPersist r.1 (match r.2 with Ok _ => kcs_default | Err _ => pe_stage p end),
                 match r.2 with Ok _ => Ok tt | Err e => Err e end).
Proof. cbn. unfold pe_commit. by destruct (backend_append _ _) as [b [|]]. Qed.
End staging.
