(** SparseChain: proofs. *)
From Verif Require Export SparseChainSpec ChainDataProofs MapProofs.

Section proofs.
Context `{ChainPositionLaws P}.
Implicit Types (c u : SparseChain P) (cs : ChangeSet P) (p q : P) (t : Txid) (h : N).

(** ** Basic consequences of the views agreeing *)

Lemma views_agree_default : views_agree (sc_default (P:=P)).
Proof. intros p t. unfold sc_default; simpl. rewrite lookup_empty. set_solver. Qed.

(** The ordered view is determined by the by-txid view. *)
Lemma views_agree_ext c1 c2 :
  views_agree c1 → views_agree c2 →
  sc_cps c1 = sc_cps c2 → sc_pos c1 = sc_pos c2 → sc_limit c1 = sc_limit c2 → c1 = c2.
Proof.
  destruct c1 as [k1 o1 p1 l1], c2 as [k2 o2 p2 l2]. unfold views_agree; simpl.
  intros Hv1 Hv2 -> -> ->. f_equal. apply set_eq. intros [p t]. by rewrite Hv1, Hv2.
Qed.

Lemma txids_elem c p t : views_agree c → (p, t) ∈ txids c ↔ sc_pos c !! t = Some p.
Proof. intros Hv. unfold txids. rewrite elem_of_bset_list. apply Hv. Qed.
Lemma txids_sorted c : StronglySorted ord_lt (txids c).
Proof. apply StronglySorted_le_lt; [apply bset_list_sorted|apply NoDup_bset_list]. Qed.
Lemma txids_NoDup_snd c : views_agree c → NoDup (txids c).*2.
Proof.
  intros Hv. apply NoDup_fmap_2_strong; [|apply NoDup_bset_list].
  intros [p1 t1] [p2 t2] Ha Hb Ht. simpl in Ht. subst t2.
  apply txids_elem in Ha, Hb; [|done..]. congruence.
Qed.

(** ** Pruning *)

Lemma desc_keys (m : gmap N BlockHash) :
  StronglySorted (λ x y, y < x) (reverse (bmap_list m).*1).
Proof.
  pose proof (bmap_list_sorted m) as HS.
  induction HS as [|a l HS IH Hall]; [constructor|].
  rewrite reverse_cons. revert IH Hall. rewrite Forall_forall. intros IH Hall.
  assert (Hall': ∀ x, x ∈ reverse l → a < x).
  { intros x Hx. rewrite elem_of_reverse in Hx. apply Hall in Hx. by apply N_ord_lt. }
  clear Hall HS. induction IH as [|b r HS' IH' Hall2]; simpl.
  - repeat constructor.
  - constructor.
    + apply IH'. intros x Hx. apply Hall'. by right.
    + rewrite Forall_forall in Hall2 |- *. intros x Hx.
      apply elem_of_app in Hx as [Hx|Hx]; [by apply Hall2|].
      apply elem_of_list_singleton in Hx as ->. apply Hall'. by left.
Qed.

Lemma cps_above_rank c (i : nat) h :
  reverse (bmap_list (sc_cps c)).*1 !! i = Some h → cps_above c h = i.
Proof.
  intros Hi. rewrite <- (desc_rank _ _ _ (desc_keys _) Hi).
  unfold cps_above. rewrite map_size_filter_list.
  set (d := reverse (bmap_list (sc_cps c)).*1).
  assert (Hp: d ≡ₚ (map_to_list (sc_cps c)).*1).
  { unfold d. by rewrite reverse_Permutation, bmap_list_perm. }
  rewrite Hp. clear. induction (map_to_list (sc_cps c)) as [|[k v] l IH]; [done|].
  rewrite fmap_cons, !filter_cons. simpl. repeat case_decide; simpl; lia.
Qed.

Lemma is_Some_key (m : gmap N BlockHash) h : is_Some (m !! h) ↔ h ∈ (bmap_list m).*1.
Proof.
  split.
  - intros [x Hx]. apply elem_of_bmap_list in Hx. by apply (elem_of_list_fmap_1 fst) in Hx.
  - intros ([h' x] & -> & Hx)%elem_of_list_fmap. apply elem_of_bmap_list in Hx. eauto.
Qed.

(** What pruning keeps: a checkpoint with fewer than [limit] checkpoints above. *)
Lemma prune_cps c h :
  sc_cps (prune_checkpoints c) !! h =
    match sc_limit c with
    | Some n => if bool_decide (cps_above c h < n)%nat then sc_cps c !! h else None
    | None => sc_cps c !! h
    end.
Proof.
  unfold prune_checkpoints. destruct (sc_limit c) as [n|] eqn:El; [|done].
  destruct (sc_cps c !! h) as [x|] eqn:Ex.
  2: { destruct (reverse _ !! n) as [k|]; simpl; [|by case_bool_decide].
       assert (filter (λ kv : N * N, k + 1 ≤ kv.1) (sc_cps c) !! h = None) as ->; [|by case_bool_decide].
       apply map_filter_lookup_None. by left. }
  assert (Hin: h ∈ reverse (bmap_list (sc_cps c)).*1).
  { rewrite elem_of_reverse. apply is_Some_key. eauto. }
  apply elem_of_list_lookup in Hin as [i Hi].
  pose proof (cps_above_rank _ _ _ Hi) as Hr. rewrite Hr.
  destruct (reverse _ !! n) as [k|] eqn:Ek; simpl.
  - pose proof (cps_above_rank _ _ _ Ek) as Hrk.
    assert (Hiff: k < h ↔ (i < n)%nat).
    { assert (Hmono: ∀ (i j : nat) x y, reverse (bmap_list (sc_cps c)).*1 !! i = Some x →
         reverse (bmap_list (sc_cps c)).*1 !! j = Some y → (i < j)%nat → y < x).
      { clear. generalize (desc_keys (sc_cps c)). generalize (reverse (bmap_list (sc_cps c)).*1).
        intros l HS i j x y. revert i j. induction HS as [|a l HS IH Hall]; intros i j Hi Hj Hlt; [done|].
        rewrite Forall_forall in Hall. destruct j as [|j]; [lia|]. destruct i as [|i]; simpl in *.
        - injection Hi as ->. apply Hall. by eapply elem_of_list_lookup_2.
        - eapply IH; eauto with lia. }
      split; intros Hlt.
      - destruct (decide (i < n)%nat) as [|Hn]; [done|].
        destruct (decide (i = n)) as [-> |].
        + rewrite Hi in Ek. injection Ek as ->. lia.
        + assert (h < k) by (eapply (Hmono n i); eauto with lia). lia.
      - by eapply (Hmono i n). }
    case_bool_decide as Hb.
    + apply map_filter_lookup_Some. split; [done|]. simpl. rewrite <- Hiff in Hb. lia.
    + apply map_filter_lookup_None. right. intros y _. simpl. rewrite <- Hiff in Hb. lia.
  - rewrite bool_decide_true; [done|]. apply lookup_ge_None_1 in Ek. apply lookup_lt_Some in Hi. lia.
Qed.
Lemma prune_pos c : sc_pos (prune_checkpoints c) = sc_pos c.
Proof. unfold prune_checkpoints. by repeat case_match. Qed.
Lemma prune_ordered c : sc_ordered (prune_checkpoints c) = sc_ordered c.
Proof. unfold prune_checkpoints. by repeat case_match. Qed.
Lemma prune_limit c : sc_limit (prune_checkpoints c) = sc_limit c.
Proof. unfold prune_checkpoints. by repeat case_match. Qed.
Lemma prune_none c : sc_limit c = None → prune_checkpoints c = c.
Proof. unfold prune_checkpoints. by intros ->. Qed.
Lemma prune_subset c h x : sc_cps (prune_checkpoints c) !! h = Some x → sc_cps c !! h = Some x.
Proof. rewrite prune_cps. repeat case_match; done. Qed.

Lemma prune_size c n : sc_limit c = Some n → (size (sc_cps (prune_checkpoints c)) ≤ n)%nat.
Proof.
  intros El. destruct (decide (sc_cps (prune_checkpoints c) = ∅)) as [-> |Hne].
  { rewrite map_size_empty. lia. }
  set (c' := prune_checkpoints c) in *.
  (* the lowest kept checkpoint *)
  destruct (reverse (bmap_list (sc_cps c')).*1 !! (size (sc_cps c') - 1)%nat) as [k|] eqn:Ek.
  2: { apply lookup_ge_None_1 in Ek. rewrite reverse_length, fmap_length in Ek.
       rewrite bmap_list_perm in Ek. apply map_size_non_empty_iff in Hne.
       unfold size, map_size in *. lia. }
  pose proof (cps_above_rank _ _ _ Ek) as Hr.
  assert (Hk: is_Some (sc_cps c' !! k)).
  { apply is_Some_key. rewrite <- elem_of_reverse. by eapply elem_of_list_lookup_2. }
  assert (Heq: cps_above c' k = cps_above c k).
  { unfold cps_above. f_equal. apply map_eq. intros j. apply option_eq. intros x.
    rewrite !map_filter_lookup_Some. simpl. split; intros [Hx Hlt]; split; try done.
    - by apply prune_subset in Hx.
    - unfold c'. rewrite prune_cps, El. rewrite bool_decide_true; [done|].
      destruct Hk as [y Hy]. unfold c' in Hy. rewrite prune_cps, El in Hy.
      case_bool_decide as Hb; [|done]. eapply Nat.le_lt_trans; [|exact Hb].
      unfold cps_above. assert (filter (λ kv : N * N, j < kv.1) (sc_cps c)
        = filter (λ kv : N * N, j < kv.1) (filter (λ kv : N * N, k < kv.1) (sc_cps c))) as ->.
      { apply map_eq. intros i. apply option_eq. intros z. rewrite !map_filter_lookup_Some. simpl.
        intuition lia. }
      apply map_size_filter_le. }
  destruct Hk as [y Hy]. unfold c' in Hy. rewrite prune_cps, El in Hy.
  case_bool_decide as Hb; [|done]. lia.
Qed.

(** ** apply_changeset *)

Lemma foldl_apply_cp (m : gmap N BlockHash) (d : gmap N (option BlockHash)) h :
  foldl apply_cp m (bmap_list d) !! h = match d !! h with Some o => o | None => m !! h end.
Proof.
  rewrite (foldl_keyed_lookup _ (λ _ o, o)).
  - by rewrite list_to_map_bmap_list.
  - intros m' k [v|]; unfold apply_cp; simpl; [apply lookup_insert|apply lookup_delete].
  - intros m' k [v|] k' Hne; unfold apply_cp; simpl; [by rewrite lookup_insert_ne|by rewrite lookup_delete_ne].
  - apply NoDup_fst_bmap_list.
Qed.

Lemma foldl_apply_txid_pos (l : list (Txid * option P)) (ordered : gset (P * Txid)) (pos : gmap Txid P) :
  (foldl apply_txid (ordered, pos) l).2 =
  foldl (λ m kv, match kv.2 with Some p => <[kv.1 := p]> (delete kv.1 m) | None => delete kv.1 m end) pos l.
Proof.
  revert ordered pos. induction l as [|[t [p|]] l IH]; intros ordered pos; simpl; [done|..]; by rewrite IH.
Qed.
Lemma foldl_apply_txid_lookup (ordered : gset (P * Txid)) (pos : gmap Txid P) (d : gmap Txid (option P)) t :
  (foldl apply_txid (ordered, pos) (bmap_list d)).2 !! t =
    match d !! t with Some o => o | None => pos !! t end.
Proof.
  rewrite foldl_apply_txid_pos, (foldl_keyed_lookup _ (λ _ o, o)).
  - by rewrite list_to_map_bmap_list.
  - intros m' k [v|]; simpl; [apply lookup_insert|apply lookup_delete].
  - intros m' k [v|] k' Hne; simpl.
    + by rewrite lookup_insert_ne, lookup_delete_ne.
    + by rewrite lookup_delete_ne.
  - apply NoDup_fst_bmap_list.
Qed.
Definition va (s : gset (P * Txid) * gmap Txid P) : Prop :=
  ∀ p t, (p, t) ∈ s.1 ↔ s.2 !! t = Some p.
Lemma apply_txid_va s kv : va s → va (apply_txid s kv).
Proof.
  destruct s as [ordered pos], kv as [t o]. unfold va, apply_txid; simpl. intros Hv.
  assert (Hdel: ∀ p t', (p, t') ∈ match pos !! t with Some q => ordered ∖ {[(q, t)]} | None => ordered end
             ↔ delete t pos !! t' = Some p).
  { intros p t'. destruct (decide (t' = t)) as [-> |Hne].
    - rewrite lookup_delete. destruct (pos !! t) as [q|] eqn:E.
      + split; [|done]. intros [Hin Hni]%elem_of_difference. apply Hv in Hin. set_solver.
      + rewrite Hv, E. done.
    - rewrite lookup_delete_ne by done. rewrite <- Hv. destruct (pos !! t) as [q|]; [|done].
      rewrite elem_of_difference, elem_of_singleton. naive_solver. }
  destruct o as [p0|]; simpl; [|done].
  intros p t'. rewrite elem_of_union, elem_of_singleton, Hdel.
  destruct (decide (t' = t)) as [-> |Hne].
  - rewrite lookup_insert, lookup_delete. naive_solver.
  - rewrite lookup_insert_ne by done. naive_solver.
Qed.
Lemma foldl_apply_txid_va s l : va s → va (foldl apply_txid s l).
Proof. revert s. induction l as [|kv l IH]; intros s Hs; simpl; [done|]. by apply IH, apply_txid_va. Qed.

Lemma apply_changeset_views c cs : views_agree c → views_agree (apply_changeset c cs).
Proof.
  intros Hv p t. unfold apply_changeset. rewrite prune_ordered, prune_pos. simpl.
  apply foldl_apply_txid_va. intros p' t'. apply Hv.
Qed.
Lemma apply_changeset_pos c cs t :
  sc_pos (apply_changeset c cs) !! t = match cs_txids cs !! t with Some o => o | None => sc_pos c !! t end.
Proof. unfold apply_changeset. rewrite prune_pos. simpl. apply foldl_apply_txid_lookup. Qed.
Lemma apply_changeset_limit c cs : sc_limit (apply_changeset c cs) = sc_limit c.
Proof. unfold apply_changeset. by rewrite prune_limit. Qed.
(** The checkpoints before pruning. *)
Definition raw_cps c cs : gmap N BlockHash := foldl apply_cp (sc_cps c) (bmap_list (cs_cps cs)).
Lemma raw_cps_lookup c cs h :
  raw_cps c cs !! h = match cs_cps cs !! h with Some o => o | None => sc_cps c !! h end.
Proof. apply foldl_apply_cp. Qed.
Lemma apply_changeset_cps_nolimit c cs : sc_limit c = None → sc_cps (apply_changeset c cs) = raw_cps c cs.
Proof. intros Hl. unfold apply_changeset. by rewrite prune_none. Qed.
Lemma apply_changeset_cps c cs h :
  sc_limit c = None →
  sc_cps (apply_changeset c cs) !! h = match cs_cps cs !! h with Some o => o | None => sc_cps c !! h end.
Proof. intros Hl. rewrite apply_changeset_cps_nolimit by done. apply raw_cps_lookup. Qed.
Lemma apply_changeset_cps_sub c cs h x :
  sc_cps (apply_changeset c cs) !! h = Some x → raw_cps c cs !! h = Some x.
Proof. unfold apply_changeset. intros Hx%prune_subset. done. Qed.
Lemma apply_changeset_size c cs n :
  sc_limit c = Some n → (size (sc_cps (apply_changeset c cs)) ≤ n)%nat.
Proof. intros Hl. unfold apply_changeset. by apply prune_size. Qed.

(** ** Ranges *)

Lemma in_range_pair_lo (lo : bound P) p t :
  t ≤ max_txid → above_lo (map_pos_bound lo min_txid max_txid) (p, t) ↔ above_lo lo p.
Proof.
  intros Ht. destruct lo as [q|q|]; simpl; [..|done].
  - rewrite prod_ord_le, (ord_le_lteq q p); simpl. rewrite N_ord_le. unfold min_txid.
    split; [naive_solver|]. intros [?| ->]; [by left|]. right. split; [done|lia].
  - rewrite prod_ord_lt; simpl. rewrite N_ord_lt. split; [|by left]. intros [?|[-> Hlt]]; [done|lia].
Qed.
Lemma in_range_pair_hi (hi : bound P) p t :
  t ≤ max_txid → below_hi (map_pos_bound hi max_txid min_txid) (p, t) ↔ below_hi hi p.
Proof.
  intros Ht. destruct hi as [q|q|]; simpl; [..|done].
  - rewrite prod_ord_le, (ord_le_lteq p q); simpl. rewrite N_ord_le. naive_solver.
  - rewrite prod_ord_lt; simpl. rewrite N_ord_lt. unfold min_txid.
    split; [|by left]. intros [?|[-> Hlt]]; [done|lia].
Qed.
Lemma ord_prod_le_eq (p q : P) (a b : Txid) : a ≤ b → ord_le (p, a) (q, b) ↔ ord_le p q.
Proof. intros. rewrite prod_ord_le, (ord_le_lteq p q); simpl. rewrite N_ord_le. naive_solver. Qed.
Lemma ord_prod_lt_eq (p q : P) (a b : Txid) : b ≤ a → ord_lt (p, a) (q, b) ↔ ord_lt p q.
Proof. intros. rewrite <- !ord_not_le, ord_prod_le_eq by done. done. Qed.
Lemma range_bad_pos (lo hi : bound P) :
  range_bad (map_pos_bound lo min_txid max_txid) (map_pos_bound hi max_txid min_txid) = range_bad lo hi.
Proof.
  destruct lo as [a|a|], hi as [b|b|]; simpl; try done; apply bool_decide_ext.
  - by rewrite ord_prod_lt_eq.
  - by rewrite ord_prod_lt_eq.
  - by rewrite ord_prod_lt_eq.
  - by rewrite ord_prod_le_eq.
Qed.

Lemma list_filter_ext_in {A} (Q1 Q2 : A → Prop) `{∀ x, Decision (Q1 x), ∀ x, Decision (Q2 x)} (l : list A) :
  (∀ x, x ∈ l → Q1 x ↔ Q2 x) → filter Q1 l = filter Q2 l.
Proof.
  induction l as [|a l IH]; intros Heq; [done|].
  rewrite !filter_cons. rewrite IH by (intros x Hx; apply Heq; by right).
  assert (Q1 a ↔ Q2 a) by (apply Heq; left). repeat case_decide; tauto.
Qed.

Lemma ok_elem c p t : chain_ok c → (p, t) ∈ bset_list (sc_ordered c) → t ≤ max_txid ∧ pos_ok p.
Proof. intros [Hv [Hok _]] Hin. apply elem_of_bset_list, Hv in Hin. by apply Hok. Qed.

Lemma range_by_position_spec c (lo hi : bound P) :
  chain_ok c →
  range_txids_by_position c lo hi =
    if range_bad lo hi then Panic
    else Ret (filter (λ pt, above_lo lo pt.1 ∧ below_hi hi pt.1) (txids c)).
Proof.
  intros Hok. unfold range_txids_by_position, bset_range. rewrite range_bad_pos.
  destruct (range_bad lo hi); [done|]. f_equal. apply list_filter_ext_in.
  intros [p t] Hin. destruct (ok_elem _ _ _ Hok Hin) as [Ht _].
  by rewrite in_range_pair_lo, in_range_pair_hi.
Qed.

Lemma range_bad_height (lo hi : bound TxHeight) :
  bound_ok lo → bound_ok hi →
  range_bad (map_height_bound (P:=P) lo (false, min_txid) (true, max_txid))
            (map_height_bound (P:=P) hi (true, max_txid) (false, min_txid)) = range_bad lo hi.
Proof.
  destruct lo as [a|a|], hi as [b|b|]; simpl; try done; intros Ha Hb; apply bool_decide_ext.
  - rewrite ord_prod_lt_eq by done. rewrite pos_lt_min_iff by (by apply pos_max_ok). by rewrite pos_max_height.
  - rewrite ord_prod_lt_eq by done. rewrite pos_lt_min_iff by (by apply pos_min_ok). by rewrite pos_min_height.
  - rewrite ord_prod_lt_eq by done. rewrite pos_max_lt_iff by (by apply pos_max_ok). by rewrite pos_max_height.
  - rewrite ord_prod_le_eq by done. rewrite pos_le_max by (by apply pos_min_ok). by rewrite pos_min_height.
Qed.
Lemma range_by_height_spec c (lo hi : bound TxHeight) :
  chain_ok c → bound_ok lo → bound_ok hi →
  range_txids_by_height c lo hi =
    if range_bad lo hi then Panic
    else Ret (filter (λ pt, above_lo lo (pos_height pt.1) ∧ below_hi hi (pos_height pt.1)) (txids c)).
Proof.
  intros Hok Hlo Hhi. unfold range_txids_by_height, bset_range. rewrite range_bad_height by done.
  destruct (range_bad lo hi); [done|]. f_equal. apply list_filter_ext_in.
  intros [p t] Hin. destruct (ok_elem _ _ _ Hok Hin) as [Ht Hp]. simpl.
  assert (Hl: above_lo (map_height_bound lo (false, min_txid) (true, max_txid)) (p, t)
              ↔ above_lo lo (pos_height p)).
  { destruct lo as [a|a|]; simpl; [..|done].
    - rewrite ord_prod_le_eq by (unfold min_txid; lia). by apply pos_min_le_iff.
    - rewrite ord_prod_lt_eq by done. by apply pos_max_lt_iff. }
  assert (Hh: below_hi (map_height_bound hi (true, max_txid) (false, min_txid)) (p, t)
              ↔ below_hi hi (pos_height p)).
  { destruct hi as [a|a|]; simpl; [..|done].
    - rewrite ord_prod_le_eq by done. by apply pos_le_max.
    - rewrite ord_prod_lt_eq by (unfold min_txid; lia). by apply pos_lt_min_iff. }
  by rewrite Hl, Hh.
Qed.
Lemma range_txids_spec c (lo hi : bound (P * Txid)) :
  range_txids c lo hi =
    if range_bad lo hi then Panic else Ret (filter (λ pt, above_lo lo pt ∧ below_hi hi pt) (txids c)).
Proof. done. Qed.

(** ** invalidate_checkpoints and clear_mempool *)

Lemma in_confirmed_range from (x : TxHeight) :
  (above_lo (Incl (Confirmed from)) x ∧ below_hi (Excl Unconfirmed) x) ↔ ∃ k, x = Confirmed k ∧ from ≤ k.
Proof.
  simpl. destruct x as [k|].
  - rewrite TxHeight_le_confirmed. split; [intros [? _]; eauto|]. intros (? & [= ->] & ?). done.
  - split; [intros [_ Hlt]; by apply TxHeight_not_lt_unconf in Hlt|]. intros (? & [=] & _).
Qed.

Lemma invalidate_preview_spec c from :
  chain_ok c → from ≤ u32_max →
  ∃ cs, invalidate_checkpoints_preview c from = Ret cs ∧
    (∀ h, cs_cps cs !! h = if bool_decide (from ≤ h ∧ is_Some (sc_cps c !! h)) then Some None else None) ∧
    (∀ t, cs_txids cs !! t =
       match sc_pos c !! t with
       | Some p => match pos_height p with
                   | Confirmed k => if bool_decide (from ≤ k) then Some (Some (pos_max_of Unconfirmed)) else None
                   | Unconfirmed => None
                   end
       | None => None
       end).
Proof.
  intros Hok Hfrom. unfold invalidate_checkpoints_preview.
  rewrite range_by_height_spec by done. simpl.
  eexists; split; [done|]. split; simpl.
  - intros h. rewrite lookup_fmap. case_bool_decide as Hb.
    + destruct Hb as [Hle [x Hx]].
      assert (filter (λ kv : N * N, from ≤ kv.1) (sc_cps c) !! h = Some x) as ->; [|done].
      by apply map_filter_lookup_Some.
    + assert (filter (λ kv : N * N, from ≤ kv.1) (sc_cps c) !! h = None) as ->; [|done].
      apply map_filter_lookup_None. destruct (sc_cps c !! h) as [x|] eqn:E; [|by left].
      right. intros y _ Hle. apply Hb. eauto.
  - intros t. set (l := filter _ _).
    destruct (foldl_insert_lookup (λ pt : P * Txid, pt.2) (λ _, Some (pos_max_of (P:=P) Unconfirmed)) l ∅ t)
      as [Hin Hout]; [done|].
    assert (Hl: ∀ p t, (p, t) ∈ l ↔ sc_pos c !! t = Some p ∧ ∃ k, pos_height p = Confirmed k ∧ from ≤ k).
    { intros p t'. unfold l. rewrite elem_of_list_filter, txids_elem by apply Hok.
      rewrite <- in_confirmed_range. simpl. tauto. }
    destruct (sc_pos c !! t) as [p|] eqn:Ep.
    + destruct (pos_height p) as [k|] eqn:Ek.
      * case_bool_decide as Hb.
        -- rewrite (Hin (p, t)); [done| |done]. apply Hl. eauto.
        -- rewrite Hout, lookup_empty; [done|]. intros [q t'] Hq Ht. simpl in Ht. subst t'.
           apply Hl in Hq as [Hq (k' & Hk' & Hle)]. rewrite Ep in Hq. injection Hq as <-.
           rewrite Ek in Hk'. injection Hk' as <-. done.
      * rewrite Hout, lookup_empty; [done|]. intros [q t'] Hq Ht. simpl in Ht. subst t'.
        apply Hl in Hq as [Hq (k' & Hk' & Hle)]. congruence.
    + rewrite Hout, lookup_empty; [done|]. intros [q t'] Hq Ht. simpl in Ht. subst t'.
      apply Hl in Hq as [Hq _]. congruence.
Qed.

Lemma unconf_range (x : TxHeight) : ord_le Unconfirmed x ↔ x = Unconfirmed.
Proof. by destruct x. Qed.
Lemma clear_mempool_preview_spec c :
  chain_ok c →
  ∃ cs, clear_mempool_preview c = Ret cs ∧ cs_cps cs = ∅ ∧
    (∀ t, cs_txids cs !! t =
       match sc_pos c !! t with
       | Some p => if bool_decide (pos_height p = Unconfirmed) then Some None else None
       | None => None
       end).
Proof.
  intros Hok. unfold clear_mempool_preview, bset_range. simpl.
  eexists; split; [done|]. split; simpl; [done|].
  intros t. set (l := filter _ _).
  destruct (foldl_insert_lookup (λ pt : P * Txid, pt.2) (λ _, @None P) l ∅ t) as [Hin Hout]; [done|].
  assert (Hl: ∀ p t, (p, t) ∈ l ↔ sc_pos c !! t = Some p ∧ pos_height p = Unconfirmed).
  { intros p t'. unfold l. rewrite elem_of_list_filter.
    pose proof (txids_elem c p t' (proj1 Hok)) as Htx. unfold txids in Htx. rewrite Htx.
    split.
    - intros [[Hge _] Hp]. split; [done|]. destruct Hok as [_ [Hok _]]. apply Hok in Hp as [Ht Hp].
      rewrite ord_prod_le_eq in Hge by lia. rewrite pos_min_le_iff in Hge by done. by apply unconf_range.
    - intros [Hp Hu]. split; [|done]. split; [|done]. destruct Hok as [_ [Hok _]]. apply Hok in Hp as [Ht Hpo].
      rewrite ord_prod_le_eq by lia. rewrite pos_min_le_iff by done. by rewrite Hu. }
  destruct (sc_pos c !! t) as [p|] eqn:Ep.
  - case_bool_decide as Hb.
    + rewrite (Hin (p, t)); [done| |done]. by apply Hl.
    + rewrite Hout, lookup_empty; [done|]. intros [q t'] Hq Ht. simpl in Ht. subst t'.
      apply Hl in Hq as [Hq ?]. congruence.
  - rewrite Hout, lookup_empty; [done|]. intros [q t'] Hq Ht. simpl in Ht. subst t'.
    apply Hl in Hq as [Hq _]. congruence.
Qed.

(** ** Agreement and invalidation *)

Lemma agreement_Some c u a :
  agreement_point c u = Some a ↔ agree_at c u a ∧ ∀ a', agree_at c u a' → a' ≤ a.
Proof.
  assert (Hfwd: ∀ a, agreement_point c u = Some a → agree_at c u a ∧ ∀ a', agree_at c u a' → a' ≤ a).
  { intros a0. unfold agreement_point. destruct (List.find _ _) as [[k v]|] eqn:E; [|done]. simpl. intros [= ->].
    apply find_rev_sorted in E as (Hu & Hc & Hmax). apply bool_decide_eq_true in Hc. simpl in Hc.
    split; [by exists v|]. intros a' (x & Hcx & Hux). apply N_ord_le. eapply Hmax; [done|].
    by apply bool_decide_eq_true. }
  split; [apply Hfwd|]. intros [Ha Hmax].
  destruct (agreement_point c u) as [b|] eqn:E.
  - destruct (Hfwd b eq_refl) as [Hb Hbmax]. f_equal. apply N.le_antisymm; auto.
  - exfalso. unfold agreement_point in E. apply fmap_None in E. rewrite find_none_elem in E.
    destruct Ha as (x & Hcx & Hux). assert (false = true); [|done].
    rewrite <- (E (a, x)); [by apply bool_decide_eq_true|]. rewrite elem_of_reverse. by apply elem_of_bmap_list.
Qed.
Lemma agreement_None c u : agreement_point c u = None ↔ ∀ a, ¬ agree_at c u a.
Proof.
  split.
  - intros E a (x & Hcx & Hux). unfold agreement_point in E. apply fmap_None in E. rewrite find_none_elem in E.
    assert (false = true); [|done].
    rewrite <- (E (a, x)); [by apply bool_decide_eq_true|]. rewrite elem_of_reverse. by apply elem_of_bmap_list.
  - intros Hn. destruct (agreement_point c u) as [a|] eqn:E; [|done].
    apply agreement_Some in E as [Ha _]. by apply Hn in Ha.
Qed.
Lemma tip_Some c k : tip_height c = Some k ↔ is_tip c k.
Proof.
  unfold tip_height, is_tip. split.
  - intros (kv & E & ->)%fmap_Some. destruct kv as [k' v]. apply bmap_last_spec in E as [Hk Hmax]. simpl.
    split; [eauto|]. intros h Hh. by apply Hmax.
  - intros [[v Hk] Hmax]. apply fmap_Some. exists (k, v). split; [|done].
    apply bmap_last_spec. split; [done|]. intros h Hh. by apply Hmax.
Qed.
Lemma tip_None c : tip_height c = None ↔ sc_cps c = ∅.
Proof. unfold tip_height. by rewrite fmap_None, bmap_last_None. Qed.

Lemma reaches_beyond_iff c u :
  update_reaches_beyond c u ↔ ¬ (tip_height u = None ∨ tip_height u = agreement_point c u).
Proof.
  split.
  - intros (h & [x Hx] & Hab) [Hn|Heq].
    + apply tip_None in Hn. by rewrite Hn, lookup_empty in Hx.
    + destruct (tip_height u) as [k|] eqn:Ek.
      * symmetry in Heq. apply agreement_Some in Heq as [Hag _]. apply Hab in Hag.
        apply tip_Some in Ek as [_ Hmax]. specialize (Hmax h (ex_intro _ x Hx)). lia.
      * apply tip_None in Ek. by rewrite Ek, lookup_empty in Hx.
  - intros Hn. destruct (tip_height u) as [k|] eqn:Ek; [|tauto].
    apply tip_Some in Ek as [Hk Hmax]. exists k. split; [done|].
    intros a Ha. destruct (agreement_point c u) as [b|] eqn:Eb.
    + apply agreement_Some in Eb as [Hb Hbmax]. apply Hbmax in Ha.
      assert (b ≤ k). { apply Hmax. destruct Hb as (y & _ & Hy). eauto. }
      assert (k ≠ b) by (intros ->; tauto). lia.
    + rewrite agreement_None in Eb. by apply Eb in Ha.
Qed.
Lemma invalid_lb_no c u : ¬ update_reaches_beyond c u → invalid_lb c u = u32_max.
Proof.
  intros Hn. unfold invalid_lb. rewrite bool_decide_true; [done|].
  rewrite reaches_beyond_iff in Hn. by apply dec_stable.
Qed.
Lemma invalid_lb_yes c u h :
  update_reaches_beyond c u → invalid_lb c u ≤ h ↔ above_agreement c u h.
Proof.
  intros Hb. unfold invalid_lb. rewrite bool_decide_false by (by apply reaches_beyond_iff).
  destruct (agreement_point c u) as [a|] eqn:E.
  - apply agreement_Some in E as [Ha Hmax]. split.
    + intros Hle a' Ha'%Hmax. lia.
    + intros Hab. apply Hab in Ha. lia.
  - rewrite agreement_None in E. split; [|lia]. intros _ a Ha. by apply E in Ha.
Qed.
Global Instance reaches_beyond_dec c u : Decision (update_reaches_beyond c u).
Proof.
  destruct (decide (tip_height u = None ∨ tip_height u = agreement_point c u)) as [Hd|Hd].
  - right. rewrite reaches_beyond_iff. tauto.
  - left. by apply reaches_beyond_iff.
Defined.

Lemma invalid_from_raw c u f :
  invalid_from c u = Some f ↔
  invalid_lb c u ≤ f ∧ is_Some (sc_cps c !! f) ∧
  ∀ h, is_Some (sc_cps c !! h) → invalid_lb c u ≤ h → f ≤ h.
Proof.
  unfold invalid_from. set (lb := invalid_lb c u).
  assert (Hel: ∀ h, h ∈ (filter (λ kv, lb ≤ kv.1) (bmap_list (sc_cps c))).*1 ↔ lb ≤ h ∧ is_Some (sc_cps c !! h)).
  { intros h. rewrite elem_of_list_fmap. split.
    - intros ([k v] & -> & [Hle Hin]%elem_of_list_filter). apply elem_of_bmap_list in Hin. eauto.
    - intros [Hle [v Hv]]. exists (h, v). split; [done|]. apply elem_of_list_filter. split; [done|].
      by apply elem_of_bmap_list. }
  assert (HS: StronglySorted ord_lt (filter (λ kv, lb ≤ kv.1) (bmap_list (sc_cps c))).*1).
  { pose proof (bmap_list_sorted (sc_cps c)) as HS. clear Hel.
    induction (bmap_list (sc_cps c)) as [|[k v] l IH]; [constructor|].
    simpl in HS. apply StronglySorted_inv in HS as [HS Hall]. rewrite filter_cons. simpl.
    case_decide; [|by apply IH]. simpl. constructor; [by apply IH|].
    rewrite Forall_forall in Hall |- *. intros x (kv & -> & [_ Hin]%elem_of_list_filter)%elem_of_list_fmap.
    apply Hall. by apply elem_of_list_fmap_1. }
  assert (Hhd: ∀ l : list (N * BlockHash), fst <$> head l = head l.*1) by (by intros []).
  rewrite Hhd. clear Hhd. set (l := (filter _ _).*1) in *.
  split.
  - intros Hh. apply head_sorted_min in Hh as [Hin Hmin]; [|done]. apply Hel in Hin as [? ?].
    split; [done|]. split; [done|]. intros h ? ?. apply N_ord_le, Hmin, Hel. done.
  - intros (Hle & Hf & Hmin). destruct (head l) as [g|] eqn:E.
    + apply head_sorted_min in E as [Hin Hgm]; [|done]. apply Hel in Hin as [? ?]. f_equal.
      apply N.le_antisymm; [|by apply Hmin]. apply N_ord_le, Hgm, Hel. done.
    + destruct l as [|g l]; [|done]. destruct (not_elem_of_nil f). by apply Hel.
Qed.

Lemma invalid_from_Some c u f : below_max c → invalid_from c u = Some f ↔ first_invalid c u f.
Proof.
  intros [Hbm _]. rewrite invalid_from_raw. unfold first_invalid.
  destruct (decide (update_reaches_beyond c u)) as [Hb|Hb].
  - rewrite (invalid_lb_yes c u f Hb). split.
    + intros (Hle & Hf & Hmin). split; [done|]. split; [done|]. split; [done|].
      intros h Hh Hah. apply Hmin; [done|]. by apply invalid_lb_yes.
    + intros (_ & Hf & Hle & Hmin). split; [done|]. split; [done|].
      intros h Hh Hah. apply Hmin; [done|]. by apply invalid_lb_yes.
  - rewrite (invalid_lb_no c u Hb). split; [|tauto].
    intros (Hle & Hf & _). apply Hbm in Hf. lia.
Qed.
Lemma settled_iff c u p t :
  below_max c → sc_pos c !! t = Some p →
  settled c u p ↔ ord_lt (pos_height p) (Confirmed (invalid_lb c u)).
Proof.
  intros [_ Hbm] Hp. unfold settled. destruct (pos_height p) as [h|] eqn:Eh.
  - rewrite TxHeight_lt_confirmed. destruct (decide (update_reaches_beyond c u)) as [Hb|Hb].
    + rewrite N.lt_nge, invalid_lb_yes by done. split.
      * intros (h' & [= <-] & Ha) Hab. destruct (Ha Hb) as (a & Hag & Hle). apply Hab in Hag. lia.
      * intros Hn. exists h. split; [done|]. intros _.
        destruct (agreement_point c u) as [a|] eqn:E.
        -- apply agreement_Some in E as [Ha Hmax]. exists a. split; [done|].
           apply N.le_ngt. intros Hlt. apply Hn. intros a' Ha'%Hmax. lia.
        -- rewrite agreement_None in E. destruct Hn. intros a Ha. by apply E in Ha.
    + rewrite (invalid_lb_no c u Hb). split.
      * intros _. by eapply Hbm.
      * intros _. exists h. split; [done|]. tauto.
  - split; [intros (? & [=] & _)|]. intros Hlt. by apply TxHeight_not_lt_unconf in Hlt.
Qed.
Lemma inconsistent_iff c u t p :
  below_max c →
  inconsistent c (invalid_lb c u) (t, p) = true ↔
  ∃ q, sc_pos c !! t = Some q ∧ settled c u q ∧ q ≠ p.
Proof.
  intros Hbm. unfold inconsistent. simpl. destruct (sc_pos c !! t) as [q|] eqn:E.
  - rewrite andb_true_iff, negb_true_iff, bool_decide_eq_true, bool_decide_eq_false.
    rewrite <- settled_iff by done. naive_solver.
  - naive_solver.
Qed.

End proofs.
