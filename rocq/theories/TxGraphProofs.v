(** Proofs about the transaction graph: additions, nodes, spend index. *)
From Verif Require Export TxGraphSpec BaseProofs MapProofs.

Global Instance Tx_ord_laws : OrdLaws Tx.
Proof.
  split; unfold ord_cmp, Tx_ord.
  - intros a b. rewrite Pos.compare_eq_iff. split; [apply (inj encode)|by intros ->].
  - intros a b. apply Pos.compare_antisym.
  - intros a b c. rewrite !Pos.compare_lt_iff. apply Pos.lt_trans.
Qed.

(** ** Enumerating outputs *)
Lemma elem_of_enum_outs l v x : (v, x) ∈ enum_outs l ↔ l !! N.to_nat v = Some x.
Proof.
  unfold enum_outs. rewrite elem_of_lookup_imap. split.
  - intros (k & y & [= -> ->] & Hk). by rewrite Nat2N.id.
  - intros Hk. exists (N.to_nat v), x. by rewrite N2Nat.id.
Qed.

Lemma op_is_null_false o : op_is_null o = false ↔ o ≠ null_outpoint.
Proof. unfold op_is_null. apply bool_decide_eq_false. Qed.

(** ** Slices: the outputs of one txid *)
Definition slice_l (i : Txid) (l : list (OutPoint * TxOut)) : gmap N TxOut :=
  list_to_map ((λ kv, (op_vout kv.1, kv.2)) <$> filter (λ kv, op_txid kv.1 = i) l).
Lemma slice_cons_same o x l : slice_l (op_txid o) ((o, x) :: l) = <[op_vout o := x]> (slice_l (op_txid o) l).
Proof. unfold slice_l. by rewrite filter_cons_True. Qed.
Lemma slice_cons_other i o x l : op_txid o ≠ i → slice_l i ((o, x) :: l) = slice_l i l.
Proof. intros Hne. unfold slice_l. by rewrite filter_cons_False. Qed.
Lemma slice_lookup i l v x :
  NoDup l.*1 → slice_l i l !! v = Some x ↔ (mkOutPoint i v, x) ∈ l.
Proof.
  induction l as [|[o y] l IH]; simpl.
  { intros _. rewrite elem_of_nil. unfold slice_l. simpl. rewrite lookup_empty. done. }
  rewrite NoDup_cons, elem_of_cons. intros [Hni Hnd]. specialize (IH Hnd).
  destruct (decide (op_txid o = i)) as [<- |Hne].
  - rewrite slice_cons_same. destruct (decide (v = op_vout o)) as [-> |Hv].
    + rewrite lookup_insert. destruct o as [oi ov]; simpl in *. split.
      * intros [= ->]. by left.
      * intros [?|Hin]; [by simplify_eq|]. destruct Hni. apply elem_of_list_fmap. by exists (mkOutPoint oi ov, x).
    + rewrite lookup_insert_ne, IH by done. split; [by right|].
      intros [E|?]; [|done]. injection E as E _. destruct o. simpl in *. congruence.
  - rewrite slice_cons_other, IH by done. split; [by right|].
    intros [?|?]; [by simplify_eq|done].
Qed.
Lemma slice_map i (M : gmap OutPoint TxOut) v : slice_l i (bmap_list M) !! v = M !! mkOutPoint i v.
Proof.
  apply option_eq. intros x. rewrite slice_lookup by apply NoDup_fst_bmap_list. apply elem_of_bmap_list.
Qed.

Lemma apply_txout_fold l m i :
  NoDup l.*1 →
  foldl apply_txout m l !! i =
  match m !! i with
  | Some (Whole t) => Some (Whole t)
  | Some (Partial outs) => Some (Partial (slice_l i l ∪ outs))
  | None => if decide (slice_l i l = ∅) then None else Some (Partial (slice_l i l))
  end.
Proof.
  revert m. induction l as [|[o x] l IH]; intros m Hnd.
  { change (slice_l i []) with (∅ : gmap N TxOut). simpl.
    destruct (m !! i) as [[]|]; [done|by rewrite (left_id_L ∅ (∪))|by rewrite decide_True]. }
  simpl in Hnd. apply NoDup_cons in Hnd as [Hni Hnd]. simpl. rewrite IH by done.
  destruct (decide (op_txid o = i)) as [<- |Hne].
  - assert (slice_l (op_txid o) l !! op_vout o = None) as Hnone.
    { apply eq_None_not_Some. intros [y Hy%slice_lookup]; [|done]. destruct o as [oi ov]. simpl in *.
      destruct Hni. apply elem_of_list_fmap. by exists (mkOutPoint oi ov, y). }
    rewrite slice_cons_same. unfold apply_txout. simpl.
    assert (∀ outs, slice_l (op_txid o) l ∪ <[op_vout o:=x]> outs = <[op_vout o:=x]> (slice_l (op_txid o) l) ∪ outs) as Hcomm.
    { intros outs. by rewrite <- insert_union_r, insert_union_l by done. }
    destruct (m !! op_txid o) as [[t|outs]|] eqn:E.
    + by rewrite E.
    + by rewrite lookup_insert, Hcomm.
    + rewrite lookup_insert. rewrite decide_False by apply insert_non_empty.
      do 2 f_equal. rewrite <- insert_empty, Hcomm. by rewrite (right_id_L ∅ (∪)).
  - rewrite slice_cons_other by done. unfold apply_txout. simpl.
    destruct (m !! op_txid o) as [[t|outs]|]; by rewrite ?lookup_insert_ne.
Qed.

(** ** Applying full transactions *)
Lemma apply_tx_txs g l :
  tg_txs (foldl apply_tx g l) = foldl (λ m t, <[txid t := Whole t]> m) (tg_txs g) l.
Proof. revert g. induction l as [|t l IH]; intros g; simpl; [done|]. by rewrite IH. Qed.

(** Transactions of [l] are determined by their txid. *)
Definition txid_inj (l : list Tx) : Prop := ∀ t t', t ∈ l → t' ∈ l → txid t = txid t' → t = t'.
Lemma apply_tx_lookup g l i :
  txid_inj l →
  (∀ t, t ∈ l → txid t = i → tg_txs (foldl apply_tx g l) !! i = Some (Whole t)) ∧
  ((∀ t, t ∈ l → txid t ≠ i) → tg_txs (foldl apply_tx g l) !! i = tg_txs g !! i).
Proof.
  intros Hi. rewrite apply_tx_txs. apply (foldl_insert_lookup txid Whole).
  intros t t' Ht Ht' E. f_equal. by apply Hi.
Qed.

Lemma add_spend_fold i l m o :
  foldl (add_spend i) m l !! o =
  if decide (o ∈ l) then Some ({[ i ]} ∪ default ∅ (m !! o)) else m !! o.
Proof.
  revert m. induction l as [|a l IH]; intros m; [by destruct (decide (o ∈ [])) as [?%elem_of_nil|]|].
  cbn [foldl]. rewrite IH. unfold add_spend.
  destruct (decide (o = a)) as [-> |Hne].
  - rewrite lookup_insert. rewrite (decide_True (P := a ∈ a :: l)) by set_solver. simpl.
    destruct (decide (a ∈ l)); [|done]. f_equal. set_solver.
  - rewrite lookup_insert_ne by done.
    destruct (decide (o ∈ l)); [rewrite decide_True by set_solver|rewrite decide_False by set_solver]; done.
Qed.
Definition real_inputs (t : Tx) : list OutPoint := filter (λ o, op_is_null o = false) (tx_in t).
Lemma elem_of_real_inputs t o : o ∈ real_inputs t ↔ o ≠ null_outpoint ∧ o ∈ tx_in t.
Proof. unfold real_inputs. by rewrite elem_of_list_filter, op_is_null_false. Qed.
Lemma apply_tx_outspends g l o s :
  s ∈ outspends (foldl apply_tx g l) o ↔
  s ∈ outspends g o ∨ ∃ t, t ∈ l ∧ txid t = s ∧ o ∈ real_inputs t.
Proof.
  revert g. induction l as [|t l IH]; intros g; simpl; [set_solver|].
  rewrite IH. unfold outspends at 1. simpl. fold (real_inputs t). rewrite add_spend_fold.
  destruct (decide (o ∈ real_inputs t)) as [Hin|Hni]; simpl.
  - fold (outspends g o). rewrite elem_of_union, elem_of_singleton. set_solver.
  - fold (outspends g o). set_solver.
Qed.
Lemma apply_tx_spends_dom g l o :
  is_Some (tg_spends (foldl apply_tx g l) !! o) ↔
  is_Some (tg_spends g !! o) ∨ ∃ t, t ∈ l ∧ o ∈ real_inputs t.
Proof.
  revert g. induction l as [|t l IH]; intros g; simpl.
  { split; [by left|]. intros [?|(t & Hin & _)]; [done|]. by apply elem_of_nil in Hin. }
  rewrite IH. simpl. fold (real_inputs t). rewrite add_spend_fold. setoid_rewrite elem_of_cons.
  destruct (decide (o ∈ real_inputs t)) as [Hin|Hni]; naive_solver.
Qed.
Lemma spends_ext (m m' : gmap OutPoint (gset Txid)) :
  (∀ o, is_Some (m !! o) ↔ is_Some (m' !! o)) →
  (∀ o s, s ∈ default ∅ (m !! o) ↔ s ∈ default ∅ (m' !! o)) → m = m'.
Proof.
  intros Hd He. apply map_eq. intros o. specialize (Hd o). specialize (He o).
  destruct (m !! o) as [X|], (m' !! o) as [Y|]; simpl in *.
  - f_equal. by apply set_eq.
  - destruct Hd as [[? ?] _]; [eauto|done].
  - destruct Hd as [_ [? ?]]; [eauto|done].
  - done.
Qed.

(** ** apply_additions *)
Lemma txid_inj_perm l l' : l ≡ₚ l' → txid_inj l → txid_inj l'.
Proof. intros Hp Hi t t'. rewrite <- Hp. apply Hi. Qed.
Lemma ad_inj_list X : ad_inj X → txid_inj (bset_list X).
Proof. intros Hi t t'. rewrite !elem_of_bset_list. apply Hi. Qed.

Lemma apply_additions_lookup g a i :
  tg_txs (apply_additions g a) !! i =
  match tg_txs (foldl apply_tx g (bset_list (ad_tx a))) !! i with
  | Some (Whole t) => Some (Whole t)
  | Some (Partial outs) => Some (Partial (slice_l i (bmap_list (ad_txout a)) ∪ outs))
  | None => if decide (slice_l i (bmap_list (ad_txout a)) = ∅) then None
            else Some (Partial (slice_l i (bmap_list (ad_txout a))))
  end.
Proof. unfold apply_additions. simpl. apply apply_txout_fold, NoDup_fst_bmap_list. Qed.
Lemma apply_additions_outspends g a o s :
  s ∈ outspends (apply_additions g a) o ↔
  s ∈ outspends g o ∨ ∃ t, t ∈ ad_tx a ∧ txid t = s ∧ o ∈ real_inputs t.
Proof.
  unfold apply_additions, outspends at 1. simpl. fold (outspends (foldl apply_tx g (bset_list (ad_tx a))) o).
  rewrite apply_tx_outspends. by setoid_rewrite elem_of_bset_list.
Qed.
Lemma apply_additions_spends_dom g a o :
  is_Some (tg_spends (apply_additions g a) !! o) ↔
  is_Some (tg_spends g !! o) ∨ ∃ t, t ∈ ad_tx a ∧ o ∈ real_inputs t.
Proof. unfold apply_additions. simpl. rewrite apply_tx_spends_dom. by setoid_rewrite elem_of_bset_list. Qed.

Lemma graph_eq g g' : tg_txs g = tg_txs g' → tg_spends g = tg_spends g' → g = g'.
Proof. destruct g, g'. simpl. by intros -> ->. Qed.

Lemma txid_cases (l : list Tx) i : (∃ t, t ∈ l ∧ txid t = i) ∨ ¬ (∃ t, t ∈ l ∧ txid t = i).
Proof.
  destruct (decide (Exists (λ t, txid t = i) l)) as [He|Hn].
  - left. by apply Exists_exists in He.
  - right. intros He. apply Hn. by apply Exists_exists.
Qed.

(** C21 *)
Lemma ad_append_apply g a b :
  ad_inj (ad_tx a ∪ ad_tx b) →
  apply_additions g (ad_append a b) = apply_additions (apply_additions g a) b.
Proof.
  intros Hi.
  assert (ad_inj (ad_tx a)) as Ha by (intros ????; apply Hi; set_solver).
  assert (ad_inj (ad_tx b)) as Hb by (intros ????; apply Hi; set_solver).
  apply graph_eq.
  - apply map_eq. intros i. rewrite !apply_additions_lookup. simpl.
    destruct (apply_tx_lookup g (bset_list (ad_tx a ∪ ad_tx b)) i (ad_inj_list _ Hi)) as [U1 U2].
    destruct (apply_tx_lookup g (bset_list (ad_tx a)) i (ad_inj_list _ Ha)) as [A1 A2].
    destruct (apply_tx_lookup (apply_additions g a) (bset_list (ad_tx b)) i (ad_inj_list _ Hb)) as [B1 B2].
    set (s := slice_l i (bmap_list (ad_txout b ∪ ad_txout a))).
    set (sa := slice_l i (bmap_list (ad_txout a))). set (sb := slice_l i (bmap_list (ad_txout b))).
    assert (s = sb ∪ sa) as Hs.
    { apply map_eq. intros v. unfold s, sa, sb. rewrite lookup_union, !slice_map. apply lookup_union. }
    destruct (txid_cases (bset_list (ad_tx b)) i) as [(t & Ht & Et)|Hnb].
    { rewrite (B1 t Ht Et). rewrite (U1 t); [done| |done].
      rewrite elem_of_bset_list in *. set_solver. }
    rewrite B2 by naive_solver. rewrite apply_additions_lookup. fold sa.
    destruct (txid_cases (bset_list (ad_tx a)) i) as [(t & Ht & Et)|Hna].
    { rewrite (A1 t Ht Et). rewrite (U1 t); [done| |done].
      rewrite elem_of_bset_list in *. set_solver. }
    rewrite A2 by naive_solver. rewrite U2.
    2: { intros t. rewrite elem_of_bset_list, elem_of_union. setoid_rewrite elem_of_bset_list in Hnb.
         setoid_rewrite elem_of_bset_list in Hna. naive_solver. }
    rewrite Hs. destruct (tg_txs g !! i) as [[t|outs]|].
    + done.
    + by rewrite (assoc_L (∪)).
    + destruct (decide (sa = ∅)) as [-> |Hsa].
      * by rewrite (right_id_L ∅ (∪)).
      * rewrite decide_False; [done|]. intros E. destruct Hsa. apply map_eq. intros v.
        apply (f_equal (λ m, m !! v)) in E. rewrite lookup_union, lookup_empty in E.
        rewrite lookup_empty. by destruct (sb !! v), (sa !! v).
  - apply spends_ext.
    + intros o. rewrite !apply_additions_spends_dom. simpl. set_solver.
    + intros o s.
      change (s ∈ outspends (apply_additions g (ad_append a b)) o ↔
              s ∈ outspends (apply_additions (apply_additions g a) b) o).
      rewrite !apply_additions_outspends. simpl. set_solver.
Qed.
Lemma ad_append_assoc a b c : ad_append (ad_append a b) c = ad_append a (ad_append b c).
Proof. unfold ad_append. simpl. f_equal; [set_solver|]. by rewrite (assoc_L (∪)). Qed.
Lemma ad_append_default_l a : ad_append ad_default a = a.
Proof. destruct a. unfold ad_append. simpl. f_equal; [set_solver|apply (right_id_L ∅ (∪))]. Qed.
Lemma ad_append_default_r a : ad_append a ad_default = a.
Proof. destruct a. unfold ad_append. simpl. f_equal; [set_solver|apply (left_id_L ∅ (∪))]. Qed.

(** ** determine_additions *)
Lemma new_txouts_lookup g i outs m o :
  new_txouts g i outs m !! o =
  if decide (op_txid o = i)
  then match outs !! op_vout o with
       | Some x => if decide (get_txout g o = Some x) then m !! o else Some x
       | None => m !! o
       end
  else m !! o.
Proof.
  unfold new_txouts.
  assert (∀ (l : list (N * TxOut)) (m : gmap OutPoint TxOut), NoDup l.*1 →
    foldl (λ m kx, if bool_decide (get_txout g (mkOutPoint i kx.1) = Some kx.2) then m
                 else <[mkOutPoint i kx.1 := kx.2]> m) m l !! o =
    if decide (op_txid o = i)
    then match (list_to_map l : gmap N TxOut) !! op_vout o with
         | Some x => if decide (get_txout g o = Some x) then m !! o else Some x
         | None => m !! o
         end
    else m !! o) as Hl.
  { clear. destruct o as [oi ov]. induction l as [|[v x] l IH]; intros m Hnd; simpl in *.
    { by destruct (decide _). }
    apply NoDup_cons in Hnd as [Hni Hnd]. rewrite IH by done.
    destruct (decide (oi = i)) as [-> |Hne].
    - destruct (decide (v = ov)) as [-> |Hv].
      + rewrite lookup_insert. rewrite not_elem_of_list_to_map_1 by done.
        case_bool_decide; [by rewrite decide_True|]. rewrite decide_False by done. by rewrite lookup_insert.
      + rewrite lookup_insert_ne by done.
        assert ((if bool_decide (get_txout g {| op_txid := i; op_vout := v |} = Some x) then m
                 else <[{| op_txid := i; op_vout := v |}:=x]> m) !! {| op_txid := i; op_vout := ov |}
                 = m !! {| op_txid := i; op_vout := ov |}) as ->; [|done].
        case_bool_decide; [done|]. apply lookup_insert_ne. congruence.
    - case_bool_decide; [done|]. apply lookup_insert_ne. congruence. }
  rewrite Hl by apply NoDup_fst_bmap_list. by rewrite list_to_map_bmap_list.
Qed.

Lemma determine_ord_tx g ord t :
  t ∈ ad_tx (determine_additions_ord g ord) ↔ ∃ i, (i, Whole t) ∈ ord ∧ get_tx g i = None.
Proof.
  unfold determine_additions_ord.
  assert (∀ a, t ∈ ad_tx (foldl (add_node g) a ord) ↔
          t ∈ ad_tx a ∨ ∃ i, (i, Whole t) ∈ ord ∧ get_tx g i = None) as Hg.
  { induction ord as [|[i n] ord IH]; intros a; simpl; [set_solver|].
    rewrite IH. unfold add_node. simpl.
    destruct (get_tx g i) as [t'|] eqn:E.
    - split; [set_solver|]. intros [?|(j & Hj & En)]; [by left|].
      apply elem_of_cons in Hj as [[= -> _]|?]; [congruence|]. right. eauto.
    - destruct n as [t'|outs]; simpl.
      + rewrite elem_of_union, elem_of_singleton. split.
        * intros [[-> | ?]|(j & ? & ?)]; [right; exists i; set_solver|by left|right; exists j; set_solver].
        * intros [?|(j & Hj & En)]; [by left; right|].
          apply elem_of_cons in Hj as [[= -> ->]|?]; [by left; left|]. right. eauto.
      + split; [set_solver|]. intros [?|(j & Hj & En)]; [by left|].
        apply elem_of_cons in Hj as [?|?]; [done|]. right. eauto. }
  rewrite Hg. simpl. set_solver.
Qed.
Lemma determine_ord_txout g ord o :
  NoDup ord.*1 →
  ad_txout (determine_additions_ord g ord) !! o =
  match get_tx g (op_txid o), (list_to_map ord : gmap Txid TxNode) !! op_txid o with
  | None, Some (Partial outs) =>
      match outs !! op_vout o with
      | Some x => if decide (get_txout g o = Some x) then None else Some x
      | None => None
      end
  | _, _ => None
  end.
Proof.
  unfold determine_additions_ord.
  assert (∀ a, NoDup ord.*1 → ad_txout (foldl (add_node g) a ord) !! o =
    match get_tx g (op_txid o), (list_to_map ord : gmap Txid TxNode) !! op_txid o with
    | None, Some (Partial outs) =>
      match outs !! op_vout o with
      | Some x => if decide (get_txout g o = Some x) then ad_txout a !! o else Some x
      | None => ad_txout a !! o
      end
    | _, _ => ad_txout a !! o
    end) as Hg.
  { induction ord as [|[i n] ord IH]; intros a Hnd; simpl in *.
    { rewrite lookup_empty. by destruct (get_tx _ _). }
    apply NoDup_cons in Hnd as [Hni Hnd]. rewrite IH by done. clear IH.
    destruct (decide (op_txid o = i)) as [<- |Hne].
    - rewrite lookup_insert. rewrite not_elem_of_list_to_map_1 by done.
      unfold add_node. simpl. destruct (get_tx g (op_txid o)) as [t|]; [done|].
      destruct n as [t|outs]; [done|]. simpl. rewrite new_txouts_lookup, decide_True by done. done.
    - rewrite lookup_insert_ne by done.
      assert (ad_txout (add_node g a (i, n)) !! o = ad_txout a !! o) as Ea.
      { unfold add_node. simpl. destruct (get_tx g i); [done|]. destruct n; [done|]. simpl.
        by rewrite new_txouts_lookup, decide_False. }
      by rewrite Ea. }
  intros Hnd. rewrite Hg by done. simpl. rewrite lookup_empty.
  destruct (get_tx _ _); [done|]. destruct (_ !! op_txid o) as [[]|]; [done| |done].
  destruct (_ !! op_vout o); [|done]. done.
Qed.
Lemma determine_ord_perm g u ord :
  ord ≡ₚ map_to_list (tg_txs u) → determine_additions_ord g ord = determine_additions g u.
Proof.
  intros Hp. unfold determine_additions.
  destruct (determine_additions_ord g ord) as [T O] eqn:E1.
  destruct (determine_additions_ord g (map_to_list (tg_txs u))) as [T' O'] eqn:E2.
  assert (T = T') as ->.
  { apply set_eq. intros t.
    change (t ∈ ad_tx (mkAdditions T O) ↔ t ∈ ad_tx (mkAdditions T' O')).
    rewrite <- E1, <- E2, !determine_ord_tx. by setoid_rewrite Hp. }
  f_equal. apply map_eq. intros o.
  change (ad_txout (mkAdditions T' O) !! o = ad_txout (mkAdditions T' O') !! o).
  assert (ad_txout (determine_additions_ord g ord) !! o =
          ad_txout (determine_additions_ord g (map_to_list (tg_txs u))) !! o) as Ho.
  { rewrite !determine_ord_txout.
    - by rewrite (list_to_map_perm ord (tg_txs u)), list_to_map_to_list.
    - apply NoDup_fst_map_to_list.
    - by apply (NoDup_fst_perm _ (tg_txs u)). }
  rewrite E1, E2 in Ho. done.
Qed.

Lemma determine_tx g u t :
  t ∈ ad_tx (determine_additions g u) ↔ ∃ i, tg_txs u !! i = Some (Whole t) ∧ get_tx g i = None.
Proof. unfold determine_additions. rewrite determine_ord_tx. by setoid_rewrite elem_of_map_to_list. Qed.
Lemma determine_txout g u o :
  ad_txout (determine_additions g u) !! o =
  match get_tx g (op_txid o), tg_txs u !! op_txid o with
  | None, Some (Partial outs) =>
      match outs !! op_vout o with
      | Some x => if decide (get_txout g o = Some x) then None else Some x
      | None => None
      end
  | _, _ => None
  end.
Proof.
  unfold determine_additions. rewrite determine_ord_txout by apply NoDup_fst_map_to_list.
  by rewrite list_to_map_to_list.
Qed.
Lemma determine_inj g u : keyed u → ad_inj (ad_tx (determine_additions g u)).
Proof.
  intros Hk t t'. rewrite !determine_tx. intros (i & Hi & _) (j & Hj & _) E.
  apply Hk in Hi as Ei. apply Hk in Hj as Ej. subst. rewrite E in Hi. congruence.
Qed.

(** ** What an update does *)
Lemma update_lookup g u i :
  keyed u →
  tg_txs (tg_apply_update g u).1 !! i = merge_node (tg_txs g !! i) (tg_txs u !! i).
Proof.
  intros Hk. unfold tg_apply_update. cbn [fst]. rewrite apply_additions_lookup.
  destruct (apply_tx_lookup g (bset_list (ad_tx (determine_additions g u))) i
              (ad_inj_list _ (determine_inj g u Hk))) as [L1 L2].
  setoid_rewrite elem_of_bset_list in L1. setoid_rewrite elem_of_bset_list in L2.
  setoid_rewrite determine_tx in L1. setoid_rewrite determine_tx in L2.
  set (s := slice_l i (bmap_list (ad_txout (determine_additions g u)))).
  assert (∀ v, s !! v = ad_txout (determine_additions g u) !! mkOutPoint i v) as Hs by (intros; apply slice_map).
  setoid_rewrite determine_txout in Hs. simpl in Hs. unfold get_txout in Hs. simpl in Hs.
  destruct (get_tx g i) as [t0|] eqn:Eg.
  - assert (tg_txs g !! i = Some (Whole t0)) as Et.
    { unfold get_tx in Eg. destruct (tg_txs g !! i) as [[]|]; congruence. }
    rewrite L2, Et; [done|]. intros t (j & Hj & En) E. apply Hk in Hj as Ej. subst. congruence.
  - assert (∀ t, tg_txs g !! i ≠ Some (Whole t)) as Hnw.
    { intros t E. unfold get_tx in Eg. by rewrite E in Eg. }
    destruct (tg_txs u !! i) as [[t|outs]|] eqn:Eu.
    + rewrite (L1 t); [|eauto|by apply Hk].
      simpl. destruct (tg_txs g !! i) as [[t'|]|]; [by destruct (Hnw t')|done|done].
    + rewrite L2.
      2: { intros t (j & Hj & _) E. apply Hk in Hj as Ej. subst. congruence. }
      destruct (tg_txs g !! i) as [[t'|pa]|]; [by destruct (Hnw t')| |].
      * simpl. do 2 f_equal. apply map_eq. intros v. rewrite !lookup_union, Hs.
        destruct (outs !! v) as [x|]; [|done]. destruct (decide _) as [E|]; [|done].
        rewrite E. done.
      * assert (s = outs) as ->; [|done].
        apply map_eq. intros v. rewrite Hs. destruct (outs !! v); [|done]. by rewrite decide_False.
    + rewrite L2.
      2: { intros t (j & Hj & _) E. apply Hk in Hj as Ej. subst. congruence. }
      assert (s = ∅) as ->.
      { apply map_eq. intros v. by rewrite Hs, lookup_empty. }
      destruct (tg_txs g !! i) as [[t'|pa]|]; [done| |by rewrite decide_True].
      simpl. by rewrite (left_id_L ∅ (∪)).
Qed.
Lemma update_keyed g u : keyed g → keyed u → keyed (tg_apply_update g u).1.
Proof.
  intros Hg Hu i t. rewrite update_lookup by done. unfold merge_node.
  destruct (tg_txs g !! i) as [[]|] eqn:E, (tg_txs u !! i) as [[]|] eqn:E'; intros E'';
    try (destruct (decide _)); injection E'' as <- || discriminate E''; eauto.
Qed.
Lemma update_outspends g u o s :
  s ∈ outspends (tg_apply_update g u).1 o ↔
  s ∈ outspends g o ∨ ∃ t i, tg_txs u !! i = Some (Whole t) ∧ get_tx g i = None ∧ txid t = s ∧ o ∈ real_inputs t.
Proof.
  unfold tg_apply_update. cbn [fst]. rewrite apply_additions_outspends. setoid_rewrite determine_tx. naive_solver.
Qed.
Lemma get_tx_Some g i t : get_tx g i = Some t ↔ tg_txs g !! i = Some (Whole t).
Proof. unfold get_tx. destruct (tg_txs g !! i) as [[]|]; split; congruence. Qed.
Lemma update_get_tx g u i :
  keyed u →
  get_tx (tg_apply_update g u).1 i = match get_tx g i with Some t => Some t | None => get_tx u i end.
Proof.
  intros Hk. unfold get_tx. rewrite update_lookup by done. unfold merge_node.
  destruct (tg_txs g !! i) as [[]|] eqn:E, (tg_txs u !! i) as [[]|] eqn:E'; try done.
  by destruct (decide _).
Qed.
Lemma update_ok g u : graph_ok g → keyed u → graph_ok (tg_apply_update g u).1.
Proof.
  intros [Hg Hs] Hu. split; [by apply update_keyed|]. intros o s.
  rewrite update_outspends, (Hs o s). rewrite update_get_tx by done. split.
  - intros [[Hn (t & -> & Hin)]|(t & i & Hi & Hnone & <- & Hin)].
    + split; [done|]. eauto.
    + apply elem_of_real_inputs in Hin as [Hn Hin]. split; [done|].
      apply Hu in Hi as Ei. subst i. rewrite Hnone. exists t. split; [by apply get_tx_Some|done].
  - intros [Hn (t & Et & Hin)]. destruct (get_tx g s) as [t'|] eqn:E.
    + left. split; [done|]. injection Et as <-. eauto.
    + right. apply get_tx_Some in Et. exists t, s. split; [done|]. split; [done|].
      split; [by apply Hu|]. by apply elem_of_real_inputs.
Qed.

(** ** Every operation is an update *)
Definition op_graph (op : g_op) : TxGraph :=
  match op with
  | GTx t => mkGraph {[ txid t := Whole t ]} ∅
  | GTxout o x => mkGraph {[ op_txid o := Partial {[ op_vout o := x ]} ]} ∅
  | GUpdate u => u
  end.
Lemma step_update g op : g_step g op = tg_apply_update g (op_graph op).
Proof. by destruct op. Qed.
Lemma op_graph_keyed op : g_op_ok op → keyed (op_graph op).
Proof.
  destruct op as [t|o x|u]; simpl; intros Hok.
  - intros i t'. simpl. intros [<- [= <-]]%lookup_singleton_Some. done.
  - intros i t'. simpl. intros [_ ?]%lookup_singleton_Some. done.
  - done.
Qed.
Lemma graph_ok_default : graph_ok tg_default.
Proof.
  split; [by intros i t|]. intros o s. unfold outspends, get_tx. simpl. rewrite !lookup_empty. simpl. set_solver.
Qed.
Lemma run_snoc os op : g_run (os ++ [op]) = (g_step (g_run os) op).1.
Proof. unfold g_run. by rewrite foldl_app. Qed.
Lemma g_run_ok os : Forall g_op_ok os → graph_ok (g_run os).
Proof.
  induction os as [|op os IH] using rev_ind; intros Hok; [apply graph_ok_default|].
  apply Forall_app in Hok as [Hok Hop]. apply Forall_inv in Hop.
  rewrite run_snoc, step_update. apply update_ok; [by apply IH|by apply op_graph_keyed].
Qed.

(** C18: the first full transaction offered for a txid is the one known. *)
Lemma elem_of_full_transactions g t : t ∈ full_transactions g ↔ ∃ i, tg_txs g !! i = Some (Whole t).
Proof.
  unfold full_transactions. rewrite elem_of_list_omap. split.
  - intros ([i n] & Hin & E). simpl in E. destruct n; [|done]. injection E as ->.
    exists i. by apply elem_of_map_to_list.
  - intros [i Hi]. exists (i, Whole t). split; [by apply elem_of_map_to_list|done].
Qed.
Lemma keyed_find g i :
  keyed g → head (filter (λ t, txid t = i) (full_transactions g)) = get_tx g i.
Proof.
  intros Hk. destruct (head _) as [t|] eqn:E.
  - apply head_Some_elem_of in E. apply elem_of_list_filter in E as [<- Hin].
    apply elem_of_full_transactions in Hin as [j Hj]. apply Hk in Hj as Ej. subst. symmetry. by apply get_tx_Some.
  - destruct (get_tx g i) as [t|] eqn:Et; [|done]. apply get_tx_Some in Et.
    assert (t ∈ filter (λ t, txid t = i) (full_transactions g)) as Hin.
    { apply elem_of_list_filter. split; [by apply Hk|]. apply elem_of_full_transactions. eauto. }
    destruct (filter _ _); [by apply elem_of_nil in Hin|done].
Qed.
Lemma offered_find op i :
  g_op_ok op → head (filter (λ t, txid t = i) (offered_txs op)) = get_tx (op_graph op) i.
Proof.
  destruct op as [t|o x|u]; simpl; intros Hok.
  - unfold get_tx. simpl. rewrite filter_cons. destruct (decide (txid t = i)) as [<- |Hne].
    + by rewrite lookup_singleton.
    + by rewrite lookup_singleton_ne.
  - unfold get_tx. simpl. destruct (decide (op_txid o = i)) as [<- |Hne].
    + by rewrite lookup_singleton.
    + by rewrite lookup_singleton_ne.
  - by apply keyed_find.
Qed.
Lemma head_app' {A} (l l' : list A) : head (l ++ l') = match head l with Some x => Some x | None => head l' end.
Proof. by destruct l. Qed.
Lemma run_get_tx os i :
  Forall g_op_ok os →
  get_tx (g_run os) i = head (filter (λ t, txid t = i) (os ≫= offered_txs)).
Proof.
  induction os as [|op os IH] using rev_ind; intros Hok; [done|].
  apply Forall_app in Hok as [Hok Hop]. apply Forall_inv in Hop.
  rewrite run_snoc, step_update, update_get_tx by by apply op_graph_keyed.
  rewrite bind_app, filter_app, head_app', <- IH by done.
  simpl. rewrite app_nil_r. by rewrite offered_find.
Qed.

(** C18: outputs. *)
Lemma op_graph_txout op o x : get_txout (op_graph op) o = Some x ↔ offers_txout op o x.
Proof.
  destruct op as [t|o' x'|u]; simpl; [| |done].
  - unfold get_txout. simpl. destruct (decide (txid t = op_txid o)) as [E|Hne].
    + rewrite E, lookup_singleton. naive_solver.
    + rewrite lookup_singleton_ne by done. naive_solver.
  - unfold get_txout. simpl. destruct o as [oi ov], o' as [oi' ov']; simpl.
    destruct (decide (oi' = oi)) as [-> |Hne].
    + rewrite lookup_singleton. destruct (decide (ov' = ov)) as [-> |Hne].
      * rewrite lookup_singleton. naive_solver.
      * rewrite lookup_singleton_ne by done. naive_solver.
    + rewrite lookup_singleton_ne by done. naive_solver.
Qed.
Lemma update_get_txout g u o :
  keyed u →
  get_txout (tg_apply_update g u).1 o =
  match get_tx g (op_txid o), get_tx u (op_txid o) with
  | Some t, _ => tx_out t !! N.to_nat (op_vout o)
  | None, Some t => tx_out t !! N.to_nat (op_vout o)
  | None, None => match get_txout u o with Some x => Some x | None => get_txout g o end
  end.
Proof.
  intros Hk. unfold get_txout, get_tx. rewrite update_lookup by done. unfold merge_node.
  destruct (tg_txs g !! op_txid o) as [[t|pa]|] eqn:E, (tg_txs u !! op_txid o) as [[t'|pb]|] eqn:E'; try done.
  - rewrite lookup_union. by destruct (pb !! _), (pa !! _).
  - destruct (decide (pb = ∅)) as [-> |]; [done|]. by destruct (pb !! _).
Qed.
Lemma op_graph_get_tx op i t : g_op_ok op → get_tx (op_graph op) i = Some t → t ∈ offered_txs op ∧ txid t = i.
Proof.
  intros Hok. rewrite <- offered_find by done. intros Hh%head_Some_elem_of.
  by apply elem_of_list_filter in Hh as [? ?].
Qed.
Lemma run_txouts W os o x :
  Forall g_op_ok os → honest W os →
  get_txout (g_run os) o = Some x ↔ ∃ op, op ∈ os ∧ offers_txout op o x.
Proof.
  intros Hok [HW1 HW2]. revert o x.
  induction os as [|op os IH] using rev_ind; intros o x.
  { unfold get_txout. simpl. rewrite lookup_empty. set_solver. }
  apply Forall_app in Hok as [Hok Hop]. apply Forall_inv in Hop.
  assert (∀ o x, get_txout (g_run os) o = Some x ↔ (∃ op, op ∈ os ∧ offers_txout op o x)) as IH'.
  { apply IH; [done|set_solver|set_solver]. } clear IH.
  rewrite run_snoc, step_update, update_get_txout by by apply op_graph_keyed.
  assert (∀ v x, (∃ op', op' ∈ os ++ [op] ∧ offers_txout op' (mkOutPoint (op_txid o) v) x) →
            W (op_txid o) !! N.to_nat v = Some x) as HW.
  { intros v y (op' & Hin & Hof). by eapply (HW2 op' (mkOutPoint (op_txid o) v)). }
  assert (∀ op' t, op' ∈ os ++ [op] → g_op_ok op' → t ∈ offered_txs op' → txid t = op_txid o →
          ∀ y, tx_out t !! N.to_nat (op_vout o) = Some y → offers_txout op' o y) as Hoff.
  { intros op' t Hin Hok' Ht Ei y Hy. apply op_graph_txout. unfold get_txout.
    assert (get_tx (op_graph op') (op_txid o) = Some t ∨
            ∃ t', get_tx (op_graph op') (op_txid o) = Some t' ∧ tx_out t' = tx_out t) as Hg.
    { right. rewrite <- offered_find by done.
      destruct (head _) as [t'|] eqn:Eh.
      - exists t'. split; [done|]. apply head_Some_elem_of, elem_of_list_filter in Eh as [E' Hin'].
        rewrite (HW1 op' t'), (HW1 op' t) by done. by rewrite E', Ei.
      - assert (t ∈ filter (λ t, txid t = op_txid o) (offered_txs op')) as Hin' by by apply elem_of_list_filter.
        destruct (filter _ _); [by apply elem_of_nil in Hin'|done]. }
    destruct Hg as [Hg|(t' & Hg & Eo)]; apply get_tx_Some in Hg; rewrite Hg; [done|]. by rewrite Eo. }
  destruct (get_tx (g_run os) (op_txid o)) as [t|] eqn:Et.
  { assert (∃ op', op' ∈ os ∧ t ∈ offered_txs op' ∧ txid t = op_txid o) as (op' & Hin' & Hof & Ei).
    { rewrite run_get_tx in Et by done. apply head_Some_elem_of, elem_of_list_filter in Et as [? Hb].
      apply elem_of_list_bind in Hb as (op' & ? & ?). eauto. }
    split.
    - intros Hx. exists op'. split; [set_solver|].
      eapply (Hoff op' t); [set_solver|by eapply Forall_forall in Hok|done..].
    - intros Hex. rewrite (HW1 op' t) by set_solver. rewrite Ei. apply HW. by destruct o. }
  destruct (get_tx (op_graph op) (op_txid o)) as [t|] eqn:Et'.
  { apply op_graph_get_tx in Et' as [Hof Ei]; [|done]. split.
    - intros Hx. exists op. split; [set_solver|]. eapply (Hoff op t); [set_solver|done..].
    - intros Hex. rewrite (HW1 op t) by set_solver. rewrite Ei. apply HW. by destruct o. }
  split.
  - destruct (get_txout (op_graph op) o) as [y|] eqn:Ey.
    + intros [= <-]. exists op. split; [set_solver|]. by apply op_graph_txout.
    + rewrite IH'. intros (op' & ? & ?). exists op'. split; [set_solver|done].
  - intros (op' & Hin & Hof). apply elem_of_app in Hin as [Hin| ->%elem_of_list_singleton].
    + assert (get_txout (g_run os) o = Some x) as Eg by (apply IH'; eauto).
      destruct (get_txout (op_graph op) o) as [y|] eqn:Ey; [|done].
      apply op_graph_txout in Ey.
      assert (W (op_txid o) !! N.to_nat (op_vout o) = Some y).
      { eapply (HW2 op); [set_solver|done]. }
      assert (W (op_txid o) !! N.to_nat (op_vout o) = Some x).
      { eapply (HW2 op'); [set_solver|done]. }
      congruence.
    + apply op_graph_txout in Hof. by rewrite Hof.
Qed.
Lemma step_get_tx g op i t :
  g_op_ok op → get_tx g i = Some t → get_tx (g_step g op).1 i = Some t.
Proof.
  intros Hop E. rewrite step_update, update_get_tx by by apply op_graph_keyed. by rewrite E.
Qed.

(** C20 *)
Lemma update_twice g u : keyed u → determine_additions (tg_apply_update g u).1 u = ad_default.
Proof.
  intros Hk. destruct (determine_additions (tg_apply_update g u).1 u) as [T M] eqn:E.
  assert (T = ∅) as ->.
  { apply set_eq. intros t. split; [|set_solver]. intros Ht.
    change (t ∈ ad_tx (mkAdditions T M)) in Ht. rewrite <- E, determine_tx in Ht.
    destruct Ht as (i & Hi & Hn). rewrite update_get_tx in Hn by done.
    apply get_tx_Some in Hi. rewrite Hi in Hn. by destruct (get_tx g i). }
  unfold ad_default. f_equal. apply map_eq. intros o. rewrite lookup_empty.
  change (ad_txout (mkAdditions ∅ M) !! o = None). rewrite <- E, determine_txout.
  rewrite update_get_tx by done.
  destruct (get_tx g (op_txid o)) eqn:Eg; [done|].
  destruct (get_tx u (op_txid o)) eqn:Eu; [done|].
  destruct (tg_txs u !! op_txid o) as [[]|] eqn:Ei; [done| |done].
  destruct (outs !! op_vout o) as [x|] eqn:Ex; [|done].
  rewrite decide_True; [done|]. rewrite update_get_txout by done. rewrite Eg, Eu.
  unfold get_txout at 1. by rewrite Ei, Ex.
Qed.
Lemma replay_log g os : foldl apply_additions g (g_log g os) = foldl (λ g o, (g_step g o).1) g os.
Proof.
  revert g. induction os as [|op os IH]; intros g; simpl; [done|].
  rewrite <- IH. f_equal. rewrite step_update. done.
Qed.
