(** SparseChain: updates, insertions, histories. *)
From Verif Require Export SparseChainProofs.

Section proofs.
Context `{ChainPositionLaws P}.
Implicit Types (c u : SparseChain P) (cs : ChangeSet P) (p q : P) (t : Txid) (h : N).

Lemma merge_cp_fold c u (m : gmap N (option BlockHash)) h :
  foldl (merge_cp c) m (bmap_list (sc_cps u)) !! h =
    match sc_cps u !! h with
    | Some x => if bool_decide (sc_cps c !! h = Some x) then None else Some (Some x)
    | None => m !! h
    end.
Proof.
  rewrite (foldl_keyed_lookup _ (λ k x, if bool_decide (sc_cps c !! k = Some x) then None else Some (Some x))).
  - by rewrite list_to_map_bmap_list.
  - intros m' k v. unfold merge_cp. simpl. case_bool_decide; [apply lookup_delete|apply lookup_insert].
  - intros m' k v k' Hne. unfold merge_cp. simpl. case_bool_decide.
    + by rewrite lookup_delete_ne, lookup_insert_ne.
    + by rewrite lookup_insert_ne.
  - apply NoDup_fst_bmap_list.
Qed.
Lemma merge_txid_fold c u ord (m : gmap Txid (option P)) t :
  ord ≡ₚ map_to_list (sc_pos u) →
  foldl (merge_txid c) m ord !! t =
    match sc_pos u !! t with
    | Some x => if bool_decide (sc_pos c !! t = Some x) then None else Some (Some x)
    | None => m !! t
    end.
Proof.
  intros Hord.
  rewrite (foldl_keyed_lookup _ (λ k x, if bool_decide (sc_pos c !! k = Some x) then None else Some (Some x))).
  - by rewrite (list_to_map_perm _ _ Hord).
  - intros m' k v. unfold merge_txid. simpl. case_bool_decide; [apply lookup_delete|apply lookup_insert].
  - intros m' k v k' Hne. unfold merge_txid. simpl. case_bool_decide.
    + by rewrite lookup_delete_ne, lookup_insert_ne.
    + by rewrite lookup_insert_ne.
  - by eapply NoDup_fst_perm.
Qed.

(** The changeset of a successful update, by lookups. *)
Definition update_cs_spec c u (from : option N) cs : Prop :=
  (∀ h, cs_cps cs !! h =
     match sc_cps u !! h with
     | Some x => if bool_decide (sc_cps c !! h = Some x) then None else Some (Some x)
     | None => match from with
               | Some f => if bool_decide (f ≤ h ∧ is_Some (sc_cps c !! h)) then Some None else None
               | None => None
               end
     end) ∧
  (∀ t, cs_txids cs !! t =
     match sc_pos u !! t with
     | Some p => if bool_decide (sc_pos c !! t = Some p) then None else Some (Some p)
     | None => match from, sc_pos c !! t with
               | Some f, Some p => match pos_height p with
                                   | Confirmed k => if bool_decide (f ≤ k) then Some (Some (pos_max_of Unconfirmed)) else None
                                   | Unconfirmed => None
                                   end
               | _, _ => None
               end
     end).
Definition connected c u : Prop := ∀ f, invalid_from c u = Some f → is_Some (sc_cps u !! f).
Definition any_inconsistent c u : Prop :=
  ∃ t p, sc_pos u !! t = Some p ∧ inconsistent c (invalid_lb c u) (t, p) = true.

Lemma determine_cases c u ord :
  chain_ok c → ord ≡ₚ map_to_list (sc_pos u) →
  (∃ f, invalid_from c u = Some f ∧ sc_cps u !! f = None ∧
        determine_changeset c u ord = Ret (Err (NotConnected f))) ∨
  (connected c u ∧ ∃ t p q, sc_pos u !! t = Some p ∧ sc_pos c !! t = Some q ∧
        inconsistent c (invalid_lb c u) (t, p) = true ∧
        determine_changeset c u ord = Ret (Err (TxInconsistent t q p))) ∨
  (connected c u ∧ ¬ any_inconsistent c u ∧
   ∃ cs, determine_changeset c u ord = Ret (Ok cs) ∧ update_cs_spec c u (invalid_from c u) cs).
Proof.
  intros Hok Hord. unfold determine_changeset.
  assert (Hincons: ∀ t p, List.find (inconsistent c (invalid_lb c u)) ord = Some (t, p) →
     ∃ q, sc_pos u !! t = Some p ∧ sc_pos c !! t = Some q ∧ inconsistent c (invalid_lb c u) (t, p) = true).
  { intros t p [Hin Ht]%find_some_elem. rewrite (elem_of_perm_map _ _ _ _ Hord) in Hin.
    pose proof Ht as Ht'. unfold inconsistent in Ht'. simpl in Ht'.
    destruct (sc_pos c !! t) as [q|]; [|done]. eauto. }
  assert (Hcons: List.find (inconsistent c (invalid_lb c u)) ord = None → ¬ any_inconsistent c u).
  { intros Hn (t & p & Hp & Ht). rewrite find_none_elem in Hn. rewrite (Hn (t, p)) in Ht; [done|].
    by apply (elem_of_perm_map _ _ _ _ Hord). }
  destruct (invalid_from c u) as [f|] eqn:Ef.
  - case_bool_decide as Hu.
    { left. eauto. }
    assert (Hconn: connected c u).
    { intros f' Hf'. rewrite Ef in Hf'. injection Hf' as <-. by apply not_eq_None_Some. }
    right. destruct (List.find _ ord) as [[t p]|] eqn:Efind.
    + left. split; [done|]. destruct (Hincons t p eq_refl) as (q & ? & Hq & ?).
      exists t, p, q. rewrite Hq. done.
    + right. split; [done|]. split; [auto|].
      assert (Hf: f ≤ u32_max).
      { destruct Hok as [_ [_ Hcp]]. apply Hcp. apply invalid_from_raw in Ef. tauto. }
      destruct (invalidate_preview_spec c f Hok Hf) as (cs & -> & Hcs1 & Hcs2).
      eexists; split; [reflexivity|]. split; simpl.
      * intros h. rewrite merge_cp_fold. destruct (sc_cps u !! h); [done|]. apply Hcs1.
      * intros t. rewrite (merge_txid_fold c u) by done. destruct (sc_pos u !! t); [done|]. apply Hcs2.
  - assert (Hconn: connected c u). { intros f' Hf'. congruence. }
    right. destruct (List.find _ ord) as [[t p]|] eqn:Efind.
    + left. split; [done|]. destruct (Hincons t p eq_refl) as (q & ? & Hq & ?).
      exists t, p, q. rewrite Hq. done.
    + right. split; [done|]. split; [auto|].
      eexists; split; [reflexivity|]. split; simpl.
      * intros h. rewrite merge_cp_fold. done.
      * intros t. by rewrite (merge_txid_fold c u).
Qed.

Lemma determine_Ok c u ord cs :
  chain_ok c → ord ≡ₚ map_to_list (sc_pos u) →
  determine_changeset c u ord = Ret (Ok cs) →
  connected c u ∧ ¬ any_inconsistent c u ∧ update_cs_spec c u (invalid_from c u) cs.
Proof.
  intros Hok Hord Hd. destruct (determine_cases c u ord Hok Hord)
    as [(f & _ & _ & E)|[(_ & t & p & q & _ & _ & _ & E)|(Hc & Hi & cs' & E & Hs)]]; rewrite Hd in E; try done.
  injection E as <-. done.
Qed.
Lemma determine_no_panic c u ord :
  chain_ok c → ord ≡ₚ map_to_list (sc_pos u) → determine_changeset c u ord ≠ Panic.
Proof.
  intros Hok Hord Hd. destruct (determine_cases c u ord Hok Hord)
    as [(f & _ & _ & E)|[(_ & t & p & q & _ & _ & _ & E)|(Hc & Hi & cs' & E & Hs)]]; rewrite Hd in E; done.
Qed.

(** ** Decision (C05) *)
Lemma determine_not_connected c u ord f :
  chain_ok c → below_max c → ord ≡ₚ map_to_list (sc_pos u) →
  determine_changeset c u ord = Ret (Err (NotConnected f)) ↔ first_invalid c u f ∧ sc_cps u !! f = None.
Proof.
  intros Hok Hbm Hord. rewrite <- invalid_from_Some by done.
  destruct (determine_cases c u ord Hok Hord)
    as [(f' & Ef & Hn & ->)|[(Hconn & t & p & q & _ & _ & _ & ->)|(Hconn & Hi & cs' & -> & Hs)]].
  - split; [intros [= <-]; done|]. intros [Hf _]. congruence.
  - split; [done|]. intros [Hf Hn]. apply Hconn in Hf. rewrite Hn in Hf. by destruct Hf.
  - split; [done|]. intros [Hf Hn]. apply Hconn in Hf. rewrite Hn in Hf. by destruct Hf.
Qed.
Lemma determine_inconsistent c u ord :
  chain_ok c → below_max c → ord ≡ₚ map_to_list (sc_pos u) →
  (∃ t q p, determine_changeset c u ord = Ret (Err (TxInconsistent t q p))) ↔
  (∀ f, first_invalid c u f → is_Some (sc_cps u !! f)) ∧
  (∃ t q p, sc_pos u !! t = Some p ∧ sc_pos c !! t = Some q ∧ settled c u q ∧ q ≠ p).
Proof.
  intros Hok Hbm Hord.
  destruct (determine_cases c u ord Hok Hord)
    as [(f' & Ef & Hn & ->)|[(Hconn & t & p & q & Hp & Hq & Hinc & ->)|(Hconn & Hi & cs' & -> & Hs)]].
  - split; [naive_solver|]. intros [Hc _]. apply invalid_from_Some, Hc in Ef; [|done].
    rewrite Hn in Ef. by destruct Ef.
  - split; [|by eauto]. intros _. split.
    + intros f Hf. apply Hconn. by apply invalid_from_Some.
    + apply inconsistent_iff in Hinc as (q' & Hq' & ? & ?); [|done]. rewrite Hq in Hq'. injection Hq' as <-. eauto 10.
  - split; [naive_solver|]. intros [_ (t & q & p & Hp & Hq & Hset & Hne)]. destruct Hi.
    exists t, p. split; [done|]. apply inconsistent_iff; eauto.
Qed.
Lemma determine_inconsistent_witness c u ord t q p :
  chain_ok c → below_max c → ord ≡ₚ map_to_list (sc_pos u) →
  determine_changeset c u ord = Ret (Err (TxInconsistent t q p)) →
  sc_pos u !! t = Some p ∧ sc_pos c !! t = Some q ∧ settled c u q ∧ q ≠ p.
Proof.
  intros Hok Hbm Hord Hd.
  destruct (determine_cases c u ord Hok Hord)
    as [(f' & Ef & Hn & E)|[(Hconn & t' & p' & q' & Hp & Hq & Hinc & E)|(Hconn & Hi & cs' & E & Hs)]];
    rewrite Hd in E; try done. injection E as <- <- <-.
  apply inconsistent_iff in Hinc as (q' & Hq' & ? & ?); [|done]. rewrite Hq in Hq'. injection Hq' as <-. done.
Qed.

(** ** Result of an update (C03, C04, C06) *)
Lemma apply_update_inv c u ord c' cs :
  apply_update c u ord = Ret (Ok (c', cs)) →
  determine_changeset c u ord = Ret (Ok cs) ∧ c' = apply_changeset c cs.
Proof. unfold apply_update. repeat case_match; intros [=]; subst; done. Qed.

Lemma update_result_cps c u ord c' cs h :
  chain_ok c → sc_limit c = None → ord ≡ₚ map_to_list (sc_pos u) →
  apply_update c u ord = Ret (Ok (c', cs)) →
  sc_cps c' !! h =
    match sc_cps u !! h with
    | Some x => Some x
    | None => match invalid_from c u with
              | Some f => if bool_decide (f ≤ h) then None else sc_cps c !! h
              | None => sc_cps c !! h
              end
    end.
Proof.
  intros Hok Hl Hord [Hd ->]%apply_update_inv.
  apply determine_Ok in Hd as (_ & _ & [Hcs _]); [|done..].
  rewrite apply_changeset_cps, Hcs by done.
  destruct (sc_cps u !! h) as [x|].
  - by case_bool_decide.
  - destruct (invalid_from c u) as [f|]; [|done].
    destruct (sc_cps c !! h) eqn:E; repeat case_bool_decide; naive_solver.
Qed.
Lemma update_result_pos c u ord c' cs t :
  chain_ok c → ord ≡ₚ map_to_list (sc_pos u) →
  apply_update c u ord = Ret (Ok (c', cs)) →
  sc_pos c' !! t =
    match sc_pos u !! t with
    | Some p => Some p
    | None => match invalid_from c u, sc_pos c !! t with
              | Some f, Some p => match pos_height p with
                                  | Confirmed k => if bool_decide (f ≤ k) then Some (pos_max_of Unconfirmed) else Some p
                                  | Unconfirmed => Some p
                                  end
              | _, o => o
              end
    end.
Proof.
  intros Hok Hord [Hd ->]%apply_update_inv.
  apply determine_Ok in Hd as (_ & _ & [_ Hcs]); [|done..].
  rewrite apply_changeset_pos, Hcs.
  destruct (sc_pos u !! t) as [p|].
  - by case_bool_decide.
  - destruct (invalid_from c u) as [f|]; [|done].
    destruct (sc_pos c !! t) as [p|] eqn:E; [|done].
    destruct (pos_height p) as [k|]; [|done]. by case_bool_decide.
Qed.

Lemma invalidates_from c u h :
  below_max c → invalidates c u h ↔ ∃ f, invalid_from c u = Some f ∧ f ≤ h.
Proof.
  intros Hbm. unfold invalidates. split; intros (f & Hf & ?); exists f; (split; [|done]); by apply invalid_from_Some.
Qed.
Lemma update_result_ok c u ord c' cs :
  chain_ok c → below_max c → sc_limit c = None → ord ≡ₚ map_to_list (sc_pos u) →
  apply_update c u ord = Ret (Ok (c', cs)) → update_result c u c'.
Proof.
  intros Hok Hbm Hl Hord Ha.
  pose proof (λ h, update_result_cps _ _ _ _ _ h Hok Hl Hord Ha) as Hcps.
  pose proof (λ t, update_result_pos _ _ _ _ _ t Hok Hord Ha) as Hpos.
  repeat split.
  - intros h x Hx. by rewrite Hcps, Hx.
  - intros t p Hp. by rewrite Hpos, Hp.
  - intros h Hn (f & Hf & Hle)%invalidates_from; [|done]. rewrite Hcps, Hn, Hf. by rewrite bool_decide_true.
  - intros h Hn Hni. rewrite Hcps, Hn. destruct (invalid_from c u) as [f|] eqn:E; [|done].
    rewrite bool_decide_false; [done|]. intros Hle. apply Hni, invalidates_from; eauto.
  - intros t p k Hn Hp Hk (f & Hf & Hle)%invalidates_from; [|done].
    rewrite Hpos, Hn, Hf, Hp, Hk. by rewrite bool_decide_true.
  - intros t Hn Hni. rewrite Hpos, Hn. destruct (invalid_from c u) as [f|] eqn:E; [|done].
    destruct (sc_pos c !! t) as [p|] eqn:Ep; [|done]. destruct (pos_height p) as [k|] eqn:Ek; [|done].
    rewrite bool_decide_false; [done|]. intros Hle. eapply Hni; [done..|]. apply invalidates_from; eauto.
Qed.

Lemma settled_survives c u ord c' cs t p :
  chain_ok c → below_max c → ord ≡ₚ map_to_list (sc_pos u) →
  apply_update c u ord = Ret (Ok (c', cs)) →
  sc_pos c !! t = Some p → settled c u p → sc_pos c' !! t = Some p.
Proof.
  intros Hok Hbm Hord Ha Hp Hs.
  rewrite (update_result_pos _ _ _ _ _ t Hok Hord Ha).
  apply apply_update_inv in Ha as [Hd _]. apply determine_Ok in Hd as (_ & Hi & _); [|done..].
  destruct (sc_pos u !! t) as [q|] eqn:Eq.
  - f_equal. destruct (decide (p = q)) as [|Hne]; [done|]. destruct Hi. exists t, q. split; [done|].
    apply inconsistent_iff; eauto.
  - destruct (invalid_from c u) as [f|] eqn:Ef; [|done]. rewrite Hp.
    destruct (pos_height p) as [k|] eqn:Ek; [|done].
    rewrite bool_decide_false; [done|]. intros Hle.
    apply invalid_from_Some in Ef as (Hb & _ & Hab & _); [|done].
    destruct Hs as (k' & Hk' & Hs). rewrite Ek in Hk'. injection Hk' as <-.
    destruct (Hs Hb) as (a & Ha & Hka). apply Hab in Ha. lia.
Qed.

Lemma cs_diff c cs :
  sc_limit c = None →
  (∀ h, cs_cps cs !! h ≠ Some (sc_cps c !! h)) → (∀ t, cs_txids cs !! t ≠ Some (sc_pos c !! t)) →
  is_diff c (apply_changeset c cs) cs.
Proof.
  intros Hl Hh Ht. split.
  - intros h o. rewrite apply_changeset_cps by done. specialize (Hh h).
    destruct (cs_cps cs !! h); naive_solver.
  - intros t o. rewrite apply_changeset_pos. specialize (Ht t).
    destruct (cs_txids cs !! t); naive_solver.
Qed.
Lemma confirmed_ne_unconf p k : pos_height p = Confirmed k → p ≠ pos_max_of Unconfirmed.
Proof. intros Hk ->. by rewrite pos_max_height in Hk. Qed.
Lemma update_diff c u ord c' cs :
  chain_ok c → sc_limit c = None → ord ≡ₚ map_to_list (sc_pos u) →
  apply_update c u ord = Ret (Ok (c', cs)) → is_diff c c' cs.
Proof.
  intros Hok Hl Hord [Hd ->]%apply_update_inv.
  apply determine_Ok in Hd as (_ & _ & [Hc Ht]); [|done..]. apply cs_diff; [done|..].
  - intros h. rewrite Hc. destruct (sc_cps u !! h); [case_bool_decide; naive_solver|].
    destruct (invalid_from c u); [|done]. case_bool_decide as Hb; [|done].
    destruct (sc_cps c !! h); [done|]. by destruct Hb as [_ [? ?]].
  - intros t. rewrite Ht. destruct (sc_pos u !! t); [case_bool_decide; naive_solver|].
    destruct (invalid_from c u); [|done]. destruct (sc_pos c !! t) as [p|]; [|done].
    destruct (pos_height p) eqn:Ek; [|done]. case_bool_decide; [|done]. intros [= E].
    by eapply confirmed_ne_unconf.
Qed.
Lemma invalidate_diff c from c' cs :
  chain_ok c → sc_limit c = None → from ≤ u32_max →
  invalidate_checkpoints c from = Ret (c', cs) → is_diff c c' cs.
Proof.
  intros Hok Hl Hf. unfold invalidate_checkpoints.
  destruct (invalidate_preview_spec c from Hok Hf) as (cs' & -> & Hc & Ht). simpl. intros [= <- <-].
  apply cs_diff; [done|..].
  - intros h. rewrite Hc. case_bool_decide as Hb; [|done].
    destruct (sc_cps c !! h); [done|]. by destruct Hb as [_ [? ?]].
  - intros t. rewrite Ht. destruct (sc_pos c !! t) as [p|]; [|done].
    destruct (pos_height p) eqn:Ek; [|done]. case_bool_decide; [|done]. intros [= E].
    by eapply confirmed_ne_unconf.
Qed.
Lemma clear_mempool_diff c c' cs :
  chain_ok c → sc_limit c = None →
  clear_mempool c = Ret (c', cs) → is_diff c c' cs.
Proof.
  intros Hok Hl. unfold clear_mempool.
  destruct (clear_mempool_preview_spec c Hok) as (cs' & -> & Hc & Ht). simpl. intros [= <- <-].
  apply cs_diff; [done|..].
  - intros h. by rewrite Hc, lookup_empty.
  - intros t. rewrite Ht. destruct (sc_pos c !! t) as [p|]; [|done]. by case_bool_decide.
Qed.

(** ** Histories *)
Lemma step_views c o c' : views_agree c → sc_step c o = Ret c' → views_agree c'.
Proof.
  intros Hv. destruct o as [t p|b|u ord|from| |cs|l]; cbn [sc_step].
  - unfold insert_tx. destruct (insert_tx_preview c t p) as [[cs|e]|]; simpl; intros [= <-]; [|done].
    by apply apply_changeset_views.
  - unfold insert_checkpoint. destruct (insert_checkpoint_preview c b) as [[cs|e]|]; simpl; intros [= <-]; [|done].
    by apply apply_changeset_views.
  - unfold apply_update. destruct (determine_changeset c u ord) as [[cs|e]|]; simpl; intros [= <-]; [|done].
    by apply apply_changeset_views.
  - unfold invalidate_checkpoints. destruct (invalidate_checkpoints_preview c from); simpl; intros [= <-].
    by apply apply_changeset_views.
  - unfold clear_mempool. destruct (clear_mempool_preview c); simpl; intros [= <-].
    by apply apply_changeset_views.
  - intros [= <-]. by apply apply_changeset_views.
  - intros [= <-]. intros p t. unfold set_checkpoint_limit. rewrite prune_ordered, prune_pos. apply Hv.
Qed.
Lemma run_views os c c' : views_agree c → sc_run c os = Ret c' → views_agree c'.
Proof.
  revert c. induction os as [|o os IH]; intros c Hv; simpl; [by intros [= <-]|].
  destruct (sc_step c o) as [c1|] eqn:E; simpl; [|done]. apply IH. by eapply step_views.
Qed.

(** Value ranges are kept. *)
Definition cs_vals_ok cs : Prop :=
  (∀ h x, cs_cps cs !! h = Some (Some x) → h ≤ u32_max) ∧
  (∀ t p, cs_txids cs !! t = Some (Some p) → t ≤ max_txid ∧ pos_ok p).
Lemma apply_changeset_ok c cs : chain_ok c → cs_vals_ok cs → chain_ok (apply_changeset c cs).
Proof.
  intros [Hv [Hp Hc]] [Hcc Hct]. split; [by apply apply_changeset_views|]. split.
  - intros t p. rewrite apply_changeset_pos. destruct (cs_txids cs !! t) as [[q|]|] eqn:E; [|done|apply Hp].
    intros [= ->]. by eapply Hct.
  - intros h [x Hx]. apply apply_changeset_cps_sub in Hx. rewrite raw_cps_lookup in Hx.
    destruct (cs_cps cs !! h) as [[y|]|] eqn:E; [|done|apply Hc; eauto]. by eapply Hcc.
Qed.
Lemma unconf_ok : pos_ok (pos_max_of (P:=P) Unconfirmed).
Proof. by apply pos_max_ok. Qed.
Lemma determine_vals_ok c u ord cs :
  chain_ok c → values_ok u → ord ≡ₚ map_to_list (sc_pos u) →
  determine_changeset c u ord = Ret (Ok cs) → cs_vals_ok cs.
Proof.
  intros Hok [Hup Huc] Hord (_ & _ & [Hc Ht])%determine_Ok; [|done..]. split.
  - intros h x. rewrite Hc. destruct (sc_cps u !! h) eqn:E.
    + intros _. apply Huc. eauto.
    + destruct (invalid_from c u); [|done]. by case_bool_decide.
  - intros t p. rewrite Ht. destruct (sc_pos u !! t) as [q|] eqn:E.
    + case_bool_decide; [done|]. intros [= ->]. by apply Hup.
    + destruct (invalid_from c u); [|done]. destruct (sc_pos c !! t) as [q|] eqn:E'; [|done].
      destruct (pos_height q); [|done]. case_bool_decide; [|done]. intros [= <-].
      split; [|apply unconf_ok]. destruct Hok as [_ [Hok _]]. by apply Hok in E' as [? _].
Qed.
Lemma tip_only_lookup c h x :
  tip_only c !! h = Some x ↔ sc_cps c !! h = Some x ∧ ∀ k, is_Some (sc_cps c !! k) → k ≤ h.
Proof.
  unfold tip_only, latest_checkpoint. destruct (last (bmap_list (sc_cps c))) as [[k v]|] eqn:E; simpl.
  - apply bmap_last_spec in E as [Hk Hmax]. rewrite lookup_singleton_Some. split.
    + intros [-> ->]. split; [done|]. intros k Hk'. by apply Hmax.
    + intros [Hx Hmx]. assert (k = h) as ->.
      { apply N.le_antisymm; [apply Hmx; eauto|]. apply Hmax. eauto. }
      split; [done|congruence].
  - apply bmap_last_None in E. rewrite E, !lookup_empty. naive_solver.
Qed.
Lemma tip_only_None c h : sc_cps c = ∅ → tip_only c !! h = None.
Proof.
  intros E. destruct (tip_only c !! h) eqn:E'; [|done]. apply tip_only_lookup in E' as [Hx _].
  by rewrite E, lookup_empty in Hx.
Qed.

(** An update holding our tip and nothing above never invalidates below [u32::MAX]. *)
Definition tip_update c (s : gset (P * Txid)) (m : gmap Txid P) : SparseChain P :=
  mkChain (tip_only c) s m None.
Lemma tip_update_not_beyond c s m : ¬ update_reaches_beyond c (tip_update c s m).
Proof.
  intros (h & [x Hx] & Hab). simpl in Hx.
  assert (Hag: agree_at c (tip_update c s m) h).
  { exists x. split; [|done]. by apply tip_only_lookup in Hx as [? _]. }
  apply Hab in Hag. lia.
Qed.
Lemma tip_update_connected c s m : chain_ok c → connected c (tip_update c s m).
Proof.
  intros Hok f Hf. apply invalid_from_raw in Hf as (Hle & [x Hx] & _).
  rewrite invalid_lb_no in Hle by apply tip_update_not_beyond.
  exists x. simpl. apply tip_only_lookup. split; [done|]. intros k Hk.
  destruct Hok as [_ [_ Hc]]. apply Hc in Hk. lia.
Qed.

Lemma insert_tx_cases c t p :
  chain_ok c →
  let u := tip_update c {[ (p, t) ]} {[ t := p ]} in
  match pos_height p with
  | Confirmed h => if above_tip h (tip_height c)
                   then insert_tx c t p = Ret (Err (TxTooHigh t h (tip_height c)))
                   else True
  | Unconfirmed => True
  end ∧
  ((match pos_height p with Confirmed h => above_tip h (tip_height c) = false | Unconfirmed => True end) →
   (∃ q, sc_pos c !! t = Some q ∧ inconsistent c (invalid_lb c u) (t, p) = true ∧
         insert_tx c t p = Ret (Err (TxMovedUnexpectedly t q p))) ∨
   (inconsistent c (invalid_lb c u) (t, p) = false ∧
    ∃ cs, determine_changeset c u [(t, p)] = Ret (Ok cs) ∧
          insert_tx c t p = Ret (Ok (apply_changeset c cs, cs)) ∧
          update_cs_spec c u (invalid_from c u) cs)).
Proof.
  intros Hok u.
  assert (Hord: [(t, p)] ≡ₚ map_to_list (sc_pos u)).
  { unfold u; simpl. by rewrite map_to_list_singleton. }
  split.
  - destruct (pos_height p) as [h|] eqn:Eh; [|done]. destruct (above_tip h (tip_height c)) eqn:Ea; [|done].
    unfold insert_tx, insert_tx_preview. by rewrite Eh, Ea.
  - intros Htip.
    assert (Hgo: insert_tx c t p =
      match determine_changeset c u [(t, p)] with
      | Panic => Panic
      | Ret (Ok cs) => Ret (Ok (apply_changeset c cs, cs))
      | Ret (Err (NotConnected _)) => Panic
      | Ret (Err (TxInconsistent t' o p')) => Ret (Err (TxMovedUnexpectedly t' o p'))
      end).
    { unfold insert_tx, insert_tx_preview, u, tip_update.
      destruct (pos_height p) as [h|]; [rewrite Htip|];
      destruct (determine_changeset c _ [(t, p)]) as [[cs|[?|???]]|]; done. }
    destruct (determine_cases c u [(t, p)] Hok Hord)
      as [(f' & Ef & Hn & E)|[(Hconn & t' & p' & q & Hp & Hq & Hinc & E)|(Hconn & Hi & cs & E & Hs)]].
    + destruct (tip_update_connected c _ _ Hok f' Ef) as [x Hx].
      change (sc_cps u !! f' = Some x) in Hx. congruence.
    + left. unfold u in Hp; simpl in Hp. apply lookup_singleton_Some in Hp as [<- <-].
      exists q. rewrite Hgo, E. done.
    + right. split.
      * destruct (inconsistent c (invalid_lb c u) (t, p)) eqn:Ei; [|done]. destruct Hi. exists t, p.
        split; [|done]. unfold u; simpl. apply lookup_singleton.
      * exists cs. rewrite Hgo, E. done.
Qed.

Lemma insert_checkpoint_cases c b :
  chain_ok c →
  let u : SparseChain P := mkChain (<[bi_height b := bi_hash b]> (tip_only c)) ∅ ∅ None in
  match tip_only c !! bi_height b with
  | Some x => x ≠ bi_hash b → insert_checkpoint c b = Ret (Err (HashNotMatching (bi_height b) x (bi_hash b)))
  | None => True
  end ∧
  ((∀ x, tip_only c !! bi_height b = Some x → x = bi_hash b) →
   ∃ cs, determine_changeset c u [] = Ret (Ok cs) ∧
         insert_checkpoint c b = Ret (Ok (apply_changeset c cs, cs)) ∧
         update_cs_spec c u (invalid_from c u) cs).
Proof.
  intros Hok u.
  assert (Hord: [] ≡ₚ map_to_list (sc_pos u)). { unfold u; simpl. by rewrite map_to_list_empty. }
  split.
  - destruct (tip_only c !! bi_height b) as [x|] eqn:Ex; [|done]. intros Hne.
    unfold insert_checkpoint, insert_checkpoint_preview. by rewrite Ex, bool_decide_false.
  - intros Htip.
    assert (Hgo: insert_checkpoint c b =
      match determine_changeset c u [] with
      | Ret (Ok cs) => Ret (Ok (apply_changeset c cs, cs))
      | _ => Panic
      end).
    { unfold insert_checkpoint, insert_checkpoint_preview. fold u.
      destruct (tip_only c !! bi_height b) as [x|] eqn:Ex.
      - rewrite bool_decide_true by auto. by destruct (determine_changeset c u []) as [[cs|e]|].
      - by destruct (determine_changeset c u []) as [[cs|e]|]. }
    destruct (determine_cases c u [] Hok Hord)
      as [(f' & Ef & Hn & E)|[(Hconn & t' & p' & q & Hp & Hq & Hinc & E)|(Hconn & Hi & cs & E & Hs)]].
    + exfalso. apply invalid_from_raw in Ef as (Hle & [x Hx] & Hmin).
      unfold u in Hn; simpl in Hn. apply lookup_insert_None in Hn as [Hn Hne].
      assert (Hnt: ¬ ∀ k, is_Some (sc_cps c !! k) → k ≤ f').
      { intros Hm. assert (tip_only c !! f' = Some x) by (by apply tip_only_lookup). congruence. }
      (* the tip agrees and lies above f' *)
      destruct (tip_height c) as [k|] eqn:Ek.
      2: { apply tip_None in Ek. by rewrite Ek, lookup_empty in Hx. }
      apply tip_Some in Ek as [[y Hy] Hmaxk].
      assert (Hlt: f' < k).
      { apply N.nle_gt. intros Hkf. apply Hnt. intros k' Hk'. apply Hmaxk in Hk'. lia. }
      assert (Hyt: tip_only c !! k = Some y) by (by apply tip_only_lookup).
      assert (Hag: agree_at c u k).
      { exists y. split; [done|]. unfold u; simpl. destruct (decide (bi_height b = k)) as [Heq|Hneq].
        - rewrite Heq, lookup_insert. f_equal. symmetry. apply Htip. by rewrite Heq.
        - by rewrite lookup_insert_ne. }
      destruct (decide (update_reaches_beyond c u)) as [Hb|Hb].
      * apply invalid_lb_yes in Hle; [|done]. apply Hle in Hag. lia.
      * rewrite invalid_lb_no in Hle by done. destruct Hok as [_ [_ Hc]].
        assert (k ≤ u32_max) by (apply Hc; eauto). lia.
    + unfold u in Hp; simpl in Hp. by rewrite lookup_empty in Hp.
    + exists cs. rewrite Hgo, E. done.
Qed.

Lemma values_ok_tip c : values_ok c → ∀ h, is_Some (tip_only c !! h) → h ≤ u32_max.
Proof. intros [_ Hc] h [x [Hx _]%tip_only_lookup]. apply Hc. eauto. Qed.

Lemma step_ok c o : chain_ok c → sc_op_ok o → ∃ c', sc_step c o = Ret c' ∧ chain_ok c'.
Proof.
  intros Hok. destruct o as [t p|b|u ord|from| |cs|l]; cbn [sc_step sc_op_ok].
  - intros [Ht Hp]. pose proof (insert_tx_cases c t p Hok) as [Hhigh Hgo].
    assert (Hlow: (match pos_height p with Confirmed h => above_tip h (tip_height c) = false | Unconfirmed => True end)
       → ∃ c', (r ← insert_tx c t p; Ret (match r with Ok (c', _) => c' | Err _ => c end)) = Ret c' ∧ chain_ok c').
    { intros Hlow. destruct (Hgo Hlow) as [(q & _ & _ & ->)|(_ & cs & Hd & -> & _)]; simpl; [eauto|].
      eexists; split; [done|]. apply apply_changeset_ok; [done|].
      eapply determine_vals_ok; [done| | |exact Hd].
      - split; simpl.
        + intros t' p' [<- <-]%lookup_singleton_Some. done.
        + apply values_ok_tip, Hok.
      - simpl. by rewrite map_to_list_singleton. }
    destruct (pos_height p) as [h|]; [|by apply Hlow].
    destruct (above_tip h (tip_height c)); [|by apply Hlow].
    rewrite Hhigh. simpl. eauto.
  - intros Hb. pose proof (insert_checkpoint_cases c b Hok) as [Herr Hgo].
    assert (Hgo': (∀ x, tip_only c !! bi_height b = Some x → x = bi_hash b) →
       ∃ c', (r ← insert_checkpoint c b; Ret (match r with Ok (c', _) => c' | Err _ => c end)) = Ret c' ∧ chain_ok c').
    { intros Hx. destruct (Hgo Hx) as (cs & Hd & -> & _). simpl. eexists; split; [done|].
      apply apply_changeset_ok; [done|]. eapply determine_vals_ok; [done| | |exact Hd].
      - split; simpl.
        + intros t' p'. by rewrite lookup_empty.
        + intros h [x Hx']. apply lookup_insert_Some in Hx' as [[<- _]|[_ Hx']]; [done|].
          apply (values_ok_tip c); [apply Hok|eauto].
      - simpl. by rewrite map_to_list_empty. }
    destruct (tip_only c !! bi_height b) as [x|] eqn:Ex.
    + destruct (decide (x = bi_hash b)) as [-> |Hne].
      * apply Hgo'. congruence.
      * rewrite Herr by done. simpl. eauto.
    + by apply Hgo'.
  - intros [Hu Hord]. unfold apply_update.
    destruct (determine_changeset c u ord) as [[cs|e]|] eqn:E; simpl.
    + eexists; split; [done|]. apply apply_changeset_ok; [done|]. by eapply (determine_vals_ok c u ord cs Hok (proj2 Hu) Hord).
    + eauto.
    + by apply determine_no_panic in E.
  - intros Hf. unfold invalidate_checkpoints.
    destruct (invalidate_preview_spec c from Hok Hf) as (cs & -> & Hc & Ht). simpl.
    eexists; split; [done|]. apply apply_changeset_ok; [done|]. split.
    + intros h x. rewrite Hc. by case_bool_decide.
    + intros t p. rewrite Ht. destruct (sc_pos c !! t) as [q|] eqn:E; [|done].
      destruct (pos_height q); [|done]. case_bool_decide; [|done]. intros [= <-].
      split; [|apply unconf_ok]. destruct Hok as [_ [Hok _]]. by apply Hok in E as [? _].
  - intros _. unfold clear_mempool.
    destruct (clear_mempool_preview_spec c Hok) as (cs & -> & Hc & Ht). simpl.
    eexists; split; [done|]. apply apply_changeset_ok; [done|]. split.
    + intros h x. by rewrite Hc, lookup_empty.
    + intros t p. rewrite Ht. destruct (sc_pos c !! t) as [q|] eqn:E; [|done]. by case_bool_decide.
  - intros Hcs. eexists; split; [done|]. by apply apply_changeset_ok.
  - intros _. eexists; split; [done|]. destruct Hok as [Hv [Hp Hc]]. split; [|split].
    + intros p t. unfold set_checkpoint_limit. rewrite prune_ordered, prune_pos. apply Hv.
    + intros t p. unfold set_checkpoint_limit. rewrite prune_pos. apply Hp.
    + intros h [x Hx]. unfold set_checkpoint_limit in Hx. apply prune_subset in Hx. apply Hc. eauto.
Qed.
Lemma run_ok os c : chain_ok c → Forall sc_op_ok os → ∃ c', sc_run c os = Ret c' ∧ chain_ok c'.
Proof.
  revert c. induction os as [|o os IH]; intros c Hok Hos; simpl; [eauto|].
  apply Forall_cons in Hos as [Ho Hos]. destruct (step_ok c o Hok Ho) as (c1 & -> & Hok1). simpl. by apply IH.
Qed.
Lemma chain_ok_default : chain_ok (sc_default (P:=P)).
Proof.
  split; [apply views_agree_default|]. split; simpl.
  - intros t p. by rewrite lookup_empty.
  - intros h [x Hx]. by rewrite lookup_empty in Hx.
Qed.

End proofs.
