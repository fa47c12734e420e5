(** SparseChain: idempotence, insertion rules, tip invariant, changeset laws. *)
From Verif Require Export SparseChainProofs2.

Section proofs.
Context `{ChainPositionLaws P}.
Implicit Types (c u : SparseChain P) (cs : ChangeSet P) (p q : P) (t : Txid) (h : N).

Lemma cs_eq_default cs : (∀ h, cs_cps cs !! h = None) → (∀ t, cs_txids cs !! t = None) → cs = cs_default.
Proof.
  intros Hh Ht. destruct cs as [a b]. unfold cs_default. f_equal; apply map_eq; intros i; rewrite lookup_empty; auto.
Qed.

(** ** Reapplying (C04) *)
Lemma covering_update_noop c u ord :
  chain_ok c → below_max c → ord ≡ₚ map_to_list (sc_pos u) →
  (∀ h x, sc_cps u !! h = Some x → sc_cps c !! h = Some x) →
  (∀ t p, sc_pos u !! t = Some p → sc_pos c !! t = Some p) →
  determine_changeset c u ord = Ret (Ok cs_default).
Proof.
  intros Hok Hbm Hord Hcps Hpos.
  assert (Hnb: ¬ update_reaches_beyond c u).
  { intros (h & [x Hx] & Hab). assert (agree_at c u h) as Hag by (exists x; auto). apply Hab in Hag. lia. }
  assert (Hnf: invalid_from c u = None).
  { destruct (invalid_from c u) as [f|] eqn:E; [|done]. apply invalid_from_Some in E as [? _]; done. }
  destruct (determine_cases c u ord Hok Hord)
    as [(f' & Ef & Hn & E)|[(Hconn & t' & p' & q & Hp & Hq & Hinc & E)|(Hconn & Hi & cs & E & [Hs1 Hs2])]].
  - congruence.
  - apply inconsistent_iff in Hinc as (q' & Hq' & _ & Hne); [|done]. apply Hpos in Hp. congruence.
  - rewrite E. do 2 f_equal. rewrite Hnf in Hs1, Hs2. apply cs_eq_default.
    + intros h. rewrite Hs1. destruct (sc_cps u !! h) as [x|] eqn:Ex; [|done]. by rewrite bool_decide_true by auto.
    + intros t. rewrite Hs2. destruct (sc_pos u !! t) as [x|] eqn:Ex; [|done]. by rewrite bool_decide_true by auto.
Qed.
Lemma update_below_max c u ord c' cs :
  chain_ok c → sc_limit c = None → ord ≡ₚ map_to_list (sc_pos u) →
  below_max c → below_max u →
  apply_update c u ord = Ret (Ok (c', cs)) → below_max c'.
Proof.
  intros Hok Hl Hord [Hc1 Hc2] [Hu1 Hu2] Ha. split.
  - intros h. rewrite (update_result_cps _ _ _ _ _ h Hok Hl Hord Ha).
    destruct (sc_cps u !! h) eqn:E; [intros _; apply Hu1; eauto|].
    destruct (invalid_from c u); [case_bool_decide|]; [by intros [??]|apply Hc1..].
  - intros t p h. rewrite (update_result_pos _ _ _ _ _ t Hok Hord Ha).
    destruct (sc_pos u !! t) eqn:E; [intros [= ->]; by eapply Hu2|].
    destruct (invalid_from c u); [|apply Hc2]. destruct (sc_pos c !! t) as [q|] eqn:Eq; [|done].
    destruct (pos_height q) eqn:Ek; [case_bool_decide|].
    + intros [= <-]. by rewrite pos_max_height.
    + intros [= <-]. by eapply Hc2.
    + intros [= <-]. congruence.
Qed.
Lemma update_idempotent c u ord c' cs ord' :
  chain_ok c → chain_ok u → below_max c → below_max u → sc_limit c = None →
  ord ≡ₚ map_to_list (sc_pos u) → ord' ≡ₚ map_to_list (sc_pos u) →
  apply_update c u ord = Ret (Ok (c', cs)) →
  determine_changeset c' u ord' = Ret (Ok cs_default).
Proof.
  intros Hok Hu Hbc Hbu Hl Hord Hord' Ha.
  pose proof (update_below_max _ _ _ _ _ Hok Hl Hord Hbc Hbu Ha) as Hbc'.
  pose proof (update_result_ok _ _ _ _ _ Hok Hbc Hl Hord Ha) as (Hc & Ht & _).
  apply covering_update_noop; auto.
  destruct (step_ok c (OpUpdate u ord) Hok) as (c1 & Hs & Hok1); [done|].
  cbn [sc_step] in Hs. rewrite Ha in Hs. injection Hs as <-. done.
Qed.

(** ** insert_tx (C09) *)
Lemma above_tip_false_iff c h :
  above_tip h (tip_height c) = false ↔ ∃ k, is_Some (sc_cps c !! k) ∧ h ≤ k.
Proof.
  destruct (tip_height c) as [k|] eqn:E; simpl.
  - apply tip_Some in E as [Hk Hmax]. rewrite N.ltb_ge. split; [eauto|].
    intros (k' & Hk' & Hle). apply Hmax in Hk'. lia.
  - apply tip_None in E. split; [done|]. intros (k & [x Hx] & _). by rewrite E, lookup_empty in Hx.
Qed.
Lemma tip_update_settled c s m p t :
  below_max c → sc_pos c !! t = Some p → settled c (tip_update c s m) p ↔ pos_height p ≠ Unconfirmed.
Proof.
  intros Hbm Hp. unfold settled. destruct (pos_height p) as [h|]; [|naive_solver].
  split; [done|]. intros _. exists h. split; [done|]. intros Hb. by apply tip_update_not_beyond in Hb.
Qed.
Lemma tip_update_no_from c s m : below_max c → invalid_from c (tip_update c s m) = None.
Proof.
  intros Hbm. destruct (invalid_from _ _) eqn:E; [|done]. apply invalid_from_Some in E as [Hb _]; [|done].
  by apply tip_update_not_beyond in Hb.
Qed.

Lemma insert_tx_allowed c t p :
  chain_ok c → below_max c → tx_allowed c t p →
  ∃ cs, insert_tx c t p = Ret (Ok (apply_changeset c cs, cs)) ∧
        cs_cps cs = ∅ ∧ sc_pos (apply_changeset c cs) = <[t := p]> (sc_pos c).
Proof.
  intros Hok Hbm [Htip Hold].
  pose proof (insert_tx_cases c t p Hok) as [_ Hgo].
  assert (Hlow: match pos_height p with Confirmed h => above_tip h (tip_height c) = false | Unconfirmed => True end).
  { destruct (pos_height p) as [h|]; [|done]. by apply above_tip_false_iff, Htip. }
  destruct (Hgo Hlow) as [(q & Hq & Hinc & _)|(_ & cs & _ & Hi & [Hs1 Hs2])].
  - apply inconsistent_iff in Hinc as (q' & Hq' & Hset & Hne); [|done].
    rewrite (tip_update_settled _ _ _ _ _ Hbm Hq') in Hset. exfalso. by eapply Hne, Hold.
  - exists cs. split; [done|]. rewrite tip_update_no_from in Hs1, Hs2 by done. split.
    + apply map_eq. intros h. rewrite Hs1, lookup_empty. simpl.
      destruct (tip_only c !! h) as [x|] eqn:Ex; [|done]. apply tip_only_lookup in Ex as [Ex _].
      by rewrite bool_decide_true.
    + apply map_eq. intros t'. rewrite apply_changeset_pos, Hs2. simpl.
      destruct (decide (t' = t)) as [-> |Hne].
      * rewrite lookup_singleton, lookup_insert. by case_bool_decide.
      * by rewrite lookup_singleton_ne, lookup_insert_ne.
Qed.
Lemma insert_tx_denied c t p :
  chain_ok c → below_max c → ¬ tx_allowed c t p → ∃ e, insert_tx c t p = Ret (Err e).
Proof.
  intros Hok Hbm Hna.
  pose proof (insert_tx_cases c t p Hok) as [Hhigh Hgo].
  assert (Hlow: match pos_height p with Confirmed h => above_tip h (tip_height c) = false | Unconfirmed => True end
    → ∃ e, insert_tx c t p = Ret (Err e)).
  { intros Hlow. destruct (Hgo Hlow) as [(q & Hq & Hinc & ->)|(Hninc & cs & _)]; [eauto|].
    destruct Hna. split.
    - intros h Hh. rewrite Hh in Hlow. by apply above_tip_false_iff.
    - intros q Hq Hc. destruct (decide (q = p)) as [|Hne]; [done|].
      assert (false = true); [|done]. rewrite <- Hninc. apply inconsistent_iff; [done|].
      exists q. split; [done|]. split; [|done]. by eapply tip_update_settled. }
  destruct (pos_height p) as [h|]; [|by apply Hlow].
  destruct (above_tip h (tip_height c)); [eauto|by apply Hlow].
Qed.
Lemma cps_above_lt c h : is_Some (sc_cps c !! h) → (cps_above c h < size (sc_cps c))%nat.
Proof.
  intros Hh. apply is_Some_key in Hh. rewrite <- elem_of_reverse in Hh.
  apply elem_of_list_lookup in Hh as [i Hi]. rewrite (cps_above_rank _ _ _ Hi).
  apply lookup_lt_Some in Hi. rewrite reverse_length, fmap_length, bmap_list_perm in Hi. done.
Qed.
Lemma prune_within c : within_limit c → prune_checkpoints c = c.
Proof.
  intros Hw. assert (Hc: sc_cps (prune_checkpoints c) = sc_cps c).
  { apply map_eq. intros h. rewrite prune_cps. destruct (sc_limit c) as [n|] eqn:El; [|done].
    destruct (sc_cps c !! h) eqn:Eh; [|by case_bool_decide]. rewrite bool_decide_true; [done|].
    eapply Nat.lt_le_trans; [apply cps_above_lt; eauto|]. by apply Hw. }
  unfold prune_checkpoints in *. destruct (sc_limit c) eqn:El; [|done]. destruct (reverse _ !! _); [|done].
  destruct c; simpl in *. by rewrite Hc, El.
Qed.
Lemma apply_nocps c cs : within_limit c → cs_cps cs = ∅ → sc_cps (apply_changeset c cs) = sc_cps c.
Proof.
  intros Hw He. unfold apply_changeset. rewrite He, bmap_list_empty. simpl. rewrite prune_within; done.
Qed.

(** ** insert_checkpoint (C08) *)
Lemma insert_checkpoint_Ok c b :
  chain_ok c → below_max c →
  (∀ x, sc_cps c !! bi_height b = Some x → is_tip c (bi_height b) → x = bi_hash b) →
  ∃ cs, insert_checkpoint c b = Ret (Ok (apply_changeset c cs, cs)) ∧ cs_txids cs = ∅ ∧
        (∀ h, cs_cps cs !! h = if bool_decide (h = bi_height b ∧ sc_cps c !! h ≠ Some (bi_hash b))
                               then Some (Some (bi_hash b)) else None).
Proof.
  intros Hok Hbm Htip. pose proof (insert_checkpoint_cases c b Hok) as [_ Hgo].
  destruct Hgo as (cs & _ & Hi & [Hs1 Hs2]).
  { intros x [Hx Hm]%tip_only_lookup. apply Htip; [done|]. split; [eauto|done]. }
  exists cs. split; [done|].
  set (u := mkChain _ ∅ ∅ None) in *.
  assert (Hnf: invalid_from c u = None).
  { destruct (invalid_from c u) as [f|] eqn:E; [|done].
    apply invalid_from_Some in E as (Hb & [x Hx] & Hab & _); [|done].
    (* tip agrees *)
    destruct (tip_height c) as [k|] eqn:Ek.
    2: { apply tip_None in Ek. by rewrite Ek, lookup_empty in Hx. }
    apply tip_Some in Ek as [[y Hy] Hmax].
    assert (Hag: agree_at c u k).
    { exists y. split; [done|]. unfold u; simpl. destruct (decide (bi_height b = k)) as [<- |Hne].
      - rewrite lookup_insert. f_equal. symmetry. apply Htip; [done|]. split; [eauto|done].
      - rewrite lookup_insert_ne by done. by apply tip_only_lookup. }
    apply Hab in Hag. assert (f ≤ k) by (apply Hmax; eauto). lia. }
  rewrite Hnf in Hs1, Hs2. split.
  - apply map_eq. intros t. rewrite Hs2. unfold u; simpl. by rewrite !lookup_empty.
  - intros h. rewrite Hs1. unfold u; simpl. destruct (decide (h = bi_height b)) as [-> |Hne].
    + rewrite lookup_insert. repeat case_bool_decide; naive_solver.
    + rewrite lookup_insert_ne by done. rewrite (bool_decide_false (h = _ ∧ _)) by naive_solver.
      destruct (tip_only c !! h) as [x|] eqn:Ex; [|done]. apply tip_only_lookup in Ex as [Ex _].
      by rewrite bool_decide_true.
Qed.
Lemma insert_checkpoint_spec c b :
  chain_ok c → below_max c →
  (∀ x, sc_cps c !! bi_height b = Some x → is_tip c (bi_height b) → x = bi_hash b) →
  ∃ c' cs, insert_checkpoint c b = Ret (Ok (c', cs)) ∧ sc_pos c' = sc_pos c ∧
           (sc_limit c = None → sc_cps c' = <[bi_height b := bi_hash b]> (sc_cps c)).
Proof.
  intros Hok Hbm Htip. destruct (insert_checkpoint_Ok c b Hok Hbm Htip) as (cs & Hi & Ht & Hc).
  do 2 eexists. split; [done|]. split.
  - apply map_eq. intros t. by rewrite apply_changeset_pos, Ht, lookup_empty.
  - intros Hl. apply map_eq. intros h. rewrite apply_changeset_cps, Hc by done.
    destruct (decide (h = bi_height b)) as [-> |Hne].
    + rewrite lookup_insert. case_bool_decide; [done|]. destruct (sc_cps c !! bi_height b) eqn:E; [|naive_solver].
      apply dec_stable. naive_solver.
    + rewrite lookup_insert_ne by done. by rewrite bool_decide_false by naive_solver.
Qed.
Lemma insert_checkpoint_err c b x :
  chain_ok c → is_tip c (bi_height b) → sc_cps c !! bi_height b = Some x → x ≠ bi_hash b →
  insert_checkpoint c b = Ret (Err (HashNotMatching (bi_height b) x (bi_hash b))).
Proof.
  intros Hok [_ Hm] Hx Hne. pose proof (insert_checkpoint_cases c b Hok) as [He _].
  assert (tip_only c !! bi_height b = Some x) as E by (by apply tip_only_lookup).
  rewrite E in He. auto.
Qed.

(** ** No confirmed transaction above the tip (C07) *)
Lemma prune_cbt c : sc_limit c ≠ Some 0%nat → confirmed_below_tip c → confirmed_below_tip (prune_checkpoints c).
Proof.
  intros Hl Hc t p h. rewrite prune_pos. intros Hp Hh. destruct (Hc t p h Hp Hh) as (k & Hk & Hle).
  destruct (tip_height c) as [m|] eqn:Em.
  2: { apply tip_None in Em. rewrite Em, lookup_empty in Hk. by destruct Hk. }
  apply tip_Some in Em as [Hm Hmax]. exists m. split.
  - rewrite prune_cps. destruct (sc_limit c) as [n|]; [|done]. rewrite bool_decide_true; [done|].
    unfold cps_above. assert (filter (λ kv : N * N, m < kv.1) (sc_cps c) = ∅) as ->.
    { apply map_eq. intros j. rewrite lookup_empty. apply map_filter_lookup_None. right. intros x Hx. simpl.
      assert (j ≤ m) by (apply Hmax; eauto). lia. }
    rewrite map_size_empty. destruct n; [done|lia].
  - apply Hmax in Hk. lia.
Qed.
Lemma apply_cbt c cs :
  sc_limit c ≠ Some 0%nat →
  confirmed_below_tip (mkChain (raw_cps c cs) (sc_ordered (apply_changeset c cs)) (sc_pos (apply_changeset c cs)) (sc_limit c)) →
  confirmed_below_tip (apply_changeset c cs).
Proof.
  intros Hl Hc. unfold apply_changeset in *. apply prune_cbt; [done|].
  intros t p h. simpl. rewrite prune_pos in Hc. intros Hp Hh. by apply (Hc t p h).
Qed.
Lemma update_cbt c u ord c' cs :
  chain_ok c → sc_limit c ≠ Some 0%nat → ord ≡ₚ map_to_list (sc_pos u) →
  confirmed_below_tip c → confirmed_below_tip u →
  apply_update c u ord = Ret (Ok (c', cs)) → confirmed_below_tip c'.
Proof.
  intros Hok Hl Hord Hc Hu Ha.
  pose proof (λ t, update_result_pos _ _ _ _ _ t Hok Hord Ha) as Hpos.
  apply apply_update_inv in Ha as [Hd ->]. apply determine_Ok in Hd as (Hconn & _ & [Hs1 _]); [|done..].
  apply apply_cbt; [done|].
  assert (Hraw: ∀ h, raw_cps c cs !! h =
     match sc_cps u !! h with
     | Some x => Some x
     | None => match invalid_from c u with
               | Some f => if bool_decide (f ≤ h) then None else sc_cps c !! h
               | None => sc_cps c !! h end end).
  { intros h. rewrite raw_cps_lookup, Hs1. destruct (sc_cps u !! h) as [x|].
    - by case_bool_decide.
    - destruct (invalid_from c u) as [f|]; [|done].
      destruct (sc_cps c !! h) eqn:E; repeat case_bool_decide; naive_solver. }
  assert (Hru: ∀ k, is_Some (sc_cps u !! k) → is_Some (raw_cps c cs !! k)).
  { intros k [x Hx]. rewrite Hraw, Hx. eauto. }
  intros t p h Hp Hh. simpl in Hp |- *. rewrite Hpos in Hp. destruct (sc_pos u !! t) as [q|] eqn:Eq.
  { injection Hp as ->. destruct (Hu t p h Eq Hh) as (k & Hk & Hle). exists k. eauto. }
  assert (Hcase: sc_pos c !! t = Some p ∧ ∀ f, invalid_from c u = Some f → h < f).
  { destruct (invalid_from c u) as [f|]; [|naive_solver].
    destruct (sc_pos c !! t) as [q|] eqn:Eq'; [|done]. destruct (pos_height q) as [k|] eqn:Ek.
    - case_bool_decide.
      + injection Hp as <-. by rewrite pos_max_height in Hh.
      + injection Hp as <-. split; [done|]. intros f' [= <-]. rewrite Ek in Hh. injection Hh as ->. lia.
    - injection Hp as <-. congruence. }
  destruct Hcase as [Hpc Hf]. destruct (Hc t p h Hpc Hh) as (k & Hk & Hle).
  destruct (invalid_from c u) as [f|] eqn:Ef.
  - exists f. split; [apply Hru, Hconn, Ef|]. specialize (Hf f eq_refl). lia.
  - exists k. split; [|done]. rewrite Hraw. destruct (sc_cps u !! k); eauto.
Qed.
Lemma insert_tx_as_update c t p c' cs :
  insert_tx c t p = Ret (Ok (c', cs)) →
  apply_update c (tip_update c {[ (p, t) ]} {[ t := p ]}) [(t, p)] = Ret (Ok (c', cs)) ∧
  ∀ h, pos_height p = Confirmed h → above_tip h (tip_height c) = false.
Proof.
  unfold insert_tx, insert_tx_preview. fold (tip_update c {[ (p, t) ]} {[ t := p ]}).
  unfold apply_update.
  destruct (pos_height p) as [h|]; [destruct (above_tip h (tip_height c)) eqn:E; [done|]|];
  destruct (determine_changeset c _ [(t, p)]) as [[cs'|[?|???]]|]; intros [= <- <-]; naive_solver.
Qed.
Lemma insert_checkpoint_as_update c b c' cs :
  insert_checkpoint c b = Ret (Ok (c', cs)) →
  apply_update c (mkChain (<[bi_height b := bi_hash b]> (tip_only c)) ∅ ∅ None) [] = Ret (Ok (c', cs)).
Proof.
  unfold insert_checkpoint, insert_checkpoint_preview, apply_update.
  destruct (tip_only c !! bi_height b); [case_bool_decide; [|done]|];
  destruct (determine_changeset c _ []) as [[cs'|?]|]; intros [= <- <-]; done.
Qed.

Lemma tip_only_cps_some c k : is_Some (tip_only c !! k) → is_Some (sc_cps c !! k).
Proof. intros [x [Hx _]%tip_only_lookup]. eauto. Qed.
Lemma step_limit c o c' : (∀ l, o ≠ OpLimit l) → sc_step c o = Ret c' → sc_limit c' = sc_limit c.
Proof.
  intros Hno. destruct o as [t p|b|u ord|from| |cs|l]; cbn [sc_step].
  - unfold insert_tx. destruct (insert_tx_preview c t p) as [[cs|e]|]; simpl; intros [= <-]; [|done].
    apply apply_changeset_limit.
  - unfold insert_checkpoint. destruct (insert_checkpoint_preview c b) as [[cs|e]|]; simpl; intros [= <-]; [|done].
    apply apply_changeset_limit.
  - unfold apply_update. destruct (determine_changeset c u ord) as [[cs|e]|]; simpl; intros [= <-]; [|done].
    apply apply_changeset_limit.
  - unfold invalidate_checkpoints. destruct (invalidate_checkpoints_preview c from); simpl; intros [= <-].
    apply apply_changeset_limit.
  - unfold clear_mempool. destruct (clear_mempool_preview c); simpl; intros [= <-].
    apply apply_changeset_limit.
  - intros [= <-]. apply apply_changeset_limit.
  - by destruct (Hno l).
Qed.
Lemma step_cbt c o c' :
  chain_ok c → sc_op_ok o → cbt_op o → sc_limit c ≠ Some 0%nat →
  confirmed_below_tip c → sc_step c o = Ret c' → confirmed_below_tip c' ∧ sc_limit c' ≠ Some 0%nat.
Proof.
  intros Hok Hop Hcbt Hl Hc Hs.
  destruct (decide (sc_limit c' = sc_limit c)) as [Hlim|Hlim].
  2: { destruct o as [t p|b|u ord|from| |cs|l]; try by apply step_limit in Hs.
       cbn [sc_step cbt_op] in *. injection Hs as <-. split; [|unfold set_checkpoint_limit; by rewrite prune_limit].
       unfold set_checkpoint_limit. apply prune_cbt; [done|]. apply Hc. }
  rewrite Hlim. split; [|done].
  destruct o as [t p|b|u ord|from| |cs|l]; cbn [sc_step cbt_op sc_op_ok] in *; try done.
  - destruct (insert_tx c t p) as [[[c1 cs]|e]|] eqn:E; simpl in Hs; [..|done]; injection Hs as <-; [|done].
    apply insert_tx_as_update in E as [E Htip].
    eapply update_cbt; [done|done| |done| |exact E].
    + simpl. by rewrite map_to_list_singleton.
    + intros t' p' h. simpl. intros [<- <-]%lookup_singleton_Some Hh. specialize (Htip h Hh).
      destruct (tip_height c) as [k|] eqn:Ek; [|done]. simpl in Htip. apply N.ltb_ge in Htip.
      exists k. split; [|done]. apply tip_Some in Ek as [[x Hx] Hm]. exists x. by apply tip_only_lookup.
  - destruct (insert_checkpoint c b) as [[[c1 cs]|e]|] eqn:E; simpl in Hs; [..|done]; injection Hs as <-; [|done].
    apply insert_checkpoint_as_update in E.
    eapply update_cbt; [done|done| |done| |exact E].
    + simpl. by rewrite map_to_list_empty.
    + intros t' p' h. simpl. by rewrite lookup_empty.
  - destruct (apply_update c u ord) as [[[c1 cs]|e]|] eqn:E; simpl in Hs; [..|done]; injection Hs as <-; [|done].
    destruct Hop as [_ Hord]. by eapply update_cbt.
  - unfold clear_mempool in Hs. destruct (clear_mempool_preview_spec c Hok) as (cs & E & Hcc & Hct).
    rewrite E in Hs. simpl in Hs. injection Hs as <-. apply apply_cbt; [done|].
    intros t p h. simpl. rewrite apply_changeset_pos, Hct. intros Hp Hh.
    assert (Hpc: sc_pos c !! t = Some p).
    { destruct (sc_pos c !! t) as [q|]; [|done]. by case_bool_decide. }
    destruct (Hc t p h Hpc Hh) as (k & Hk & Hle). exists k. split; [|done].
    rewrite raw_cps_lookup, Hcc, lookup_empty. done.
  - injection Hs as <-. unfold set_checkpoint_limit in *. apply prune_cbt; [done|]. apply Hc.
Qed.
Lemma run_cbt os c c' :
  chain_ok c → Forall sc_op_ok os → Forall cbt_op os → sc_limit c ≠ Some 0%nat →
  confirmed_below_tip c → sc_run c os = Ret c' → confirmed_below_tip c'.
Proof.
  revert c. induction os as [|o os IH]; intros c Hok Hos Hcb Hl Hc; simpl; [by intros [= <-]|].
  apply Forall_cons in Hos as [Ho Hos]. apply Forall_cons in Hcb as [Hco Hcb].
  destruct (step_ok c o Hok Ho) as (c1 & E & Hok1). rewrite E. simpl.
  destruct (step_cbt c o c1 Hok Ho Hco Hl Hc E) as [Hc1 Hl1]. by apply IH.
Qed.

(** ** ChangeSet laws (C13, C14) *)
Lemma append_apply c A B :
  views_agree c → sc_limit c = None →
  apply_changeset c (cs_append A B) = apply_changeset (apply_changeset c A) B.
Proof.
  intros Hv Hl. apply views_agree_ext.
  - by apply apply_changeset_views.
  - by apply apply_changeset_views, apply_changeset_views.
  - apply map_eq. intros h. rewrite !apply_changeset_cps by (rewrite ?apply_changeset_limit; done).
    simpl. rewrite lookup_union. destruct (cs_cps B !! h) as [o|]; simpl.
    + by destruct (cs_cps A !! h).
    + by destruct (cs_cps A !! h).
  - apply map_eq. intros t. rewrite !apply_changeset_pos.
    simpl. rewrite lookup_union. destruct (cs_txids B !! t) as [o|]; simpl.
    + by destruct (cs_txids A !! t).
    + by destruct (cs_txids A !! t).
  - by rewrite !apply_changeset_limit.
Qed.
Lemma append_assoc (A B C : ChangeSet P) : cs_append (cs_append A B) C = cs_append A (cs_append B C).
Proof. unfold cs_append; simpl. f_equal; by rewrite map_union_assoc. Qed.
Lemma append_default_l (A : ChangeSet P) : cs_append cs_default A = A.
Proof. destruct A. unfold cs_append, cs_default; simpl. by rewrite !map_union_empty. Qed.
Lemma append_default_r (A : ChangeSet P) : cs_append A cs_default = A.
Proof. destruct A. unfold cs_append, cs_default; simpl. by rewrite !(left_id_L ∅ (∪)). Qed.

Lemma initial_txids c t : views_agree c → cs_txids (initial_changeset c) !! t = Some <$> sc_pos c !! t.
Proof.
  intros Hv. simpl.
  destruct (foldl_insert_lookup (λ pt : P * Txid, pt.2) (λ pt, Some pt.1) (bset_list (sc_ordered c)) ∅ t) as [Hin Hout].
  { intros [p1 t1] [p2 t2] Ha Hb Ht. simpl in *. subst. apply (txids_elem c) in Ha, Hb; [|done..]. congruence. }
  destruct (sc_pos c !! t) as [p|] eqn:E.
  - rewrite (Hin (p, t)); [done| |done]. by apply txids_elem.
  - rewrite Hout, lookup_empty; [done|]. intros [p t'] Hp Ht. simpl in Ht. subst.
    apply (txids_elem c) in Hp; [|done]. congruence.
Qed.
Lemma initial_cps c h : cs_cps (initial_changeset c) !! h = Some <$> sc_cps c !! h.
Proof. simpl. apply lookup_fmap. Qed.
Lemma initial_roundtrip c :
  views_agree c →
  apply_changeset sc_default (initial_changeset c) = mkChain (sc_cps c) (sc_ordered c) (sc_pos c) None.
Proof.
  intros Hv. apply views_agree_ext.
  - apply apply_changeset_views, views_agree_default.
  - exact Hv.
  - apply map_eq. intros h. rewrite apply_changeset_cps by done. rewrite initial_cps. simpl.
    destruct (sc_cps c !! h); simpl; [done|]. apply lookup_empty.
  - apply map_eq. intros t. rewrite apply_changeset_pos, initial_txids by done. simpl.
    destruct (sc_pos c !! t); simpl; [done|]. apply lookup_empty.
  - by rewrite apply_changeset_limit.
Qed.

(** ** Checkpoint limit (C15) *)
Lemma step_limit_size c o c' : within_limit c → sc_step c o = Ret c' → within_limit c'.
Proof.
  intros Hw. unfold within_limit.
  assert (Hap: ∀ cs n, sc_limit (apply_changeset c cs) = Some n → (size (sc_cps (apply_changeset c cs)) ≤ n)%nat).
  { intros cs n. rewrite apply_changeset_limit. apply apply_changeset_size. }
  destruct o as [t p|b|u ord|from| |cs|l]; cbn [sc_step].
  - unfold insert_tx. destruct (insert_tx_preview c t p) as [[cs|e]|]; simpl; intros [= <-]; auto.
  - unfold insert_checkpoint. destruct (insert_checkpoint_preview c b) as [[cs|e]|]; simpl; intros [= <-]; auto.
  - unfold apply_update. destruct (determine_changeset c u ord) as [[cs|e]|]; simpl; intros [= <-]; auto.
  - unfold invalidate_checkpoints. destruct (invalidate_checkpoints_preview c from); simpl; intros [= <-]; auto.
  - unfold clear_mempool. destruct (clear_mempool_preview c); simpl; intros [= <-]; auto.
  - intros [= <-]. auto.
  - intros [= <-] n. unfold set_checkpoint_limit. rewrite prune_limit. apply prune_size.
Qed.
Lemma run_limit_size os c c' : within_limit c → sc_run c os = Ret c' → within_limit c'.
Proof.
  revert c. induction os as [|o os IH]; intros c Hw; simpl; [by intros [= <-]|].
  destruct (sc_step c o) as [c1|] eqn:E; simpl; [|done]. apply IH. by eapply step_limit_size.
Qed.

(** ** Exactness of invalidate_checkpoints and clear_mempool (C10, C11) *)
Lemma apply_only_removes c cs h :
  within_limit c → (∀ h o, cs_cps cs !! h = Some o → o = None) →
  sc_cps (apply_changeset c cs) !! h = match cs_cps cs !! h with Some o => o | None => sc_cps c !! h end.
Proof.
  intros Hw Hrem. unfold apply_changeset. rewrite prune_within.
  - apply raw_cps_lookup.
  - intros n Hn. simpl in *. fold (raw_cps c cs). eapply Nat.le_trans; [|by apply Hw].
    rewrite <- !(size_dom (D:=gset N)). apply subseteq_size.
    intros k. rewrite !elem_of_dom. intros [x Hx]. rewrite raw_cps_lookup in Hx.
    destruct (cs_cps cs !! k) as [o|] eqn:E; [|eauto]. apply Hrem in E. by subst.
Qed.
Lemma invalidate_exact c from :
  chain_ok c → from ≤ u32_max →
  ∃ c' cs, invalidate_checkpoints c from = Ret (c', cs) ∧
    (within_limit c → ∀ h, sc_cps c' !! h = if bool_decide (from ≤ h) then None else sc_cps c !! h) ∧
    (∀ t, sc_pos c' !! t =
       match sc_pos c !! t with
       | Some p => match pos_height p with
                   | Confirmed k => if bool_decide (from ≤ k) then Some (pos_max_of Unconfirmed) else Some p
                   | Unconfirmed => Some p
                   end
       | None => None
       end).
Proof.
  intros Hok Hf. unfold invalidate_checkpoints.
  destruct (invalidate_preview_spec c from Hok Hf) as (cs' & -> & Hc & Ht). simpl.
  do 2 eexists. split; [done|]. split.
  - intros Hw h. rewrite apply_only_removes, Hc; [|done|].
    + destruct (sc_cps c !! h) eqn:E; repeat case_bool_decide; naive_solver.
    + intros h' o. rewrite Hc. case_bool_decide; naive_solver.
  - intros t. rewrite apply_changeset_pos, Ht.
    destruct (sc_pos c !! t) as [p|] eqn:E; [|done]. destruct (pos_height p); [|done]. by case_bool_decide.
Qed.
Lemma clear_mempool_exact c :
  chain_ok c →
  ∃ c' cs, clear_mempool c = Ret (c', cs) ∧
    (within_limit c → sc_cps c' = sc_cps c) ∧
    (∀ t p, sc_pos c' !! t = Some p ↔ sc_pos c !! t = Some p ∧ pos_height p ≠ Unconfirmed).
Proof.
  intros Hok. unfold clear_mempool.
  destruct (clear_mempool_preview_spec c Hok) as (cs' & -> & Hc & Ht). simpl.
  do 2 eexists. split; [done|]. split.
  - intros Hw. by apply apply_nocps.
  - intros t p. rewrite apply_changeset_pos, Ht.
    destruct (sc_pos c !! t) as [q|] eqn:E; [|naive_solver]. case_bool_decide; naive_solver.
Qed.

(** ** Statements in the shape of the property files *)
Lemma c01_lemma (os : list (sc_op P)) c :
  sc_run sc_default os = Ret c →
  StronglySorted ord_lt (txids c) ∧ NoDup (txids c).*2 ∧
  (∀ p t, (p, t) ∈ txids c ↔ tx_position c t = Some p).
Proof.
  intros Hr. apply run_views in Hr; [|apply views_agree_default].
  split; [apply txids_sorted|]. split; [by apply txids_NoDup_snd|]. intros. by apply txids_elem.
Qed.
Lemma c02_insert_tx c t p :
  chain_ok c →
  match insert_tx c t p with
  | Ret (Ok (c', cs)) => insert_tx_preview c t p = Ret (Ok cs) ∧ c' = apply_changeset c cs ∧
                         (sc_limit c = None → is_diff c c' cs)
  | Ret (Err e) => insert_tx_preview c t p = Ret (Err e) ∧ sc_step c (OpInsertTx t p) = Ret c
  | Panic => False
  end.
Proof.
  intros Hok. destruct (insert_tx c t p) as [[[c' cs]|e]|] eqn:E.
  - assert (E' := E). unfold insert_tx in E'. destruct (insert_tx_preview c t p) as [[cs'|e']|]; [|done..].
    injection E' as <- <-. split; [done|]. split; [done|]. intros Hl.
    apply insert_tx_as_update in E as [E _]. eapply update_diff; [done|done| |exact E].
    simpl. by rewrite map_to_list_singleton.
  - cbn [sc_step]. rewrite E. split; [|done]. unfold insert_tx in E.
    destruct (insert_tx_preview c t p) as [[cs'|e']|]; [done| |done]. by injection E as ->.
  - pose proof (insert_tx_cases c t p Hok) as [Hhigh Hgo].
    destruct (pos_height p) as [h|]; [destruct (above_tip h (tip_height c))|].
    + congruence.
    + destruct (Hgo eq_refl) as [(q & _ & _ & ?)|(_ & cs & _ & ? & _)]; congruence.
    + destruct (Hgo I) as [(q & _ & _ & ?)|(_ & cs & _ & ? & _)]; congruence.
Qed.
Lemma c02_insert_checkpoint c b :
  chain_ok c →
  match insert_checkpoint c b with
  | Ret (Ok (c', cs)) => insert_checkpoint_preview c b = Ret (Ok cs) ∧ c' = apply_changeset c cs ∧
                         (sc_limit c = None → is_diff c c' cs)
  | Ret (Err e) => insert_checkpoint_preview c b = Ret (Err e) ∧ sc_step c (OpInsertCheckpoint b) = Ret c
  | Panic => False
  end.
Proof.
  intros Hok. destruct (insert_checkpoint c b) as [[[c' cs]|e]|] eqn:E.
  - assert (E' := E). unfold insert_checkpoint in E'. destruct (insert_checkpoint_preview c b) as [[cs'|e']|]; [|done..].
    injection E' as <- <-. split; [done|]. split; [done|]. intros Hl.
    apply insert_checkpoint_as_update in E. eapply update_diff; [done|done| |exact E].
    simpl. by rewrite map_to_list_empty.
  - cbn [sc_step]. rewrite E. split; [|done]. unfold insert_checkpoint in E.
    destruct (insert_checkpoint_preview c b) as [[cs'|e']|]; [done| |done]. by injection E as ->.
  - pose proof (insert_checkpoint_cases c b Hok) as [Herr Hgo].
    destruct (tip_only c !! bi_height b) as [x|] eqn:Ex.
    + destruct (decide (x = bi_hash b)) as [-> |Hne].
      * destruct Hgo as (cs & _ & ? & _); [naive_solver|]. congruence.
      * apply Herr in Hne. congruence.
    + destruct Hgo as (cs & _ & ? & _); [naive_solver|]. congruence.
Qed.
Lemma c02_apply_update c u ord :
  chain_ok c → ord ≡ₚ map_to_list (sc_pos u) →
  match apply_update c u ord with
  | Ret (Ok (c', cs)) => determine_changeset c u ord = Ret (Ok cs) ∧ c' = apply_changeset c cs ∧
                         (sc_limit c = None → is_diff c c' cs)
  | Ret (Err e) => determine_changeset c u ord = Ret (Err e) ∧ sc_step c (OpUpdate u ord) = Ret c
  | Panic => False
  end.
Proof.
  intros Hok Hord. destruct (apply_update c u ord) as [[[c' cs]|e]|] eqn:E.
  - assert (E' := E). apply apply_update_inv in E' as [? ?]. split; [done|]. split; [done|].
    intros Hl. by eapply update_diff.
  - cbn [sc_step]. rewrite E. split; [|done]. unfold apply_update in E.
    destruct (determine_changeset c u ord) as [[cs'|e']|]; [done| |done]. by injection E as ->.
  - unfold apply_update in E. destruct (determine_changeset c u ord) as [[cs'|e']|] eqn:E'; [done..|].
    by apply determine_no_panic in E'.
Qed.
Lemma c02_invalidate c from :
  chain_ok c → from ≤ u32_max →
  ∃ c' cs, invalidate_checkpoints c from = Ret (c', cs) ∧
           invalidate_checkpoints_preview c from = Ret cs ∧ c' = apply_changeset c cs ∧
           (sc_limit c = None → is_diff c c' cs).
Proof.
  intros Hok Hf. destruct (invalidate_preview_spec c from Hok Hf) as (cs & E & _).
  exists (apply_changeset c cs), cs.
  assert (invalidate_checkpoints c from = Ret (apply_changeset c cs, cs)) as E'.
  { unfold invalidate_checkpoints. by rewrite E. }
  split; [done|]. split; [done|]. split; [done|]. intros Hl. by eapply invalidate_diff.
Qed.
Lemma c02_clear_mempool c :
  chain_ok c →
  ∃ c' cs, clear_mempool c = Ret (c', cs) ∧
           clear_mempool_preview c = Ret cs ∧ c' = apply_changeset c cs ∧
           (sc_limit c = None → is_diff c c' cs).
Proof.
  intros Hok. destruct (clear_mempool_preview_spec c Hok) as (cs & E & _).
  exists (apply_changeset c cs), cs.
  assert (clear_mempool c = Ret (apply_changeset c cs, cs)) as E'.
  { unfold clear_mempool. by rewrite E. }
  split; [done|]. split; [done|]. split; [done|]. intros Hl. by eapply clear_mempool_diff.
Qed.
Lemma determine_accepted c u ord :
  chain_ok c → below_max c → ord ≡ₚ map_to_list (sc_pos u) →
  (∃ cs, determine_changeset c u ord = Ret (Ok cs)) ↔
  (∀ f, first_invalid c u f → is_Some (sc_cps u !! f)) ∧
  (∀ t q p, sc_pos u !! t = Some p → sc_pos c !! t = Some q → settled c u q → q = p).
Proof.
  intros Hok Hbm Hord.
  destruct (determine_cases c u ord Hok Hord)
    as [(f' & Ef & Hn & ->)|[(Hconn & t & p & q & Hp & Hq & Hinc & ->)|(Hconn & Hi & cs' & -> & Hs)]].
  - split; [naive_solver|]. intros [Hc _]. apply invalid_from_Some, Hc in Ef; [|done].
    rewrite Hn in Ef. by destruct Ef.
  - split; [naive_solver|]. intros [_ Hset].
    apply inconsistent_iff in Hinc as (q' & Hq' & ? & Hne); [|done]. destruct Hne. eauto.
  - split; [|eauto]. intros _. split.
    + intros f Hf. apply Hconn. by apply invalid_from_Some.
    + intros t q p Hp Hq Hset. destruct (decide (q = p)) as [|Hne]; [done|]. destruct Hi.
      exists t, p. split; [done|]. apply inconsistent_iff; eauto.
Qed.
Lemma c07_lemma (os : list (sc_op P)) c :
  Forall sc_op_ok os → Forall cbt_op os → sc_run sc_default os = Ret c → confirmed_below_tip c.
Proof.
  intros Hos Hcb. apply run_cbt; [apply chain_ok_default|done|done|done|].
  intros t p h. simpl. by rewrite lookup_empty.
Qed.
Lemma c08_lemma c b :
  chain_ok c → below_max c →
  (∀ x, is_tip c (bi_height b) → sc_cps c !! bi_height b = Some x → x ≠ bi_hash b →
     insert_checkpoint c b = Ret (Err (HashNotMatching (bi_height b) x (bi_hash b)))) ∧
  ((∀ x, sc_cps c !! bi_height b = Some x → is_tip c (bi_height b) → x = bi_hash b) →
   ∃ c' cs, insert_checkpoint c b = Ret (Ok (c', cs)) ∧ sc_pos c' = sc_pos c ∧
            (sc_limit c = None → sc_cps c' = <[bi_height b := bi_hash b]> (sc_cps c))).
Proof.
  intros Hok Hbm. split.
  - intros x Ht Hx Hne. by apply insert_checkpoint_err.
  - intros Htip. by apply insert_checkpoint_spec.
Qed.
Lemma c09_accepted c t p :
  chain_ok c → below_max c → within_limit c → tx_allowed c t p →
  ∃ c' cs, insert_tx c t p = Ret (Ok (c', cs)) ∧
           sc_pos c' = <[t := p]> (sc_pos c) ∧ sc_cps c' = sc_cps c ∧ sc_limit c' = sc_limit c.
Proof.
  intros Hok Hbm Hw Ha. destruct (insert_tx_allowed c t p Hok Hbm Ha) as (cs & E & Hc & Hp).
  do 2 eexists. split; [done|]. split; [done|]. split; [by apply apply_nocps|apply apply_changeset_limit].
Qed.
Lemma c15_lemma (os : list (sc_op P)) c : sc_run sc_default os = Ret c → within_limit c.
Proof. apply run_limit_size. by intros n. Qed.
Lemma c15_prune c l h :
  sc_cps (set_checkpoint_limit c l) !! h =
    match l with
    | Some n => if bool_decide (cps_above c h < n)%nat then sc_cps c !! h else None
    | None => sc_cps c !! h
    end ∧
  sc_pos (set_checkpoint_limit c l) = sc_pos c ∧ sc_ordered (set_checkpoint_limit c l) = sc_ordered c.
Proof.
  unfold set_checkpoint_limit. rewrite prune_cps, prune_pos, prune_ordered. done.
Qed.
Lemma c15_apply c cs (raw : gmap N BlockHash) h :
  (∀ k, raw !! k = match cs_cps cs !! k with Some o => o | None => sc_cps c !! k end) →
  sc_cps (apply_changeset c cs) !! h =
    match sc_limit c with
    | Some n => if bool_decide (size (filter (λ kv, h < kv.1)%N raw) < n)%nat then raw !! h else None
    | None => raw !! h
    end.
Proof.
  intros Hraw. assert (raw = raw_cps c cs) as ->.
  { apply map_eq. intros k. by rewrite Hraw, raw_cps_lookup. }
  unfold apply_changeset. rewrite prune_cps. done.
Qed.
Lemma c16_min_max (p : P) (h : TxHeight) :
  pos_ok p → (pos_height p = h ↔ ord_le (pos_min_of h) p ∧ ord_le p (pos_max_of h)).
Proof.
  intros Hok. rewrite pos_min_le_iff, pos_le_max by done. split.
  - intros ->. split; apply ord_le_refl.
  - intros [Ha Hb]. by apply ord_le_antisym.
Qed.

End proofs.

Lemma c16_txheight :
  ChainPositionLaws TxHeight ∧ (∀ h, ord_lt (Confirmed h) Unconfirmed) ∧
  (∀ a b, ord_lt (Confirmed a) (Confirmed b) ↔ a < b).
Proof. split; [apply _|]. split; [done|]. apply TxHeight_lt_confirmed. Qed.
Lemma c16_ct :
  ChainPositionLaws ConfirmationTime ∧ (∀ h t, ord_lt (CtConfirmed h t) CtUnconfirmed) ∧
  (∀ h t h' t', ord_lt (CtConfirmed h t) (CtConfirmed h' t') ↔ h < h' ∨ h = h' ∧ t < t').
Proof. split; [apply _|]. split; [done|]. apply CT_lt_confirmed. Qed.
