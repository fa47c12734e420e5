(** What esplora scans do with any server (C59). *)
From Verif Require Export EsploraSpec ElectrumProofs ChainGraphProofs4.

(** ** Updates under construction *)
Section upd.
Context `{ChainPositionLaws P}.
Implicit Types (u : ChainGraph P).
(** A chain graph the scan can work with *)
Definition cgu_ok (W : Txid → list OutPoint) (cps : gmap N BlockHash) u : Prop :=
  cg_ok u ∧ inputs_by_txid W (cg_graph u) ∧ upd_ok (cg_chain u) ∧ sc_cps (cg_chain u) = cps.

Lemma cgu_default W : cgu_ok W ∅ (cg_default (P:=P)).
Proof.
  split; [apply cg_ok_default|]. split; [intros i t; done|]. split; [apply upd_ok_default|done].
Qed.

Lemma cg_checkpoint_chain u b :
  cg_insert_checkpoint u b =
  match insert_checkpoint (cg_chain u) b with
  | Panic => Panic
  | Ret (Err e) => Ret (Err e)
  | Ret (Ok (c', ccs)) => Ret (Ok (mkCG c' (cg_graph u), mkCGS ccs ad_default))
  end.
Proof.
  unfold cg_insert_checkpoint, cg_insert_checkpoint_preview, insert_checkpoint.
  destruct (insert_checkpoint_preview (cg_chain u) b) as [[ccs|e]|]; [|done..].
  unfold cg_apply_changeset. cbn [cgs_chain cgs_graph]. by rewrite apply_additions_default.
Qed.
Lemma cgu_checkpoint W cps u b :
  cgu_ok W cps u → bi_height b < u32_max →
  (∃ u' cs, cg_insert_checkpoint u b = Ret (Ok (u', cs)) ∧ cgu_ok W (<[bi_height b := bi_hash b]> cps) u' ∧
     sc_pos (cg_chain u') = sc_pos (cg_chain u) ∧ cg_graph u' = cg_graph u) ∨
  (is_tip (cg_chain u) (bi_height b) ∧ cps !! bi_height b ≠ Some (bi_hash b) ∧
   ∃ e, cg_insert_checkpoint u b = Ret (Err e)).
Proof.
  intros (Hok & HW & Hu & <-) Hb. rewrite cg_checkpoint_chain.
  assert ((∀ x, sc_cps (cg_chain u) !! bi_height b = Some x → is_tip (cg_chain u) (bi_height b) → x = bi_hash b) ∨
    ∃ x, sc_cps (cg_chain u) !! bi_height b = Some x ∧ is_tip (cg_chain u) (bi_height b) ∧ x ≠ bi_hash b) as [Hx|(x & Hx & Ht & Hne)].
  { destruct (sc_cps (cg_chain u) !! bi_height b) as [x|] eqn:E; [|by left].
    destruct (decide (x = bi_hash b)) as [->|Hne]; [left; by intros ? [= <-]|].
    destruct (decide (tip_height (cg_chain u) = Some (bi_height b))) as [Ht|Ht].
    - right. exists x. split; [done|]. split; [by apply tip_Some|done].
    - left. intros y _ Hti. by apply tip_Some in Hti. }
  - left. destruct (upd_ok_insert_checkpoint (cg_chain u) b Hu Hb Hx) as (c' & ccs & E & Hu' & Hc & Hp).
    rewrite E. eexists _, _. split; [done|]. cbn [cg_chain cg_graph]. split; [|done].
    split; [|split; [done|split; [done|simpl; by rewrite Hc]]].
    destruct Hok as (_ & Hg & Hf & Hd). split; [apply Hu'|]. split; [done|]. unfold txs_full, no_double_spend, in_chain in *.
    cbn [cg_chain cg_graph]. rewrite Hp. done.
  - right. split; [done|]. split; [congruence|].
    rewrite (insert_checkpoint_err (cg_chain u) b x); [eauto|apply Hu|done|done|done].
Qed.

(** Where a transaction ends up *)
Lemma cg_insert_shape ho u t p u' cs :
  cg_ok u → upd_ok (cg_chain u) → hash_order (cg_graph u) ho →
  cg_insert_tx ho u t p = Ret (Ok (u', cs)) →
  sc_cps (cg_chain u') = sc_cps (cg_chain u) ∧ sc_limit (cg_chain u') = None ∧
  tx_allowed (cg_chain u) (txid t) p ∧
  sc_pos (cg_chain u') !! txid t = Some p ∧
  ∀ i q, sc_pos (cg_chain u') !! i = Some q → i = txid t ∧ q = p ∨ i ≠ txid t ∧ sc_pos (cg_chain u) !! i = Some q.
Proof.
  intros Hok Hu Hho E. pose proof (insert_puts _ _ _ _ _ _ Hok Hho E) as Hput. unfold cg_insert_tx in E.
  destruct Hu as (Hc & Hbm & Hl & Hcbt).
  assert (tx_allowed (cg_chain u) (txid t) p) as Hal.
  { unfold tx_allowed. assert (Hd: ∀ q, Decision (q = p)) by (intros q; apply _).
    pose proof (insert_tx_cases (cg_chain u) (txid t) p Hc) as [Hh Hgo].
    destruct (insert_tx_preview (cg_chain u) (txid t) p) as [[ccs|e]|] eqn:E1.
    - assert (Hi: insert_tx (cg_chain u) (txid t) p = Ret (Ok (apply_changeset (cg_chain u) ccs, ccs))).
      { unfold insert_tx. by rewrite E1. }
      assert (Hlow: match pos_height p with Confirmed h => above_tip h (tip_height (cg_chain u)) = false | Unconfirmed => True end).
      { destruct (pos_height p) as [h|]; [|done]. destruct (above_tip h _) eqn:Ea; [|done]. congruence. }
      split.
      + intros h Hph. rewrite Hph in Hlow. by apply above_tip_false_iff.
      + intros q Hq Hc'. destruct (decide (q = p)) as [|Hne]; [done|].
        exfalso. destruct (insert_tx_denied (cg_chain u) (txid t) p Hc Hbm) as [e He]; [|congruence].
        intros [_ Hx]. by apply Hne, Hx.
    - unfold cg_insert_tx_preview in E. by rewrite E1 in E.
    - unfold cg_insert_tx_preview in E. by rewrite E1 in E. }
  destruct (insert_tx_allowed (cg_chain u) (txid t) p Hc Hbm Hal) as (ccs & Hi & Hcs & Hpos).
  pose proof (insert_conflicts ho u t p Hok Hho) as Hs.
  destruct (insert_tx_preview (cg_chain u) (txid t) p) as [[ccs'|e]|] eqn:E1; [|by rewrite Hs in E|done].
  assert (ccs' = ccs) as ->. { unfold insert_tx in Hi. rewrite E1 in Hi. by injection Hi. }
  cbn zeta in Hs. destruct Hs as [(e & E2 & _)|(cs' & E2 & _ & _ & Hcp & Hev & Hke)]; rewrite E2 in E; [done|].
  injection E as <- <-.
  assert (Hdef: ∀ i, sc_pos (cg_chain (cg_apply_changeset u cs')) !! i =
     match cs_txids (cgs_chain cs') !! i with Some o => o | None => sc_pos (cg_chain u) !! i end).
  { intros i. apply apply_changeset_pos. }
  assert (Hdef2: ∀ i, match cs_txids ccs !! i with Some o => o | None => sc_pos (cg_chain u) !! i end = <[txid t:=p]> (sc_pos (cg_chain u)) !! i).
  { intros i. rewrite <- Hpos. symmetry. apply apply_changeset_pos. }
  assert (Hall: ∀ i q, sc_pos (cg_chain (cg_apply_changeset u cs')) !! i = Some q → <[txid t:=p]> (sc_pos (cg_chain u)) !! i = Some q).
  { intros i q. rewrite Hdef, <- Hdef2.
    destruct (conflicting_dec ho u (mkCGS ccs (tg_insert_tx_preview (cg_graph u) t)) i) as [Hx|Hx];
      [apply Hok|done|by eapply insert_tx_backed|by rewrite (Hev i Hx)|by rewrite (Hke i Hx)]. }
  split; [|split; [|split; [done|split]]].
  - cbn [cg_apply_changeset cg_chain]. apply apply_nocps; [|congruence]. intros n Hn. congruence.
  - cbn [cg_apply_changeset cg_chain]. by rewrite apply_changeset_limit.
  - destruct Hput as [q Hq]. pose proof (Hall _ _ Hq) as Hq'. rewrite lookup_insert in Hq'. by injection Hq' as ->.
  - intros i q Hq. apply Hall in Hq. apply lookup_insert_Some in Hq as [[<- <-]|[Hne Hq]]; [by left|by right].
Qed.
End upd.

(** ** Any server: no panic, a proper chain graph *)
Section any_server.
Context (W : Txid → list OutPoint) (srv : nat → PSnap) (ho : TxGraph → OutPoint → list Txid).
Context (Hho : hash_fun_ok ho).
Implicit Types (u : ChainGraph ConfirmationTime) (local : gmap N BlockHash).

Lemma ps_insert_ok cps u (tip : N) t ct :
  cgu_ok W cps u → is_Some (cps !! tip) → tx_typed W t → pos_ok ct →
  (∀ h, pos_height ct = Confirmed h → h ≤ tip) →
  ∃ u', ps_insert ho u t ct = Ret u' ∧ cgu_ok W cps u'.
Proof using Hho.
  intros Hcgu Htip [Ht Hin] Hct Hlow. pose proof Hcgu as (Hok & HW & Hu & Hcps).
  destruct (cg_step_ok W u (CgTx ho t ct) Hok HW) as (u' & E & Hok' & HW'); [done|by intros|].
  cbn [cg_step] in E. unfold ps_insert.
  destruct (cg_insert_tx (ho (cg_graph u)) u t ct) as [[[u1 cs]|e]|] eqn:E1; [| |done].
  - injection E as ->. exists u'. split; [done|].
    destruct (cg_insert_shape _ _ _ _ _ _ Hok Hu (Hho _) E1) as (Hc & Hl & Hal & Hp & Hall).
    split; [done|]. split; [done|]. split; [|congruence]. destruct Hu as (Hc0 & Hbm & _ & Hcbt).
    assert (Hth: ∀ h, pos_height ct = Confirmed h → h < u32_max ∧ ∃ k, is_Some (sc_cps (cg_chain u) !! k) ∧ h ≤ k).
    { intros h Hph. destruct (proj1 Hal h Hph) as (k & Hk & Hle). pose proof (proj1 Hbm k Hk). split; [lia|eauto]. }
    split; [apply Hok'|]. split; [|split; [done|]].
    + split; [rewrite Hc; apply Hbm|]. intros i q h Hq Hh. destruct (Hall i q Hq) as [[-> ->]|[_ Hq']]; [by apply Hth|].
      by eapply (proj2 Hbm).
    + intros i q h Hq Hh. rewrite Hc. destruct (Hall i q Hq) as [[-> ->]|[_ Hq']]; [by apply Hth|]. by eapply Hcbt.
  - injection E as ->. exists u'. split; [|done]. destruct e as [[a b c|a b c]|e]; [|done|done]. exfalso.
    unfold cg_insert_tx in E1. destruct (cg_insert_tx_preview _ _ _ _) as [[?|?]|] eqn:E2; simplify_eq/=.
    pose proof (insert_conflicts (ho (cg_graph u')) u' t ct Hok (Hho _)) as Hs.
    destruct (insert_tx_preview (cg_chain u') (txid t) ct) as [[ccs|e]|] eqn:E3; [|rewrite E2 in Hs; injection Hs as <-|done].
    { cbn zeta in Hs. destruct Hs as [(e & E4 & _)|(cs & E4 & _)]; by rewrite E2 in E4. }
    destruct Hu as (Hc0 & Hbm & _ & Hcbt).
    assert (Ei: insert_tx (cg_chain u') (txid t) ct = Ret (Err (TxTooHigh a b c))) by (unfold insert_tx; by rewrite E3).
    pose proof (insert_tx_cases (cg_chain u') (txid t) ct Hc0) as [_ Hgo].
    destruct Hgo as [(q & _ & _ & E4)|(_ & cs & _ & E4 & _)]; [|congruence..].
    destruct (pos_height ct) as [k|] eqn:Ek; [|done]. apply above_tip_false_iff. exists tip. split; [done|]. by apply Hlow.
Qed.

Lemma map_time_ok s tip : status_typed s → tip < u32_max →
  pos_ok (map_confirmation_time s tip) ∧ ∀ h, pos_height (map_confirmation_time s tip) = Confirmed h → h ≤ tip.
Proof using.
  intros Hs Htip. unfold map_confirmation_time. destruct (st_time s) as [tm|] eqn:Et; [|done].
  destruct (st_height s) as [k|]; [|done]. destruct (N.leb_spec k tip) as [Hle|]; [|done].
  split; [split; [lia|by apply Hs]|]. simpl. intros h [= <-]. done.
Qed.
Lemma ps_insert_all_ok cps u (tip : N) (l : list (Tx * TxStatus)) :
  cgu_ok W cps u → is_Some (cps !! tip) → tip < u32_max →
  (∀ t s, (t, s) ∈ l → tx_typed W t ∧ status_typed s) →
  ∃ u', ps_insert_all ho tip u l = Ret u' ∧ cgu_ok W cps u'.
Proof using Hho.
  intros Hu Htip Hm. revert u Hu. induction l as [|[t s] l IH]; intros u Hu Hl; simpl; [eauto|].
  destruct (Hl t s) as [Ht Hs]; [by left|]. destruct (map_time_ok s tip Hs Hm) as [Hp Hh].
  destruct (ps_insert_ok cps u tip t (map_confirmation_time s tip)) as (u1 & -> & Hu1); [done..|]. simpl.
  apply IH; [done|]. intros t' s' Hin. apply Hl. by right.
Qed.

Context (Htyped : ∀ n, esplora_typed W (srv n)).
Lemma ps_prepare_safe (l : list (N * BlockHash)) cps u :
  cgu_ok W cps u → StronglySorted N.gt l.*1 →
  (∀ h, h ∈ l.*1 → h < u32_max ∧ ∀ k, is_Some (cps !! k) → h < k) →
  safe (ps_prepare_loop srv l u) (λ u', ∃ cps', cgu_ok W cps' u').
Proof using.
  revert cps u. induction l as [|[h x] l IH]; intros cps u Hu Hs Hl; simpl; [apply safe_ret; eauto|].
  apply (safe_bnd _ _ (λ _, True)); [by apply safe_req|]. intros y _.
  simpl in Hs. apply StronglySorted_inv in Hs as [Hs Hf].
  destruct (Hl h) as [Hh Hk]; [by left|].
  destruct (cgu_checkpoint W cps u (mkBlockId h y) Hu Hh) as [(u' & cs & E & Hu' & _)|(Ht & _)].
  - apply (safe_bnd _ _ (λ r, r = Ok (u', cs))); [apply safe_lift; eauto|].
    intros r ->. destruct (y =? x); [apply safe_ret; eauto|]. eapply IH; [done|done|].
    intros h' Hh'. destruct (Hl h') as [Hh1 Hh2]; [by right|]. split; [done|]. intros k. simpl.
    destruct (decide (h = k)) as [<- |Hne].
    + intros _. rewrite Forall_forall in Hf. specialize (Hf h' Hh'). lia.
    + rewrite lookup_insert_ne by done. apply Hh2.
  - exfalso. destruct Hu as (_ & _ & _ & Hc). simpl in Ht. pose proof (proj1 Ht) as Hi. rewrite Hc in Hi. specialize (Hk h Hi). lia.
Qed.

Lemma more_pages_safe fuel spk related :
  related ≠ [] → (∀ e, e ∈ related → tx_typed W (et_tx e) ∧ status_typed (et_status e)) →
  safe (more_pages srv fuel spk related) (λ l, ∀ e, e ∈ l → tx_typed W (et_tx e) ∧ status_typed (et_status e)).
Proof using Htyped.
  revert related. induction fuel as [|fuel IH]; intros related Hne Hr; simpl; [apply safe_unfinished|].
  destruct (last related) as [e|] eqn:El; [|by apply last_None in El].
  apply (safe_bnd _ _ (λ l, ∀ e, e ∈ l → tx_typed W (et_tx e) ∧ status_typed (et_status e))).
  { apply safe_req. intros n l E e' Hin. by eapply (pt_script W _ (Htyped n)). }
  intros l Hl. assert (∀ e, e ∈ related ++ l → tx_typed W (et_tx e) ∧ status_typed (et_status e)).
  { intros e' [?|?]%elem_of_app; auto. }
  cbn zeta. destruct (length l <? 25)%nat; [by apply safe_ret|]. apply IH; [|done]. by destruct related.
Qed.
Lemma related_txs_safe fuel spk :
  safe (related_txs srv fuel spk) (λ l, ∀ e, e ∈ l → tx_typed W (et_tx e) ∧ status_typed (et_status e)).
Proof using Htyped.
  unfold related_txs. apply (safe_bnd _ _ (λ l, ∀ e, e ∈ l → tx_typed W (et_tx e) ∧ status_typed (et_status e))).
  { apply safe_req. intros n l E e' Hin. by eapply (pt_script W _ (Htyped n)). }
  intros l Hl. destruct (25 <=? _)%nat eqn:E; [|by apply safe_ret]. apply more_pages_safe; [|done]. by intros ->.
Qed.
Lemma fetch_batch_safe fuel l :
  safe (fetch_batch srv fuel l) (λ rs, ∀ i r e, (i, r) ∈ rs → e ∈ r → tx_typed W (et_tx e) ∧ status_typed (et_status e)).
Proof using Htyped.
  induction l as [|[i spk] l IH]; simpl; [apply safe_ret; by intros ??? ?%elem_of_nil|].
  eapply safe_bnd; [apply related_txs_safe|]. intros r Hr. eapply safe_bnd; [apply IH|]. intros rs Hrs.
  apply safe_ret. intros j r' e [Heq|Hin]%elem_of_cons; [|by eapply Hrs]. injection Heq as -> ->. apply Hr.
Qed.

Section tip.
Context (cps : gmap N BlockHash) (tip : N) (Htip : is_Some (cps !! tip)) (Hm : tip < u32_max).
Lemma join_batch_ok l u active empty :
  cgu_ok W cps u → (∀ i r e, (i, r) ∈ l → e ∈ r → tx_typed W (et_tx e) ∧ status_typed (et_status e)) →
  ∃ r, join_batch ho tip l u active empty = Ret r ∧ cgu_ok W cps r.1.1.
Proof using Hho Htip Hm.
  revert u active empty. induction l as [|[i r] l IH]; intros u active empty Hu Hl; simpl; [eauto|].
  assert (∀ i r e, (i, r) ∈ l → e ∈ r → tx_typed W (et_tx e) ∧ status_typed (et_status e)) as Hl'.
  { intros j r' e Hin. eapply Hl. by right. }
  destruct r as [|e r]; [by apply IH|].
  destruct (ps_insert_all_ok cps u tip ((λ e, (et_tx e, et_status e)) <$> e :: r)) as (u1 & -> & Hu1); [done..| |simpl; by apply IH].
  intros t s (e' & [= -> ->] & Hin)%elem_of_list_fmap. eapply Hl; [by left|done].
Qed.
Lemma keychain_loop_safe rounds fuel gap par spks u active empty :
  cgu_ok W cps u → safe (keychain_loop srv ho rounds fuel gap par tip spks u active empty) (λ r, cgu_ok W cps r.1).
Proof using Hho Htip Hm Htyped.
  revert spks u active empty. induction rounds as [|rounds IH]; intros spks u active empty Hu; simpl; [apply safe_unfinished|].
  eapply safe_bnd; [apply fetch_batch_safe|]. intros rs Hrs.
  destruct (join_batch_ok rs u active empty Hu Hrs) as ([[u1 a1] e1] & E & Hu1).
  apply (safe_bnd _ _ (λ r, r = (u1, a1, e1))); [apply safe_lift; eauto|]. intros ? ->. simpl in Hu1.
  destruct (_ || _); [by apply safe_ret|by apply IH].
Qed.
Lemma keychains_loop_safe `{Countable K} fuel gap par (l : list (K * list (N * Script))) u (m : gmap K N) :
  cgu_ok W cps u → safe (keychains_loop srv ho fuel gap par tip l u m) (λ r, cgu_ok W cps r.1).
Proof using Hho Htip Hm Htyped.
  revert u m. induction l as [|[k spks] l IH]; intros u m Hu; cbn [keychains_loop]; [by apply safe_ret|].
  eapply safe_bnd; [by apply keychain_loop_safe|]. intros [u1 a] Hu1. by apply IH.
Qed.
Lemma ps_txids_safe (l : list Txid) u : cgu_ok W cps u → safe (ps_txids_loop srv ho tip l u) (cgu_ok W cps).
Proof using Hho Htip Hm Htyped.
  revert u. induction l as [|i l IH]; intros u Hu; simpl; [by apply safe_ret|].
  apply (safe_bnd _ _ (λ t, ∀ x, t = Some x → tx_typed W x)).
  { apply safe_req. intros n t E x ->. by eapply (pt_tx W _ (Htyped n)). }
  intros t Ht. apply (safe_bnd _ _ (λ s, ∀ x, s = Some x → status_typed x)).
  { apply safe_req. intros n s E x ->. by eapply (pt_status W _ (Htyped n)). }
  intros s Hs. destruct t as [t|]; [|by apply IH]. destruct s as [s|]; [|by apply IH].
  destruct (map_time_ok s tip (Hs s eq_refl) Hm) as [Hp Hh].
  destruct (ps_insert_ok cps u tip t (map_confirmation_time s tip)) as (u1 & E & Hu1); [done|done|by apply Ht|done|done|].
  apply (safe_bnd _ _ (λ r, r = u1)); [apply safe_lift; eauto|]. intros ? ->. by apply IH.
Qed.
Lemma outpoint_txs_safe (o : OutPoint) :
  safe (outpoint_txs srv o) (λ l, ∀ t s, (t, s) ∈ l → tx_typed W t ∧ status_typed s).
Proof using Htyped.
  unfold outpoint_txs. apply (safe_bnd _ _ (λ t, ∀ x, t = Some x → tx_typed W x)).
  { apply safe_req. intros n t E x ->. by eapply (pt_tx W _ (Htyped n)). }
  intros t Ht. apply (safe_bnd _ _ (λ s, ∀ x, s = Some x → status_typed x)).
  { apply safe_req. intros n s E x ->. by eapply (pt_status W _ (Htyped n)). }
  assert (safe (A:=list (Tx * TxStatus)) (ret []) (λ l, ∀ t s, (t, s) ∈ l → tx_typed W t ∧ status_typed s)) as Hnil.
  { apply safe_ret. by intros ?? ?%elem_of_nil. }
  intros s Hs. destruct t as [t|]; [|done]. destruct s as [s|]; [|done].
  assert (safe (A:=list (Tx * TxStatus)) (ret [(t, s)]) (λ l, ∀ t s, (t, s) ∈ l → tx_typed W t ∧ status_typed s)) as Hone.
  { apply safe_ret. intros t' s' Heq%elem_of_list_singleton. injection Heq as -> ->. auto. }
  apply (safe_bnd _ _ (λ os, ∀ o st, os = Some o → os_status o = Some st → status_typed st)).
  { apply safe_req. intros n os E o' st ->. by eapply (pt_output W _ (Htyped n)). }
  intros os Hos. destruct os as [[[i|] [s'|]]|]; [|done..].
  apply (safe_bnd _ _ (λ t, ∀ x, t = Some x → tx_typed W x)).
  { apply safe_req. intros n t' E x ->. by eapply (pt_tx W _ (Htyped n)). }
  intros t' Ht'. destruct t' as [t'|]; [|done]. apply safe_ret. specialize (Hos _ s' eq_refl eq_refl).
  intros a b [Heq|Heq%elem_of_list_singleton]%elem_of_cons; injection Heq as -> ->; auto.
Qed.
Lemma ps_outpoints_safe (l : list OutPoint) u : cgu_ok W cps u → safe (ps_outpoints_loop srv ho tip l u) (cgu_ok W cps).
Proof using Hho Htip Hm Htyped.
  revert u. induction l as [|o l IH]; intros u Hu; simpl; [by apply safe_ret|].
  eapply safe_bnd; [apply outpoint_txs_safe|]. intros txs Htxs.
  destruct (ps_insert_all_ok cps u tip txs Hu Htip Hm Htxs) as (u1 & E & Hu1).
  apply (safe_bnd _ _ (λ r, r = u1)); [apply safe_lift; eauto|]. intros ? ->. by apply IH.
Qed.
End tip.

Lemma ps_scan_safe fuel `{Countable K, !Ord K} local (kspks : gmap K (list (N * Script))) (txs : list Txid)
  (outpoints : list OutPoint) (gap : N) (par : nat) :
  (∀ h, is_Some (local !! h) → h < u32_max) →
  safe (ps_scan srv ho fuel local kspks txs outpoints gap par)
    (λ s, cg_ok (ks_update s) ∧ inputs_by_txid W (cg_graph (ks_update s)) ∧ usable_update (cg_chain (ks_update s))).
Proof using Hho Htyped.
  intros Hlocal.
  revert K EqDecision0 H Ord0 kspks txs outpoints gap par. 
  induction fuel as [|fuel IH]; intros K ??? kspks txs outpoints gap par; cbn [ps_scan]; [apply safe_unfinished|].
  apply (safe_bnd _ _ (λ u, ∃ cps, cgu_ok W cps u)).
  { apply (ps_prepare_safe _ ∅); [apply cgu_default|apply local_desc|].
    intros h Hh%local_in. split; [by apply Hlocal|]. intros k [x Hk]. done. }
  intros u [cps Hu]. apply (safe_bnd _ _ (λ h, h < u32_max)).
  { apply safe_req. intros n h E. by eapply (pt_height W _ (Htyped n)). }
  intros height Hh. apply (safe_bnd _ _ (λ _, True)); [by apply safe_req|]. intros hash _.
  destruct (cgu_checkpoint W cps u (mkBlockId height hash) Hu Hh) as [(u1 & cs & E & Hu1 & _)|(_ & _ & e & E)].
  2:{ apply (safe_bnd _ _ (λ r, r = Err e)); [apply safe_lift; eauto|]. intros ? ->. apply IH. }
  apply (safe_bnd _ _ (λ r, r = Ok (u1, cs))); [apply safe_lift; eauto|]. intros ? ->. simpl in Hu1.
  set (cps1 := <[height := hash]> cps) in *. assert (is_Some (cps1 !! height)) as Htip by (subst cps1; by rewrite lookup_insert).
  eapply safe_bnd; [eapply (keychains_loop_safe cps1 height Htip Hh); exact Hu1|]. intros [u2 active] Hu2. simpl in Hu2.
  eapply safe_bnd; [eapply (ps_txids_safe cps1 height Htip Hh); exact Hu2|]. intros u3 Hu3.
  eapply safe_bnd; [eapply (ps_outpoints_safe cps1 height Htip Hh); exact Hu3|]. intros u4 Hu4.
  apply (safe_bnd _ _ (λ _, True)).
  { destruct (latest_checkpoint (cg_chain u4)); [|by apply safe_ret].
    apply (safe_bnd _ _ (λ _, True)); [by apply safe_req|]. intros y _. by apply safe_ret. }
  intros reorg _. destruct reorg.
  - eapply safe_bnd; [apply IH|]. intros s Hs. apply safe_ret. exact Hs.
  - apply safe_ret. simpl. destruct Hu4 as (Hok & HW & (Hc & Hbm & _ & Hcbt) & _). split; [done|]. split; [done|].
    split; [done|]. by split.
Qed.
End any_server.
