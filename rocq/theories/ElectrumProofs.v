(** Rules for client programs; what electrum scans do with any server (C59). *)
From Verif Require Export ScanSpec SparseChainProofs3.

(** ** Rules *)
Section rules.
Context {A B : Type}.
Lemma safe_ret (a : A) (Q : A → Prop) : Q a → safe (ret a) Q.
Proof. intros Ha n. done. Qed.
Lemma safe_bnd (p : prog A) (f : A → prog B) (R : A → Prop) (Q : B → Prop) :
  safe p R → (∀ a, R a → safe (f a) Q) → safe (bnd p f) Q.
Proof.
  intros Hp Hf n. unfold bnd. specialize (Hp n). destruct (p n) as [n' a|n' e| |]; try done. by apply Hf.
Qed.
Lemma safe_lift (o : outcome A) (Q : A → Prop) : (∃ a, o = Ret a ∧ Q a) → safe (lift o) Q.
Proof. intros (a & -> & Ha) n. done. Qed.
Lemma safe_req {S} (srv : nat → S) (q : S → result A ClientError) (Q : A → Prop) :
  (∀ n a, q (srv n) = Ok a → Q a) → safe (req srv q) Q.
Proof. intros Hq n. unfold req. destruct (q (srv n)) as [a|e] eqn:E; [|done]. by eapply Hq. Qed.
Lemma safe_ask {S} (srv : nat → S) (q : S → result A ClientError) (Q : result A ClientError → Prop) :
  (∀ n, Q (q (srv n))) → safe (ask srv q) Q.
Proof. intros Hq n. apply Hq. Qed.
Lemma safe_unfinished (Q : A → Prop) : safe unfinished Q.
Proof. done. Qed.
Lemma safe_weaken (p : prog A) (Q R : A → Prop) : safe p Q → (∀ a, Q a → R a) → safe p R.
Proof. intros Hp HQ n. specialize (Hp n). destruct (p n); auto. Qed.

Lemma ends_ret (a : A) (Q : A → Prop) : Q a → ends (ret a) Q.
Proof. intros Ha n. by exists n, a. Qed.
Lemma ends_bnd (p : prog A) (f : A → prog B) (R : A → Prop) (Q : B → Prop) :
  ends p R → (∀ a, R a → ends (f a) Q) → ends (bnd p f) Q.
Proof.
  intros Hp Hf n. unfold bnd. destruct (Hp n) as (n' & a & -> & Ha). by apply Hf.
Qed.
Lemma ends_lift (o : outcome A) (Q : A → Prop) : (∃ a, o = Ret a ∧ Q a) → ends (lift o) Q.
Proof. intros (a & -> & Ha) n. by exists n, a. Qed.
Lemma ends_req {S} (srv : nat → S) (q : S → result A ClientError) (Q : A → Prop) :
  (∀ n, ∃ a, q (srv n) = Ok a ∧ Q a) → ends (req srv q) Q.
Proof. intros Hq n. unfold req. destruct (Hq n) as (a & -> & Ha). eauto. Qed.
Lemma ends_ask {S} (srv : nat → S) (q : S → result A ClientError) (Q : result A ClientError → Prop) :
  (∀ n, Q (q (srv n))) → ends (ask srv q) Q.
Proof. intros Hq n. unfold ask. eauto. Qed.
Lemma ends_weaken (p : prog A) (Q R : A → Prop) : ends p Q → (∀ a, Q a → R a) → ends p R.
Proof. intros Hp HQ n. destruct (Hp n) as (n' & a & E & Ha). eauto. Qed.
End rules.

(** ** Updates under construction *)
(** A chain the scan can work with: consistent, without limit, heights below [u32::MAX],
    confirmed transactions at or below a checkpoint. *)
Section upd.
Context `{ChainPositionLaws P}.
Implicit Types (u : SparseChain P).
Definition upd_ok u : Prop :=
  chain_ok u ∧ below_max u ∧ sc_limit u = None ∧ confirmed_below_tip u.

Lemma upd_ok_default : upd_ok sc_default.
Proof.
  split; [apply chain_ok_default|]. split; [|split; [done|]].
  - split; unfold sc_default; simpl; intros *; rewrite lookup_empty; [by intros []|done].
  - unfold sc_default, confirmed_below_tip; simpl. intros t p h. by rewrite lookup_empty.
Qed.

(** A chain with the same confirmed blocks and more positions of one kind *)
Lemma upd_ok_insert_pos u t p :
  upd_ok u → t ≤ max_txid → pos_ok p → tx_allowed u t p →
  ∃ u' cs, insert_tx u t p = Ret (Ok (u', cs)) ∧ upd_ok u' ∧ sc_cps u' = sc_cps u ∧
           sc_pos u' = <[t := p]> (sc_pos u).
Proof.
  intros (Hok & Hbm & Hl & Hcbt) Ht Hpok Hal.
  destruct (insert_tx_allowed u t p Hok Hbm Hal) as (cs & Hi & Hcs & Hpos).
  exists (apply_changeset u cs), cs. split; [done|].
  assert (Hcps: sc_cps (apply_changeset u cs) = sc_cps u).
  { apply apply_nocps; [|done]. intros n Hn. congruence. }
  assert (Hth: ∀ h, pos_height p = Confirmed h → h < u32_max ∧ ∃ k, is_Some (sc_cps u !! k) ∧ h ≤ k).
  { intros h Hp. destruct Hal as [Hal _]. destruct (Hal h Hp) as (k & Hk & Hle).
    pose proof (proj1 Hbm k Hk). split; [lia|]. eauto. }
  split; [|split; done]. split; [|split; [|split]].
  - split; [by apply apply_changeset_views, Hok|]. destruct Hok as [_ [Hv1 Hv2]]. split.
    + intros t' p'. rewrite Hpos. destruct (decide (t = t')) as [<- |Hne].
      * rewrite lookup_insert. by intros [= <-].
      * rewrite lookup_insert_ne by done. apply Hv1.
    + rewrite Hcps. done.
  - destruct Hbm as [Hb1 Hb2]. split; [by rewrite Hcps|]. intros t' p' h. rewrite Hpos.
    destruct (decide (t = t')) as [<- |Hne].
    + rewrite lookup_insert. intros [= <-] Hh. by apply Hth.
    + rewrite lookup_insert_ne by done. apply Hb2.
  - by rewrite apply_changeset_limit.
  - intros t' p' h. rewrite Hpos, Hcps. destruct (decide (t = t')) as [<- |Hne].
    + rewrite lookup_insert. intros [= <-] Hh. by apply Hth.
    + rewrite lookup_insert_ne by done. apply Hcbt.
Qed.

Lemma upd_ok_insert_checkpoint u b :
  upd_ok u → bi_height b < u32_max →
  (∀ x, sc_cps u !! bi_height b = Some x → is_tip u (bi_height b) → x = bi_hash b) →
  ∃ u' cs, insert_checkpoint u b = Ret (Ok (u', cs)) ∧ upd_ok u' ∧
           sc_cps u' = <[bi_height b := bi_hash b]> (sc_cps u) ∧ sc_pos u' = sc_pos u.
Proof.
  intros (Hok & Hbm & Hl & Hcbt) Hb Htip.
  destruct (insert_checkpoint_Ok u b Hok Hbm Htip) as (cs & Hi & Ht & Hc).
  destruct (insert_checkpoint_spec u b Hok Hbm Htip) as (u' & cs' & Hi' & Hpos & Hcps).
  rewrite Hi in Hi'. injection Hi' as <- <-. specialize (Hcps Hl).
  eexists _, cs. split; [done|]. split; [|by split]. split; [|split; [|split]].
  - split; [by apply apply_changeset_views, Hok|]. destruct Hok as [_ [Hv1 Hv2]]. split.
    + by rewrite Hpos.
    + intros h. rewrite Hcps. destruct (decide (bi_height b = h)) as [<- |Hne]; [lia|].
      rewrite lookup_insert_ne by done. apply Hv2.
  - destruct Hbm as [Hb1 Hb2]. split.
    + intros h. rewrite Hcps. destruct (decide (bi_height b = h)) as [<- |Hne]; [lia|].
      rewrite lookup_insert_ne by done. apply Hb1.
    + by rewrite Hpos.
  - by rewrite apply_changeset_limit.
  - intros t p h. rewrite Hpos, Hcps. intros Hp Hh. destruct (Hcbt t p h Hp Hh) as (k & Hk & Hle).
    exists k. split; [|done]. destruct (decide (bi_height b = k)) as [<- |Hne].
    + by rewrite lookup_insert.
    + by rewrite lookup_insert_ne.
Qed.
Lemma upd_ok_checkpoint_cases u b :
  upd_ok u → bi_height b < u32_max →
  (∃ u' cs, insert_checkpoint u b = Ret (Ok (u', cs)) ∧ upd_ok u' ∧
           sc_cps u' = <[bi_height b := bi_hash b]> (sc_cps u) ∧ sc_pos u' = sc_pos u) ∨
  (∃ e, insert_checkpoint u b = Ret (Err e)).
Proof.
  intros Hu Hb. destruct (decide (sc_cps u !! bi_height b = Some (bi_hash b))) as [E|E].
  { left. apply upd_ok_insert_checkpoint; [done..|]. intros x Hx _. congruence. }
  destruct (sc_cps u !! bi_height b) as [x|] eqn:Ex.
  - destruct (decide (tip_height u = Some (bi_height b))) as [Et|Et].
    + right. eexists. apply (insert_checkpoint_err u b x); [apply Hu|by apply tip_Some|done|congruence].
    + left. apply upd_ok_insert_checkpoint; [done..|]. intros y Hy Hti. by apply tip_Some in Hti.
  - left. apply upd_ok_insert_checkpoint; [done..|]. intros y Hy. congruence.
Qed.
End upd.
Lemma upd_ok_insert_tx (u : SparseChain TxHeight) t p :
  upd_ok u → t ≤ max_txid → tx_allowed u t p →
  ∃ u' cs, insert_tx u t p = Ret (Ok (u', cs)) ∧ upd_ok u' ∧ sc_cps u' = sc_cps u ∧
           sc_pos u' = <[t := p]> (sc_pos u).
Proof.
  intros Hu Ht Hal. apply upd_ok_insert_pos; [done|done| |done]. destruct p as [h|]; simpl; [|done].
  destruct Hal as [Hal _]. destruct (Hal h eq_refl) as (k & Hk & Hle). destruct Hu as (_ & Hbm & _).
  pose proof (proj1 Hbm k Hk). lia.
Qed.

(** ** The tip of an update *)
Lemma latest_tip (u : SparseChain TxHeight) b : latest_checkpoint u = Some b ↔ is_tip u (bi_height b) ∧ sc_cps u !! bi_height b = Some (bi_hash b).
Proof.
  unfold latest_checkpoint. split.
  - intros ((k & x) & Hl & ->)%fmap_Some. simpl.
    assert (tip_height u = Some k) as Ht by (unfold tip_height; by rewrite Hl).
    split; [by apply tip_Some|]. apply bmap_last_spec in Hl. apply Hl.
  - intros [Ht Hx]. apply tip_Some in Ht. unfold tip_height in Ht.
    apply fmap_Some in Ht as ((k & y) & Hl & Hk). simpl in Hk. rewrite Hl. simpl.
    apply bmap_last_spec in Hl as [Hl _]. rewrite <- Hk in Hl. rewrite Hx in Hl. injection Hl as <-.
    destruct b; simpl in *. by subst.
Qed.
Lemma latest_ex (u : SparseChain TxHeight) : sc_cps u ≠ ∅ → ∃ b, latest_checkpoint u = Some b.
Proof.
  intros Hne. unfold latest_checkpoint. destruct (last (bmap_list (sc_cps u))) as [kv|] eqn:E; [eauto|].
  destruct Hne. apply bmap_list_nil_inv. by apply last_None.
Qed.

(** ** determine_tx_height *)
Lemma determine_total dbg raw tip t :
  (dbg = true → -1 ≤ raw)%Z →
  ∃ h, determine_tx_height dbg raw tip t = Ret h ∧ ∀ k, h = Confirmed k → k ≤ tip.
Proof.
  intros Hr. unfold determine_tx_height. destruct (t =? genesis_txid); [eexists; split; [done|]|].
  { intros k [= <-]. lia. }
  destruct (Z.leb_spec raw 0) as [Hle|Hgt].
  - assert ((dbg && negb ((raw =? 0)%Z || (raw =? -1)%Z)) = false) as ->.
    { destruct dbg; [|done]. specialize (Hr eq_refl). simpl. lia. }
    by eexists.
  - destruct (N.ltb_spec tip (Z.to_N raw)); (eexists; split; [done|]); [done|]. intros k [= <-]. lia.
Qed.

(** Inserting a transaction at or below the tip *)
Lemma insert_found_ok u tip t h :
  upd_ok u → is_tip u tip → t ≤ max_txid → (∀ k, h = Confirmed k → k ≤ tip) →
  ∃ u' ok, insert_found u t h = Ret (u', ok) ∧ upd_ok u' ∧ sc_cps u' = sc_cps u.
Proof.
  intros Hu Htip Ht Hh. unfold insert_found.
  assert ((∀ q, sc_pos u !! t = Some q → q ≠ Unconfirmed → q = h) ∨
          ¬ (∀ q, sc_pos u !! t = Some q → q ≠ Unconfirmed → q = h)) as [Hq|Hq].
  { destruct (sc_pos u !! t) as [q|]; [|by left]. destruct (decide (q = Unconfirmed ∨ q = h)) as [Hd|Hd].
    - left. intros q' [= <-]. naive_solver.
    - right. intros Hc. apply Hd. destruct (decide (q = Unconfirmed)); [by left|]. right. by apply Hc. }
  - destruct (upd_ok_insert_tx u t h) as (u' & cs & -> & Hu' & Hc & _); [done..| |eauto 10].
    split; [|done]. intros k Hk. exists tip. split; [apply Htip|]. by apply Hh.
  - destruct (insert_tx_denied u t h) as (e & E).
    { apply Hu. } { apply Hu. } { intros [_ Hal]. by apply Hq. }
    rewrite E. destruct e as [a b c|a b c]; [|eauto 10]. exfalso.
    destruct Hu as (Hok & Hbm & _). 
    pose proof (insert_tx_cases u t h Hok) as [_ Hgo].
    destruct Hgo as [(q & Hq' & _ & E2)|(_ & cs & _ & E2 & _)]; [|by rewrite E2 in E|by rewrite E2 in E].
    simpl. destruct h as [k|]; [|done]. apply above_tip_false_iff. exists tip. split; [apply Htip|]. by apply Hh.
Qed.

(** ** Any server: no panic, nothing above the tip *)
Definition upd_on (cps : gmap N BlockHash) (u : SparseChain TxHeight) : Prop := upd_ok u ∧ sc_cps u = cps.

Lemma is_tip_cps (u u' : SparseChain TxHeight) k : sc_cps u = sc_cps u' → is_tip u k → is_tip u' k.
Proof. unfold is_tip. by intros ->. Qed.

Lemma insert_history_ok dbg tip cps u l :
  upd_on cps u → is_tip u tip → (∀ t raw, (t, raw) ∈ l → t ≤ max_txid ∧ (dbg = true → -1 ≤ raw)%Z) →
  ∃ u' ok, insert_history dbg tip u l = Ret (u', ok) ∧ upd_on cps u'.
Proof.
  revert u. induction l as [|[t raw] l IH]; intros u Hu Htip Hl; simpl; [eauto|].
  destruct (Hl t raw) as [Ht Hraw]; [by left|].
  destruct (determine_total dbg raw tip t Hraw) as (h & -> & Hh). cbn [mbind outcome_bind].
  destruct (insert_found_ok u tip t h) as (u' & ok & -> & Hu' & Hc); [apply Hu|done..|]. cbn [mbind outcome_bind].
  assert (upd_on cps u') by (split; [done|]; rewrite Hc; apply Hu).
  destruct ok; [|eauto]. apply IH; [done| |].
  - eapply is_tip_cps; [|done]. done.
  - intros t' raw' Hin. apply Hl. by right.
Qed.

Section any_server.
Context (dbg : bool) (srv : nat → ESnap) (Htyped : ∀ n, electrum_typed dbg (srv n)).
Implicit Types (u : SparseChain TxHeight) (local : gmap N BlockHash).

Lemma prepare_loop_safe (l : list (N * BlockHash)) u :
  upd_ok u → StronglySorted N.gt l.*1 →
  (∀ h, h ∈ l.*1 → h < u32_max ∧ ∀ k, is_Some (sc_cps u !! k) → h < k) →
  safe (prepare_loop srv l u) upd_ok.
Proof.
  revert u. induction l as [|[h x] l IH]; intros u Hu Hs Hl; simpl; [by apply safe_ret|].
  apply (safe_bnd _ _ (λ _, True)); [by apply safe_req|]. intros y _.
  simpl in Hs. apply StronglySorted_inv in Hs as [Hs Hf].
  destruct (Hl h) as [Hh Hk]; [by left|].
  destruct (upd_ok_insert_checkpoint u (mkBlockId h y)) as (u' & cs & E & Hu' & Hc & _); [done|done| |].
  { simpl. intros z Hz _. specialize (Hk h (mk_is_Some _ _ Hz)). lia. }
  apply (safe_bnd _ _ (λ r, r = Ok (u', cs))); [apply safe_lift; eauto|].
  intros r ->. destruct (y =? x); [by apply safe_ret|]. apply IH; [done|done|].
  intros h' Hh'. destruct (Hl h') as [Hh1 Hh2]; [by right|]. split; [done|]. intros k. rewrite Hc. simpl.
  destruct (decide (h = k)) as [<- |Hne].
  - intros _. rewrite Forall_forall in Hf. specialize (Hf h' Hh'). lia.
  - rewrite lookup_insert_ne by done. apply Hh2.
Qed.

Lemma ssorted_snoc (l : list N) a : StronglySorted N.gt l → Forall (λ x, x > a) l → StronglySorted N.gt (l ++ [a]).
Proof.
  induction l as [|x l IH]; intros Hs Hf; simpl; [repeat constructor|].
  apply StronglySorted_inv in Hs as [Hs Hx]. apply Forall_cons in Hf as [Hxa Hf].
  constructor; [by apply IH|]. apply Forall_app. split; [done|]. by constructor.
Qed.
Lemma local_desc local : StronglySorted N.gt (reverse (bmap_list local)).*1.
Proof.
  rewrite fmap_reverse. pose proof (bmap_list_sorted local) as Hs.
  induction (bmap_list local).*1 as [|k l IH]; [constructor|]. rewrite reverse_cons.
  apply StronglySorted_inv in Hs as [Hs Hf]. specialize (IH Hs).
  apply ssorted_snoc; [done|]. apply Forall_forall. intros a Ha. rewrite elem_of_reverse in Ha.
  rewrite Forall_forall in Hf. specialize (Hf a Ha). pose proof (proj1 (N_ord_lt k a) Hf). lia.
Qed.
Lemma local_in local h : h ∈ (reverse (bmap_list local)).*1 ↔ is_Some (local !! h).
Proof. by rewrite fmap_reverse, elem_of_reverse, is_Some_key. Qed.

Lemma get_tip_safe : safe (get_tip srv) (λ b, bi_height b < u32_max).
Proof.
  apply (safe_bnd _ _ (λ d : N * BlockHash, d.1 < u32_max)).
  - apply safe_req. intros n [h x] E. by eapply et_tip in E.
  - intros d Hd. apply safe_ret. simpl. rewrite N.mod_small; [done|]. unfold u32_max in Hd. lia.
Qed.

Lemma prepare_update_safe fuel local :
  (∀ h, is_Some (local !! h) → h < u32_max) →
  safe (prepare_update srv fuel local) (λ u, upd_ok u ∧ sc_cps u ≠ ∅).
Proof.
  intros Hlocal. induction fuel as [|fuel IH]; simpl; [apply safe_unfinished|].
  apply (safe_bnd _ _ upd_ok).
  { apply prepare_loop_safe; [apply upd_ok_default|apply local_desc|].
    intros h Hh%local_in. split; [by apply Hlocal|]. intros k [x Hk]. unfold sc_default in Hk; simpl in Hk. done. }
  intros u Hu. apply (safe_bnd _ _ (λ b, bi_height b < u32_max)); [apply get_tip_safe|]. intros b Hb.
  destruct (upd_ok_checkpoint_cases u b Hu Hb) as [(u' & cs & E & Hu' & Hc & _)|[e E]].
  - apply (safe_bnd _ _ (λ r, r = Ok (u', cs))); [apply safe_lift; eauto|]. intros r ->. apply safe_ret.
    split; [done|]. rewrite Hc. apply insert_non_empty.
  - apply (safe_bnd _ _ (λ r, r = Err e)); [apply safe_lift; eauto|]. by intros r ->.
Qed.

Section cps.
Context (cps : gmap N BlockHash) (Hcps : cps ≠ ∅).
Lemma upd_tip u : upd_on cps u → ∃ b, latest_checkpoint u = Some b ∧ is_tip u (bi_height b).
Proof using Hcps.
  intros [_ Hc]. destruct (latest_ex u) as [b Hb]; [by rewrite Hc|]. exists b. split; [done|]. apply latest_tip in Hb. apply Hb.
Qed.

Lemma found_safe u tip t raw :
  upd_on cps u → is_tip u tip → t ≤ max_txid → (dbg = true → -1 ≤ raw)%Z →
  ∃ h u' ok, determine_tx_height dbg raw tip t = Ret h ∧ insert_found u t h = Ret (u', ok) ∧
             upd_on cps u' ∧ is_tip u' tip.
Proof using.
  intros [Hu Hc] Htip Ht Hraw. destruct (determine_total dbg raw tip t Hraw) as (h & E & Hh).
  destruct (insert_found_ok u tip t h) as (u' & ok & E' & Hu' & Hc'); [done..|].
  exists h, u', ok. split; [done|]. split; [done|]. split; [split; [done|congruence]|].
  by eapply is_tip_cps; [|done].
Qed.

Lemma outpoint_history_safe o t tip l u full residing spending :
  upd_on cps u → is_tip u tip → (∀ i raw, (i, raw) ∈ l → i ≤ max_txid ∧ (dbg = true → -1 ≤ raw)%Z) →
  safe (outpoint_history dbg srv o t tip l u full residing spending) (λ r, upd_on cps r.1 ∧ is_tip r.1 tip).
Proof using.
  revert u full residing spending. induction l as [|[i raw] l IH]; intros u full residing spending Hu Htip Hl.
  { by apply safe_ret. }
  simpl. destruct (Hl i raw) as [Hi Hraw]; [by left|].
  assert (Hl': ∀ i raw, (i, raw) ∈ l → i ≤ max_txid ∧ (dbg = true → -1 ≤ raw)%Z) by (intros; apply Hl; by right).
  destruct (found_safe u tip i raw) as (h & u' & ok & Eh & Ei & Hu' & Htip'); [done..|].
  assert (Hins: ∀ full' residing' spending',
    safe (bnd (lift (determine_tx_height dbg raw tip i)) (λ h, bnd (lift (insert_found u i h)) (λ r : SparseChain TxHeight * bool,
      if r.2 then outpoint_history dbg srv o t tip l r.1 full' residing' spending' else ret (r.1, None))))
      (λ r, upd_on cps r.1 ∧ is_tip r.1 tip)).
  { intros full' residing' spending'. rewrite Eh.
    apply (safe_bnd _ _ (λ x, x = h)); [apply safe_lift; eauto|]. intros ? ->. rewrite Ei.
    apply (safe_bnd _ _ (λ x, x = (u', ok))); [apply safe_lift; eauto|]. intros ? ->. simpl.
    destruct ok; [by apply IH|by apply safe_ret]. }
  destruct (residing && spending); [by apply safe_ret|].
  destruct (i =? op_txid o).
  - destruct residing; [by apply IH|]. apply Hins.
  - destruct spending; [by apply IH|].
    apply (safe_bnd _ _ (λ _, True)).
    { destruct (full !! i); [by apply safe_ret|by apply safe_req]. }
    intros s _. destruct (existsb _ (tx_in s)); [apply Hins|by apply IH].
Qed.

Lemma outpoints_loop_safe tip l u full :
  upd_on cps u → is_tip u tip →
  safe (outpoints_loop dbg srv tip l u full) (λ r, upd_on cps r.1 ∧ is_tip r.1 tip).
Proof using Htyped.
  revert u full. induction l as [|o l IH]; intros u full Hu Htip; simpl; [by apply safe_ret|].
  apply (safe_bnd _ _ (λ t, dbg = true → txid t = op_txid o)).
  { apply safe_req. intros n t E. by eapply et_tx_out in E as [_ E]. }
  intros t Ht. assert (dbg && negb (txid t =? op_txid o) = false) as ->.
  { destruct dbg; [|done]. simpl. rewrite Ht by done. by rewrite N.eqb_refl. }
  destruct (tx_out t !! N.to_nat (op_vout o)) as [x|]; [|by apply IH].
  apply (safe_bnd _ _ (λ l, ∀ i raw, (i, raw) ∈ l → i ≤ max_txid ∧ (dbg = true → -1 ≤ raw)%Z)).
  { apply safe_req. intros n l' E i raw Hin. by eapply et_history in E. }
  intros hist Hh. apply (safe_bnd _ _ (λ r, upd_on cps r.1 ∧ is_tip r.1 tip)); [by apply outpoint_history_safe|].
  intros [u' [full'|]] [Hu' Htip']; simpl in *; [by apply IH|by apply safe_ret].
Qed.
Lemma populate_with_outpoints_safe u l :
  upd_on cps u → safe (populate_with_outpoints dbg srv u l) (λ r, upd_on cps r.1).
Proof using Htyped Hcps.
  intros Hu. unfold populate_with_outpoints. destruct (upd_tip u Hu) as (b & -> & Htip).
  eapply safe_weaken; [by apply outpoints_loop_safe|]. by intros r [].
Qed.

Lemma txids_loop_safe tip l u :
  upd_on cps u → is_tip u tip → Forall (λ t, t ≤ max_txid) l →
  safe (txids_loop dbg srv tip l u) (λ r, upd_on cps r.1).
Proof using Htyped.
  revert u. induction l as [|i l IH]; intros u Hu Htip Hl; simpl; [by apply safe_ret|].
  apply Forall_cons in Hl as [Hi Hl].
  apply (safe_bnd _ _ (λ a, match a with Ok t => tx_out t ≠ [] | Err _ => True end)).
  { apply safe_ask. intros n. destruct (es_tx (srv n) i) as [t|] eqn:E; [|done]. by eapply et_tx_out in E as [E _]. }
  intros [t|[]] Ht; [|by apply IH|done].
  destruct (tx_out t) as [|x ?]; [done|].
  apply (safe_bnd _ _ (λ l, ∀ i raw, (i, raw) ∈ l → i ≤ max_txid ∧ (dbg = true → -1 ≤ raw)%Z)).
  { apply safe_req. intros n l' E i' raw Hin. by eapply et_history in E. }
  intros hist Hh. destruct (List.find _ hist) as [[i' raw]|] eqn:E; [|by apply IH]. simpl.
  apply find_some_elem in E as [Hin Heq]. simpl in Heq. apply N.eqb_eq in Heq as ->.
  destruct (Hh i raw Hin) as [_ Hraw].
  destruct (found_safe u tip i raw) as (h & u' & ok & Eh & Ei & Hu' & Htip'); [done..|].
  rewrite Eh. apply (safe_bnd _ _ (λ x, x = h)); [apply safe_lift; eauto|]. intros ? ->. rewrite Ei.
  apply (safe_bnd _ _ (λ x, x = (u', ok))); [apply safe_lift; eauto|]. intros ? ->. simpl.
  destruct ok; [by apply IH|by apply safe_ret].
Qed.
Lemma populate_with_txids_safe u l :
  upd_on cps u → Forall (λ t, t ≤ max_txid) l → safe (populate_with_txids dbg srv u l) (λ r, upd_on cps r.1).
Proof using Htyped Hcps.
  intros Hu Hl. unfold populate_with_txids. destruct (upd_tip u Hu) as (b & -> & Htip). by apply txids_loop_safe.
Qed.

Section spks.
Context `{Countable J, !Ord J}.
Implicit Types (scanned : gmap J (Script * bool)).
Lemma spks_batch_safe gap tip (l : list (J * Script * list (Txid * Z))) u unused scanned :
  upd_on cps u → is_tip u tip →
  (∀ e i raw, e ∈ l → (i, raw) ∈ e.2 → i ≤ max_txid ∧ (dbg = true → -1 ≤ raw)%Z) →
  ∃ r, spks_batch dbg gap tip l u unused scanned = Ret r ∧
    match r with BatchReorg u' | BatchStop u' _ | BatchMore u' _ _ => upd_on cps u' ∧ is_tip u' tip end.
Proof using.
  revert u unused scanned. induction l as [|[[i spk] hist] l IH]; intros u unused scanned Hu Htip Hl; simpl; [by eexists|].
  assert (Hl': ∀ e i raw, e ∈ l → (i, raw) ∈ e.2 → i ≤ max_txid ∧ (dbg = true → -1 ≤ raw)%Z)
    by (intros e' i' raw' He'; apply Hl; by right).
  destruct hist as [|h0 hist0].
  - destruct (gap <? unused + 1); [by eexists|]. by apply IH.
  - destruct (insert_history_ok dbg tip cps u (h0 :: hist0)) as (u' & ok & E & Hu'); [done|done| |].
    { intros t raw Hin. apply (Hl _ t raw (elem_of_list_here _ _)). done. }
    rewrite E. cbn [mbind outcome_bind].
    assert (is_tip u' tip) by (eapply is_tip_cps; [|done]; destruct Hu, Hu'; congruence).
    destruct ok; [by apply IH|by eexists].
Qed.
Lemma spks_loop_safe fuel gap batch tip (spks : list (J * Script)) u unused scanned :
  upd_on cps u → is_tip u tip →
  safe (spks_loop dbg srv fuel gap batch tip spks u unused scanned) (λ r, upd_on cps r.1.1).
Proof using Htyped.
  revert spks u unused scanned. induction fuel as [|fuel IH]; intros spks u unused scanned Hu Htip; cbn [spks_loop];
    [apply safe_unfinished|].
  destruct (take batch spks) as [|b0 bl] eqn:Eb; [by apply safe_ret|]. set (bt := b0 :: bl). clearbody bt. clear b0 bl Eb.
  apply (safe_bnd _ _ (λ ls, ∀ l i raw, l ∈ ls → (i, raw) ∈ l → i ≤ max_txid ∧ (dbg = true → -1 ≤ raw)%Z)).
  { apply safe_req. intros n ls E l i raw Hl Hin. by eapply et_histories in E. }
  intros ls Hls.
  destruct (spks_batch_safe gap tip (zip bt ls) u unused scanned) as (r & E & Hr); [done|done| |].
  { intros [a l] i raw Hin. apply elem_of_zip_r in Hin. by apply Hls. }
  rewrite E. apply (safe_bnd _ _ (λ x, x = r)); [apply safe_lift; eauto|]. intros ? ->.
  destruct r; destruct Hr; [by apply safe_ret..|by apply IH].
Qed.
Lemma populate_with_spks_safe gap batch u (spks : list (J * Script)) :
  upd_on cps u → safe (populate_with_spks dbg srv gap batch u spks) (λ r, upd_on cps r.1.1).
Proof using Htyped Hcps.
  intros Hu. unfold populate_with_spks. destruct (upd_tip u Hu) as (b & -> & Htip). by apply spks_loop_safe.
Qed.
End spks.

Section scan.
Context `{Countable K, !Ord K}.
Lemma scan_keychains_safe (gap : N) (batch : nat) (requests : list (K * list (N * Script))) u (scanned : gmap (K * N) (Script * bool)) :
  upd_on cps u → safe (scan_keychains dbg srv gap batch requests u scanned) (λ r, upd_on cps r.1.2).
Proof using Htyped Hcps.
  revert u scanned. induction requests as [|[k spks] requests IH]; intros u scanned Hu; simpl; [by apply safe_ret|].
  eapply safe_bnd; [by apply populate_with_spks_safe|]. intros [[u' rest] new] Hu'.
  eapply safe_bnd; [by apply IH|]. intros [[rs u''] sc] Hu''. by apply safe_ret.
Qed.
Lemma rescan_safe (gap : N) (batch : nat) u (scanned : gmap (K * N) (Script * bool)) :
  upd_on cps u → safe (rescan dbg srv gap batch u scanned) (λ r, upd_on cps r.1).
Proof using Htyped Hcps.
  intros Hu. unfold rescan. case_bool_decide; [by apply safe_ret|].
  eapply safe_bnd; [by apply populate_with_spks_safe|]. intros [[u' rest] new] Hu'. by apply safe_ret.
Qed.
End scan.
End cps.

Lemma scan_loop_safe `{Countable K, !Ord K} (fuel : nat) local (txids : list Txid) (outpoints : list OutPoint)
  (gap : N) (batch : nat) (requests : list (K * list (N * Script)))
  (scanned : gmap (K * N) (Script * bool)) :
  (∀ h, is_Some (local !! h) → h < u32_max) → Forall (λ t, t ≤ max_txid) txids →
  safe (scan_loop dbg srv fuel local txids outpoints gap batch requests scanned) (λ r, upd_ok r.1 ∧ sc_cps r.1 ≠ ∅).
Proof.
  intros Hlocal Htx. revert requests scanned. induction fuel as [|fuel IH]; intros requests scanned.
  { apply safe_unfinished. }
  cbn [scan_loop].
  eapply safe_bnd; [by apply prepare_update_safe|]. intros u [Hu Hne].
  set (cps := sc_cps u) in *. assert (Hu0: upd_on cps u) by done. clearbody cps. clear Hu.
  apply (safe_bnd _ _ (λ r, upd_on cps r.1)).
  { destruct requests; [by apply safe_ret|by apply rescan_safe]. }
  intros [u1 [sc1|]] Hu1; [|by apply IH]. simpl in Hu1.
  eapply safe_bnd; [by apply (scan_keychains_safe cps)|]. intros [[rs u2] sc2] Hu2. simpl in Hu2.
  eapply safe_bnd; [by apply (populate_with_txids_safe cps)|]. intros [u3 ok3] Hu3. simpl in Hu3.
  destruct ok3; [|by apply IH]. simpl.
  eapply safe_bnd; [by apply (populate_with_outpoints_safe cps)|]. intros [u4 [ok4|]] Hu4; [|by apply IH]. simpl in Hu4.
  destruct (upd_tip cps Hne u4 Hu4) as (b & -> & _).
  apply (safe_bnd _ _ (λ _, True)); [by apply safe_req|]. intros y _.
  destruct (bi_hash b =? y); [|by apply IH]. apply safe_ret. simpl. destruct Hu4 as [? ->]. done.
Qed.

(** C59, electrum *)
Lemma scan_safe `{Countable K, !Ord K} (fuel : nat) local (kspks : gmap K (list (N * Script)))
  (txids : list Txid) (outpoints : list OutPoint) (gap : N) (batch : nat) :
  (∀ h, is_Some (local !! h) → h < u32_max) → Forall (λ t, t ≤ max_txid) txids →
  safe (scan dbg srv fuel local kspks txids outpoints gap batch)
    (λ e, usable_update (eu_chain e) ∧ ∃ tip, is_tip (eu_chain e) tip ∧
      ∀ t h, sc_pos (eu_chain e) !! t = Some (Confirmed h) → h ≤ tip).
Proof.
  intros Hlocal Htx. unfold scan. eapply safe_bnd; [by apply scan_loop_safe|]. intros [u sc] [Hu Hne].
  apply safe_ret. simpl in *. split; [split; [apply Hu|split; apply Hu]|]. destruct (upd_tip _ Hne u) as (b & _ & Htip); [by split|]. exists (bi_height b).
  split; [done|]. intros t h Ht. destruct Hu as (_ & _ & _ & Hcbt).
  destruct (Hcbt t _ h Ht eq_refl) as (k & Hk & Hle). destruct Htip as [_ Hm]. specialize (Hm k Hk). lia.
Qed.
End any_server.
