(** A server that reorganises once during an electrum scan (C61): the scripts of one keychain. *)
From Verif Require Export ElectrumProofs5.

Lemma processed_shorter (w : World) {J} (gap un un' : N) (l : list (J * Script)) e : un ≤ un' →
  e ∈ (processed w gap un' l).1 → e ∈ (processed w gap un l).1.
Proof.
  revert un un'. induction l as [|e' l IH]; intros un un' Hle; cbn [processed]; [done|].
  destruct (active w e'.2); [done|]. destruct (N.ltb_spec gap (un' + 1)), (N.ltb_spec gap (un + 1)); cbn [fst]; try done; try lia.
  - rewrite elem_of_list_singleton, elem_of_cons. by left.
  - rewrite !elem_of_cons. intros [?|Hin]; [by left|]. right. eapply IH; [|exact Hin]. lia.
Qed.
(** Only the activity of the scripts matters. *)
Lemma processed_ext (wA wB : World) {J} (gap un : N) (l : list (J * Script)) : (∀ e, e ∈ l → active wA e.2 = active wB e.2) →
  processed wA gap un l = processed wB gap un l.
Proof.
  revert un. induction l as [|e l IH]; intros un Hl; cbn [processed]; [done|]. rewrite (Hl e) by left.
  assert (∀ e, e ∈ l → active wA e.2 = active wB e.2) as Hl' by (intros; apply Hl; by right).
  rewrite !(IH _ Hl'). done.
Qed.

(** A height as one who knows of [T] blocks sees it *)
Definition clip (T : N) (p : TxHeight) : TxHeight := match p with Confirmed h => if T <? h then Unconfirmed else Confirmed h | Unconfirmed => Unconfirmed end.
Lemma height_clip (w : World) dbg T t raw : electrum_height w t raw → determine_tx_height dbg raw T t = Ret (clip T (w_position w t)).
Proof.
  unfold electrum_height, determine_tx_height, w_position. destruct (w_height w t) as [h|] eqn:E.
  - intros [-> Hg]. destruct (N.eqb_spec t genesis_txid) as [Ht|Ht].
    + rewrite (proj2 Hg Ht). cbn [clip]. destruct (N.ltb_spec T 0); [lia|done].
    + destruct (Z.leb_spec (Z.of_N h) 0) as [Hle|Hgt].
      { assert (h = 0) as Hz by lia. by apply Hg in Hz. }
      rewrite N2Z.id. cbn [clip]. by destruct (T <? h).
  - intros [Hraw Hg]. destruct (N.eqb_spec t genesis_txid); [done|].
    destruct (Z.leb_spec raw 0) as [Hle|Hgt]; [|lia].
    assert (dbg && negb ((raw =? 0)%Z || (raw =? -1)%Z) = false) as ->; [|done].
    destruct Hraw as [-> | ->]; by destruct dbg.
Qed.

(** ** Scripts asked about in two worlds that agree on the positions of what they both have *)
Section mixed.
Context (wA wB : World) (HwA : world_ok wA) (HwB : world_ok wB) (dbg : bool).
Context (srv : nat → ESnap) (Hsrv : ∀ n, ∃ w, (w = wA ∨ w = wB) ∧ electrum_honest w (srv n)).
Context (scripts : Script → Prop).
Context (Hstay : ∀ s s' t, scripts s → scripts s' → t ∈ w_history wA s → t ∈ w_history wB s' → w_position wA t = w_position wB t).
Implicit Types (u : SparseChain TxHeight).

Definition seen (T : N) t (p : TxHeight) : Prop := ∃ w s, (w = wA ∨ w = wB) ∧ scripts s ∧ t ∈ w_history w s ∧ p = clip T (w_position w t).
Definition mixed T u : Prop := upd_ok u ∧ is_tip u T ∧ ∀ t p, sc_pos u !! t = Some p → seen T t p.
Lemma seen_same T t p q : seen T t p → seen T t q → p = q.
Proof using Hstay.
  intros (w & s & Hw & Hs & Ht & ->) (w' & s' & Hw' & Hs' & Ht' & ->). f_equal.
  destruct Hw as [->| ->], Hw' as [->| ->]; [done|exact (Hstay s s' t Hs Hs' Ht Ht')|symmetry; exact (Hstay s' s t Hs' Hs Ht' Ht)|done].
Qed.
Lemma insert_found_mixed T u t p : mixed T u → seen T t p → t ≤ max_txid → ∃ u', insert_found u t p = Ret (u', true) ∧ mixed T u'.
Proof using Hstay.
  intros (Hu & Htip & Hp) Hs Ht. unfold insert_found.
  destruct (upd_ok_insert_tx u t p) as (u' & cs & -> & Hu' & Hc' & Hp'); [done|done| |].
  { split.
    - intros h Hh. exists T. split; [apply Htip|]. destruct Hs as (w & s & _ & _ & _ & ->). destruct (w_position w t) as [k|]; cbn [clip] in Hh; [|done].
      destruct (N.ltb_spec T k) as [|Hk]; [done|]. cbn in Hh. by injection Hh as ->.
    - intros q Hq _. eapply seen_same; [by apply Hp|done]. }
  exists u'. split; [done|]. split; [done|]. split; [by eapply is_tip_cps; [|done]|].
  intros t' q. rewrite Hp'. destruct (decide (t = t')) as [<-|Hne]; [rewrite lookup_insert; by intros [= <-]|].
  rewrite lookup_insert_ne by done. apply Hp.
Qed.
Lemma insert_history_mixed T w s u hist : w = wA ∨ w = wB → scripts s → mixed T u →
  (∀ t raw, (t, raw) ∈ hist → t ∈ w_history w s ∧ electrum_height w t raw ∧ t ≤ max_txid) →
  ∃ u', insert_history dbg T u hist = Ret (u', true) ∧ mixed T u'.
Proof using Hstay.
  intros Hw Hs. revert u. induction hist as [|[t raw] hist IH]; intros u Hu Hl; cbn [insert_history]; [by exists u|].
  destruct (Hl t raw) as (Hin & Hraw & Ht); [by left|]. rewrite (height_clip w) by done. cbn [mbind outcome_bind].
  destruct (insert_found_mixed T u t (clip T (w_position w t)) Hu) as (u1 & -> & Hu1); [by exists w, s|done|]. cbn [mbind outcome_bind].
  apply IH; [done|]. intros; apply Hl; by right.
Qed.

Section spks.
Context `{Countable J, !Ord J}.
Implicit Types (scanned : gmap J (Script * bool)) (l : list (J * Script)).
(** [p] has been looked at, on top of [scanned] *)
Definition noted scanned p scanned' : Prop :=
  (∀ i, i ∉ p.*1 → scanned' !! i = scanned !! i) ∧
  ∀ i s, (i, s) ∈ p → ∃ b s', (i, s') ∈ p ∧ scanned' !! i = Some (s', b) ∧ (b = true → active wA s' = true ∨ active wB s' = true).
Lemma noted_of p scanned' i s b : noted ∅ p scanned' → scanned' !! i = Some (s, b) → (i, s) ∈ p ∧ (b = true → active wA s = true ∨ active wB s = true).
Proof using.
  intros [N1 N2] E. destruct (decide (i ∈ p.*1)) as [Hp|Hp].
  - apply elem_of_list_fmap in Hp as ([j s''] & -> & Hp). destruct (N2 _ _ Hp) as (b' & s3 & H3 & E' & Hf). cbn [fst] in E. rewrite E in E'. by injection E' as -> ->.
  - rewrite N1 in E by done. by rewrite lookup_empty in E.
Qed.
Lemma noted_nil scanned : noted scanned [] scanned.
Proof using. split; [done|]. by intros i s ?%elem_of_nil. Qed.
Lemma noted_cons scanned i s b p scanned' : (b = true → active wA s = true ∨ active wB s = true) →
  noted (<[i := (s, b)]> scanned) p scanned' → noted scanned ((i, s) :: p) scanned'.
Proof using.
  intros Hb [N1 N2]. split.
  - intros j Hj. cbn in Hj. apply not_elem_of_cons in Hj as [Hne Hj]. rewrite N1 by done. by apply lookup_insert_ne.
  - intros j s' [[= -> ->]|Hin]%elem_of_cons.
    + destruct (decide (i ∈ p.*1)) as [Hp|Hp].
      * apply elem_of_list_fmap in Hp as ([j s''] & -> & Hp). destruct (N2 _ _ Hp) as (b' & s3 & H3 & ? & ?). exists b', s3. split; [by right|done].
      * exists b, s. split; [left|]. rewrite N1, lookup_insert by done. done.
    + destruct (N2 _ _ Hin) as (b' & s3 & H3 & ? & ?). exists b', s3. split; [by right|done].
Qed.
Lemma noted_app scanned p1 s1 p2 s2 : noted scanned p1 s1 → noted s1 p2 s2 → noted scanned (p1 ++ p2) s2.
Proof using.
  intros [N1 N2] [M1 M2]. split.
  - intros i Hi. rewrite fmap_app, not_elem_of_app in Hi. destruct Hi. rewrite M1 by done. by apply N1.
  - intros i s Hin. destruct (decide (i ∈ p2.*1)) as [Hp|Hp].
    + apply elem_of_list_fmap in Hp as ([j s'] & -> & Hp). destruct (M2 _ _ Hp) as (b & s3 & ? & ? & ?). exists b, s3. split; [apply elem_of_app; by right|done].
    + apply elem_of_app in Hin as [Hin|Hin]; [|exfalso; apply Hp; apply elem_of_list_fmap; by exists (i, s)].
      destruct (N2 _ _ Hin) as (b & s3 & ? & ? & ?). exists b, s3. rewrite M1 by done. split; [apply elem_of_app; by left|done].
Qed.
(** What may have been looked at of a list, and what is left of it: batches are taken from the list as a whole, so what
    comes after the last script looked at is lost. *)
Definition looked (gap un : N) (batch : nat) l p (lost rest : list (J * Script)) (un' : option N) : Prop :=
  l = p ++ lost ++ rest ∧ (batch = 1%nat → lost = []) ∧
  (un' ≠ None → lost = [] ∧ rest = []) ∧
  ((∀ e, e ∈ l → active wA e.2 = active wB e.2) → processed wB gap un l = (p, un')).

Lemma spks_batch_mixed T w gap l hists u un scanned : w = wA ∨ w = wB → (∀ e, e ∈ l → scripts e.2) → mixed T u →
  Forall2 (electrum_history w) l.*2 hists →
  ∃ u' scanned', spks_batch dbg gap T (zip l hists) u un scanned =
      Ret (match processed w gap un l with (_, None) => BatchStop u' scanned' | (_, Some un') => BatchMore u' un' scanned' end) ∧
    mixed T u' ∧ noted scanned (processed w gap un l).1 scanned'.
Proof using HwA HwB Hstay.
  intros Hw. revert hists u un scanned. induction l as [|[i s] l IH]; intros hists u un scanned Hl Hu Hh.
  { apply Forall2_nil_inv_l in Hh as ->. exists u, scanned. split; [done|]. split; [done|apply noted_nil]. }
  cbn [fmap list_fmap] in Hh. apply Forall2_cons_inv_l in Hh as (hist & hists' & Hhist & Hh & ->). cbn [zip_with spks_batch processed snd].
  assert (∀ e, e ∈ l → scripts e.2) as Hl' by (intros; apply Hl; by right). pose proof (Hl (i, s) ltac:(left)) as Hs. cbn in Hs.
  pose proof (proj1 Hhist) as Hfst. cbn [snd] in Hfst. destruct (active w s) eqn:Ea.
  - destruct hist as [|h0 hist0].
    { cbn in Hfst. unfold active in Ea. by rewrite <- Hfst in Ea. }
    assert (world_ok w) as Hwok by (by destruct Hw as [->| ->]).
    destruct (insert_history_mixed T w s u (h0 :: hist0) Hw Hs Hu) as (u1 & E1 & Hu1).
    { intros t raw Hin. destruct (history_entries w Hwok s _ Hhist t raw Hin). split; [|done]. rewrite <- Hfst. apply elem_of_list_fmap. by exists (t, raw). }
    rewrite E1. cbn [mbind outcome_bind]. destruct (IH hists' u1 0 (<[i:=(s, true)]> scanned) Hl' Hu1 Hh) as (u' & sc' & -> & Hu' & Hn).
    exists u', sc'. cbn [fst snd]. split; [by destruct (processed w gap 0 l) as [? []]|]. split; [done|].
    eapply noted_cons; [|exact Hn]. intros _. by destruct Hw as [->| ->]; [left|right].
  - assert (w_history w s = []) as Hact by (unfold active in Ea; by apply negb_false_iff, bool_decide_eq_true in Ea).
    assert (hist = []) as -> by (apply (fmap_nil_inv fst); by rewrite Hfst).
    destruct (gap <? un + 1) eqn:Eg.
    + exists u, (<[i:=(s, false)]> scanned). split; [done|]. split; [done|]. cbn [fst]. eapply noted_cons; [|apply noted_nil]. done.
    + destruct (IH hists' u (un + 1) (<[i:=(s, false)]> scanned) Hl' Hu Hh) as (u' & sc' & -> & Hu' & Hn).
      exists u', sc'. cbn [fst snd]. split; [by destruct (processed w gap (un + 1) l) as [? []]|]. split; [done|]. eapply noted_cons; [|exact Hn]. done.
Qed.
Lemma processed_all (w : World) (gap un : N) l p un' : processed w gap un l = (p, Some un') → p = l.
Proof using.
  revert un p un'. induction l as [|e l IH]; intros un p un'; cbn [processed]; [by intros [= <- _]|].
  destruct (active w e.2).
  - destruct (processed w gap 0 l) as [p1 o1] eqn:E. cbn. intros [= <- ->]. f_equal. by eapply IH.
  - destruct (gap <? un + 1); [done|]. destruct (processed w gap (un + 1) l) as [p1 o1] eqn:E. cbn. intros [= <- ->]. f_equal. by eapply IH.
Qed.
Lemma spks_loop_mixed T fuel gap batch l u un scanned : (∀ e, e ∈ l → scripts e.2) → mixed T u → (0 < batch)%nat → (length l < fuel)%nat →
  ends (spks_loop dbg srv fuel gap batch T l u un scanned) (λ r, ∃ p lost un' scanned', r.2 = Some scanned' ∧ mixed T r.1.1 ∧
    looked gap un batch l p lost r.1.2 un' ∧ noted scanned p scanned').
Proof using HwA HwB Hstay Hsrv.
  revert l u un scanned. induction fuel as [|fuel IH]; intros l u un scanned Hl Hu Hb Hf; [lia|].
  cbn [spks_loop]. destruct (take batch l) as [|b0 bl] eqn:Eb.
  { destruct l as [|e l]; [|destruct batch; [lia|done]]. apply ends_ret. exists [], [], (Some un), scanned. cbn [fst snd]. split; [done|]. split; [done|].
    split; [|apply noted_nil]. repeat split; done. }
  assert (Hlen: (length (drop batch l) < length l)%nat).
  { rewrite drop_length. destruct l; [by destruct batch|]. simpl. lia. }
  assert (Hl0: l = (b0 :: bl) ++ drop batch l) by (rewrite <- Eb; by rewrite take_drop).
  assert (batch = 1%nat → bl = []) as Hone.
  { intros ->. destruct l; [done|]. cbn in Eb. by injection Eb as _ <-. }
  set (rest := drop batch l) in *. clearbody rest. clear Eb. subst l.
  apply (ends_bnd _ _ (λ ls, ∃ w, (w = wA ∨ w = wB) ∧ Forall2 (electrum_history w) (b0 :: bl).*2 ls)).
  { apply ends_req. intros n. destruct (Hsrv n) as (w & Hw & Hh). destruct (eh_histories w _ Hh (b0 :: bl).*2) as (ls & -> & Hls). eauto. }
  intros ls (w & Hw & Hls).
  destruct (spks_batch_mixed T w gap (b0 :: bl) ls u un scanned Hw ltac:(intros; apply Hl; apply elem_of_app; by left) Hu Hls) as (u1 & sc1 & -> & Hu1 & Hn1).
  assert ((∀ e, e ∈ (b0 :: bl) ++ rest → active wA e.2 = active wB e.2) → processed wB gap un (b0 :: bl) = processed w gap un (b0 :: bl)) as Hsame.
  { intros Hact. destruct Hw as [->| ->]; [|done]. symmetry. apply processed_ext. intros e He. apply Hact. apply elem_of_app. by left. }
  pose proof (processed_prefix w gap un (b0 :: bl)) as [lost0 Hlost].
  assert (batch = 1%nat → lost0 = []) as Hlost1.
  { intros Hone'. specialize (Hone Hone'). subst bl. cbn [processed] in Hlost. destruct (active w b0.2); [by destruct lost0|].
    destruct (gap <? un + 1); by destruct lost0. }
  destruct (processed w gap un (b0 :: bl)) as [p1 [un1|]] eqn:Ep; cbn [fst] in Hn1, Hlost.
  - pose proof (processed_all _ _ _ _ _ _ Ep) as ->.
    apply (ends_bnd _ _ (λ r, r = BatchMore u1 un1 sc1)); [apply ends_lift; eauto|]. intros r ->.
    eapply ends_weaken; [apply IH; [intros; apply Hl; apply elem_of_app; by right|done|done|lia]|].
    intros [[u2 rest'] o] (p2 & lost & un2 & sc2 & Ho & Hu2 & (L1 & L2 & L3 & L4) & Hn2). cbn [fst snd] in *.
    exists ((b0 :: bl) ++ p2), lost, un2, sc2. split; [done|]. split; [done|]. split; [|by eapply noted_app].
    split; [rewrite L1; by rewrite <- !app_assoc|]. split; [done|]. split; [done|]. intros Hact. rewrite processed_app, Hsame by done.
    rewrite L4; [done|]. intros; apply Hact; apply elem_of_app; by right.
  - apply (ends_bnd _ _ (λ r, r = BatchStop u1 sc1)); [apply ends_lift; eauto|]. intros r ->. apply ends_ret.
    exists p1, lost0, None, sc1. cbn [fst snd]. split; [done|]. split; [done|]. split; [|done]. split; [by rewrite Hlost, <- app_assoc|].
    split; [done|]. split; [done|]. intros Hact. rewrite processed_app, Hsame by done. done.
Qed.
Lemma populate_mixed T gap batch l u : (∀ e, e ∈ l → scripts e.2) → mixed T u → (0 < batch)%nat →
  ends (populate_with_spks dbg srv gap batch u l) (λ r, ∃ p lost un' scanned', r.2 = Some scanned' ∧ mixed T r.1.1 ∧
    looked gap 0 batch l p lost r.1.2 un' ∧ noted ∅ p scanned').
Proof using HwA HwB Hstay Hsrv.
  intros Hl Hu Hb. unfold populate_with_spks.
  assert (∃ x, latest_checkpoint u = Some (mkBlockId T x)) as (x & ->).
  { destruct Hu as (_ & Htip & _). pose proof (proj1 Htip) as [x Hx]. exists x. by apply latest_tip. }
  cbv beta iota zeta. cbn [bi_height]. apply spks_loop_mixed; [done|done|done|lia].
Qed.
End spks.
End mixed.

(** ** Lists that are sorted by their keys *)
Lemma sorted_pairs {A B} `{!Ord A, !OrdLaws A} (l : list (A * B)) : StronglySorted ord_lt l.*1 → StronglySorted (λ a b : A * B, ord_lt a.1 b.1) l.
Proof.
  induction l as [|e l IH]; intros Hs; [constructor|]. cbn in Hs. apply StronglySorted_inv in Hs as [Hs Hf]. constructor; [by apply IH|].
  rewrite Forall_forall in Hf. apply Forall_forall. intros x Hx. apply Hf. apply elem_of_list_fmap. by exists x.
Qed.
Lemma sorted_same {A B} `{!Ord A, !OrdLaws A} (l1 l2 : list (A * B)) : StronglySorted ord_lt l1.*1 → StronglySorted ord_lt l2.*1 →
  (∀ e, e ∈ l1 ↔ e ∈ l2) → l1 = l2.
Proof.
  intros H1 H2 He. apply sorted_pairs in H1, H2.
  assert (∀ l : list (A * B), StronglySorted (λ a b : A * B, ord_lt a.1 b.1) l → NoDup l) as Hnd.
  { induction l as [|e l IH]; intros Hs; [constructor|]. apply StronglySorted_inv in Hs as [Hs Hf]. constructor; [|by apply IH].
    intros Hin. rewrite Forall_forall in Hf. specialize (Hf e Hin). by apply ord_lt_irrefl in Hf. }
  assert (AntiSymm eq (λ a b : A * B, ord_lt a.1 b.1)) as Hanti.
  { intros a b Ha Hb. exfalso. apply (ord_lt_irrefl a.1). by apply (ord_lt_trans a.1 b.1 a.1). }
  apply (@StronglySorted_unique _ _ Hanti); [done|done|apply NoDup_Permutation; auto].
Qed.
Lemma processed_map (w : World) {J J'} (f : J → J') (gap un : N) (l : list (J * Script)) :
  processed w gap un ((λ e, (f e.1, e.2)) <$> l) = ((λ e, (f e.1, e.2)) <$> (processed w gap un l).1, (processed w gap un l).2).
Proof.
  revert un. induction l as [|[i s] l IH]; intros un; cbn [processed fmap list_fmap fst snd]; [done|].
  destruct (active w s); [|destruct (gap <? un + 1); [done|]]; cbn [fst snd]; change (list_fmap _ _ ?g ?l) with (g <$> l); by rewrite IH.
Qed.
Lemma processed_idem (w : World) {J} (gap un : N) (l : list (J * Script)) p : processed w gap un l = (p, None) → processed w gap un p = (p, None).
Proof.
  revert un p. induction l as [|e l IH]; intros un p; cbn [processed]; [done|]. destruct (active w e.2) eqn:Ea.
  - destruct (processed w gap 0 l) as [p1 o] eqn:E. cbn. intros [= <- ->]. cbn [processed]. rewrite Ea, (IH _ _ E). done.
  - destruct (gap <? un + 1) eqn:Eg; [intros [= <-]; cbn [processed]; by rewrite Ea, Eg|].
    destruct (processed w gap (un + 1) l) as [p1 o] eqn:E. cbn. intros [= <- ->]. cbn [processed]. rewrite Ea, Eg, (IH _ _ E). done.
Qed.
Lemma processed_stop (w : World) {J} (gap un un' : N) (l : list (J * Script)) : un ≤ un' → (processed w gap un l).2 = None → (processed w gap un' l).2 = None.
Proof.
  revert un un'. induction l as [|e l IH]; intros un un' Hle; cbn [processed]; [done|]. destruct (active w e.2); [done|].
  destruct (N.ltb_spec gap (un + 1)), (N.ltb_spec gap (un' + 1)); cbn [snd]; try done; try lia. apply IH. lia.
Qed.

Section reorg.
Context (wA wB : World) (HwA : world_ok wA) (HwB : world_ok wB) (dbg : bool).
Context (srv : nat → ESnap) (n0 : nat).
Context (HA : ∀ n, (n < n0)%nat → electrum_honest wA (srv n)) (HB : ∀ n, (n0 ≤ n)%nat → electrum_honest wB (srv n)).
Context (local : gmap N BlockHash) (Hlocal : ∀ h, is_Some (local !! h) → h ≤ w_tip wA).
Context (Hlen : w_tip wA ≤ w_tip wB).
Context `{Countable K, !Ord K, !OrdLaws K}.
Context (txids : list Txid) (outpoints : list OutPoint) (gap : N) (batch : nat).
Context (Hbatch : (0 < batch)%nat) (Htx : Forall (λ t, t ≤ max_txid) txids).
Context (Hops : Forall (λ o, is_Some (w_tx wB (op_txid o))) outpoints).
Context (Hgone : w_block wB (w_tip wA) ≠ w_block wA (w_tip wA)).
Context (Htyped : ∀ n, electrum_typed dbg (srv n)).
Context (k : K) (l : list (N * Script)) (Hsort : StronglySorted N.lt l.*1).
Notation scripts := (λ s : Script, s ∈ l.*2).
Context (Hstay : ∀ s s' t, scripts s → scripts s' → t ∈ w_history wA s → t ∈ w_history wB s' → w_position wA t = w_position wB t).
Context (Hmode : batch = 1%nat ∨ ∀ e, e ∈ l → active wA e.2 = active wB e.2).
Implicit Types (u : SparseChain TxHeight) (sc : gmap (K * N) (Script * bool)) (sl rest : list (N * Script)).

Lemma mixed_srv n : ∃ w, (w = wA ∨ w = wB) ∧ electrum_honest w (srv n).
Proof using HA HB. destruct (decide (n < n0)%nat); [exists wA; split; [by left|by apply HA]|exists wB; split; [by right|]; apply HB; by apply Nat.nlt_ge]. Qed.

(** What has been scanned *)
Definition holds sl sc : Prop :=
  (∀ k' i s b, sc !! (k', i) = Some (s, b) → k' = k ∧ (i, s) ∈ sl ∧ (b = true → active wA s = true ∨ active wB s = true)) ∧
  ∀ i s, (i, s) ∈ sl → ∃ b, sc !! (k, i) = Some (s, b).
Definition covers sl rest : Prop :=
  (sl ++ rest) `sublist_of` l ∧
  (l = sl ++ rest ∨ ∃ dn x tail, sl = dn ++ x ∧ l = dn ++ tail ∧ (processed wB gap 0 dn).2 = None).
Definition state rest sc : Prop := ∃ sl, holds sl sc ∧ covers sl rest.

Lemma one_script i s s' : (i, s) ∈ l → (i, s') ∈ l → s = s'.
Proof using Hsort.
  clear -Hsort. induction l as [|[j r] l' IH]; [by intros ?%elem_of_nil|]. cbn in Hsort. apply StronglySorted_inv in Hsort as [Hs Hf].
  rewrite Forall_forall in Hf. assert (∀ i s, (i, s) ∈ l' → j < i) as Hlt.
  { intros i0 s0 Hin. apply Hf. apply elem_of_list_fmap. by exists (i0, s0). }
  intros [[= -> ->]|H1]%elem_of_cons [[= <-]|H2]%elem_of_cons; [done| | |by apply (IH Hs)].
  - apply Hlt in H2. lia.
  - subst. apply Hlt in H1. lia.
Qed.
Lemma sub_in sl rest : covers sl rest → ∀ e, e ∈ sl ∨ e ∈ rest → e ∈ l.
Proof using. intros [Hs _] e He. eapply elem_of_submseteq; [|by apply sublist_submseteq]. apply elem_of_app. done. Qed.
Lemma sub_sorted (l1 l2 : list (N * Script)) : l1 `sublist_of` l2 → StronglySorted N.lt l2.*1 → StronglySorted N.lt l1.*1.
Proof using.
  induction 1 as [|x l1 l2 Hs IH|x l1 l2 Hs IH]; cbn; [done| |]; intros [Hl2 Hf]%StronglySorted_inv; [|by apply IH].
  constructor; [by apply IH|]. rewrite Forall_forall in Hf. apply Forall_forall. intros y Hy. apply Hf.
  apply elem_of_list_fmap in Hy as (e & -> & He). apply elem_of_list_fmap. exists e. split; [done|]. eapply elem_of_submseteq; [exact He|by apply sublist_submseteq].
Qed.
(** The scripts of a second look *)
Lemma holds_list sl rest sc : holds sl sc → covers sl rest →
  (λ e : K * N * (Script * bool), (e.1, e.2.1)) <$> bmap_list sc = (λ e : N * Script, ((k, e.1), e.2)) <$> sl.
Proof using Hsort OrdLaws0.
  intros [H1 H2] Hc. apply sorted_same.
  - rewrite <- list_fmap_compose. cbn. change (StronglySorted ord_lt (bmap_list sc).*1). apply bmap_list_sorted.
  - rewrite <- list_fmap_compose. destruct Hc as [Hs _]. assert (sl `sublist_of` l) as Hsl by (etrans; [apply sublist_inserts_r; reflexivity|exact Hs]).
    apply (sub_sorted _ _ Hsl) in Hsort. clear -Hsort OrdLaws0. induction sl as [|e sl IH]; cbn in *; [constructor|].
    apply StronglySorted_inv in Hsort as [Hs Hf]. constructor; [by apply IH|]. rewrite Forall_forall in Hf. apply Forall_forall. intros x Hx.
    apply elem_of_list_fmap in Hx as (e' & -> & He'). cbn. apply prod_ord_lt. right. split; [done|]. apply N_ord_lt. apply Hf. apply elem_of_list_fmap. by exists e'.
  - intros [[k' i] s]. rewrite !elem_of_list_fmap. split.
    + intros ([[k1 i1] [s1 b]] & [= -> -> ->] & He). apply elem_of_bmap_list in He. apply H1 in He as (-> & Hin & _). by exists (i1, s1).
    + intros ([i1 s1] & [= -> -> ->] & He). destruct (H2 _ _ He) as [b Hb]. exists ((k, i1), (s1, b)). split; [done|]. by apply elem_of_bmap_list.
Qed.

Notation mix := (mixed wA wB scripts).
(** A second look keeps what is held. *)
Lemma rescan_mixed T u sl rest sc : holds sl sc → covers sl rest → mix T u →
  ends (rescan dbg srv gap batch u sc) (λ r, ∃ sc', r.2 = Some sc' ∧ mix T r.1 ∧ holds sl sc').
Proof using HwA HwB HA HB Hbatch Hsort Hstay OrdLaws0.
  intros Hh Hc Hu. unfold rescan. case_bool_decide; [apply ends_ret; by exists sc|]. rewrite (holds_list sl rest sc Hh Hc).
  eapply ends_bnd; [apply (populate_mixed wA wB HwA HwB dbg srv mixed_srv scripts Hstay T); [|exact Hu|done]|].
  { intros e He. apply elem_of_list_fmap in He as ([i s] & -> & He). cbn. apply elem_of_list_fmap. exists (i, s). split; [done|].
    eapply sub_in; [exact Hc|by left]. }
  intros [[u1 rest1] o] (p & lost & un' & new & Ho & Hu1 & (L1 & _) & Hn). cbn [fst snd] in *. subst o. apply ends_ret.
  exists (new ∪ sc). cbn [fst snd]. split; [done|]. split; [done|]. destruct Hh as [H1 H2].
  assert (∀ e, e ∈ p → ∃ i s, e = ((k, i), s) ∧ (i, s) ∈ sl) as Hp.
  { intros e He. assert (e ∈ (λ e : N * Script, ((k, e.1), e.2)) <$> sl) as Hin by (rewrite L1; apply elem_of_app; by left).
    apply elem_of_list_fmap in Hin as ([i s] & -> & Hin). by exists i, s. }
  assert (∀ k' i s b, new !! (k', i) = Some (s, b) → k' = k ∧ (i, s) ∈ sl ∧ (b = true → active wA s = true ∨ active wB s = true)) as Hnew.
  { intros k' i s b E. destruct (noted_of _ _ _ _ _ _ _ Hn E) as [Hin Hf]. destruct (Hp _ Hin) as (i1 & s1 & [= -> -> ->] & Hi). done. }
  split.
  - intros k' i s b [E|[_ E]]%lookup_union_Some_raw; [by apply Hnew|by apply H1].
  - intros i s Hin. destruct (new !! (k, i)) as [[s' b']|] eqn:E.
    + destruct (Hnew _ _ _ _ E) as (_ & Hin' & _). assert (s = s') as -> by (eapply (one_script i); eapply sub_in; eauto).
      exists b'. by apply lookup_union_Some_l.
    + destruct (H2 _ _ Hin) as [b Hb]. exists b. by rewrite lookup_union_r.
Qed.
(** Going on adds what is looked at. *)
Lemma keychain_mixed T u sl rest sc : holds sl sc → covers sl rest → mix T u →
  ends (scan_keychains dbg srv gap batch [(k, rest)] u sc) (λ r, ∃ rest', r.1.1 = [(k, rest')] ∧ state rest' r.2).
Proof using HwA HwB HA HB Hbatch Hsort Hstay Hmode OrdLaws0.
  intros Hh Hc Hu. cbn [scan_keychains].
  eapply ends_bnd; [apply (populate_mixed wA wB HwA HwB dbg srv mixed_srv scripts Hstay T); [|exact Hu|done]|].
  { intros [i s] He. cbn. apply elem_of_list_fmap. exists (i, s). split; [done|]. eapply sub_in; [exact Hc|by right]. }
  intros [[u1 rest1] o] (p & lost & un' & new & Ho & Hu1 & (L1 & L2 & L3 & L4) & Hn). cbn [fst snd] in *. subst o.
  apply (ends_bnd _ _ (λ r, r = ([], u1, add_keychain_spks k new sc))); [by apply ends_ret|]. intros ? ->. apply ends_ret. cbn [fst snd].
  exists rest1. split; [done|]. exists (sl ++ p). destruct Hh as [H1 H2]. split; [split|split].
  - intros k' i s b. rewrite add_keychain_spks_lookup. intros [[-> E]|[_ E]].
    + destruct (noted_of _ _ _ _ _ _ _ Hn E) as [Hin Hf]. split; [done|]. split; [apply elem_of_app; by right|done].
    + destruct (H1 _ _ _ _ E) as (-> & Hin & Hf). split; [done|]. split; [apply elem_of_app; by left|done].
  - intros i s Hin. destruct (new !! i) as [[s' b']|] eqn:E.
    + destruct (noted_of _ _ _ _ _ _ _ Hn E) as [Hin' _].
      assert (s = s') as ->.
      { eapply (one_script i); eapply sub_in; [exact Hc|apply elem_of_app in Hin as [Hin|Hin]; [by left|right; rewrite L1; apply elem_of_app; by left]|exact Hc|].
        right. rewrite L1. apply elem_of_app. by left. }
      exists b'. apply add_keychain_spks_lookup. by left.
    + apply elem_of_app in Hin as [Hin|Hin].
      * destruct (H2 _ _ Hin) as [b Hb]. exists b. apply add_keychain_spks_lookup. right. split; [by right|done].
      * destruct Hn as [_ N2]. destruct (N2 _ _ Hin) as (b & s' & _ & E' & _). congruence.
  - destruct Hc as [Hs _]. etrans; [|exact Hs]. rewrite <- app_assoc. apply sublist_app; [done|]. rewrite L1. apply sublist_app; [done|]. by apply sublist_inserts_l.
  - destruct Hc as [_ [Hl|(dn & x & tail & -> & -> & Hstop)]].
    2: { right. exists dn, (x ++ p), tail. by rewrite <- app_assoc. }
    destruct Hmode as [H1b|Hact].
    { left. rewrite Hl, L1, (L2 H1b), <- app_assoc. done. }
    rewrite Hl in Hact. specialize (L4 (λ e He, Hact e (proj2 (elem_of_app _ _ _) (or_intror He)))).
    destruct un' as [un'|].
    + destruct L3 as [-> ->]; [done|]. left. rewrite Hl, L1. by rewrite !app_nil_r.
    + right. exists (sl ++ p), [], (lost ++ rest1). rewrite app_nil_r. split; [done|]. split; [rewrite Hl, L1; by rewrite <- app_assoc|].
      rewrite processed_app. destruct (processed wB gap 0 sl) as [p0 [un0|]]; [|done]. cbn [snd].
      apply (processed_stop _ _ 0); [apply N.le_0_l|]. by rewrite (processed_idem _ _ _ _ _ L4).
Qed.

(** A second look in the new world *)
Lemma rescan_found (cps : gmap N BlockHash) u sl rest sc : holds sl sc → covers sl rest → true_upd wB cps u →
  ends (rescan dbg (srvB srv n0) gap batch u sc) (λ r, grows wB cps u r.1 (histories wB (processed wB gap 0 sl).1) ∧
    ∃ sc', r.2 = Some sc' ∧ holds sl sc' ∧ ∀ i s, (i, s) ∈ (processed wB gap 0 sl).1 → sc' !! (k, i) = Some (s, active wB s)).
Proof using HwB HB Hbatch Hsort OrdLaws0.
  intros Hh Hc Hu. unfold rescan. case_bool_decide as He.
  { apply ends_ret. assert (sl = []) as ->.
    { destruct sl as [|[i s] sl]; [done|]. destruct (proj2 Hh i s ltac:(left)) as [b Hb]. by rewrite He, lookup_empty in Hb. }
    cbn. split; [by apply grows_refl|]. exists sc. split; [done|]. split; [done|]. by intros i s ?%elem_of_nil. }
  rewrite (holds_list sl rest sc Hh Hc).
  eapply ends_bnd; [by apply (populate_with_spks_true wB HwB dbg (srvB srv n0) (srvB_honest wB srv n0 HB) cps)|].
  intros [[u1 rest1] o] (rest' & Ho & Hg). cbn [fst snd] in *. injection Ho as -> ->. apply ends_ret. cbn [fst snd].
  rewrite (processed_map wB (pair k)) in Hg |- *. cbn [fst] in *. set (pr := (processed wB gap 0 sl).1) in *.
  assert (pr `prefix_of` sl) as Hpre by apply processed_prefix. destruct Hpre as [tail Hpre].
  split.
  { unfold histories in *. rewrite list_fmap_bind in Hg. exact Hg. }
  exists (record wB ((λ e : N * Script, ((k, e.1), e.2)) <$> pr) ∅ ∪ sc). split; [done|]. destruct Hh as [H1 H2].
  assert (NoDup ((λ e : N * Script, ((k, e.1), e.2)) <$> pr).*1) as Hnd.
  { rewrite <- list_fmap_compose. change (NoDup ((λ e : N * Script, (k, e.1)) <$> pr)).
    assert (pr `sublist_of` l) as Hsub.
    { etrans; [|exact (proj1 Hc)]. rewrite Hpre, <- app_assoc. by apply sublist_inserts_r. }
    apply (sub_sorted _ _ Hsub) in Hsort. clear -Hsort. induction pr as [|e pr IH]; [constructor|]. cbn in Hsort.
    apply StronglySorted_inv in Hsort as [Hs Hf]. constructor; [|by apply IH]. intros Hin. apply elem_of_list_fmap in Hin as (e' & [= Ee] & Hin).
    rewrite Forall_forall in Hf. specialize (Hf e'.1). rewrite Ee in Hf. apply (N.lt_irrefl e'.1), Hf. apply elem_of_list_fmap. by exists e'. }
  assert (∀ i s, (i, s) ∈ pr → (record wB ((λ e : N * Script, ((k, e.1), e.2)) <$> pr) ∅ ∪ sc) !! (k, i) = Some (s, active wB s)) as Hrec.
  { intros i s Hin. apply lookup_union_Some_l. apply record_lookup; [done|]. split; [|done]. apply elem_of_list_fmap. by exists (i, s). }
  split; [|done]. split.
  - intros k' i s b [E|[_ E]]%lookup_union_Some_raw; [|by apply H1]. apply record_lookup in E as [Hin ->]; [|done].
    apply elem_of_list_fmap in Hin as ([i1 s1] & [= -> -> ->] & Hin). split; [done|]. split; [|by right]. rewrite Hpre. apply elem_of_app. by left.
  - intros i s Hin. destruct (H2 _ _ Hin) as [b Hb]. destruct (record wB ((λ e : N * Script, ((k, e.1), e.2)) <$> pr) ∅ !! (k, i)) as [[s' b']|] eqn:E.
    + pose proof E as E0. apply record_lookup in E as [Hin' ->]; [|done]. apply elem_of_list_fmap in Hin' as ([i1 s1] & [= -> ->] & Hin').
      assert (s = s1) as ->.
      { eapply (one_script i1); eapply sub_in; [exact Hc|by left|exact Hc|left]. rewrite Hpre. apply elem_of_app. by left. }
      eexists. by apply lookup_union_Some_l.
    + exists b. by rewrite lookup_union_r.
Qed.

(** What the scan says about the scripts *)
Definition scripts_found u sc : Prop :=
  (∀ p i s, l !! p = Some (i, s) → within_gap gap (activity wB l) p →
    (∀ t, t ∈ w_history wB s → is_Some (sc_pos u !! t)) ∧ sc !! (k, i) = Some (s, true)) ∧
  ∀ k' i s, sc !! (k', i) = Some (s, true) → k' = k ∧ (i, s) ∈ l ∧ (active wA s = true ∨ active wB s = true).
Lemma scan_loop_scripts (fuel : nat) rest sc n n' r :
  scan_loop dbg srv fuel local txids outpoints gap batch [(k, rest)] sc n = Done n' r →
  (n0 < n')%nat → state rest sc → scripts_found r.1 r.2.
Proof using HwA HwB HA HB Hlocal Hlen Hbatch Htx Hops Hgone Htyped Hsort Hstay Hmode OrdLaws0.
  revert rest sc n. induction fuel as [|fuel IH]; intros rest sc n; cbn [scan_loop]; [done|].
  intros (m0 & u0 & E0 & E)%bnd_Done Hn (sl & Hh & Hc).
  destruct (prepare_update_reorg wA wB HwA HwB srv n0 HA HB local Hlocal Hlen _ _ _ _ E0) as (Hu0 & Hp0 & Htip0).
  set (cps := sc_cps u0). assert (Hon0: upd_on cps u0) by done.
  assert (Hne: cps ≠ ∅).
  { intros Hcc. destruct Htip0 as [[[_ Ht] _]|[_ Ht]]; unfold cps in Hcc; by rewrite Hcc, lookup_empty in Ht. }
  assert (∃ T, mix T u0) as [T Hmix].
  { destruct Htip0 as [[[Ht _] _]|[Ht _]]; [exists (w_tip wB)|exists (w_tip wA)]; (split; [done|]; split; [done|]); intros t p; by rewrite Hp0, lookup_empty. }
  apply bnd_Done in E as (m1 & [u1 re] & E1 & E).
  assert (Hon1: upd_on cps u1).
  { pose proof (rescan_safe dbg srv Htyped cps Hne gap batch u0 sc Hon0 m0) as Hs. by rewrite E1 in Hs. }
  destruct (rescan_mixed T u0 sl rest sc Hh Hc Hmix m0) as (m1' & [u1' re'] & E1' & sc1 & Hre & Hmix1 & Hh1). cbn [fst snd] in *.
  rewrite E1 in E1'. injection E1' as <- <- <-. subst re.
  apply bnd_Done in E as (m2 & [[rq2 u2] sc2] & E2 & E).
  destruct (keychain_mixed T u1 sl rest sc1 Hh1 Hc Hmix1 m1) as (m2' & [[rq2' u2'] sc2'] & E2' & rest' & Hrq & Hst). cbn [fst snd] in *.
  rewrite E2 in E2'. injection E2' as <- <- <- <-. subst rq2.
  assert (Hon2: upd_on cps u2).
  { pose proof (scan_keychains_safe dbg srv Htyped cps Hne gap batch [(k, rest)] u1 sc1 Hon1 m1) as Hs. by rewrite E2 in Hs. }
  apply bnd_Done in E as (m3 & [u3 ok3] & E3 & E).
  assert (Hon3: upd_on cps u3).
  { pose proof (populate_with_txids_safe dbg srv Htyped cps Hne u2 txids Hon2 Htx m2) as Hs. by rewrite E3 in Hs. }
  destruct ok3; cbn [negb] in E; [|by eapply IH].
  apply bnd_Done in E as (m4 & [u4 ok4] & E4 & E).
  assert (Hon4: upd_on cps u4).
  { pose proof (populate_with_outpoints_safe dbg srv Htyped cps Hne u3 outpoints Hon3 m3) as Hs. by rewrite E4 in Hs. }
  destruct ok4 as [full|]; [|by eapply IH].
  destruct (latest_checkpoint u4) as [b|] eqn:Eb; [|done].
  apply bnd_Done in E as (m5 & y & E5 & E).
  destruct (N.eqb_spec (bi_hash b) y) as [Hy|Hy]; [|by eapply IH].
  injection E as -> <-. clear IH.
  assert (Hm4: (n0 ≤ m4)%nat).
  { unfold req in E5. destruct (es_header _ _); [|done]. injection E5 as <- _. lia. }
  apply latest_tip in Eb as [Hbt Hbx].
  assert (HtipB: tip_of wB u0 ∧ (n0 ≤ m0)%nat).
  { destruct Htip0 as [?|Ht0]; [done|].
    assert (Htip4: tip_of wA u4).
    { assert (Hcc: sc_cps u0 = sc_cps u4) by (symmetry; apply Hon4). destruct Ht0 as [H1 H2]. split; [by eapply is_tip_cps|congruence]. }
    exfalso. destruct Htip4 as [H1 H2].
    assert (bi_height b = w_tip wA) as Hbh.
    { apply N.le_antisymm; [apply H1, Hbt|apply Hbt, H1]. }
    rewrite Hbh, H2 in Hbx. injection Hbx as Hbx. unfold req in E5.
    rewrite (eh_header _ _ (HB m4 Hm4)) in E5 by (rewrite Hbh; lia). injection E5 as _ Hy5.
    apply Hgone. rewrite <- Hbh at 1. congruence. }
  destruct HtipB as [HtipB Hm0].
  assert (Ht0: true_upd wB cps u0).
  { split; [done|]. split; [apply HtipB|]. intros t p. by rewrite Hp0, lookup_empty. }
  destruct (after_B srv n0 (λ s, rescan dbg s gap batch u0 sc) (λ r, grows wB cps u0 r.1 (histories wB (processed wB gap 0 sl).1) ∧
    ∃ sc', r.2 = Some sc' ∧ holds sl sc' ∧ ∀ i s, (i, s) ∈ (processed wB gap 0 sl).1 → sc' !! (k, i) = Some (s, active wB s)) m0 m1 (u1, Some sc1))
    as [[Ht1 (sc' & [= <-] & _ & Hsc1)] Hm1]; [apply loc_rescan|by eapply rescan_found|done|done|]. cbn [fst snd] in *.
  destruct (after_B srv n0 (λ s, scan_keychains dbg s gap batch [(k, rest)] u1 sc1)
      (λ r, grows wB cps u1 r.1.2 (histories_of wB gap [(k, rest)]) ∧ r.2 = scanned_of wB gap [(k, rest)] sc1) m1 m2 ([(k, rest')], u2, sc2))
      as [[Ht2 Hsc2] Hm2]; [apply loc_scan_keychains| |lia|done|].
  { apply (scan_keychains_true wB HwB dbg (srvB srv n0) (srvB_honest wB srv n0 HB) cps gap batch [(k, rest)] u1 sc1); [apply Ht1|done]. }
  destruct (after_B srv n0 (λ s, populate_with_txids dbg s u2 txids)
      (λ r, r.2 = true ∧ grows wB cps u2 r.1 (filter (λ t, is_Some (w_tx wB t)) txids)) m2 m3 (u3, true))
      as [[_ Ht3] Hm3]; [apply loc_populate_with_txids| |lia|done|].
  { apply (populate_with_txids_true wB HwB dbg (srvB srv n0) (srvB_honest wB srv n0 HB) cps); [apply Ht2|done]. }
  destruct (after_B srv n0 (λ s, populate_with_outpoints dbg s u3 outpoints)
      (λ r, more wB cps u3 r.1 ∧ r.2 ≠ None ∧ (∀ o, o ∈ outpoints → outpoint_found wB r.1 o) ∧
      ∀ t, is_Some (sc_pos r.1 !! t) → is_Some (sc_pos u3 !! t) ∨ ∃ o, o ∈ outpoints ∧ w_output wB o ∧ around wB o t) m3 m4 (u4, Some full))
      as [(Hm & _) _]; [apply loc_populate_with_outpoints| |lia|done|].
  { apply (populate_with_outpoints_true wB HwB dbg (srvB srv n0) (srvB_honest wB srv n0 HB) cps); [apply Ht3|done]. }
  cbn [fst snd] in *. unfold scanned_of in Hsc2. cbn [foldl fst snd] in Hsc2. split.
  - intros p i s Hp Hgap. assert ((i, s) ∈ (processed wB gap 0 l).1 ∧ active wB s = true) as [Hin Hact] by (apply processed_found; eauto).
    assert ((i, s) ∈ (processed wB gap 0 sl).1 ∨ (i, s) ∈ (processed wB gap 0 rest).1) as Hor.
    { destruct (proj2 Hc) as [Hl|(dn & x & tail & -> & Hl & Hstop)].
      - rewrite Hl, processed_app in Hin. destruct (processed wB gap 0 sl) as [p0 [un0|]]; [|by left]. cbn [fst] in *.
        apply elem_of_app in Hin as [Hin|Hin]; [by left|right]. eapply processed_shorter; [|exact Hin]. lia.
      - left. rewrite Hl, processed_app in Hin. rewrite processed_app. destruct (processed wB gap 0 dn) as [p0 [un0|]]; done. }
    assert (NoDup (processed wB gap 0 rest).1.*1) as Hnd.
    { apply processed_NoDup. assert (rest `sublist_of` l) as Hsub by (etrans; [|exact (proj1 Hc)]; by apply sublist_inserts_l).
      apply (sub_sorted _ _ Hsub) in Hsort. clear -Hsort. induction rest as [|e rest IH]; [constructor|]. cbn in Hsort.
      apply StronglySorted_inv in Hsort as [Hs Hf]. constructor; [|by apply IH]. intros Hin. rewrite Forall_forall in Hf. by apply Hf, N.lt_irrefl in Hin. }
    split.
    + intros t Ht. apply Hm. apply Ht3. left. apply Ht2. destruct Hor as [Hor|Hor].
      * left. apply Ht1. right. apply elem_of_list_bind. by exists (i, s).
      * right. unfold histories_of. apply elem_of_list_bind. exists (k, rest). split; [|left]. apply elem_of_list_bind. by exists (i, s).
    + rewrite Hsc2. apply add_keychain_spks_lookup.
      destruct (record wB (processed wB gap 0 rest).1 ∅ !! i) as [[s' b']|] eqn:Er.
      * left. split; [done|]. pose proof Er as Er0. apply record_lookup in Er as [Hin' ->]; [|done]. 
        assert (s = s') as <-; [|by rewrite Hact].
        eapply (one_script i); [by apply elem_of_list_lookup_2 in Hp|]. eapply sub_in; [exact Hc|right]. 
        destruct (processed_prefix wB gap 0 rest) as [tl ->]. apply elem_of_app. by left.
      * right. split; [by right|]. destruct Hor as [Hor|Hor]; [rewrite <- Hact; by apply Hsc1|].
        exfalso. assert (record wB (processed wB gap 0 rest).1 ∅ !! i = Some (s, active wB s)) as Er' by (by apply record_lookup). congruence.
  - destruct Hst as (sl' & [H1 H2] & Hc'). intros k' i s Hsc. destruct (H1 _ _ _ _ Hsc) as (-> & Hin & Hf). split; [done|]. split; [|by apply Hf].
    eapply sub_in; [exact Hc'|by left].
Qed.
End reorg.

Lemma last_active_some `{Countable K, !Ord K, !OrdLaws K} (k : K) (sc : gmap (K * N) (Script * bool)) i s :
  i ≤ u32_max → sc !! (k, i) = Some (s, true) → ∃ j, last_active k sc = Some j.
Proof.
  intros Hi Hs. unfold last_active. set (L := filter _ (bmap_list sc)).
  assert ((k, i, (s, true)) ∈ L) as Hin.
  { unfold L. rewrite elem_of_list_filter, elem_of_bmap_list. cbn [fst snd]. by rewrite last_active_range. }
  destruct (last L) as [e|] eqn:El; [by exists e.1.2|]. apply last_None in El. rewrite El in Hin. by apply elem_of_nil in Hin.
Qed.

Lemma scan_scripts (wA wB : World) dbg (srv : nat → ESnap) (n0 : nat) `{Countable K, !Ord K, !OrdLaws K}
  (fuel : nat) (local : gmap N BlockHash) (k : K) (l : list (N * Script)) (txids : list Txid) (outpoints : list OutPoint) (gap : N) (batch : nat) n e :
  world_ok wA → world_ok wB →
  (∀ n, (n < n0)%nat → electrum_honest wA (srv n)) → (∀ n, (n0 ≤ n)%nat → electrum_honest wB (srv n)) →
  (∀ h, is_Some (local !! h) → h ≤ w_tip wA) → w_tip wA ≤ w_tip wB → w_block wB (w_tip wA) ≠ w_block wA (w_tip wA) →
  (0 < batch)%nat → Forall (λ t, t ≤ max_txid) txids → Forall (λ o, is_Some (w_tx wB (op_txid o))) outpoints →
  StronglySorted N.lt l.*1 → Forall (λ i, i ≤ u32_max) l.*1 →
  (∀ s s' t, s ∈ l.*2 → s' ∈ l.*2 → t ∈ w_history wA s → t ∈ w_history wB s' → w_position wA t = w_position wB t) →
  (batch = 1%nat ∨ activity wA l = activity wB l) →
  scan dbg srv fuel local {[k := l]} txids outpoints gap batch 0%nat = Done n e → (n0 < n)%nat →
  (∀ p i s t, l !! p = Some (i, s) → within_gap gap (activity wB l) p → t ∈ w_history wB s → is_Some (sc_pos (eu_chain e) !! t)) ∧
  (∀ i, found_index wB gap l i → ∃ j, eu_active e !! k = Some j ∧ i ≤ j) ∧
  ∀ k' j, eu_active e !! k' = Some j → k' = k ∧ ∃ s, (j, s) ∈ l ∧ (w_history wA s ≠ [] ∨ w_history wB s ≠ []).
Proof.
  intros HwA HwB HA HB Hlocal Hlen Hgone Hb Htx Hops Hsort H32 Hstay Hmode E Hn.
  unfold scan in E. rewrite bmap_list_singleton in E. apply bnd_Done in E as (m & [u sc] & E1 & E2). injection E2 as -> <-. cbn [eu_chain eu_active].
  assert (batch = 1%nat ∨ ∀ e, e ∈ l → active wA e.2 = active wB e.2) as Hmode'.
  { destruct Hmode as [?|Hact]; [by left|right]. intros e' He'. apply elem_of_list_lookup in He' as [q Hq].
    assert (activity wA l !! q = activity wB l !! q) as Hl by (by rewrite Hact). unfold activity in Hl. rewrite !list_lookup_fmap, Hq in Hl. by injection Hl. }
  eapply (scan_loop_scripts wA wB HwA HwB dbg srv n0 HA HB local Hlocal Hlen txids outpoints gap batch Hb Htx Hops Hgone) in E1 as [F1 F2];
    [| |exact Hsort|exact Hstay|exact Hmode'|done|].
  - assert (∀ j, last_active_indices [k] sc !! k = Some j ↔ last_active k sc = Some j) as Hla.
    { intros j. rewrite last_active_indices_lookup by apply NoDup_singleton. rewrite elem_of_list_singleton. tauto. }
    cbn [fmap list_fmap fst snd] in *. split; [|split].
    + intros p i s t Hp Hg Ht. by apply (F1 p i s Hp Hg).
    + intros i (p & s & Hp & Hg). destruct (F1 p i s Hp Hg) as [_ Hsc].
      assert (i ≤ u32_max) as Hi.
      { rewrite Forall_forall in H32. apply H32. apply elem_of_list_fmap. exists (i, s). split; [done|]. by eapply elem_of_list_lookup_2. }
      destruct (last_active k sc) as [j|] eqn:El.
      * exists j. split; [by apply Hla|]. apply last_active_spec in El as (_ & _ & Hmax). by eapply Hmax.
      * exfalso. assert (∃ j, last_active k sc = Some j) as [j Hj]; [|congruence].
        by apply (last_active_some k sc i s).
    + intros k' j Hj. apply last_active_indices_lookup in Hj as [->%elem_of_list_singleton Hj]; [|apply NoDup_singleton]. split; [done|].
      apply last_active_spec in Hj as (_ & (s & Hs) & _). destruct (F2 _ _ _ Hs) as (_ & Hin & Hact). exists s. split; [done|].
      unfold active in Hact. rewrite !negb_true_iff, !bool_decide_eq_false in Hact. done.
  - intros n'. destruct (decide (n' < n0)%nat); [by apply (honest_typed wA); [|apply HA]|]. apply (honest_typed wB); [done|]. apply HB. lia.
  - exists []. split; [|split; [done|by left]]. split; [|by intros ?? ?%elem_of_nil].
    intros ???? Hx. by rewrite lookup_empty in Hx.
Qed.
