(** Electrum scans against an honest server that does not change (C58, C60). *)
From Verif Require Export ElectrumProofs.

(** ** The template of the update *)
Section honest.
Context (w : World) (Hw : world_ok w).
Implicit Types (u : SparseChain TxHeight) (local : gmap N BlockHash).

(** [h] is asked for when every local block above it is gone from the server's chain *)
Definition asked local (h : N) : Prop :=
  is_Some (local !! h) ∧ map_Forall (λ k x, h < k → x ≠ w_block w k) local.

Lemma desc_split (dn l : list (N * BlockHash)) h x k y :
  StronglySorted N.gt (dn ++ (h, x) :: l).*1 →
  ((k, y) ∈ dn → h < k) ∧ ((k, y) ∈ l → k < h).
Proof using.
  rewrite fmap_app, fmap_cons. simpl. intros Hs. split; intros Hin.
  - apply (elem_of_StronglySorted_app _ _ _ k h) in Hs; [lia| |by left].
    apply elem_of_list_fmap. by exists (k, y).
  - apply StronglySorted_app_inv_r in Hs. apply StronglySorted_inv in Hs as [_ Hf]. rewrite Forall_forall in Hf.
    assert (h > k); [|lia]. apply Hf. apply elem_of_list_fmap. by exists (k, y).
Qed.

Section srv.
Context (srv : nat → ESnap) (Hhonest : ∀ n, electrum_honest w (srv n)).

Lemma prepare_loop_ends local dn l u :
  (∀ h, is_Some (local !! h) → h ≤ w_tip w) →
  reverse (bmap_list local) = dn ++ l →
  upd_ok u → sc_pos u = ∅ → (∀ h y, sc_cps u !! h = Some y ↔ h ∈ dn.*1 ∧ y = w_block w h) →
  (∀ h x, (h, x) ∈ dn → x ≠ w_block w h) →
  ends (prepare_loop srv l u) (λ u', upd_ok u' ∧ sc_pos u' = ∅ ∧
    ∀ h y, sc_cps u' !! h = Some y ↔ asked local h ∧ y = w_block w h).
Proof using Hw Hhonest.
  intros Hlocal. revert dn u. induction l as [|[h x] l IH]; intros dn u Hl Hu Hpos Hcps Hdn; simpl.
  - apply ends_ret. split; [done|]. split; [done|]. intros h y. rewrite Hcps. rewrite app_nil_r in Hl.
    rewrite <- Hl, local_in. unfold asked. split; [|by intros [[Hs _] ->]]. intros [Hs ->]. split; [|done]. split; [done|].
    intros k x Hk _. apply Hdn. rewrite <- Hl. rewrite elem_of_reverse. by apply elem_of_bmap_list.
  - pose proof (local_desc local) as Hs. rewrite Hl in Hs.
    assert (Hin: ∀ k y, local !! k = Some y ↔ (k, y) ∈ dn ∨ k = h ∧ y = x ∨ (k, y) ∈ l).
    { intros k y. rewrite <- elem_of_bmap_list, <- elem_of_reverse, Hl, elem_of_app, elem_of_cons.
      assert ((k, y) = (h, x) ↔ k = h ∧ y = x) as ->; [split; [by intros [= -> ->]|by intros [-> ->]]|done]. }
    assert (Hh: local !! h = Some x) by (apply Hin; right; by left).
    assert (Hht: h ≤ w_tip w) by (apply Hlocal; eauto).
    pose proof (wo_tip w Hw) as Htip.
    apply (ends_bnd _ _ (λ y, y = w_block w h)).
    { apply ends_req. intros n. eexists. split; [|done]. by apply eh_header. }
    intros y ->.
    assert (Hnew: ∀ z, sc_cps u !! h = Some z → False).
    { intros z [Hz _]%Hcps. apply elem_of_list_fmap in Hz as ([k y] & -> & Hz). simpl in *.
      apply (desc_split _ _ k x k y) in Hs as [Hs _]. specialize (Hs Hz). lia. }
    destruct (upd_ok_insert_checkpoint u (mkBlockId h (w_block w h))) as (u' & cs & E & Hu' & Hc & Hp); [done|simpl;lia| |].
    { simpl. intros z Hz _. by apply Hnew in Hz. }
    apply (ends_bnd _ _ (λ r, r = Ok (u', cs))); [apply ends_lift; eauto|]. intros r ->.
    assert (Hc': ∀ k y, sc_cps u' !! k = Some y ↔ k ∈ (dn ++ [(h, x)]).*1 ∧ y = w_block w k).
    { intros k y. rewrite Hc, fmap_app, elem_of_app. simpl. rewrite elem_of_list_singleton.
      destruct (decide (h = k)) as [<- |Hne].
      - rewrite lookup_insert. split; [intros [= <-]; by split; [right|]|by intros [_ ->]].
      - rewrite lookup_insert_ne by done. rewrite Hcps. split; intros [Hk ->]; (split; [|done]).
        + by left.
        + by destruct Hk as [Hk| ->]. }
    destruct (N.eqb_spec (w_block w h) x) as [Heq|Hne].
    + apply ends_ret. split; [done|]. split; [by rewrite Hp|]. intros k y. rewrite Hc'.
      rewrite fmap_app, elem_of_app. simpl. rewrite elem_of_list_singleton. unfold asked.
      split.
      * intros [Hk ->]. split; [|done]. destruct Hk as [Hk| ->].
        -- apply elem_of_list_fmap in Hk as ([k' z] & -> & Hk). simpl.
           split; [exists z; apply Hin; by left|]. intros j v Hj Hlt. apply Hin in Hj as [Hj|[[-> ->]|Hj]].
           ++ by apply Hdn.
           ++ apply (desc_split _ _ h x k' z) in Hs as [Hs _]. specialize (Hs Hk). lia.
           ++ pose proof (desc_split _ _ h x k' z Hs) as [H1 _]. pose proof (desc_split _ _ h x j v Hs) as [_ H2].
              specialize (H1 Hk). specialize (H2 Hj). lia.
        -- split; [by exists x|]. intros j v Hj Hlt. apply Hin in Hj as [Hj|[[-> ->]|Hj]].
           ++ by apply Hdn.
           ++ lia.
           ++ pose proof (desc_split _ _ h x j v Hs) as [_ H2]. specialize (H2 Hj). lia.
      * intros [[[z Hz] Hall] ->]. split; [|done]. apply Hin in Hz as [Hz|[[-> ->]|Hz]].
        -- left. apply elem_of_list_fmap. by exists (k, z).
        -- by right.
        -- exfalso. apply (Hall h x Hh); [|done]. by apply (desc_split _ _ h x k z) in Hs as [_ Hs]; auto.
    + apply (IH (dn ++ [(h, x)])); [by rewrite <- app_assoc|done|by rewrite Hp|done|].
      intros k z [Hk|[= -> ->]%elem_of_list_singleton]%elem_of_app; [by apply Hdn|congruence].
Qed.

Lemma connects_iff local cps :
  connects w local cps ↔ ∀ h y, cps !! h = Some y ↔ (h = w_tip w ∨ asked local h) ∧ y = w_block w h.
Proof using.
  unfold connects, asked. split.
  - intros Hc h y. rewrite Hc. case_bool_decide; naive_solver.
  - intros Hc h. case_bool_decide as Hd.
    + apply Hc. done.
    + destruct (cps !! h) as [y|] eqn:E; [|done]. apply Hc in E as [E _]. done.
Qed.

Lemma prepare_update_ends fuel local :
  (∀ h, is_Some (local !! h) → h ≤ w_tip w) →
  ends (prepare_update srv (S fuel) local) (λ u, upd_ok u ∧ sc_pos u = ∅ ∧ connects w local (sc_cps u)).
Proof using Hw Hhonest.
  intros Hlocal. cbn [prepare_update]. eapply ends_bnd.
  { apply (prepare_loop_ends local []); [done|done|apply upd_ok_default|done| |].
    - intros h y. unfold sc_default; simpl. rewrite lookup_empty. split; [done|]. intros [[]%elem_of_nil _].
    - intros h x []%elem_of_nil. }
  intros u (Hu & Hpos & Hcps).
  pose proof (wo_tip w Hw) as Htip.
  apply (ends_bnd _ _ (λ b, b = mkBlockId (w_tip w) (w_block w (w_tip w)))).
  { unfold get_tip. apply (ends_bnd _ _ (λ d, d = (w_tip w, w_block w (w_tip w)))).
    - apply ends_req. intros n. eexists. split; [|done]. by apply eh_tip.
    - intros d ->. apply ends_ret. simpl. rewrite N.mod_small; [done|]. unfold u32_max in Htip. lia. }
  intros b ->.
  destruct (upd_ok_insert_checkpoint u (mkBlockId (w_tip w) (w_block w (w_tip w)))) as (u' & cs & E & Hu' & Hc & Hp);
    [done|done| |].
  { simpl. intros x [_ ->]%Hcps _. done. }
  apply (ends_bnd _ _ (λ r, r = Ok (u', cs))); [apply ends_lift; eauto|]. intros r ->.
  apply ends_ret. split; [done|]. split; [by rewrite Hp|]. apply connects_iff. intros h y. rewrite Hc. simpl.
  destruct (decide (w_tip w = h)) as [<- |Hne].
  - rewrite lookup_insert. split; [intros [= <-]; by split; [left|]|by intros [_ ->]].
  - rewrite lookup_insert_ne by done. rewrite Hcps. split; intros [Hk ->]; (split; [|done]).
    + by right.
    + by destruct Hk as [-> |Hk].
Qed.
End srv.

(** ** Such an update is never refused for want of a connection *)
Lemma matching_asked local k :
  (∀ h, is_Some (local !! h) → h ≤ w_tip w) → local !! k = Some (w_block w k) →
  ∃ a, k ≤ a ∧ asked local a ∧ local !! a = Some (w_block w a).
Proof using.
  intros Hle. remember (N.to_nat (w_tip w - k)) as m eqn:Em. revert k Em.
  induction (lt_wf m) as [m _ IH]. intros k -> Hk.
  destruct (decide (map_Forall (λ j x, k < j → x ≠ w_block w j) local)) as [Hall|Hex].
  - exists k. split; [lia|]. split; [|done]. split; [by eexists|done].
  - apply map_not_Forall in Hex as (j & x & Hj & Hnot); [|apply _].
    assert (k < j ∧ x = w_block w j) as [Hlt ->].
    { destruct (decide (k < j)) as [?|?]; [|by destruct Hnot]. split; [done|].
      destruct (decide (x = w_block w j)); [done|]. by destruct Hnot. }
    assert (j ≤ w_tip w) by (apply Hle; eauto).
    destruct (IH (N.to_nat (w_tip w - j))) with (k := j) as (a & Ha & Hask & Hla); [lia|done|done|].
    exists a. split; [lia|done].
Qed.

Lemma connects_connected {P} `{ChainPositionLaws P} (c u : SparseChain P) ord :
  chain_ok c → below_max c → ord ≡ₚ map_to_list (sc_pos u) →
  (∀ h, is_Some (sc_cps c !! h) → h ≤ w_tip w) →
  connects w (sc_cps c) (sc_cps u) →
  ∀ h, determine_changeset c u ord ≠ Ret (Err (NotConnected h)).
Proof using.
  intros Hc Hbm Hord Hle Hcon f E. rewrite connects_iff in Hcon.
  apply determine_not_connected in E as [(_ & Hf & Hab & _) Hn]; [|done..].
  assert (Hask: asked (sc_cps c) f).
  { split; [done|]. intros k x Hk Hlt ->.
    destruct (matching_asked (sc_cps c) k Hle Hk) as (a & Hka & Hask & Ha).
    assert (a < f); [|lia]. apply Hab. exists (w_block w a). split; [done|]. apply Hcon. split; [by right|done]. }
  assert (sc_cps u !! f = Some (w_block w f)); [|congruence]. apply Hcon. split; [by right|done].
Qed.
End honest.
