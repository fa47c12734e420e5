(** A server that reorganises once during an electrum scan (C61): what is still right. *)
From Verif Require Export ElectrumProofs4.

(** ** A run depends only on the answers it got *)
Section loc.
Context {S : Type}.
Definition loc {A} (p : (nat → S) → prog A) : Prop := ∀ srv n n' a, p srv n = Done n' a →
  (n ≤ n')%nat ∧ ∀ srv', (∀ m, (n ≤ m < n')%nat → srv' m = srv m) → p srv' n = Done n' a.
Lemma loc_ret {A} (a : A) : loc (λ _, ret a).
Proof. intros srv n n' b [= <- <-]. done. Qed.
Lemma loc_lift {A} (o : outcome A) : loc (λ _, lift o).
Proof. intros srv n n' b. unfold lift. destruct o; [|done]. by intros [= <- <-]. Qed.
Lemma loc_unfinished {A} : loc (A:=A) (λ _, unfinished).
Proof. intros srv n n' b [=]. Qed.
Lemma loc_failed {A} (e : ClientError) : loc (A:=A) (λ _ n, Failed n e).
Proof. intros srv n n' b [=]. Qed.
Lemma loc_req {A} (q : S → result A ClientError) : loc (λ srv, req srv q).
Proof.
  intros srv n n' b. unfold req. destruct (q (srv n)) eqn:E; [|done]. intros [= <- <-]. split; [lia|].
  intros srv' Ha. by rewrite (Ha n), E by lia.
Qed.
Lemma loc_ask {A} (q : S → result A ClientError) : loc (λ srv, ask srv q).
Proof.
  intros srv n n' b. unfold ask. intros [= <- <-]. split; [lia|]. intros srv' Ha. by rewrite (Ha n) by lia.
Qed.
Lemma loc_bnd {A B} (p : (nat → S) → prog A) (f : (nat → S) → A → prog B) :
  loc p → (∀ a, loc (λ srv, f srv a)) → loc (λ srv, bnd (p srv) (f srv)).
Proof.
  intros Hp Hf srv n n' b. unfold bnd. destruct (p srv n) as [m a| | |] eqn:E; [|done..].
  intros E2. destruct (Hp _ _ _ _ E) as [H1 H2]. destruct (Hf a _ _ _ _ E2) as [H3 H4]. split; [lia|].
  intros srv' Ha. rewrite H2; [|intros m' ?; apply Ha; lia]. apply H4. intros m' ?. apply Ha. lia.
Qed.
End loc.
Lemma bnd_Done {A B} (p : prog A) (f : A → prog B) n n' b :
  bnd p f n = Done n' b → ∃ m a, p n = Done m a ∧ f a m = Done n' b.
Proof. unfold bnd. destruct (p n) as [m a| | |]; [eauto|done..]. Qed.

Ltac loc_step := first
  [ apply loc_ret | apply loc_lift | apply loc_unfinished | apply loc_failed | apply loc_req | apply loc_ask
  | apply loc_bnd; [|intros ?] | assumption ].
Section electrum.
Context (dbg : bool).
Implicit Types (u : SparseChain TxHeight).
Lemma loc_prepare_loop l u : loc (λ srv, prepare_loop srv l u).
Proof.
  revert u. induction l as [|[h x] l IH]; intros u; cbn [prepare_loop]; [loc_step|].
  repeat loc_step. destruct a0 as [[u' ?]|]; [|loc_step]. destruct (_ =? _); [loc_step|apply IH].
Qed.
Lemma loc_get_tip : loc get_tip.
Proof. unfold get_tip. repeat loc_step. Qed.
Lemma loc_prepare_update fuel local : loc (λ srv, prepare_update srv fuel local).
Proof.
  induction fuel as [|fuel IH]; cbn [prepare_update]; [loc_step|].
  apply loc_bnd; [apply loc_prepare_loop|intros u]. apply loc_bnd; [apply loc_get_tip|intros tip].
  repeat loc_step. destruct a as [[u' ?]|]; [loc_step|apply IH].
Qed.
Lemma loc_outpoint_history o t tip l u full residing spending :
  loc (λ srv, outpoint_history dbg srv o t tip l u full residing spending).
Proof.
  revert u full residing spending. induction l as [|[i raw] l IH]; intros u full residing spending;
    cbn [outpoint_history]; [loc_step|].
  destruct (residing && spending); [loc_step|]. destruct (i =? op_txid o).
  - destruct residing; [apply IH|]. repeat loc_step. destruct a0.2; [apply IH|loc_step].
  - destruct spending; [apply IH|]. apply loc_bnd; [destruct (full !! i); loc_step|intros s].
    destruct (existsb _ _); [|apply IH]. repeat loc_step. destruct a0.2; [apply IH|loc_step].
Qed.
Lemma loc_outpoints_loop tip l u full : loc (λ srv, outpoints_loop dbg srv tip l u full).
Proof.
  revert u full. induction l as [|o l IH]; intros u full; cbn [outpoints_loop]; [loc_step|].
  repeat loc_step. destruct (dbg && _); [loc_step|]. destruct (tx_out a !! _); [|apply IH].
  apply loc_bnd; [loc_step|intros hist]. apply loc_bnd; [apply loc_outpoint_history|intros r].
  destruct r.2; [apply IH|loc_step].
Qed.
Lemma loc_populate_with_outpoints u l : loc (λ srv, populate_with_outpoints dbg srv u l).
Proof. unfold populate_with_outpoints. destruct (latest_checkpoint u); [apply loc_outpoints_loop|loc_step]. Qed.
Lemma loc_txids_loop tip l u : loc (λ srv, txids_loop dbg srv tip l u).
Proof.
  revert u. induction l as [|i l IH]; intros u; cbn [txids_loop]; [loc_step|].
  repeat loc_step. destruct a as [t|[]]; [|apply IH|loc_step]. destruct (tx_out t) as [|x ?]; [loc_step|].
  repeat loc_step. destruct (List.find _ _); [|apply IH]. repeat loc_step. destruct a1.2; [apply IH|loc_step].
Qed.
Lemma loc_populate_with_txids u l : loc (λ srv, populate_with_txids dbg srv u l).
Proof. unfold populate_with_txids. destruct (latest_checkpoint u); [apply loc_txids_loop|loc_step]. Qed.
Lemma loc_spks_loop `{Countable J, !Ord J} fuel (gap : N) (batch : nat) tip (l : list (J * Script)) u unused scanned :
  loc (λ srv, spks_loop dbg srv fuel gap batch tip l u unused scanned).
Proof.
  revert l u unused scanned. induction fuel as [|fuel IH]; intros l u unused scanned; cbn [spks_loop]; [loc_step|].
  destruct (take batch l); [loc_step|]. repeat loc_step. destruct a0; [loc_step|loc_step|apply IH].
Qed.
Lemma loc_populate_with_spks `{Countable J, !Ord J} (gap : N) (batch : nat) u (l : list (J * Script)) :
  loc (λ srv, populate_with_spks dbg srv gap batch u l).
Proof. unfold populate_with_spks. apply loc_spks_loop. Qed.
Section scan.
Context `{Countable K, !Ord K}.
Lemma loc_scan_keychains (gap : N) (batch : nat) (rq : list (K * list (N * Script))) u (sc : gmap (K * N) (Script * bool)) :
  loc (λ srv, scan_keychains dbg srv gap batch rq u sc).
Proof.
  revert u sc. induction rq as [|[k l] rq IH]; intros u sc; cbn [scan_keychains]; [loc_step|].
  apply loc_bnd; [apply loc_populate_with_spks|intros [[u1 rest] new]].
  apply loc_bnd; [apply IH|intros [[rq2 u2] sc2]]. loc_step.
Qed.
Lemma loc_rescan (gap : N) (batch : nat) u (sc : gmap (K * N) (Script * bool)) :
  loc (λ srv, rescan dbg srv gap batch u sc).
Proof.
  unfold rescan. case_bool_decide; [loc_step|].
  apply loc_bnd; [apply loc_populate_with_spks|intros [[u1 rest] new]]. loc_step.
Qed.
Lemma loc_scan_loop (fuel : nat) (local : gmap N BlockHash) (txids : list Txid) (outpoints : list OutPoint) (gap : N) (batch : nat) (rq : list (K * list (N * Script)))
  (sc : gmap (K * N) (Script * bool)) :
  loc (λ srv, scan_loop dbg srv fuel local txids outpoints gap batch rq sc).
Proof.
  revert rq sc. induction fuel as [|fuel IH]; intros rq sc; cbn [scan_loop]; [loc_step|].
  apply loc_bnd; [apply (loc_prepare_update (S fuel))|intros u0].
  apply loc_bnd; [destruct rq; [loc_step|apply loc_rescan]|intros [u1 [sc1|]]]; [|apply IH].
  apply loc_bnd; [apply loc_scan_keychains|intros [[rq2 u2] sc2]].
  apply loc_bnd; [apply loc_populate_with_txids|intros [u3 ok3]]. destruct ok3; cbn [negb]; [|apply IH].
  apply loc_bnd; [apply loc_populate_with_outpoints|intros [u4 [ok4|]]]; [|apply IH].
  destruct (latest_checkpoint u4); [|loc_step]. repeat loc_step. destruct (_ =? _); [loc_step|apply IH].
Qed.
Lemma loc_scan (fuel : nat) (local : gmap N BlockHash) (kspks : gmap K (list (N * Script))) (txids : list Txid)
  (outpoints : list OutPoint) (gap : N) (batch : nat) :
  loc (λ srv, scan dbg srv fuel local kspks txids outpoints gap batch).
Proof. unfold scan. apply loc_bnd; [apply loc_scan_loop|intros [u sc]; loc_step]. Qed.
End scan.
End electrum.

(** ** Preparing, whatever the server says *)
Lemma prepare_loop_heights srv (l : list (N * BlockHash)) (u : SparseChain TxHeight) :
  upd_ok u → sc_pos u = ∅ → StronglySorted N.gt l.*1 →
  (∀ h, h ∈ l.*1 → h < u32_max ∧ ∀ k, is_Some (sc_cps u !! k) → h < k) →
  safe (prepare_loop srv l u) (λ u', upd_ok u' ∧ sc_pos u' = ∅ ∧
    ∀ k, is_Some (sc_cps u' !! k) → is_Some (sc_cps u !! k) ∨ k ∈ l.*1).
Proof.
  revert u. induction l as [|[h x] l IH]; intros u Hu Hpos Hs Hl; simpl.
  { apply safe_ret. split; [done|]. split; [done|]. by left. }
  apply (safe_bnd _ _ (λ _, True)); [by apply safe_req|]. intros y _.
  simpl in Hs. apply StronglySorted_inv in Hs as [Hs Hf].
  destruct (Hl h) as [Hh Hk]; [by left|].
  destruct (upd_ok_insert_checkpoint u (mkBlockId h y)) as (u' & cs & E & Hu' & Hc & Hp); [done|done| |].
  { simpl. intros z Hz _. specialize (Hk h (mk_is_Some _ _ Hz)). lia. }
  apply (safe_bnd _ _ (λ r, r = Ok (u', cs))); [apply safe_lift; eauto|].
  assert (Hc': ∀ k, is_Some (sc_cps u' !! k) → is_Some (sc_cps u !! k) ∨ k = h).
  { intros k. rewrite Hc. simpl. destruct (decide (h = k)) as [<- |Hne]; [by right|].
    rewrite lookup_insert_ne by done. by left. }
  intros r ->. destruct (y =? x).
  { apply safe_ret. split; [done|]. split; [congruence|]. intros k Hk'. apply Hc' in Hk' as [?| ->]; [by left|].
    right. by left. }
  eapply safe_weaken; [apply IH; [done|congruence|done|]|].
  - intros h' Hh'. destruct (Hl h') as [Hh1 Hh2]; [by right|]. split; [done|]. intros k Hk'.
    apply Hc' in Hk' as [?| ->]; [by apply Hh2|]. rewrite Forall_forall in Hf. specialize (Hf h' Hh'). lia.
  - intros u'' (H1 & H2 & H3). split; [done|]. split; [done|]. intros k Hk'. apply H3 in Hk' as [Hk'|?]; [|by right; right].
    apply Hc' in Hk' as [?| ->]; [by left|]. right. by left.
Qed.

Section reorg.
Context (wA wB : World) (HwA : world_ok wA) (HwB : world_ok wB) (dbg : bool).
Context (srv : nat → ESnap) (n0 : nat).
Context (HA : ∀ n, (n < n0)%nat → electrum_honest wA (srv n)) (HB : ∀ n, (n0 ≤ n)%nat → electrum_honest wB (srv n)).
Context (local : gmap N BlockHash) (Hlocal : ∀ h, is_Some (local !! h) → h ≤ w_tip wA).
Context (Hlen : w_tip wA ≤ w_tip wB).
Implicit Types (u : SparseChain TxHeight).

Definition srvB : nat → ESnap := λ n, if (n <? n0)%nat then srv n0 else srv n.
Lemma srvB_honest n : electrum_honest wB (srvB n).
Proof using HB. unfold srvB. destruct (Nat.ltb_spec n n0); by apply HB. Qed.
Lemma after_B {A} (p : (nat → ESnap) → prog A) (Q : A → Prop) n n' a :
  loc p → ends (p srvB) Q → (n0 ≤ n)%nat → p srv n = Done n' a → Q a ∧ (n ≤ n')%nat.
Proof using.
  intros Hloc He Hn E. destruct (Hloc _ _ _ _ E) as [Hle Hag]. specialize (Hag srvB).
  destruct (He n) as (n2 & a2 & E2 & HQ). rewrite Hag in E2.
  - injection E2 as <- <-. done.
  - intros m Hm. unfold srvB. destruct (Nat.ltb_spec m n0); [clear Hlen; lia|done].
Qed.

(** the world the tip of a prepared update is from *)
Definition tip_of (w : World) u : Prop :=
  is_tip u (w_tip w) ∧ sc_cps u !! w_tip w = Some (w_block w (w_tip w)).
Lemma prepare_update_reorg fuel n m u :
  prepare_update srv fuel local n = Done m u →
  upd_ok u ∧ sc_pos u = ∅ ∧ (tip_of wB u ∧ (n0 ≤ m)%nat ∨ tip_of wA u).
Proof using HwA HwB HA HB Hlocal Hlen.
  revert n. induction fuel as [|fuel IH]; intros n; cbn [prepare_update]; [done|].
  intros (m1 & u1 & E1 & E)%bnd_Done. apply bnd_Done in E as (m2 & b & E2 & E).
  apply bnd_Done in E as (m3 & r & E3 & E).
  assert (Hu1: upd_ok u1 ∧ sc_pos u1 = ∅ ∧ ∀ k, is_Some (sc_cps u1 !! k) → is_Some (local !! k)).
  { pose proof (prepare_loop_heights srv (reverse (bmap_list local)) sc_default upd_ok_default eq_refl
      (local_desc local)) as Hs. pose proof (wo_tip wA HwA) as HtA.
    assert (Hpre: ∀ h, h ∈ (reverse (bmap_list local)).*1 →
      h < u32_max ∧ ∀ k, is_Some (sc_cps (sc_default (P:=TxHeight)) !! k) → h < k).
    { intros h Hh%local_in. split; [apply Hlocal in Hh; lia|]. intros k [x Hk]. unfold sc_default in Hk. simpl in Hk. done. }
    specialize (Hs Hpre n). rewrite E1 in Hs. destruct Hs as (Ha & Hb & Hc). split; [done|]. split; [done|].
    intros k Hk. apply Hc in Hk as [[x Hk]|Hk]; [unfold sc_default in Hk; by simpl in Hk|]. by apply local_in. }
  destruct Hu1 as (Hu1 & Hp1 & Hc1).
  assert (Hb: ∃ w, (w = wB ∧ (n0 ≤ m2)%nat ∨ w = wA) ∧ b = mkBlockId (w_tip w) (w_block w (w_tip w)) ∧
            w_tip w < u32_max ∧ w_tip wA ≤ w_tip w).
  { unfold get_tip in E2. apply bnd_Done in E2 as (m' & d & Ed & E2). injection E2 as <- <-.
    unfold req in Ed. destruct (decide (m1 < n0)%nat) as [Hlt|Hge].
    - rewrite (eh_tip _ _ (HA m1 Hlt)) in Ed. injection Ed as <- <-. exists wA. split; [by right|].
      pose proof (wo_tip wA HwA) as HtA. split; [|split; [done|lia]]. cbn [fst snd]. rewrite N.mod_small; [done|].
      unfold u32_max in HtA. lia.
    - rewrite (eh_tip _ _ (HB m1 ltac:(lia))) in Ed. injection Ed as <- <-. exists wB. split; [left; split; [done|lia]|].
      pose proof (wo_tip wB HwB) as HtB. split; [|split; [done|lia]]. cbn [fst snd]. rewrite N.mod_small; [done|].
      unfold u32_max in HtB. lia. }
  destruct Hb as (w & Hw & -> & Ht & Hge).
  destruct (upd_ok_checkpoint_cases u1 (mkBlockId (w_tip w) (w_block w (w_tip w))) Hu1 Ht)
    as [(u' & cs & Eu & Hu' & Hc & Hp)|[e Eu]]; rewrite Eu in E3; unfold lift in E3; injection E3 as <- <-.
  - injection E as <- <-. split; [done|]. split; [congruence|]. cbn [bi_height bi_hash] in Hc.
    assert (Htip: tip_of w u').
    { split; [split|].
      - rewrite Hc, lookup_insert. eauto.
      - intros k. rewrite Hc. destruct (decide (w_tip w = k)) as [<- |Hne]; [done|].
        rewrite lookup_insert_ne by done. intros Hk%Hc1%Hlocal. lia.
      - by rewrite Hc, lookup_insert. }
    destruct Hw as [[-> ?]| ->]; [left|right]; done.
  - by apply IH in E.
Qed.

Section scan.
Context `{Countable K, !Ord K}.
Context (txids : list Txid) (outpoints : list OutPoint) (gap : N) (batch : nat).
Context (Hbatch : (0 < batch)%nat) (Htx : Forall (λ t, t ≤ max_txid) txids).
Context (Hops : Forall (λ o, is_Some (w_tx wB (op_txid o))) outpoints).
Context (Hgone : w_block wB (w_tip wA) ≠ w_block wA (w_tip wA)).
(** every program the round runs preserves the checkpoints, in any world *)
Context (Htyped : ∀ n, electrum_typed dbg (srv n)).

Lemma rescan_true (cps : gmap N BlockHash) u (sc : gmap (K * N) (Script * bool)) :
  true_upd wB cps u → ends (rescan dbg srvB gap batch u sc) (λ r, more wB cps u r.1).
Proof using HwB HB Hbatch.
  intros Hu. unfold rescan. case_bool_decide; [apply ends_ret; by apply more_refl|].
  eapply ends_bnd; [by apply (populate_with_spks_true wB HwB dbg srvB srvB_honest cps)|].
  intros [[u1 rest] new] (rest' & _ & Hg). apply ends_ret. by eapply grows_more.
Qed.

Definition good_B u : Prop :=
  (∀ t p, sc_pos u !! t = Some p → p = w_position wB t) ∧
  (∀ t, t ∈ txids → is_Some (w_tx wB t) → is_Some (sc_pos u !! t)) ∧
  (∀ o, o ∈ outpoints → outpoint_found wB u o).
Lemma scan_loop_reorg (fuel : nat) (rq : list (K * list (N * Script))) (sc : gmap (K * N) (Script * bool)) n n' r :
  scan_loop dbg srv fuel local txids outpoints gap batch rq sc n = Done n' r →
  (n0 < n')%nat → good_B r.1.
Proof using HwA HwB HA HB Hlocal Hlen Hbatch Htx Hops Hgone Htyped.
  revert rq sc n. induction fuel as [|fuel IH]; intros rq sc n; cbn [scan_loop]; [done|].
  intros (m0 & u0 & E0 & E)%bnd_Done Hn.
  destruct (prepare_update_reorg _ _ _ _ E0) as (Hu0 & Hp0 & Htip0).
  set (cps := sc_cps u0). assert (Hon0: upd_on cps u0) by done.
  assert (Hne: cps ≠ ∅).
  { intros Hc. destruct Htip0 as [[[_ Ht] _]|[_ Ht]]; unfold cps in Hc; by rewrite Hc, lookup_empty in Ht. }
  apply bnd_Done in E as (m1 & [u1 re] & E1 & E).
  assert (Hon1: upd_on cps u1).
  { destruct rq; [injection E1 as _ <- _; done|].
    pose proof (rescan_safe dbg srv Htyped cps Hne gap batch u0 sc Hon0 m0) as Hs. by rewrite E1 in Hs. }
  destruct re as [sc1|]; [|by eapply IH].
  apply bnd_Done in E as (m2 & [[rq2 u2] sc2] & E2 & E).
  assert (Hon2: upd_on cps u2).
  { pose proof (scan_keychains_safe dbg srv Htyped cps Hne gap batch rq u1 sc1 Hon1 m1) as Hs. by rewrite E2 in Hs. }
  apply bnd_Done in E as (m3 & [u3 ok3] & E3 & E).
  assert (Hon3: upd_on cps u3).
  { pose proof (populate_with_txids_safe dbg srv Htyped cps Hne u2 txids Hon2 Htx m2) as Hs. by rewrite E3 in Hs. }
  destruct ok3; cbn [negb] in E; [|by eapply IH].
  apply bnd_Done in E as (m4 & [u4 ok4] & E4 & E).
  assert (Hon4: upd_on cps u4).
  { pose proof (populate_with_outpoints_safe dbg srv Htyped cps Hne u3 outpoints Hon3 m3) as Hs. by rewrite E4 in Hs. }
  destruct ok4 as [full|]; [|by eapply IH].
  assert (Htip4: tip_of wB u4 ∧ (n0 ≤ m0)%nat ∨ tip_of wA u4).
  { assert (Hcc: sc_cps u0 = sc_cps u4) by (symmetry; apply Hon4).
    destruct Htip0 as [[[H1 H2] ?]|[H1 H2]]; [left; split; [|done]|right]; (split; [by eapply is_tip_cps|congruence]). }
  destruct (latest_checkpoint u4) as [b|] eqn:Eb; [|done].
  apply bnd_Done in E as (m5 & y & E5 & E).
  destruct (N.eqb_spec (bi_hash b) y) as [Hy|Hy]; [|by eapply IH].
  injection E as -> <-.
  assert (Hm4: (n0 ≤ m4)%nat).
  { unfold req in E5. destruct (es_header _ _); [|done]. injection E5 as <- _. lia. }
  apply latest_tip in Eb as [Hbt Hbx].
  assert (HtipB: tip_of wB u0 ∧ (n0 ≤ m0)%nat).
  { destruct Htip0 as [?|Ht0]; [done|]. destruct Htip4 as [[Ht4 Hge]|Ht4].
    { split; [|done]. destruct Ht4 as [H1 H2]. assert (Hcc: sc_cps u4 = sc_cps u0) by (apply Hon4).
      split; [by eapply is_tip_cps|congruence]. }
    exfalso. destruct Ht4 as [H1 H2].
    assert (bi_height b = w_tip wA) as Hbh.
    { apply N.le_antisymm; [apply H1, Hbt|apply Hbt, H1]. }
    rewrite Hbh, H2 in Hbx. injection Hbx as Hbx. unfold req in E5.
    rewrite (eh_header _ _ (HB m4 Hm4)) in E5 by (rewrite Hbh; lia). injection E5 as _ Hy5.
    apply Hgone. rewrite <- Hbh at 1. congruence. }
  destruct HtipB as [HtipB Hm0].
  assert (Ht0: true_upd wB cps u0).
  { split; [done|]. split; [apply HtipB|]. intros t p. by rewrite Hp0, lookup_empty. }
  assert (Ht1: more wB cps u0 u1 ∧ (m0 ≤ m1)%nat).
  { destruct rq; [injection E1 as <- <- _; split; [by apply more_refl|lia]|].
    apply (after_B (λ s, rescan dbg s gap batch u0 sc) (λ r, more wB cps u0 r.1) m0 m1 (u1, Some sc1));
      [apply loc_rescan|by apply rescan_true|done|done]. }
  destruct Ht1 as [Ht1 Hm1].
  assert (Ht2: grows wB cps u1 u2 (histories_of wB gap rq) ∧ (m1 ≤ m2)%nat).
  { destruct (after_B (λ s, scan_keychains dbg s gap batch rq u1 sc1)
      (λ r, grows wB cps u1 r.1.2 (histories_of wB gap rq) ∧ r.2 = scanned_of wB gap rq sc1) m1 m2 (rq2, u2, sc2))
      as [[? _] ?]; [apply loc_scan_keychains| |lia|done|done].
    apply (scan_keychains_true wB HwB dbg srvB srvB_honest cps gap batch rq u1 sc1); [apply Ht1|done]. }
  destruct Ht2 as [Ht2 Hm2].
  destruct (after_B (λ s, populate_with_txids dbg s u2 txids)
      (λ r, r.2 = true ∧ grows wB cps u2 r.1 (filter (λ t, is_Some (w_tx wB t)) txids)) m2 m3 (u3, true))
      as [[_ Ht3] Hm3]; [apply loc_populate_with_txids| |lia|done|].
  { apply (populate_with_txids_true wB HwB dbg srvB srvB_honest cps); [apply Ht2|done]. }
  destruct (after_B (λ s, populate_with_outpoints dbg s u3 outpoints)
      (λ r, more wB cps u3 r.1 ∧ r.2 ≠ None ∧ (∀ o, o ∈ outpoints → outpoint_found wB r.1 o) ∧
      ∀ t, is_Some (sc_pos r.1 !! t) → is_Some (sc_pos u3 !! t) ∨ ∃ o, o ∈ outpoints ∧ w_output wB o ∧ around wB o t) m3 m4 (u4, Some full))
      as [(Hm & _ & Hout & _) _]; [apply loc_populate_with_outpoints| |lia|done|].
  { apply (populate_with_outpoints_true wB HwB dbg srvB srvB_honest cps); [apply Ht3|done]. }
  cbn [fst snd] in *. split; [apply Hm|]. split; [|done].
  intros t Hin Hk. apply Hm, Ht3. right. by apply elem_of_list_filter.
Qed.
End scan.
End reorg.

Lemma honest_typed (w : World) dbg s : world_ok w → electrum_honest w s → electrum_typed dbg s.
Proof.
  intros Hw Hh.
  assert (Hent: ∀ k l t raw, electrum_history w k l → (t, raw) ∈ l → t ≤ max_txid ∧ (dbg = true → -1 ≤ raw)%Z).
  { intros k l t raw Hk Hin. destruct (history_entries w Hw k l Hk t raw Hin) as [He Ht]. split; [done|]. intros _.
    unfold electrum_height in He. destruct (w_height w t); lia. }
  split.
  - intros h x. rewrite (eh_tip w s Hh). intros [= <- <-]. apply (wo_tip w Hw).
  - intros k l t raw E. destruct (eh_history w s Hh k) as (l' & E' & Hl). rewrite E in E'. injection E' as <-. by apply (Hent k).
  - intros ks ls l t raw E Hl. destruct (eh_histories w s Hh ks) as (ls' & E' & Hls). rewrite E in E'. injection E' as <-.
    apply elem_of_list_lookup in Hl as [i Hl]. destruct (Forall2_lookup_r _ _ _ _ _ Hls Hl) as (k & _ & Hk). by apply (Hent k).
  - intros t x. rewrite (eh_tx w s Hh). destruct (w_tx w t) as [y|] eqn:E; [|done]. intros [= <-].
    destruct (wo_tx w Hw t y E) as [H1 H2]. done.
Qed.

Lemma scan_reorg (wA wB : World) dbg (srv : nat → ESnap) (n0 : nat) `{Countable K, !Ord K, !OrdLaws K}
  (fuel : nat) (local : gmap N BlockHash) (kspks : gmap K (list (N * Script)))
  (txids : list Txid) (outpoints : list OutPoint) (gap : N) (batch : nat) n e :
  world_ok wA → world_ok wB → (0 < n0)%nat →
  (∀ n, (n < n0)%nat → electrum_honest wA (srv n)) → (∀ n, (n0 ≤ n)%nat → electrum_honest wB (srv n)) →
  (∀ h, is_Some (local !! h) → h ≤ w_tip wA) → w_tip wA ≤ w_tip wB → w_block wB (w_tip wA) ≠ w_block wA (w_tip wA) →
  (0 < batch)%nat → Forall (λ t, t ≤ max_txid) txids →
  Forall (λ o, is_Some (w_tx wA (op_txid o)) ∧ is_Some (w_tx wB (op_txid o))) outpoints →
  scan dbg srv (S fuel) local kspks txids outpoints gap batch 0%nat = Done n e →
  ((n ≤ n0)%nat → scan_complete wA local kspks txids outpoints gap e) ∧
  ((n0 < n)%nat →
    (∀ t p, sc_pos (eu_chain e) !! t = Some p → p = w_position wB t) ∧
    (∀ t, t ∈ txids → is_Some (w_tx wB t) → is_Some (sc_pos (eu_chain e) !! t)) ∧
    (∀ o, o ∈ outpoints → outpoint_found wB (eu_chain e) o)).
Proof.
  intros HwA HwB Hn0 HA HB Hlocal Hlen Hgone Hb Htx Hops E.
  assert (HopsA: Forall (λ o, is_Some (w_tx wA (op_txid o))) outpoints)
    by (eapply Forall_impl; [exact Hops|]; simpl; tauto).
  assert (HopsB: Forall (λ o, is_Some (w_tx wB (op_txid o))) outpoints)
    by (eapply Forall_impl; [exact Hops|]; simpl; tauto).
  split; intros Hn.
  - set (srvA := λ m : nat, if (m <? n0)%nat then srv m else srv 0%nat).
    assert (HsA: ∀ m, electrum_honest wA (srvA m)).
    { intros m. unfold srvA. destruct (Nat.ltb_spec m n0); by apply HA. }
    destruct (loc_scan dbg (S fuel) local kspks txids outpoints gap batch srv _ _ _ E) as [_ Hag].
    specialize (Hag srvA). destruct (scan_ends wA HwA dbg srvA HsA fuel local kspks txids outpoints gap batch) with 0%nat
      as (n' & e' & E' & Hc); [done..|]. rewrite Hag in E'.
    + by injection E' as <- <-.
    + intros m Hm. unfold srvA. destruct (Nat.ltb_spec m n0); [done|lia].
  - unfold scan in E. apply bnd_Done in E as (m & [u sc] & E1 & E2). injection E2 as -> <-. cbn [eu_chain].
    eapply (scan_loop_reorg wA wB HwA HwB dbg srv n0 HA HB local Hlocal Hlen txids outpoints gap batch Hb Htx HopsB Hgone) in E1;
      [done| |done].
    intros m. destruct (decide (m < n0)%nat).
    + by apply (honest_typed wA); [|apply HA].
    + apply (honest_typed wB); [done|]. apply HB. lia.
Qed.
