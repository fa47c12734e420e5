(** Scans come to an end (C106). *)
From Verif Require Export EndsSpec ElectrumProofs5.

(** ** More fuel does not change what has ended *)
Section agrees.
Context {A B : Type}.
Lemma agrees_refl (p : prog A) : agrees p p.
Proof. by intros n. Qed.
Lemma agrees_unfinished (p : prog A) : agrees unfinished p.
Proof. by intros n []. Qed.
Lemma agrees_bnd (p p' : prog A) (f f' : A → prog B) :
  agrees p p' → (∀ a, agrees (f a) (f' a)) → agrees (bnd p f) (bnd p' f').
Proof.
  intros Hp Hf n. unfold bnd. specialize (Hp n). destruct (p n) as [m a| | |]; intros Hn.
  - rewrite Hp by done. by apply Hf.
  - by rewrite Hp.
  - by rewrite Hp.
  - by destruct Hn.
Qed.
End agrees.

Section electrum.
Context (dbg : bool) (srv : nat → ESnap).
Implicit Types (u : SparseChain TxHeight).
Lemma prepare_update_fuel (fuel fuel' : nat) (local : gmap N BlockHash) : (fuel ≤ fuel')%nat →
  agrees (prepare_update srv fuel local) (prepare_update srv fuel' local).
Proof using.
  revert fuel'. induction fuel as [|fuel IH]; intros fuel' Hle; [apply agrees_unfinished|].
  destruct fuel' as [|fuel']; [lia|]. cbn [prepare_update].
  apply agrees_bnd; [apply agrees_refl|intros u]. apply agrees_bnd; [apply agrees_refl|intros tip].
  apply agrees_bnd; [apply agrees_refl|intros r]. destruct r as [[??]|]; [apply agrees_refl|]. apply IH. lia.
Qed.
Context `{Countable K, !Ord K}.
Lemma scan_loop_fuel (fuel fuel' : nat) (local : gmap N BlockHash) (txids : list Txid) (outpoints : list OutPoint) (gap : N) (batch : nat) (rq : list (K * list (N * Script))) (sc : gmap (K * N) (Script * bool)) :
  (fuel ≤ fuel')%nat →
  agrees (scan_loop dbg srv fuel local txids outpoints gap batch rq sc)
    (scan_loop dbg srv fuel' local txids outpoints gap batch rq sc).
Proof using.
  revert fuel' rq sc. induction fuel as [|fuel IH]; intros fuel' rq sc Hle; [apply agrees_unfinished|].
  destruct fuel' as [|fuel']; [lia|]. cbn [scan_loop].
  assert (IH': ∀ rq sc, agrees (scan_loop dbg srv fuel local txids outpoints gap batch rq sc)
    (scan_loop dbg srv fuel' local txids outpoints gap batch rq sc)) by (intros; apply IH; lia).
  apply agrees_bnd; [apply (prepare_update_fuel (S fuel)); lia|intros u].
  apply agrees_bnd; [apply agrees_refl|intros [u1 [sc1|]]]; [|apply IH'].
  apply agrees_bnd; [apply agrees_refl|intros [[rq2 u2] sc2]].
  apply agrees_bnd; [apply agrees_refl|intros [u3 ok3]]. destruct ok3; cbn [negb]; [|apply IH'].
  apply agrees_bnd; [apply agrees_refl|intros [u4 [ok4|]]]; [|apply IH'].
  destruct (latest_checkpoint u4); [|apply agrees_refl].
  apply agrees_bnd; [apply agrees_refl|intros y]. destruct (_ =? _); [apply agrees_refl|apply IH'].
Qed.
Lemma scan_fuel (fuel fuel' : nat) (local : gmap N BlockHash) (kspks : gmap K (list (N * Script))) (txids : list Txid) (outpoints : list OutPoint) (gap : N) (batch : nat) :
  (fuel ≤ fuel')%nat →
  agrees (scan dbg srv fuel local kspks txids outpoints gap batch) (scan dbg srv fuel' local kspks txids outpoints gap batch).
Proof using.
  intros Hle. unfold scan. apply agrees_bnd; [by apply scan_loop_fuel|intros [u sc]; apply agrees_refl].
Qed.
End electrum.


(** ** The pieces of a round always end *)
Definition always {A} (p : prog A) : Prop := ∀ n, ended (p n).
Section always.
Context {A B : Type}.
Lemma fin_ret (a : A) : always (ret a).
Proof. done. Qed.
Lemma fin_lift (o : outcome A) : always (lift o).
Proof. intros n. unfold lift. by destruct o. Qed.
Lemma fin_failed (e : ClientError) : always (A := A) (λ n, Failed n e).
Proof. done. Qed.
Lemma fin_req {S} (srv : nat → S) (q : S → result A ClientError) : always (req srv q).
Proof. intros n. unfold req. by destruct (q (srv n)). Qed.
Lemma fin_ask {S} (srv : nat → S) (q : S → result A ClientError) : always (ask srv q).
Proof. done. Qed.
Lemma fin_bnd (p : prog A) (f : A → prog B) : always p → (∀ a, always (f a)) → always (bnd p f).
Proof. intros Hp Hf n. specialize (Hp n). unfold bnd. destruct (p n) as [m a| | |]; [apply Hf|done..]. Qed.
End always.
Ltac fin_step := first
  [ apply fin_ret | apply fin_lift | apply fin_failed | apply fin_req | apply fin_ask
  | apply fin_bnd; [|intros ?] | assumption ].

Section pieces.
Context (dbg : bool) (srv : nat → ESnap).
Implicit Types (u : SparseChain TxHeight).
Lemma fin_prepare_loop l u : always (prepare_loop srv l u).
Proof using.
  revert u. induction l as [|[h x] l IH]; intros u; cbn [prepare_loop]; [fin_step|].
  repeat fin_step. destruct a0 as [[u' ?]|]; [|fin_step]. destruct (_ =? _); [fin_step|apply IH].
Qed.
Lemma fin_outpoint_history o t tip l u full residing spending :
  always (outpoint_history dbg srv o t tip l u full residing spending).
Proof using.
  revert u full residing spending. induction l as [|[i raw] l IH]; intros u full residing spending;
    cbn [outpoint_history]; [fin_step|].
  destruct (residing && spending); [fin_step|]. destruct (i =? op_txid o).
  - destruct residing; [apply IH|]. repeat fin_step. destruct a0.2; [apply IH|fin_step].
  - destruct spending; [apply IH|]. apply fin_bnd; [destruct (full !! i); fin_step|intros s].
    destruct (existsb _ _); [|apply IH]. repeat fin_step. destruct a0.2; [apply IH|fin_step].
Qed.
Lemma fin_outpoints_loop tip l u full : always (outpoints_loop dbg srv tip l u full).
Proof using.
  revert u full. induction l as [|o l IH]; intros u full; cbn [outpoints_loop]; [fin_step|].
  repeat fin_step. destruct (dbg && _); [fin_step|]. destruct (tx_out a !! _); [|apply IH].
  apply fin_bnd; [fin_step|intros hist]. apply fin_bnd; [apply fin_outpoint_history|intros r].
  destruct r.2; [apply IH|fin_step].
Qed.
Lemma fin_populate_with_outpoints u l : always (populate_with_outpoints dbg srv u l).
Proof using. unfold populate_with_outpoints. destruct (latest_checkpoint u); [apply fin_outpoints_loop|fin_step]. Qed.
Lemma fin_txids_loop tip l u : always (txids_loop dbg srv tip l u).
Proof using.
  revert u. induction l as [|i l IH]; intros u; cbn [txids_loop]; [fin_step|].
  repeat fin_step. destruct a as [t|[]]; [|apply IH|fin_step]. destruct (tx_out t) as [|x ?]; [fin_step|].
  repeat fin_step. destruct (List.find _ _); [|apply IH]. repeat fin_step. destruct a1.2; [apply IH|fin_step].
Qed.
Lemma fin_populate_with_txids u l : always (populate_with_txids dbg srv u l).
Proof using. unfold populate_with_txids. destruct (latest_checkpoint u); [apply fin_txids_loop|fin_step]. Qed.
Lemma fin_spks_loop `{Countable J, !Ord J} (fuel : nat) (gap : N) (batch : nat) tip (l : list (J * Script)) u unused scanned :
  (length l < fuel)%nat → always (spks_loop dbg srv fuel gap batch tip l u unused scanned).
Proof using.
  revert l u unused scanned. induction fuel as [|fuel IH]; intros l u unused scanned Hlen; [lia|]; cbn [spks_loop].
  destruct (take batch l) eqn:E; [fin_step|]. repeat fin_step. destruct a0; [fin_step|fin_step|apply IH].
  rewrite drop_length. assert (length (take batch l) = S (length l0)) by (by rewrite E). rewrite take_length in H0. lia.
Qed.
Lemma fin_populate_with_spks `{Countable J, !Ord J} (gap : N) (batch : nat) u (l : list (J * Script)) :
  always (populate_with_spks dbg srv gap batch u l).
Proof using. unfold populate_with_spks. apply fin_spks_loop. lia. Qed.
Context `{Countable K, !Ord K}.
Lemma fin_scan_keychains (gap : N) (batch : nat) (rq : list (K * list (N * Script))) u (sc : gmap (K * N) (Script * bool)) :
  always (scan_keychains dbg srv gap batch rq u sc).
Proof using.
  revert u sc. induction rq as [|[k l] rq IH]; intros u sc; cbn [scan_keychains]; [fin_step|].
  apply fin_bnd; [apply fin_populate_with_spks|intros [[u1 rest] new]].
  apply fin_bnd; [apply IH|intros [[rq2 u2] sc2]]. fin_step.
Qed.
Lemma fin_rescan (gap : N) (batch : nat) u (sc : gmap (K * N) (Script * bool)) : always (rescan dbg srv gap batch u sc).
Proof using.
  unfold rescan. case_bool_decide; [fin_step|].
  apply fin_bnd; [apply fin_populate_with_spks|intros [[u1 rest] new]]. fin_step.
Qed.
End pieces.

(** ** A server that has settled *)
Section settled.
Context (w : World) (Hw : world_ok w) (dbg : bool) (srv : nat → ESnap) (n0 : nat) (Hset : settles w n0 srv).
Context (local : gmap N BlockHash) (Hlocal : ∀ h, is_Some (local !! h) → h ≤ w_tip w).
Implicit Types (u : SparseChain TxHeight).

Definition srvS : nat → ESnap := λ n, if (n <? n0)%nat then srv n0 else srv n.
Lemma srvS_honest n : electrum_honest w (srvS n).
Proof using Hset. unfold srvS. destruct (Nat.ltb_spec n n0); by apply Hset. Qed.
Lemma after_S {A} (p : (nat → ESnap) → prog A) (Q : A → Prop) n :
  loc p → ends (p srvS) Q → (n0 ≤ n)%nat → ∃ n' a, p srv n = Done n' a ∧ Q a ∧ (n ≤ n')%nat.
Proof using.
  intros Hloc He Hn. destruct (He n) as (n' & a & E & HQ). exists n', a.
  destruct (Hloc _ _ _ _ E) as [Hle Hag]. split; [|done]. apply Hag.
  intros m Hm. unfold srvS. destruct (Nat.ltb_spec m n0); [lia|done].
Qed.

(** *** Preparing *)
Lemma prepare_asks (fuel n n' : nat) u : prepare_update srv fuel local n = Done n' u → (n < n')%nat.
Proof using.
  revert n. induction fuel as [|fuel IH]; intros n; [done|]. cbn [prepare_update]. intros E.
  apply bnd_Done in E as (m1 & u1 & E1 & E). apply loc_prepare_loop in E1 as [E1 _].
  apply bnd_Done in E as (m2 & tip & E2 & E). unfold get_tip in E2. apply bnd_Done in E2 as (m2' & d & E2 & E2').
  injection E2' as <- _. unfold req in E2. destruct (es_tip (srv m1)); [|done]. injection E2 as <- _.
  apply bnd_Done in E as (m3 & r & E3 & E). unfold lift in E3. destruct (insert_checkpoint u1 tip); [|done].
  injection E3 as <- _. destruct r as [[u' cs]|e].
  - injection E as <- _. lia.
  - apply IH in E. lia.
Qed.
Lemma prepare_ends (fuel n : nat) : (0 < fuel)%nat → (n0 < n + fuel)%nat → ended (prepare_update srv fuel local n).
Proof using Hw Hset Hlocal.
  revert n. induction fuel as [|fuel IH]; intros n Hf Hn; [lia|].
  destruct (decide (n0 ≤ n)%nat) as [Hle|Hgt].
  { destruct (after_S (λ s, prepare_update s (S fuel) local) _ n
      (loc_prepare_update (S fuel) local) (prepare_update_ends w Hw srvS srvS_honest fuel local Hlocal) Hle)
      as (n' & u & -> & _). done. }
  cbn [prepare_update]. unfold bnd at 1. pose proof (fin_prepare_loop srv (reverse (bmap_list local)) sc_default n) as Hfin.
  destruct (prepare_loop srv _ _ n) as [m1 u1| | |] eqn:E1; [|done..]. apply loc_prepare_loop in E1 as [E1 _].
  unfold get_tip, bnd, req. destruct (es_tip (srv m1)) as [d|]; [|done]. unfold ret at 1.
  unfold lift. destruct (insert_checkpoint _ _) as [[[u' cs]|e]|]; [done| |done]. apply IH; lia.
Qed.

(** *** The rest of a round *)
Lemma outpoints_fin (cps : gmap N BlockHash) l u full : true_upd w cps u → full_true w full →
  ∀ n, (n0 ≤ n)%nat → match outpoints_loop dbg srv (w_tip w) l u full n with
    Done n' r => (n0 ≤ n')%nat ∧ true_upd w cps r.1 ∧ r.2 ≠ None | Unfinished => False | _ => True end.
Proof using Hw Hset.
  revert u full. induction l as [|o l IH]; intros u full Hu Hfull n Hn; [by cbn [outpoints_loop ret]|].
  destruct (w_tx w (op_txid o)) as [x|] eqn:Hx.
  2: { cbn [outpoints_loop]. unfold bnd, req. by rewrite (eh_tx w _ (Hset n Hn)), Hx. }
  cbn [outpoints_loop]. unfold bnd at 1, req. rewrite (eh_tx w _ (Hset n Hn)), Hx.
  destruct (wo_tx w Hw _ _ Hx) as [Htxid _]. rewrite Htxid, N.eqb_refl, andb_false_r.
  destruct (tx_out x !! N.to_nat (op_vout o)) as [z|] eqn:Ez; [|apply IH; [done|done|lia]].
  unfold bnd at 1. destruct (eh_history w _ (Hset (n + 1)%nat ltac:(lia)) (txo_spk z)) as (hist & -> & Hh).
  destruct (after_S (λ s, outpoint_history dbg s o x (w_tip w) hist u full false false) (λ r, more w cps u r.1 ∧ ∃ full', r.2 = Some full' ∧ full_true w full') (n + 1 + 1)%nat)
    as (m & [u1 f1] & E & [Hm (full' & Hf' & Hfull')] & Hle).
  - apply loc_outpoint_history.
  - eapply ends_weaken.
    + apply (outpoint_history_true w Hw dbg srvS srvS_honest cps o x hist u full false false Hu Hx Hfull).
      intros i raw Hin. destruct (history_entries _ Hw _ _ Hh i raw Hin) as [H1 H2]. split; [done|]. split; [done|].
      apply (wo_known w Hw (txo_spk z)). rewrite <- (proj1 Hh). apply elem_of_list_fmap. by exists (i, raw).
    + intros r (H1 & H2 & _). done.
  - lia.
  - unfold bnd. rewrite E. cbn [snd fst] in *. subst f1. apply IH; [apply Hm|done|lia].
Qed.
Section round.
Context `{Countable K, !Ord K} (gap : N) (batch : nat).
Lemma spks_fin `{Countable J, !Ord J} (cps : gmap N BlockHash) u (l : list (J * Script)) : true_upd w cps u →
  ends (populate_with_spks dbg srvS gap batch u l) (λ r, true_upd w cps r.1.1 ∧ r.2 ≠ None).
Proof using Hw Hset.
  intros Hu. destruct (decide (batch = 0%nat)) as [-> |Hb].
  - unfold populate_with_spks. cbn [spks_loop take]. by apply ends_ret.
  - eapply ends_weaken; [apply (populate_with_spks_true w Hw dbg srvS srvS_honest cps); [done|lia]|].
    intros r (rest & Hr & Hg). split; [apply Hg|]. rewrite Hr. done.
Qed.
Lemma rescan_fin (cps : gmap N BlockHash) u (sc : gmap (K * N) (Script * bool)) : true_upd w cps u →
  ends (rescan dbg srvS gap batch u sc) (λ r, true_upd w cps r.1 ∧ r.2 ≠ None).
Proof using Hw Hset.
  intros Hu. unfold rescan. case_bool_decide; [by apply ends_ret|].
  eapply ends_bnd; [by apply (spks_fin cps)|]. intros [[u1 rest] [new|]] [H1 H2]; [|done]. by apply ends_ret.
Qed.
Lemma keychains_fin (cps : gmap N BlockHash) (rq : list (K * list (N * Script))) u (sc : gmap (K * N) (Script * bool)) : true_upd w cps u →
  ends (scan_keychains dbg srvS gap batch rq u sc) (λ r, true_upd w cps r.1.2).
Proof using Hw Hset.
  revert u sc. induction rq as [|[k l] rq IH]; intros u sc Hu; cbn [scan_keychains]; [by apply ends_ret|].
  eapply ends_bnd; [by apply (spks_fin cps)|]. intros [[u1 rest] new] [H1 H2].
  eapply ends_bnd; [by apply IH|]. intros [[rq2 u2] sc2] H3. by apply ends_ret.
Qed.

Context (txids : list Txid) (outpoints : list OutPoint).
Context (Htx : Forall (λ t, t ≤ max_txid) txids).
Lemma scan_loop_ends (fuel : nat) (rq : list (K * list (N * Script))) (sc : gmap (K * N) (Script * bool)) n :
  (0 < fuel)%nat → (n0 < n + fuel)%nat → ended (scan_loop dbg srv fuel local txids outpoints gap batch rq sc n).
Proof using Hw Hset Hlocal Htx.
  revert rq sc n. induction fuel as [|fuel IH]; intros rq sc n Hf Hn; [lia|]. cbn [scan_loop].
  unfold bnd at 1. pose proof (prepare_ends (S fuel) n Hf Hn) as Hp.
  destruct (prepare_update srv (S fuel) local n) as [m0 u0| | |] eqn:E0; [|done..].
  pose proof (prepare_asks _ _ _ _ E0) as Hm0.
  destruct (decide (n0 ≤ n)%nat) as [Hle|Hgt].
  - destruct (after_S (λ s, prepare_update s (S fuel) local) _ n
      (loc_prepare_update (S fuel) local) (prepare_update_ends w Hw srvS srvS_honest fuel local Hlocal) Hle)
      as (n' & u & E & (Hu0 & Hpos0 & Hcon) & _). rewrite E0 in E. injection E as <- <-.
    set (cps := sc_cps u0).
    assert (Htrue0: true_upd w cps u0).
    { split; [by split|]. split.
      - pose proof (proj1 (connects_iff w local cps) Hcon) as Hc. split.
        + exists (w_block w (w_tip w)). apply Hc. split; [by left|done].
        + intros h [y Hh]. apply Hc in Hh as [[-> |[Hh _]] _]; [done|]. by apply Hlocal.
      - intros t p. by rewrite Hpos0, lookup_empty. }
    assert (∃ m1 u1 sc1, (match rq with [] => ret (u0, Some sc) | _ => rescan dbg srv gap batch u0 sc end) m0 = Done m1 (u1, Some sc1) ∧
        true_upd w cps u1 ∧ (n0 ≤ m1)%nat) as (m1 & u1 & sc1 & E1 & Htrue1 & Hm1).
    { destruct rq; [exists m0, u0, sc; split; [done|split; [done|lia]]|].
      destruct (after_S (λ s, rescan dbg s gap batch u0 sc) _ m0 (loc_rescan _ _ _ _ _) (rescan_fin cps u0 sc Htrue0))
        as (m1 & [u1 [sc1|]] & E1 & [H1 H2] & H3); [lia| |done]. exists m1, u1, sc1. split; [done|]. split; [done|lia]. }
    unfold bnd at 1. rewrite E1. cbv beta iota zeta. unfold bnd at 1.
    destruct (after_S (λ s, scan_keychains dbg s gap batch rq u1 sc1) _ m1 (loc_scan_keychains _ _ _ _ _ _) (keychains_fin cps rq u1 sc1 Htrue1))
      as (m2 & [[rq2 u2] sc2] & E2 & Htrue2 & Hm2); [lia|]. rewrite E2. cbv beta iota zeta. unfold bnd at 1. cbn [fst snd] in Htrue2.
    destruct (after_S (λ s, populate_with_txids dbg s u2 txids) _ m2 (loc_populate_with_txids _ _ _)
      (populate_with_txids_true w Hw dbg srvS srvS_honest cps txids u2 Htrue2 Htx)) as (m3 & [u3 ok3] & E3 & [Hok3 Hg3] & Hm3); [lia|].
    rewrite E3. cbv beta iota zeta. cbn [fst snd] in *. rewrite Hok3. cbn [negb]. unfold bnd at 1.
    pose proof (proj1 Hg3) as Htrue3. unfold populate_with_outpoints. destruct (true_latest w cps u3 Htrue3) as (x & ->). cbn [bi_height].
    pose proof (outpoints_fin cps outpoints u3 ∅ Htrue3 ltac:(intros t z; by rewrite lookup_empty) m3 ltac:(lia)) as Ho.
    destruct (outpoints_loop dbg srv (w_tip w) outpoints u3 ∅ m3) as [m4 [u4 [ok4|]]| | |]; [|by destruct Ho as (_ & _ & [])|done..].
    destruct Ho as (Hm4 & Htrue4 & _). cbn [fst snd] in *.
    destruct (true_latest w cps u4 Htrue4) as (y & Hy). rewrite Hy. unfold bnd, req. cbn [bi_height].
    rewrite (eh_header w _ (Hset m4 Hm4)) by lia. cbn [bi_hash].
    apply latest_tip in Hy as [_ Hy]. cbn in Hy. destruct Htrue4 as ((_ & Hc4) & _). rewrite Hc4 in Hy.
    pose proof (proj1 (connects_iff w local cps) Hcon) as Hc. apply Hc in Hy as [_ ->]. rewrite N.eqb_refl. done.
  - assert (Hag: ∀ m rq sc, (m0 ≤ m)%nat → ended (scan_loop dbg srv fuel local txids outpoints gap batch rq sc m))
      by (intros; apply IH; lia).
    unfold bnd at 1.
    assert (Hr: always (match rq with [] => ret (u0, Some sc) | _ => rescan dbg srv gap batch u0 sc end))
      by (destruct rq; [apply fin_ret|apply fin_rescan]).
    assert (Hl: loc (λ srv, match rq with [] => ret (u0, Some sc) | _ => rescan dbg srv gap batch u0 sc end))
      by (destruct rq; [apply loc_ret|apply loc_rescan]).
    specialize (Hr m0). destruct (match rq with [] => ret (u0, Some sc) | _ => rescan dbg srv gap batch u0 sc end m0) as [m1 [u1 re]| | |] eqn:E1; [|done..].
    apply Hl in E1 as [E1 _]. clear Hr Hl. destruct re as [sc1|]; [|apply Hag; lia].
    unfold bnd at 1. pose proof (fin_scan_keychains dbg srv gap batch rq u1 sc1 m1) as Hk.
    destruct (scan_keychains dbg srv gap batch rq u1 sc1 m1) as [m2 [[rq2 u2] sc2]| | |] eqn:E2; [|done..].
    apply loc_scan_keychains in E2 as [E2 _].
    unfold bnd at 1. pose proof (fin_populate_with_txids dbg srv u2 txids m2) as Ht.
    destruct (populate_with_txids dbg srv u2 txids m2) as [m3 [u3 ok3]| | |] eqn:E3; [|done..].
    apply loc_populate_with_txids in E3 as [E3 _]. destruct ok3; cbn [negb]; [|apply Hag; lia].
    unfold bnd at 1. pose proof (fin_populate_with_outpoints dbg srv u3 outpoints m3) as Ho.
    destruct (populate_with_outpoints dbg srv u3 outpoints m3) as [m4 [u4 [ok4|]]| | |] eqn:E4; [| |done..];
      apply loc_populate_with_outpoints in E4 as [E4 _]; [|apply Hag; lia].
    destruct (latest_checkpoint u4) as [b|]; [|done]. unfold bnd, req.
    destruct (es_header (srv m4) (bi_height b)) as [y|]; [|done]. destruct (_ =? _); [done|]. apply Hag. lia.
Qed.
Lemma scan_settled (fuel : nat) (kspks : gmap K (list (N * Script))) n :
  (n0 < fuel)%nat → ended (scan dbg srv fuel local kspks txids outpoints gap batch n).
Proof using Hw Hset Hlocal Htx.
  intros Hf. unfold scan, bnd. pose proof (scan_loop_ends fuel (bmap_list kspks) ∅ n ltac:(lia) ltac:(lia)) as He.
  destruct (scan_loop _ _ _ _ _ _ _ _ _ _ n) as [m [u sc]| | |]; done.
Qed.
End round.
End settled.
