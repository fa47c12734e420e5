(** Esplora scans come to an end (C106). *)
From Verif Require Export EndsProofs EsploraProofs4.

(** ** More fuel does not change what has ended *)
Section fuel.
Context (srv : nat → PSnap) (ho : TxGraph → OutPoint → list Txid).
Implicit Types (u : ChainGraph ConfirmationTime) (local : gmap N BlockHash).
Lemma more_pages_fuel (fuel fuel' : nat) k related : (fuel ≤ fuel')%nat →
  agrees (more_pages srv fuel k related) (more_pages srv fuel' k related).
Proof using.
  revert fuel' related. induction fuel as [|fuel IH]; intros fuel' related Hle; [apply agrees_unfinished|].
  destruct fuel' as [|fuel']; [lia|]. cbn [more_pages]. destruct (last related); [|apply agrees_refl].
  apply agrees_bnd; [apply agrees_refl|intros new]. destruct (_ <? _)%nat; [apply agrees_refl|apply IH; lia].
Qed.
Lemma fetch_batch_fuel (fuel fuel' : nat) l : (fuel ≤ fuel')%nat → agrees (fetch_batch srv fuel l) (fetch_batch srv fuel' l).
Proof using.
  intros Hle. induction l as [|[i k] l IH]; cbn [fetch_batch]; [apply agrees_refl|].
  apply agrees_bnd; [|intros r; apply agrees_bnd; [apply IH|intros; apply agrees_refl]].
  unfold related_txs. apply agrees_bnd; [apply agrees_refl|intros r].
  destruct (_ <=? _)%nat; [by apply more_pages_fuel|apply agrees_refl].
Qed.
Lemma keychain_loop_fuel rounds (fuel fuel' : nat) gap par tip l u a n : (fuel ≤ fuel')%nat →
  agrees (keychain_loop srv ho rounds fuel gap par tip l u a n) (keychain_loop srv ho rounds fuel' gap par tip l u a n).
Proof using.
  intros Hle. revert l u a n. induction rounds as [|rounds IH]; intros l u a n; cbn [keychain_loop]; [apply agrees_refl|].
  apply agrees_bnd; [by apply fetch_batch_fuel|intros rs]. apply agrees_bnd; [apply agrees_refl|intros [[u1 a1] n1]].
  destruct (_ || _); [apply agrees_refl|apply IH].
Qed.
Lemma keychains_loop_fuel `{Countable K} (fuel fuel' : nat) (gap : N) (par : nat) (tip : N) (l : list (K * list (N * Script))) u (m : gmap K N) :
  (fuel ≤ fuel')%nat →
  agrees (keychains_loop srv ho fuel gap par tip l u m) (keychains_loop srv ho fuel' gap par tip l u m).
Proof using.
  intros Hle. revert u m. induction l as [|[k spks] l IH]; intros u m; cbn [keychains_loop]; [apply agrees_refl|].
  apply agrees_bnd; [by apply keychain_loop_fuel|intros [u1 a]]. apply IH.
Qed.
Lemma ps_scan_fuel (fuel fuel' : nat) `{Countable K, !Ord K} local (kspks : gmap K (list (N * Script))) (txs : list Txid)
  (outpoints : list OutPoint) (gap : N) (par : nat) :
  (fuel ≤ fuel')%nat →
  agrees (ps_scan srv ho fuel local kspks txs outpoints gap par) (ps_scan srv ho fuel' local kspks txs outpoints gap par).
Proof using.
  revert fuel' K EqDecision0 H Ord0 kspks txs outpoints gap par.
  induction fuel as [|fuel IH]; intros fuel' K ??? kspks txs outpoints gap par Hle; [apply agrees_unfinished|].
  destruct fuel' as [|fuel']; [lia|]. cbn [ps_scan].
  apply agrees_bnd; [apply agrees_refl|intros u]. apply agrees_bnd; [apply agrees_refl|intros height].
  apply agrees_bnd; [apply agrees_refl|intros hash]. apply agrees_bnd; [apply agrees_refl|intros r].
  destruct r as [[u0 ?]|]; [|apply IH; lia].
  apply agrees_bnd; [apply keychains_loop_fuel; lia|intros [u1 active]].
  apply agrees_bnd; [apply agrees_refl|intros u2]. apply agrees_bnd; [apply agrees_refl|intros u3].
  apply agrees_bnd; [apply agrees_refl|intros re].
  destruct re; [|apply agrees_refl]. apply agrees_bnd; [apply IH; lia|intros s; apply agrees_refl].
Qed.
End fuel.

(** ** The pieces that always end *)
Section pieces.
Context (srv : nat → PSnap) (ho : TxGraph → OutPoint → list Txid).
Implicit Types (u : ChainGraph ConfirmationTime).
Lemma fin_ps_prepare_loop l u : always (ps_prepare_loop srv l u).
Proof using.
  revert u. induction l as [|[h x] l IH]; intros u; cbn [ps_prepare_loop]; [fin_step|].
  repeat fin_step. destruct a0 as [[u' ?]|]; [|fin_step]. destruct (_ =? _); [fin_step|apply IH].
Qed.
Lemma fin_ps_txids_loop tip l u : always (ps_txids_loop srv ho tip l u).
Proof using.
  revert u. induction l as [|i l IH]; intros u; cbn [ps_txids_loop]; [fin_step|].
  repeat fin_step. destruct a as [t|]; [|apply IH]. destruct a0 as [s|]; [|apply IH]. repeat fin_step. apply IH.
Qed.
Lemma fin_ps_outpoints_loop tip l u : always (ps_outpoints_loop srv ho tip l u).
Proof using.
  revert u. induction l as [|o l IH]; intros u; cbn [ps_outpoints_loop]; [fin_step|].
  apply fin_bnd; [|intros txs; repeat fin_step; apply IH].
  unfold outpoint_txs. repeat fin_step. destruct a as [t|]; [|fin_step]. destruct a0 as [s|]; [|fin_step].
  repeat fin_step. destruct a as [[[i|] [s'|]]|]; try fin_step. repeat fin_step. destruct a as [t'|]; fin_step.
Qed.
End pieces.

Section settled.
Context (W : Txid → list OutPoint) (w : World) (time : N → N) (Hw : world_ok w) (Hsane : world_sane W w).
Context (Htime : ∀ h, time h ≤ u64_max) (ho : TxGraph → OutPoint → list Txid) (Hho : hash_fun_ok ho).
Context (srv : nat → PSnap) (n0 : nat) (Hset : ps_settles w time n0 srv).
Context (local : gmap N BlockHash) (Hlocal : ∀ h, is_Some (local !! h) → h ≤ w_tip w).
Context (P : nat).
Implicit Types (u : ChainGraph ConfirmationTime).

(** *** Pages *)
Definition known_len (k : Script) : Prop := (length (w_confirmed w k) < 25 * P)%nat.
Lemma more_pages_settled (fuel : nat) k related i t m : (n0 ≤ m)%nat → et_txid <$> last related = Some t →
  w_confirmed w k !! i = Some t → (length (w_confirmed w k) - S i < 25 * fuel)%nat →
  ended (more_pages srv fuel k related m).
Proof using Hset.
  revert related i t m. induction fuel as [|fuel IH]; intros related i t m Hm Hl Hi Hf; [lia|]. cbn [more_pages].
  destruct (last related) as [e|] eqn:Ee; [|done]. injection Hl as <-.
  destruct (ph_next w time _ (proj1 (Hset m Hm)) k i _ Hi) as (new & Hnew & Hent).
  unfold bnd, req. rewrite Hnew. destruct (Nat.ltb_spec (length new) 25) as [Hlt|Hge]; [done|].
  pose proof (Forall2_length _ _ _ Hent) as Hlen. rewrite take_length, drop_length in Hlen.
  destruct (lookup_lt_is_Some_2 (w_confirmed w k) (i + 25)) as [t' Ht']; [lia|].
  assert (Hnl: new !! 24%nat = last new) by (rewrite last_lookup; f_equal; lia).
  destruct (lookup_lt_is_Some_2 new 24) as [e' He']; [lia|].
  apply (IH _ (i + 25)%nat t'); [lia| |done|lia].
  rewrite last_app, <- Hnl, He'. cbn. f_equal.
  destruct (Forall2_lookup_r _ _ _ _ _ Hent He') as (t2 & Ht2 & Heq & _). rewrite Heq.
  rewrite lookup_take, lookup_drop in Ht2 by lia. replace (S i + 24)%nat with (i + 25)%nat in Ht2 by lia. congruence.
Qed.
Lemma more_pages_ends (fuel : nat) k related m : known_len k → (P ≤ fuel)%nat → (n0 + P ≤ m + fuel)%nat →
  ended (more_pages srv fuel k related m).
Proof using Hset.
  intros Hk. revert related m. induction fuel as [|fuel IH]; intros related m Hf Hm; [unfold known_len in Hk; lia|].
  destruct (decide (n0 ≤ m)%nat) as [Hle|Hgt].
  - destruct (last related) as [e|] eqn:Ee; [|cbn [more_pages]; by rewrite Ee].
    destruct (decide (et_txid e ∈ w_confirmed w k)) as [[i Hi]%elem_of_list_lookup|Hni].
    + apply (more_pages_settled _ _ _ i (et_txid e)); [done|by rewrite Ee|done|]. unfold known_len in Hk. lia.
    + cbn [more_pages]. rewrite Ee. unfold bnd, req.
      destruct (ps_script_txs (srv m) k (Some (et_txid e))) as [new|] eqn:En; [|done].
      apply (proj2 (Hset m Hle)) in En; [|done]. by apply Nat.ltb_lt in En as ->.
  - cbn [more_pages]. destruct (last related) as [e|]; [|done]. unfold bnd, req.
    destruct (ps_script_txs (srv m) k (Some (et_txid e))) as [new|]; [|done]. destruct (_ <? _)%nat; [done|].
    apply IH; lia.
Qed.
Lemma fetch_ends (fuel : nat) (l : list (N * Script)) m : (∀ i k, (i, k) ∈ l → known_len k) →
  (P ≤ fuel)%nat → (n0 + P ≤ m + fuel)%nat → ended (fetch_batch srv fuel l m).
Proof using Hset.
  intros Hk Hf. revert m. induction l as [|[i k] l IH]; intros m Hm; cbn [fetch_batch]; [done|].
  unfold bnd at 1. assert (He: ended (related_txs srv fuel k m)).
  { unfold related_txs, bnd, req. destruct (ps_script_txs (srv m) k None); [|done]. destruct (_ <=? _)%nat; [|done].
    apply more_pages_ends; [apply (Hk i); by left|done|lia]. }
  destruct (related_txs srv fuel k m) as [m1 r| | |] eqn:E; [|done..]. apply loc_related_txs in E as [E _].
  unfold bnd. assert (He2: ended (fetch_batch srv fuel l m1)).
  { apply IH; [|lia]. intros i' k' Hin. apply (Hk i'). by right. }
  by destruct (fetch_batch srv fuel l m1).
Qed.
Lemma keychain_ends rounds (fuel : nat) gap (par : nat) tip (l : list (N * Script)) u a n m : (∀ i k, (i, k) ∈ l → known_len k) →
  (P ≤ fuel)%nat → (n0 + P ≤ m + fuel)%nat → (0 < par)%nat → (length l < rounds)%nat →
  ended (keychain_loop srv ho rounds fuel gap par tip l u a n m).
Proof using Hset.
  intros Hk Hf Hm Hpar. revert l u a n m Hk Hm. induction rounds as [|rounds IH]; intros l u a n m Hk Hm Hlen; [lia|].
  cbn [keychain_loop]. cbv zeta. unfold bnd at 1.
  assert (He: ended (fetch_batch srv fuel (take par l) m)).
  { apply fetch_ends; [|done|done]. intros i k Hin. apply (Hk i). apply elem_of_take in Hin as (j & Hj & _).
    by eapply elem_of_list_lookup_2. }
  destruct (fetch_batch srv fuel (take par l) m) as [m1 rs| | |] eqn:E; [|done..]. apply loc_fetch_batch in E as [E _].
  unfold bnd, lift. destruct (join_batch _ _ _ _ _ _) as [[[u1 a1] n1]|]; [|done].
  destruct (bool_decide (take par l = [])) eqn:Eb; [done|]. cbn [orb]. destruct (_ <=? _); [done|].
  apply IH; [|lia|].
  - intros i k Hin. apply (Hk i). rewrite <- (take_drop par l). apply elem_of_app. by right.
  - rewrite drop_length. apply bool_decide_eq_false in Eb. destruct l; [by rewrite take_nil in Eb|]. simpl in *. lia.
Qed.
Lemma keychains_ends `{Countable K} (fuel : nat) (gap : N) (par : nat) (tip : N) (l : list (K * list (N * Script))) u (mk : gmap K N) m :
  (∀ k sp i sc, (k, sp) ∈ l → (i, sc) ∈ sp → known_len sc) →
  (P ≤ fuel)%nat → (n0 + P ≤ m + fuel)%nat → (0 < par)%nat →
  ended (keychains_loop srv ho fuel gap par tip l u mk m).
Proof using Hset.
  intros Hk Hf Hm Hpar. revert u mk m Hm. induction l as [|[k sp] l IH]; intros u mk m Hm; cbn [keychains_loop]; [done|].
  unfold bnd. assert (He: ended (keychain_loop srv ho (S (length sp)) fuel gap par tip sp u None 0 m)).
  { apply keychain_ends; [|done|done|done|lia]. intros i sc Hin. apply (Hk k sp i sc); [by left|done]. }
  destruct (keychain_loop _ _ _ _ _ _ _ _ _ _ _ m) as [m1 [u1 a1]| | |] eqn:E; [|done..]. apply loc_keychain_loop in E as [E _].
  apply IH; [|lia]. intros k' sp' i sc Hin. apply (Hk k'). by right.
Qed.

(** *** Rounds *)
Definition psS : nat → PSnap := λ n, if (n <? n0)%nat then srv n0 else srv n.
Lemma psS_honest n : esplora_honest w time (psS n).
Proof using Hset. unfold psS. destruct (Nat.ltb_spec n n0); by apply Hset. Qed.
Lemma ps_scan_settled (fuel : nat) `{Countable K, !Ord K, !OrdLaws K} (kspks : gmap K (list (N * Script))) (txs : list Txid)
  (outpoints : list OutPoint) (gap : N) (par : nat) n :
  (∀ k l i sc, kspks !! k = Some l → (i, sc) ∈ l → (length (w_mempool w sc) ≤ 50)%nat ∧ known_len sc) →
  (P < fuel)%nat → (n0 + P < n + fuel)%nat →
  ended (ps_scan srv ho fuel local kspks txs outpoints gap par n).
Proof using Hw Hsane Htime Hho Hset Hlocal.
  revert K EqDecision0 H Ord0 OrdLaws0 kspks txs outpoints gap par n.
  induction fuel as [|fuel IH]; intros K ???? kspks txs outpoints gap par n Hpage Hf Hn; [lia|].
  destruct (decide (n0 ≤ n)%nat) as [Hle|Hgt].
  { destruct (ps_scan_true W w time Hw Hsane Htime ho Hho psS psS_honest fuel local kspks txs outpoints gap par Hlocal) with (n := n)
      as (n' & s & E & _).
    { intros k l i sc H1 H2. destruct (Hpage k l i sc H1 H2) as [H3 H4]. unfold known_len in H4. split; [done|lia]. }
    destruct (loc_ps_scan ho (S fuel) local kspks txs outpoints gap par psS n n' s E) as [_ Hag].
    rewrite (Hag srv); [done|]. intros m Hm. unfold psS. destruct (Nat.ltb_spec m n0); [lia|done]. }
  cbn [ps_scan]. cbv zeta. unfold bnd at 1.
  pose proof (fin_ps_prepare_loop srv (reverse (bmap_list local)) cg_default n) as Hfin.
  destruct (ps_prepare_loop srv _ _ n) as [m1 u| | |] eqn:E1; [|done..]. apply loc_ps_prepare_loop in E1 as [E1 _].
  unfold bnd at 1, req at 1. destruct (ps_height (srv m1)) as [height|]; [|done].
  unfold bnd at 1, req at 1. destruct (ps_tip_hash (srv (m1 + 1)%nat)) as [hash|]; [|done].
  unfold bnd at 1, lift at 1. destruct (cg_insert_checkpoint _ _) as [[[u0 cs]|e]|]; [|apply IH; [done|done|lia|lia]|done].
  unfold bnd at 1. set (m2 := (m1 + 1 + 1)%nat). assert (Hm2: (n < m2)%nat) by (unfold m2; lia). clearbody m2.
  assert (He: ended (keychains_loop srv ho fuel gap (Nat.max par 1) height (bmap_list kspks) u0 ∅ m2)).
  { apply keychains_ends; [|lia|lia|lia]. intros k sp i sc Hin Hi. apply elem_of_bmap_list in Hin.
    by apply (Hpage k sp i sc Hin Hi). }
  destruct (keychains_loop _ _ _ _ _ _ _ _ _ m2) as [m3 [u1 active]| | |] eqn:E2; [|done..]. apply loc_keychains_loop in E2 as [E2 _].
  unfold bnd at 1. pose proof (fin_ps_txids_loop srv ho height txs u1 m3) as He3.
  destruct (ps_txids_loop _ _ _ _ _ m3) as [m4 u2| | |] eqn:E3; [|done..]. apply loc_ps_txids_loop in E3 as [E3 _].
  unfold bnd at 1. pose proof (fin_ps_outpoints_loop srv ho height outpoints u2 m4) as He4.
  destruct (ps_outpoints_loop _ _ _ _ _ m4) as [m5 u3| | |] eqn:E4; [|done..]. apply loc_ps_outpoints_loop in E4 as [E4 _].
  assert (Hre: ∀ m6 re, match latest_checkpoint (cg_chain u3) with
      | Some b => bnd (req srv (λ s, ps_block_hash s (bi_height b))) (λ y, ret (negb (y =? bi_hash b))) | None => ret false end m5 = Done m6 re →
    (m5 ≤ m6)%nat).
  { intros m6 re. destruct (latest_checkpoint _); [|by intros [= <- _]]. unfold bnd, req. destruct (ps_block_hash _ _); [|done].
    intros [= <- _]. lia. }
  unfold bnd at 1.
  destruct (match latest_checkpoint (cg_chain u3) with
      | Some b => bnd (req srv (λ s, ps_block_hash s (bi_height b))) (λ y, ret (negb (y =? bi_hash b))) | None => ret false end m5)
    as [m6 re| | |] eqn:E5.
  - specialize (Hre m6 re eq_refl). destruct re; [|done]. unfold bnd.
    pose proof (IH N _ _ _ _ {[ 0 := [] ]} (txids (cg_chain u3)).*2 [] u64_max (Nat.max par 1) m6) as IH'.
    match goal with |- ended (match ?p with _ => _ end) => assert (Hend: ended p); [|by destruct p] end.
    apply IH'; [|lia|lia]. intros k l i sc [<- <-]%lookup_singleton_Some []%elem_of_nil.
  - done.
  - done.
  - destruct (latest_checkpoint _); [|done]. unfold bnd, req in E5. by destruct (ps_block_hash _ _).
Qed.
End settled.
