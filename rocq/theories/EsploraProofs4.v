(** Esplora scans: a server that reorganises once (C61), applying what an honest server says (C72). *)
From Verif Require Export EsploraProofs3 ElectrumProofs5.

(** ** A run depends only on the answers it got *)
Section loc.
Context (ho : TxGraph → OutPoint → list Txid).
Implicit Types (u : ChainGraph ConfirmationTime) (local : gmap N BlockHash).
Lemma loc_ps_prepare_loop l u : loc (λ srv, ps_prepare_loop srv l u).
Proof.
  revert u. induction l as [|[h x] l IH]; intros u; cbn [ps_prepare_loop]; [loc_step|].
  repeat loc_step. destruct a0 as [[u' ?]|]; [|loc_step]. destruct (_ =? _); [loc_step|apply IH].
Qed.
Lemma loc_more_pages fuel k related : loc (λ srv, more_pages srv fuel k related).
Proof.
  revert related. induction fuel as [|fuel IH]; intros related; cbn [more_pages]; [loc_step|].
  destruct (last related); [|loc_step]. repeat loc_step. destruct (_ <? _)%nat; [loc_step|apply IH].
Qed.
Lemma loc_related_txs fuel k : loc (λ srv, related_txs srv fuel k).
Proof. unfold related_txs. repeat loc_step. destruct (_ <=? _)%nat; [apply loc_more_pages|loc_step]. Qed.
Lemma loc_fetch_batch fuel l : loc (λ srv, fetch_batch srv fuel l).
Proof.
  induction l as [|[i k] l IH]; cbn [fetch_batch]; [loc_step|].
  apply loc_bnd; [apply loc_related_txs|intros r]. apply loc_bnd; [apply IH|intros rs]. loc_step.
Qed.
Lemma loc_keychain_loop rounds fuel gap par tip l u a n :
  loc (λ srv, keychain_loop srv ho rounds fuel gap par tip l u a n).
Proof.
  revert l u a n. induction rounds as [|rounds IH]; intros l u a n; cbn [keychain_loop]; [loc_step|].
  apply loc_bnd; [apply loc_fetch_batch|intros rs]. repeat loc_step. destruct a0 as [[u1 a1] n1].
  destruct (_ || _); [loc_step|apply IH].
Qed.
Lemma loc_keychains_loop `{Countable K} fuel gap par tip (l : list (K * list (N * Script))) u (m : gmap K N) :
  loc (λ srv, keychains_loop srv ho fuel gap par tip l u m).
Proof.
  revert u m. induction l as [|[k spks] l IH]; intros u m; cbn [keychains_loop]; [loc_step|].
  apply loc_bnd; [apply loc_keychain_loop|intros [u1 a]]. apply IH.
Qed.
Lemma loc_ps_txids_loop tip l u : loc (λ srv, ps_txids_loop srv ho tip l u).
Proof.
  revert u. induction l as [|i l IH]; intros u; cbn [ps_txids_loop]; [loc_step|].
  repeat loc_step. destruct a as [t|]; [|apply IH]. destruct a0 as [s|]; [|apply IH]. repeat loc_step. apply IH.
Qed.
Lemma loc_outpoint_txs o : loc (λ srv, outpoint_txs srv o).
Proof.
  unfold outpoint_txs. repeat loc_step. destruct a as [t|]; [|loc_step]. destruct a0 as [s|]; [|loc_step].
  repeat loc_step. destruct a as [[[i|] [s'|]]|]; try loc_step. repeat loc_step. destruct a as [t'|]; loc_step.
Qed.
Lemma loc_ps_outpoints_loop tip l u : loc (λ srv, ps_outpoints_loop srv ho tip l u).
Proof.
  revert u. induction l as [|o l IH]; intros u; cbn [ps_outpoints_loop]; [loc_step|].
  apply loc_bnd; [apply loc_outpoint_txs|intros txs]. repeat loc_step. apply IH.
Qed.
Lemma loc_ps_scan fuel `{Countable K, !Ord K} local (kspks : gmap K (list (N * Script))) (txs : list Txid)
  (outpoints : list OutPoint) (gap : N) (par : nat) :
  loc (λ srv, ps_scan srv ho fuel local kspks txs outpoints gap par).
Proof.
  revert K EqDecision0 H Ord0 kspks txs outpoints gap par.
  induction fuel as [|fuel IH]; intros K ??? kspks txs outpoints gap par; cbn [ps_scan]; [loc_step|].
  apply loc_bnd; [apply loc_ps_prepare_loop|intros u]. apply loc_bnd; [loc_step|intros height].
  apply loc_bnd; [loc_step|intros hash]. apply loc_bnd; [loc_step|intros r]. destruct r as [[u0 ?]|]; [|apply IH].
  apply loc_bnd; [apply loc_keychains_loop|intros [u1 active]].
  apply loc_bnd; [apply loc_ps_txids_loop|intros u2]. apply loc_bnd; [apply loc_ps_outpoints_loop|intros u3].
  apply loc_bnd; [destruct (latest_checkpoint _); [|loc_step]; repeat loc_step|intros re].
  destruct re; [|loc_step]. apply loc_bnd; [apply IH|intros s; loc_step].
Qed.
End loc.

(** ** Preparing, whatever the server says *)
Lemma ps_prepare_heights W srv (l : list (N * BlockHash)) cps (u : ChainGraph ConfirmationTime) :
  cgu_ok W cps u → StronglySorted N.gt l.*1 →
  (∀ h, h ∈ l.*1 → h < u32_max ∧ ∀ k, is_Some (cps !! k) → h < k) →
  safe (ps_prepare_loop srv l u) (λ u', ∃ cps', cgu_ok W cps' u' ∧ sc_pos (cg_chain u') = sc_pos (cg_chain u) ∧
    cg_graph u' = cg_graph u ∧ ∀ k, is_Some (cps' !! k) → is_Some (cps !! k) ∨ k ∈ l.*1).
Proof.
  revert cps u. induction l as [|[h x] l IH]; intros cps u Hu Hs Hl; simpl.
  { apply safe_ret. exists cps. split_and!; [done..|by left]. }
  apply (safe_bnd _ _ (λ _, True)); [by apply safe_req|]. intros y _.
  simpl in Hs. apply StronglySorted_inv in Hs as [Hs Hf].
  destruct (Hl h) as [Hh Hk]; [by left|].
  destruct (cgu_checkpoint W cps u (mkBlockId h y) Hu Hh) as [(u' & cs & E & Hu' & Hp & Hg)|(Ht & _)].
  - apply (safe_bnd _ _ (λ r, r = Ok (u', cs))); [apply safe_lift; eauto|]. simpl in Hu'.
    assert (Hc': ∀ k, is_Some (<[h := y]> cps !! k) → is_Some (cps !! k) ∨ k = h).
    { intros k. destruct (decide (h = k)) as [<- |Hne]; [by right|]. rewrite lookup_insert_ne by done. by left. }
    intros r ->. destruct (y =? x).
    { apply safe_ret. exists (<[h := y]> cps). split_and!; [done..|]. intros k Hk'. apply Hc' in Hk' as [?| ->]; [by left|].
      right. by left. }
    eapply safe_weaken; [eapply IH; [exact Hu'|done|]|].
    + intros h' Hh'. destruct (Hl h') as [Hh1 Hh2]; [by right|]. split; [done|]. intros k Hk'.
      apply Hc' in Hk' as [?| ->]; [by apply Hh2|]. rewrite Forall_forall in Hf. specialize (Hf h' Hh'). lia.
    + intros u'' (cps' & H1 & H2 & H3 & H4). exists cps'. split; [done|]. split; [congruence|]. split; [congruence|].
      intros k Hk'. apply H4 in Hk' as [Hk'|?]; [|by right; right]. apply Hc' in Hk' as [?| ->]; [by left|]. right. by left.
  - exfalso. destruct Hu as (_ & _ & _ & Hc). simpl in Ht. pose proof (proj1 Ht) as Hi. rewrite Hc in Hi. specialize (Hk h Hi). lia.
Qed.
Lemma req_Done {S A} (srv : nat → S) (q : S → result A ClientError) n n' a :
  req srv q n = Done n' a → n' = Datatypes.S n ∧ q (srv n) = Ok a.
Proof. unfold req. destruct (q (srv n)); [|done]. intros Heq. injection Heq as <- <-. split; [lia|done]. Qed.

Section reorg.
Context (W : Txid → list OutPoint) (wA wB : World) (timeA timeB : N → N).
Context (HwA : world_ok wA) (HwB : world_ok wB) (HsA : world_sane W wA) (HsB : world_sane W wB).
Context (HtA : ∀ h, timeA h ≤ u64_max) (HtB : ∀ h, timeB h ≤ u64_max).
Context (ho : TxGraph → OutPoint → list Txid) (Hho : hash_fun_ok ho).
Context (srv : nat → PSnap) (n0 : nat) (Hn0 : (0 < n0)%nat) (Htyped : ∀ n, esplora_typed W (srv n)).
Context (HA : ∀ n, (n < n0)%nat → esplora_honest wA timeA (srv n)) (HB : ∀ n, (n0 ≤ n)%nat → esplora_honest wB timeB (srv n)).
Context (local : gmap N BlockHash) (Hlocal : ∀ h, is_Some (local !! h) → h ≤ w_tip wA).
Context (Hlen : w_tip wA ≤ w_tip wB) (Hgone : w_block wB (w_tip wA) ≠ w_block wA (w_tip wA)).
Context (Hinj : w_block wB (w_tip wA) = w_block wB (w_tip wB) → w_tip wA = w_tip wB).
Implicit Types (u : ChainGraph ConfirmationTime).

Definition ps_A : nat → PSnap := λ n, if (n <? n0)%nat then srv n else srv 0%nat.
Definition ps_B : nat → PSnap := λ n, if (n <? n0)%nat then srv n0 else srv n.
Lemma ps_A_honest n : esplora_honest wA timeA (ps_A n).
Proof using All. unfold ps_A. destruct (Nat.ltb_spec n n0); by apply HA. Qed.
Lemma ps_B_honest n : esplora_honest wB timeB (ps_B n).
Proof using All. unfold ps_B. destruct (Nat.ltb_spec n n0); by apply HB. Qed.
Lemma before_A {A} (p : (nat → PSnap) → prog A) (Q : A → Prop) n n' a :
  loc p → ends (p ps_A) Q → (n' ≤ n0)%nat → p srv n = Done n' a → Q a.
Proof using All.
  intros Hloc He Hn E. destruct (Hloc _ _ _ _ E) as [Hle Hag]. specialize (Hag ps_A).
  destruct (He n) as (n2 & a2 & E2 & HQ). rewrite Hag in E2.
  - by injection E2 as <- <-.
  - intros m Hm. unfold ps_A. destruct (Nat.ltb_spec m n0); [done|lia].
Qed.
Lemma after_ps_B {A} (p : (nat → PSnap) → prog A) (Q : A → Prop) n n' a :
  loc p → ends (p ps_B) Q → (n0 ≤ n)%nat → p srv n = Done n' a → Q a ∧ (n ≤ n')%nat.
Proof using All.
  intros Hloc He Hn E. destruct (Hloc _ _ _ _ E) as [Hle Hag]. specialize (Hag ps_B).
  destruct (He n) as (n2 & a2 & E2 & HQ). rewrite Hag in E2.
  - injection E2 as <- <-. done.
  - intros m Hm. unfold ps_B. destruct (Nat.ltb_spec m n0); [lia|done].
Qed.
Lemma local_B h : is_Some (local !! h) → h ≤ w_tip wB.
Proof using All. intros Hh. apply Hlocal in Hh. lia. Qed.

Section scan.
Context `{Countable K, !Ord K, !OrdLaws K}.
Context (kspks : gmap K (list (N * Script))) (txs : list Txid) (outpoints : list OutPoint) (gap : N) (par : nat).

(** What is right in any case *)
Definition right_B {K'} `{Countable K'} (s : KScan K' ConfirmationTime) : Prop :=
  (∀ t p, sc_pos (cg_chain (ks_update s)) !! t = Some p → p = w_time_position wB timeB t) ∧
  (∀ t x, get_tx (cg_graph (ks_update s)) t = Some x → w_tx wB t = Some x) ∧
  sc_cps (cg_chain (ks_update s)) !! w_tip wB = Some (w_block wB (w_tip wB)).
Lemma complete_right {K'} `{Countable K'} l ks ts os g p (s : KScan K' ConfirmationTime) :
  esplora_complete wB timeB l ks ts os g p s → right_B s.
Proof using All.
  intros Hc. split; [apply Hc|]. split; [apply Hc|].
  pose proof (pc_blocks _ _ _ _ _ _ _ _ _ Hc) as Hb. rewrite connects_iff in Hb. apply Hb. by split; [left|].
Qed.

(** One request for the height of the tip, one for its hash: they may be answered by different chains *)
Lemma tip_answers m height hash m2 m3 :
  req srv ps_height m = Done m2 height → req srv ps_tip_hash m2 = Done m3 hash →
  m2 = S m ∧ m3 = S (S m) ∧
  ((m3 ≤ n0)%nat ∧ height = w_tip wA ∧ hash = w_block wA (w_tip wA) ∨
   (n0 < m3)%nat ∧ (height = w_tip wA ∨ height = w_tip wB) ∧ hash = w_block wB (w_tip wB)).
Proof using All.
  intros [-> E1]%req_Done [-> E2]%req_Done. split; [done|]. split; [done|].
  destruct (decide (S m < n0)%nat) as [Hlt|Hge].
  - left. rewrite (ph_height _ _ _ (HA m ltac:(lia))) in E1. rewrite (ph_tip _ _ _ (HA (S m) Hlt)) in E2.
    injection E1 as <-. injection E2 as <-. split; [lia|done].
  - right. rewrite (ph_tip _ _ _ (HB (S m) ltac:(lia))) in E2. injection E2 as <-. split; [lia|].
    split; [|done]. destruct (decide (m < n0)%nat) as [Hlt|Hge'].
    + rewrite (ph_height _ _ _ (HA m Hlt)) in E1. injection E1 as <-. by left.
    + rewrite (ph_height _ _ _ (HB m ltac:(lia))) in E1. injection E1 as <-. by right.
Qed.

Lemma ps_scan_before fuel n n' s :
  (∀ k l i sc, kspks !! k = Some l → (i, sc) ∈ l → pageable wA fuel sc) →
  ps_scan srv ho (S (S fuel)) local kspks txs outpoints gap par n = Done n' s →
  (n' ≤ n0)%nat → esplora_complete wA timeA local kspks txs outpoints gap (Nat.max par 1) s.
Proof using All.
  intros Hpage E Hn.
  apply (before_A (λ srv, ps_scan srv ho (S (S fuel)) local kspks txs outpoints gap par)
      (λ s, esplora_complete wA timeA local kspks txs outpoints gap (Nat.max par 1) s) n n' s); [apply loc_ps_scan| |done|done].
  eapply ends_weaken.
  { apply (ps_scan_true W wA timeA HwA HsA HtA ho Hho ps_A ps_A_honest (S fuel)); [done|].
    intros k l i sc Hk Hi. destruct (Hpage k l i sc Hk Hi) as [H1 H2]. split; [done|lia]. }
  by intros ? [? _].
Qed.
Lemma ps_scan_reorg fuel n n' s :
  (∀ k l i sc, kspks !! k = Some l → (i, sc) ∈ l → pageable wB fuel sc) →
  ps_scan srv ho (S (S fuel)) local kspks txs outpoints gap par n = Done n' s →
  (n0 < n')%nat → right_B s.
Proof using All.
  intros Hpage E Hn. pose proof (wo_tip wA HwA) as HmA. pose proof (wo_tip wB HwB) as HmB.
  change (ps_scan srv ho (S (S fuel)) local kspks txs outpoints gap par n) with
    (let parallel := Nat.max par 1 in
      bnd (ps_prepare_loop srv (reverse (bmap_list local)) cg_default) (λ u,
      bnd (req srv ps_height) (λ height,
      bnd (req srv ps_tip_hash) (λ hash,
      bnd (lift (cg_insert_checkpoint u (mkBlockId height hash))) (λ r,
      match r with
      | Err _ => ps_scan srv ho (S fuel) local kspks txs outpoints gap parallel
      | Ok (u, _) =>
          bnd (keychains_loop srv ho (S fuel) gap parallel height (bmap_list kspks) u ∅) (λ '(u, active),
          bnd (ps_txids_loop srv ho height txs u) (λ u,
          bnd (ps_outpoints_loop srv ho height outpoints u) (λ u,
          bnd (match latest_checkpoint (cg_chain u) with
                  | Some b => bnd (req srv (λ s, ps_block_hash s (bi_height b))) (λ y, ret (negb (y =? bi_hash b)))
                  | None => ret false
                  end) (λ reorg : bool,
          if reorg then
            bnd (ps_scan srv ho (S fuel) (K:=N) local {[ 0 := [] ]} (txids (cg_chain u)).*2 [] u64_max parallel) (λ s,
            ret (mkKScan (ks_update s) active))
          else ret (mkKScan u active)))))
      end)))) n) in E.
  cbv zeta in E. apply bnd_Done in E as (m1 & u & E1 & E).
  assert (Hprep: ∃ cps, cgu_ok W cps u ∧ sc_pos (cg_chain u) = ∅ ∧ cg_graph u = tg_default ∧
    (∀ k, is_Some (cps !! k) → k ≤ w_tip wA) ∧
    ((m1 ≤ n0)%nat → ∀ h y, cps !! h = Some y → y = w_block wA h)).
  { pose proof (ps_prepare_heights W srv (reverse (bmap_list local)) ∅ cg_default (cgu_default W) (local_desc local)) as Hs.
    feed specialize Hs.
    { intros h Hh%local_in. split; [apply Hlocal in Hh; lia|]. intros k [x Hk]. done. }
    specialize (Hs n). rewrite E1 in Hs. destruct Hs as (cps & Ha & Hb & Hc & Hd). exists cps. split; [done|]. split; [done|].
    split; [done|]. split.
    - intros k Hk. apply Hd in Hk as [[x Hk]|Hk%local_in]; [done|by apply Hlocal].
    - intros Hm1 h y Hy.
      assert (∃ cps', cgu_ok W cps' u ∧ sc_pos (cg_chain u) = ∅ ∧ cg_graph u = tg_default ∧
        ∀ h y, cps' !! h = Some y ↔ asked wA local h ∧ y = w_block wA h) as (cps' & Ha' & _ & _ & Hc').
      { apply (before_A (λ srv, ps_prepare_loop srv (reverse (bmap_list local)) cg_default)
          (λ u, ∃ cps', cgu_ok W cps' u ∧ sc_pos (cg_chain u) = ∅ ∧ cg_graph u = tg_default ∧
            ∀ h y, cps' !! h = Some y ↔ asked wA local h ∧ y = w_block wA h) n m1 u); [apply loc_ps_prepare_loop| |exact Hm1|exact E1].
        apply (ps_prepare_ends W wA timeA HwA ps_A ps_A_honest local [] _ ∅); [done|done|apply cgu_default|done|done| |].
        - intros h' y'. rewrite lookup_empty. split; [done|]. intros [[]%elem_of_nil _].
        - intros h' x' []%elem_of_nil. }
      assert (cps' = cps) as -> by (destruct Ha as (_ & _ & _ & <-); destruct Ha' as (_ & _ & _ & <-); done).
      by apply Hc' in Hy as [_ ->]. }
  destruct Hprep as (cps & Hu & Hp & Hg & Hlow & HcA).
  apply bnd_Done in E as (m2 & height & E2 & E). apply bnd_Done in E as (m3 & hash & E3 & E).
  destruct (tip_answers _ _ _ _ _ E2 E3) as (-> & -> & Htip).
  assert (Hh: height < u32_max ∧ w_tip wA ≤ height) by (destruct Htip as [(_ & -> & _)|(_ & [-> | ->] & _)]; lia).
  destruct Hh as [Hh HhA].
  apply bnd_Done in E as (m4 & r & E4 & E).
  destruct (cgu_checkpoint W cps u (mkBlockId height hash) Hu Hh) as [(u0 & cs & Ec & Hu0 & Hp0 & Hg0)|(Ht & Hne & e & Ec)];
    rewrite Ec in E4; unfold lift in E4; injection E4 as <- <-.
  2:{ (* the scan starts again, all in the new chain *)
    assert ((n0 < S (S m1))%nat) as Hm.
    { destruct Htip as [(Hm & -> & ->)|(Hm & _)]; [|done]. exfalso. apply Hne. simpl.
      pose proof (proj1 Ht) as [z Hz]. destruct Hu as (_ & _ & _ & Hc). rewrite Hc in Hz. simpl in Hz.
      rewrite Hz. apply HcA in Hz as ->; [done|lia]. }
    destruct (after_ps_B (λ srv, ps_scan srv ho (S fuel) local kspks txs outpoints gap (Nat.max par 1))
      (λ s, esplora_complete wB timeB local kspks txs outpoints gap (Nat.max (Nat.max par 1) 1) s ∧
          inputs_by_txid W (cg_graph (ks_update s))) (S (S m1)) n' s) as [[Hc _] _]; [apply loc_ps_scan| |lia|exact E|].
    - apply (ps_scan_true W wB timeB HwB HsB HtB ho Hho ps_B ps_B_honest fuel local); [apply local_B|done].
    - by eapply complete_right. }
  cbn [bi_height bi_hash] in Hu0. set (cps0 := <[height := hash]> cps) in *.
  assert (Hlat: cps0 !! height = Some hash) by (subst cps0; by rewrite lookup_insert).
  assert (Hmax: ∀ k, is_Some (cps0 !! k) → k ≤ height).
  { intros k. subst cps0. destruct (decide (height = k)) as [<- |Hk]; [done|]. rewrite lookup_insert_ne by done.
    intros Hk'. apply Hlow in Hk'. lia. }
  assert (Hsome: is_Some (cps0 !! height)) by eauto.
  apply bnd_Done in E as (m5 & [u1 active] & E5 & E).
  assert (Hu1: cgu_ok W cps0 u1).
  { pose proof (keychains_loop_safe W srv ho Hho Htyped cps0 height Hsome Hh (S fuel) gap (Nat.max par 1) (bmap_list kspks) u0 ∅ Hu0 (S (S m1))) as Hs.
    by rewrite E5 in Hs. }
  apply bnd_Done in E as (m6 & u2 & E6 & E).
  assert (Hu2: cgu_ok W cps0 u2).
  { pose proof (ps_txids_safe W srv ho Hho Htyped cps0 height Hsome Hh txs u1 Hu1 m5) as Hs. by rewrite E6 in Hs. }
  apply bnd_Done in E as (m7 & u3 & E7 & E).
  assert (Hu3: cgu_ok W cps0 u3).
  { pose proof (ps_outpoints_safe W srv ho Hho Htyped cps0 height Hsome Hh outpoints u2 Hu2 m6) as Hs. by rewrite E7 in Hs. }
  assert (Hle: (S (S m1) ≤ m5)%nat ∧ (m5 ≤ m6)%nat ∧ (m6 ≤ m7)%nat).
  { split; [by apply (loc_keychains_loop _ _ _ _ _ _ _ _ _ _ _ _ E5)|]. split.
    - by apply (loc_ps_txids_loop _ _ _ _ _ _ _ _ E6).
    - by apply (loc_ps_outpoints_loop _ _ _ _ _ _ _ _ E7). }
  apply bnd_Done in E as (m8 & reorg & E8 & E).
  assert (latest_checkpoint (cg_chain u3) = Some (mkBlockId height hash)) as Hlast.
  { unfold latest_checkpoint. destruct Hu3 as (_ & _ & _ & Hc). rewrite Hc.
    assert (last (bmap_list cps0) = Some (height, hash)) as ->; [|done]. apply bmap_last_spec. split; [done|].
    intros k Hk. by apply N_ord_le, Hmax. }
  rewrite Hlast in E8. apply bnd_Done in E8 as (m9 & y & E9 & E8). injection E8 as <- <-.
  apply req_Done in E9 as [-> E9]. cbn [bi_height bi_hash] in *.
  destruct (N.eqb_spec y hash) as [Hy|Hy]; cbn [negb] in E.
  - (* the tip is still there *)
    injection E as <- <-.
    assert (height = w_tip wB ∧ hash = w_block wB (w_tip wB) ∧ (n0 ≤ S (S m1))%nat) as (-> & -> & Hm).
    { destruct Htip as [(Hm & -> & ->)|(Hm & Hhh & ->)].
      - exfalso. rewrite (ph_block _ _ _ (HB m7 ltac:(lia))) in E9 by lia. injection E9 as E9. apply Hgone. congruence.
      - split; [|split; [done|lia]]. destruct Hhh as [-> | ->]; [|done]. apply Hinj.
        rewrite (ph_block _ _ _ (HB m7 ltac:(lia))) in E9 by lia. injection E9 as E9. congruence. }
    assert (Ht0: true_cg W wB timeB cps0 u0).
    { split; [done|]. split; [done|]. unfold in_chain. rewrite Hp0, Hp, Hg0, Hg. split; [intros t p; by rewrite lookup_empty|]. split; [done|].
      split; [intros t m; cbn; by rewrite lookup_empty|]. by intros t [? Ht]. }
    destruct (after_ps_B (λ srv, keychains_loop srv ho (S fuel) gap (Nat.max par 1) (w_tip wB) (bmap_list kspks) u0 ∅)
      (λ r, true_cg W wB timeB cps0 r.1) (S (S m1)) m5 (u1, active)) as [Ht1 _]; [apply loc_keychains_loop| |done|exact E5|].
    { eapply ends_weaken.
      - apply (keychains_true W wB timeB HwB HsB HtB ho Hho ps_B ps_B_honest cps0 (S fuel) gap (Nat.max par 1) (bmap_list kspks) u0 ∅);
          [done|apply NoDup_fst_bmap_list| | |lia].
        + intros k. rewrite lookup_empty. by intros [].
        + intros k spks Hin%elem_of_bmap_list. apply Forall_forall. intros [i sc] Hi.
          destruct (Hpage k spks i sc Hin Hi) as [Hp1 Hp2]. split; [done|]. simpl in *. lia.
      - by intros r (ts & [Hr _] & _). }
    simpl in Ht1.
    destruct (after_ps_B (λ srv, ps_txids_loop srv ho (w_tip wB) txs u1) (true_cg W wB timeB cps0) m5 m6 u2)
      as [Ht2 _]; [apply loc_ps_txids_loop| |lia|exact E6|].
    { eapply ends_weaken; [by apply (ps_txids_true W wB timeB HwB HsB HtB ho Hho ps_B ps_B_honest cps0)|].
      by intros r (ts & [Hr _] & _). }
    destruct (after_ps_B (λ srv, ps_outpoints_loop srv ho (w_tip wB) outpoints u2) (true_cg W wB timeB cps0) m6 m7 u3)
      as [Ht3 _]; [apply loc_ps_outpoints_loop| |lia|exact E7|].
    { eapply ends_weaken; [by apply (ps_outpoints_true W wB timeB HwB HsB HtB ho Hho ps_B ps_B_honest cps0)|].
      by intros r (ts & [Hr _] & _). }
    destruct Ht3 as ((_ & _ & _ & Hc) & _ & H1 & H2 & _). split; [done|]. split; [done|]. cbn [ks_update]. by rewrite Hc.
  - (* it is not: look at the transactions found again *)
    assert ((n0 ≤ m7)%nat) as Hm.
    { destruct (Nat.le_gt_cases n0 m7) as [?|Hlt]; [done|]. exfalso.
      destruct Htip as [(Hm & -> & ->)|(Hm & _)]; [|lia]. apply Hy.
      rewrite (ph_block _ _ _ (HA m7 Hlt)) in E9 by lia. by injection E9 as ->. }
    apply bnd_Done in E as (m10 & s' & E10 & E). injection E as _ <-.
    set (found := (txids (cg_chain u3)).*2) in *.
    destruct (after_ps_B (λ srv, ps_scan srv ho (S fuel) local ({[ 0 := [] ]} : gmap N _) found [] u64_max (Nat.max par 1))
      (λ s, esplora_complete wB timeB local ({[ 0 := [] ]} : gmap N _) found [] u64_max (Nat.max (Nat.max par 1) 1) s ∧
          inputs_by_txid W (cg_graph (ks_update s))) (S m7) m10 s') as [[Hc _] _]; [apply loc_ps_scan| |lia|exact E10|].
    + apply (ps_scan_true W wB timeB HwB HsB HtB ho Hho ps_B ps_B_honest fuel local); [apply local_B|].
      intros k l i sc [_ <-]%lookup_singleton_Some Hi. by apply elem_of_nil in Hi.
    + apply complete_right in Hc. exact Hc.
Qed.
End scan.
End reorg.

Lemma esplora_reorg (W : Txid → list OutPoint) (wA wB : World) (timeA timeB : N → N)
  (ho : TxGraph → OutPoint → list Txid) (srv : nat → PSnap) (n0 : nat) `{Countable K, !Ord K, !OrdLaws K}
  (fuel : nat) (local : gmap N BlockHash) (kspks : gmap K (list (N * Script)))
  (txs : list Txid) (outpoints : list OutPoint) (gap : N) (par : nat) n s :
  world_ok wA → world_ok wB → world_sane W wA → world_sane W wB →
  (∀ h, timeA h ≤ u64_max) → (∀ h, timeB h ≤ u64_max) → hash_fun_ok ho →
  (0 < n0)%nat → (∀ n, esplora_typed W (srv n)) →
  (∀ n, (n < n0)%nat → esplora_honest wA timeA (srv n)) → (∀ n, (n0 ≤ n)%nat → esplora_honest wB timeB (srv n)) →
  (∀ h, is_Some (local !! h) → h ≤ w_tip wA) → w_tip wA ≤ w_tip wB → w_block wB (w_tip wA) ≠ w_block wA (w_tip wA) →
  (w_block wB (w_tip wA) = w_block wB (w_tip wB) → w_tip wA = w_tip wB) →
  (∀ k l i sc, kspks !! k = Some l → (i, sc) ∈ l → pageable wA fuel sc ∧ pageable wB fuel sc) →
  ps_scan srv ho (S (S fuel)) local kspks txs outpoints gap par 0%nat = Done n s →
  ((n ≤ n0)%nat → esplora_complete wA timeA local kspks txs outpoints gap (Nat.max par 1) s) ∧
  ((n0 < n)%nat →
    (∀ t p, sc_pos (cg_chain (ks_update s)) !! t = Some p → p = w_time_position wB timeB t) ∧
    (∀ t x, get_tx (cg_graph (ks_update s)) t = Some x → w_tx wB t = Some x) ∧
    sc_cps (cg_chain (ks_update s)) !! w_tip wB = Some (w_block wB (w_tip wB))).
Proof.
  intros HwA HwB HsA HsB HtA HtB Hho Hn0 Htyped HA HB Hlocal Hlen Hgone Hinj Hpage E. split; intros Hn.
  - eapply (ps_scan_before W wA wB timeA timeB HwA HwB HsA HsB HtA HtB ho Hho srv n0 Hn0 Htyped HA HB); [done..| |exact E|done].
    intros k l i sc H1 H2. by apply (Hpage k l i sc).
  - eapply (ps_scan_reorg W wA wB timeA timeB HwA HwB HsA HsB HtA HtB ho Hho srv n0 Hn0 Htyped HA HB); [done..| |exact E|done].
    intros k l i sc H1 H2. by apply (Hpage k l i sc).
Qed.

(** ** A wallet and an honest server (C72) *)
Lemma stop_found (w : World) (time : N → N) `{Countable K, !Ord K} local (kspks : gmap K (list (N * Script))) (txs : list Txid)
  (outpoints : list OutPoint) (gap : N) (par : nat) s t :
  esplora_complete w time local kspks txs outpoints gap par s → stop_sought w kspks txs outpoints gap t → in_chain (ks_update s) t.
Proof.
  intros Hs [(k & l & p & i & sc & Hk & Hl & Hg & Ht)|[[Ht Hx]|(o & Ho & Hx & Har)]].
  - destruct (pc_scripts _ _ _ _ _ _ _ _ _ Hs k l Hk) as (n & Hn & Hall). apply (Hall i sc t); [|done].
    apply elem_of_take. exists p. split; [done|]. by eapply (sn_within _ _ _ _ _ _ Hn).
  - by apply (pc_txids _ _ _ _ _ _ _ _ _ Hs).
  - destruct (pc_outpoints _ _ _ _ _ _ _ _ _ Hs o Ho Hx) as [H1' H2']. destruct Har as [->|Har]; [done|by apply H2'].
Qed.
Lemma esplora_sync (W : Txid → list OutPoint) (w : World) (time : N → N) (ho : TxGraph → OutPoint → list Txid)
  (srv : nat → PSnap) `{Countable K, !Ord K, !OrdLaws K} (fuel : nat) (cg : ChainGraph ConfirmationTime)
  (kspks : gmap K (list (N * Script))) (txs : list Txid) (outpoints : list OutPoint) (gap : N) (par : nat) :
  world_ok w → world_sane W w → (∀ h, time h ≤ u64_max) → hash_fun_ok ho → (∀ n, esplora_honest w time (srv n)) →
  cg_ok cg → inputs_by_txid W (cg_graph cg) → below_max (cg_chain cg) → confirmed_below_tip (cg_chain cg) →
  local_seen w (w_time_position w time) (stop_sought w kspks txs outpoints gap) (cg_chain cg) →
  (∀ k l i sc, kspks !! k = Some l → (i, sc) ∈ l → pageable w fuel sc) →
  ends (ps_scan srv ho (S fuel) (sc_cps (cg_chain cg)) kspks txs outpoints gap par)
    (λ s, ∀ ho' ord, hash_order (cg_graph cg) ho' → ord ≡ₚ map_to_list (sc_pos (cg_chain (ks_update s))) →
      ∃ cg' cs, cg_apply_update ho' cg (ks_update s) ord = Ret (Ok (cg', cs)) ∧
        (∀ k l p i sc t, kspks !! k = Some l → l !! p = Some (i, sc) → within_stop_gap gap (activity w l) p →
           t ∈ w_history w sc → sc_pos (cg_chain cg') !! t = Some (w_time_position w time t)) ∧
        (∀ t h tm, sc_pos (cg_chain cg') !! t = Some (CtConfirmed h tm) → w_height w t = Some h ∧ tm = time h)).
Proof.
  intros Hw Hsane Htime Hho Hhonest Hcg Hin Hbm Hcbt Htrue Hpage.
  eapply ends_weaken.
  { apply (ps_scan_true W w time Hw Hsane Htime ho Hho srv Hhonest fuel); [apply Htrue|exact Hpage]. }
  intros s [Hs HsW] ho' ord Hho' Hord.
  assert (Hchain: ∀ t, in_chain (ks_update s) t → is_Some (w_tx w t)) by (intros t Ht; by apply (pc_only _ _ _ _ _ _ _ _ _ Hs)).
  destruct (sync_accepted W w (w_time_position w time) Hsane) with cg (ks_update s) ho' ord as (cg' & cs & E & Hkeep & Htr);
    try done; [| |apply Hs|apply Hs| |].
  { intros t. unfold w_time_position, w_position. by destruct (w_height w t). }
  { eapply seen_mono; [|exact Htrue]. intros t. by eapply stop_found. }
  { intros t p Ht. split; [by apply (pc_true _ _ _ _ _ _ _ _ _ Hs)|]. apply Hchain. by exists p. }
  exists cg', cs. split; [done|]. split.
  - intros k l p i sc t Hk Hl Hg Ht. destruct (pc_scripts _ _ _ _ _ _ _ _ _ Hs k l Hk) as (n & Hn & Hall).
    destruct (Hall i sc t) as [q Hq].
    + apply elem_of_take. exists p. split; [done|]. by eapply (sn_within _ _ _ _ _ _ Hn).
    + done.
    + rewrite (Hkeep t q Hq). f_equal. by apply (pc_true _ _ _ _ _ _ _ _ _ Hs).
  - intros t h tm Ht. specialize (Htr t _ h Ht eq_refl). unfold w_time_position in Htr. destruct (w_height w t); [|done].
    by injection Htr as -> ->.
Qed.

(** ** Scanning plain scripts *)
Lemma plain_esplora_ends (W : Txid → list OutPoint) (w : World) (time : N → N) (ho : TxGraph → OutPoint → list Txid)
  (srv : nat → PSnap) (fuel : nat) (local : gmap N BlockHash) (spks : list Script) (txs : list Txid) (outpoints : list OutPoint) (par : nat) :
  world_ok w → world_sane W w → (∀ h, time h ≤ u64_max) → hash_fun_ok ho → (∀ n, esplora_honest w time (srv n)) →
  (∀ h, is_Some (local !! h) → h ≤ w_tip w) → Forall (pageable w fuel) spks → N.of_nat (length spks) ≤ u64_max →
  ends (ps_scan_without_keychain srv ho (S fuel) local spks txs outpoints par) (λ u,
    cg_ok u ∧ usable_update (cg_chain u) ∧ connects w local (sc_cps (cg_chain u)) ∧
    (∀ t p, sc_pos (cg_chain u) !! t = Some p → p = w_time_position w time t) ∧
    (∀ t x, get_tx (cg_graph u) t = Some x → w_tx w t = Some x) ∧ (∀ t m, tg_txs (cg_graph u) !! t ≠ Some (Partial m)) ∧
    (∀ t, is_Some (get_tx (cg_graph u) t) → in_chain u t) ∧
    (∀ s t, s ∈ spks → t ∈ w_history w s → in_chain u t) ∧
    (∀ t, t ∈ txs → is_Some (w_tx w t) → in_chain u t) ∧
    (∀ o, o ∈ outpoints → is_Some (w_tx w (op_txid o)) → in_chain u (op_txid o) ∧ ∀ i, w_spends w o i → in_chain u i) ∧
    (∀ t, in_chain u t → is_Some (w_tx w t) ∧
       ((∃ s, s ∈ spks ∧ t ∈ w_history w s) ∨ t ∈ txs ∨ ∃ o, o ∈ outpoints ∧ around w o t))).
Proof.
  intros Hw Hsane Htime Hho Hhonest Hlocal Hpage Hlen. unfold ps_scan_without_keychain.
  set (l := imap (λ i s, (N.of_nat i mod 2 ^ 32, s)) spks).
  assert (Hl: ∀ i sc, (i, sc) ∈ l → sc ∈ spks).
  { intros i sc Hi. apply elem_of_list_lookup in Hi as [p Hp]. unfold l in Hp. rewrite list_lookup_imap in Hp.
    destruct (spks !! p) eqn:E; [|done]. cbn in Hp. injection Hp as _ ->. by eapply elem_of_list_lookup_2. }
  assert (Hl': ∀ p sc, spks !! p = Some sc → l !! p = Some (N.of_nat p mod 2 ^ 32, sc)).
  { intros p sc Hp. unfold l. by rewrite list_lookup_imap, Hp. }
  assert (Hll: length l = length spks) by apply imap_length. clearbody l.
  eapply ends_bnd.
  { apply (ps_scan_true W w time Hw Hsane Htime ho Hho srv Hhonest fuel local); [done|].
    intros k l' i sc [_ <-]%lookup_singleton_Some Hi%Hl. rewrite Forall_forall in Hpage. by apply Hpage. }
  intros s [Hs _]. apply ends_ret. split; [apply Hs|]. split; [apply Hs|]. split; [apply Hs|]. split; [apply Hs|].
  split; [apply Hs|]. split; [apply Hs|]. split; [apply Hs|]. split; [|split; [apply Hs|split; [apply Hs|]]].
  - intros sc t Hsc Ht. apply elem_of_list_lookup in Hsc as [p Hp].
    destruct (pc_scripts _ _ _ _ _ _ _ _ _ Hs 0 l) as (n & Hn & Hall); [by rewrite lookup_singleton|].
    pose proof (Hl' p sc Hp) as Hlp. eapply Hall; [|exact Ht]. apply elem_of_take. exists p. split; [exact Hlp|].
    apply (sn_within _ _ _ _ _ _ Hn). split.
    + unfold activity. rewrite list_lookup_fmap, Hlp. cbn [fmap option_fmap option_map snd]. unfold active.
      rewrite bool_decide_false; [done|]. intros E. rewrite E in Ht. by apply elem_of_nil in Ht.
    + intros (j & Hj & _). apply lookup_lt_Some in Hp. lia.
  - intros t Ht. destruct (pc_only _ _ _ _ _ _ _ _ _ Hs t Ht) as [Hk Ho]. split; [done|].
    destruct Ho as [(k & l' & n & i & sc & Hk' & _ & Hi & Hh)|?]; [left|by right].
    apply lookup_singleton_Some in Hk' as [_ <-]. exists sc. split; [|done]. eapply Hl. by apply elem_of_take in Hi as (j & Hj%elem_of_list_lookup_2 & _).
Qed.
