(** Concrete worlds, honest esplora servers and scans of them. *)
From Verif Require Export EsploraProofs4 SyncExamples.

(** ** Worlds *)
(** A coinbase 1 with a hundred outputs for script 40; the other transactions [i] of [ids] spend its output [i] and
    pay to the script [spk i]; [ht] says where they are. *)
Definition pw_tx (spk : Txid → Script) (i : Txid) : Tx :=
  if i =? 1 then mkTx 1 [null_outpoint] (repeat (mkTxOut 100 40) 100) 0 else mkTx i [mkOutPoint 1 i] [mkTxOut 90 (spk i)] 0.
Definition pw (tip : N) (block : N → BlockHash) (ids : list Txid) (ht : Txid → option N) (spk : Txid → Script) : World := {|
  w_tip := tip;
  w_block := block;
  w_height t := if bool_decide (t ∈ ids) then ht t else None;
  w_history s := if s =? 40 then ids else filter (λ t, t ≠ 1 ∧ spk t = s) ids;
  w_tx t := if bool_decide (t ∈ ids) then Some (pw_tx spk t) else None
|}.
Definition pw_W (i : Txid) : list OutPoint := if i =? 1 then [null_outpoint] else [mkOutPoint 1 i].
Lemma pw_tx_in spk i : tx_in (pw_tx spk i) = pw_W i.
Proof. unfold pw_tx, pw_W. by destruct (i =? 1). Qed.
Lemma pw_txid spk i : txid (pw_tx spk i) = i.
Proof. unfold pw_tx. destruct (N.eqb_spec i 1) as [-> |]; done. Qed.
Section pw.
Context (tip : N) (block : N → BlockHash) (ids : list Txid) (ht : Txid → option N) (spk : Txid → Script).
Context (Htip : tip < u32_max) (Hht : ∀ t h, ht t = Some h → h ≤ tip) (Hids : 1 ∈ ids) (Hmax : Forall (λ t, 0 < t ≤ 99) ids).
Notation w := (pw tip block ids ht spk).
Lemma pw_known t x : w_tx w t = Some x ↔ t ∈ ids ∧ x = pw_tx spk t.
Proof.
  simpl. case_bool_decide; [|naive_solver]. split; [intros [= <-]; done|]. by intros [_ ->].
Qed.
Lemma pw_history s t : t ∈ w_history w s ↔ t ∈ ids ∧ (s = 40 ∨ t ≠ 1 ∧ spk t = s).
Proof.
  simpl. destruct (N.eqb_spec s 40) as [-> |]; [tauto|]. rewrite elem_of_list_filter. tauto.
Qed.
Lemma pw_ok : world_ok w.
Proof using Htip Hht Hids Hmax.
  rewrite Forall_forall in Hmax. assert (99 ≤ max_txid) by (by vm_compute). split.
  - done.
  - intros t h. cbn [w_height w_tip pw]. case_bool_decide; [apply Hht|done].
  - intros s t [Ht _]%pw_history. apply Hmax in Ht. lia.
  - intros t x [Ht ->]%pw_known. split; [apply pw_txid|]. unfold pw_tx. by destruct (t =? 1).
  - intros s t [Ht _]%pw_history. eexists. by apply pw_known.
  - intros t x o [Ht ->]%pw_known Ho. apply pw_history. split; [done|]. revert Ho. unfold pw_tx.
    destruct (N.eqb_spec t 1) as [-> |Hn]; cbn [tx_out].
    + intros Ho. left. apply elem_of_list_In, repeat_spec in Ho as ->. done.
    + intros ->%elem_of_list_singleton. by right.
  - intros t x p y o [Ht ->]%pw_known. rewrite pw_tx_in. unfold pw_W. intros Hp [Hq ->]%pw_known Ho.
    apply pw_history. split; [done|]. left. destruct (N.eqb_spec t 1) as [-> |Hn]; apply elem_of_list_singleton in Hp as ->.
    + exfalso. apply Hmax in Hq. assert (op_txid null_outpoint = 0) as E by reflexivity. rewrite E in Hq. lia.
    + cbn [op_txid] in Ho. apply elem_of_list_lookup_2 in Ho. apply elem_of_list_In, repeat_spec in Ho as ->. done.
Qed.
Lemma pw_sane : world_sane pw_W w.
Proof using Hids.
  split.
  - intros t x [Ht ->]%pw_known. apply pw_tx_in.
  - intros a b x y [Ha ->]%pw_known [Hb ->]%pw_known (o & Hnn & Hx & Hy). rewrite pw_tx_in in Hx, Hy. unfold pw_W in *.
    destruct (N.eqb_spec a 1) as [-> |Hna]; [by apply elem_of_list_singleton in Hx as ->|].
    destruct (N.eqb_spec b 1) as [-> |Hnb]; [by apply elem_of_list_singleton in Hy as ->|].
    apply elem_of_list_singleton in Hx as ->. apply elem_of_list_singleton in Hy. by injection Hy.
  - intros t x o [Ht ->]%pw_known Ho Hnn. rewrite pw_tx_in in Ho. unfold pw_W in Ho.
    destruct (t =? 1); apply elem_of_list_singleton in Ho as ->; [done|]. exists (pw_tx spk 1). apply pw_known. done.
  - intros t h. cbn [w_height pw]. case_bool_decide; [|done]. intros _. eexists. by apply pw_known.
Qed.
End pw.

(** ** An esplora server that tells the truth about a world whose transactions are [ids] *)
Definition es_entry (w : World) (time : N → N) (t : Txid) : option EsploraTx :=
  (λ x, mkETx t x (w_status w time t)) <$> w_tx w t.
Definition spender_of (w : World) (ids : list Txid) (o : OutPoint) : option Txid :=
  List.find (λ t, match w_tx w t with Some x => bool_decide (o ∈ tx_in x) | None => false end) ids.
Definition esplora (w : World) (time : N → N) (ids : list Txid) : PSnap := {|
  ps_block_hash h := if h <=? w_tip w then Ok (w_block w h) else Err Protocol;
  ps_height := Ok (w_tip w);
  ps_tip_hash := Ok (w_block w (w_tip w));
  ps_script_txs k after :=
    match after with
    | None => Ok (omap (es_entry w time) (take 50 (w_mempool w k) ++ take 25 (w_confirmed w k)))
    | Some t => match list_find (eq t) (w_confirmed w k) with
                | Some (i, _) => Ok (omap (es_entry w time) (take 25 (drop (S i) (w_confirmed w k))))
                | None => Err Protocol
                end
    end;
  ps_tx t := Ok (w_tx w t);
  ps_tx_status t := Ok (Some (w_status w time t));
  ps_output_status t v :=
    Ok (match spender_of w ids (mkOutPoint t v) with
        | Some i => Some (mkOStatus (Some i) (Some (w_status w time i)))
        | None => None
        end)
|}.
Lemma entries_omap w time l : (∀ t, t ∈ l → is_Some (w_tx w t)) → esplora_entries w time l (omap (es_entry w time) l).
Proof.
  induction l as [|t l IH]; intros Hl; [constructor|]. destruct (Hl t) as [x Hx]; [by left|].
  cbn [omap list_omap]. unfold es_entry at 1. rewrite Hx. cbn [fmap option_fmap option_map].
  constructor; [done|]. apply IH. intros t' Ht'. apply Hl. by right.
Qed.
Lemma esplora_esplora (w : World) (time : N → N) (ids : list Txid) :
  world_ok w → (∀ k, NoDup (w_history w k)) → (∀ t, is_Some (w_tx w t) → t ∈ ids) →
  (∀ a b x y o, w_tx w a = Some x → w_tx w b = Some y → o ∈ tx_in x → o ∈ tx_in y → a = b) →
  esplora_honest w time (esplora w time ids).
Proof.
  intros Hw Hnd Hids Hone.
  assert (Hm: ∀ k t, t ∈ w_mempool w k → is_Some (w_tx w t)).
  { intros k t [_ Ht]%elem_of_list_filter. by apply (wo_known w Hw k). }
  assert (Hc: ∀ k t, t ∈ w_confirmed w k → is_Some (w_tx w t)).
  { intros k t [_ Ht]%elem_of_list_filter. by apply (wo_known w Hw k). }
  split; cbn [esplora ps_block_hash ps_height ps_tip_hash ps_script_txs ps_tx ps_tx_status ps_output_status].
  - intros h Hh. by apply N.leb_le in Hh as ->.
  - done.
  - done.
  - intros k. eexists. split; [done|]. apply entries_omap.
    intros t [(i & Hi & _)%elem_of_take|(i & Hi & _)%elem_of_take]%elem_of_app; apply elem_of_list_lookup_2 in Hi; eauto.
  - intros k i t Hi. assert (list_find (eq t) (w_confirmed w k) = Some (i, t)) as ->.
    { apply list_find_Some. split; [done|]. split; [done|]. intros j y Hj Hlt <-.
      assert (NoDup (w_confirmed w k)) as Hn by (by apply NoDup_filter).
      pose proof (NoDup_lookup _ _ _ _ Hn Hi Hj). lia. }
    eexists. split; [done|]. apply entries_omap. intros t' (j & Hj & _)%elem_of_take.
    rewrite lookup_drop in Hj. apply elem_of_list_lookup_2 in Hj. eauto.
  - done.
  - done.
  - eauto.
  - intros t v. eexists. split; [done|]. set (o := mkOutPoint t v).
    assert (Hs: ∀ i, spender_of w ids o = Some i → ∃ x, w_tx w i = Some x ∧ o ∈ tx_in x).
    { intros i Hi. unfold spender_of in Hi. apply List.find_some in Hi as [_ Hi].
      destruct (w_tx w i) as [x|]; [|done]. apply bool_decide_eq_true in Hi. by exists x. }
    split.
    + intros p Hp i st Hi Hst. destruct (spender_of w ids o) as [j|] eqn:E; [|done]. injection Hp as <-. simpl in *.
      injection Hi as <-. injection Hst as <-. split; [|done]. destruct (Hs j eq_refl) as (x & Hx & Ho). split; [by exists x|].
      intros t' y Hy Hoy. by eapply Hone.
    + intros i [(x & Hx & Ho) _]. destruct (spender_of w ids o) as [j|] eqn:E.
      * destruct (Hs j eq_refl) as (y & Hy & Hoy). assert (i = j) as <- by (by eapply Hone). by eexists.
      * exfalso. unfold spender_of in E. eapply List.find_none in E; [|apply elem_of_list_In, Hids; eauto].
        simpl in E. rewrite Hx in E. by apply bool_decide_eq_false in E.
Qed.
Lemma esplora_types W (w : World) (time : N → N) (ids : list Txid) :
  world_ok w → world_sane W w → (∀ h, time h ≤ u64_max) → esplora_typed W (esplora w time ids).
Proof.
  intros Hw Hsane Htime.
  assert (Htx: ∀ t x, w_tx w t = Some x → tx_typed W x).
  { intros t x Hx. by apply (known_max W w Hw Hsane t x). }
  assert (Hst: ∀ t, status_typed (w_status w time t)).
  { intros t tm. unfold w_status. destruct (w_height w t); [|done]. simpl. by intros [= <-]. }
  assert (Hent: ∀ (l : list Txid) e, e ∈ omap (es_entry w time) l → tx_typed W (et_tx e) ∧ status_typed (et_status e)).
  { intros l e (t & _ & Ht)%elem_of_list_omap. unfold es_entry in Ht. apply fmap_Some in Ht as (x & Hx & ->). simpl. split; [by eapply Htx|done]. }
  split; cbn [esplora ps_height ps_script_txs ps_tx ps_tx_status ps_output_status].
  - intros h [= <-]. apply Hw.
  - intros k a l e. destruct a as [t|]; [destruct (list_find _ _) as [[i ?]|]; [|done]|]; intros [= <-]; apply Hent.
  - intros i x [= Hx]. by eapply Htx.
  - intros i st [= <-]. done.
  - intros i v os st. destruct (spender_of _ _ _); [|done]. intros [= <-]. simpl. by intros [= <-].
Qed.
Lemma pw_honest tip block ids ht spk time :
  tip < u32_max → (∀ t h, ht t = Some h → h ≤ tip) → 1 ∈ ids → Forall (λ t, 0 < t ≤ 99) ids → NoDup ids →
  (∀ h, time h ≤ u64_max) →
  world_ok (pw tip block ids ht spk) ∧ world_sane pw_W (pw tip block ids ht spk) ∧
  esplora_honest (pw tip block ids ht spk) time (esplora (pw tip block ids ht spk) time ids) ∧
  esplora_typed pw_W (esplora (pw tip block ids ht spk) time ids).
Proof.
  intros Htip Hht H1 Hmax Hnd Htime. assert (Hok: world_ok (pw tip block ids ht spk)) by by apply pw_ok.
  assert (Hsane: world_sane pw_W (pw tip block ids ht spk)) by by apply pw_sane.
  split; [done|]. split; [done|]. split; [|by apply esplora_types]. apply esplora_esplora; [done| | |].
  - intros k. cbn [w_history pw]. destruct (k =? 40); [done|]. by apply NoDup_filter.
  - intros t [x [Ht _]%pw_known]. done.
  - intros a b x y o [Ha ->]%pw_known [Hb ->]%pw_known. rewrite !pw_tx_in. unfold pw_W.
    destruct (N.eqb_spec a 1) as [-> |Hna], (N.eqb_spec b 1) as [-> |Hnb]; try done;
      intros ->%elem_of_list_singleton Hy%elem_of_list_singleton; [done|done|by injection Hy].
Qed.

(** What a scan says: requests made, blocks, positions, highest active indices *)
Definition p_show {K} `{Countable K, !Ord K} (r : run (KScan K ConfirmationTime)) :
  option (nat * list (N * BlockHash) * list (Txid * ConfirmationTime) * list (K * N)) :=
  match r with
  | Done n s => Some (n, bmap_list (sc_cps (cg_chain (ks_update s))), bmap_list (sc_pos (cg_chain (ks_update s))), bmap_list (ks_active s))
  | _ => None
  end.
Definition p_time (h : N) : N := N.min (1000 + 600 * h) u64_max.
Lemma p_time_ok h : p_time h ≤ u64_max.
Proof. unfold p_time. lia. Qed.

(** ** Scans *)
(** Tip 6.  Transactions 2 to 31, in block 3, pay to script 20; transaction 50, unconfirmed, to script 22;
    transaction 51, in block 5, to script 30. *)
Definition p_ids : list Txid := 1 :: ((N.of_nat <$> seq 2 30) ++ [50; 51]).
Definition p_spk (t : Txid) : Script := if t <? 50 then 20 else if t =? 50 then 22 else 30.
Definition p_ht (t : Txid) : option N := if t =? 50 then None else if t =? 51 then Some 5 else Some 3.
Definition p_w : World := pw 6 (N.add 50) p_ids p_ht p_spk.
Definition p_srv : nat → PSnap := λ _, esplora p_w p_time p_ids.
Definition p_kspks : gmap N (list (N * Script)) :=
  {[ 0 := [(0, 10); (1, 20); (2, 11); (3, 12); (4, 22); (5, 13)]; 1 := [(0, 30); (1, 14)] ]}.
Definition p_scan (gap : N) (par : nat) : run (KScan N ConfirmationTime) :=
  ps_scan p_srv exho 4 ex_local p_kspks [] [] gap par 0%nat.
(** The same with the transactions numbered below 50 only counted *)
Definition p_brief (r : run (KScan N ConfirmationTime)) :=
  match p_show r with
  | Some (n, cps, pos, act) => Some (n, cps, length (filter (λ tp, tp.1 < 50) pos), filter (λ tp, 50 ≤ tp.1) pos, act)
  | None => None
  end.
Lemma p_low t h : p_ht t = Some h → h ≤ 6.
Proof. unfold p_ht. destruct (t =? 50); [done|]. destruct (t =? 51); by intros [= <-]. Qed.
Lemma p_w_ok : world_ok p_w ∧ world_sane pw_W p_w ∧ esplora_honest p_w p_time (esplora p_w p_time p_ids) ∧
  esplora_typed pw_W (esplora p_w p_time p_ids).
Proof.
  apply pw_honest; [done|apply p_low| | | |apply p_time_ok]; apply (bool_decide_unpack _); vm_compute; done.
Qed.
Lemma p_local : ∀ h, is_Some (ex_local !! h) → h ≤ w_tip p_w.
Proof. exact ex_local_low. Qed.
(** a script needs at most two pages *)
Lemma p_page k : pageable p_w 1 k.
Proof.
  assert (Hl: ∀ Q : Txid → Prop, ∀ D : ∀ t, Decision (Q t), (length (filter Q (w_history p_w k)) ≤ 33)%nat).
  { intros Q D. etransitivity; [apply filter_length|]. cbn [p_w pw w_history]. destruct (k =? 40); [done|].
    etransitivity; [apply filter_length|]. done. }
  split; [|change (25 * 2)%nat with 50%nat]; (eapply Nat.le_trans; [|apply (Nat.le_add_r 34 16)]); [apply le_S|apply le_n_S]; apply Hl.
Qed.
Lemma p_gap3 : p_brief (p_scan 3 1) =
  Some (14%nat, [(3, 53); (4, 54); (6, 56)], 30%nat, [(50, CtUnconfirmed); (51, CtConfirmed 5 4000)], [(0, 4); (1, 0)]).
Proof. vm_compute. reflexivity. Qed.
Lemma p_gap2 : p_brief (p_scan 2 1) =
  Some (12%nat, [(3, 53); (4, 54); (6, 56)], 30%nat, [(51, CtConfirmed 5 4000)], [(0, 1); (1, 0)]).
Proof. vm_compute. reflexivity. Qed.
(** larger batches look further *)
Lemma p_gap2_par5 : p_brief (p_scan 2 5) =
  Some (14%nat, [(3, 53); (4, 54); (6, 56)], 30%nat, [(50, CtUnconfirmed); (51, CtConfirmed 5 4000)], [(0, 4); (1, 0)]).
Proof. vm_compute. reflexivity. Qed.
Lemma p_others : p_show (ps_scan p_srv exho 4 ex_local (∅ : gmap N _) [51; 60] [mkOutPoint 1 50; mkOutPoint 50 0] 2 2 0%nat) =
  Some (16%nat, [(3, 53); (4, 54); (6, 56)], [(1, CtConfirmed 3 2800); (50, CtUnconfirmed); (51, CtConfirmed 5 4000)], []).
Proof. vm_compute. reflexivity. Qed.
Lemma p_within : within_stop_gap 3 (activity p_w [(0, 10); (1, 20); (2, 11); (3, 12); (4, 22); (5, 13)]) 4.
Proof.
  split; [by vm_compute|]. intros (s & Hs & Hall). assert (s = 0 ∨ s = 1)%nat as [-> | ->] by lia.
  - specialize (Hall 1%nat). vm_compute in Hall. assert (Some true = Some false) as [=]. apply Hall; [lia|done].
  - specialize (Hall 1%nat). vm_compute in Hall. assert (Some true = Some false) as [=]. apply Hall; [lia|done].
Qed.
Lemma p_plain : (match ps_scan_without_keychain p_srv exho 4 ex_local [10; 22; 30] [] [] 2 0%nat with
    | Done n u => Some (n, bmap_list (sc_pos (cg_chain u))) | _ => None end) =
  Some (8%nat, [(50, CtUnconfirmed); (51, CtConfirmed 5 4000)]).
Proof. vm_compute. reflexivity. Qed.

(** ** More than fifty unconfirmed transactions of one script *)
Definition p_many_ids : list Txid := 1 :: (N.of_nat <$> seq 2 60).
Definition p_many : World := pw 6 (N.add 50) p_many_ids (λ _, None) (λ _, 20).
Lemma p_many_ok : world_ok p_many ∧ world_sane pw_W p_many ∧ esplora_honest p_many p_time (esplora p_many p_time p_many_ids) ∧
  esplora_typed pw_W (esplora p_many p_time p_many_ids).
Proof.
  apply pw_honest; [done|done| | | |apply p_time_ok]; apply (bool_decide_unpack _); vm_compute; done.
Qed.
Definition p_many_scan : run (KScan N ConfirmationTime) :=
  ps_scan (λ _, esplora p_many p_time p_many_ids) exho 4 ∅ {[ 0 := [(0, 20)] ]} [] [] 5 1 0%nat.

(** a result of a scan seen through a test *)
Lemma scan_result {A} (r : run A) (f : A → bool) : (match r with Done _ s => f s | _ => false end) = true → ∃ n s, r = Done n s ∧ f s = true.
Proof. destruct r; [eauto|done..]. Qed.
Lemma p_many_result : ∃ n s, p_many_scan = Done n s ∧ bool_decide (sc_pos (cg_chain (ks_update s)) !! 61 = None) = true.
Proof. apply scan_result. vm_compute. reflexivity. Qed.

(** ** A server that reorganises once *)
Definition p_turn (n0 : nat) (wA wB : World) (idsA idsB : list Txid) : nat → PSnap :=
  λ n, if (n <? n0)%nat then esplora wA p_time idsA else esplora wB p_time idsB.
(** The tip, block 6, is replaced; the new one has transaction 8, which pays to script 21 *)
Definition p_new (h : N) : BlockHash := if h =? 6 then 99 else 50 + h.
Definition p_at (t : Txid) : option N := if t =? 8 then Some 6 else Some 3.
Definition p_to (t : Txid) : Script := if t =? 8 then 21 else 20.
Definition p_wA : World := pw 6 (N.add 50) [1; 7] p_at p_to.
Definition p_wB : World := pw 6 p_new [1; 7; 8] p_at p_to.
Definition p_rsrv (n0 : nat) : nat → PSnap := p_turn n0 p_wA p_wB [1; 7] [1; 7; 8].
Definition p_one : gmap N (list (N * Script)) := {[ 0 := [(0, 20); (1, 21); (2, 22)] ]}.
Lemma p_at_low t h : p_at t = Some h → h ≤ 6.
Proof. unfold p_at. destruct (t =? 8); by intros [= <-]. Qed.
Lemma p_wA_ok : world_ok p_wA ∧ world_sane pw_W p_wA ∧ esplora_honest p_wA p_time (esplora p_wA p_time [1; 7]) ∧
  esplora_typed pw_W (esplora p_wA p_time [1; 7]).
Proof. apply pw_honest; [done|apply p_at_low| | | |apply p_time_ok]; apply (bool_decide_unpack _); vm_compute; done. Qed.
Lemma p_wB_ok : world_ok p_wB ∧ world_sane pw_W p_wB ∧ esplora_honest p_wB p_time (esplora p_wB p_time [1; 7; 8]) ∧
  esplora_typed pw_W (esplora p_wB p_time [1; 7; 8]).
Proof. apply pw_honest; [done|apply p_at_low| | | |apply p_time_ok]; apply (bool_decide_unpack _); vm_compute; done. Qed.
Lemma p_rsrv_ok n0 : (∀ n, (n < n0)%nat → esplora_honest p_wA p_time (p_rsrv n0 n)) ∧
  (∀ n, (n0 ≤ n)%nat → esplora_honest p_wB p_time (p_rsrv n0 n)) ∧ (∀ n, esplora_typed pw_W (p_rsrv n0 n)).
Proof.
  unfold p_rsrv, p_turn. split; [|split]; intros n; [intros Hn..|]; destruct (Nat.ltb_spec n n0); try lia; first [apply p_wA_ok|apply p_wB_ok].
Qed.
Definition p_rscan (n0 : nat) : run (KScan N ConfirmationTime) := ps_scan (p_rsrv n0) exho 3 ∅ p_one [] [] 5 3 0%nat.
Lemma p_before : p_show (p_rscan 6) = Some (6%nat, [(6, 56)], [(7, CtConfirmed 3 2800)], [(0, 0)]).
Proof. vm_compute. reflexivity. Qed.
Lemma p_during : p_show (p_rscan 5) = Some (11%nat, [(6, 99)], [(7, CtConfirmed 3 2800)], [(0, 0)]).
Proof. vm_compute. reflexivity. Qed.
Lemma p_after : p_show (p_rscan 1) =
  Some (6%nat, [(6, 99)], [(7, CtConfirmed 3 2800); (8, CtConfirmed 6 4600)], [(0, 1)]).
Proof. vm_compute. reflexivity. Qed.
Lemma p_during_result : ∃ n s, p_rscan 5 = Done n s ∧
  bool_decide (sc_pos (cg_chain (ks_update s)) !! 8 = None ∧ ks_active s !! 0 = Some 0) = true.
Proof. apply scan_result. vm_compute. reflexivity. Qed.

(** ** A wallet *)
(** Block 3 is still there, block 5 with transaction 51 was replaced *)
Definition p_ops : list (cg_op ConfirmationTime) :=
  [CgCheckpoint (mkBlockId 3 53); CgCheckpoint (mkBlockId 5 99); CgTx exho (pw_tx p_spk 2) (CtConfirmed 3 2800);
   CgTx exho (pw_tx p_spk 51) (CtConfirmed 5 1234); CgTx exho (pw_tx p_spk 30) CtUnconfirmed].
Definition p_wallet : ChainGraph ConfirmationTime := cg_after cg_default p_ops.
Lemma p_wallet_built : built pw_W p_wallet.
Proof.
  apply after_built; [apply built_default|].
  repeat (apply Forall_cons; split; [split; [|done]|]); [| | | | |constructor]; try done;
    (split; [apply exho_ok|]); by vm_compute.
Qed.
Lemma p_wallet_cps h x : sc_cps (cg_chain p_wallet) !! h = Some x ↔ (h = 3 ∧ x = 53) ∨ (h = 5 ∧ x = 99).
Proof.
  rewrite <- elem_of_bmap_list. assert (bmap_list (sc_cps (cg_chain p_wallet)) = [(3, 53); (5, 99)]) as -> by (vm_compute; reflexivity).
  rewrite !elem_of_cons, elem_of_nil. split; [intros [[= -> ->]|[[= -> ->]|[]]]; tauto|]. intros [[-> ->]|[-> ->]]; tauto.
Qed.
Lemma p_wallet_pos t q : sc_pos (cg_chain p_wallet) !! t = Some q ↔
  (t = 2 ∧ q = CtConfirmed 3 2800) ∨ (t = 30 ∧ q = CtUnconfirmed) ∨ (t = 51 ∧ q = CtConfirmed 5 1234).
Proof.
  rewrite <- elem_of_bmap_list.
  assert (bmap_list (sc_pos (cg_chain p_wallet)) = [(2, CtConfirmed 3 2800); (30, CtUnconfirmed); (51, CtConfirmed 5 1234)]) as ->
    by (vm_compute; reflexivity).
  rewrite !elem_of_cons, elem_of_nil. split; [intros [[= -> ->]|[[= -> ->]|[[= -> ->]|[]]]]; tauto|].
  intros [[-> ->]|[[-> ->]|[-> ->]]]; tauto.
Qed.
#[local] Opaque p_wallet.
Lemma p_wallet_below : below_max (cg_chain p_wallet) ∧ confirmed_below_tip (cg_chain p_wallet).
Proof.
  split; [split|].
  - by intros h [x [[-> _]|[-> _]]%p_wallet_cps].
  - intros t q h [[-> ->]|[[-> ->]|[-> ->]]]%p_wallet_pos; simpl; by intros [= <-].
  - intros t q h Ht Hq. exists 5. split; [exists 99; refine (proj2 (p_wallet_cps 5 99) _); right; split; reflexivity|].
    apply p_wallet_pos in Ht as [[-> ->]|[[-> ->]|[-> ->]]]; simpl in Hq; [by injection Hq as <-|discriminate Hq|by injection Hq as <-].
Qed.
Lemma p_wallet_true : local_true p_w (w_time_position p_w p_time) (cg_chain p_wallet).
Proof.
  split.
  - by intros h [x [[-> _]|[-> _]]%p_wallet_cps].
  - intros a b x Hle [[-> Hb]|[-> Hb]]%p_wallet_cps [[-> ->]|[-> ->]]%p_wallet_cps; by vm_compute in Hb.
  - intros t q h [[-> ->]|[[-> ->]|[-> ->]]]%p_wallet_pos; simpl; [intros _ _; by vm_compute|done|].
    intros [= <-] Hall. specialize (Hall 5 99). assert (99 = w_block p_w 5) as E by (refine (Hall _ (proj2 (p_wallet_cps 5 99) _)); [done|right; split; reflexivity]).
    by vm_compute in E.
Qed.
#[local] Transparent p_wallet.
Definition p_sync : option (list (N * BlockHash) * nat * list (Txid * ConfirmationTime)) :=
  match ps_scan p_srv exho 2 (sc_cps (cg_chain p_wallet)) p_kspks [] [] 3 2 0%nat with
  | Done _ s => match cg_apply_update (exho (cg_graph p_wallet)) p_wallet (ks_update s) (map_to_list (sc_pos (cg_chain (ks_update s)))) with
                | Ret (Ok (cg, _)) => Some (bmap_list (sc_cps (cg_chain cg)), length (filter (λ tp, tp.1 < 50) (bmap_list (sc_pos (cg_chain cg)))),
                    filter (λ tp, 50 ≤ tp.1) (bmap_list (sc_pos (cg_chain cg))))
                | _ => None
                end
  | _ => None
  end.
Lemma p_synced : p_sync = Some ([(3, 53); (5, 55); (6, 56)], 30%nat, [(50, CtUnconfirmed); (51, CtConfirmed 5 4000)]).
Proof. vm_compute. reflexivity. Qed.
