(** Servers for C106. *)
From Verif Require Export EndsProofs2 ScanExamples EsploraExamples.

(** ** Servers that change their mind with every third request *)
Fixpoint third (n : nat) : bool := match n with S (S (S n)) => third n | 2%nat => true | _ => false end.
Lemma third_3 (k : nat) : third (3 * k) = false ∧ third (3 * k + 1) = false ∧ third (3 * k + 1 + 1) = true.
Proof.
  induction k as [|k IH]; [done|]. replace (3 * S k)%nat with (S (S (S (3 * k)))) by lia. exact IH.
Qed.
Definition toss : nat → ESnap := λ n, if third n then honest ex_tip_gone else honest ex_w.
Lemma toss_honest n : ∃ w, world_ok w ∧ electrum_honest w (toss n).
Proof.
  unfold toss. destruct (third n).
  - exists ex_tip_gone. split; [apply ex_reorg_worlds_ok|]. by apply ex_world_honest.
  - exists ex_w. apply ex_w_ok.
Qed.
Definition toss_kspks : gmap N (list (N * Script)) := {[ 0 := [(0, 20)] ]}.
Definition toss_sc : gmap (N * N) (Script * bool) := {[ (0, 0) := (20, true) ]}.
Lemma toss_round (srv : nat → ESnap) fuel n :
  srv n = honest ex_w → srv (n + 1)%nat = honest ex_w → srv (n + 1 + 1)%nat = honest ex_tip_gone →
  scan_loop true srv (S fuel) ∅ [] [] 20 5 [(0, [(0, 20)])] ∅ n =
    scan_loop true srv fuel ∅ [] [] 20 5 [(0, [])] toss_sc (n + 1 + 1 + 1)%nat ∧
  scan_loop true srv (S fuel) ∅ [] [] 20 5 [(0, [])] toss_sc n =
    scan_loop true srv fuel ∅ [] [] 20 5 [(0, [])] toss_sc (n + 1 + 1 + 1)%nat.
Proof.
  intros E1 E2 E3.
  assert (Hp: ∃ u, prepare_update srv (S fuel) ∅ n = Done (n + 1)%nat u ∧ prepare_update (λ _, honest ex_w) 1 ∅ 0%nat = Done 1%nat u).
  { eexists. cbn [prepare_update]. split; [|vm_compute; reflexivity]. change (reverse (bmap_list ∅)) with (@nil (N * BlockHash)).
    cbn [prepare_loop]. unfold get_tip, bnd, ret, req. rewrite E1. vm_compute. reflexivity. }
  destruct Hp as (u & Hp & Hu).
  assert (Hk: ∃ u1, scan_keychains true srv 20 5 [(0, [(0, 20)])] u ∅ (n + 1)%nat = Done (n + 1 + 1)%nat ([(0, [])], u1, toss_sc) ∧
    populate_with_spks true srv 20 5 u [((0, 0), 20)] (n + 1)%nat = Done (n + 1 + 1)%nat (u1, [], Some toss_sc) ∧
    latest_checkpoint u1 = Some (mkBlockId 6 56)).
  { vm_compute in Hu. injection Hu as <-. eexists. split; [|split].
    - cbn [scan_keychains]. unfold populate_with_spks. cbn [length spks_loop take drop]. unfold bnd, req. rewrite E2. vm_compute. reflexivity.
    - unfold populate_with_spks. cbn [length spks_loop take drop]. unfold bnd, req. rewrite E2. vm_compute. reflexivity.
    - vm_compute. reflexivity. }
  destruct Hk as (u1 & Hk & Hr & Ht). clear Hu.
  assert (Hrest: ∀ (rq : list (N * list (N * Script))) sc m, (m = n + 1 + 1)%nat →
    bnd (populate_with_txids true srv u1 []) (λ r : SparseChain TxHeight * bool, let '(u, ok) := r in
      if negb ok then scan_loop true srv fuel ∅ [] [] 20 5 rq sc else
      bnd (populate_with_outpoints true srv u []) (λ r : SparseChain TxHeight * option (gmap Txid Tx), let '(u, ok) := r in
        match ok with
        | None => scan_loop true srv fuel ∅ [] [] 20 5 rq sc
        | Some _ =>
            match latest_checkpoint u with
            | None => lift Panic
            | Some tip => bnd (req srv (λ s, es_header s (bi_height tip))) (λ y, if bi_hash tip =? y then ret (u, sc)
                            else scan_loop true srv fuel ∅ [] [] 20 5 rq sc)
            end
        end)) m = scan_loop true srv fuel ∅ [] [] 20 5 rq sc (m + 1)%nat).
  { intros rq sc m ->. unfold bnd, populate_with_txids. rewrite Ht. cbn [txids_loop ret negb].
    unfold populate_with_outpoints. rewrite Ht. cbn [outpoints_loop ret]. rewrite Ht. unfold req. rewrite E3. done. }
  split; cbn [scan_loop]; unfold bnd at 1; rewrite Hp.
  - change (rescan true srv 20 5 u ∅) with (ret (u, Some (∅ : gmap (N * N) (Script * bool)))). unfold bnd at 1, ret at 1.
    cbv beta iota. unfold bnd at 1. rewrite Hk. cbv beta iota. by apply Hrest.
  - change (rescan true srv 20 5 u toss_sc) with (bnd (populate_with_spks true srv 20 5 u [((0, 0), 20)])
      (λ r : SparseChain TxHeight * list (N * N * Script) * option (gmap (N * N) (Script * bool)),
         let '(u, _, new) := r in ret (u, (λ new, new ∪ toss_sc) <$> new))).
    unfold bnd at 1. unfold bnd at 1. rewrite Hr. cbv beta iota. cbn [fmap option_fmap option_map ret].
    assert (toss_sc ∪ toss_sc = toss_sc) as -> by (apply map_union_idemp).
    unfold bnd at 1. change (scan_keychains true srv 20 5 [(0, [])] u1 toss_sc (n + 1 + 1)%nat)
      with (Done (n + 1 + 1)%nat ([(0, @nil (N * Script))], u1, add_keychain_spks 0 ∅ toss_sc)).
    assert (add_keychain_spks 0 ∅ toss_sc = toss_sc) as -> by done.
    cbv beta iota. by apply Hrest.
Qed.
Lemma toss_forever fuel k : scan true toss fuel ∅ toss_kspks [] [] 20 5 (3 * k)%nat = Unfinished.
Proof.
  assert (Hs: ∀ fuel k, scan_loop true toss fuel ∅ [] [] 20 5 [(0, [])] toss_sc (3 * k)%nat = Unfinished).
  { clear fuel k. induction fuel as [|fuel IH]; intros k; [done|]. destruct (third_3 k) as (H1 & H2 & H3).
    rewrite (proj2 (toss_round toss fuel (3 * k)%nat ltac:(unfold toss; by rewrite H1) ltac:(unfold toss; by rewrite H2)
      ltac:(unfold toss; by rewrite H3))).
    replace (3 * k + 1 + 1 + 1)%nat with (3 * S k)%nat by lia. apply IH. }
  unfold scan. change (bmap_list toss_kspks) with [(0, [(0, 20)])]. unfold bnd.
  destruct fuel as [|fuel]; [done|]. destruct (third_3 k) as (H1 & H2 & H3).
  rewrite (proj1 (toss_round toss fuel (3 * k)%nat ltac:(unfold toss; by rewrite H1) ltac:(unfold toss; by rewrite H2)
    ltac:(unfold toss; by rewrite H3))).
  replace (3 * k + 1 + 1 + 1)%nat with (3 * S k)%nat by lia. by rewrite Hs.
Qed.
(** The same for a while; then the first chain stays. *)
Definition toss_until (n0 : nat) : nat → ESnap := λ n, if (n <? n0)%nat then toss n else honest ex_w.
Lemma toss_until_settles n0 : settles ex_w n0 (toss_until n0).
Proof. intros n Hn. unfold toss_until. destruct (Nat.ltb_spec n n0); [lia|]. apply ex_w_ok. Qed.
Lemma toss_until_shows : show (scan true (toss_until 8) 9 ex_local toss_kspks [8] [mkOutPoint 7 1] 20 5 0%nat) =
  Some (20%nat, [(3, 53); (4, 54); (6, 56)], [(7, Confirmed 3); (8, Confirmed 5); (9, Unconfirmed)], [(0, 0)]).
Proof. vm_compute. reflexivity. Qed.

(** ** Esplora *)
Definition p_toss : nat → PSnap := λ n, if third n then esplora p_wB p_time [1; 7; 8] else esplora p_wA p_time [1; 7].
Lemma p_toss_honest n : ∃ w, world_ok w ∧ world_sane pw_W w ∧ esplora_honest w p_time (p_toss n).
Proof.
  unfold p_toss. destruct (third n).
  - exists p_wB. destruct p_wB_ok as (H1 & H2 & H3 & _). done.
  - exists p_wA. destruct p_wA_ok as (H1 & H2 & H3 & _). done.
Qed.
Lemma p_toss_round (srv : nat → PSnap) fuel (kspks : gmap N (list (N * Script))) par n :
  srv n = esplora p_wA p_time [1; 7] → srv (n + 1)%nat = esplora p_wA p_time [1; 7] → srv (n + 1 + 1)%nat = esplora p_wB p_time [1; 7; 8] →
  kspks = ∅ ∨ kspks = {[ 0 := [] ]} →
  ps_scan srv exho (S fuel) ∅ kspks [] [] u64_max par n =
    bnd (ps_scan srv exho fuel ∅ ({[ 0 := [] ]} : gmap N _) [] [] u64_max (Nat.max par 1)) (λ s, ret (mkKScan (ks_update s) ∅)) (n + 1 + 1 + 1)%nat.
Proof.
  intros E1 E2 E3 Hk. cbn [ps_scan]. cbv zeta. change (reverse (bmap_list (∅ : gmap N BlockHash))) with (@nil (N * BlockHash)).
  cbn [ps_prepare_loop]. unfold bnd at 1, ret at 1. unfold bnd at 1, req at 1. rewrite E1. cbn [ps_height esplora].
  unfold bnd at 1, req at 1. rewrite E2. cbn [ps_tip_hash esplora].
  assert (∃ u cs, cg_insert_checkpoint (P := ConfirmationTime) cg_default (mkBlockId 6 56) = Ret (Ok (u, cs)) ∧
    latest_checkpoint (cg_chain u) = Some (mkBlockId 6 56) ∧ (txids (cg_chain u)).*2 = []) as (u & cs & Hc & Hl & Ht).
  { eexists _, _. split; [vm_compute; reflexivity|]. split; vm_compute; reflexivity. }
  unfold bnd at 1, lift. change (w_tip p_wA) with 6. change (w_block p_wA 6) with 56. rewrite Hc.
  assert (∀ m, keychains_loop srv exho fuel u64_max (par `max` 1) 6 (bmap_list kspks) u ∅ m = Done m (u, ∅)) as Hkc.
  { intros m. destruct Hk as [-> | ->]; [done|]. change (bmap_list ({[ 0 := [] ]} : gmap N (list (N * Script)))) with [(0, @nil (N * Script))].
    cbn [keychains_loop length keychain_loop]. rewrite take_nil. done. }
  unfold bnd at 1. rewrite Hkc. cbn [ps_txids_loop]. unfold bnd at 1, ret at 1. cbn [ps_outpoints_loop]. unfold bnd at 1, ret at 1.
  rewrite Hl. unfold bnd at 1. unfold bnd at 1, req. rewrite E3. cbn [ps_block_hash esplora bi_height bi_hash].
  change (6 <=? w_tip p_wB) with true. cbv iota beta. change (w_block p_wB 6) with 99. change (negb (99 =? 56)) with true.
  unfold ret at 1. cbv iota beta. by rewrite Ht.
Qed.
Lemma p_toss_forever fuel k : ps_scan p_toss exho fuel ∅ (∅ : gmap N (list (N * Script))) [] [] u64_max 1 (3 * k)%nat = Unfinished.
Proof.
  assert (Hs: ∀ fuel (kspks : gmap N (list (N * Script))) k, kspks = ∅ ∨ kspks = {[ 0 := [] ]} →
    ps_scan p_toss exho fuel ∅ kspks [] [] u64_max 1 (3 * k)%nat = Unfinished); [|apply Hs; by left].
  clear fuel k. induction fuel as [|fuel IH]; intros kspks k Hk; [done|]. destruct (third_3 k) as (H1 & H2 & H3).
  rewrite p_toss_round; [|unfold p_toss; by rewrite ?H1, ?H2, ?H3..|done].
  replace (3 * k + 1 + 1 + 1)%nat with (3 * S k)%nat by lia. unfold bnd. change (1 `max` 1)%nat with 1%nat. rewrite IH; [done|by right].
Qed.
(** A server that says every page of a script is full *)
Definition p_full : PSnap := {|
  ps_block_hash _ := Ok 56; ps_height := Ok 6; ps_tip_hash := Ok 56;
  ps_script_txs k _ := Ok (repeat (mkETx 7 (pw_tx (λ _, k) 7) (mkStatus true (Some 3) (Some 2800))) 25);
  ps_tx _ := Ok None; ps_tx_status _ := Ok None; ps_output_status _ _ := Ok None |}.
Lemma p_full_typed : esplora_typed pw_W p_full.
Proof.
  split; try done.
  - by intros h [= <-].
  - intros k a l e Hl Hin. unfold p_full in Hl. cbn [ps_script_txs] in Hl. apply (f_equal (λ r, match r with Ok l => l | Err _ => [] end)) in Hl.
    cbv beta iota in Hl. subst l. apply elem_of_list_In, repeat_spec in Hin as ->. split; [by split|]. by intros tm [= <-].
Qed.
Lemma p_full_pages fuel k related n : last related ≠ None → more_pages (λ _, p_full) fuel k related n = Unfinished.
Proof.
  revert related n. induction fuel as [|fuel IH]; intros related n Hl; [done|]. cbn [more_pages].
  destruct (last related) as [e|]; [|done]. unfold bnd, req. cbn [ps_script_txs p_full]. rewrite repeat_length. cbn [Nat.ltb Nat.leb].
  apply IH. rewrite last_app. done.
Qed.
Lemma p_full_forever fuel n : ps_scan (λ _, p_full) exho fuel ∅ p_one [] [] 5 3 n = Unfinished.
Proof.
  destruct fuel as [|fuel]; [done|]. cbn [ps_scan]. cbv zeta.
  change (reverse (bmap_list (∅ : gmap N BlockHash))) with (@nil (N * BlockHash)).
  cbn [ps_prepare_loop]. unfold bnd at 1, ret at 1. unfold bnd at 1, req at 1. cbn [ps_height p_full].
  unfold bnd at 1, req at 1. cbn [ps_tip_hash p_full].
  assert (∃ u cs, cg_insert_checkpoint (P := ConfirmationTime) cg_default (mkBlockId 6 56) = Ret (Ok (u, cs))) as (u & cs & Hc).
  { eexists _, _. vm_compute; reflexivity. }
  unfold bnd at 1, lift. rewrite Hc. change (bmap_list p_one) with [(0, [(0, 20); (1, 21); (2, 22)])].
  assert (Hr: ∀ k m, related_txs (λ _, p_full) fuel k m = Unfinished).
  { intros k m. unfold related_txs, bnd, req. cbn [ps_script_txs p_full].
    change (25 <=? _)%nat with true. cbv iota. by apply p_full_pages. }
  cbn [keychains_loop length keychain_loop take fetch_batch Nat.max]. unfold bnd. by rewrite Hr.
Qed.
(** The same for a while; then the second chain stays. *)
Definition p_toss_until (n0 : nat) : nat → PSnap := λ n, if (n <? n0)%nat then p_toss n else esplora p_wB p_time [1; 7; 8].
Lemma p_toss_until_settles n0 : ps_settles p_wB p_time n0 (p_toss_until n0).
Proof.
  intros n Hn. unfold p_toss_until. destruct (Nat.ltb_spec n n0); [lia|]. split; [apply p_wB_ok|].
  intros k t l. cbn [ps_script_txs esplora]. destruct (list_find (eq t) (w_confirmed p_wB k)) as [[i t']|] eqn:E; [|done].
  apply list_find_Some in E as (E & <- & _). intros _ []. by eapply elem_of_list_lookup_2.
Qed.
Lemma p_toss_until_shows : p_show (ps_scan (p_toss_until 8) exho 10 ∅ p_one [8] [mkOutPoint 7 0] 5 3 0%nat) =
  Some (18%nat, [(6, 99)], [(7, CtConfirmed 3 2800); (8, CtConfirmed 6 4600)], [(0, 0)]).
Proof. vm_compute. reflexivity. Qed.
Lemma p_wB_short k : (length (w_mempool p_wB k) ≤ 50)%nat ∧ (length (w_confirmed p_wB k) < 25 * 1)%nat.
Proof.
  assert (Hl: (length (w_history p_wB k) ≤ 3)%nat).
  { unfold p_wB, pw. cbn [w_history]. destruct (k =? 40); [done|]. etrans; [apply filter_length|]. done. }
  pose proof (filter_length (λ t, w_height p_wB t = None) (w_history p_wB k)).
  pose proof (filter_length (λ t, is_Some (w_height p_wB t)) (w_history p_wB k)). unfold w_mempool, w_confirmed. lia.
Qed.
