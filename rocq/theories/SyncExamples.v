(** Concrete synchronisations. *)
From Verif Require Export SyncProofs2 ChainGraphExamples ScanExamples.

(** A world with a coinbase and one transaction [i] that spends it, in block [h] *)
Definition sy_cb : Tx := mkTx 1 [null_outpoint] [mkTxOut 100 40] 0.
Definition sy_tx (i : Txid) : Tx := mkTx i [mkOutPoint 1 0] [mkTxOut 90 20] 0.
Definition sy_world (tip : N) (block : N → BlockHash) (i : Txid) (h : N) : World := {|
  w_tip := tip;
  w_block := block;
  w_height t := if t =? 1 then Some 1 else if t =? i then Some h else None;
  w_history s := if s =? 40 then [1; i] else if s =? 20 then [i] else [];
  w_tx t := if t =? 1 then Some sy_cb else if t =? i then Some (sy_tx i) else None
|}.
Definition sy_W (i : Txid) : list OutPoint := if i =? 1 then [null_outpoint] else [mkOutPoint 1 0].
Lemma sy_tx_cases i t x tip block h : w_tx (sy_world tip block i h) t = Some x → (t = 1 ∧ x = sy_cb) ∨ (t = i ∧ x = sy_tx i ∧ t ≠ 1).
Proof.
  simpl. destruct (N.eqb_spec t 1) as [-> |]; [intros [= <-]; by left|]. destruct (N.eqb_spec t i) as [-> |]; [|done].
  intros [= <-]. by right.
Qed.
Lemma sy_known i t tip block h : t = 1 ∨ t = i → is_Some (w_tx (sy_world tip block i h) t).
Proof.
  simpl. intros Ht. destruct (N.eqb_spec t 1) as [|Hn]; [eauto|]. destruct (N.eqb_spec t i); [eauto|tauto].
Qed.
Lemma sy_history tip block i h s t : t ∈ w_history (sy_world tip block i h) s → t = 1 ∨ t = i.
Proof.
  simpl. destruct (s =? 40); [rewrite !elem_of_cons, elem_of_nil; tauto|].
  destruct (s =? 20); rewrite ?elem_of_cons, elem_of_nil; tauto.
Qed.
Lemma sy_ok tip block i h : tip < u32_max → 1 ≤ h ≤ tip → 1 < i ≤ max_txid → world_ok (sy_world tip block i h).
Proof.
  intros H1 H2 H3. assert (1 ≤ max_txid) by (by vm_compute). split.
  - done.
  - intros t k. simpl. destruct (t =? 1); [intros [= <-]; lia|]. destruct (t =? i); [intros [= <-]; lia|done].
  - intros s t [-> | ->]%sy_history; [done|lia].
  - by intros t x [[-> ->]|(-> & -> & _)]%sy_tx_cases.
  - intros s t Ht%sy_history. by apply sy_known.
  - intros t x o [[-> ->]|(-> & -> & _)]%sy_tx_cases [-> |[]%elem_of_nil]%elem_of_cons; simpl; left.
  - intros t x p y o [[-> ->]|(-> & -> & Hi)]%sy_tx_cases [-> |[]%elem_of_nil]%elem_of_cons Hp; [exfalso|].
    + apply sy_tx_cases in Hp as [[Hp _]|(Hp & _)]; [by vm_compute in Hp|].
      assert (op_txid null_outpoint = 0) as E by reflexivity. rewrite E in Hp. lia.
    + apply sy_tx_cases in Hp as [[_ ->]|(Hp & _ & Hn)]; [|done]. simpl. intros [= <-]. simpl. right. left.
Qed.
Lemma sy_sane tip block i h : 1 < i → world_sane sy_W (sy_world tip block i h).
Proof.
  intros Hi. split.
  - intros t x [[-> ->]|(-> & -> & Hn)]%sy_tx_cases; [done|]. unfold sy_W. by destruct (N.eqb_spec i 1).
  - intros a b x y [[-> ->]|(-> & -> & Ha)]%sy_tx_cases [[-> ->]|(-> & -> & Hb)]%sy_tx_cases (o & Hnn & Hx & Hy); try done; exfalso.
    + by apply elem_of_list_singleton in Hx.
    + by apply elem_of_list_singleton in Hy.
  - intros t x o [[-> ->]|(-> & -> & Hn)]%sy_tx_cases [-> |[]%elem_of_nil]%elem_of_cons Hnn; [done|]. simpl. eauto.
  - intros t k Hk. apply (sy_known i t tip block h). simpl in Hk.
    destruct (N.eqb_spec t 1); [by left|]. destruct (N.eqb_spec t i); [by right|done].
Qed.
Lemma sy_honest tip block i h : 1 < i → i ≠ genesis_txid → 1 ≤ h → electrum_honest (sy_world tip block i h) (honest (sy_world tip block i h)).
Proof.
  intros Hi Hg Hh. apply honest_honest. intros s t Ht%sy_history. split.
  - destruct Ht as [-> | ->]; [by vm_compute|done].
  - simpl. destruct (t =? 1); [done|]. destruct (t =? i); [intros [= ->]; lia|done].
Qed.

(** ** Wallets *)
(** Block 3 and block 10 as checkpoints, transaction 7 at [p] *)
Definition sy_ops (p : TxHeight) : list (cg_op TxHeight) :=
  [CgCheckpoint (mkBlockId 3 53); CgCheckpoint (mkBlockId 10 60); CgTx exho (sy_tx 7) p].
Definition sy_wallet (p : TxHeight) : ChainGraph TxHeight := cg_after cg_default (sy_ops p).
Lemma sy_built p : th_ok p → built sy_W (sy_wallet p).
Proof.
  intros Hp. apply after_built; [apply built_default|].
  repeat (apply Forall_cons; split; [split; [|done]|]); [| | |constructor]; try done.
  split; [apply exho_ok|]. split; [by vm_compute|]. by split.
Qed.
(** The server's chain before and after a reorganisation from block 4 on *)
Definition sy_old : N → BlockHash := N.add 50.
Definition sy_new (h : N) : BlockHash := if h <? 4 then 50 + h else 90 + h.
(** In the new chain transaction 6 has taken the coin of transaction 7 *)
Definition sy_before : World := sy_world 10 sy_old 7 5.
Definition sy_after : World := sy_world 11 sy_new 6 6.

Definition sy_run (w : World) (cg : ChainGraph TxHeight) : run (ElectrumUpdate N TxHeight) :=
  scan true (λ _, honest w) 3 (sc_cps (cg_chain cg)) {[ 0 := [(0, 20); (1, 21)] ]} [] [] 5 2 0%nat.
Definition sy_update (r : run (ElectrumUpdate N TxHeight)) : ElectrumUpdate N TxHeight :=
  match r with Done _ e => e | _ => mkEU sc_default ∅ end.
(** One synchronisation against world [w] *)
Definition sy_sync (w : World) (cg : ChainGraph TxHeight) : outcome (result (ChainGraph TxHeight * CgChangeSet TxHeight) (CgUpdateError TxHeight)) :=
  let e := sy_update (sy_run w cg) in
  let txs := omap (w_tx w) (missing_full_txs e (cg_graph cg)) in
  match into_keychain_scan (exho (inflate_graph cg (eu_chain e) txs)) e txs cg with
  | Ret (Ok s) => cg_apply_update (exho (cg_graph cg)) cg (ks_update s) (map_to_list (sc_pos (eu_chain e)))
  | _ => Panic
  end.
Definition sy_show (r : outcome (result (ChainGraph TxHeight * CgChangeSet TxHeight) (CgUpdateError TxHeight))) :=
  match r with
  | Ret (Ok (cg, _)) => Some (Ok (bmap_list (sc_cps (cg_chain cg)), bmap_list (sc_pos (cg_chain cg))))
  | Ret (Err e) => Some (Err e)
  | Panic => None
  end.

(** ** What the wallets know *)
Lemma sy_wallet_cps p h x : p = Unconfirmed ∨ p = Confirmed 5 →
  sc_cps (cg_chain (sy_wallet p)) !! h = Some x ↔ (h = 3 ∧ x = 53) ∨ (h = 10 ∧ x = 60).
Proof.
  intros Hp. rewrite <- elem_of_bmap_list.
  assert (bmap_list (sc_cps (cg_chain (sy_wallet p))) = [(3, 53); (10, 60)]) as ->.
  { destruct Hp as [-> | ->]; vm_compute; reflexivity. }
  rewrite !elem_of_cons, elem_of_nil. split; [intros [[= -> ->]|[[= -> ->]|[]]]; tauto|].
  intros [[-> ->]|[-> ->]]; tauto.
Qed.
Lemma sy_wallet_pos p t q : p = Unconfirmed ∨ p = Confirmed 5 →
  sc_pos (cg_chain (sy_wallet p)) !! t = Some q ↔ t = 7 ∧ q = p.
Proof.
  intros Hp. rewrite <- elem_of_bmap_list.
  assert (bmap_list (sc_pos (cg_chain (sy_wallet p))) = [(7, p)]) as ->.
  { destruct Hp as [-> | ->]; vm_compute; reflexivity. }
  rewrite elem_of_cons, elem_of_nil. split; [intros [[= -> ->]|[]]; done|]. intros [-> ->]. by left.
Qed.
#[local] Opaque sy_wallet.
Lemma sy_wallet_below p : p = Unconfirmed ∨ p = Confirmed 5 →
  below_max (cg_chain (sy_wallet p)) ∧ confirmed_below_tip (cg_chain (sy_wallet p)).
Proof.
  intros Hp. split; [split|].
  - by intros h [x [[-> _]|[-> _]]%sy_wallet_cps].
  - intros t q h [-> ->]%sy_wallet_pos; [|done]. destruct Hp as [-> | ->]; [done|]. simpl. by intros [= <-].
  - intros t q h [-> ->]%sy_wallet_pos; [|done]. destruct Hp as [-> | ->]; [done|]. simpl. intros [= <-].
    exists 10. split; [|done]. exists 60. apply sy_wallet_cps; [by right|]. by right.
Qed.
(** The checkpoints are blocks of the old chain; of the new one, up to block 3 *)
Lemma sy_wallet_forks p : p = Unconfirmed ∨ p = Confirmed 5 →
  (∀ h, is_Some (sc_cps (cg_chain (sy_wallet p)) !! h) → h ≤ w_tip sy_after) ∧
  (∀ a b x, a ≤ b → sc_cps (cg_chain (sy_wallet p)) !! b = Some (w_block sy_after b) →
     sc_cps (cg_chain (sy_wallet p)) !! a = Some x → x = w_block sy_after a).
Proof.
  intros Hp. split.
  - by intros h [x [[-> _]|[-> _]]%sy_wallet_cps].
  - intros a b x Hle [[-> Hb]|[-> Hb]]%sy_wallet_cps [[-> ->]|[-> ->]]%sy_wallet_cps; try done.
Qed.
Lemma sy_true_before : local_true sy_before (w_position sy_before) (cg_chain (sy_wallet (Confirmed 5))).
Proof.
  split.
  - intros h [x [[-> _]|[-> _]]%sy_wallet_cps]; by auto.
  - intros a b x Hle [[-> Hb]|[-> Hb]]%sy_wallet_cps [[-> ->]|[-> ->]]%sy_wallet_cps; by auto.
  - intros t q h [-> ->]%sy_wallet_pos; by auto.
Qed.
Lemma sy_true_after : local_true sy_after (w_position sy_after) (cg_chain (sy_wallet Unconfirmed)).
Proof.
  destruct (sy_wallet_forks Unconfirmed) as [H1 H2]; [by left|]. split; [exact H1|exact H2|].
  intros t q h [-> ->]%sy_wallet_pos; [done|by left].
Qed.
Lemma sy_worlds : (world_ok sy_before ∧ world_sane sy_W sy_before ∧ electrum_honest sy_before (honest sy_before)) ∧
  (world_ok sy_after ∧ world_sane sy_W sy_after ∧ electrum_honest sy_after (honest sy_after)).
Proof.
  split; (split; [by apply sy_ok|]); (split; [by apply sy_sane|]); by apply sy_honest.
Qed.
#[local] Transparent sy_wallet.
(** The replaced transaction was unconfirmed: it goes *)
Lemma sy_sync_unconfirmed : sy_show (sy_sync sy_after (sy_wallet Unconfirmed)) =
  Some (Ok ([(3, 53); (10, 100); (11, 101)], [(6, Confirmed 6)])).
Proof. vm_compute. reflexivity. Qed.

(** ** Confirmation times *)
Definition timed_server (w : World) (time : N → N) : ESnap :=
  {| es_header := es_header (honest w); es_tip := es_tip (honest w); es_tx := es_tx (honest w);
     es_history := es_history (honest w); es_histories := es_histories (honest w); es_times l := Ok (time <$> l) |}.
Lemma timed_honest w time : electrum_honest w (honest w) → electrum_honest w (timed_server w time).
Proof. by intros []. Qed.
(** a server that sends no headers at all *)
Definition short_server (w : World) : ESnap :=
  {| es_header := es_header (honest w); es_tip := es_tip (honest w); es_tx := es_tx (honest w);
     es_history := es_history (honest w); es_histories := es_histories (honest w); es_times l := Ok [] |}.
Definition show_times (r : run (ElectrumUpdate N ConfirmationTime)) :=
  match r with
  | Done n e => Some (n, bmap_list (sc_cps (eu_chain e)), bmap_list (sc_pos (eu_chain e)), bmap_list (eu_active e))
  | _ => None
  end.
Definition ex_update : ElectrumUpdate N TxHeight := sy_update (ex_scan ex_w ex_kspks [] [] 2 2).
Lemma ex_update_complete : scan_complete ex_w ex_local ex_kspks [] [] 2 ex_update.
Proof.
  destruct (scan_ends ex_w (proj1 ex_w_ok) true (λ _, honest ex_w) (λ _, proj2 ex_w_ok) 2 ex_local ex_kspks [] [] 2 2
    ex_local_low ltac:(lia) ltac:(constructor) ltac:(constructor) 0%nat) as (n & e & E & Hc).
  unfold ex_update, ex_scan. by rewrite E.
Qed.
Lemma ex_times : show_times (into_confirmation_time_update (λ _, timed_server ex_w (λ h, 1000 + 600 * h)) ex_update 8%nat) =
  Some (9%nat, [(3, 53); (4, 54); (6, 56)], [(7, CtConfirmed 3 2800); (8, CtConfirmed 5 4000); (9, CtUnconfirmed)], [(0, 4); (1, 0)]).
Proof. vm_compute. reflexivity. Qed.
Lemma ex_short : into_confirmation_time_update (λ _, short_server ex_w) ex_update 8%nat = Crashed.
Proof. vm_compute. reflexivity. Qed.
(** the graph already has transaction 7 *)
Definition ex_graph_wallet : ChainGraph TxHeight := cg_after cg_default [CgTx exho ex_txA Unconfirmed].
Lemma ex_missing : missing_full_txs ex_update (cg_graph ex_graph_wallet) = [8; 9].
Proof. vm_compute. reflexivity. Qed.
Lemma ex_graph_wallet_ok : cg_ok ex_graph_wallet.
Proof.
  apply (built_ok (λ _, [mkOutPoint 1 0])). apply after_built; [apply built_default|].
  apply Forall_cons. split; [|constructor]. split; [|done]. split; [apply exho_ok|]. split; [by vm_compute|]. by split.
Qed.

(** ** A synchronisation that fails *)
Definition sy_stuck : ChainGraph TxHeight := sy_wallet (Confirmed 5).
Definition sy_e : ElectrumUpdate N TxHeight := sy_update (sy_run sy_after sy_stuck).
Definition sy_txs : list Tx := omap (w_tx sy_after) (missing_full_txs sy_e (cg_graph sy_stuck)).
Definition sy_ho1 : OutPoint → list Txid := exho (inflate_graph sy_stuck (eu_chain sy_e) sy_txs).
Definition sy_s : KScan N TxHeight :=
  match into_keychain_scan sy_ho1 sy_e sy_txs sy_stuck with Ret (Ok s) => s | _ => mkKScan cg_default ∅ end.
Lemma sy_stuck_scan : ∃ n, sy_run sy_after sy_stuck = Done n sy_e.
Proof.
  assert (Hd : match sy_run sy_after sy_stuck with Done _ _ => true | _ => false end = true) by (vm_compute; reflexivity).
  unfold sy_e. destruct (sy_run sy_after sy_stuck) as [n e| | |]; [by exists n|done..].
Qed.
Lemma sy_stuck_inflate : into_keychain_scan sy_ho1 sy_e sy_txs sy_stuck = Ret (Ok sy_s).
Proof.
  assert (Hd : match into_keychain_scan sy_ho1 sy_e sy_txs sy_stuck with Ret (Ok _) => true | _ => false end = true)
    by (vm_compute; reflexivity).
  unfold sy_s. by destruct (into_keychain_scan sy_ho1 sy_e sy_txs sy_stuck) as [[s|]|].
Qed.
Lemma sy_stuck_apply :
  cg_apply_update (exho (cg_graph sy_stuck)) sy_stuck (ks_update sy_s) (map_to_list (sc_pos (eu_chain sy_e))) =
  Ret (Err (CgUpdConflict {| uc_confirmed := (Confirmed 5, 7); uc_update := (Confirmed 6, 6) |})).
Proof. vm_compute. reflexivity. Qed.
