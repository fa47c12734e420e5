(** A reorganisation which a wallet's checkpoints do not show (C92). *)
From Verif Require Export RestoreExamples2 RestoreExamples3.

Local Existing Instance ex_env.

(** The second world replaces the last two blocks of the first, and has transaction 43, which was in the first of them, later. *)
Definition hd_l1 : list (Tx * option N) := [(lf23, Some 10); (lf43, Some 112)].
Definition hd_l2 : list (Tx * option N) := [(lf23, Some 10); (lf43, Some 114)].
Definition hd_b2 (h : N) : BlockHash := if h <? 112 then 1000 + h else 2000 + h.
Definition hd_w1 : World := list_world 113 rs_block hd_l1.
Definition hd_w2 : World := list_world 115 hd_b2 hd_l2.
Definition hd_W : Txid → list OutPoint := list_W (hd_l2 ++ []).
Definition hd_Fam (w : World) : Prop := w = hd_w1 ∨ w = hd_w2.
Lemma hd_check1 : list_check hd_W 113 hd_l1 = true. Proof. vm_compute. reflexivity. Qed.
Lemma hd_check2 : list_check hd_W 115 hd_l2 = true. Proof. vm_compute. reflexivity. Qed.
Lemma hd_tx w t a : hd_Fam w → w_tx w t = Some a → txid a = t ∧ a ∈ lf_txs.
Proof.
  assert (∀ (h : option N) l, (a, h) ∈ l → a ∈ l.*1) as Hf by (intros h l Hin; exact (elem_of_list_fmap_1 fst l _ Hin)).
  intros [->| ->] Hx; [apply (list_tx _ _ _ _ hd_check1) in Hx|apply (list_tx _ _ _ _ hd_check2) in Hx];
    destruct Hx as (h & Hin%Hf & Ht); (split; [done|]); revert Hin; cbn; rewrite !elem_of_cons, elem_of_nil; unfold lf_txs; rewrite !elem_of_cons; tauto.
Qed.
Lemma hd_coherent : coherent hd_W hd_Fam.
Proof.
  constructor.
  - intros w [->| ->].
    + split; [exact (list_ok _ _ _ _ hd_check1)|]. split; [exact (list_sane _ _ _ _ hd_check1)|exact (list_txs _ _ _ _ hd_check1)].
    + split; [exact (list_ok _ _ _ _ hd_check2)|]. split; [exact (list_sane _ _ _ _ hd_check2)|exact (list_txs _ _ _ _ hd_check2)].
  - intros v w a b [->| ->] [->| ->] Hab Hv Hw; cbn [hd_w1 hd_w2 list_world w_block w_tip] in *; try done;
      unfold hd_b2, rs_block; intros Hb; repeat case_match; repeat match goal with Hz : (_ <? _) = true |- _ => apply N.ltb_lt in Hz | Hz : (_ <? _) = false |- _ => apply N.ltb_ge in Hz end; lia.
  - intros v w t a b Hv Hw [<- Ha]%hd_tx [Hb1 Hb2]%hd_tx; [|done|done]. by apply lf_same.
Qed.

(** A synchronisation whose result is refused *)
Definition el_refused (w : World) (gap : N) (kspks : gmap N (list (N * Script))) (x : Tracker N TxHeight) : option (CgUpdateError TxHeight) :=
  match scan true (λ _, ScanExamples.honest w) 2 (sc_cps (cg_chain (tr_cg x))) kspks [] [] gap 2 0%nat with
  | Done _ e =>
      let txs := omap (w_tx w) (missing_full_txs e (cg_graph (tr_cg x))) in
      if negb (forallb (λ i, bool_decide (is_Some (w_tx w i))) (missing_full_txs e (cg_graph (tr_cg x)))) then None else
      match into_keychain_scan (exho (inflate_graph (tr_cg x) (eu_chain e) txs)) e txs (tr_cg x) with
      | Ret (Ok sc) =>
          match tr_apply_update (exho (cg_graph (tr_cg x))) x sc (map_to_list (sc_pos (eu_chain e))) with
          | Ret (Err er) => Some er
          | _ => None
          end
      | _ => None
      end
  | _ => None
  end.
Lemma el_refused_ok w gap kspks x er : el_refused w gap kspks x = Some er → ∃ n e sc txs,
  scan true (λ _, ScanExamples.honest w) 2 (sc_cps (cg_chain (tr_cg x))) kspks [] [] gap 2 0%nat = Done n e ∧
  txs = omap (w_tx w) (missing_full_txs e (cg_graph (tr_cg x))) ∧ (∀ i, i ∈ missing_full_txs e (cg_graph (tr_cg x)) → is_Some (w_tx w i)) ∧
  into_keychain_scan (exho (inflate_graph (tr_cg x) (eu_chain e) txs)) e txs (tr_cg x) = Ret (Ok sc) ∧
  tr_apply_update (exho (cg_graph (tr_cg x))) x sc (map_to_list (sc_pos (eu_chain e))) = Ret (Err er).
Proof.
  unfold el_refused. destruct (scan _ _ _ _ _ _ _ _ _ _) as [n e| | |] eqn:Es; [|done..].
  destruct (forallb _ _) eqn:Ef; [|done]. cbn [negb]. rewrite forallb_forall in Ef.
  destruct (into_keychain_scan _ _ _ _) as [[sc|]|] eqn:Ei; [|done..]. destruct (tr_apply_update _ _ _ _) as [[[x1 cs1]|er']|] eqn:Ea; [done| |done].
  intros [= ->]. exists n, e, sc, (omap (w_tx w) (missing_full_txs e (cg_graph (tr_cg x)))). split; [done|]. split; [done|].
  split; [|done]. intros i Hi%elem_of_list_In%Ef. by apply bool_decide_eq_true in Hi.
Qed.
(** The wallet, without a limit on checkpoints, synchronises with the first world, then with the second, asking for nothing, then for its scripts. *)
Lemma hd_obs : new_obs lf_s None (λ x, y ← el_sync hd_w1 2 rs_kspks x; z ← el_sync hd_w2 2 ∅ y; z' ← el_sync hd_w2 2 rs_kspks y;
    Some (two_keychains (tr_index x), two_keychains (tr_index y), two_keychains (tr_index z), sc_pos (cg_chain (tr_cg y)) !! 43, tip_height (cg_chain (tr_cg z)), sc_pos (cg_chain (tr_cg z)) !! 43,
      el_refused hd_w2 2 rs_kspks z, tip_height (cg_chain (tr_cg z')), sc_pos (cg_chain (tr_cg z')) !! 43)) =
  Some (true, true, true, Some (Confirmed 112), Some 115, Some (Confirmed 112), Some (CgUpdChain (TxInconsistent 43 (Confirmed 112) (Confirmed 114))),
    Some 115, Some (Confirmed 114)).
Proof. vm_compute. reflexivity. Qed.
Lemma scripts_none (i : KIndex N) : scripts_of i ∅.
Proof. intros k l Hl. by rewrite lookup_empty in Hl. Qed.
Lemma hd_hidden : good_env exA ∧ coherent hd_W hd_Fam ∧ ki_hist_ok exA lf_s ∧ Forall (λ op, ∀ l, op ≠ KiScan l) lf_s ∧
  electrum_honest hd_w2 (ScanExamples.honest hd_w2) ∧ w_tip hd_w2 = 115 ∧ w_position hd_w2 43 = Confirmed 114 ∧
  ∃ (x : Tracker N TxHeight) n e sc txs, life exA hd_W hd_Fam higher (λ _ _, True) electrum_syncs lf_s None hd_w2 x ∧ scripts_of (tr_index x) rs_kspks ∧
  tip_height (cg_chain (tr_cg x)) = Some 115 ∧ sc_pos (cg_chain (tr_cg x)) !! 43 = Some (Confirmed 112) ∧
  scan true (λ _, ScanExamples.honest hd_w2) 2 (sc_cps (cg_chain (tr_cg x))) rs_kspks [] [] 2 2 0%nat = Done n e ∧
  txs = omap (w_tx hd_w2) (missing_full_txs e (cg_graph (tr_cg x))) ∧ (∀ i, i ∈ missing_full_txs e (cg_graph (tr_cg x)) → is_Some (w_tx hd_w2 i)) ∧
  into_keychain_scan (exho (inflate_graph (tr_cg x) (eu_chain e) txs)) e txs (tr_cg x) = Ret (Ok sc) ∧
  tr_apply_update (exho (cg_graph (tr_cg x))) x sc (map_to_list (sc_pos (eu_chain e))) =
    Ret (Err (CgUpdChain (TxInconsistent 43 (Confirmed 112) (Confirmed 114)))).
Proof.
  split; [exact exA_good|]. split; [exact hd_coherent|]. split; [exact lf_s_ok|]. split; [exact lf_quiet|].
  split; [exact (list_honest _ _ _ _ hd_check2)|]. split; [reflexivity|]. split; [vm_compute; reflexivity|].
  destruct (new_obs_Some _ _ _ _ hd_obs) as (x0 & E0 & Hx). destruct (el_sync hd_w1 2 rs_kspks x0) as [y|] eqn:E1; [|done].
  cbn [mbind option_bind] in Hx. destruct (el_sync hd_w2 2 ∅ y) as [z|] eqn:E2; [|done].
  cbn [mbind option_bind] in Hx. destruct (el_sync hd_w2 2 rs_kspks y) as [z'|] eqn:E3; [|done]. cbn [mbind option_bind] in Hx.
  apply Some_inj, pair_equal_spec in Hx as [Hx _]. apply pair_equal_spec in Hx as [Hx _]. apply pair_equal_spec in Hx as [Hx Hr].
  apply pair_equal_spec in Hx as [Hx Hz]. apply pair_equal_spec in Hx as [Hx Ht]. apply pair_equal_spec in Hx as [Hx _].
  apply pair_equal_spec in Hx as [Hx K2]. apply pair_equal_spec in Hx as [K0 K1].
  destruct (el_refused_ok _ _ _ _ _ Hr) as (n & e & sc & txs & Hrest). exists z, n, e, sc, txs.
  split; [|split; [exact (rs_scripts _ K2)|exact (conj Ht (conj Hz Hrest))]].
  eapply life_sync; [eapply (life_world _ _ _ _ _ _ _ _ hd_w1); [eapply life_sync; [eapply life_new; [by left|exact E0]|done|]|by right|by vm_compute]|done|].
  - exists 2, rs_kspks. split; [exact (rs_scripts _ K0)|]. apply el_sync_ok; [exact (list_ok _ _ _ _ hd_check1)|exact (list_honest _ _ _ _ hd_check1)|exact E1].
  - exists 2, ∅. split; [apply scripts_none|]. apply el_sync_ok; [exact (list_ok _ _ _ _ hd_check2)|exact (list_honest _ _ _ _ hd_check2)|exact E2].
Qed.

(** ** Asking for the scripts at once *)
Lemma hd_heights1 t h : w_height hd_w1 t = Some h → t = 23 ∧ h = 10 ∨ t = 43 ∧ h = 112.
Proof.
  cbn [hd_w1 list_world w_height]. destruct (w_find hd_l1 t) as [[x o]|] eqn:E; [|done]. intros ->. apply find_some in E as [Hin Ht%N.eqb_eq].
  cbn in Hin, Ht. destruct Hin as [[= <- <-]|[[= <- <-]|[]]]; cbn in Ht; subst t; tauto.
Qed.
Lemma hd_heights2 t h : w_height hd_w2 t = Some h → t = 23 ∧ h = 10 ∨ t = 43 ∧ h = 114.
Proof.
  cbn [hd_w2 list_world w_height]. destruct (w_find hd_l2 t) as [[x o]|] eqn:E; [|done]. intros ->. apply find_some in E as [Hin Ht%N.eqb_eq].
  cbn in Hin, Ht. destruct Hin as [[= <- <-]|[[= <- <-]|[]]]; cbn in Ht; subst t; tauto.
Qed.
Lemma hd_commit : blocks_commit w_position hd_Fam.
Proof.
  intros v w t h [->| ->] [->| ->] Hh Hle Hb; [done| | |done].
  - apply hd_heights1 in Hh as [[-> ->]|[-> ->]]; [by vm_compute|]. by vm_compute in Hb.
  - apply hd_heights2 in Hh as [[-> ->]|[-> ->]]; [by vm_compute|]. by vm_compute in Hle.
Qed.
Lemma hd_commit_times : blocks_commit lf_tpos hd_Fam.
Proof.
  intros v w t h [->| ->] [->| ->] Hh Hle Hb; [done| | |done].
  - apply hd_heights1 in Hh as [[-> ->]|[-> ->]]; [by vm_compute|]. by vm_compute in Hb.
  - apply hd_heights2 in Hh as [[-> ->]|[-> ->]]; [by vm_compute|]. by vm_compute in Hle.
Qed.
Definition seen_check {P} `{ChainPosition P} (wpos : World → Txid → P) (l : list Txid) (w : World) (x : Tracker N P) : bool :=
  forallb (λ tp, match pos_height tp.2 with
    | Confirmed h => bool_decide (tp.2 = wpos w tp.1) || existsb (λ kb, (kb.1 <=? h) && negb (kb.2 =? w_block w kb.1)) (bmap_list (sc_cps (cg_chain (tr_cg x)))) ||
        bool_decide (tp.1 ∈ l)
    | Unconfirmed => true end) (bmap_list (sc_pos (cg_chain (tr_cg x)))).
Lemma seen_check_ok {P} `{ChainPosition P} (wpos : World → Txid → P) l w (found : Txid → Prop) x :
  seen_check wpos l w x = true → (∀ t, t ∈ l → found t) → seen_again wpos w found x.
Proof.
  unfold seen_check. rewrite forallb_forall. intros Hc Hl t p h Hp%elem_of_bmap_list%elem_of_list_In%Hc Eh. cbn [fst snd] in Hp. rewrite Eh in Hp.
  apply orb_prop in Hp as [Hp|Hp%bool_decide_eq_true]; [|right; right; by apply Hl].
  apply orb_prop in Hp as [?%bool_decide_eq_true|Hp]; [by left|right; left].
  apply existsb_exists in Hp as ([k b] & Hin%elem_of_list_In%elem_of_bmap_list & Hb). apply andb_prop in Hb as [?%N.leb_le ?%negb_true_iff%N.eqb_neq].
  exists k, b. done.
Qed.
(** Transaction 43 pays the first script of keychain 0. *)
Lemma hd_sought : sought hd_w2 rs_kspks [] [] 2 43 ∧ stop_sought hd_w2 rs_kspks [] [] 2 43.
Proof.
  assert (activity hd_w2 (ex_list 1 12) !! 0%nat = Some true) as Ha by (vm_compute; reflexivity).
  assert (43 ∈ w_history hd_w2 (exs 1 0)) as Hh by (apply elem_of_list_In; vm_compute; tauto).
  split; left; exists 0, (ex_list 1 12), 0%nat, 0, (exs 1 0); (split; [reflexivity|]); (split; [reflexivity|]); (split; [|exact Hh]); (split; [exact Ha|]);
    intros (s & Hs & _); lia.
Qed.
Lemma hd_seen_obs : new_obs lf_s None (λ x, y ← el_sync hd_w1 2 rs_kspks x; z ← el_sync hd_w2 2 rs_kspks y;
    Some (two_keychains (tr_index x), two_keychains (tr_index y), window_check rs_kspks (tr_index x), seen_check w_position [] hd_w1 x, seen_check w_position [43] hd_w2 y,
      bmap_list (sc_cps (cg_chain (tr_cg y))), sc_pos (cg_chain (tr_cg y)) !! 43, sc_pos (cg_chain (tr_cg z)) !! 43, rs_show y, rs_show z)) =
  Some (true, true, true, true, true, [(113, 1113)], Some (Confirmed 112), Some (Confirmed 114), (Some 113, [(0, 0, (43, 0), 500, None); (0, 4, (43, 1), 900, None)], Ret (mkBalance 0 0 0 1400)),
    (Some 115, [(0, 0, (43, 0), 500, None); (0, 4, (43, 1), 900, None)], Ret (mkBalance 0 0 0 1400))).
Proof. vm_compute. reflexivity. Qed.
Lemma hd_apart : list_apart hd_l1 && list_apart hd_l2 = true. Proof. vm_compute. reflexivity. Qed.
Lemma hd_server : esplora_honest hd_w1 (lf_time hd_w1) (esplora hd_w1 (lf_time hd_w1) (list_ids hd_l1)) ∧
  esplora_honest hd_w2 (lf_time hd_w2) (esplora hd_w2 (lf_time hd_w2) (list_ids hd_l2)).
Proof.
  pose proof hd_apart as [H1 H2]%andb_prop. split; [exact (list_esplora _ _ _ _ _ hd_check1 H1)|exact (list_esplora _ _ _ _ _ hd_check2 H2)].
Qed.
Lemma hd_pages : (∀ sp, (length (w_mempool hd_w1 sp) ≤ 50)%nat ∧ (length (w_confirmed hd_w1 sp) < 25 * 1)%nat) ∧
  (∀ sp, (length (w_mempool hd_w2 sp) ≤ 50)%nat ∧ (length (w_confirmed hd_w2 sp) < 25 * 1)%nat).
Proof. split; intros sp; apply list_pages; cbn; lia. Qed.
Lemma hd_times_obs : new_obs lf_s None (λ x, y ← lf_es hd_w1 hd_l1 x; z ← lf_es hd_w2 hd_l2 y;
    Some (two_keychains (tr_index x), two_keychains (tr_index y), window_check rs_kspks (tr_index x), seen_check lf_tpos [] hd_w1 x, seen_check lf_tpos [43] hd_w2 y,
      bmap_list (sc_cps (cg_chain (tr_cg y))), sc_pos (cg_chain (tr_cg y)) !! 43, sc_pos (cg_chain (tr_cg z)) !! 43, rs_show y, rs_show z)) =
  Some (true, true, true, true, true, [(113, 1113)], Some (CtConfirmed 112 68312), Some (CtConfirmed 114 70514), (Some 113, [(0, 0, (43, 0), 500, None); (0, 4, (43, 1), 900, None)], Ret (mkBalance 0 0 0 1400)),
    (Some 115, [(0, 0, (43, 0), 500, None); (0, 4, (43, 1), 900, None)], Ret (mkBalance 0 0 0 1400))).
Proof. vm_compute. reflexivity. Qed.
Lemma es_seen_ok (time : World → N → N) w ids gap par kspks (x x' : Tracker N ConfirmationTime) :
  esplora_honest w (time w) (esplora w (time w) ids) → scripts_of (tr_index x) kspks →
  (∀ sp, (length (w_mempool w sp) ≤ 50)%nat ∧ (length (w_confirmed w sp) < 25 * 1)%nat) →
  seen_again (λ w, w_time_position w (time w)) w (stop_sought w kspks [] [] gap) x →
  es_sync w (time w) ids gap par kspks x = Some x' → esplora_seen time w x x'.
Proof.
  intros Hs Hsp Hl Hseen E. unfold es_sync in E. destruct (ps_scan _ _ _ _ _ _ _ _ _ _) as [n sc| | |] eqn:Es; [|done..].
  destruct (tr_apply_update _ _ _ _) as [[[y cs]|]|] eqn:Ea; [|done..]. injection E as ->.
  exists (λ _, esplora w (time w) ids), exho, 1%nat, kspks, [], [], gap, par, 0%nat, n, sc, exho, (map_to_list (sc_pos (cg_chain (ks_update sc)))), cs.
  split; [done|]. split; [done|]. split; [apply exho_ok|]. split; [done|]. split; [intros k l i sp _ _; destruct (Hl sp); split; [done|lia]|]. split; [done|]. split; [apply exho_ok|]. done.
Qed.
Lemma el_seen_ok w gap kspks (x x' : Tracker N TxHeight) : world_ok w → electrum_honest w (ScanExamples.honest w) → scripts_of (tr_index x) kspks →
  seen_again w_position w (sought w kspks [] [] gap) x → el_sync w gap kspks x = Some x' → electrum_seen w x x'.
Proof.
  intros Hw Hh Hsp Hseen Hs. apply fmap_Some in Hs as ([y cs] & Hs & ->). exists gap, kspks, [], []. split; [done|]. split; [done|]. by eapply el_asks_ok.
Qed.
Lemma hd_hides {P} `{ChainPosition P} (wpos : World → Txid → P) w t p h h' b (x : Tracker N P) : sc_pos (cg_chain (tr_cg x)) !! t = Some p → pos_height p = Confirmed h →
  p ≠ wpos w t → bmap_list (sc_cps (cg_chain (tr_cg x))) = [(h', b)] → h < h' → ¬ no_hidden_reorg wpos w x.
Proof.
  intros Hp Hh Hne Hl Hlt Hn. destruct (Hn t p h Hp Hh) as [->|(k & c & Hk & Hc & _)]; [done|].
  apply elem_of_bmap_list in Hc. rewrite Hl in Hc. apply elem_of_list_singleton in Hc as [= -> ->]. lia.
Qed.
