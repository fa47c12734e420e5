(** A wallet's life through two reorganisations (C92). *)
From Verif Require Export RestoreProofs6 RestoreExamples.

Local Existing Instance ex_env.

Definition hidden_check (w : World) (x : Tracker N TxHeight) : bool :=
  forallb (λ tp, match tp.2 with
    | Confirmed h => bool_decide (Confirmed h = w_position w tp.1) ||
        existsb (λ kb, (kb.1 <=? h) && negb (kb.2 =? w_block w kb.1)) (bmap_list (sc_cps (cg_chain (tr_cg x))))
    | Unconfirmed => true end) (bmap_list (sc_pos (cg_chain (tr_cg x)))).
Lemma hidden_check_ok w x : hidden_check w x = true → no_hidden_reorg w_position w x.
Proof.
  unfold hidden_check. rewrite forallb_forall. intros Hc t p h Hp%elem_of_bmap_list%elem_of_list_In%Hc Eh. cbn in Eh. subst p. cbn [fst snd] in Hp.
  apply orb_prop in Hp as [?%bool_decide_eq_true|Hp]; [by left|right].
  apply existsb_exists in Hp as ([k b] & Hin%elem_of_list_In%elem_of_bmap_list & Hb). apply andb_prop in Hb as [?%N.leb_le ?%negb_true_iff%N.eqb_neq].
  exists k, b. done.
Qed.
Definition window_check (kspks : gmap N (list (N * Script))) (i : KIndex N) : bool :=
  forallb (λ kl, forallb (λ js, bool_decide (is_Some (si_index_of_spk (ki_inner i) js.2))) kl.2) (map_to_list kspks).
Lemma window_check_ok kspks (x0 x : Tracker N TxHeight) w gap k i u :
  window_check kspks (tr_index x0) = true → scripts_of (tr_index x) kspks → within w gap kspks k i → paid (tr_index x) k i u →
  is_Some (si_index_of_spk (ki_inner (tr_index x0)) (txo_spk u)).
Proof.
  unfold window_check. rewrite forallb_forall. intros Hc Hsp (l & Hk & p & sp & Hp & _) Hpd.
  rewrite <- (scripts_paid _ _ _ _ _ _ _ _ Hsp Hk Hp Hpd). apply elem_of_map_to_list, elem_of_list_In, Hc in Hk. cbn [snd] in Hk.
  rewrite forallb_forall in Hk. apply elem_of_list_lookup_2, elem_of_list_In, Hk in Hp. by apply bool_decide_eq_true in Hp.
Qed.

(** Transaction 46 is at the tip of the first world; the second world has another block there, and 46 later.
    The wallet spends output 0 of 43 with 45.  The third world replaces the last block again and has 45. *)
Definition lf23 : Tx := mkTx 23 [null_outpoint] [mkTxOut 1400 9; mkTxOut 60 9; mkTxOut 35 9] 0.
Definition lf43 : Tx := mkTx 43 [mkOutPoint 23 0] [mkTxOut 500 (exs 1 0); mkTxOut 900 (exs 1 4)] 0.
Definition lf46 : Tx := mkTx 46 [mkOutPoint 23 2] [mkTxOut 35 (exs 1 1)] 0.
Definition lf44 : Tx := mkTx 44 [mkOutPoint 23 1] [mkTxOut 60 (exs 1 2)] 0.
Definition lf45 : Tx := mkTx 45 [mkOutPoint 43 0] [mkTxOut 300 7; mkTxOut 190 (exs 3 0)] 0.
Definition lf_l1 : list (Tx * option N) := [(lf23, Some 10); (lf43, Some 112); (lf46, Some 113)].
Definition lf_l2 : list (Tx * option N) := [(lf23, Some 10); (lf43, Some 112); (lf46, Some 116); (lf44, Some 119)].
Definition lf_l3 : list (Tx * option N) := [(lf23, Some 10); (lf43, Some 112); (lf46, Some 116); (lf44, None); (lf45, Some 121)].
Definition lf_W : Txid → list OutPoint := list_W (lf_l3 ++ []).
Definition lf_b2 (h : N) : BlockHash := if h <? 113 then 1000 + h else 2000 + h.
Definition lf_b3 (h : N) : BlockHash := if h <? 119 then lf_b2 h else 3000 + h.
Definition lf_w1 : World := list_world 113 rs_block lf_l1.
Definition lf_w2 : World := list_world 119 lf_b2 lf_l2.
Definition lf_w3 : World := list_world 122 lf_b3 lf_l3.
Lemma lf_check1 : list_check lf_W 113 lf_l1 = true. Proof. vm_compute. reflexivity. Qed.
Lemma lf_check2 : list_check lf_W 119 lf_l2 = true. Proof. vm_compute. reflexivity. Qed.
Lemma lf_check3 : list_check lf_W 122 lf_l3 = true. Proof. vm_compute. reflexivity. Qed.
Definition lf_Fam (w : World) : Prop := w = lf_w1 ∨ w = lf_w2 ∨ w = lf_w3.
Definition lf_txs : list Tx := [lf23; lf43; lf46; lf44; lf45].
Lemma lf_tx w t a : lf_Fam w → w_tx w t = Some a → txid a = t ∧ a ∈ lf_txs.
Proof.
  assert (∀ (h : option N) l, (a, h) ∈ l → a ∈ l.*1) as Hf by (intros h l Hin; exact (elem_of_list_fmap_1 fst l _ Hin)).
  intros [->|[->| ->]] Hx; [apply (list_tx _ _ _ _ lf_check1) in Hx|apply (list_tx _ _ _ _ lf_check2) in Hx|apply (list_tx _ _ _ _ lf_check3) in Hx];
    destruct Hx as (h & Hin%Hf & Ht); (split; [done|]); revert Hin; cbn; rewrite !elem_of_cons, elem_of_nil; unfold lf_txs; rewrite !elem_of_cons; tauto.
Qed.
Lemma lf_same a b : a ∈ lf_txs → b ∈ lf_txs → txid a = txid b → a = b.
Proof.
  unfold lf_txs. rewrite !elem_of_cons, !elem_of_nil. intros Ha Hb.
  destruct Ha as [->|[->|[->|[->|[->|[]]]]]]; destruct Hb as [->|[->|[->|[->|[->|[]]]]]]; first [reflexivity|discriminate].
Qed.
Lemma lf_coherent : coherent lf_W lf_Fam.
Proof.
  constructor.
  - intros w [->|[->| ->]].
    + split; [exact (list_ok _ _ _ _ lf_check1)|]. split; [exact (list_sane _ _ _ _ lf_check1)|exact (list_txs _ _ _ _ lf_check1)].
    + split; [exact (list_ok _ _ _ _ lf_check2)|]. split; [exact (list_sane _ _ _ _ lf_check2)|exact (list_txs _ _ _ _ lf_check2)].
    + split; [exact (list_ok _ _ _ _ lf_check3)|]. split; [exact (list_sane _ _ _ _ lf_check3)|exact (list_txs _ _ _ _ lf_check3)].
  - intros v w a b [->|[->| ->]] [->|[->| ->]] Hab Hv Hw; cbn [lf_w1 lf_w2 lf_w3 list_world w_block w_tip] in *; try done;
      unfold lf_b3, lf_b2, rs_block; intros Hb; repeat case_match; repeat match goal with Hz : (_ <? _) = true |- _ => apply N.ltb_lt in Hz | Hz : (_ <? _) = false |- _ => apply N.ltb_ge in Hz end; lia.
  - intros v w t a b Hv Hw [<- Ha]%lf_tx [Hb1 Hb2]%lf_tx; [|done|done]. by apply lf_same.
Qed.

(** The wallet: lookahead 12, so that all scripts it scans are watched. *)
Definition lf_s : list (ki_op N) := [KiAdd 0 1; KiAdd 1 3; KiLookAll 12].
Lemma lf_s_ok : ki_hist_ok exA lf_s.
Proof. apply ops_ok_nil. cbn [ops_ok lf_s app ki_op_ok]. cbn [exA]. check_ops. Qed.
Definition lf_calls (x : Tracker N TxHeight) : option (Tracker N TxHeight) :=
  match tr_step x (TrIndex (KiNext 1)) with
  | Ret (y, _) => match tr_step y (TrTx exho lf45 Unconfirmed) with Ret (z, _) => Some (tr_set_checkpoint_limit z (Some 5%nat)) | _ => None end
  | _ => None
  end.
Lemma lf_obs : new_obs lf_s (Some 7%nat) (λ x, y1 ← el_sync lf_w1 2 rs_kspks x; y2 ← el_sync lf_w2 2 rs_kspks y1; y3 ← lf_calls y2; z ← el_sync lf_w3 2 rs_kspks y3;
    Some (two_keychains (tr_index x), two_keychains (tr_index y1), two_keychains (tr_index y3), window_check rs_kspks (tr_index x),
      hidden_check lf_w1 x, hidden_check lf_w2 y1, hidden_check lf_w3 y3, rs_show y3, rs_show z)) =
  Some (true, true, true, true, true, true, true,
    (Some 119, [(0, 0, (43, 0), 500, Some 45); (0, 4, (43, 1), 900, None); (0, 2, (44, 0), 60, None); (1, 0, (45, 1), 190, None); (0, 1, (46, 0), 35, None)],
      Ret (mkBalance 0 190 0 995)),
    (Some 122, [(0, 0, (43, 0), 500, Some 45); (0, 4, (43, 1), 900, None); (0, 2, (44, 0), 60, None); (1, 0, (45, 1), 190, None); (0, 1, (46, 0), 35, None)],
      Ret (mkBalance 0 0 60 1125))).
Proof. vm_compute. reflexivity. Qed.
Lemma lf_quiet : Forall (λ op, ∀ l, op ≠ KiScan l) lf_s.
Proof. repeat (constructor; [by intros|]). constructor. Qed.
Lemma lf_life x y1 y2 y3 : tr_setup lf_s (Some 7%nat) = Ret x → two_keychains (tr_index x) = true → two_keychains (tr_index y1) = true →
  hidden_check lf_w1 x = true → hidden_check lf_w2 y1 = true →
  el_sync lf_w1 2 rs_kspks x = Some y1 → el_sync lf_w2 2 rs_kspks y1 = Some y2 → lf_calls y2 = Some y3 →
  life exA lf_W lf_Fam higher (no_hidden_reorg w_position) electrum_syncs lf_s (Some 7%nat) lf_w3 y3.
Proof.
  intros Ex K0 K1 H0 H1 E1 E2 E3. unfold lf_calls in E3. destruct (tr_step y2 (TrIndex (KiNext 1))) as [[a la]|] eqn:Ea; [|done].
  destruct (tr_step a (TrTx exho lf45 Unconfirmed)) as [[b lb]|] eqn:Eb; [|done]. injection E3 as <-.
  eapply (life_world _ _ _ _ _ _ _ _ lf_w2); [|right; by right|by vm_compute].
  eapply (life_call _ _ _ _ _ _ _ _ _ _ (TrLimit (Some 5%nat))); [eapply (life_call _ _ _ _ _ _ _ _ _ _ (TrTx exho lf45 Unconfirmed)); [eapply (life_call _ _ _ _ _ _ _ _ _ _ (TrIndex (KiNext 1))); [eapply life_sync; [eapply (life_world _ _ _ _ _ _ _ _ lf_w1); [eapply life_sync; [eapply life_new; [by left|exact Ex]|..]|..]|..]|..]|..]|..].
  - by apply hidden_check_ok.
  - exists 2, rs_kspks. split; [by apply rs_scripts|]. apply el_sync_ok; [exact (list_ok _ _ _ _ lf_check1)|exact (list_honest _ _ _ _ lf_check1)|exact E1].
  - right. by left.
  - by vm_compute.
  - by apply hidden_check_ok.
  - exists 2, rs_kspks. split; [by apply rs_scripts|]. apply el_sync_ok; [exact (list_ok _ _ _ _ lf_check2)|exact (list_honest _ _ _ _ lf_check2)|exact E2].
  - by intros l.
  - split; [exact I|]. cbn [ki_op_ok]. check_ops.
  - exact Ea.
  - split; [done|]. intros w c Hw [Hc1 Hc2]%lf_tx; [|done]. apply lf_same; [done| |done]. unfold lf_txs. rewrite !elem_of_cons. tauto.
  - split; [apply exho_ok|]. split; [|split; [done|reflexivity]]. split; [vm_compute; discriminate|]. cbn [tx_out lf45 length]. assert (2 ≤ u32_max) by (by vm_compute). lia.
  - exact Eb.
  - done.
  - done.
  - reflexivity.
Qed.

(** A world that grows *)
Definition gr_Fam (w : World) : Prop := w = ni_w1 ∨ w = ni_w.
Lemma gr_extends : extends w_position ni_w1 ni_w.
Proof. split; [by vm_compute|]. split; [done|]. intros t h Hh. unfold w_position. by rewrite Hh, (ni_heights t h Hh). Qed.
Lemma gr_coherent : coherent (list_W ni_l) gr_Fam.
Proof.
  constructor.
  - intros w [->| ->].
    + split; [exact (list_ok _ _ _ _ ni_check1)|]. split; [exact (list_sane _ _ _ _ ni_check1)|exact (list_txs _ _ _ _ ni_check1)].
    + split; [exact (list_ok _ _ _ _ ni_check)|]. split; [exact (list_sane _ _ _ _ ni_check)|exact (list_txs _ _ _ _ ni_check)].
  - by intros v w a b [->| ->] [->| ->].
  - intros v w t a b Hv Hw Ha Hb. assert (w_tx ni_w t = Some a) as Ha' by (destruct Hv as [->| ->]; [by apply ni_txs|done]).
    assert (w_tx ni_w t = Some b) as Hb' by (destruct Hw as [->| ->]; [by apply ni_txs|done]). congruence.
Qed.
Lemma gr_obs : new_obs lf_s (Some 1%nat) (λ x, y ← el_sync ni_w1 2 rs_kspks x; z ← el_sync ni_w 2 rs_kspks y;
    Some (two_keychains (tr_index x), two_keychains (tr_index y), window_check rs_kspks (tr_index x), rs_show z)) =
  Some (true, true, true, (Some 120, [(0, 0, (43, 0), 500, None); (0, 4, (43, 1), 900, None); (0, 2, (44, 0), 60, None)], Ret (mkBalance 0 0 0 1460))).
Proof. vm_compute. reflexivity. Qed.
