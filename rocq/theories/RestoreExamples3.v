(** A wallet's life with an esplora server (C92). *)
From Verif Require Export RestoreExamples2 CliEsploraExamples.

Local Existing Instance ex_env.

Lemma es_sync_ok (time : World → N → N) w ids gap par kspks (x x' : Tracker N ConfirmationTime) :
  esplora_honest w (time w) (esplora w (time w) ids) → scripts_of (tr_index x) kspks →
  (∀ sp, (length (w_mempool w sp) ≤ 50)%nat ∧ (length (w_confirmed w sp) < 25 * 1)%nat) →
  es_sync w (time w) ids gap par kspks x = Some x' → esplora_syncs time w x x'.
Proof.
  intros Hs Hsp Hl E. unfold es_sync in E. destruct (ps_scan _ _ _ _ _ _ _ _ _ _) as [n sc| | |] eqn:Es; [|done..].
  destruct (tr_apply_update _ _ _ _) as [[[y cs]|]|] eqn:Ea; [|done..]. injection E as ->.
  exists (λ _, esplora w (time w) ids), exho, 1%nat, kspks, [], [], gap, par, 0%nat, n, sc, exho, (map_to_list (sc_pos (cg_chain (ks_update sc)))), cs.
  split; [done|]. split; [apply exho_ok|]. split; [done|]. split; [intros k l i sp _ _; destruct (Hl sp); split; [done|lia]|]. split; [done|]. split; [apply exho_ok|]. done.
Qed.

(** The time of a block depends on its hash. *)
Definition lf_time (w : World) (h : N) : N := (600 * h + w_block w h) `mod` 4294967296.
Lemma lf_time_ok w h : lf_time w h ≤ u64_max.
Proof. unfold lf_time. apply N.le_trans with 4294967296; [|done]. apply N.lt_le_incl, N.mod_lt. done. Qed.
Definition lf_tpos (w : World) : Txid → ConfirmationTime := w_time_position w (lf_time w).
Definition lf_es (w : World) (l : list (Tx * option N)) (x : Tracker N ConfirmationTime) := es_sync w (lf_time w) (list_ids l) 2 2 rs_kspks x.
Lemma lf_apart : list_apart lf_l1 && list_apart lf_l2 && list_apart lf_l3 = true. Proof. vm_compute. reflexivity. Qed.
Lemma lf_server : esplora_honest lf_w1 (lf_time lf_w1) (esplora lf_w1 (lf_time lf_w1) (list_ids lf_l1)) ∧
  esplora_honest lf_w2 (lf_time lf_w2) (esplora lf_w2 (lf_time lf_w2) (list_ids lf_l2)) ∧ esplora_honest lf_w3 (lf_time lf_w3) (esplora lf_w3 (lf_time lf_w3) (list_ids lf_l3)).
Proof.
  pose proof lf_apart as [[H1 H2]%andb_prop H3]%andb_prop.
  split; [exact (list_esplora _ _ _ _ _ lf_check1 H1)|]. split; [exact (list_esplora _ _ _ _ _ lf_check2 H2)|exact (list_esplora _ _ _ _ _ lf_check3 H3)].
Qed.
Lemma lf_pages : (∀ sp, (length (w_mempool lf_w1 sp) ≤ 50)%nat ∧ (length (w_confirmed lf_w1 sp) < 25 * 1)%nat) ∧
  (∀ sp, (length (w_mempool lf_w2 sp) ≤ 50)%nat ∧ (length (w_confirmed lf_w2 sp) < 25 * 1)%nat) ∧
  (∀ sp, (length (w_mempool lf_w3 sp) ≤ 50)%nat ∧ (length (w_confirmed lf_w3 sp) < 25 * 1)%nat).
Proof. split_and!; intros sp; apply list_pages; cbn; lia. Qed.
Definition hidden_times (w : World) (x : Tracker N ConfirmationTime) : bool :=
  forallb (λ tp, match tp.2 with
    | CtConfirmed h _ => bool_decide (tp.2 = lf_tpos w tp.1) ||
        existsb (λ kb, (kb.1 <=? h) && negb (kb.2 =? w_block w kb.1)) (bmap_list (sc_cps (cg_chain (tr_cg x))))
    | _ => true end) (bmap_list (sc_pos (cg_chain (tr_cg x)))).
Lemma hidden_times_ok w x : hidden_times w x = true → no_hidden_reorg lf_tpos w x.
Proof.
  unfold hidden_times. rewrite forallb_forall. intros Hc t p h Hp%elem_of_bmap_list%elem_of_list_In%Hc Eh. cbn [fst snd] in Hp.
  destruct p as [h' tm|]; [|done]. injection Eh as ->.
  apply orb_prop in Hp as [?%bool_decide_eq_true|Hp]; [by left|right].
  apply existsb_exists in Hp as ([k b] & Hin%elem_of_list_In%elem_of_bmap_list & Hb). apply andb_prop in Hb as [?%N.leb_le ?%negb_true_iff%N.eqb_neq].
  exists k, b. done.
Qed.
Lemma window_times_ok kspks (x0 x : Tracker N ConfirmationTime) w gap par k i u :
  window_check kspks (tr_index x0) = true → scripts_of (tr_index x) kspks → stop_reach w gap par kspks k i → paid (tr_index x) k i u →
  is_Some (si_index_of_spk (ki_inner (tr_index x0)) (txo_spk u)).
Proof.
  unfold window_check. rewrite forallb_forall. intros Hc Hsp (l & p & sp & Hk & Hp & _) Hpd.
  rewrite <- (scripts_paid _ _ _ _ _ _ _ _ Hsp Hk Hp Hpd). apply elem_of_map_to_list, elem_of_list_In, Hc in Hk. cbn [snd] in Hk.
  rewrite forallb_forall in Hk. apply elem_of_list_lookup_2, elem_of_list_In, Hk in Hp. by apply bool_decide_eq_true in Hp.
Qed.
Definition lt_calls (x : Tracker N ConfirmationTime) : option (Tracker N ConfirmationTime) :=
  match tr_step x (TrIndex (KiNext 1)) with
  | Ret (y, _) => match tr_step y (TrTx exho lf45 CtUnconfirmed) with Ret (z, _) => Some (tr_set_checkpoint_limit z (Some 5%nat)) | _ => None end
  | _ => None
  end.
Lemma lt_obs : new_obs lf_s (Some 7%nat) (λ x, y1 ← lf_es lf_w1 lf_l1 x; y2 ← lf_es lf_w2 lf_l2 y1; y3 ← lt_calls y2; z ← lf_es lf_w3 lf_l3 y3;
    Some (two_keychains (tr_index x), two_keychains (tr_index y1), two_keychains (tr_index y3), window_check rs_kspks (tr_index x),
      hidden_times lf_w1 x, hidden_times lf_w2 y1, hidden_times lf_w3 y3, rs_show y3, rs_show z)) =
  Some (true, true, true, true, true, true, true,
    (Some 119, [(0, 0, (43, 0), 500, Some 45); (0, 4, (43, 1), 900, None); (0, 2, (44, 0), 60, None); (1, 0, (45, 1), 190, None); (0, 1, (46, 0), 35, None)],
      Ret (mkBalance 0 190 0 995)),
    (Some 122, [(0, 0, (43, 0), 500, Some 45); (0, 4, (43, 1), 900, None); (0, 2, (44, 0), 60, None); (1, 0, (45, 1), 190, None); (0, 1, (46, 0), 35, None)],
      Ret (mkBalance 0 0 60 1125))).
Proof. vm_compute. reflexivity. Qed.
Lemma lt_life x y1 y2 y3 : tr_setup lf_s (Some 7%nat) = Ret x → two_keychains (tr_index x) = true → two_keychains (tr_index y1) = true →
  hidden_times lf_w1 x = true → hidden_times lf_w2 y1 = true →
  lf_es lf_w1 lf_l1 x = Some y1 → lf_es lf_w2 lf_l2 y1 = Some y2 → lt_calls y2 = Some y3 →
  life exA lf_W lf_Fam higher (no_hidden_reorg lf_tpos) (esplora_syncs lf_time) lf_s (Some 7%nat) lf_w3 y3.
Proof.
  intros Ex K0 K1 H0 H1 E1 E2 E3. unfold lt_calls in E3. destruct (tr_step y2 (TrIndex (KiNext 1))) as [[a la]|] eqn:Ea; [|done].
  destruct (tr_step a (TrTx exho lf45 CtUnconfirmed)) as [[b lb]|] eqn:Eb; [|done]. injection E3 as <-. destruct lf_server as (S1 & S2 & _). destruct lf_pages as (L1 & L2 & _).
  eapply (life_world _ _ _ _ _ _ _ _ lf_w2); [|right; by right|by vm_compute].
  eapply (life_call _ _ _ _ _ _ _ _ _ _ (TrLimit (Some 5%nat))); [eapply (life_call _ _ _ _ _ _ _ _ _ _ (TrTx exho lf45 CtUnconfirmed)); [eapply (life_call _ _ _ _ _ _ _ _ _ _ (TrIndex (KiNext 1))); [eapply life_sync; [eapply (life_world _ _ _ _ _ _ _ _ lf_w1); [eapply life_sync; [eapply life_new; [by left|exact Ex]|..]|..]|..]|..]|..]|..].
  - by apply hidden_times_ok.
  - exact (es_sync_ok lf_time lf_w1 (list_ids lf_l1) 2 2 rs_kspks x y1 S1 (rs_scripts _ K0) L1 E1).
  - right. by left.
  - by vm_compute.
  - by apply hidden_times_ok.
  - exact (es_sync_ok lf_time lf_w2 (list_ids lf_l2) 2 2 rs_kspks y1 y2 S2 (rs_scripts _ K1) L2 E2).
  - by intros l.
  - split; [exact I|]. cbn [ki_op_ok]. check_ops.
  - exact Ea.
  - split; [done|]. intros w c Hw [Hc1 Hc2]%lf_tx; [|done]. apply lf_same; [done| |done]. unfold lf_txs. rewrite !elem_of_cons. tauto.
  - split; [apply exho_ok|]. split; [|split; [done|reflexivity]]. split; [vm_compute; discriminate|]. cbn [tx_out lf45 length]. assert (2 ≤ u32_max) by (by vm_compute). lia.
  - exact Eb.
  - done.
  - done.
  - reflexivity.
Qed.

(** A world that grows *)
Lemma gt_extends : extends lf_tpos ni_w1 ni_w.
Proof.
  split; [by vm_compute|]. split; [done|]. intros t h Hh. unfold lf_tpos, w_time_position. rewrite Hh, (ni_heights t h Hh).
  f_equal; done.
Qed.
Lemma gt_apart : list_apart ni_l && list_apart (take 2 ni_l) = true. Proof. vm_compute. reflexivity. Qed.
Lemma gt_obs : new_obs lf_s (Some 1%nat) (λ x, y ← lf_es ni_w1 (take 2 ni_l) x; z ← lf_es ni_w ni_l y;
    Some (two_keychains (tr_index x), two_keychains (tr_index y), window_check rs_kspks (tr_index x), rs_show z)) =
  Some (true, true, true, (Some 120, [(0, 0, (43, 0), 500, None); (0, 4, (43, 1), 900, None); (0, 2, (44, 0), 60, None)], Ret (mkBalance 0 0 0 1460))).
Proof. vm_compute. reflexivity. Qed.
