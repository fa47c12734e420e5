(** Worlds made of lists of transactions, and wallets that scan them (C90, C91). *)
From Verif Require Export RestoreProofs5 TrackerExamples EsploraExamples.

Local Existing Instance ex_env.

(** ** Worlds made of lists *)
Definition w_find (l : list (Tx * option N)) (t : Txid) : option (Tx * option N) := List.find (λ e, txid e.1 =? t) l.
Definition w_touches (l : list (Tx * option N)) (s : Script) (x : Tx) : bool :=
  existsb (λ o, txo_spk o =? s) (tx_out x) ||
  existsb (λ p, match w_find l (op_txid p) with
                | Some (y, _) => match tx_out y !! N.to_nat (op_vout p) with Some o => txo_spk o =? s | None => false end
                | None => false end) (tx_in x).
Definition list_world (tip : N) (block : N → BlockHash) (l : list (Tx * option N)) : World := {|
  w_tip := tip;
  w_block := block;
  w_height t := match w_find l t with Some (_, h) => h | None => None end;
  w_history s := txid <$> (fst <$> filter (λ e, w_touches l s e.1) l);
  w_tx t := fst <$> w_find l t
|}.
Definition list_W (l : list (Tx * option N)) (t : Txid) : list OutPoint :=
  match w_find l t with Some (x, _) => tx_in x | None => [] end.
Definition common_input (x y : Tx) : bool :=
  existsb (λ o, negb (bool_decide (o = null_outpoint)) && bool_decide (o ∈ tx_in y)) (tx_in x).
Definition list_check (W : Txid → list OutPoint) (tip : N) (l : list (Tx * option N)) : bool :=
  (tip <? u32_max) && bool_decide (NoDup (txid <$> (fst <$> l))) &&
  forallb (λ e, (txid e.1 <=? max_txid) && negb (txid e.1 =? genesis_txid) && negb (bool_decide (tx_out e.1 = [])) &&
    match e.2 with Some h => (h <=? tip) && (0 <? h) | None => true end && bool_decide (tx_in e.1 = W (txid e.1)) &&
    bool_decide (N.of_nat (length (tx_out e.1)) ≤ u32_max) &&
    forallb (λ o, bool_decide (o = null_outpoint) || bool_decide (is_Some (w_find l (op_txid o)))) (tx_in e.1) &&
    forallb (λ f, (txid e.1 =? txid f.1) || negb (common_input e.1 f.1)) l) l.
Lemma w_find_Some l t e : w_find l t = Some e → e ∈ l ∧ txid e.1 = t.
Proof. intros [Hin Ht]%List.find_some. split; [by apply elem_of_list_In|by apply N.eqb_eq]. Qed.
Lemma w_find_in l e : NoDup (txid <$> (fst <$> l)) → e ∈ l → w_find l (txid e.1) = Some e.
Proof.
  intros Hn He. unfold w_find. destruct (List.find _ l) as [e'|] eqn:E.
  - f_equal. destruct (w_find_Some l _ _ E) as [He' Ht]. rewrite <- list_fmap_compose in Hn.
    apply elem_of_list_lookup in He as [i Hi], He' as [j Hj].
    assert (i = j) as ->; [|congruence]. eapply (proj1 (NoDup_alt _) Hn); rewrite list_lookup_fmap; [by rewrite Hi|rewrite Hj; cbn; by rewrite Ht].
  - apply elem_of_list_In in He. pose proof (List.find_none _ _ E _ He) as Hf. cbn in Hf. by rewrite N.eqb_refl in Hf.
Qed.
Section list_world.
Context (W : Txid → list OutPoint) (tip : N) (block : N → BlockHash) (l : list (Tx * option N)) (Hc : list_check W tip l = true).
Let w := list_world tip block l.
Record entry_ok (e : Tx * option N) : Prop := {
  en_max : txid e.1 ≤ max_txid; en_gen : txid e.1 ≠ genesis_txid; en_out : tx_out e.1 ≠ [];
  en_height : ∀ h, e.2 = Some h → h ≤ tip ∧ 0 < h; en_W : tx_in e.1 = W (txid e.1);
  en_len : N.of_nat (length (tx_out e.1)) ≤ u32_max;
  en_parents : ∀ o, o ∈ tx_in e.1 → o ≠ null_outpoint → is_Some (w_find l (op_txid o));
  en_conf : ∀ f, f ∈ l → double_spend e.1 f.1 → txid e.1 = txid f.1 }.
Lemma list_facts : tip < u32_max ∧ NoDup (txid <$> (fst <$> l)) ∧ ∀ e, e ∈ l → entry_ok e.
Proof using Hc.
  unfold list_check in Hc. apply andb_prop in Hc as [Hc1 Hall]. apply andb_prop in Hc1 as [Ht%N.ltb_lt Hn%bool_decide_eq_true].
  split; [done|]. split; [done|]. intros e He. rewrite forallb_forall in Hall. apply elem_of_list_In in He. specialize (Hall e He).
  repeat (apply andb_prop in Hall as [Hall ?Hx]).
  constructor.
  - by apply N.leb_le.
  - by apply N.eqb_neq, negb_true_iff.
  - apply negb_true_iff in Hx4. by eapply bool_decide_eq_false_1.
  - intros h Eh. rewrite Eh in *. match goal with Hz : (h <=? tip) && _ = true |- _ => apply andb_prop in Hz as [?%N.leb_le ?%N.ltb_lt] end. done.
  - by eapply bool_decide_eq_true_1.
  - by eapply bool_decide_eq_true_1.
  - intros o Ho Hne. rewrite forallb_forall in Hx0. apply elem_of_list_In in Ho. specialize (Hx0 o Ho).
    apply orb_prop in Hx0 as [?%bool_decide_eq_true|?%bool_decide_eq_true]; done.
  - intros f Hf (o & Hne & Ho1 & Ho2). rewrite forallb_forall in Hx. apply elem_of_list_In in Hf. specialize (Hx f Hf).
    apply orb_prop in Hx as [?%N.eqb_eq|Hx%negb_true_iff]; [done|]. exfalso. 
    unfold common_input in Hx. assert (existsb (λ o, negb (bool_decide (o = null_outpoint)) && bool_decide (o ∈ tx_in f.1)) (tx_in e.1) = true); [|congruence].
    apply existsb_exists. exists o. split; [by apply elem_of_list_In|]. apply andb_true_intro. split; [by apply negb_true_iff, bool_decide_eq_false|by apply bool_decide_eq_true].
Qed.
Lemma list_tx t x : w_tx w t = Some x ↔ ∃ h, (x, h) ∈ l ∧ txid x = t.
Proof using Hc.
  destruct list_facts as (_ & Hn & _). cbn. rewrite fmap_Some. split.
  - intros ([y h] & [Hin Ht]%w_find_Some & ->). by exists h.
  - intros (h & Hin & <-). exists (x, h). split; [by apply (w_find_in l (x, h))|done].
Qed.
Lemma list_history s t : t ∈ w_history w s ↔ ∃ x h, (x, h) ∈ l ∧ txid x = t ∧ w_touches l s x = true.
Proof using.
  cbn. rewrite !elem_of_list_fmap. split.
  - intros (x & -> & Hx). apply elem_of_list_fmap in Hx as ([y h] & -> & [Hk Hin]%elem_of_list_filter). exists y, h. by apply Is_true_true in Hk.
  - intros (x & h & Hin & <- & Hk). exists x. split; [done|]. apply elem_of_list_fmap. exists (x, h). split; [done|]. apply elem_of_list_filter. split; [by apply Is_true_true|done].
Qed.
Lemma list_ok : world_ok w.
Proof using Hc.
  destruct list_facts as (Ht & Hn & He). constructor.
  - done.
  - intros t h. cbn. destruct (w_find l t) as [[x h']|] eqn:E; [|done]. intros ->. apply w_find_Some in E as [E _]. by apply (en_height _ (He _ E)).
  - intros s t (x & h & Hin & <- & _)%list_history. by apply (en_max _ (He _ Hin)).
  - intros t x (h & Hin & Hid)%list_tx. split; [done|]. by apply (en_out _ (He _ Hin)).
  - intros s t (x & h & Hin & Hid & _)%list_history. exists x. apply list_tx. by exists h.
  - intros t x o (h & Hin & Hid)%list_tx Ho. apply list_history. exists x, h. split; [done|]. split; [done|]. unfold w_touches. apply orb_true_intro. left.
    apply existsb_exists. exists o. split; [by apply elem_of_list_In|by apply N.eqb_refl].
  - intros t x p y o (h & Hin & Hid)%list_tx Hp Hy Ho. apply list_history. exists x, h. split; [done|]. split; [done|]. unfold w_touches. apply orb_true_intro. right.
    apply existsb_exists. exists p. split; [by apply elem_of_list_In|]. cbn in Hy. apply fmap_Some in Hy as ([y' h'] & -> & ->). cbn in Ho. rewrite Ho. apply N.eqb_refl.
Qed.
Lemma list_sane : world_sane W w.
Proof using Hc.
  destruct list_facts as (Ht & Hn & He). constructor.
  - intros t x (h & Hin & <-)%list_tx. by apply (en_W _ (He _ Hin)).
  - intros a b x y (h & Hx & <-)%list_tx (h' & Hy & <-)%list_tx Hd. by apply (en_conf _ (He _ Hx) (y, h')).
  - intros t x o (h & Hin & _)%list_tx Ho Hne. cbn. apply fmap_is_Some. by apply (en_parents _ (He _ Hin)).
  - intros t h. cbn. rewrite fmap_is_Some. by destruct (w_find l t).
Qed.
Lemma list_txs t a : w_tx w t = Some a → tx_ok a.
Proof using Hc. destruct list_facts as (Ht & Hn & He). intros (h & Hin & _)%list_tx. pose proof (en_len _ (He _ Hin)). split; [by apply (en_max _ (He _ Hin))|]. cbn [fst] in *. lia. Qed.
Lemma list_honest : electrum_honest w (honest w).
Proof using Hc.
  destruct list_facts as (Ht & Hn & He). apply honest_honest. intros s t (x & h & Hin & <- & _)%list_history. split; [by apply (en_gen _ (He _ Hin))|].
  cbn. pose proof (w_find_in l (x, h) Hn Hin) as E. cbn in E. rewrite E. intros ->. pose proof (en_height _ (He _ Hin) 0 eq_refl). lia.
Qed.
End list_world.

(** ** Checks of wallets *)
Section checks.
Context `{Countable K, !Ord K} `{ChainPosition P} `{EqDecision P}.
Definition fit_check (w : World) (wpos : Txid → P) (x : Tracker K P) : bool :=
  let cps := bmap_list (sc_cps (cg_chain (tr_cg x))) in
  bool_decide (sc_limit (cg_chain (tr_cg x)) ≠ Some 0%nat) &&
  forallb (λ hb, (hb.1 <? u32_max) && (hb.1 <=? w_tip w) &&
    (negb (hb.2 =? w_block w hb.1) || forallb (λ ab, (hb.1 <? ab.1) || (ab.2 =? w_block w ab.1)) cps)) cps &&
  forallb (λ tp, match pos_height tp.2 with
    | Confirmed h => (h <? u32_max) && existsb (λ kb, h <=? kb.1) cps &&
        (existsb (λ kb, (kb.1 <=? h) && negb (kb.2 =? w_block w kb.1)) cps || bool_decide (tp.2 = wpos tp.1))
    | Unconfirmed => true end) (bmap_list (sc_pos (cg_chain (tr_cg x)))) &&
  forallb (λ it, match it.2, w_tx w it.1 with Whole a, Some b => bool_decide (a = b) | _, _ => true end) (map_to_list (tg_txs (cg_graph (tr_cg x)))) &&
  forallb (λ ou, match w_tx w (op_txid ou.1) with
    | Some t => bool_decide (tx_out t !! N.to_nat (op_vout ou.1) = Some ou.2.2)
    | None => true end) (map_to_list (si_txouts (ki_inner (tr_index x)))).
Lemma fit_check_ok w wpos x : fit_check w wpos x = true → fit_for w wpos x.
Proof.
  unfold fit_check. intros Hc. repeat (apply andb_prop in Hc as [Hc ?Hx]). rewrite forallb_forall in Hx, Hx0, Hx1, Hx2.
  apply bool_decide_eq_true in Hc.
  assert (Hcp : ∀ h b, sc_cps (cg_chain (tr_cg x)) !! h = Some b → h < u32_max ∧ h ≤ w_tip w ∧
    (b = w_block w h → ∀ a y, a ≤ h → sc_cps (cg_chain (tr_cg x)) !! a = Some y → y = w_block w a)).
  { intros h b Hb%elem_of_bmap_list%elem_of_list_In%Hx2. apply andb_prop in Hb as [Hb Hf]. apply andb_prop in Hb as [?%N.ltb_lt ?%N.leb_le].
    split; [done|]. split; [done|]. intros -> a y Ha Hy%elem_of_bmap_list%elem_of_list_In. cbn [fst snd] in Hf. rewrite N.eqb_refl in Hf. cbn in Hf.
    rewrite forallb_forall in Hf. apply Hf in Hy. apply orb_prop in Hy as [?%N.ltb_lt|?%N.eqb_eq]; [cbn in *; lia|done]. }
  assert (Hps : ∀ t p h, sc_pos (cg_chain (tr_cg x)) !! t = Some p → pos_height p = Confirmed h → h < u32_max ∧
    (∃ k, is_Some (sc_cps (cg_chain (tr_cg x)) !! k) ∧ h ≤ k) ∧
    ((∀ k y, k ≤ h → sc_cps (cg_chain (tr_cg x)) !! k = Some y → y = w_block w k) → p = wpos t)).
  { intros t p h Hp%elem_of_bmap_list%elem_of_list_In%Hx1 Eh. cbn [fst snd] in Hp. rewrite Eh in Hp.
    apply andb_prop in Hp as [Hp Ho]. apply andb_prop in Hp as [?%N.ltb_lt Hk]. split; [done|].
    apply existsb_exists in Hk as ([k b] & Hk%elem_of_list_In%elem_of_bmap_list & ?%N.leb_le). split; [exists k; by rewrite Hk|].
    intros Hall. apply orb_prop in Ho as [Ho|?%bool_decide_eq_true]; [|done].
    apply existsb_exists in Ho as ([k' b'] & Hk'%elem_of_list_In%elem_of_bmap_list & Hb'). apply andb_prop in Hb' as [?%N.leb_le ?%negb_true_iff%N.eqb_neq].
    cbn in *. exfalso. naive_solver. }
  split; [done|]. split; [split|split; [|split; [split|split]]].
  - intros h [b Hb]. by apply (Hcp h b).
  - intros t p h Hp Eh. by apply (Hps t p h).
  - intros t p h Hp Eh. by apply (Hps t p h).
  - intros h [b Hb]. by apply (Hcp h b).
  - intros a b y Hab Hb Hy. by apply (proj2 (proj2 (Hcp b _ Hb)) eq_refl a y).
  - intros t p h Hp Eh. by apply (Hps t p h).
  - intros t a b Ha Hb. unfold get_tx in Ha. destruct (tg_txs _ !! t) as [[a'|]|] eqn:E; [|done..]. injection Ha as ->.
    apply elem_of_map_to_list, elem_of_list_In, Hx0 in E. cbn [fst snd] in E. rewrite Hb in E. by apply bool_decide_eq_true in E.
  - intros o ki u t Ho Ht. unfold si_txout in Ho. apply elem_of_map_to_list, elem_of_list_In, Hx in Ho. cbn [fst snd] in Ho. rewrite Ht in Ho.
    by apply bool_decide_eq_true in Ho.
Qed.
(** Scripts below 2^32 are not the wallet's. *)
Definition indexed_check (x : Tracker K P) : bool :=
  forallb (λ kd, 0 <? kd.2) (map_to_list (ki_keychains (tr_index x))) &&
  forallb (λ it, match it.2 with
    | Whole t => forallb (λ vu, (txo_spk vu.2 <? 4294967296) || bool_decide (is_Some (si_txout (ki_inner (tr_index x)) (mkOutPoint it.1 (N.of_nat vu.1)))))
        (imap (λ v u, (v, u)) (tx_out t))
    | _ => true end) (map_to_list (tg_txs (cg_graph (tr_cg x)))).
Lemma indexed_check_ok w F x : indexed_check x = true → agrees w x → none_overlooked w F x.
Proof.
  unfold indexed_check. intros [Hk Ht]%andb_prop [Hag _] o t u k i Hwt Hu _ (d & Hd & _ & Hder) [[t2 Hg] Hno]. rewrite (Hag _ _ _ Hg Hwt) in Hg.
  cut (is_Some (si_txout (ki_inner (tr_index x)) o)); [intros [y Hy]; congruence|]. clear Hno. rewrite forallb_forall in Hk, Ht.
  apply elem_of_map_to_list, elem_of_list_In, Hk in Hd. cbn [snd] in Hd. apply N.ltb_lt in Hd.
  unfold get_tx in Hg. destruct (tg_txs _ !! op_txid o) as [[a'|]|] eqn:E; [|done..]. injection Hg as ->.
  apply elem_of_map_to_list, elem_of_list_In, Ht in E. cbn [fst snd] in E. rewrite forallb_forall in E.
  specialize (E (N.to_nat (op_vout o), u)). destruct o as [a v]. cbn [op_txid op_vout fst snd] in *. rewrite N2Nat.id in E. apply orb_prop in E as [Hlt%N.ltb_lt|?%bool_decide_eq_true]; [|done|].
  - exfalso. unfold derive, ex_env in Hder. cbn [snd] in Hlt. destruct (d =? 2); injection Hder as Hder; lia.
  - apply elem_of_list_In, elem_of_lookup_imap. by exists (N.to_nat v), u.
Qed.
End checks.

(** The first [n] scripts of a descriptor *)
Definition ex_list (d : Desc) (n : nat) : list (N * Script) := (λ j, (N.of_nat j, exs d (N.of_nat j))) <$> seq 0 n.
Definition rs_kspks : gmap N (list (N * Script)) := {[ 0 := ex_list 1 12; 1 := ex_list 3 12 ]}.
Lemma rs_scripts (i : KIndex N) : bool_decide (ki_keychains i !! 0 = Some 1) && bool_decide (ki_keychains i !! 1 = Some 3) = true → scripts_of i rs_kspks.
Proof.
  intros [H0%bool_decide_eq_true H1%bool_decide_eq_true]%andb_prop k l Hl.
  assert (∀ d n p j s, ex_list d n !! p = Some (j, s) → j = N.of_nat p ∧ (p < n)%nat ∧ s = exs d j) as Hex.
  { intros d n p j s Hp. unfold ex_list in Hp. rewrite list_lookup_fmap in Hp. apply fmap_Some in Hp as (q & [-> Hq]%lookup_seq & [= -> ->]). cbn in *. split; [done|]. split; [lia|done]. }
  unfold rs_kspks in Hl. apply lookup_insert_Some in Hl as [[<- <-]|[_ [<- <-]%lookup_singleton_Some]];
    [exists 1|exists 3]; (split; [done|]); intros p j s (-> & Hlt & ->)%Hex; (split; [done|]); (split; [|done]);
    unfold cap; cbn [has_wildcard ex_env N.eqb Pos.eqb negb]; (apply N.lt_le_trans with 12; [lia|by vm_compute]).
Qed.

(** ** A world *)
Definition rs_block (h : N) : BlockHash := 1000 + h.
Definition rs23 : Tx := mkTx 23 [null_outpoint] [mkTxOut 1400 9; mkTxOut 5000 (exs 1 1); mkTxOut 70 9] 0.
Definition rs21 : Tx := mkTx 21 [mkOutPoint 23 0] [mkTxOut 1000 (exs 1 0); mkTxOut 300 (exs 1 2)] 0.
Definition rs22 : Tx := mkTx 22 [mkOutPoint 21 0] [mkTxOut 600 7; mkTxOut 390 (exs 3 0)] 0.
Definition rs24 : Tx := mkTx 24 [mkOutPoint 23 2] [mkTxOut 70 (exs 1 9)] 0.
Definition rs_l : list (Tx * option N) := [(rs23, Some 10); (rs21, Some 115); (rs22, None); (rs24, None)].
(** a transaction of the wallet's own that the network does not have *)
Definition rs30 : Tx := mkTx 30 [mkOutPoint 21 1] [mkTxOut 250 8; mkTxOut 45 (exs 3 1)] 0.
Definition rs_W (t : Txid) : list OutPoint := if t =? 30 then tx_in rs30 else list_W rs_l t.
Definition rs_w : World := list_world 120 rs_block rs_l.
Lemma rs_check : list_check rs_W 120 rs_l = true. Proof. vm_compute. reflexivity. Qed.
Lemma rs_world : world_ok rs_w ∧ world_sane rs_W rs_w ∧ (∀ t a, w_tx rs_w t = Some a → tx_ok a) ∧ electrum_honest rs_w (honest rs_w).
Proof.
  split; [exact (list_ok _ _ _ _ rs_check)|]. split; [exact (list_sane _ _ _ _ rs_check)|]. split; [exact (list_txs _ _ _ _ rs_check)|exact (list_honest _ _ _ _ rs_check)].
Qed.
Definition rs_time (h : N) : N := 1600000000 + 600 * N.min h u32_max.
Lemma NoDup_fmap_filter {B C} (f : B → C) (Q : B → Prop) `{∀ b, Decision (Q b)} l : NoDup (f <$> l) → NoDup (f <$> filter Q l).
Proof.
  induction l as [|b l IH]; [done|]. cbn [fmap list_fmap]. intros [Hb Hl]%NoDup_cons. rewrite filter_cons. destruct (decide (Q b)); [|by apply IH].
  cbn [fmap list_fmap]. apply NoDup_cons. split; [|by apply IH]. intros (c & Ec & [_ Hc]%elem_of_list_filter)%elem_of_list_fmap. apply Hb. rewrite Ec. by apply elem_of_list_fmap_1.
Qed.
Lemma rs_esplora : esplora_honest rs_w rs_time (esplora rs_w rs_time [23; 21; 22; 24]).
Proof.
  apply esplora_esplora.
  - apply rs_world.
  - intros k. cbn [w_history rs_w list_world]. rewrite <- list_fmap_compose. apply NoDup_fmap_filter, (bool_decide_unpack _). vm_compute. exact I.
  - intros t [x (h & Hin & <-)%(list_tx _ _ _ _ rs_check)]. unfold rs_l in Hin. rewrite !elem_of_cons, elem_of_nil in Hin.
    destruct Hin as [[= -> ->]|[[= -> ->]|[[= -> ->]|[[= -> ->]|[]]]]]; apply (bool_decide_unpack _); vm_compute; exact I.
  - intros a b x y o (h & Hx & <-)%(list_tx _ _ _ _ rs_check) (h' & Hy & <-)%(list_tx _ _ _ _ rs_check) Hox Hoy.
    unfold rs_l in Hx, Hy. rewrite !elem_of_cons, elem_of_nil in Hx, Hy.
    destruct Hx as [[= -> ->]|[[= -> ->]|[[= -> ->]|[[= -> ->]|[]]]]]; apply elem_of_list_singleton in Hox as ->;
    destruct Hy as [[= -> ->]|[[= -> ->]|[[= -> ->]|[[= -> ->]|[]]]]]; apply elem_of_list_singleton in Hoy; first [reflexivity|discriminate Hoy].
Qed.

(** ** Synchronising *)
Definition el_asks (w : World) (gap : N) (kspks : gmap N (list (N * Script))) txids outpoints (x : Tracker N TxHeight) :
    option (Tracker N TxHeight * KChangeSet N TxHeight) :=
  match scan true (λ _, honest w) 2 (sc_cps (cg_chain (tr_cg x))) kspks txids outpoints gap 2 0%nat with
  | Done _ e =>
      let txs := omap (w_tx w) (missing_full_txs e (cg_graph (tr_cg x))) in
      if negb (forallb (λ i, bool_decide (is_Some (w_tx w i))) (missing_full_txs e (cg_graph (tr_cg x)))) then None else
      match into_keychain_scan (exho (inflate_graph (tr_cg x) (eu_chain e) txs)) e txs (tr_cg x) with
      | Ret (Ok sc) =>
          match tr_apply_update (exho (cg_graph (tr_cg x))) x sc (map_to_list (sc_pos (eu_chain e))) with
          | Ret (Ok xc) => Some xc
          | _ => None
          end
      | _ => None
      end
  | _ => None
  end.
Lemma el_asks_ok w gap kspks txids outpoints x x' cs : world_ok w → electrum_honest w (honest w) → Forall (λ t, t ≤ max_txid) txids →
  Forall (λ o, is_Some (w_tx w (op_txid o))) outpoints → el_asks w gap kspks txids outpoints x = Some (x', cs) → wallet_asks w gap kspks txids outpoints x x'.
Proof.
  intros Hw Hh Htxids Hops. unfold el_asks. destruct (scan _ _ _ _ _ _ _ _ _ _) as [n e| | |] eqn:Es; [|done..].
  destruct (forallb _ _) eqn:Ef; [|done]. cbn [negb]. rewrite forallb_forall in Ef.
  destruct (into_keychain_scan _ _ _ _) as [[sc|]|] eqn:Ei; [|done..]. destruct (tr_apply_update _ _ _ _) as [[[x1 cs1]|]|] eqn:Ea; [|done..].
  intros [= <- <-]. exists (λ _, honest w), true, 1%nat, 0%nat, n, 2%nat, e, (omap (w_tx w) (missing_full_txs e (cg_graph (tr_cg x)))).
  do 2 eexists. exists sc. do 2 eexists.
  split; [done|]. split; [lia|]. split; [done|]. split; [done|]. split; [exact Es|]. split.
  { apply Forall_forall. intros t (i & _ & Hi)%elem_of_list_omap. by rewrite (proj1 (wo_tx w Hw i t Hi)). }
  split.
  { intros i Hi. pose proof Hi as Hi'. apply elem_of_list_In, Ef, bool_decide_eq_true in Hi' as [t Ht]. exists t. split; [apply elem_of_list_omap; by exists i|].
    by apply (wo_tx w Hw i t). }
  split; [apply exho_ok|]. split; [apply exho_ok|]. split; [reflexivity|]. split; [exact Ei|exact Ea].
Qed.
Definition el_sync (w : World) (gap : N) (kspks : gmap N (list (N * Script))) (x : Tracker N TxHeight) : option (Tracker N TxHeight) :=
  fst <$> el_asks w gap kspks [] [] x.
Lemma el_sync_ok w gap kspks x x' : world_ok w → electrum_honest w (honest w) → el_sync w gap kspks x = Some x' → wallet_sync w gap kspks x x'.
Proof.
  intros Hw Hh Hs. apply fmap_Some in Hs as ([y cs] & Hs & ->). exists [], []. by eapply el_asks_ok.
Qed.
Definition ti_sync (w : World) (time : N → N) (gap : N) (kspks : gmap N (list (N * Script))) (x : Tracker N ConfirmationTime) :
    option (Tracker N ConfirmationTime) :=
  match bnd (scan true (λ _, timed_server w time) 2 (sc_cps (cg_chain (tr_cg x))) kspks [] [] gap 2)
    (into_confirmation_time_update (λ _, timed_server w time)) 0%nat with
  | Done _ e =>
      let txs := omap (w_tx w) (missing_full_txs e (cg_graph (tr_cg x))) in
      match into_keychain_scan (exho (inflate_graph (tr_cg x) (eu_chain e) txs)) e txs (tr_cg x) with
      | Ret (Ok sc) =>
          match tr_apply_update (exho (cg_graph (tr_cg x))) x sc (map_to_list (sc_pos (eu_chain e))) with
          | Ret (Ok (x', _)) => Some x'
          | _ => None
          end
      | _ => None
      end
  | _ => None
  end.
Definition es_sync (w : World) (time : N → N) (ids : list Txid) (gap : N) (par : nat) (kspks : gmap N (list (N * Script)))
    (x : Tracker N ConfirmationTime) : option (Tracker N ConfirmationTime) :=
  match ps_scan (λ _, esplora w time ids) exho 2 (sc_cps (cg_chain (tr_cg x))) kspks [] [] gap par 0%nat with
  | Done _ sc =>
      match tr_apply_update (exho (cg_graph (tr_cg x))) x sc (map_to_list (sc_pos (cg_chain (ks_update sc)))) with
      | Ret (Ok (x', _)) => Some x'
      | _ => None
      end
  | _ => None
  end.
(** The tip, the outputs with index, outpoint, value, and who spends them, and the balance *)
Definition rs_show {P : Type} `{ChainPosition P} (x : Tracker N P) :=
  (bi_height <$> latest_checkpoint (cg_chain (tr_cg x)),
   (λ kf : N * N * FullTxOut P, (kf.1, (op_txid (fto_outpoint kf.2), op_vout (fto_outpoint kf.2)), txo_value (fto_txout kf.2), snd <$> fto_spent_by kf.2)) <$>
     full_txouts (exho (cg_graph (tr_cg x))) x,
   balance (exho (cg_graph (tr_cg x))) x (λ k, k =? 1)).
(** A new wallet *)
Definition rs_s : list (ki_op N) := [KiAdd 0 1; KiAdd 1 3].
Lemma rs_s_ok : ki_hist_ok exA rs_s.
Proof. apply ops_ok_nil. cbn [ops_ok rs_s app ki_op_ok]. cbn [exA]. check_ops. Qed.
Lemma rs_s_adds : only_adds rs_s.
Proof. repeat (apply Forall_cons; split; [by do 2 eexists|]). constructor. Qed.
(** An old one: it knows transaction 21, transaction 25 from a block that was replaced, and its own transaction 30. *)
Definition rs25 : Tx := mkTx 25 [mkOutPoint 95 0] [mkTxOut 77 (exs 1 0)] 0.
Definition rs_W' (t : Txid) : list OutPoint := if t =? 25 then tx_in rs25 else rs_W t.
Lemma rs_check' : list_check rs_W' 120 rs_l = true. Proof. vm_compute. reflexivity. Qed.
Definition rs_h {P} `{ChainPosition P} (c : N → P) (u : P) : list (tr_op N P) :=
  [TrIndex (KiReveal 0 2); TrIndex (KiNext 1); TrIndex (KiNext 1); TrCheckpoint (mkBlockId 100 1100); TrCheckpoint (mkBlockId 116 9999);
   TrTx exho rs21 (c 115); TrTx exho rs25 (c 116); TrTx exho rs30 u].
Definition rs_old {P} `{ChainPosition P} (c : N → P) (u : P) : option (Tracker N P) :=
  match tr_setup rs_s (Some 7%nat) with Ret x => match tr_run x (rs_h c u) with Ret (x', _) => Some x' | _ => None end | _ => None end.
Lemma rs_h_ok {P} `{ChainPosition P} (c : N → P) (u : P) : pos_ok (c 115) → pos_ok (c 116) → pos_ok u → Forall (tr_op_ok exA rs_W' rs_s) (rs_h c u).
Proof.
  intros Hc1 Hc2 Hu. unfold rs_h. repeat (apply Forall_cons; split); [..|constructor]; cbn [tr_op_ok].
  - split; [exact I|]. cbn [ki_op_ok]. check_ops.
  - split; [exact I|]. cbn [ki_op_ok]. check_ops.
  - split; [exact I|]. cbn [ki_op_ok]. check_ops.
  - vm_compute. discriminate.
  - vm_compute. discriminate.
  - split; [apply exho_ok|]. split; [|split; [done|reflexivity]]. split; [vm_compute; discriminate|]. cbn [tx_out rs21 length]. assert (2 ≤ u32_max) by (by vm_compute). lia.
  - split; [apply exho_ok|]. split; [|split; [done|reflexivity]]. split; [vm_compute; discriminate|]. cbn [tx_out rs25 length]. assert (2 ≤ u32_max) by (by vm_compute). lia.
  - split; [apply exho_ok|]. split; [|split; [done|reflexivity]]. split; [vm_compute; discriminate|]. cbn [tx_out rs30 length]. assert (2 ≤ u32_max) by (by vm_compute). lia.
Qed.
Lemma rs_old_ok {P} `{ChainPosition P} (c : N → P) (u : P) {B} (f : Tracker N P → option B) b : (x ← rs_old c u; f x) = Some b →
  ∃ x0 x l1, tr_setup rs_s (Some 7%nat) = Ret x0 ∧ tr_run x0 (rs_h c u) = Ret (x, l1) ∧ f x = Some b.
Proof.
  unfold rs_old. destruct (tr_setup rs_s (Some 7%nat)) as [x0|]; [|done]. destruct (tr_run x0 (rs_h c u)) as [[x l1]|] eqn:E; [|done]. cbn. intros Hf. by exists x0, x, l1.
Qed.

(** ** Witnesses *)
(** Output 1 of transaction 41 pays script 5, beyond the gap; transaction 42 spends it. *)
Definition la23 : Tx := mkTx 23 [null_outpoint] [mkTxOut 1400 9] 0.
Definition la41 : Tx := mkTx 41 [mkOutPoint 23 0] [mkTxOut 500 (exs 1 0); mkTxOut 900 (exs 1 5)] 0.
Definition la42 : Tx := mkTx 42 [mkOutPoint 41 1] [mkTxOut 900 7] 0.
Definition la_l : list (Tx * option N) := [(la23, Some 10); (la41, Some 112); (la42, Some 115)].
Definition la_w : World := list_world 120 rs_block la_l.
Lemma la_check : list_check (list_W la_l) 120 la_l = true. Proof. vm_compute. reflexivity. Qed.
Definition la_s : list (ki_op N) := [KiAdd 0 1; KiAdd 1 3; KiLook 0 6].
Lemma la_s_ok : ki_hist_ok exA la_s.
Proof. apply ops_ok_nil. cbn [ops_ok la_s app ki_op_ok]. cbn [exA]. check_ops. Qed.
(** Output 1 of transaction 43 pays script 4; transaction 44 pays script 2. *)
Definition ni23 : Tx := mkTx 23 [null_outpoint] [mkTxOut 1400 9; mkTxOut 60 9] 0.
Definition ni43 : Tx := mkTx 43 [mkOutPoint 23 0] [mkTxOut 500 (exs 1 0); mkTxOut 900 (exs 1 4)] 0.
Definition ni44 : Tx := mkTx 44 [mkOutPoint 23 1] [mkTxOut 60 (exs 1 2)] 0.
Definition ni_l : list (Tx * option N) := [(ni23, Some 10); (ni43, Some 112); (ni44, Some 115)].
Definition ni_w1 : World := list_world 113 rs_block [(ni23, Some 10); (ni43, Some 112)].
Definition ni_w : World := list_world 120 rs_block ni_l.
Lemma ni_check1 : list_check (list_W ni_l) 113 [(ni23, Some 10); (ni43, Some 112)] = true. Proof. vm_compute. reflexivity. Qed.
Lemma ni_check : list_check (list_W ni_l) 120 ni_l = true. Proof. vm_compute. reflexivity. Qed.

(** ** Results *)
Definition new_obs {P B} `{ChainPosition P} (s : list (ki_op N)) (lim : option nat) (f : Tracker N P → option B) : option B :=
  match tr_setup s lim with Ret x => f x | Panic => None end.
Lemma new_obs_Some {P B} `{ChainPosition P} s lim (f : Tracker N P → option B) b : new_obs s lim f = Some b → ∃ x, tr_setup s lim = Ret x ∧ f x = Some b.
Proof. unfold new_obs. destruct (tr_setup s lim) as [x|]; [|done]. by exists x. Qed.
Definition two_keychains (i : KIndex N) : bool := bool_decide (ki_keychains i !! 0 = Some 1) && bool_decide (ki_keychains i !! 1 = Some 3).
Definition rs_result : option N * list (N * N * (N * N) * N * option N) * outcome Balance :=
  (Some 120, [(0, 0, (21, 0), 1000, Some 22); (0, 2, (21, 1), 300, None); (1, 0, (22, 1), 390, None); (0, 1, (23, 1), 5000, None)],
   Ret (mkBalance 0 390 0 5300)).
Lemma rs_el_obs : new_obs rs_s (Some 1%nat) (λ x, y ← el_sync rs_w 2 rs_kspks x; Some (two_keychains (tr_index x), rs_show y)) = Some (true, rs_result).
Proof. vm_compute. reflexivity. Qed.
Lemma rs_ti_obs : new_obs rs_s (Some 1%nat) (λ x, y ← ti_sync rs_w rs_time 2 rs_kspks x; Some (two_keychains (tr_index x), rs_show y)) = Some (true, rs_result).
Proof. vm_compute. reflexivity. Qed.
Lemma rs_es_obs : new_obs rs_s (Some 1%nat) (λ x, y ← es_sync rs_w rs_time [23; 21; 22; 24] 2 2 rs_kspks x; Some (two_keychains (tr_index x), rs_show y)) = Some (true, rs_result).
Proof. vm_compute. reflexivity. Qed.
Lemma rs_pages k : (length (w_mempool rs_w k) ≤ 50)%nat ∧ (length (w_confirmed rs_w k) < 25 * 2)%nat.
Proof.
  assert (length (w_history rs_w k) ≤ 4)%nat.
  { cbn [w_history rs_w list_world]. rewrite !fmap_length. etrans; [apply filter_length|]. cbn. lia. }
  unfold w_mempool, w_confirmed. split; [etrans; [apply filter_length|lia]|eapply Nat.le_lt_trans; [apply filter_length|lia]].
Qed.
Definition rs_result' : option N * list (N * N * (N * N) * N * option N) * outcome Balance :=
  (Some 120, [(0, 0, (21, 0), 1000, Some 22); (0, 2, (21, 1), 300, Some 30); (1, 0, (22, 1), 390, None); (0, 1, (23, 1), 5000, None);
     (0, 0, (25, 0), 77, None); (1, 1, (30, 1), 45, None)], Ret (mkBalance 0 435 77 5000)).
Lemma rs_world' : world_sane rs_W' rs_w. Proof. exact (list_sane _ _ _ _ rs_check'). Qed.
Definition ct_c (h : N) : ConfirmationTime := CtConfirmed h (rs_time h).
Lemma rs_el_obs' : (x ← rs_old Confirmed Unconfirmed; y ← el_sync rs_w 2 rs_kspks x;
    Some (two_keychains (tr_index x), fit_check rs_w (w_position rs_w) x, indexed_check x, rs_show y)) = Some (true, true, true, rs_result').
Proof. vm_compute. reflexivity. Qed.
Lemma rs_ti_obs' : (x ← rs_old ct_c CtUnconfirmed; y ← ti_sync rs_w rs_time 2 rs_kspks x;
    Some (two_keychains (tr_index x), fit_check rs_w (timed rs_time ∘ w_position rs_w) x, indexed_check x, rs_show y)) = Some (true, true, true, rs_result').
Proof. vm_compute. reflexivity. Qed.
Lemma rs_es_obs' : (x ← rs_old ct_c CtUnconfirmed; y ← es_sync rs_w rs_time [23; 21; 22; 24] 2 2 rs_kspks x;
    Some (two_keychains (tr_index x), fit_check rs_w (w_time_position rs_w rs_time) x, indexed_check x, rs_show y)) = Some (true, true, true, rs_result').
Proof. vm_compute. reflexivity. Qed.
Lemma rs_time_ok h : rs_time h ≤ u64_max.
Proof. unfold rs_time. assert (1600000000 + 600 * u32_max ≤ u64_max) by (by vm_compute). lia. Qed.
(** What a wallet says about an outpoint, by its own lists *)
Definition says {P} `{ChainPosition P} (x : Tracker N P) (o : OutPoint) : option (N * N * FullTxOut P) :=
  List.find (λ kf, bool_decide (fto_outpoint kf.2 = o)) (full_txouts (exho (cg_graph (tr_cg x))) x).
Lemma says_owned {P} `{ChainPositionLaws P} (x : Tracker N P) o ki f : cg_ok (tr_cg x) → says x o = Some (ki, f) → owned x ki f ∧ fto_outpoint f = o.
Proof.
  intros Hok [Hin Ho%bool_decide_eq_true]%List.find_some. split; [|done]. apply (full_txouts_owned (exho (cg_graph (tr_cg x)))); [done|apply exho_ok|by apply elem_of_list_In].
Qed.
Lemma says_not {P} `{ChainPositionLaws P} (x : Tracker N P) o ki f : cg_ok (tr_cg x) → says x o = None → owned x ki f → fto_outpoint f ≠ o.
Proof.
  intros Hok Hn Hf He. apply (full_txouts_owned (exho (cg_graph (tr_cg x)))) in Hf; [|done|apply exho_ok]. 
  unfold says in Hn. apply elem_of_list_In in Hf. pose proof (List.find_none _ _ Hn _ Hf) as Hb. cbn in Hb. by apply bool_decide_eq_false in Hb.
Qed.
Lemma la_obs : new_obs la_s None (λ x, y ← el_sync la_w 2 rs_kspks x; Some (two_keychains (tr_index x), fit_check la_w (w_position la_w) x,
    (λ kf : N * N * FullTxOut TxHeight, (kf.1, txo_value (fto_txout kf.2), fto_pos kf.2, fto_spent_by kf.2)) <$> says y (mkOutPoint 41 1), rs_show y)) =
  Some (true, true, Some (0, 5, 900, Confirmed 112, None), (Some 120, [(0, 0, (41, 0), 500, None); (0, 5, (41, 1), 900, None)], Ret (mkBalance 0 0 0 1400))).
Proof. vm_compute. reflexivity. Qed.
Lemma ni_obs : new_obs rs_s None (λ x, y ← el_sync ni_w1 2 rs_kspks x; z ← el_sync ni_w 2 rs_kspks y; z' ← el_sync ni_w 2 rs_kspks x;
    Some (two_keychains (tr_index x), two_keychains (tr_index y), fit_check ni_w (w_position ni_w) y, match says z (mkOutPoint 43 1) with None => true | _ => false end,
      (rs_show y, rs_show z, rs_show z'))) =
  Some (true, true, true, true, (
    (Some 113, [(0, 0, (43, 0), 500, None)], Ret (mkBalance 0 0 0 500)),
    (Some 120, [(0, 0, (43, 0), 500, None); (0, 2, (44, 0), 60, None)], Ret (mkBalance 0 0 0 560)),
    (Some 120, [(0, 0, (43, 0), 500, None); (0, 4, (43, 1), 900, None); (0, 2, (44, 0), 60, None)], Ret (mkBalance 0 0 0 1460)))).
Proof. vm_compute. reflexivity. Qed.
Lemma ni_txs t a : w_tx ni_w1 t = Some a → w_tx ni_w t = Some a.
Proof.
  intros (h & Hin & Ht)%(list_tx _ _ _ _ ni_check1). apply (list_tx _ _ _ _ ni_check). exists h. split; [|done]. unfold ni_l.
  rewrite !elem_of_cons in *. destruct Hin as [?|[?|?]]; [by left|by right; left|]. by apply elem_of_nil in H.
Qed.
Lemma ni_heights t h : w_height ni_w1 t = Some h → w_height ni_w t = Some h.
Proof.
  cbn [w_height ni_w1 ni_w list_world]. unfold w_find, ni_l. cbn [List.find]. destruct (txid (ni23, Some 10).1 =? t); [done|]. by destruct (txid (ni43, Some 112).1 =? t).
Qed.
Lemma ni_within : within ni_w 2 rs_kspks 0 4.
Proof.
  exists (ex_list 1 12). split; [done|]. exists 4%nat, (exs 1 4). split; [done|].
  assert (take 5 (activity ni_w (ex_list 1 12)) = [true; false; true; false; true]) as Ha by (vm_compute; reflexivity).
  assert (∀ n : nat, (n < 5)%nat → activity ni_w (ex_list 1 12) !! n = [true; false; true; false; true] !! n) as Hl.
  { intros n Hn. rewrite <- Ha. by rewrite lookup_take. }
  split; [by rewrite Hl by lia|]. intros (s & Hs & Hall). destruct s as [|[|s]]; [| |lia].
  - specialize (Hall 0%nat ltac:(lia) ltac:(lia)). rewrite Hl in Hall by lia. done.
  - specialize (Hall 2%nat ltac:(lia) ltac:(lia)). rewrite Hl in Hall by lia. done.
Qed.
