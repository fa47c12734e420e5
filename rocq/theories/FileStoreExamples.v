(** Concrete files for the properties of PropsFileStore.v. *)
From Verif Require Export FileStoreProofs3 TrackerExamples.

(** ** Encodings of the types left open *)
(** [Vec]: its length, then the elements *)
Definition vec_codec {A} (C : Codec A) : Codec (list A) := {|
  enc l := enc_uint (N.of_nat (length l)) ++ (l ≫= enc);
  dec := dbind (dec_uint true) (λ n, rep n (λ acc, dbind dec (λ a, dret (acc ++ [a]))) [])
|}.
Definition vec_wf {A} (w : A → Prop) (l : list A) : Prop := u64 (N.of_nat (length l)) ∧ Forall w l.
Lemma vec_codec_ok {A} (C : Codec A) w : codec_ok C w → codec_ok (vec_codec C) (vec_wf w).
Proof.
  intros HC. apply codec_ok_intro.
  - intros l [Hn Hl]. cbn [enc dec vec_codec]. eapply emits_bind; [by apply (enc_uint_emits true)|]. cbn beta.
    pose proof (rep_emits (λ acc, dbind (@dec _ C) (λ a, dret (acc ++ [a]))) (@enc _ C) (λ acc a, acc ++ [a]) l []) as Hr.
    assert (∀ acc, foldl (λ acc a, acc ++ [a]) acc l = acc ++ l) as He.
    { clear. induction l as [|a l IH]; intros acc; cbn [foldl]; [by rewrite app_nil_r|].
      rewrite IH, <- (assoc_L (++)). done. }
    rewrite He in Hr. apply Hr. intros acc a Ha. apply (emits_bind_ret _ (λ a, acc ++ [a])).
    eapply codec_emits; [apply HC|]. rewrite Forall_forall in Hl. by apply Hl.
  - apply eats_bind; [apply dec_uint_eats|]. intros n. apply rep_keeps. intros acc.
    apply keeps_bind; [by eapply eats_keeps, codec_eats|]. intros; apply keeps_ret.
Qed.
Definition ex_txout_codec : Codec TxOut := {|
  enc u := enc_uint (txo_value u) ++ enc_uint (txo_spk u);
  dec := dbind (dec_uint true) (λ v, dbind (dec_uint true) (λ s, dret (mkTxOut v s)))
|}.
Definition ex_tx_codec : Codec Tx :=
  let CA := pair_codec hash_codec (vec_codec outpoint_codec) in
  let CB := pair_codec (vec_codec ex_txout_codec) u64_codec in {|
  enc t := @enc _ CA (txid t, tx_in t) ++ @enc _ CB (tx_out t, tx_rest t);
  dec := dbind (@dec _ CA) (λ a, dbind (@dec _ CB) (λ b, dret (mkTx a.1 a.2 b.1 b.2)))
|}.
(** Numbers as keychains, heights as positions. *)
Definition ex_leaves : LeafCodecs N TxHeight := {|
  leaf_k := u32_codec; leaf_p := txheight_codec; leaf_tx := ex_tx_codec; leaf_txout := ex_txout_codec
|}.
Definition ex_txout_wf (u : TxOut) : Prop := u64 (txo_value u) ∧ u64 (txo_spk u).
Definition ex_leaf_wf : LeafWf N TxHeight := {|
  wf_k := u32; wf_p := pos_ok;
  wf_tx t := (hash (txid t) ∧ vec_wf (λ o, hash (op_txid o) ∧ u32 (op_vout o)) (tx_in t)) ∧
    vec_wf ex_txout_wf (tx_out t) ∧ u64 (tx_rest t);
  wf_txout := ex_txout_wf
|}.
Global Existing Instances ex_leaves ex_leaf_wf.
Lemma ex_txout_codec_ok : codec_ok ex_txout_codec ex_txout_wf.
Proof.
  exact (struct_ok u64_codec u64_codec ex_txout_codec mkTxOut txo_value txo_spk u64 u64
    ltac:(by intros []) ltac:(done) ltac:(done) u64_codec_ok u64_codec_ok).
Qed.
Global Instance ex_leaf_ok : LeafOk N TxHeight.
Proof.
  split; [apply u32_codec_ok|apply txheight_codec_ok| |apply ex_txout_codec_ok].
  eapply codec_ok_weaken; [|refine (struct_ok (pair_codec hash_codec (vec_codec outpoint_codec))
    (pair_codec (vec_codec ex_txout_codec) u64_codec) ex_tx_codec
    (λ a b, mkTx a.1 a.2 b.1 b.2) (λ t, (txid t, tx_in t)) (λ t, (tx_out t, tx_rest t)) _ _
    ltac:(by intros []) ltac:(done) ltac:(done)
    (pair_codec_ok _ _ _ _ hash_codec_ok (vec_codec_ok _ _ outpoint_codec_ok))
    (pair_codec_ok _ _ _ _ (vec_codec_ok _ _ ex_txout_codec_ok) u64_codec_ok))].
  intros t Ht. exact Ht.
Qed.

(** Checking that a changeset is in range. *)
Definition mapb `{Ord K, Countable K} {V} (kb : K → bool) (vb : V → bool) (m : gmap K V) : bool :=
  (N.of_nat (length (bmap_list m)) <=? u64_max) && forallb (λ kv, kb kv.1 && vb kv.2) (bmap_list m).
Lemma mapb_ok `{Ord K, Countable K} {V} (kb : K → bool) (vb : V → bool) (wk : K → Prop) (wv : V → Prop) m :
  (∀ k, kb k = true → wk k) → (∀ v, vb v = true → wv v) → mapb kb vb m = true → map_range wk wv m.
Proof.
  intros Hk Hv. unfold mapb. rewrite andb_true_iff, N.leb_le, forallb_forall. intros [Hn Hm]. split.
  - unfold u64. rewrite (Permutation_length (entries_perm m)) in Hn. exact Hn.
  - intros k v Hkv. specialize (Hm (k, v)). rewrite <- elem_of_list_In, entries_perm, elem_of_map_to_list in Hm.
    apply Hm in Hkv. apply andb_true_iff in Hkv as [H1 H2]. auto.
Qed.
Definition setb `{Ord A, Countable A} (ab : A → bool) (X : gset A) : bool :=
  (N.of_nat (length (bset_list X)) <=? u64_max) && forallb ab (bset_list X).
Lemma setb_ok `{Ord A, Countable A} (ab : A → bool) (w : A → Prop) X :
  (∀ a, ab a = true → w a) → setb ab X = true → set_range w X.
Proof.
  intros Ha. unfold setb. rewrite andb_true_iff, N.leb_le, forallb_forall. intros [Hn Hm]. split.
  - unfold u64. rewrite (Permutation_length (elements_perm X)) in Hn. exact Hn.
  - intros a Hx. apply Ha, Hm. by rewrite <- elem_of_list_In, elements_perm, elem_of_elements.
Qed.
Definition u32b (n : N) : bool := n <=? u32_max.
Definition u64b (n : N) : bool := n <=? u64_max.
Definition hashb (n : N) : bool := n <=? max_txid.
Definition outpointb (o : OutPoint) : bool := hashb (op_txid o) && u32b (op_vout o).
Definition txoutb (u : TxOut) : bool := u64b (txo_value u) && u64b (txo_spk u).
Definition txb (t : Tx) : bool :=
  hashb (txid t) && (u64b (N.of_nat (length (tx_in t))) && forallb outpointb (tx_in t)) &&
  (u64b (N.of_nat (length (tx_out t))) && forallb txoutb (tx_out t)) && u64b (tx_rest t).
Definition posb (p : TxHeight) : bool := match p with Confirmed h => u32b h | Unconfirmed => true end.
Definition optb {A} (f : A → bool) (o : option A) : bool := match o with Some a => f a | None => true end.
Definition kcsb (cs : KChangeSet N TxHeight) : bool :=
  mapb u32b u32b (kcs_indices cs) &&
  mapb u32b (optb hashb) (cs_cps (cgs_chain (kcs_cg cs))) &&
  mapb hashb (optb posb) (cs_txids (cgs_chain (kcs_cg cs))) &&
  setb txb (ad_tx (cgs_graph (kcs_cg cs))) &&
  mapb outpointb txoutb (ad_txout (cgs_graph (kcs_cg cs))).
Lemma u32b_ok n : u32b n = true → u32 n.
Proof. apply N.leb_le. Qed.
Lemma u64b_ok n : u64b n = true → u64 n.
Proof. apply N.leb_le. Qed.
Lemma hashb_ok n : hashb n = true → hash n.
Proof. apply N.leb_le. Qed.
Lemma optb_ok {A} (f : A → bool) (w : A → Prop) : (∀ a, f a = true → w a) → ∀ o, optb f o = true → option_range w o.
Proof. intros Hf [a|]; [apply Hf|done]. Qed.
Lemma outpointb_ok o : outpointb o = true → hash (op_txid o) ∧ u32 (op_vout o).
Proof. intros Ho. apply andb_true_iff in Ho as [H1 H2]. split; [by apply hashb_ok|by apply u32b_ok]. Qed.
Lemma txoutb_ok u : txoutb u = true → ex_txout_wf u.
Proof. intros Ho. apply andb_true_iff in Ho as [H1 H2]. split; by apply u64b_ok. Qed.
Lemma forallb_ok {A} (f : A → bool) (w : A → Prop) l : (∀ a, f a = true → w a) → forallb f l = true → Forall w l.
Proof. intros Hf Hl. rewrite forallb_forall in Hl. apply Forall_forall. intros a Ha. apply Hf, Hl. by apply elem_of_list_In. Qed.
Lemma txb_ok t : txb t = true → wf_tx t.
Proof.
  unfold txb. rewrite !andb_true_iff. intros [[[H1 [H2 H3]] [H4 H5]] H6].
  split; [split; [by apply hashb_ok|split; [by apply u64b_ok|]]|split; [split; [by apply u64b_ok|]|by apply u64b_ok]].
  - by apply (forallb_ok outpointb); [apply outpointb_ok|].
  - by apply (forallb_ok txoutb); [apply txoutb_ok|].
Qed.
Lemma posb_ok p : posb p = true → pos_ok p.
Proof. destruct p; [apply u32b_ok|done]. Qed.
Lemma kcsb_ok cs : kcsb cs = true → kcs_wf cs.
Proof.
  unfold kcsb. rewrite !andb_true_iff. intros [[[[H1 H2] H3] H4] H5]. unfold kcs_wf.
  split; [|split; [|split; [|split]]].
  - exact (mapb_ok _ _ _ _ _ u32b_ok u32b_ok H1).
  - exact (mapb_ok _ _ _ _ _ u32b_ok (optb_ok _ _ hashb_ok) H2).
  - exact (mapb_ok _ _ _ _ _ hashb_ok (optb_ok _ _ posb_ok) H3).
  - exact (setb_ok _ _ _ txb_ok H4).
  - exact (mapb_ok _ _ _ _ _ outpointb_ok txoutb_ok H5).
Qed.
Lemma all_kcsb l : forallb kcsb l = true → Forall kcs_wf l.
Proof. apply forallb_ok, kcsb_ok. Qed.

(** ** Changesets *)
(** An index only; everything at once; an eviction and a removed checkpoint. *)
Definition fsc (m : list (N * N)) (cps : list (N * option N)) (ts : list (Txid * option TxHeight)) (tx : list Tx)
    (txo : list (OutPoint * TxOut)) : KChangeSet N TxHeight :=
  mkKCS (list_to_map m) (mkCGS (mkChangeSet (list_to_map cps) (list_to_map ts)) (mkAdditions (list_to_set tx) (list_to_map txo))).
Definition fs1 := fsc [(0, 300)] [] [] [] [].
Definition fs2 := fsc [(1, 7); (0, 4000000000)] [(700000, Some 77); (3, None)] [(5, Some (Confirmed 700000)); (6, Some Unconfirmed)]
  [mkTx 5 [mkOutPoint 4 1] [mkTxOut 1000 9; mkTxOut 70000 10] 1] [(mkOutPoint 4 1, mkTxOut 99999999999 3)].
Definition fs3 := fsc [] [(700000, None)] [(5, None)] [] [].
Lemma fs_wf : Forall kcs_wf [fs1; fs2; fs3; kcs_default].
Proof. apply all_kcsb. vm_compute. reflexivity. Qed.

Local Existing Instance kcs_codec.
Definition nums (b : bytes) : list N := Byte.to_N <$> b.

(** Checking a history of store calls. *)
Definition fs_op_okb (g : fs_ghost (K := N) (P := TxHeight)) (op : fs_op) : bool :=
  match op with
  | FsAppend cs e =>
      kcsb cs && bool_decide (is_Some (gh_at g)) &&
      match e with
      | NoFault | SyncFails => true
      | WriteFails j => bool_decide (j = 0%nat ∨ gh_at g = Some (length (gh_log g)) ∧ (gh_tail g ≤ j `min` length (enc cs))%nat)
      | TruncFails => bool_decide (gh_at g = Some (length (gh_log g)) ∧ (gh_tail g ≤ length (enc cs))%nat)
      end
  | _ => true
  end.
Fixpoint fs_hist_okb (g : fs_ghost (K := N) (P := TxHeight)) (h : list fs_op) : bool :=
  match h with [] => true | op :: h => fs_op_okb g op && fs_hist_okb (gh_step g op) h end.
Lemma fs_hist_okb_ok g h : fs_hist_okb g h = true → fs_hist_ok kcs_wf g h.
Proof.
  revert g. induction h as [|op h IH]; intros g Hh; [done|]. cbn [fs_hist_okb] in Hh.
  apply andb_true_iff in Hh as [Hop Hh]. split; [|by apply IH]. destruct op as [|n|cs e]; [done|done|].
  unfold fs_op_okb in Hop. rewrite !andb_true_iff in Hop. destruct Hop as [[H1 H2] H3]. apply bool_decide_eq_true in H2.
  split; [by apply kcsb_ok|]. split; [done|]. destruct e; [done|by apply bool_decide_eq_true in H3..|done].
Qed.
(** Appends across reopenings, a torn entry that is written over, failures to truncate and to sync, and an
    append in the middle, which drops what follows. *)
Definition fs_h : list (fs_op (K := N) (P := TxHeight)) :=
  [FsAppend fs1 NoFault; FsOpen; FsRead 9; FsAppend fs2 (WriteFails 40); FsOpen; FsRead 2; FsAppend kcs_default NoFault;
   FsAppend fs3 (WriteFails 0); FsAppend fs2 SyncFails; FsAppend fs3 TruncFails; FsOpen; FsRead 2; FsAppend fs1 NoFault;
   FsAppend fs3 (WriteFails 10)].
Lemma fs_h_ok : fs_hist_ok kcs_wf gh_new fs_h.
Proof. apply fs_hist_okb_ok. vm_compute. reflexivity. Qed.
(** What reading a file shows. *)
Definition kcs_obs (cs : KChangeSet N TxHeight) :=
  (bmap_list (kcs_indices cs), bmap_list (cs_cps (cgs_chain (kcs_cg cs))), bmap_list (cs_txids (cgs_chain (kcs_cg cs))),
   bset_list (ad_tx (cgs_graph (kcs_cg cs))), bmap_list (ad_txout (cgs_graph (kcs_cg cs)))).
Definition ok_of {A E} (r : result A E) : bool := match r with Ok _ => true | Err _ => false end.
Definition agg_obs (f : File) :=
  match aggregate_changeset (K := N) (P := TxHeight) f with Some (Ret (cs, _, r)) => Some (kcs_obs cs, ok_of r) | _ => None end.

(** Files for the refutations: a new store, and one with an entry. *)
Definition fs_f0 : File := mkFile magic (length magic).
Notation fs_none := (@nil (KChangeSet N TxHeight)) (only parsing).
(** A txid whose first bytes are 200, 0, 0, 0, 0. *)
Definition fs_txid : N := 200 * 2 ^ 248 + 7.
Definition fs4 := fsc [] [] [(fs_txid, Some Unconfirmed)] [] [].
Lemma double_crash_obs :
  (f1 ← session (append_changeset fs_f0 fs4 (WriteFails 9)).1 fs_none;
   f2 ← session (append_changeset f1 fs1 (WriteFails 4)).1 fs_none;
   agg_obs f2) = Some ([(0, 51244)], [], [], [], [], true).
Proof. vm_compute. reflexivity. Qed.
Lemma agg_obs_Some f o ok : agg_obs f = Some (o, ok) →
  ∃ cs f' r, aggregate_changeset f = Some (Ret (cs, f', r)) ∧ kcs_obs cs = o ∧ ok_of r = ok.
Proof.
  unfold agg_obs. destruct (aggregate_changeset f) as [[[[cs f'] r]|]|]; [|done|done].
  intros [= <- <-]. by exists cs, f', r.
Qed.
Lemma ok_of_true {E} (r : result unit E) : ok_of r = true → r = Ok tt.
Proof. by destruct r as [[]|]. Qed.
Lemma ok_of_false {A E} (r : result A E) : ok_of r = false → ∃ e, r = Err e.
Proof. destruct r as [|e]; [done|]. by exists e. Qed.
Lemma double_crash_witness : ∃ (cs1 cs2 : KChangeSet N TxHeight) j1 j2 f0 f1 f2 f3 cs,
  Forall kcs_wf [cs1; cs2] ∧ fs_new_from_path None None = (magic, Ok f0) ∧
  session (append_changeset f0 cs1 (WriteFails j1)).1 fs_none = Some f1 ∧
  session (append_changeset f1 cs2 (WriteFails j2)).1 fs_none = Some f2 ∧
  aggregate_changeset f2 = Some (Ret (cs, f3, Ok tt)) ∧
  bmap_list (kcs_indices cs1) = [] ∧ bmap_list (kcs_indices cs2) = [(0, 300)] ∧ bmap_list (kcs_indices cs) = [(0, 51244)].
Proof.
  pose proof double_crash_obs as Ho.
  destruct (session (append_changeset fs_f0 fs4 (WriteFails 9)).1 fs_none) as [f1|] eqn:E1; [|discriminate].
  cbn [mbind option_bind] in Ho.
  destruct (session (append_changeset f1 fs1 (WriteFails 4)).1 fs_none) as [f2|] eqn:E2; [|discriminate].
  cbn [mbind option_bind] in Ho. apply agg_obs_Some in Ho as (cs & f3 & r & Ha & Hcs & Hr).
  apply ok_of_true in Hr. subst r.
  exists fs4, fs1, 9%nat, 4%nat, fs_f0, f1, f2, f3, cs. split; [apply all_kcsb; vm_compute; reflexivity|].
  split; [reflexivity|]. split; [exact E1|]. split; [exact E2|]. split; [exact Ha|].
  split; [vm_compute; reflexivity|]. split; [vm_compute; reflexivity|]. unfold kcs_obs in Hcs. by injection Hcs as -> _.
Qed.
(** A commit fails after three bytes and is tried again. *)
Definition fs_retry : Persist N TxHeight StoreBackend := pe_run (mkSB fs_f0 [WriteFails 3]) [PeStage fs1; PeCommit; PeCommit].
Lemma retry_obs :
  (kcs_obs (pe_stage fs_retry),
   match reopen (sb_file (pe_backend fs_retry)) with Ok f1 => agg_obs f1 | Err _ => None end) =
  (([], [], [], [], []), Some ([], [], [], [], [], false)).
Proof. vm_compute. reflexivity. Qed.
Lemma kcs_obs_default cs : kcs_obs cs = ([], [], [], [], []) → cs = kcs_default.
Proof.
  destruct cs as [ind [[cps txs] [tx txo]]]. unfold kcs_obs. cbn [kcs_cg kcs_indices cgs_chain cgs_graph cs_cps cs_txids ad_tx ad_txout].
  intros E. injection E as E1 E2 E3 E4 E5.
  apply bmap_list_nil_inv in E1, E2, E3, E5.
  assert (tx = ∅) as -> by (apply leibniz_equiv; intros t; rewrite <- elem_of_bset_list, E4; set_solver).
  subst. reflexivity.
Qed.
Lemma retry_from (p : Persist N TxHeight StoreBackend) :
  (kcs_obs (pe_stage p), match reopen (sb_file (pe_backend p)) with Ok f1 => agg_obs f1 | Err _ => None end) =
    (([], [], [], [], []), Some ([], [], [], [], [], false)) →
  ∃ f1 f2 e, pe_stage p = kcs_default ∧ reopen (sb_file (pe_backend p)) = Ok f1 ∧
    aggregate_changeset f1 = Some (Ret (kcs_default : KChangeSet N TxHeight, f2, Err e)).
Proof.
  intros Ho. pose proof (f_equal fst Ho) as Hs. pose proof (f_equal snd Ho) as Hr. unfold fst in Hs. unfold snd in Hr.
  destruct (reopen (sb_file (pe_backend p))) as [f1|]; [|discriminate].
  apply agg_obs_Some in Hr as (cs & f' & r & Ha & Hcs & Hr). apply ok_of_false in Hr as [e ->].
  apply kcs_obs_default in Hcs as ->. apply kcs_obs_default in Hs. by exists f1, f', e.
Qed.
Lemma retry_witness : ∃ (cs : KChangeSet N TxHeight) j f0,
  kcs_wf cs ∧ kcs_is_empty cs = false ∧ fs_new_from_path None None = (magic, Ok f0) ∧
  let p := pe_run (mkSB f0 [WriteFails j]) [PeStage cs; PeCommit; PeCommit] in
  ∃ f1 f2 e, pe_stage p = kcs_default ∧ reopen (sb_file (pe_backend p)) = Ok f1 ∧
    aggregate_changeset f1 = Some (Ret (kcs_default : KChangeSet N TxHeight, f2, Err e)).
Proof.
  exists fs1, 3%nat, fs_f0. split; [apply kcsb_ok; vm_compute; reflexivity|].
  split; [vm_compute; reflexivity|]. split; [reflexivity|]. cbv zeta. exact (retry_from fs_retry retry_obs).
Qed.
(** A store with one entry is opened and another is appended. *)
Lemma overwrite_witness : ∃ (cs1 cs2 : KChangeSet N TxHeight) f0 f1 f2 f3,
  Forall kcs_wf [cs1; cs2] ∧ fs_new_from_path None None = (magic, Ok f0) ∧
  reopen (append_changeset f0 cs1 NoFault).1 = Ok f1 ∧ reopen (append_changeset f1 cs2 NoFault).1 = Ok f2 ∧
  aggregate_changeset f2 = Some (Ret (cs2, f3, Ok tt)) ∧
  bmap_list (kcs_indices cs1) = [(0, 300)] ∧ bmap_list (kcs_indices cs2) = [].
Proof.
  assert (agg_obs (mkFile (f_bytes (append_changeset (mkFile (f_bytes (append_changeset fs_f0 fs1 NoFault).1) 12) fs3 NoFault).1) 12) =
    Some (kcs_obs fs3, true)) as Ho by (vm_compute; reflexivity).
  apply agg_obs_Some in Ho as (cs & f3 & r & Ha & Hcs & Hr). apply ok_of_true in Hr. subst r.
  assert (cs = fs3) as ->.
  { unfold kcs_obs in Hcs. destruct cs as [ind [[cps txs] [tx txo]]].
    cbn [kcs_cg kcs_indices cgs_chain cgs_graph cs_cps cs_txids ad_tx ad_txout] in Hcs.
    injection Hcs as E1 E2 E3 E4 E5. unfold fs3, fsc. f_equal.
    - rewrite <- (list_to_map_bmap_list ind), E1. apply list_to_map_bmap_list.
    - f_equal; f_equal.
      + rewrite <- (list_to_map_bmap_list cps), E2. apply list_to_map_bmap_list.
      + rewrite <- (list_to_map_bmap_list txs), E3. apply list_to_map_bmap_list.
      + apply leibniz_equiv. intros t. rewrite <- elem_of_bset_list, E4. apply elem_of_bset_list.
      + rewrite <- (list_to_map_bmap_list txo), E5. apply list_to_map_bmap_list. }
  eexists fs1, fs3, fs_f0, _, _, f3. split; [apply all_kcsb; vm_compute; reflexivity|].
  split; [reflexivity|]. split; [|split; [|split; [exact Ha|split; vm_compute; reflexivity]]].
  - vm_compute. reflexivity.
  - vm_compute. reflexivity.
Qed.
(** A file with a bad entry. *)
Definition fs_bad : EntryIter := it_new (mkFile (magic ++ [byte_of 255]) 12).
Lemma iter_witness : ∃ (it it' : EntryIter) e, it_next (V := KChangeSet N TxHeight) it = (it', Some (Err e)) ∧
  it_error it' = true ∧ (it_next (V := KChangeSet N TxHeight) it').2 = Some (Err e).
Proof. exists fs_bad. eexists _, _. split; [vm_compute; reflexivity|]. split; reflexivity. Qed.
(** Wallet histories in range. *)
Local Existing Instance ex_env.
Lemma tr_h_range : tr_obs tr_s tr_h (λ _ l1, (forallb kcsb l1, length l1, length (recorded l1))) = Some (true, 9%nat, 8%nat).
Proof. vm_compute. reflexivity. Qed.
(** Merges of consecutive changesets in range. *)
Definition mergesb (l : list (KChangeSet N TxHeight)) : bool :=
  forallb (λ i, forallb (λ n, kcsb (fold_changes (take n (drop i l)))) (seq 0 (S (length l)))) (seq 0 (S (length l))).
Lemma mergesb_ok l : mergesb l = true → ∀ l1 l2 l3, l = l1 ++ l2 ++ l3 → kcs_wf (fold_changes l2).
Proof.
  intros Hl l1 l2 l3 ->. apply kcsb_ok. unfold mergesb in Hl. rewrite forallb_forall in Hl.
  specialize (Hl (length l1)). rewrite forallb_forall in Hl.
  assert (take (length l2) (drop (length l1) (l1 ++ l2 ++ l3)) = l2) as He by (by rewrite drop_app, take_app).
  rewrite <- He. apply Hl; apply in_seq; rewrite !app_length; lia.
Qed.
Definition fs_pe : list (pe_op N TxHeight) := [PeStage fs1; PeCommit; PeStage fs3; PeCommit; PeStage fs1; PeCommit].
Lemma fs_pe_range : ∀ l1 l2 l3, staged_in fs_pe = l1 ++ l2 ++ l3 → kcs_wf (fold_changes l2).
Proof. apply mergesb_ok. vm_compute. reflexivity. Qed.
