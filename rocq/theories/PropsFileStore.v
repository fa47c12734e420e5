(** C45-C50: the file store and its encoding. *)
From Verif Require Import FileStoreExamples.
Local Existing Instance kcs_codec.

Section codec.
Context `{Countable K, !Ord K} `{!LeafCodecs K P, !LeafWf K P, !LeafOk K P}.
(** C49: decoding an encoded changeset returns it and leaves what follows; an encoding cut short is an
    unexpected end of file; whatever is decoded, the bytes not read are left as they are. *)
Theorem C49_roundtrip (cs : KChangeSet K P) r : kcs_wf cs → dec (enc cs ++ r) = DOk cs r.
Proof. exact (co_roundtrip _ _ kcs_codec_ok cs r). Qed.
Theorem C49_cut (cs : KChangeSet K P) b : kcs_wf cs → cut_short b (enc cs) → dec (A := KChangeSet K P) b = DErr Eof.
Proof. exact (co_cut _ _ kcs_codec_ok cs b). Qed.
Theorem C49_rest b (cs : KChangeSet K P) r : dec b = DOk cs r → ∃ c, c ≠ [] ∧ b = c ++ r.
Proof. exact (co_rest _ _ kcs_codec_ok b cs r). Qed.
End codec.
(** The positions of the two chain types. *)
Theorem C49_positions : codec_ok txheight_codec pos_ok ∧ codec_ok conftime_codec pos_ok.
Proof. exact (conj txheight_codec_ok conftime_codec_ok). Qed.

Section store.
Context `{!DescEnv} `{Countable K, !Ord K, !OrdLaws K} `{ChainPositionLaws P} `{!LeafCodecs K P, !LeafWf K P, !LeafOk K P}.
Implicit Types (cs : KChangeSet K P) (l : list (KChangeSet K P)).
(** C45: in sessions that open, load and then append, the file holds exactly the non-empty changesets
    appended, in order, and loading applies exactly those. *)
Theorem C45_sessions (ls : list (list (KChangeSet K P))) : Forall (Forall kcs_wf) ls →
  ∃ f0 f, fs_new_from_path None None = (magic, Ok f0) ∧ sessions f0 ls = Some f ∧
    f_bytes f = log_bytes (recorded (concat ls)) ∧
    aggregate_changeset f = Some (Ret (fold_changes (recorded (concat ls)), mkFile (f_bytes f) (length (f_bytes f)), Ok tt)) ∧
    ∀ x, load_into_keychain_tracker f x =
      Some (y ← tr_replay x (recorded (concat ls)); Ret (y, mkFile (f_bytes f) (length (f_bytes f)), Ok tt)).
Proof. exact (store_sessions kcs_wf kcs_codec_ok kcs_range_default ls). Qed.
(** C45, C46: the same for any interleaving of opening, reading part or all of the file, and appending,
    with failing appends, as long as appends happen at the start of an entry, and those that leave bytes
    behind happen at the end and cover an entry torn before. *)
Theorem C45_history_partial (h : list (fs_op (K := K) (P := P))) : fs_hist_ok kcs_wf gh_new h →
  ∃ f0 t, fs_new_from_path None None = (magic, Ok f0) ∧
    let f := fs_run f0 h in let g := gh_run gh_new h in
    f_bytes f = log_bytes (gh_log g) ++ t ∧ length t = gh_tail g ∧
    (∀ k, gh_at g = Some k → f_pos f = length (log_bytes (take k (gh_log g)))) ∧
    aggregate_changeset f = Some (Ret (fold_changes (gh_log g), mkFile (f_bytes f) (length (log_bytes (gh_log g))),
      if bool_decide (gh_tail g = 0%nat) then Ok tt else Err (IeBincode Eof))) ∧
    ∀ x, load_into_keychain_tracker f x = Some (y ← tr_replay x (gh_log g);
      Ret (y, mkFile (f_bytes f) (length (log_bytes (gh_log g))),
        if bool_decide (gh_tail g = 0%nat) then Ok tt else Err (IeBincode Eof))).
Proof. exact (history_ok kcs_wf kcs_codec_ok kcs_range_default h). Qed.
(** A wallet that commits every change to a store is restored from it. *)
Theorem C45_wallet A W s lm lm' (h : list (tr_op K P)) x0 y0 f0 :
  good_env A → ki_hist_ok A s → tr_setup s lm = Ret x0 → tr_setup s lm' = Ret y0 → Forall (tr_op_ok A W s) h →
  fs_new_from_path None None = (magic, Ok f0) →
  ∃ x l1, tr_run x0 h = Ret (x, l1) ∧
    (Forall kcs_wf l1 → ∃ f1 y f2,
      reopen (sb_file (pe_backend (pe_run (mkSB f0 []) (commit_each l1)))) = Ok f1 ∧
      load_into_keychain_tracker f1 y0 = Some (Ret (y, f2, Ok tt)) ∧
      same_index (tr_index x) (tr_index y) ∧ same_txs (tr_cg x) (tr_cg y) ∧
      (Forall (λ op, ¬ offers_outputs op) h → same_outputs (tr_index x) (tr_index y)) ∧
      (lm = lm' → Forall (λ op, ¬ sets_limit op) h → tr_cg x = tr_cg y)).
Proof. exact (wallet_ok kcs_wf kcs_codec_ok kcs_range_default A W s lm lm' h x0 y0 f0). Qed.
(** Staging and committing in any pattern, when failing writes write nothing: the file holds the merges of
    consecutive groups of staged changesets, in order, and what is missing is still staged. *)
Theorem C45_persist f0 faults (h : list (pe_op K P)) :
  fs_new_from_path None None = (magic, Ok f0) → Forall clean faults →
  (∀ l1 l2 l3, staged_in h = l1 ++ l2 ++ l3 → kcs_wf (fold_changes l2)) →
  ∃ segs rest f1, staged_in h = concat segs ++ rest ∧ pe_stage (pe_run (mkSB f0 faults) h) = fold_changes rest ∧
    reopen (sb_file (pe_backend (pe_run (mkSB f0 faults) h))) = Ok f1 ∧
    (∃ f2, aggregate_changeset f1 = Some (Ret (fold_changes (recorded (fold_changes <$> segs)), f2, Ok tt))) ∧
    ∀ x, ∃ f2, load_into_keychain_tracker f1 x = Some (y ← tr_replay x (recorded (fold_changes <$> segs)); Ret (y, f2, Ok tt)).
Proof. exact (persist_store_ok kcs_wf kcs_codec_ok kcs_range_default f0 faults h). Qed.
(** C46: a failure or crash at any point of an append at the end of a sound file loses at most that entry;
    the error is reported on loading, and appending goes on as if it had not been written. *)
Theorem C46_crash_partial f l cs e l2 :
  f_bytes f = log_bytes l → f_pos f = length (log_bytes l) → Forall kcs_wf l → kcs_wf cs → Forall kcs_wf l2 →
  let l' := l ++ if reached cs e then recorded [cs] else [] in
  ∃ f1 f2, reopen (append_changeset f cs e).1 = Ok f1 ∧
    aggregate_changeset f1 = Some (Ret (fold_changes l', mkFile (f_bytes f1) (length (log_bytes l')),
      if leaves_torn cs e then Err (IeBincode Eof) else Ok tt)) ∧
    session f1 l2 = Some f2 ∧
    aggregate_changeset f2 = Some (Ret (fold_changes (l' ++ recorded l2), mkFile (f_bytes f2) (length (log_bytes (l' ++ recorded l2))),
      if leaves_torn cs e && bool_decide (recorded l2 = []) then Err (IeBincode Eof) else Ok tt)).
Proof. exact (crash_ok kcs_wf kcs_codec_ok kcs_range_default f l cs e l2). Qed.
(** C47: appending right after opening replaces all entries there are. *)
Theorem C47_replaces f l t cs : f_bytes f = log_bytes l ++ t → kcs_is_empty cs = false →
  ∃ f1, reopen f = Ok f1 ∧ f_bytes (append_changeset f1 cs NoFault).1 = log_bytes [cs].
Proof. exact (append_on_open f l t cs). Qed.
(** C48: once the iterator returned an error it returns the same error for ever; only once it returned
    [None] does it go on returning [None]. *)
Theorem C48_error_repeats it it' e n : it_next (V := KChangeSet K P) it = (it', Some (Err e)) →
  it_next (V := KChangeSet K P) (next_n (K := K) (P := P) n it') = (it', Some (Err e)).
Proof. exact (err_forever it it' e n). Qed.
Theorem C48_none_partial it it' n : it_next (V := KChangeSet K P) it = (it', None) →
  it_next (V := KChangeSet K P) (next_n (K := K) (P := P) n it') = (it', None).
Proof. exact (none_forever it it' n). Qed.
(** C50: a crash after all of the magic bytes leaves an empty store. *)
Theorem C50_complete_partial j : (12 ≤ j)%nat →
  fs_new_from_path None (Some j) = (magic, Err FeIo) ∧ ∃ f, fs_new_from_path (Some magic) None = (magic, Ok f) ∧
    aggregate_changeset f = Some (Ret (kcs_default : KChangeSet K P, f, Ok tt)).
Proof. exact (create_done kcs_wf kcs_codec_ok kcs_range_default j). Qed.
End store.

(** A crash before that leaves a file that can never be opened. *)
Theorem C50_refuted j : (j < 12)%nat →
  ∃ b, fs_new_from_path None (Some j) = (b, Err FeIo) ∧ ∀ e, fs_new_from_path (Some b) e = (b, Err FeIo).
Proof. exact (create_crash j). Qed.
(** Two crashes, the second after fewer bytes: the file loads, without error, a changeset nobody appended. *)
Theorem C46_double_refuted : ∃ (cs1 cs2 : KChangeSet N TxHeight) j1 j2 f0 f1 f2 f3 cs,
  Forall kcs_wf [cs1; cs2] ∧ fs_new_from_path None None = (magic, Ok f0) ∧
  session (append_changeset f0 cs1 (WriteFails j1)).1 (@nil (KChangeSet N TxHeight)) = Some f1 ∧
  session (append_changeset f1 cs2 (WriteFails j2)).1 (@nil (KChangeSet N TxHeight)) = Some f2 ∧
  aggregate_changeset f2 = Some (Ret (cs, f3, Ok tt)) ∧
  bmap_list (kcs_indices cs1) = [] ∧ bmap_list (kcs_indices cs2) = [(0, 300)] ∧ bmap_list (kcs_indices cs) = [(0, 51244)].
Proof. exact double_crash_witness. Qed.
(** A commit fails after some bytes and is retried with success: the change is not in the file. *)
Theorem C46_retry_refuted : ∃ (cs : KChangeSet N TxHeight) j f0,
  kcs_wf cs ∧ kcs_is_empty cs = false ∧ fs_new_from_path None None = (magic, Ok f0) ∧
  let p := pe_run (mkSB f0 [WriteFails j]) [PeStage cs; PeCommit; PeCommit] in
  ∃ f1 f2 e, pe_stage p = kcs_default ∧ reopen (sb_file (pe_backend p)) = Ok f1 ∧
    aggregate_changeset f1 = Some (Ret (kcs_default : KChangeSet N TxHeight, f2, Err e)).
Proof. exact retry_witness. Qed.
(** C47 fails on a store with one entry. *)
Theorem C47_refuted : ∃ (cs1 cs2 : KChangeSet N TxHeight) f0 f1 f2 f3,
  Forall kcs_wf [cs1; cs2] ∧ fs_new_from_path None None = (magic, Ok f0) ∧
  reopen (append_changeset f0 cs1 NoFault).1 = Ok f1 ∧ reopen (append_changeset f1 cs2 NoFault).1 = Ok f2 ∧
  aggregate_changeset f2 = Some (Ret (cs2, f3, Ok tt)) ∧
  bmap_list (kcs_indices cs1) = [(0, 300)] ∧ bmap_list (kcs_indices cs2) = [].
Proof. exact overwrite_witness. Qed.
(** C48 fails on a file with a bad entry; the flag is set and ignored. *)
Theorem C48_refuted : ∃ (it it' : EntryIter) e, it_next (V := KChangeSet N TxHeight) it = (it', Some (Err e)) ∧
  it_error it' = true ∧ (it_next (V := KChangeSet N TxHeight) it').2 = Some (Err e).
Proof. exact iter_witness. Qed.

Print Assumptions C49_roundtrip.
Print Assumptions C49_cut.
Print Assumptions C49_rest.
Print Assumptions C49_positions.
Print Assumptions C45_sessions.
Print Assumptions C45_history_partial.
Print Assumptions C45_wallet.
Print Assumptions C45_persist.
Print Assumptions C46_crash_partial.
Print Assumptions C47_replaces.
Print Assumptions C48_error_repeats.
Print Assumptions C48_none_partial.
Print Assumptions C50_complete_partial.
Print Assumptions C50_refuted.
Print Assumptions C46_double_refuted.
Print Assumptions C46_retry_refuted.
Print Assumptions C47_refuted.
Print Assumptions C48_refuted.

(** ** Concrete cases *)
(** Changesets with indices, checkpoints, positions, transactions and outputs, and removals. *)
Example C49_ex : Forall kcs_wf [fs1; fs2; fs3; kcs_default].
Proof. exact fs_wf. Qed.
Example C49_ex_bytes : nums (enc fs1) = [1; 0; 251; 44; 1; 0; 0; 0; 0] ∧ length (enc fs2) = 253%nat ∧
  length (enc fs3) = 45%nat.
Proof. vm_compute. auto. Qed.
Example C49_ex_cut : cut_short (take 5 (enc fs1)) (enc fs1).
Proof. eexists _, _. vm_compute. reflexivity. Qed.
Example C45_ex_sessions : Forall (Forall kcs_wf) [[fs1; kcs_default]; []; [fs2; fs3]; [fs1]].
Proof. repeat (constructor; [apply all_kcsb; vm_compute; reflexivity|]). constructor. Qed.
Example C45_ex_loaded :
  (f ← sessions fs_f0 [[fs1; kcs_default]; []; [fs3]; [fs1]]; agg_obs f) =
  Some ([(0, 300)], [(700000, None)], [(5, None)], [], [], true).
Proof. vm_compute. reflexivity. Qed.
(** Torn entries, failures to truncate and to sync, and an append in the middle. *)
Example C45_ex_history : fs_hist_ok kcs_wf gh_new fs_h.
Proof. exact fs_h_ok. Qed.
Example C45_ex_history_obs :
  let g := gh_run gh_new fs_h in
  (kcs_obs <$> gh_log g, gh_tail g, gh_at g) = (kcs_obs <$> [fs1; fs2; fs1], 10%nat, None).
Proof. vm_compute. reflexivity. Qed.
Section wallet.
Local Existing Instance ex_env.
Example C45_ex_wallet : good_env exA ∧ ki_hist_ok exA tr_s ∧ Forall (tr_op_ok exA trW tr_s) tr_h ∧
  tr_obs tr_s tr_h (λ _ l1, (forallb kcsb l1, length l1, length (recorded l1))) = Some (true, 9%nat, 8%nat).
Proof. exact (conj exA_good (conj tr_s_ok (conj tr_h_ok tr_h_range))). Qed.
End wallet.
(** Writes that fail at once, and a commit that is retried. *)
Example C45_ex_persist : Forall clean [NoFault; WriteFails 0] ∧
  (∀ l1 l2 l3, staged_in fs_pe = l1 ++ l2 ++ l3 → kcs_wf (fold_changes l2)) ∧
  let p := pe_run (mkSB fs_f0 [NoFault; WriteFails 0]) fs_pe in
  match reopen (sb_file (pe_backend p)) with Ok f => agg_obs f | Err _ => None end =
    Some ([(0, 300)], [(700000, None)], [(5, None)], [], [], true).
Proof. split; [constructor; [by left|constructor; [by right|constructor]]|split; [exact fs_pe_range|vm_compute; reflexivity]]. Qed.
(** An entry torn after 20 of its bytes. *)
Example C46_ex : leaves_torn fs3 (WriteFails 20) = true ∧ reached fs3 (WriteFails 20) = false ∧
  let f := (append_changeset fs_f0 fs1 NoFault).1 in
  f_bytes f = log_bytes [fs1] ∧ f_pos f = length (log_bytes [fs1]) ∧
  agg_obs (append_changeset f fs3 (WriteFails 20)).1 = Some ([(0, 300)], [], [], [], [], false).
Proof. vm_compute. auto. Qed.
(** Three entries and three more bytes, replaced by one entry. *)
Example C47_ex : kcs_is_empty fs3 = false ∧
  match reopen (mkFile (log_bytes [fs1; fs2; fs1] ++ take 3 (enc fs2)) 12) with
  | Ok f1 => (λ o, (o.1.1.1.1.1, o.1.1.1.1.2, o.2)) <$> agg_obs f1 = Some ([(0, 4000000000); (1, 7)], [(3, None); (700000, Some 77)], false) ∧
      f_bytes (append_changeset f1 fs3 NoFault).1 = log_bytes [fs3]
  | Err _ => False
  end.
Proof. vm_compute. auto. Qed.
(** An iterator at the end, one on a bad entry, and one after an entry. *)
Example C48_ex : ok_of <$> (it_next (V := KChangeSet N TxHeight) fs_bad).2 = Some false ∧
  (it_next (V := KChangeSet N TxHeight) (it_new fs_f0)).2 = None.
Proof. vm_compute. auto. Qed.
(** Killed after the eighth of the magic bytes, and after all. *)
Example C50_ex : fs_new_from_path None (Some 8%nat) = (take 8 magic, Err FeIo) ∧ fs_new_from_path (Some (take 8 magic)) None = (take 8 magic, Err FeIo) ∧
  fs_new_from_path None (Some 12%nat) = (magic, Err FeIo) ∧ fs_new_from_path (Some magic) None = (magic, Ok (mkFile magic 12)).
Proof. vm_compute. auto. Qed.
