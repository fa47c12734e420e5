(** More proofs about the file store: crashes, iteration, staging through a store. *)
From Verif Require Export FileStoreProofs.

Section store.
Context `{!DescEnv} `{Countable K, !Ord K} `{ChainPosition P} {C : Codec (KChangeSet K P)}.
Context (wf : KChangeSet K P → Prop) (HC : codec_ok C wf) (Hdef : wf kcs_default).
Implicit Types (f : File) (cs : KChangeSet K P) (l : list (KChangeSet K P)) (b t r : bytes).

(** ** A crash while appending *)
Lemma crash_append f l cs e : f_bytes f = log_bytes l → f_pos f = length (log_bytes l) → wf cs →
  ∃ t, torn wf t ∧ (t = [] ↔ leaves_torn cs e = false) ∧
    f_bytes (append_changeset f cs e).1 = log_bytes (l ++ if reached cs e then recorded [cs] else []) ++ t.
Proof.
  intros Hb Hp Hcs. unfold leaves_torn, append_changeset. destruct (kcs_is_empty cs) eqn:Hemp.
  { exists []. split_and!; [by left|done|]. unfold recorded. rewrite filter_cons_False, filter_nil by (by rewrite Hemp).
    destruct (reached cs e); by rewrite !app_nil_r. }
  assert (recorded [cs] = [cs]) as -> by (unfold recorded; by rewrite filter_cons_True, filter_nil).
  assert (f_bytes f = log_bytes l ++ []) as Hb' by (by rewrite app_nil_r).
  assert (∀ e, e = NoFault ∨ e = SyncFails → f_bytes (append_changeset f cs e).1 = log_bytes (l ++ [cs])) as Hfine.
  { intros e' He. by rewrite (append_fine f l [] cs e' Hb' Hp Hemp He). }
  assert (∀ e : fault, e = NoFault ∨ e = SyncFails → append_changeset f cs e =
    (let f := write f (enc cs) in let f := set_len f (f_pos f) in
     if negb (da_is_empty (kcs_indices cs)) && (match e with SyncFails => true | _ => false end)
     then (f, Err IoFailed) else (f, Ok tt))) as Hun.
  { intros e' [-> | ->]; unfold append_changeset; by rewrite Hemp. }
  destruct e as [|j| |]; cbn [reached negb andb].
  - exists []. split_and!; [by left|done|]. rewrite app_nil_r, <- (Hfine NoFault), Hun by (by left). done.
  - cbn [fst]. rewrite (write_at (log_bytes l) [] (take j (enc cs)) f Hb' Hp). cbn [f_bytes]. rewrite drop_nil, app_nil_r.
    destruct (bool_decide (length (enc cs) ≤ j)%nat) eqn:E.
    + apply bool_decide_eq_true in E. exists []. rewrite take_ge, log_bytes_snoc, app_nil_r by done.
      split_and!; [by left| |done]. rewrite bool_decide_eq_false_2 by lia. done.
    + apply bool_decide_eq_false in E. exists (take j (enc cs)). rewrite app_nil_r. split_and!; [| |done].
      * right. exists cs. split; [done|]. destruct (drop j (enc cs)) as [|x d] eqn:E'.
        { apply (f_equal length) in E'. rewrite drop_length in E'. cbn in E'. lia. }
        exists x, d. by rewrite <- E', take_drop.
      * rewrite bool_decide_eq_false. split.
        -- intros Ht. apply (f_equal length) in Ht. rewrite take_length in Ht. cbn in Ht. lia.
        -- intros Hj. assert (j = 0)%nat as -> by lia. done.
  - exists []. split_and!; [by left|done|]. rewrite app_nil_r. cbn [fst].
    rewrite (write_at (log_bytes l) [] (enc cs) f Hb' Hp). cbn [f_bytes]. by rewrite drop_nil, app_nil_r, log_bytes_snoc.
  - exists []. split_and!; [by left|done|]. rewrite app_nil_r, <- (Hfine SyncFails), Hun by (by right). done.
Qed.
Lemma reopen_log f l t : f_bytes f = log_bytes l ++ t → reopen f = Ok (mkFile (f_bytes f) (length magic)).
Proof. intros Hb. unfold reopen. rewrite Hb. unfold log_bytes. rewrite <- (assoc_L (++)). apply fs_new_log. Qed.
Lemma append_all_none f l : recorded l = [] → append_all f l = f.
Proof.
  revert f. induction l as [|c l IH]; intros f Hr; [done|].
  unfold recorded in Hr. rewrite filter_cons in Hr. destruct (decide (kcs_is_empty c = false)) as [|Hc]; [done|].
  change (append_all (append_changeset f c NoFault).1 l = f). unfold append_changeset.
  destruct (kcs_is_empty c); [by apply IH|done].
Qed.
Lemma crash_ok f l cs e l2 :
  f_bytes f = log_bytes l → f_pos f = length (log_bytes l) → Forall wf l → wf cs → Forall wf l2 →
  let l' := l ++ if reached cs e then recorded [cs] else [] in
  ∃ f1 f2, reopen (append_changeset f cs e).1 = Ok f1 ∧
    aggregate_changeset f1 = Some (Ret (fold_changes l', mkFile (f_bytes f1) (length (log_bytes l')),
      if leaves_torn cs e then Err (IeBincode Eof) else Ok tt)) ∧
    session f1 l2 = Some f2 ∧
    aggregate_changeset f2 = Some (Ret (fold_changes (l' ++ recorded l2), mkFile (f_bytes f2) (length (log_bytes (l' ++ recorded l2))),
      if leaves_torn cs e && bool_decide (recorded l2 = []) then Err (IeBincode Eof) else Ok tt)).
Proof.
  intros Hb Hp Hl Hcs Hl2 l'. destruct (crash_append f l cs e Hb Hp Hcs) as (t & Ht & Hte & Hb').
  fold l' in Hb'.
  assert (Forall wf l') as Hl'.
  { apply Forall_app. split; [done|]. destruct (reached cs e); [|constructor]. apply recorded_wf. by constructor. }
  set (f' := (append_changeset f cs e).1) in *.
  exists (mkFile (f_bytes f') (length magic)).
  set (f1 := mkFile (f_bytes f') (length magic)).
  assert (f_bytes f1 = log_bytes l' ++ t) as Hb1 by exact Hb'.
  pose proof (aggregate_ok wf HC Hdef f1 l' t Hb1 Ht Hl') as Ha.
  assert (read_result t = if leaves_torn cs e then Err (IeBincode Eof) else Ok tt) as Hr.
  { unfold read_result. destruct (leaves_torn cs e) eqn:E.
    - rewrite bool_decide_eq_false_2; [done|]. intros Ht'. apply Hte in Ht'. done.
    - rewrite bool_decide_eq_true_2; [done|]. by apply Hte. }
  destruct (append_all_torn wf (mkFile (f_bytes f1) (length (log_bytes l'))) l' t l2 Hb1 eq_refl Ht Hl' Hl2)
    as (t' & Ht' & Hcase & Hb2).
  exists (append_all (mkFile (f_bytes f1) (length (log_bytes l'))) l2).
  split_and!; [by eapply reopen_log|by rewrite Ha, Hr| |].
  - unfold session. rewrite (reopen_log f1 l' t Hb1). unfold load.
    rewrite (aggregate_ok wf HC Hdef (mkFile (f_bytes f1) (length magic)) l' t Hb1 Ht Hl'). reflexivity.
  - rewrite (aggregate_ok wf HC Hdef _ (l' ++ recorded l2) t' Hb2 Ht').
    2: { apply Forall_app. split; [done|by apply recorded_wf]. }
    do 3 f_equal. unfold read_result. destruct Hcase as [->|[-> Hrec]].
    + rewrite bool_decide_eq_true_2 by done. destruct (leaves_torn cs e) eqn:E; [|done].
      case_bool_decide as Hrec; [|done]. exfalso.
      (* nothing recorded: the tail is still there *)
      assert (f_bytes (append_all (mkFile (f_bytes f1) (length (log_bytes l'))) l2) = f_bytes f1) as He.
      { by rewrite append_all_none. }
      rewrite Hb2, Hrec, !app_nil_r, Hb1 in He. symmetry in He. rewrite <- (app_nil_r (log_bytes l')) in He at 2.
      apply app_inv_head in He. apply Hte in He. congruence.
    + rewrite Hrec, (bool_decide_eq_true_2 ([] = [])) by done. rewrite andb_true_r, <- Hr. done.
Qed.

(** ** Opening and appending at once *)
Lemma append_on_open f l t cs : f_bytes f = log_bytes l ++ t → kcs_is_empty cs = false →
  ∃ f1, reopen f = Ok f1 ∧ f_bytes (append_changeset f1 cs NoFault).1 = log_bytes [cs].
Proof.
  intros Hb Hne. eexists. split; [by eapply reopen_log|].
  rewrite (append_fine _ [] ((l ≫= enc) ++ t) cs NoFault); [done| |done|done|by left].
  cbn [f_bytes]. rewrite Hb, (log_bytes_split l 0), take_0, drop_0. by rewrite <- (assoc_L (++)).
Qed.

(** ** The iterator *)
Lemma read_entry_err f f' e : read_entry (V := KChangeSet K P) f = (f', Some (Err e)) → f' = f.
Proof.
  unfold read_entry. destruct (dec _) as [v r|e']; [done|]. destruct (_ && _); [done|].
  intros [= <- _]. by destruct f.
Qed.
Lemma next_err it it' e : it_next (V := KChangeSet K P) it = (it', Some (Err e)) →
  it_file it' = it_file it ∧ it_error it' = true.
Proof.
  unfold it_next. destruct (read_entry (it_file it)) as [f r] eqn:E. intros [= <- ->].
  apply read_entry_err in E as ->. done.
Qed.
Lemma err_again it it' e : it_next (V := KChangeSet K P) it = (it', Some (Err e)) →
  it_next (V := KChangeSet K P) it' = (it', Some (Err e)).
Proof.
  intros Hn. pose proof Hn as Hn'. apply next_err in Hn' as [Hf He]. unfold it_next in Hn |- *. rewrite Hf.
  destruct (read_entry (it_file it)) as [f r] eqn:E. injection Hn as <- ->. done.
Qed.
Lemma err_forever it it' e n : it_next (V := KChangeSet K P) it = (it', Some (Err e)) →
  it_next (V := KChangeSet K P) (next_n n it') = (it', Some (Err e)).
Proof.
  intros Hn. apply err_again in Hn. assert (next_n n it' = it') as ->; [|done].
  induction n as [|n IH]; [done|]. cbn [next_n]. by rewrite Hn.
Qed.
Lemma none_forever it it' n : it_next (V := KChangeSet K P) it = (it', None) →
  it_next (V := KChangeSet K P) (next_n n it') = (it', None).
Proof.
  intros Hn. assert (it_next (V := KChangeSet K P) it' = (it', None)) as Hi.
  { unfold it_next in Hn. destruct (read_entry (it_file it)) as [f r] eqn:E. injection Hn as <- ->.
    unfold read_entry in E. destruct (dec _) as [v r|e] eqn:Ed; [done|].
    destruct (bool_decide (e = Eof) && bool_decide (f_pos (it_file it) = length (f_bytes (it_file it)))) eqn:Eb; [|done].
    apply andb_true_iff in Eb as [E1 E2]. apply bool_decide_eq_true in E1, E2. injection E as <-.
    unfold it_next, read_entry. cbn [it_file it_error seek f_bytes f_pos]. rewrite <- E2, Ed. subst e.
    rewrite !bool_decide_eq_true_2 by done. cbn [andb]. unfold seek. cbn [f_bytes]. done. }
  assert (next_n n it' = it') as ->; [|done]. induction n as [|n IH]; [done|]. cbn [next_n]. by rewrite Hi.
Qed.

(** ** Creation *)
Lemma create_crash j : (j < 12)%nat →
  ∃ b, fs_new_from_path None (Some j) = (b, Err FeIo) ∧ ∀ e, fs_new_from_path (Some b) e = (b, Err FeIo).
Proof.
  intros Hj. do 12 (destruct j as [|j]; [eexists; split; [reflexivity|intros e; reflexivity]|]). lia.
Qed.
Lemma create_done j : (12 ≤ j)%nat →
  fs_new_from_path None (Some j) = (magic, Err FeIo) ∧ ∃ f, fs_new_from_path (Some magic) None = (magic, Ok f) ∧
    aggregate_changeset f = Some (Ret (kcs_default, f, Ok tt)).
Proof.
  intros Hj. split.
  - unfold fs_new_from_path. rewrite take_ge by (rewrite magic_length; lia). done.
  - exists (mkFile magic (length magic)). split; [done|].
    rewrite (aggregate_ok wf HC Hdef (mkFile magic (length magic)) [] []); [done|done|by left|constructor].
Qed.

(** ** Staging through a store *)
Lemma append_clean f l1 cs e : clean e → f_bytes f = log_bytes l1 → f_pos f = length (log_bytes l1) →
  let r := append_changeset f cs e in
  let l2 := match r.2 with Ok _ => recorded [cs] | Err _ => [] end in
  f_bytes r.1 = log_bytes (l1 ++ l2) ∧ f_pos r.1 = length (log_bytes (l1 ++ l2)).
Proof.
  intros He Hb Hp. assert (f_bytes f = log_bytes l1 ++ []) as Hb' by (by rewrite app_nil_r).
  cbn zeta. destruct (kcs_is_empty cs) eqn:Hemp.
  { unfold append_changeset, recorded. rewrite Hemp. cbn [snd fst]. rewrite filter_cons_False, filter_nil by (by rewrite Hemp).
    by rewrite app_nil_r. }
  assert (recorded [cs] = [cs]) as -> by (unfold recorded; by rewrite filter_cons_True, filter_nil).
  destruct He as [-> | ->].
  - rewrite (append_fine f l1 [] cs NoFault Hb' Hp Hemp) by (by left).
    assert ((append_changeset f cs NoFault).2 = Ok tt) as ->; [|done].
    unfold append_changeset. rewrite Hemp. by rewrite andb_false_r.
  - unfold append_changeset. rewrite Hemp. cbn [fst snd]. change (take 0 (enc cs)) with (@nil byte).
    rewrite (write_at (log_bytes l1) [] [] f Hb' Hp). cbn [f_bytes f_pos]. by rewrite drop_nil, !app_nil_r.
Qed.
Lemma feed_store f faults l1 attempts :
  Forall clean faults → f_bytes f = log_bytes l1 → f_pos f = length (log_bytes l1) →
  let r := feed (mkSB f faults) attempts in
  f_bytes (sb_file r.1) = log_bytes (l1 ++ recorded r.2) ∧ f_pos (sb_file r.1) = length (log_bytes (l1 ++ recorded r.2)).
Proof.
  intros Hf Hb Hp.
  assert (∀ (r0 : StoreBackend * list (KChangeSet K P)), Forall clean (sb_faults r0.1) →
    f_bytes (sb_file r0.1) = log_bytes (l1 ++ recorded r0.2) → f_pos (sb_file r0.1) = length (log_bytes (l1 ++ recorded r0.2)) →
    let r := foldl (λ (r : StoreBackend * list (KChangeSet K P)) cs, match backend_append r.1 cs with
      | (b', Ok _) => (b', r.2 ++ [cs]) | (b', Err _) => (b', r.2) end) r0 attempts in
    f_bytes (sb_file r.1) = log_bytes (l1 ++ recorded r.2) ∧ f_pos (sb_file r.1) = length (log_bytes (l1 ++ recorded r.2))) as Hgen.
  { clear Hf Hb Hp. induction attempts as [|cs attempts IH]; intros r0 Hf Hb Hp; [done|]. cbn zeta. cbn [foldl]. apply IH; clear IH.
    - unfold backend_append, store_backend.
      destruct (append_changeset _ _ _) as [f' [[]|e']]; cbn [fst snd sb_faults]; by apply Forall_tail.
    - pose proof (append_clean (sb_file r0.1) (l1 ++ recorded r0.2) cs (default NoFault (head (sb_faults r0.1)))) as Ha.
      unfold backend_append, store_backend.
      assert (clean (default NoFault (head (sb_faults r0.1)))) as Hc.
      { destruct (sb_faults r0.1) as [|e es]; [by left|]. by apply Forall_inv in Hf. }
      specialize (Ha Hc Hb Hp). destruct (append_changeset _ _ _) as [f' [[]|e']]; cbn [fst snd sb_file] in *.
      + rewrite (proj1 Ha). unfold recorded. by rewrite filter_app, (assoc_L (++)).
      + rewrite (proj1 Ha). by rewrite app_nil_r.
    - pose proof (append_clean (sb_file r0.1) (l1 ++ recorded r0.2) cs (default NoFault (head (sb_faults r0.1)))) as Ha.
      unfold backend_append, store_backend.
      assert (clean (default NoFault (head (sb_faults r0.1)))) as Hc.
      { destruct (sb_faults r0.1) as [|e es]; [by left|]. by apply Forall_inv in Hf. }
      specialize (Ha Hc Hb Hp). destruct (append_changeset _ _ _) as [f' [[]|e']]; cbn [fst snd sb_file] in *.
      + rewrite (proj2 Ha). unfold recorded. by rewrite filter_app, (assoc_L (++)).
      + rewrite (proj2 Ha). by rewrite app_nil_r. }
  apply (Hgen (mkSB f faults, [])); cbn [fst snd sb_file sb_faults]; [done| |];
    change (recorded []) with (@nil (KChangeSet K P)); by rewrite app_nil_r.
Qed.
End store.
