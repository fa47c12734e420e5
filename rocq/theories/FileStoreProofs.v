(** Proofs about the file store. *)
From Verif Require Export FileStoreSpec CodecProofs TrackerProofs4.

Section store.
Context `{!DescEnv} `{Countable K, !Ord K} `{ChainPosition P} {C : Codec (KChangeSet K P)}.
Context (wf : KChangeSet K P → Prop) (HC : codec_ok C wf) (Hdef : wf kcs_default).
Implicit Types (f : File) (cs : KChangeSet K P) (l : list (KChangeSet K P)) (b t r : bytes).

Lemma enc_nonempty cs : wf cs → enc cs ≠ [].
Proof.
  intros Hcs He. pose proof (co_roundtrip _ _ HC cs [] Hcs) as Hr. rewrite He in Hr.
  destruct (co_rest _ _ HC _ _ _ Hr) as (c & Hc & Hn). by destruct c.
Qed.
Lemma dec_nil : dec [] = DErr Eof.
Proof.
  apply (co_cut _ _ HC kcs_default); [done|]. destruct (enc kcs_default) as [|x d] eqn:E.
  - by destruct (enc_nonempty _ Hdef).
  - by exists x, d.
Qed.
(** Behind the entries: nothing, or an entry cut short. *)
Definition torn t : Prop := t = [] ∨ ∃ cs, wf cs ∧ cut_short t (enc cs).
Lemma dec_torn t : torn t → dec t = DErr Eof.
Proof. intros [->|(cs & Hcs & Hc)]; [apply dec_nil|by eapply (co_cut _ _ HC)]. Qed.

Lemma log_bytes_app l1 l2 : log_bytes (l1 ++ l2) = log_bytes l1 ++ (l2 ≫= enc).
Proof. unfold log_bytes. by rewrite bind_app, (assoc_L (++)). Qed.
Lemma log_bytes_snoc l cs : log_bytes (l ++ [cs]) = log_bytes l ++ enc cs.
Proof. rewrite log_bytes_app. cbn. by rewrite app_nil_r. Qed.
Lemma log_bytes_split l k : log_bytes l = log_bytes (take k l) ++ (drop k l ≫= enc).
Proof. rewrite <- log_bytes_app, take_drop. done. Qed.
Lemma log_bytes_pos l k : (length (log_bytes (take k l)) ≤ length (log_bytes l))%nat.
Proof. rewrite (log_bytes_split l k), app_length. lia. Qed.

(** ** Reading *)
Lemma read_entry_ok f k l t cs :
  f_bytes f = log_bytes l ++ t → f_pos f = length (log_bytes (take k l)) → Forall wf l → l !! k = Some cs →
  read_entry f = (seek f (length (log_bytes (take (S k) l))), Some (Ok cs)).
Proof.
  intros Hb Hp Hl Hk. unfold read_entry.
  assert (drop (f_pos f) (f_bytes f) = enc cs ++ (drop (S k) l ≫= enc) ++ t) as Hd.
  { rewrite Hb, Hp, (log_bytes_split l k), <- (assoc_L (++)), drop_app.
    rewrite (drop_S _ _ _ Hk). cbn [mbind list_bind]. by rewrite <- (assoc_L (++)). }
  rewrite Hd, (co_roundtrip _ _ HC). 2: { eapply Forall_lookup_1; eauto. }
  f_equal. f_equal. rewrite (take_S_r _ _ _ Hk), log_bytes_snoc, !app_length. rewrite Hp. lia.
Qed.
Lemma read_entry_end f l t :
  f_bytes f = log_bytes l ++ t → f_pos f = length (log_bytes l) → torn t →
  read_entry f = (f, if bool_decide (t = []) then None else Some (Err (IeBincode Eof))).
Proof.
  intros Hb Hp Ht. unfold read_entry. destruct f as [fb fp]. cbn [f_bytes f_pos] in *. subst fb fp.
  rewrite drop_app, dec_torn by done.
  rewrite bool_decide_eq_true_2 by done. cbn [andb]. rewrite app_length.
  destruct t as [|x t].
  - rewrite !bool_decide_eq_true_2 by (cbn; lia || done). unfold seek. cbn. f_equal. f_equal. lia.
  - rewrite !bool_decide_eq_false_2 by (cbn; lia || done). done.
Qed.
(** The loop reads all entries, then stops at the end or at the torn entry. *)
Lemma it_for_ok {S} (g : S → KChangeSet K P → outcome S) l t : Forall wf l → torn t →
  ∀ fuel k f e s, f_bytes f = log_bytes l ++ t → f_pos f = length (log_bytes (take k l)) → (k ≤ length l)%nat →
  (length l - k < fuel)%nat →
  it_for fuel g s (mkIter f e) = Some (
    s' ← foldl (λ o cs, s ← o; g s cs) (Ret s) (drop k l);
    Ret (s', mkFile (f_bytes f) (length (log_bytes l)), if bool_decide (t = []) then Ok tt else Err (IeBincode Eof))).
Proof.
  intros Hl Ht. induction fuel as [|fuel IH]; intros k f e s Hb Hp Hk Hf; [lia|].
  cbn [it_for]. unfold it_next. cbn [it_file it_error].
  destruct (decide (k = length l)) as [->|Hne].
  - rewrite firstn_all in Hp. rewrite (read_entry_end f l t) by done.
    rewrite drop_all. cbn [foldl mbind outcome_bind]. rewrite <- Hp.
    destruct f as [fb fp]. destruct (bool_decide (t = [])); done.
  - destruct (lookup_lt_is_Some_2 l k) as [cs Hcs]; [lia|].
    rewrite (read_entry_ok f k l t cs) by done.
    rewrite (drop_S _ _ _ Hcs). cbn [foldl mbind outcome_bind].
    destruct (g s cs) as [s'|] eqn:E.
    + rewrite (IH (Datatypes.S k)); [done|done|done|lia|lia].
    + f_equal. clear. induction (drop (Datatypes.S k) l) as [|x xs IH]; [done|]. exact IH.
Qed.

Definition inv (g : fs_ghost) f : Prop :=
  ∃ t, f_bytes f = log_bytes (gh_log g) ++ t ∧ length t = gh_tail g ∧ torn t ∧ Forall wf (gh_log g) ∧
    match gh_at g with
    | Some k => (k ≤ length (gh_log g))%nat ∧ f_pos f = length (log_bytes (take k (gh_log g)))
    | None => True
    end.

Lemma magic_length : length magic = 12%nat.
Proof. done. Qed.
Lemma fs_new_log b p : fs_new (mkFile (magic ++ b) p) = Ok (mkFile (magic ++ b) (length magic)).
Proof.
  unfold fs_new, seek. cbn [f_bytes f_pos].
  rewrite bool_decide_eq_false_2 by (rewrite app_length; lia).
  rewrite take_app, bool_decide_eq_true_2 by done. done.
Qed.
Lemma reopen_ok g f : inv g f → reopen f = Ok (mkFile (f_bytes f) (length magic)).
Proof.
  intros (t & Hb & _). unfold reopen. rewrite Hb. unfold log_bytes. rewrite <- (assoc_L (++)). apply fs_new_log.
Qed.
Lemma inv_open g f : inv g f → inv (gh_step g FsOpen) (mkFile (f_bytes f) (length magic)).
Proof.
  intros (t & Hb & Ht & Htorn & Hl & _). exists t. cbn [gh_step gh_log gh_tail gh_at f_bytes f_pos].
  split_and!; try done. lia.
Qed.
Lemma next_n_add n m (it : EntryIter) : next_n (n + m) it = next_n m (next_n n it).
Proof. revert it. induction n as [|n IH]; intros it; [done|]. apply IH. Qed.
(** Each call of [next] moves on by one entry, and stays at the end. *)
Lemma next_n_file g f e n k t :
  f_bytes f = log_bytes (gh_log g) ++ t → torn t → Forall wf (gh_log g) →
  f_pos f = length (log_bytes (take k (gh_log g))) → (k ≤ length (gh_log g))%nat →
  it_file (next_n n (mkIter f e)) =
    mkFile (f_bytes f) (length (log_bytes (take ((k + n) `min` length (gh_log g)) (gh_log g)))).
Proof.
  intros Hb Ht Hl. revert f e k Hb. induction n as [|n IH]; intros f e k Hb Hp Hk.
  - cbn [next_n it_file]. destruct f as [fb fp]. cbn [f_bytes f_pos] in *. f_equal. rewrite Hp. do 3 f_equal. lia.
  - cbn [next_n]. unfold it_next. cbn [it_file it_error].
    destruct (decide (k = length (gh_log g))) as [->|Hne].
    + rewrite (read_entry_end f (gh_log g) t); [|done|by rewrite firstn_all in Hp|done]. cbn [fst].
      rewrite (IH _ _ (length (gh_log g))) by done. do 4 f_equal. lia.
    + destruct (lookup_lt_is_Some_2 (gh_log g) k) as [cs Hcs]; [lia|].
      rewrite (read_entry_ok f k (gh_log g) t cs) by done. cbn [fst].
      rewrite (IH _ _ (S k)); [|done|done|lia]. unfold seek. cbn [f_bytes]. do 4 f_equal. lia.
Qed.
Lemma inv_read g f n : inv g f → inv (gh_step g (FsRead n)) (fs_step f (FsRead n)).
Proof.
  intros (t & Hb & Ht & Htorn & Hl & _). unfold fs_step, iter_changesets, it_new.
  rewrite (next_n_file g _ _ n 0 t); [|done|done|done|done|lia].
  exists t. cbn [gh_step gh_log gh_tail gh_at f_bytes f_pos seek]. split_and!; try done. lia.
Qed.

(** ** Appending *)
Lemma write_at (l1 t1 t2 : bytes) : ∀ f, f_bytes f = l1 ++ t1 → f_pos f = length l1 →
  write f t2 = mkFile (l1 ++ t2 ++ drop (length t2) t1) (length (l1 ++ t2)).
Proof.
  intros [fb fp] Hb Hp. cbn [f_bytes f_pos] in *. subst. unfold write. cbn [f_bytes f_pos].
  rewrite take_app, app_length.
  replace (length l1 - (length l1 + length t1))%nat with 0%nat by lia. cbn [replicate].
  rewrite app_length. f_equal. f_equal. cbn. f_equal.
  rewrite drop_app_ge by lia. f_equal. lia.
Qed.
Lemma set_len_at b t f : f_bytes f = b ++ t → f_pos f = length b → set_len f (f_pos f) = mkFile b (length b).
Proof.
  intros Hb Hp. unfold set_len. rewrite Hb, Hp, take_app, app_length.
  replace (length b - (length b + length t))%nat with 0%nat by lia. cbn [replicate]. by rewrite app_nil_r.
Qed.
Lemma append_fine f l1 t cs e :
  f_bytes f = log_bytes l1 ++ t → f_pos f = length (log_bytes l1) → kcs_is_empty cs = false →
  e = NoFault ∨ e = SyncFails →
  (append_changeset f cs e).1 = mkFile (log_bytes (l1 ++ [cs])) (length (log_bytes (l1 ++ [cs]))).
Proof.
  intros Hb Hp Hne He. unfold append_changeset. rewrite Hne.
  rewrite (write_at (log_bytes l1) t (enc cs)) by done. rewrite <- log_bytes_snoc.
  rewrite (set_len_at (log_bytes (l1 ++ [cs])) (drop (length (enc cs)) t));
    [|cbn [f_bytes]; by rewrite log_bytes_snoc, (assoc_L (++))|done].
  destruct He as [-> | ->]; destruct (da_is_empty (kcs_indices cs)); done.
Qed.
Lemma at_split g f k t : f_bytes f = log_bytes (gh_log g) ++ t →
  f_bytes f = log_bytes (take k (gh_log g)) ++ ((drop k (gh_log g) ≫= enc) ++ t).
Proof. intros Hb. by rewrite Hb, (log_bytes_split (gh_log g) k), <- (assoc_L (++)). Qed.
Lemma inv_done g cs k : Forall wf (gh_log g) → wf cs → (k ≤ length (gh_log g))%nat →
  inv (mkGhost (take k (gh_log g) ++ [cs]) 0 (Some (S k)))
      (mkFile (log_bytes (take k (gh_log g) ++ [cs])) (length (log_bytes (take k (gh_log g) ++ [cs])))).
Proof.
  intros Hl Hcs Hk. exists []. cbn [gh_log gh_tail gh_at f_bytes f_pos].
  assert (length (take k (gh_log g) ++ [cs]) = S k) as Hlen.
  { rewrite app_length, take_length. cbn. lia. }
  split_and!; [by rewrite app_nil_r|done|by left| |lia|].
  - apply Forall_app. split; [by apply Forall_take|by constructor].
  - rewrite (take_ge (_ ++ _)) by lia. done.
Qed.
Lemma inv_append g f cs e : inv g f → fs_op_ok wf g (FsAppend cs e) →
  inv (gh_step g (FsAppend cs e)) (append_changeset f cs e).1.
Proof.
  intros Hinv (Hcs & [k Hat] & He). cbn [gh_step].
  destruct (kcs_is_empty cs) eqn:Hemp; [unfold append_changeset; by rewrite Hemp|].
  pose proof Hinv as (t & Hb & Ht & Htorn & Hl & Hpos). rewrite Hat in Hpos |- *. destruct Hpos as [Hk Hp].
  pose proof (at_split g f k t Hb) as Hbk.
  assert (∀ e, e = NoFault ∨ e = SyncFails →
    inv (mkGhost (take k (gh_log g) ++ [cs]) 0 (Some (S k))) (append_changeset f cs e).1) as Hfine.
  { intros e' He'. rewrite (append_fine f (take k (gh_log g)) _ cs e' Hbk) by done. by apply inv_done. }
  destruct e as [|j| |]; [by apply Hfine; left| | |by apply Hfine; right].
  - destruct (decide (j = 0%nat)) as [->|Hj].
    + rewrite bool_decide_eq_true_2 by done. unfold append_changeset. rewrite Hemp. change (take 0 (enc cs)) with (@nil byte). cbn [fst].
      rewrite (write_at (log_bytes (take k (gh_log g))) _ [] f Hbk Hp). rewrite app_nil_r.
      cbn [length app drop]. destruct f as [fb fp]. cbn [f_bytes f_pos] in *. rewrite drop_0. rewrite <- Hbk, <- Hp. exact Hinv.
    + rewrite bool_decide_eq_false_2 by done. destruct He as [?|[He1 He2]]; [done|].
      rewrite Hat in He1. injection He1 as ->. rewrite firstn_all in Hp |- *.
      unfold append_changeset. rewrite Hemp. cbn [fst].
      rewrite (write_at (log_bytes (gh_log g)) t (take j (enc cs)) f Hb Hp).
      rewrite (drop_ge t) by (rewrite take_length; lia). rewrite app_nil_r.
      case_bool_decide as Hlen.
      * rewrite take_ge by done. rewrite <- log_bytes_snoc.
        pose proof (inv_done g cs (length (gh_log g)) Hl Hcs (le_n _)) as Hd. by rewrite firstn_all in Hd.
      * exists (take j (enc cs)). cbn [gh_log gh_tail gh_at f_bytes f_pos].
        split_and!; [done|rewrite take_length; lia| |done|done].
        right. exists cs. split; [done|]. destruct (drop j (enc cs)) as [|x d] eqn:E.
        { apply (f_equal length) in E. rewrite drop_length in E. cbn in E. lia. }
        exists x, d. by rewrite <- E, take_drop.
  - destruct He as [He1 He2]. rewrite Hat in He1. injection He1 as ->. rewrite firstn_all in Hp |- *.
    unfold append_changeset. rewrite Hemp. cbn [fst].
    rewrite (write_at (log_bytes (gh_log g)) t (enc cs) f Hb Hp).
    rewrite (drop_ge t) by lia. rewrite app_nil_r, <- log_bytes_snoc.
    pose proof (inv_done g cs (length (gh_log g)) Hl Hcs (le_n _)) as Hd. by rewrite firstn_all in Hd.
Qed.
Lemma inv_step g f op : inv g f → fs_op_ok wf g op → inv (gh_step g op) (fs_step f op).
Proof.
  intros Hinv Hop. destruct op as [|n|cs e].
  - cbn [fs_step]. rewrite (reopen_ok g f Hinv). by apply inv_open.
  - by apply inv_read.
  - by apply inv_append.
Qed.
Lemma inv_run g f h : inv g f → fs_hist_ok wf g h → inv (gh_run g h) (fs_run f h).
Proof.
  revert g f. induction h as [|op h IH]; intros g f Hinv Hh; [done|]. destruct Hh as [Hop Hh].
  apply IH; [|done]. by apply inv_step.
Qed.
Lemma inv_new : ∃ f, fs_new_from_path None None = (magic, Ok f) ∧ f_bytes f = magic ∧ inv gh_new f.
Proof.
  exists (mkFile magic (length magic)). split_and!; [done|done|].
  exists []. split_and!; [done|done|by left|exact (Forall_nil_2 wf)|split; [cbn; lia|done]].
Qed.

(** ** Loading *)
Definition read_result t : result unit IterError := if bool_decide (t = []) then Ok tt else Err (IeBincode Eof).
Lemma enc_bytes_count l : Forall wf l → (length l ≤ length (l ≫= enc))%nat.
Proof.
  induction 1 as [|cs l Hcs Hl IH]; [done|]. cbn [mbind list_bind]. rewrite app_length. cbn [length].
  pose proof (enc_nonempty cs Hcs). destruct (enc cs); [done|]. cbn [length]. lia.
Qed.
Lemma load_fuel l t : Forall wf l → (length l - 0 < S (length (log_bytes l ++ t)))%nat.
Proof. intros Hl. apply enc_bytes_count in Hl. unfold log_bytes. rewrite !app_length. lia. Qed.
Lemma aggregate_ok f l t : f_bytes f = log_bytes l ++ t → torn t → Forall wf l →
  aggregate_changeset f = Some (Ret (fold_changes l, mkFile (f_bytes f) (length (log_bytes l)), read_result t)).
Proof.
  intros Hb Ht Hl. unfold aggregate_changeset, iter_changesets, it_new.
  rewrite (it_for_ok _ l t Hl Ht _ 0 (seek f (length magic))); [|done|done|lia|rewrite Hb; by apply load_fuel].
  cbn [f_bytes seek]. rewrite drop_0. unfold fold_changes.
  assert (∀ a, foldl (λ o cs, s ← o; Ret (kcs_append s cs)) (Ret a) l = Ret (foldl kcs_append a l)) as Hf.
  { clear. induction l as [|cs l IH]; intros a; [done|]. apply IH. }
  rewrite Hf. done.
Qed.
Lemma replay_foldl l x : foldl (λ o cs, s ← o; tr_apply_changeset s cs) (Ret x) l = tr_replay x l.
Proof.
  revert x. induction l as [|cs l IH]; intros x; [done|]. cbn [foldl tr_replay mbind outcome_bind].
  destruct (tr_apply_changeset x cs) as [x'|]; [apply IH|]. clear. by induction l.
Qed.
Lemma load_ok f l t x : f_bytes f = log_bytes l ++ t → torn t → Forall wf l →
  load_into_keychain_tracker f x =
    Some (y ← tr_replay x l; Ret (y, mkFile (f_bytes f) (length (log_bytes l)), read_result t)).
Proof.
  intros Hb Ht Hl. unfold load_into_keychain_tracker, iter_changesets, it_new.
  rewrite (it_for_ok _ l t Hl Ht _ 0 (seek f (length magic))); [|done|done|lia|rewrite Hb; by apply load_fuel].
  cbn [f_bytes seek]. rewrite drop_0, replay_foldl. done.
Qed.

(** ** Theorems *)
(** The state of the file after any history, and what reading it returns. *)
Lemma history_ok h : fs_hist_ok wf gh_new h →
  ∃ f0 t, fs_new_from_path None None = (magic, Ok f0) ∧
    let f := fs_run f0 h in let g := gh_run gh_new h in
    f_bytes f = log_bytes (gh_log g) ++ t ∧ length t = gh_tail g ∧
    (∀ k, gh_at g = Some k → f_pos f = length (log_bytes (take k (gh_log g)))) ∧
    aggregate_changeset f = Some (Ret (fold_changes (gh_log g), mkFile (f_bytes f) (length (log_bytes (gh_log g))),
      if bool_decide (gh_tail g = 0%nat) then Ok tt else Err (IeBincode Eof))) ∧
    ∀ x, load_into_keychain_tracker f x = Some (y ← tr_replay x (gh_log g);
      Ret (y, mkFile (f_bytes f) (length (log_bytes (gh_log g))),
        if bool_decide (gh_tail g = 0%nat) then Ok tt else Err (IeBincode Eof))).
Proof.
  intros Hh. destruct inv_new as (f0 & Hf0 & _ & Hinv). destruct (inv_run _ _ _ Hinv Hh) as (t & Hb & Ht & Htorn & Hl & Hp).
  exists f0, t. cbn zeta.
  assert (read_result t = if bool_decide (gh_tail (gh_run gh_new h) = 0%nat) then Ok tt else Err (IeBincode Eof)) as Hr.
  { unfold read_result. rewrite <- Ht. destruct t; done. }
  split_and!; [done|done|done| | |].
  - intros k Hk. rewrite Hk in Hp. apply Hp.
  - rewrite <- Hr. by apply aggregate_ok.
  - intros x. rewrite <- Hr. by apply load_ok.
Qed.

Lemma append_all_ok f l1 l : f_bytes f = log_bytes l1 → f_pos f = length (log_bytes l1) →
  f_bytes (append_all f l) = log_bytes (l1 ++ recorded l) ∧ f_pos (append_all f l) = length (log_bytes (l1 ++ recorded l)).
Proof.
  revert f l1. induction l as [|cs l IH]; intros f l1 Hb Hp.
  - change (recorded []) with (@nil (KChangeSet K P)). by rewrite app_nil_r.
  - change (append_all f (cs :: l)) with (append_all (append_changeset f cs NoFault).1 l).
    unfold recorded. rewrite filter_cons. destruct (decide (kcs_is_empty cs = false)) as [Hne|Hne].
    + change (filter _ l) with (recorded l). rewrite (cons_middle cs), (assoc_L (++)). apply IH.
      * rewrite (append_fine f l1 [] cs NoFault); [done|by rewrite app_nil_r|done|done|by left].
      * rewrite (append_fine f l1 [] cs NoFault); [done|by rewrite app_nil_r|done|done|by left].
    + apply IH; unfold append_changeset; destruct (kcs_is_empty cs); done.
Qed.
(** Appending at the end of the log after loading, torn entry or not. *)
Lemma append_all_torn f l1 t l : f_bytes f = log_bytes l1 ++ t → f_pos f = length (log_bytes l1) → torn t →
  Forall wf l1 → Forall wf l →
  ∃ t', torn t' ∧ (t' = [] ∨ t' = t ∧ recorded l = []) ∧ f_bytes (append_all f l) = log_bytes (l1 ++ recorded l) ++ t'.
Proof.
  revert f l1. induction l as [|cs l IH]; intros f l1 Hb Hp Ht Hl1 Hl.
  - exists t. change (recorded []) with (@nil (KChangeSet K P)). rewrite app_nil_r. split_and!; [done|by right|done].
  - apply Forall_cons in Hl as [Hcs Hl].
    change (append_all f (cs :: l)) with (append_all (append_changeset f cs NoFault).1 l).
    unfold recorded. rewrite filter_cons. destruct (decide (kcs_is_empty cs = false)) as [Hne|Hne].
    + change (filter _ l) with (recorded l). rewrite (cons_middle cs), (assoc_L (++)).
      pose proof (append_fine f l1 t cs NoFault Hb Hp Hne (or_introl eq_refl)) as He.
      exists []. split_and!; [by left|by left|]. rewrite app_nil_r. apply append_all_ok; by rewrite He.
    + change (filter _ l) with (recorded l).
      replace (append_changeset f cs NoFault).1 with f; [by apply IH|].
      unfold append_changeset. by destruct (kcs_is_empty cs).
Qed.
Lemma recorded_wf l : Forall wf l → Forall wf (recorded l).
Proof. rewrite !Forall_forall. intros Hl cs Hcs. apply elem_of_list_filter in Hcs as [_ Hcs]. auto. Qed.
Lemma session_ok f l1 l : f_bytes f = log_bytes l1 → Forall wf l1 →
  ∃ f', session f l = Some f' ∧ f_bytes f' = log_bytes (l1 ++ recorded l).
Proof.
  intros Hb Hl1. unfold session, reopen. rewrite Hb. unfold log_bytes at 1. rewrite fs_new_log. unfold load.
  rewrite (aggregate_ok _ l1 []); [|by rewrite app_nil_r|by left|done].
  eexists. split; [done|]. by apply append_all_ok.
Qed.
Lemma sessions_ok f l1 ls : f_bytes f = log_bytes l1 → Forall wf l1 → Forall (Forall wf) ls →
  ∃ f', sessions f ls = Some f' ∧ f_bytes f' = log_bytes (l1 ++ recorded (concat ls)).
Proof.
  revert f l1. induction ls as [|l ls IH]; intros f l1 Hb Hl1 Hls.
  - exists f. split; [done|]. change (recorded (concat [])) with (@nil (KChangeSet K P)). by rewrite app_nil_r.
  - apply Forall_cons in Hls as [Hl Hls]. destruct (session_ok f l1 l Hb Hl1) as (f1 & Hf1 & Hb1).
    destruct (IH f1 _ Hb1) as (f2 & Hf2 & Hb2); [|done|].
    { apply Forall_app. split; [done|]. by apply recorded_wf. }
    exists f2. split; [cbn [sessions]; rewrite Hf1; exact Hf2|].
    rewrite Hb2. cbn [concat]. unfold recorded. by rewrite filter_app, (assoc_L (++)).
Qed.
Lemma store_sessions ls : Forall (Forall wf) ls →
  ∃ f0 f, fs_new_from_path None None = (magic, Ok f0) ∧ sessions f0 ls = Some f ∧
    f_bytes f = log_bytes (recorded (concat ls)) ∧
    aggregate_changeset f = Some (Ret (fold_changes (recorded (concat ls)), mkFile (f_bytes f) (length (f_bytes f)), Ok tt)) ∧
    ∀ x, load_into_keychain_tracker f x =
      Some (y ← tr_replay x (recorded (concat ls)); Ret (y, mkFile (f_bytes f) (length (f_bytes f)), Ok tt)).
Proof.
  intros Hls. destruct inv_new as (f0 & Hf0 & Hb0 & _).
  destruct (sessions_ok f0 [] ls) as (f & Hf & Hb); [by rewrite Hb0|constructor|done|].
  assert (Forall wf (recorded (concat ls))) as Hl.
  { apply recorded_wf. by apply Forall_concat. }
  exists f0, f. cbn [app] in Hb. split_and!; [done|done|done| |].
  - rewrite (aggregate_ok f (recorded (concat ls)) []); [by rewrite Hb|by rewrite app_nil_r|by left|done].
  - intros x. rewrite (load_ok f (recorded (concat ls)) []); [by rewrite Hb|by rewrite app_nil_r|by left|done].
Qed.
End store.
