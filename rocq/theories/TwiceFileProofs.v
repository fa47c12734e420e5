(** An entry written twice to a wallet file (C107). *)
From Verif Require Export TwiceProofs FileStoreProofs3.

Section files.
Context `{!DescEnv} `{Countable K, !Ord K, !OrdLaws K} `{ChainPositionLaws P} {C : Codec (KChangeSet K P)}.
Implicit Types (f : File) (l : list (KChangeSet K P)) (e : KChangeSet K P).

Lemma append_reached f l1 e F :
  f_bytes f = log_bytes l1 → f_pos f = length (log_bytes l1) → kcs_is_empty e = false → reached e F = true →
  (append_changeset f e F).1 = mkFile (log_bytes (l1 ++ [e])) (length (log_bytes (l1 ++ [e]))).
Proof.
  intros Hb Hp Hne HF. assert (f_bytes f = log_bytes l1 ++ []) as Hb' by (by rewrite app_nil_r).
  assert (∀ b, write f b = mkFile (log_bytes l1 ++ b) (length (log_bytes l1 ++ b))) as Hw.
  { intros b. rewrite (write_at (log_bytes l1) [] b) by done. by rewrite drop_nil, app_nil_r. }
  destruct F as [|j| |]; [apply (append_fine f l1 []); [done..|by left]| | |apply (append_fine f l1 []); [done..|by right]].
  - unfold append_changeset. rewrite Hne. cbn [fst]. cbn [reached] in HF. apply bool_decide_eq_true in HF.
    rewrite take_ge by done. rewrite Hw, log_bytes_snoc. done.
  - unfold append_changeset. rewrite Hne. cbn [fst]. by rewrite Hw, log_bytes_snoc.
Qed.
Context (wf : KChangeSet K P → Prop) (HC : codec_ok C wf) (Hdef : wf kcs_default).
Lemma retry_twice A Wo s lim y0 l1 e y f F :
  f_bytes f = log_bytes l1 → f_pos f = length (log_bytes l1) → kcs_is_empty e = false → reached e F = true →
  Forall wf (l1 ++ [e]) →
  good_env A → ki_hist_ok A s → tr_setup s lim = Ret y0 → Forall (cs_fit s Wo) (l1 ++ [e]) → txids_once [e] →
  tr_replay y0 (l1 ++ [e]) = Ret y → all_recorded y e →
  let f2 := (append_changeset (append_changeset f e F).1 e NoFault).1 in
  f_bytes f2 = log_bytes (l1 ++ [e; e]) ∧
  load_into_keychain_tracker f2 y0 = Some (Ret (y, mkFile (f_bytes f2) (length (f_bytes f2)), Ok tt)).
Proof.
  intros Hb Hp Hne HF Hwf HA Hs E0 Hf Ht E Hr f2.
  assert (f2 = mkFile (log_bytes (l1 ++ [e; e])) (length (log_bytes (l1 ++ [e; e])))) as Ef2.
  { unfold f2. rewrite (append_reached f l1 e F Hb Hp Hne HF).
    rewrite (append_reached _ (l1 ++ [e]) e NoFault); [by rewrite <- app_assoc|done..]. }
  rewrite Ef2. cbn [f_bytes]. split; [done|].
  destruct (entry_twice A Wo s lim y0 l1 e y HA Hs E0 Hf Ht E) as [[_ Htw] _].
  rewrite (load_ok wf HC Hdef _ (l1 ++ [e; e]) []).
  - rewrite (Htw Hr). done.
  - cbn [f_bytes]. by rewrite app_nil_r.
  - by left.
  - apply Forall_app in Hwf as [Hw1 Hwe]. apply Forall_app. split; [done|]. apply Forall_cons in Hwe as [Hwe _]. by repeat constructor.
Qed.
End files.
