(** Proofs about power loss. *)
From Verif Require Export PowerSpec FileStoreProofs2 KeychainIndexProofs2.

(** ** Streams *)
Lemma streams_ret {A} (a : A) : streams (dret a).
Proof. intros b a' r [= <- <-]. by exists []. Qed.
Lemma streams_fail {A} : streams (@dfail A).
Proof. by intros b a r Hb. Qed.
Lemma streams_bind {A B} (p : bytes → dres A) (f : A → bytes → dres B) : streams p → (∀ a, streams (f a)) → streams (dbind p f).
Proof.
  intros Hp Hf b x r. unfold dbind. destruct (p b) as [a r1|] eqn:E; [|done]. intros Hx.
  destruct (Hp _ _ _ E) as (c & -> & Hc). destruct (Hf _ _ _ _ Hx) as (c' & -> & Hc').
  exists (c ++ c'). split; [by rewrite (assoc_L (++))|]. intros r'. by rewrite <- (assoc_L (++)), Hc, Hc'.
Qed.
Lemma streams_if {A} (b : bool) (p q : bytes → dres A) : streams p → streams q → streams (if b then p else q).
Proof. by destruct b. Qed.
Lemma streams_ext {A} (p q : bytes → dres A) : (∀ b, p b = q b) → streams q → streams p.
Proof.
  intros He Hq b a r. rewrite He. intros E. destruct (Hq _ _ _ E) as (c & -> & Hc). exists c. split; [done|]. intros. by rewrite He.
Qed.
Lemma streams_read n : streams (read n).
Proof.
  intros b a r. unfold read. destruct (bool_decide (n ≤ N.of_nat (length b))) eqn:E; [|done]. intros [= <- <-].
  apply bool_decide_eq_true in E. exists (take (N.to_nat n) b). split; [by rewrite take_drop|]. intros r'.
  assert (length (take (N.to_nat n) b) = N.to_nat n) as Hl by (rewrite take_length; lia).
  rewrite bool_decide_eq_true_2 by (rewrite app_length; lia). by rewrite take_app_alt, drop_app_alt by done.
Qed.
Lemma streams_rep {S} n (f : S → bytes → dres S) s : (∀ s, streams (f s)) → streams (rep n f s).
Proof.
  intros Hf. eapply streams_ext; [intros; apply rep_rep_nat|].
  revert s. induction (N.to_nat n) as [|k IH]; intros s; [apply streams_ret|]. apply streams_bind; auto.
Qed.
Ltac stream := repeat first [ done | apply streams_ret | apply streams_fail | apply streams_read | apply streams_if
  | apply streams_bind; [|intros] | apply streams_rep; intros ].
Lemma streams_uint wide : streams (dec_uint wide).
Proof. unfold dec_uint, dec_u8, CodecModel.dec_le. stream. Qed.
Lemma streams_hash : streams (@dec _ hash_codec).
Proof. cbn [dec hash_codec]. unfold dec_bytes. stream. Qed.
Lemma streams_outpoint : streams (@dec _ outpoint_codec).
Proof. cbn [dec outpoint_codec]. stream. Qed.
Lemma streams_option {A} (C : Codec A) : streams dec → streams (@dec _ (option_codec C)).
Proof. intros HC. cbn [dec option_codec]. unfold dec_u8. stream. Qed.
Lemma streams_map `{Ord K, Countable K} {V} (CK : Codec K) (CV : Codec V) :
  streams (@dec _ CK) → streams (@dec _ CV) → streams (@dec _ (map_codec CK CV)).
Proof. intros HK HV. cbn [dec map_codec pair_codec]. stream. Qed.
Lemma streams_set `{Ord A, Countable A} (C : Codec A) : streams (@dec _ C) → streams (@dec _ (set_codec C)).
Proof. intros HC. cbn [dec set_codec]. stream. Qed.
Lemma streams_txheight : streams (@dec _ txheight_codec).
Proof. cbn [dec txheight_codec]. stream. Qed.
Lemma streams_conftime : streams (@dec _ conftime_codec).
Proof. cbn [dec conftime_codec]. stream. Qed.
Lemma streams_kcs `{Countable K, !Ord K} `{!LeafCodecs K P, !LeafStreams K P} : streams (@dec _ (@kcs_codec K _ _ _ P _)).
Proof.
  cbn [dec kcs_codec cg_cs_codec chain_cs_codec additions_codec]. stream; first [apply leaf_k_streams|apply leaf_p_streams|apply leaf_tx_streams|apply leaf_txout_streams].
Qed.

Section power.
Context `{!DescEnv} `{Countable K, !Ord K} `{ChainPosition P} {C : Codec (KChangeSet K P)}.
Context (wf : KChangeSet K P → Prop) (HC : codec_ok C wf) (HS : streams (@dec _ C)).
Implicit Types (d : Disk) (cs : KChangeSet K P) (acc l : list (KChangeSet K P)) (b c t : bytes).

(** ** What a load reads *)
Inductive decoded : bytes → list (KChangeSet K P) → Prop :=
| dd_nil : decoded [] []
| dd_cons c1 cs c l : c1 ≠ [] → (∀ r, dec (c1 ++ r) = DOk cs r) → decoded c l → decoded (c1 ++ c) (cs :: l).
Lemma decoded_app c1 l1 c2 l2 : decoded c1 l1 → decoded c2 l2 → decoded (c1 ++ c2) (l1 ++ l2).
Proof using. induction 1 as [|c cs c' l ?? _ IH]; intros Hd; [done|]. rewrite <- (assoc_L (++)). constructor; auto. Qed.
Lemma decoded_enc cs : wf cs → decoded (enc cs) [cs].
Proof using HC.
  intros Hw. rewrite <- (app_nil_r (enc cs)). constructor; [by eapply enc_nonempty|intros r; by apply (co_roundtrip _ _ HC)|constructor].
Qed.
Lemma dec_head b cs r : dec b = DOk cs r → ∃ c, b = c ++ r ∧ c ≠ [] ∧ ∀ r', dec (c ++ r') = DOk cs r'.
Proof using HC HS.
  intros E. destruct (HS _ _ _ E) as (c & -> & Hc). exists c. split; [done|]. split; [|done].
  destruct (co_rest _ _ HC _ _ _ E) as (c' & Hn & Ht). apply app_inv_tail in Ht. by subst.
Qed.
(** A load that folds the entries in a total way. *)
Lemma scan_all b : ∀ n t p fuel, (length t ≤ n)%nat → (length t < fuel)%nat → drop p b = t → (p ≤ length b)%nat →
  ∃ c l t', t = c ++ t' ∧ decoded c l ∧ (∃ e, dec t' = DErr e) ∧
    ∀ S (g : S → KChangeSet K P → S) s fl, ∃ r,
      it_for fuel (λ s cs, Ret (g s cs)) s (mkIter (mkFile b p) fl) = Some (Ret (foldl g s l, mkFile b (p + length c), r)).
Proof using HC HS.
  induction n as [|n IH]; intros t p [|fuel] Hn Hf Ht Hp; try lia.
  - destruct t; [|simpl in Hn; lia]. exists [], [], []. split; [done|]. split; [constructor|].
    assert (∃ e, @dec _ C [] = DErr e) as [e He].
    { destruct (@dec _ C []) as [cs r|e] eqn:E; [|by eexists]. destruct (dec_head _ _ _ E) as (c & Hc & Hne & _). by destruct c. }
    split; [by exists e|]. intros S g s fl.
    cbn [it_for]. unfold it_next, read_entry. cbn [it_file it_error f_bytes f_pos]. rewrite Ht, He. cbn [foldl length]. rewrite Nat.add_0_r.
    destruct (bool_decide (e = Eof)) eqn:Ee; cbn [andb]; [|eexists; done].
    destruct (bool_decide (p = length b)) eqn:El; [apply bool_decide_eq_true in El; subst; eexists; done|eexists; done].
  - destruct (dec t) as [cs r|e] eqn:E.
    + destruct (dec_head _ _ _ E) as (c & -> & Hne & Hc).
      assert (0 < length c)%nat by (destruct c; simpl; [done|lia]).
      destruct (IH r (p + length c)%nat fuel) as (c' & l & t' & -> & Hd & Hm & Hg).
      { rewrite app_length in Hn. lia. } { rewrite app_length in Hf. lia. }
      { by rewrite <- drop_drop, Ht, drop_app. }
      { apply (f_equal length) in Ht. rewrite drop_length, !app_length in Ht. lia. }
      exists (c ++ c'), (cs :: l), t'. split; [by rewrite (assoc_L (++))|]. split; [by constructor|]. split; [done|].
      intros S g s fl. destruct (Hg S g (g s cs) fl) as [r Hr]. exists r. cbn [it_for].
      unfold it_next, read_entry. cbn [it_file it_error f_bytes f_pos]. rewrite Ht, E. cbn [it_error]. unfold seek. cbn [f_bytes f_pos].
      replace (p + (length (c ++ c' ++ t') - length (c' ++ t')))%nat with (p + length c)%nat by (rewrite !app_length; lia).
      rewrite Hr. cbn [foldl]. by rewrite app_length, Nat.add_assoc.
    + exists [], [], t. split; [done|]. split; [constructor|]. split; [by exists e|]. intros S g s fl.
      cbn [it_for]. unfold it_next, read_entry. cbn [it_file it_error f_bytes f_pos]. rewrite Ht, E. cbn [foldl length]. rewrite Nat.add_0_r.
      destruct (bool_decide (e = Eof)) eqn:Ee; cbn [andb]; [|eexists; done].
      destruct (bool_decide (p = length b)) eqn:El; [apply bool_decide_eq_true in El; subst; eexists; done|eexists; done].
Qed.
Lemma decoded_prefix c0 l0 : decoded c0 l0 → ∀ c l t0 t e, decoded c l → c0 ++ t0 = c ++ t → dec t = DErr e →
  c0 `prefix_of` c ∧ l0 `prefix_of` l.
Proof using.
  induction 1 as [|c1 cs c0 l0 Hne Hc _ IH]; intros c l t0 t e Hd He Ht; [split; apply prefix_nil|].
  rewrite <- (assoc_L (++)) in He. destruct Hd as [|c2 cs' c l Hne' Hc' Hd].
  - simpl in He. subst t. by rewrite Hc in Ht.
  - rewrite <- (assoc_L (++)) in He. pose proof (Hc (c0 ++ t0)) as E1. pose proof (Hc' (c ++ t)) as E2. rewrite He in E1.
    rewrite E1 in E2. injection E2 as Ecs Er. subst cs'.
    assert (c1 = c2) as -> by (eapply app_inv_tail; rewrite He, Er; done).
    destruct (IH _ _ _ _ _ Hd Er Ht) as [Hp Hl]. split; [by apply prefix_app|by apply prefix_cons].
Qed.

(** ** The disk *)
Lemma moment_view d : moment d (dk_view d).
Proof using. exists (length (dk_pending d)). by rewrite take_ge by lia. Qed.
Lemma view_do d o : dk_view (dk_do d o) = sys_apply (dk_view d) o.
Proof using. unfold dk_view, dk_do. cbn. by rewrite foldl_app. Qed.
Lemma moment_do d o m : moment (dk_do d o) m → moment d m ∨ m = dk_view (dk_do d o).
Proof using.
  intros [k ->]. cbn [dk_do dk_synced dk_pending]. destruct (decide (k ≤ length (dk_pending d))%nat).
  - left. exists k. by rewrite take_app_le by done.
  - right. rewrite take_ge by (rewrite app_length; cbn; lia). done.
Qed.
Lemma moment_sync d m : moment (dk_sync d) m → m = dk_view d.
Proof using. intros [k ->]. cbn. by rewrite take_nil. Qed.
Lemma survives_prefix d b0 b : (∀ m, moment d m → b0 `prefix_of` m) → survives d b → b0 `prefix_of` b.
Proof using.
  intros Hm [(m & Hm1 & Hl) Hb]. pose proof (prefix_length _ _ (Hm _ Hm1)) as Hlen. exists (drop (length b0) b).
  apply list_eq. intros i. destruct (decide (i < length b0)%nat) as [Hi|Hi].
  - rewrite lookup_app_l by done. destruct (b !! i) as [x|] eqn:E; [|apply lookup_ge_None in E; lia].
    destruct (Hb _ _ E) as [(m' & Hm' & Ex)|(_ & m' & Hm' & Ex)].
    + destruct (Hm _ Hm') as [t ->]. by rewrite lookup_app_l in Ex by done.
    + destruct (Hm _ Hm') as [t ->]. rewrite lookup_app_l in Ex by done. apply lookup_ge_None in Ex. lia.
  - rewrite lookup_app_r by lia. rewrite lookup_drop. f_equal. lia.
Qed.
Lemma survives_view d : survives d (dk_view d).
Proof using. split; [exists (dk_view d); split; [apply moment_view|done]|]. intros i x E. left. exists (dk_view d). split; [apply moment_view|done]. Qed.
(** What [append_changeset] does to the disk is what it does to the file. *)
Lemma dk_append_view d f cs e : dk_view d = f_bytes f → dk_view (dk_append d f cs e) = f_bytes (append_changeset f cs e).1.
Proof using.
  intros Hv. unfold dk_append, append_changeset. destruct (kcs_is_empty cs); [done|]. destruct f as [fb fp]. cbn [f_bytes f_pos] in *.
  destruct e; cbn [fst].
  - destruct (da_is_empty (kcs_indices cs)); cbn [negb andb fst]; [|unfold dk_sync; unfold dk_view at 1; cbn [foldl dk_synced dk_pending]];
      rewrite !view_do, Hv; done.
  - by rewrite view_do, Hv.
  - by rewrite view_do, Hv.
  - destruct (da_is_empty (kcs_indices cs)); cbn [negb andb fst]; rewrite !view_do, Hv; done.
Qed.

(** ** The invariant *)
Definition base b0 l0 : Prop := (b0 = [] ∧ l0 = []) ∨ ∃ c0, b0 = magic ++ c0 ∧ decoded c0 l0.
Definition on_disk d (h : option File) acc : Prop :=
  ∃ b0 l0, base b0 l0 ∧ acc ⊆ l0 ∧ (∀ m, moment d m → b0 `prefix_of` m) ∧
    ∀ f, h = Some f → f_bytes f = dk_view d ∧ ∃ c1 l1 t1, f_bytes f = magic ++ c1 ++ t1 ∧ f_pos f = length (magic ++ c1) ∧
      decoded c1 l1 ∧ b0 `prefix_of` magic ++ c1 ∧ l0 `prefix_of` l1.
Lemma fs_new_inv b f : fs_new (mkFile b 0) = Ok f → ∃ t, b = magic ++ t ∧ f = mkFile b (length magic).
Proof using.
  unfold fs_new, seek. cbn [f_bytes f_pos]. destruct (bool_decide (length b < length magic)%nat); [done|].
  destruct (bool_decide (take (length magic) b = magic)) eqn:E; [|done]. apply bool_decide_eq_true in E. intros [= <-].
  exists (drop (length magic) b). split; [|done]. by rewrite <- E at 1; rewrite take_drop.
Qed.
Lemma load_from b t : b = magic ++ t → ∃ c l t', t = c ++ t' ∧ decoded c l ∧ (∃ e, dec t' = DErr e) ∧
  ∀ T (g : T → KChangeSet K P → T) s, ∃ r, it_for (S (length b)) (λ s cs, Ret (g s cs)) s (iter_changesets (mkFile b (length magic))) =
    Some (Ret (foldl g s l, mkFile b (length (magic ++ c)), r)).
Proof using HC HS.
  intros Hb. destruct (scan_all b (length t) t (length magic) (S (length b))) as (c & l & t' & Ht & Hd & Hm & Hg); [lia| | | |].
  { subst b. rewrite app_length. lia. } { subst b. by rewrite drop_app. } { subst b. rewrite app_length. lia. }
  exists c, l, t'. split; [done|]. split; [done|]. split; [done|]. intros T g s. destruct (Hg T g s false) as [r Hr]. exists r.
  rewrite app_length. exact Hr.
Qed.
Lemma base_load b b0 l0 t c l t' e : base b0 l0 → b0 `prefix_of` b → b = magic ++ t → t = c ++ t' → decoded c l → dec t' = DErr e →
  b0 `prefix_of` magic ++ c ∧ l0 `prefix_of` l.
Proof using.
  intros [[-> ->]|(c0 & -> & Hd0)] [t0 Ht0] -> -> Hd He; [split; apply prefix_nil|].
  rewrite <- (assoc_L (++)) in Ht0. apply app_inv_head in Ht0. destruct (decoded_prefix _ _ Hd0 _ _ _ _ _ Hd (eq_sym Ht0) He) as [Hp Hl].
  split; [by apply prefix_app|done].
Qed.
Lemma append_on_disk d f acc cs e b0 l0 c1 l1 t1 : base b0 l0 → (∀ m, moment d m → b0 `prefix_of` m) → f_bytes f = dk_view d →
  f_bytes f = magic ++ c1 ++ t1 → f_pos f = length (magic ++ c1) → b0 `prefix_of` magic ++ c1 →
  kcs_is_empty cs = false →
  let v := dk_view (dk_append d f cs e) in magic ++ c1 `prefix_of` v ∧ (e = NoFault ∨ e = SyncFails → v = magic ++ c1 ++ enc cs) ∧
  ((∀ m, moment (dk_append d f cs e) m → m = v) ∨ ∀ m, moment (dk_append d f cs e) m → b0 `prefix_of` m).
Proof using.
  intros Hbase Hm Hv Hb Hp Hpre Hne. rewrite (dk_append_view d f cs e (eq_sym Hv)).
  assert (∀ x, magic ++ c1 `prefix_of` sys_apply (dk_view d) (SWrite (f_pos f) x)) as Hw.
  { intros x. cbn [sys_apply]. rewrite <- Hv, (write_at (magic ++ c1) t1 x); [by eexists|cbn; by rewrite Hb, (assoc_L (++))|done]. }
  assert (b0 `prefix_of` magic ++ c1) as Hp0 by done.
  assert (sys_apply (sys_apply (dk_view d) (SWrite (f_pos f) (enc cs))) (SSetLen (f_pos f + length (enc cs))) = magic ++ c1 ++ enc cs) as Hfull.
  { cbn [sys_apply]. rewrite <- Hv, (write_at (magic ++ c1) t1 (enc cs)); [|cbn; by rewrite Hb, (assoc_L (++))|done]. cbn [f_bytes].
    replace (f_pos f + length (enc cs))%nat with (length ((magic ++ c1) ++ enc cs)) by (rewrite app_length, Hp; done).
    pose proof (set_len_at ((magic ++ c1) ++ enc cs) (drop (length (enc cs)) t1)
      (mkFile (((magic ++ c1) ++ enc cs) ++ drop (length (enc cs)) t1) (length ((magic ++ c1) ++ enc cs))) eq_refl eq_refl) as E.
    cbn [f_pos] in E. apply (f_equal f_bytes) in E. unfold set_len in E. cbn [f_bytes] in E. unfold set_len. cbn [f_bytes].
    rewrite (assoc_L (++)), E. by rewrite <- (assoc_L (++)). }
  rewrite <- (dk_append_view d f cs e (eq_sym Hv)). unfold dk_append. rewrite Hne.
  assert (∀ d' o m, moment (dk_do d' o) m → (∀ m, moment d' m → b0 `prefix_of` m) → magic ++ c1 `prefix_of` sys_apply (dk_view d') o → b0 `prefix_of` m) as Hstep.
  { intros d' o m Hmo Hd' Ho. apply moment_do in Hmo as [Hmo| ->]; [by apply Hd'|]. rewrite view_do. by trans (magic ++ c1). }
  assert (magic ++ c1 `prefix_of` magic ++ c1 ++ enc cs) as Hpf by (exists (enc cs); by rewrite (assoc_L (++))).
  assert (∀ m, moment (dk_do (dk_do d (SWrite (f_pos f) (enc cs))) (SSetLen (f_pos f + length (enc cs)))) m → b0 `prefix_of` m) as Htwo.
  { intros m Hmo. eapply Hstep; [exact Hmo| |rewrite view_do, Hfull; done]. intros m' Hm'. eapply Hstep; [exact Hm'|done|done]. }
  destruct e as [|j| |].
  - destruct (da_is_empty (kcs_indices cs)).
    + rewrite !view_do, Hfull. split; [done|]. split; [done|]. by right.
    + unfold dk_sync at 1 2. unfold dk_view at 1 3. cbn [foldl dk_synced dk_pending]. rewrite !view_do, Hfull. split; [done|]. split; [done|].
      left. intros m Hmo%moment_sync. rewrite Hmo. unfold dk_sync. unfold dk_view at 2. cbn [foldl dk_synced dk_pending]. done.
  - rewrite view_do. split; [done|]. split; [by intros [?|?]|]. right. intros m Hmo. by eapply Hstep.
  - rewrite view_do. split; [done|]. split; [by intros [?|?]|]. right. intros m Hmo. by eapply Hstep.
  - destruct (da_is_empty (kcs_indices cs)); rewrite !view_do, Hfull; (split; [done|]; split; [done|]; by right).
Qed.
Lemma store_on_disk d h acc : store_life wf d h acc → on_disk d h acc.
Proof using HC HS.
  induction 1 as [f Ef|j|d h acc f f' _ IH Ef El|d f acc cs e f' r _ IH Hw He Er|d h acc _ IH|d h acc b _ IH Hb|d f acc cs b _ IH Hw Hb].
  - exists [], []. split; [by left|]. split; [done|]. split; [intros; apply prefix_nil|]. intros f' [= <-].
    unfold fs_new_from_path in Ef. cbn [f_bytes write f_pos] in Ef. vm_compute in Ef. injection Ef as <-. split; [done|].
    exists [], [], []. split; [done|]. split; [done|]. split; [constructor|]. split; [apply prefix_nil|done].
  - exists [], []. split; [by left|]. split; [done|]. split; [intros; apply prefix_nil|done].
  - destruct IH as (b0 & l0 & Hbase & Hacc & Hm & _). exists b0, l0. split; [done|]. split; [done|]. split; [done|].
    intros f1 [= <-]. destruct (fs_new_inv _ _ Ef) as (t & Ht & ->). destruct (load_from _ _ Ht) as (c & l & t' & Hc & Hd & [e He] & Hg).
    destruct (Hg _ kcs_append kcs_default) as [r Hr]. unfold load, aggregate_changeset in El. cbn [f_bytes] in El. rewrite Hr in El.
    injection El as <-. cbn [f_bytes f_pos]. split; [done|]. exists c, l, t'. split; [by rewrite Ht, Hc|]. split; [done|]. split; [done|].
    eapply base_load; [done|by apply Hm, moment_view|done|done|done|done].
  - destruct IH as (b0 & l0 & Hbase & Hacc & Hm & Hh). destruct (Hh f eq_refl) as (Hv & c1 & l1 & t1 & Hb & Hp & Hd & Hpre & Hl).
    destruct (kcs_is_empty cs) eqn:Hne.
    + assert (dk_append d f cs e = d) as -> by (unfold dk_append; by rewrite Hne). unfold append_changeset in Er. rewrite Hne in Er. injection Er as <- <-.
      assert (promised cs (Ok ()) = []) as ->.
      { unfold promised. unfold kcs_is_empty in Hne. apply andb_true_iff in Hne as [_ ->]. done. }
      rewrite app_nil_r. exists b0, l0. split; [done|]. split; [done|]. split; [done|]. intros f' [= <-]. split; [done|].
      exists c1, l1, t1. done.
    + destruct (append_on_disk d f acc cs e b0 l0 c1 l1 t1 Hbase Hm Hv Hb Hp Hpre Hne) as (Hv1 & Hv2 & Hm').
      pose proof (dk_append_view d f cs e (eq_sym Hv)) as Hf'. rewrite Er in Hf'. cbn [fst] in Hf'.
      assert (decoded (c1 ++ enc cs) (l1 ++ [cs])) as Hd' by (apply decoded_app; [done|by apply decoded_enc]).
      destruct r as [[]|er].
      * assert (e = NoFault) as ->.
        { unfold append_changeset in Er. rewrite Hne in Er. destruct e; [done|by injection Er|by injection Er|done]. }
        specialize (Hv2 (or_introl eq_refl)).
        assert (f_pos f' = length (magic ++ c1 ++ enc cs)) as Hp'.
        { unfold append_changeset in Er. rewrite Hne in Er. cbn [andb] in Er. rewrite andb_false_r in Er. injection Er as <-.
          cbn [set_len write f_pos]. rewrite Hp, !app_length. lia. }
        assert (∀ b0' l0', b0' `prefix_of` magic ++ c1 ++ enc cs → l0' `prefix_of` l1 ++ [cs] → ∀ f0, Some f' = Some f0 → f_bytes f0 = dk_view (dk_append d f cs NoFault) ∧
          ∃ c1 l1 t1, f_bytes f0 = magic ++ c1 ++ t1 ∧ f_pos f0 = length (magic ++ c1) ∧ decoded c1 l1 ∧ b0' `prefix_of` magic ++ c1 ∧ l0' `prefix_of` l1) as Hfin.
        { intros b0' l0' Hb0 Hl0 f0 [= <-]. split; [done|]. exists (c1 ++ enc cs), (l1 ++ [cs]), []. rewrite app_nil_r.
          split; [by rewrite <- Hf', Hv2|]. split; [done|]. done. }
        destruct (da_is_empty (kcs_indices cs)) eqn:Hda.
        -- unfold promised. rewrite Hda, app_nil_r. exists b0, l0. split; [done|]. split; [done|]. split.
           { destruct Hm' as [Hm'|Hm']; [|done]. intros m Hmo. rewrite (Hm' _ Hmo). by trans (magic ++ c1). }
           apply Hfin; [trans (magic ++ c1); [done|]; exists (enc cs); by rewrite (assoc_L (++))|trans l1; [done|by eexists]].
        -- unfold promised. rewrite Hda. exists (magic ++ c1 ++ enc cs), (l1 ++ [cs]). split; [right; by eexists|]. split.
           { intros x [Hx|Hx]%elem_of_app; apply elem_of_app; [left|by right]. destruct Hl as [l' ->]. apply elem_of_app. left. by apply Hacc. }
           split; [|by apply Hfin].
           intros m Hmo. unfold dk_append in Hmo, Hv2. rewrite Hne, Hda in Hmo, Hv2. apply moment_sync in Hmo. subst m.
           unfold dk_sync in Hv2. unfold dk_view at 1 in Hv2. cbn [foldl dk_synced dk_pending] in Hv2. by rewrite Hv2.
      * unfold promised. rewrite app_nil_r. exists b0, l0. split; [done|]. split; [done|]. split; [|done].
        destruct Hm' as [Hm'|Hm']; [|done]. intros m Hmo. rewrite (Hm' _ Hmo). by trans (magic ++ c1).
  - destruct IH as (b0 & l0 & Hbase & Hacc & Hm & _). exists b0, l0. done.
  - destruct IH as (b0 & l0 & Hbase & Hacc & Hm & _). exists b0, l0. split; [done|]. split; [done|]. split; [|done].
    intros m [k ->]. cbn [dk_synced dk_pending]. rewrite take_nil. cbn [foldl]. by eapply survives_prefix.
  - destruct IH as (b0 & l0 & Hbase & Hacc & Hm & Hh). destruct (Hh f eq_refl) as (Hv & c1 & l1 & t1 & Hb1 & Hp & Hd & Hpre & Hl).
    exists b0, l0. split; [done|]. split; [done|]. split; [|done]. intros m [k ->]. cbn [dk_synced dk_pending]. rewrite take_nil. cbn [foldl].
    eapply survives_prefix; [|exact Hb]. destruct (kcs_is_empty cs) eqn:Hne.
    { assert (dk_append d f cs SyncFails = d) as -> by (unfold dk_append; by rewrite Hne). done. }
    destruct (append_on_disk d f acc cs SyncFails b0 l0 c1 l1 t1 Hbase Hm Hv Hb1 Hp Hpre Hne) as (Hv1 & _ & [Hm'|Hm']); [|done].
    intros m' Hmo. rewrite (Hm' _ Hmo). by trans (magic ++ c1).
Qed.
Lemma fold_indices l : ∀ a cs k i, (∃ j, kcs_indices a !! k = Some j ∧ i ≤ j) ∨ (cs ∈ l ∧ kcs_indices cs !! k = Some i) →
  ∃ j, kcs_indices (foldl kcs_append a l) !! k = Some j ∧ i ≤ j.
Proof using.
  induction l as [|c l IH]; intros a cs k i Hi; cbn [foldl]; [destruct Hi as [Hi|[Hi _]]; [done|by apply elem_of_nil in Hi]|].
  destruct Hi as [(j & Ej & Hij)|[Hc Ek]].
  - apply (IH _ cs). left. destruct (da_append_upper _ (kcs_indices c) _ _ Ej) as (j' & E' & Hj'). exists j'. split; [exact E'|lia].
  - apply elem_of_cons in Hc as [->|Hc]; [|apply (IH _ cs); by right]. apply (IH _ c). left.
    destruct (da_append_upper _ (kcs_indices a) _ _ Ek) as (j' & E' & Hj'). rewrite da_append_comm in E'. by exists j'.
Qed.
Lemma power_loss_ok d h acc b : store_life wf d h acc → survives d b → acc ≠ [] →
  ∃ f l f' r, fs_new (mkFile b 0) = Ok f ∧ yields b l ∧ acc ⊆ l ∧
    aggregate_changeset f = Some (Ret (fold_changes l, f', r)) ∧
    ∀ cs k i, cs ∈ acc → kcs_indices cs !! k = Some i → ∃ j, kcs_indices (fold_changes l) !! k = Some j ∧ i ≤ j.
Proof using HC HS.
  intros Hs Hb Hne. destruct (store_on_disk _ _ _ Hs) as (b0 & l0 & Hbase & Hacc & Hm & _).
  pose proof (survives_prefix _ _ _ Hm Hb) as Hp.
  destruct Hbase as [[-> ->]|(c0 & -> & Hd0)]. { destruct acc as [|a acc]; [done|]. specialize (Hacc a ltac:(left)). by apply elem_of_nil in Hacc. }
  destruct Hp as [t0 Ht0]. rewrite <- (assoc_L (++)) in Ht0. destruct (load_from _ _ Ht0) as (c & l & t' & Hc & Hd & [e He] & Hg).
  assert (fs_new (mkFile b 0) = Ok (mkFile b (length magic))) as Hn by (rewrite Ht0; apply fs_new_log).
  destruct (decoded_prefix _ _ Hd0 _ _ _ _ _ Hd Hc He) as [_ [l2 Hl]].
  assert (acc ⊆ l) as Hacc' by (intros x Hx; rewrite Hl; apply elem_of_app; left; by apply Hacc).
  destruct (Hg _ kcs_append kcs_default) as [r Hr]. exists (mkFile b (length magic)), l, (mkFile b (length (magic ++ c))), r.
  split; [done|]. split.
  { destruct (Hg _ (λ l cs, l ++ [cs]) []) as [r' Hr']. eexists _, _, _. split; [exact Hn|]. rewrite Hr'. do 3 f_equal.
    assert (∀ l a, foldl (λ l cs, l ++ [cs]) a l = a ++ l) as Hf.
    { clear. induction l as [|x l IH]; intros a; cbn [foldl]; [by rewrite app_nil_r|]. rewrite IH, <- (assoc_L (++)). done. }
    by rewrite Hf. }
  split; [done|]. split; [exact Hr|]. intros cs k i Hcs Hk. apply (fold_indices l _ cs). right. split; [by apply Hacc'|done].
Qed.
Lemma survives_synced b b' : survives (mkDisk b []) b' → b' = b.
Proof using.
  intros [(m & [k ->] & Hl) Hb]. cbn [dk_synced dk_pending] in Hl. rewrite take_nil in Hl. cbn [foldl] in Hl.
  apply list_eq. intros i. destruct (b' !! i) as [x|] eqn:E.
  - destruct (Hb i x E) as [(m & [j ->] & Hm)|(_ & m & [j ->] & Hm)]; cbn [dk_synced dk_pending] in Hm; rewrite take_nil in Hm; cbn [foldl] in Hm; [done|].
    apply lookup_ge_None in Hm. apply lookup_lt_Some in E. lia.
  - symmetry. apply lookup_ge_None. apply lookup_ge_None in E. lia.
Qed.
(** After an append of indices which succeeded, losing power changes nothing. *)
Lemma append_synced_ok d f acc cs f' b : store_life wf d (Some f) acc → da_is_empty (kcs_indices cs) = false →
  append_changeset f cs NoFault = (f', Ok tt) → survives (dk_append d f cs NoFault) b → b = f_bytes f'.
Proof using HC HS.
  intros Hs Hda Er Hb. destruct (store_on_disk _ _ _ Hs) as (b0 & l0 & _ & _ & _ & Hf). destruct (Hf f eq_refl) as [Hv _].
  pose proof (dk_append_view d f cs NoFault (eq_sym Hv)) as Hv'. rewrite Er in Hv'. cbn [fst] in Hv'. rewrite <- Hv'.
  assert (kcs_is_empty cs = false) as Hne by (unfold kcs_is_empty; by rewrite Hda, ?andb_false_r).
  unfold dk_append in *. rewrite Hne, Hda in *. unfold dk_sync in *. apply survives_synced in Hb. subst b. done.
Qed.
End power.
