(** Proofs about the encoding of changesets. *)
From Verif Require Export CodecSpec BaseProofs.

(** ** Decoders that read exactly the bytes [b] *)
Definition emits {A} (p : bytes → dres A) (b : bytes) (a : A) : Prop :=
  (∀ r, p (b ++ r) = DOk a r) ∧ ∀ c, cut_short c b → p c = DErr Eof.
Definition keeps {A} (p : bytes → dres A) : Prop := ∀ b a r, p b = DOk a r → ∃ c, b = c ++ r.
Definition eats {A} (p : bytes → dres A) : Prop := ∀ b a r, p b = DOk a r → ∃ c, c ≠ [] ∧ b = c ++ r.

Lemma cut_short_app c b1 b2 :
  cut_short c (b1 ++ b2) → cut_short c b1 ∨ ∃ d, c = b1 ++ d ∧ cut_short d b2.
Proof.
  intros (x & d & He). revert c He. induction b1 as [|y b1 IH]; intros c He.
  - right. exists c. split; [done|]. by exists x, d.
  - destruct c as [|z c]; [left; by exists y, b1|].
    simpl in He. injection He as -> He. destruct (IH _ He) as [(x' & d' & ->)|(d' & -> & Hd)].
    + left. by exists x', d'.
    + right. by exists d'.
Qed.
Lemma cut_short_nil c : ¬ cut_short c [].
Proof. intros (x & d & He). by destruct c. Qed.
Lemma cut_short_one c x : cut_short c [x] → c = [].
Proof. intros (y & d & He). destruct c as [|z c]; [done|]. simpl in He. injection He as _ He. by destruct c. Qed.
Lemma emits_ret {A} (a : A) : emits (dret a) [] a.
Proof. split; [done|]. intros c Hc. by apply cut_short_nil in Hc. Qed.
Lemma emits_bind {A B} (p : bytes → dres A) (f : A → bytes → dres B) b1 b2 a b :
  emits p b1 a → emits (f a) b2 b → emits (dbind p f) (b1 ++ b2) b.
Proof.
  intros [Hp1 Hp2] [Hf1 Hf2]. split.
  - intros r. unfold dbind. rewrite <- (assoc_L (++)), Hp1. apply Hf1.
  - intros c Hc. unfold dbind. destruct (cut_short_app _ _ _ Hc) as [H1|(d & -> & H1)].
    + by rewrite (Hp2 _ H1).
    + rewrite Hp1. by apply Hf2.
Qed.
Lemma emits_bind_ret {A B} (p : bytes → dres A) (g : A → B) b1 a :
  emits p b1 a → emits (dbind p (λ a, dret (g a))) b1 (g a).
Proof.
  intros Hp. rewrite <- (app_nil_r b1). eapply emits_bind; [exact Hp|apply emits_ret].
Qed.
Lemma keeps_ret {A} (a : A) : keeps (dret a).
Proof. intros b a' r [= <- <-]. by exists []. Qed.
Lemma keeps_fail {A} : keeps (@dfail A).
Proof. by intros b a r Hb. Qed.
Lemma keeps_bind {A B} (p : bytes → dres A) (f : A → bytes → dres B) :
  keeps p → (∀ a, keeps (f a)) → keeps (dbind p f).
Proof.
  intros Hp Hf b x r. unfold dbind. destruct (p b) as [a r'|] eqn:E; [|done].
  intros Hx. destruct (Hp _ _ _ E) as [c ->]. destruct (Hf _ _ _ _ Hx) as [d ->].
  exists (c ++ d). by rewrite (assoc_L (++)).
Qed.
Lemma eats_bind {A B} (p : bytes → dres A) (f : A → bytes → dres B) :
  eats p → (∀ a, keeps (f a)) → eats (dbind p f).
Proof.
  intros Hp Hf b x r. unfold dbind. destruct (p b) as [a r'|] eqn:E; [|done].
  intros Hx. destruct (Hp _ _ _ E) as (c & Hc & ->). destruct (Hf _ _ _ _ Hx) as [d ->].
  exists (c ++ d). rewrite (assoc_L (++)). split; [|done]. by destruct c.
Qed.
Lemma eats_keeps {A} (p : bytes → dres A) : eats p → keeps p.
Proof. intros Hp b a r E. destruct (Hp _ _ _ E) as (c & _ & ->). by exists c. Qed.
Lemma keeps_if {A} (b : bool) (p q : bytes → dres A) : keeps p → keeps q → keeps (if b then p else q).
Proof. by destruct b. Qed.

Lemma codec_ok_intro {A} (C : Codec A) (wf : A → Prop) :
  (∀ a, wf a → emits dec (enc a) a) → eats dec → codec_ok C wf.
Proof.
  intros H1 H2. split.
  - intros a r Ha. by apply H1.
  - intros a b Ha Hb. by eapply (proj2 (H1 a Ha)).
  - exact H2.
Qed.
Lemma codec_emits {A} (C : Codec A) (wf : A → Prop) a : codec_ok C wf → wf a → emits dec (enc a) a.
Proof. intros HC Ha. split; [intros r; by apply (co_roundtrip _ _ HC)|intros c Hc; by eapply (co_cut _ _ HC)]. Qed.
Lemma codec_eats {A} (C : Codec A) (wf : A → Prop) : codec_ok C wf → eats dec.
Proof. intros HC b a r. apply (co_rest _ _ HC). Qed.

(** ** Integers *)
Lemma read_emits (b : bytes) n : N.of_nat (length b) = n → emits (read n) b b.
Proof.
  intros <-. split.
  - intros r. unfold read. rewrite bool_decide_eq_true_2 by (rewrite app_length; lia).
    rewrite Nat2N.id, take_app, drop_app. done.
  - intros c (x & d & He). unfold read. rewrite bool_decide_eq_false_2; [done|].
    rewrite He, app_length. simpl. lia.
Qed.
Lemma read_keeps n : keeps (read n).
Proof.
  intros b a r. unfold read. destruct (bool_decide _); [|done]. intros [= <- <-].
  exists (take (N.to_nat n) b). by rewrite take_drop.
Qed.
Lemma read_eats n : n ≠ 0 → eats (read n).
Proof.
  intros Hn b a r. unfold read. destruct (bool_decide (n ≤ N.of_nat (length b))) eqn:E; [|done]. intros [= <- <-].
  apply bool_decide_eq_true in E.
  exists (take (N.to_nat n) b). rewrite take_drop. split; [|done].
  intros He. apply (f_equal length) in He. rewrite take_length in He. simpl in He. lia.
Qed.
Lemma byte_of_N n : n < 256 → Byte.to_N (byte_of n) = n.
Proof.
  intros Hn. unfold byte_of. destruct (Byte.of_N n) as [x|] eqn:E.
  - by apply Byte.to_of_N.
  - apply Byte.of_N_None_iff in E. lia.
Qed.
Lemma le_bytes_length k n : length (le_bytes k n) = k.
Proof. revert n. induction k as [|k IH]; intros n; simpl; [done|]. by rewrite IH. Qed.
Lemma of_le_bytes k n : n < 256 ^ N.of_nat k → of_le (le_bytes k n) = n.
Proof.
  revert n. induction k as [|k IH]; intros n Hn.
  - change (256 ^ N.of_nat 0) with 1 in Hn. cbn [le_bytes of_le]. lia.
  - cbn [le_bytes of_le]. rewrite byte_of_N by (apply N.mod_lt; lia).
    rewrite Nat2N.inj_succ, N.pow_succ_r' in Hn.
    rewrite IH by (apply N.div_lt_upper_bound; lia).
    pose proof (N.div_mod n 256 ltac:(lia)). lia.
Qed.
Lemma dec_le_emits k n : n < 256 ^ N.of_nat k → emits (dec_le (N.of_nat k)) (le_bytes k n) n.
Proof.
  intros Hn. unfold dec_le. rewrite <- (of_le_bytes k n Hn) at 2.
  apply (emits_bind_ret _ of_le). apply read_emits. by rewrite le_bytes_length.
Qed.
Lemma dec_le_keeps k : keeps (dec_le k).
Proof. apply keeps_bind; [apply read_keeps|intros; apply keeps_ret]. Qed.
Lemma dec_u8_emits n : n < 256 → emits dec_u8 [byte_of n] n.
Proof.
  intros Hn. unfold dec_u8.
  assert (of_le [byte_of n] = n) as He by (cbn [of_le]; rewrite byte_of_N; lia).
  rewrite <- He at 2. apply (emits_bind_ret _ of_le). by apply read_emits.
Qed.
Lemma dec_u8_eats : eats dec_u8.
Proof. apply eats_bind; [by apply read_eats|intros; apply keeps_ret]. Qed.

Definition uint_ok (wide : bool) (n : N) : Prop := n ≤ if wide then u64_max else u32_max.
Lemma enc_uint_emits wide n : uint_ok wide n → emits (dec_uint wide) (enc_uint n) n.
Proof.
  intros Hn. unfold enc_uint, dec_uint.
  destruct (n <? 251) eqn:E1.
  - apply N.ltb_lt in E1. rewrite <- (app_nil_r [byte_of n]).
    eapply emits_bind; [apply dec_u8_emits; lia|]. cbn beta.
    rewrite (proj2 (N.ltb_lt n 251)) by done. apply emits_ret.
  - apply N.ltb_ge in E1.
    destruct (n <? 65536) eqn:E2.
    { apply N.ltb_lt in E2. eapply (emits_bind _ _ [_]); [apply dec_u8_emits; lia|].
      apply (dec_le_emits 2). done. }
    apply N.ltb_ge in E2. destruct (n <? 4294967296) eqn:E3.
    { apply N.ltb_lt in E3. eapply (emits_bind _ _ [_]); [apply dec_u8_emits; lia|].
      apply (dec_le_emits 4). done. }
    apply N.ltb_ge in E3. destruct wide.
    + eapply (emits_bind _ _ [_]); [apply dec_u8_emits; lia|].
      apply (dec_le_emits 8). unfold uint_ok, u64_max in Hn.
      change (256 ^ N.of_nat 8) with 18446744073709551616. lia.
    + unfold uint_ok, u32_max in Hn. lia.
Qed.
Lemma dec_uint_eats wide : eats (dec_uint wide).
Proof.
  apply eats_bind; [apply dec_u8_eats|]. intros m.
  repeat (apply keeps_if); try apply keeps_ret; try apply dec_le_keeps; apply keeps_fail.
Qed.
Lemma u32_codec_ok : codec_ok u32_codec u32.
Proof. apply codec_ok_intro; [intros a Ha; by apply (enc_uint_emits false)|apply dec_uint_eats]. Qed.
Lemma u64_codec_ok : codec_ok u64_codec u64.
Proof. apply codec_ok_intro; [intros a Ha; by apply (enc_uint_emits true)|apply dec_uint_eats]. Qed.

(** ** Repetition *)
Fixpoint rep_nat {S} (n : nat) (f : S → bytes → dres S) (s : S) : bytes → dres S :=
  match n with O => dret s | S n => dbind (f s) (rep_nat n f) end.
Lemma dbind_assoc {A B C} (p : bytes → dres A) (f : A → bytes → dres B) (g : B → bytes → dres C) b :
  dbind (dbind p f) g b = dbind p (λ a, dbind (f a) g) b.
Proof. unfold dbind. by destruct (p b). Qed.
Lemma dbind_ext {A B} (p q : bytes → dres A) (f g : A → bytes → dres B) b :
  (∀ b, p b = q b) → (∀ a b, f a b = g a b) → dbind p f b = dbind q g b.
Proof. intros Hp Hf. unfold dbind. rewrite Hp. by destruct (q b). Qed.
Lemma rep_nat_add {S} n m (f : S → bytes → dres S) s b :
  rep_nat (n + m) f s b = dbind (rep_nat n f s) (rep_nat m f) b.
Proof.
  revert s b. induction n as [|n IH]; intros s b; [done|].
  change (dbind (f s) (rep_nat (n + m) f) b = dbind (dbind (f s) (rep_nat n f)) (rep_nat m f) b).
  rewrite dbind_assoc. apply dbind_ext; [done|]. intros. apply IH.
Qed.
Lemma rep_pos_nat {S} p (f : S → bytes → dres S) s b : rep_pos p f s b = rep_nat (Pos.to_nat p) f s b.
Proof.
  revert s b. induction p as [p IH|p IH|]; intros s b.
  - rewrite Pos2Nat.inj_xI. change (Datatypes.S (2 * Pos.to_nat p)) with (1 + 2 * Pos.to_nat p)%nat.
    replace (1 + 2 * Pos.to_nat p)%nat with ((1 + Pos.to_nat p) + Pos.to_nat p)%nat by lia.
    rewrite rep_nat_add. cbn [rep_pos]. apply dbind_ext; [|intros; apply IH]. intros b'.
    change (dbind (f s) (rep_pos p f) b' = dbind (f s) (rep_nat (Pos.to_nat p) f) b').
    apply dbind_ext; [done|intros; apply IH].
  - rewrite Pos2Nat.inj_xO. replace (2 * Pos.to_nat p)%nat with (Pos.to_nat p + Pos.to_nat p)%nat by lia.
    rewrite rep_nat_add. cbn [rep_pos]. apply dbind_ext; intros; apply IH.
  - change (Pos.to_nat 1) with 1%nat. cbn [rep_pos rep_nat]. unfold dbind, dret. by destruct (f s b).
Qed.
Lemma rep_rep_nat {S} n (f : S → bytes → dres S) s b : rep n f s b = rep_nat (N.to_nat n) f s b.
Proof. destruct n; [done|]. apply rep_pos_nat. Qed.

Lemma emits_ext {A} (p q : bytes → dres A) b a : (∀ b, p b = q b) → emits q b a → emits p b a.
Proof. intros He [H1 H2]. split; intros; rewrite He; auto. Qed.
Lemma keeps_ext {A} (p q : bytes → dres A) : (∀ b, p b = q b) → keeps q → keeps p.
Proof. intros He Hq b a r. rewrite He. apply Hq. Qed.
Lemma rep_emits {S X} (f : S → bytes → dres S) (e : X → bytes) (g : S → X → S) (l : list X) s :
  (∀ s x, x ∈ l → emits (f s) (e x) (g s x)) →
  emits (rep (N.of_nat (length l)) f s) (l ≫= e) (foldl g s l).
Proof.
  intros Hl. eapply emits_ext; [intros; apply rep_rep_nat|]. rewrite Nat2N.id.
  revert s. induction l as [|x l IH]; intros s; [apply emits_ret|].
  change (emits (dbind (f s) (rep_nat (length l) f)) (e x ++ (l ≫= e)) (foldl g (g s x) l)).
  eapply emits_bind; [apply Hl; left|]. apply IH. intros. apply Hl. by right.
Qed.
Lemma rep_keeps {S} n (f : S → bytes → dres S) s : (∀ s, keeps (f s)) → keeps (rep n f s).
Proof.
  intros Hf. eapply keeps_ext; [intros; apply rep_rep_nat|].
  revert s. induction (N.to_nat n) as [|k IH]; intros s; [apply keeps_ret|].
  apply keeps_bind; auto.
Qed.

(** ** Composite types *)
Lemma pair_codec_ok {A B} (CA : Codec A) (CB : Codec B) wa wb :
  codec_ok CA wa → codec_ok CB wb → codec_ok (pair_codec CA CB) (λ p, wa p.1 ∧ wb p.2).
Proof.
  intros HA HB. apply codec_ok_intro.
  - intros [a b] [Ha Hb]. cbn [enc dec pair_codec fst snd]. eapply emits_bind; [by eapply codec_emits|]. cbn beta.
    apply (emits_bind_ret _ (pair a)). by eapply codec_emits.
  - apply eats_bind; [by eapply codec_eats|]. intros a. apply keeps_bind; [by eapply eats_keeps, codec_eats|].
    intros; apply keeps_ret.
Qed.
Lemma option_codec_ok {A} (C : Codec A) w : codec_ok C w → codec_ok (option_codec C) (option_range w).
Proof.
  intros HC. apply codec_ok_intro.
  - intros [a|] Ha; cbn [enc dec option_codec].
    + eapply (emits_bind _ _ [_]); [apply dec_u8_emits; lia|]. cbn beta.
      apply (emits_bind_ret _ Some). by eapply codec_emits.
    + rewrite <- (app_nil_r [_]). eapply emits_bind; [apply dec_u8_emits; lia|]. apply emits_ret.
  - apply eats_bind; [apply dec_u8_eats|]. intros m. repeat (apply keeps_if); try apply keeps_ret; [|apply keeps_fail].
    apply keeps_bind; [by eapply eats_keeps, codec_eats|]. intros; apply keeps_ret.
Qed.
Section maps.
Context `{!Ord K, Countable K}.
Lemma entries_perm {V} (m : gmap K V) : bmap_list m ≡ₚ map_to_list m.
Proof. apply merge_sort_Permutation. Qed.
Lemma entries_NoDup {V} (m : gmap K V) : NoDup (bmap_list m).*1.
Proof. rewrite entries_perm. apply NoDup_fst_map_to_list. Qed.
Lemma elements_perm (X : gset K) : bset_list X ≡ₚ elements X.
Proof. apply merge_sort_Permutation. Qed.
Lemma foldl_insert {V} (l : list (K * V)) (m : gmap K V) k :
  NoDup l.*1 → foldl (λ m kv, <[kv.1 := kv.2]> m) m l !! k =
    match list_to_map (M := gmap K V) l !! k with Some v => Some v | None => m !! k end.
Proof.
  revert m. induction l as [|[j v] l IH]; intros m Hl; cbn [foldl fst snd].
  - change (list_to_map (M := gmap K V) []) with (∅ : gmap K V). by rewrite lookup_empty.
  - cbn in Hl. apply NoDup_cons in Hl as [Hj Hl]. rewrite IH by done. cbn [list_to_map foldr fst snd].
    change (foldr _ _ l) with (list_to_map (M := gmap K V) l).
    destruct (decide (j = k)) as [->|Hne].
    + rewrite lookup_insert, not_elem_of_list_to_map_1 by done. by rewrite lookup_insert.
    + rewrite !lookup_insert_ne by done. done.
Qed.
Lemma foldl_insert_bmap {V} (m : gmap K V) : foldl (λ m kv, <[kv.1 := kv.2]> m) (∅ : gmap K V) (bmap_list m) = m.
Proof.
  apply map_eq. intros k. rewrite foldl_insert by apply entries_NoDup.
  rewrite (list_to_map_proper _ (map_to_list m)), list_to_map_to_list;
    [|apply entries_NoDup|apply entries_perm].
  destruct (m !! k); [done|]. apply lookup_empty.
Qed.
End maps.

Lemma map_codec_ok `{Ord K, Countable K} {V} (CK : Codec K) (CV : Codec V) wk wv :
  codec_ok CK wk → codec_ok CV wv → codec_ok (map_codec CK CV) (map_range wk wv).
Proof.
  intros HK HV. pose proof (pair_codec_ok _ _ _ _ HK HV) as HP. apply codec_ok_intro.
  - intros m [Hn Hm]. cbn [enc dec map_codec].
    eapply emits_bind.
    { apply (enc_uint_emits true). unfold uint_ok. rewrite (Permutation_length (entries_perm m)). apply Hn. }
    cbn beta.
    pose proof (rep_emits (λ m, dbind (@dec _ (pair_codec CK CV)) (λ kv, dret (<[kv.1 := kv.2]> m)))
      (@enc _ (pair_codec CK CV)) (λ m kv, <[kv.1 := kv.2]> m) (bmap_list m) (∅ : gmap K V)) as Hr.
    rewrite foldl_insert_bmap in Hr. apply Hr.
    intros m' [k v] Hkv. rewrite entries_perm, elem_of_map_to_list in Hkv.
    apply (emits_bind_ret _ (λ kv, <[kv.1 := kv.2]> m')). eapply codec_emits; [apply HP|]. by apply Hm.
  - apply eats_bind; [apply dec_uint_eats|]. intros n. apply rep_keeps. intros m.
    apply keeps_bind; [by eapply eats_keeps, codec_eats|]. intros; apply keeps_ret.
Qed.
Lemma set_codec_ok `{Ord A, Countable A} (C : Codec A) w :
  codec_ok C w → codec_ok (set_codec C) (set_range w).
Proof.
  intros HC. apply codec_ok_intro.
  - intros X [Hn HX]. cbn [enc dec set_codec].
    eapply emits_bind.
    { apply (enc_uint_emits true). unfold uint_ok. rewrite (Permutation_length (elements_perm X)). apply Hn. }
    cbn beta.
    pose proof (rep_emits (λ X, dbind (@dec _ C) (λ a, dret ({[ a ]} ∪ X)))
      (@enc _ C) (λ X a, {[ a ]} ∪ X) (bset_list X) (∅ : gset A)) as Hr.
    assert (foldl (λ X a, {[ a ]} ∪ X) (∅ : gset A) (bset_list X) = X) as He.
    { apply leibniz_equiv. assert (∀ l (Y : gset A) a, a ∈ foldl (λ X a, {[ a ]} ∪ X) Y l ↔ a ∈ l ∨ a ∈ Y) as Hl.
      { induction l as [|b l IH]; intros Y a; cbn [foldl]; [set_solver|]. rewrite IH. set_solver. }
      intros a. rewrite Hl, elements_perm, elem_of_elements. set_solver. }
    rewrite He in Hr. apply Hr.
    intros X' a Ha. rewrite elements_perm, elem_of_elements in Ha.
    apply (emits_bind_ret _ (λ a, {[ a ]} ∪ X')). eapply codec_emits; [apply HC|]. by apply HX.
  - apply eats_bind; [apply dec_uint_eats|]. intros n. apply rep_keeps. intros m.
    apply keeps_bind; [by eapply eats_keeps, codec_eats|]. intros; apply keeps_ret.
Qed.

Lemma hash_codec_ok : codec_ok hash_codec hash.
Proof.
  apply codec_ok_intro.
  - intros h Hh. cbn [enc dec hash_codec].
    assert (emits dec_bytes (enc_uint 32 ++ reverse (le_bytes 32 h)) (reverse (le_bytes 32 h))) as Hb.
    { eapply emits_bind; [by apply (enc_uint_emits true)|]. apply read_emits.
      by rewrite reverse_length, le_bytes_length. }
    rewrite <- (app_nil_r (_ ++ _)). eapply emits_bind; [exact Hb|]. cbn beta.
    rewrite bool_decide_eq_true_2 by (by rewrite reverse_length, le_bytes_length).
    rewrite reverse_involutive, of_le_bytes; [apply emits_ret|].
    unfold hash in Hh. eapply N.le_lt_trans; [exact Hh|]. vm_compute. done.
  - apply eats_bind; [apply eats_bind; [apply dec_uint_eats|intros; apply read_keeps]|].
    intros b. apply keeps_if; [apply keeps_ret|apply keeps_fail].
Qed.
Lemma outpoint_codec_ok : codec_ok outpoint_codec (λ o, hash (op_txid o) ∧ u32 (op_vout o)).
Proof.
  apply codec_ok_intro.
  - intros [t v] [Ht Hv]. cbn [enc dec outpoint_codec op_txid op_vout].
    eapply emits_bind; [by apply (codec_emits _ _ _ hash_codec_ok)|]. cbn beta.
    apply (emits_bind_ret _ (mkOutPoint t)). by apply (codec_emits _ _ _ u32_codec_ok).
  - apply eats_bind; [apply (codec_eats _ _ hash_codec_ok)|]. intros t.
    apply keeps_bind; [apply eats_keeps, (codec_eats _ _ u32_codec_ok)|]. intros; apply keeps_ret.
Qed.
Lemma txheight_codec_ok : codec_ok txheight_codec pos_ok.
Proof.
  apply codec_ok_intro.
  - intros [h|] Ha; cbn [enc dec txheight_codec].
    + eapply emits_bind; [by apply (enc_uint_emits false)|]. cbn beta.
      apply (emits_bind_ret _ Confirmed). by apply (enc_uint_emits false).
    + rewrite <- (app_nil_r (enc_uint 1)). eapply emits_bind; [by apply (enc_uint_emits false)|]. apply emits_ret.
  - apply eats_bind; [apply dec_uint_eats|]. intros m. repeat (apply keeps_if); try apply keeps_ret; [|apply keeps_fail].
    apply keeps_bind; [apply eats_keeps, dec_uint_eats|]. intros; apply keeps_ret.
Qed.
Lemma conftime_codec_ok : codec_ok conftime_codec pos_ok.
Proof.
  apply codec_ok_intro.
  - intros [h t|] Ha; cbn [enc dec conftime_codec].
    + destruct Ha as [Hh Ht].
      eapply emits_bind; [by apply (enc_uint_emits false)|]. cbn beta.
      eapply emits_bind; [by apply (enc_uint_emits false)|]. cbn beta.
      apply (emits_bind_ret _ (CtConfirmed h)). by apply (enc_uint_emits true).
    + rewrite <- (app_nil_r (enc_uint 1)). eapply emits_bind; [by apply (enc_uint_emits false)|]. apply emits_ret.
  - apply eats_bind; [apply dec_uint_eats|]. intros m. repeat (apply keeps_if); try apply keeps_ret; [|apply keeps_fail].
    apply keeps_bind; [apply eats_keeps, dec_uint_eats|]. intros h.
    apply keeps_bind; [apply eats_keeps, dec_uint_eats|]. intros; apply keeps_ret.
Qed.

(** ** The changeset *)
Section changeset.
Context `{Countable K, !Ord K} `{!LeafCodecs K P, !LeafWf K P, !LeafOk K P}.
(** Two fields of a struct. *)
Lemma struct_ok {A B S} (CA : Codec A) (CB : Codec B) (CS : Codec S) (mk : A → B → S) (pa : S → A) (pb : S → B) wa wb :
  (∀ s, mk (pa s) (pb s) = s) → (∀ s, @enc _ CS s = enc (pa s) ++ enc (pb s)) →
  @dec _ CS = dbind dec (λ a, dbind dec (λ b, dret (mk a b))) →
  codec_ok CA wa → codec_ok CB wb → codec_ok CS (λ s, wa (pa s) ∧ wb (pb s)).
Proof.
  intros Hmk He Hd HA HB. apply codec_ok_intro.
  - intros s [Ha Hb]. rewrite He, Hd. eapply emits_bind; [by eapply codec_emits|]. cbn beta.
    pose proof (emits_bind_ret dec (mk (pa s)) _ _ (codec_emits _ _ _ HB Hb)) as E. rewrite Hmk in E. exact E.
  - rewrite Hd. apply eats_bind; [by eapply codec_eats|]. intros a. apply keeps_bind; [by eapply eats_keeps, codec_eats|].
    intros; apply keeps_ret.
Qed.
Lemma codec_ok_weaken {A} (C : Codec A) (w w' : A → Prop) : (∀ a, w' a → w a) → codec_ok C w → codec_ok C w'.
Proof. intros Hw [H1 H2 H3]. split; eauto. Qed.
Lemma kcs_codec_ok : codec_ok kcs_codec (@kcs_wf K _ _ P _).
Proof.
  pose proof (struct_ok (map_codec u32_codec (option_codec hash_codec)) (map_codec hash_codec (option_codec leaf_p))
    chain_cs_codec (@mkChangeSet P) cs_cps cs_txids _ _ ltac:(by intros []) ltac:(done) ltac:(done)
    (map_codec_ok _ _ _ _ u32_codec_ok (option_codec_ok _ _ hash_codec_ok))
    (map_codec_ok _ _ _ _ hash_codec_ok (option_codec_ok _ _ leaf_p_ok))) as H1.
  pose proof (struct_ok (set_codec leaf_tx) (map_codec outpoint_codec leaf_txout)
    additions_codec mkAdditions ad_tx ad_txout _ _ ltac:(by intros []) ltac:(done) ltac:(done)
    (set_codec_ok _ _ leaf_tx_ok)
    (map_codec_ok _ _ _ _ outpoint_codec_ok leaf_txout_ok)) as H2.
  pose proof (struct_ok _ _ cg_cs_codec (@mkCGS P) cgs_chain cgs_graph _ _ ltac:(by intros []) ltac:(done) ltac:(done) H1 H2) as H3.
  pose proof (struct_ok (map_codec leaf_k u32_codec) _ kcs_codec mkKCS kcs_indices kcs_cg _ _ ltac:(by intros []) ltac:(done) ltac:(done)
    (map_codec_ok _ _ _ _ leaf_k_ok u32_codec_ok) H3) as H4.
  eapply codec_ok_weaken; [|exact H4]. unfold kcs_wf. cbn beta. tauto.
Qed.
End changeset.
