(** Concrete keychains, histories and witnesses. *)
From Verif Require Export KeychainIndexProofs5.

(** Checking a history call by call. *)
Fixpoint ops_ok `{!DescEnv} `{Countable K, !Ord K} (A : K → option Desc) (pre h : list (ki_op K)) : Prop :=
  match h with
  | [] => True
  | op :: h => ki_op_ok A pre op ∧ ops_ok A (pre ++ [op]) h
  end.
Lemma ops_ok_hist `{!DescEnv} `{Countable K, !Ord K} (A : K → option Desc) h : ∀ pre,
  ki_hist_ok A pre → ops_ok A pre h → ki_hist_ok A (pre ++ h).
Proof.
  induction h as [|op h IH]; intros pre Hp Ho; [by rewrite app_nil_r|].
  destruct Ho as [Ho1 Ho2]. replace (pre ++ op :: h) with ((pre ++ [op]) ++ h) by (by rewrite <- app_assoc).
  apply IH; [|done]. by apply hist_ok_snoc.
Qed.
Lemma ops_ok_nil `{!DescEnv} `{Countable K, !Ord K} (A : K → option Desc) (h : list (ki_op K)) :
  ops_ok A [] h → ki_hist_ok A h.
Proof. apply (ops_ok_hist A h []). by intros [] ? ? ?. Qed.

Ltac check_ops :=
  repeat match goal with
  | |- _ ∧ _ => split
  | |- True => exact I
  | |- Some _ = Some _ => reflexivity
  | |- known _ _ => eexists; repeat first [apply elem_of_list_here | apply elem_of_list_further]
  | |- (_ ≤ _)%N => vm_compute; discriminate
  end.

(** Descriptors 1 and 3 have a wildcard, 2 has none. *)
Definition ex_env : DescEnv :=
  {| has_wildcard d := negb (d =? 2); derive d i := if (d =? 2) then Some (d * 4294967296) else Some (d * 4294967296 + i) |}.
Local Existing Instance ex_env.
(** Keychains 0, 1 and 2. *)
Definition exA (k : N) : option Desc := match k with 0 => Some 1 | 1 => Some 3 | 2 => Some 2 | _ => None end.
Lemma exA_good : good_env exA.
Proof.
  assert (∀ k d, exA k = Some d → d = 1 ∧ k = 0 ∨ d = 3 ∧ k = 1 ∨ d = 2 ∧ k = 2) as Hd.
  { intros [|[p|p|]] d; cbn; try (intros [= <-]; tauto). destruct p; cbn; try done. intros [= <-]. tauto. }
  split.
  - intros k d Hk i _. cbn. destruct (d =? 2); eauto.
  - intros k k' d d' i i' s Hk Hk' Hi Hi' E E'. pose proof (cap_bound d). pose proof (cap_bound d').
    apply Hd in Hk. apply Hd in Hk'. unfold cap in *.
    assert (∀ d0 i0, derive d0 i0 = Some (d0 * 4294967296 + if d0 =? 2 then 0 else i0)) as Hder.
    { intros d0 i0. unfold derive, ex_env. destruct (d0 =? 2); f_equal; lia. }
    rewrite Hder in E, E'. clear Hder. assert (d' * 4294967296 + (if d' =? 2 then 0 else i') = d * 4294967296 + (if d =? 2 then 0 else i)) as Q by congruence. clear E E'.
    destruct Hk as [[-> ->]|[[-> ->]|[-> ->]]], Hk' as [[-> ->]|[[-> ->]|[-> ->]]]; cbn [has_wildcard ex_env N.eqb Pos.eqb negb] in *; lia.
Qed.
(** Script of index [i] of a wildcard descriptor. *)
Definition exs (d i : N) : Script := d * 4294967296 + i.
Definition ex_out (v d i : N) : OutPoint * TxOut := (mkOutPoint 50 v, mkTxOut (10 + v) (exs d i)).
(** Index 5 is one past what is watched, so the scan misses it until 4 has been seen. *)
Definition ex_h : list (ki_op N) :=
  [KiAdd 0 1; KiAdd 2 2; KiLook 0 3; KiNext 0; KiNext 0; KiNext 2; KiNext 2;
   KiScan [ex_out 0 1 5; ex_out 1 1 4; ex_out 2 1 5; ex_out 3 9 9];
   KiReserve 0; KiMark 0 0; KiAdd 1 3; KiLookAll 2; KiNextUnused 0; KiReserveUnused 0; KiUnmark 0 0; KiReveal 1 4;
   KiRevealMulti {[ 0 := 8; 1 := 2 ]}; KiLookTo 1 12].
Lemma ex_h_ok : ki_hist_ok exA ex_h.
Proof.
  apply ops_ok_nil. cbn [ops_ok ex_h app ki_op_ok].
  cbn [exA]. check_ops.
  - intros o u Hin. repeat (apply elem_of_cons in Hin as [[= -> ->]|Hin]; [vm_compute; done|]). by apply elem_of_nil in Hin.
  - intros k t Hkt. apply lookup_insert_Some in Hkt as [[<- <-]|[_ Hkt]]; [|apply lookup_singleton_Some in Hkt as [<- <-]]; check_ops.
Qed.
(** Observations of the state after [ex_h]. *)
Definition ex_obs {B} (f : KIndex N → list (N * N * Script) → gmap N N → B) : option B :=
  match ki_run ex_h with Ret (x, outs, acc) => Some (f x outs acc) | Panic => None end.
Lemma ex_run : ∃ x outs acc, ki_run ex_h = Ret (x, outs, acc).
Proof. destruct (ki_no_panic exA ex_h exA_good ex_h_ok) as [[[x outs] acc] E]. exists x, outs, acc. exact E. Qed.

(** ** Witnesses at the bound *)
Lemma look_state (A : N → option Desc) k d la : good_env A → A k = Some d → la ≤ 2147483648 →
  ∃ x hs, ki_run [KiAdd k d; KiLook k la] = Ret (x, [], ∅) ∧ ki_hist_ok A [KiAdd k d; KiLook k la] ∧
    hist_inv A [KiAdd k d; KiLook k la] hs x [] ∅.
Proof.
  intros HA Hk Hla.
  assert (ki_hist_ok A [KiAdd k d; KiLook k la]) as Hh.
  { apply ops_ok_nil. cbn. split; [done|]. split; [|done]. split; [|done]. exists d. by left. }
  destruct (hist_run A _ HA Hh) as (x & outs & acc & hs & E & Hi).
  assert (outs = [] ∧ acc = ∅) as [-> ->].
  { change [KiAdd k d; KiLook k la] with ([KiAdd k d] ++ [KiLook k la]) in E. rewrite ki_run_snoc in E.
    destruct (ki_run [KiAdd k d]) as [[[x1 outs1] acc1]|] eqn:E1; [|done].
    assert (ki_run [KiAdd k d] = Ret (x1, [], ∅)) as E1'.
    { unfold ki_run in *. cbn [foldl ki_step] in *. unfold state_res in *.
      destruct (add_keychain ki_default k d); [|done]. injection E1 as -> _ _. by rewrite da_append_empty_r. }
    rewrite E1 in E1'. injection E1' as -> ->. cbn [ki_step] in E. unfold state_res in E.
    destruct (set_lookahead x1 k la); [|done]. injection E as _ <- <-. by rewrite da_append_empty_r. }
  exists x, hs. split; [exact E|]. split; [exact Hh|exact Hi].
Qed.
Lemma beyond_bound_nothing : ∃ (E : DescEnv) (A : N → option Desc) h x outs acc k d t,
  good_env A ∧ ki_hist_ok A h ∧ ki_run h = Ret (x, outs, acc) ∧ known h k ∧ A k = Some d ∧ has_wildcard d = true ∧
  n_revealed x k = 0 ∧ bip32_max < t ∧ ∃ x', reveal_to_target x k t = Ret (x', [], ∅) ∧ ki_revealed x' = ∅.
Proof.
  exists ex_env, exA. destruct (look_state exA 0 1 1073741825 exA_good eq_refl) as (x & hs & E & Hh & Hi); [done|].
  exists [KiAdd 0 1; KiLook 0 1073741825], x, [], ∅, 0, 1, 1073741825.
  assert (known [KiAdd 0 1; KiLook 0 1073741825] 0) as Hk by (exists 1; by left).
  pose proof (known_desc _ _ _ _ _ _ 0 1 Hi eq_refl Hk) as Hd. destruct Hi as (I1 & _ & _ & I4 & _ & I7 & _).
  assert (n_revealed x 0 = 0) as Hn by (unfold n_revealed; by rewrite <- I4, lookup_empty).
  destruct (core_stored exA hs x 0 1 (proj1 I1) Hd) as (n & Hst & _).
  assert (lookahead_of x 0 = 1073741825) as Hla by (by rewrite I7).
  destruct (reveal_ok exA hs x 0 1 n 1073741825 exA_good I1 Hd Hst) as (s' & h' & _ & _ & _ & Hr); [by rewrite Hla|].
  split; [exact exA_good|]. split; [exact Hh|]. split; [exact E|]. split; [exact Hk|]. split; [reflexivity|]. split; [reflexivity|]. split; [exact Hn|]. split; [reflexivity|]. rewrite Hla, Hn in Hr.
  assert (reveals 1 0 1073741825 (target_of 1 1073741825) = None) as Ev by done. rewrite Ev in Hr.
  exists (with_inner x s'). split; [exact (proj1 Hr)|]. cbn. symmetry. exact I4.
Qed.
Lemma beyond_bound_unstored : ∃ (E : DescEnv) (A : N → option Desc) h x outs acc k d t,
  good_env A ∧ ki_hist_ok A h ∧ ki_run h = Ret (x, outs, acc) ∧ known h k ∧ A k = Some d ∧ has_wildcard d = true ∧
  n_revealed x k = 0 ∧ ∃ x' l, reveal_to_target x k t = Ret (x', l, {[ k := t ]}) ∧ last_revealed_index x' k = Some t ∧
    si_spk_at (ki_inner x') (k, t) = None.
Proof.
  exists ex_env, exA. destruct (look_state exA 0 1 1073741826 exA_good eq_refl) as (x & hs & E & Hh & Hi); [done|].
  exists [KiAdd 0 1; KiLook 0 1073741826], x, [], ∅, 0, 1, 1073741825.
  assert (known [KiAdd 0 1; KiLook 0 1073741826] 0) as Hk by (exists 1; by left).
  pose proof (known_desc _ _ _ _ _ _ 0 1 Hi eq_refl Hk) as Hd. destruct Hi as (I1 & _ & _ & I4 & _ & I7 & _).
  assert (n_revealed x 0 = 0) as Hn by (unfold n_revealed; by rewrite <- I4, lookup_empty).
  destruct (core_stored exA hs x 0 1 (proj1 I1) Hd) as (n & Hst & Hcap & _).
  assert (lookahead_of x 0 = 1073741826) as Hla by (by rewrite I7).
  destruct (reveal_ok exA hs x 0 1 n 1073741825 exA_good I1 Hd Hst) as (s' & h' & _ & _ & Hg & Hr); [by rewrite Hla|].
  split; [exact exA_good|]. split; [exact Hh|]. split; [exact E|]. split; [exact Hk|]. split; [reflexivity|]. split; [reflexivity|]. split; [exact Hn|]. rewrite Hla, Hn in *.
  assert (reveals 1 0 1073741826 (target_of 1 1073741825) = Some 1073741825) as Ev by done. rewrite Ev in Hr. cbn zeta in Hr.
  eexists _, _. split; [exact (proj1 Hr)|]. split; [apply lookup_insert|].
  destruct Hg as [Hs _]. specialize (Hs 1073741825). cbn [ki_inner with_inner] in *.
  destruct (si_spk_at s' (0, 1073741825)) as [s|] eqn:Es; [|done]. exfalso.
  assert (1073741825 < N.max n (N.min (target_of 1 1073741825 + 1073741826 + 1) (cap 1))) as Hlt.
  { apply Hs. eauto. }
  change (cap 1) with 1073741825 in *. lia.
Qed.
Lemma whole_range : ∃ (E : DescEnv) (A : N → option Desc) h x outs acc k d,
  good_env A ∧ ki_hist_ok A h ∧ ki_run h = Ret (x, outs, acc) ∧ known h k ∧ A k = Some d ∧ has_wildcard d = true ∧
  (∀ i, is_Some (derive d i)) ∧
  ∃ x' l, reveal_to_target x k 2147483647 = Ret (x', l, {[ k := 1073741824 ]}) ∧ last_revealed_index x' k = Some 1073741824.
Proof.
  exists ex_env, exA. destruct (look_state exA 0 1 2 exA_good eq_refl) as (x & hs & E & Hh & Hi); [done|].
  exists [KiAdd 0 1; KiLook 0 2], x, [], ∅, 0, 1.
  assert (known [KiAdd 0 1; KiLook 0 2] 0) as Hk by (exists 1; by left).
  split; [exact exA_good|]. split; [exact Hh|]. split; [exact E|]. split; [exact Hk|]. split; [reflexivity|]. split; [reflexivity|]. split; [intros i; eexists; reflexivity|].
  destruct Hi as (I1 & _ & _ & I4 & _ & I7 & _).
  assert (n_revealed x 0 = 0) as Hn by (unfold n_revealed; by rewrite <- I4, lookup_empty).
  destruct (ki_reveal_max exA _ x [] ∅ 0 1 2147483647 exA_good Hh E eq_refl Hk) as (x' & l & Er & Ev & _); [reflexivity|reflexivity|discriminate|by rewrite Hn|].
  exists x', l. split; [exact Er|]. unfold last_revealed_index. rewrite Ev. apply lookup_insert.
Qed.
Lemma look_target_missed : ∃ (E : DescEnv) (A : N → option Desc) h k d t i s,
  good_env A ∧ ki_hist_ok A h ∧ A k = Some d ∧ known h k ∧ i < t ∧ i < cap d ∧ derive d i = Some s ∧
  match ki_run h with
  | Ret (x, _, _) => match lookahead_to_target x k t with Ret x' => si_index_of_spk (ki_inner x') s = None | Panic => False end
  | Panic => False end.
Proof.
  exists ex_env, exA, [KiAdd 0 1; KiLook 0 5], 0, 1, 8, 7, (exs 1 7).
  destruct (look_state exA 0 1 5 exA_good eq_refl) as (x & hs & E & Hh & Hi); [done|].
  split; [exact exA_good|]. split; [exact Hh|]. split; [reflexivity|]. split; [exists 1; by left|]. split; [reflexivity|]. split; [reflexivity|]. split; [reflexivity|].
  vm_compute. reflexivity.
Qed.

(** ** A gapped scan *)
Definition ex_pays (s : Script) : option (N * N) :=
  let d := s / 4294967296 in let i := s mod 4294967296 in
  if bool_decide (i < (if (d =? 2) then 1 else bip32_max + 1)) then
    (if d =? 1 then Some (0, i) else if d =? 3 then Some (1, i) else if d =? 2 then Some (2, i) else None)
  else None.
Lemma ex_pays_to : pays_to exA ex_pays.
Proof.
  assert (∀ d i : N, i < 4294967296 → (d * 4294967296 + i) / 4294967296 = d ∧ (d * 4294967296 + i) mod 4294967296 = i) as Hdm.
  { intros d i Hi. split.
    - symmetry. apply (N.div_unique _ _ _ i); lia.
    - symmetry. apply (N.mod_unique _ _ d); lia. }
  intros s k i. split.
  - unfold ex_pays. case_bool_decide as Hb; [|done]. pose proof (N.div_mod s 4294967296) as Hs.
    assert (s mod 4294967296 < 4294967296) as Hm by (apply N.mod_lt; lia).
    destruct (N.eqb_spec (s / 4294967296) 1) as [E1|E1]; [|destruct (N.eqb_spec (s / 4294967296) 3) as [E3|E3]; [|destruct (N.eqb_spec (s / 4294967296) 2) as [E2|E2]; [|done]]].
    + intros [= <- <-]. exists 1. rewrite E1 in Hb. split; [done|]. split; [exact Hb|]. cbn -[N.add N.mul]. f_equal. lia.
    + intros [= <- <-]. exists 3. rewrite E3 in Hb. split; [done|]. split; [exact Hb|]. cbn -[N.add N.mul]. f_equal. lia.
    + intros [= <- <-]. exists 2. assert (s mod 4294967296 < 1) as Hb' by exact Hb. split; [done|]. split; [exact Hb|].
      transitivity (Some (2 * 4294967296)); [reflexivity|].
      rewrite E2 in Hs. assert (s mod 4294967296 = 0) as Hz by (apply N.lt_1_r; exact Hb'). rewrite Hz in Hs.
      rewrite Hs by discriminate. reflexivity.
  - intros (d & Hd & Hi & Hs). pose proof (cap_bound d) as Hcb.
    destruct k as [|[p|p|]]; cbn in Hd; try done.
    + injection Hd as <-. change (derive 1 i) with (Some (1 * 4294967296 + i)) in Hs. assert (s = 1 * 4294967296 + i) as -> by congruence.
      unfold ex_pays. destruct (Hdm 1 i) as [-> ->]; [lia|].
      rewrite bool_decide_true by exact Hi. done.
    + destruct p; try done. injection Hd as <-. assert (i = 0) as -> by (change (cap 2) with 1 in Hi; lia).
      assert (s = 2 * 4294967296 + 0) as -> by (injection Hs as <-; done). unfold ex_pays. destruct (Hdm 2 0) as [-> ->]; [lia|]. done.
    + injection Hd as <-. change (derive 3 i) with (Some (3 * 4294967296 + i)) in Hs. assert (s = 3 * 4294967296 + i) as -> by congruence.
      unfold ex_pays. destruct (Hdm 3 i) as [-> ->]; [lia|].
      rewrite bool_decide_true by exact Hi. done.
Qed.
(** Gaps of up to the lookahead: 2, 4, 7 with lookahead 3; a foreign output in between. *)
Definition ex_gap_h : list (ki_op N) := [KiAdd 0 1; KiAdd 1 3; KiAdd 2 2; KiLook 0 3; KiLook 1 1; KiLook 2 1].
Definition ex_gap : list (OutPoint * TxOut) := [ex_out 0 1 2; ex_out 1 3 0; ex_out 2 1 4; ex_out 3 9 9; ex_out 4 1 7; ex_out 5 2 0; ex_out 6 1 0].
Lemma ex_gap_h_ok : ki_hist_ok exA ex_gap_h.
Proof.
  apply ops_ok_nil. cbn [ops_ok ex_gap_h app ki_op_ok].
  cbn [exA]. check_ops.
Qed.
Lemma ex_gap_known : ∀ k d, exA k = Some d → known ex_gap_h k.
Proof.
  intros k d Hk. destruct k as [|[p|p|]]; cbn in Hk; try done.
  - check_ops.
  - destruct p; try done. check_ops.
  - check_ops.
Qed.
