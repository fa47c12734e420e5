(** Properties C63 to C65 and C73 to C77: spending plans. *)
From Verif Require Import PlanExamples.
#[local] Existing Instances toy_env toy_laws.

(** ** C63: a plan stays within the assets *)

(** If the assets reach the absolute lock times of the descriptor. *)
Theorem C63_plan_within_assets_partial (E : KeyEnv) AK (D : CanDerive AK) tr (a : Assets AK) p r :
  plan_satisfaction (DTr tr) a = Ret (Some p) → requirements p = Ret r → reaches_locktimes a tr → plan_within a p r.
Proof. exact (plan_within_reached tr a p r). Qed.
Print Assumptions C63_plan_within_assets_partial.
Example C63_plan_within_assets_case :
  plan_satisfaction (DTr tr1) assets_h = Ret (Some plan_h) ∧ requirements plan_h = Ret (requirements_of plan_h)
  ∧ reaches_locktimes assets_h tr1 ∧ p_locktime plan_h = Some (Seconds 500000100).
Proof. split; [done|]. split; [done|]. split; [exact assets_h_reach|done]. Qed.

(** In any case all but the lock time, of which only some maximum must be given. *)
Theorem C63_all_but_locktime (E : KeyEnv) AK (D : CanDerive AK) tr (a : Assets AK) p r :
  plan_satisfaction (DTr tr) a = Ret (Some p) → requirements p = Ret r →
  (∀ k, k ∈ req_keys (r_sigs r) → sig_within a k)
  ∧ (∀ i, i ∈ r_images r → i ∈ a_images a)
  ∧ (∀ s, p_sequence p = Some s → ∃ age, a_age a = Some age ∧ is_height_locked s = is_height_locked age ∧ s ≤ age)
  ∧ (∀ x, p_locktime p = Some x → is_Some (a_locktime a)).
Proof. exact (plan_but_locktime tr a p r). Qed.
Print Assumptions C63_all_but_locktime.
Example C63_all_but_locktime_case :
  plan_satisfaction (DTr tr1) assets_AB = Ret (Some plan_AB) ∧ requirements plan_AB = Ret (requirements_of plan_AB)
  ∧ req_keys (r_sigs (requirements_of plan_AB)) = [mkPlanKey kA [] kA] ∧ p_sequence plan_AB = Some 5.
Proof. done. Qed.

(** What a plan of a leaf puts on the stack, its lock time and its sequence are those of one
    spending path of that leaf. *)
Theorem C63_plan_is_a_path (E : KeyEnv) AK (D : CanDerive AK) tr (a : Assets AK) p s :
  plan_satisfaction (DTr tr) a = Ret (Some p) → p_target p = Segwitv1 tr (LeafSpend s) →
  ∃ t l, t ∈ iter_scripts tr ∧ s = script_bytes t ∧ way t l ∧ item_need <$> p_template p ≡ₚ stack_needs l
    ∧ latest_lock (p_locktime p) l ∧ latest_age (p_sequence p) l.
Proof. exact (plan_path tr a p s). Qed.
Print Assumptions C63_plan_is_a_path.
Example C63_plan_is_a_path_case :
  plan_satisfaction (DTr tr1) assets_h = Ret (Some plan_h) ∧ p_target plan_h = Segwitv1 tr1 (LeafSpend (script_bytes leaf2))
  ∧ p_template plan_h = [IHash HSha256 sha; IZero].
Proof. done. Qed.

(** The lock time can be beyond the maximum. *)
Theorem C63_plan_within_assets_refuted : ∃ (E : KeyEnv) tr (a : Assets DescKey) p r,
  plan_satisfaction (DTr tr) a = Ret (Some p) ∧ requirements p = Ret r ∧ ¬ plan_within a p r.
Proof.
  exists toy_env, (tr_one leaf_late), assets_early, plan_late, (requirements_of plan_late). split; [done|]. split; [done|].
  intros (_ & _ & _ & Hl). destruct (Hl (Seconds 700000000) eq_refl) as (max & E & _ & Hle). injection E as <-. by apply Hle.
Qed.
Print Assumptions C63_plan_within_assets_refuted.

(** ** C64: a plan completes exactly with what it requires *)

Theorem C64_try_complete_exact (E : KeyEnv) AK (D : CanDerive AK) tr (a : Assets AK) p :
  plan_satisfaction (DTr tr) a = Ret (Some p) →
  ∃ r, requirements p = Ret r ∧ ∀ m, ∃ st, try_complete p m = Ret st ∧
    match st with Complete _ => supplied m r | Incomplete r' => ¬ supplied m r ∧ left_over m r r' end.
Proof. exact (try_complete_exact tr a p). Qed.
Print Assumptions C64_try_complete_exact.
Example C64_try_complete_exact_case :
  plan_satisfaction (DTr tr1) assets_h = Ret (Some plan_h)
  ∧ (∃ r, try_complete plan_h (toy_material [kA] []) = Ret (Incomplete r) ∧ elements (r_images r) = [(HSha256, sha)])
  ∧ (∃ w, try_complete plan_h (toy_material [] [preimage]) = Ret (Complete w) ∧ length w = 4%nat).
Proof. split; [done|]. split; (eexists; split; [vm_compute; reflexivity|done]). Qed.

(** ** C65: the expected weight is the weight *)

(** For 64 byte signatures and 32 byte preimages, without [pk_h]; and with it, one byte more
    for each key that is revealed. *)
Theorem C65_expected_weight_partial (E : KeyEnv) (L : KeyLaws) AK (D : CanDerive AK) tr (a : Assets AK) p m w n :
  plan_satisfaction (DTr tr) a = Ret (Some p) → expected_weight p = Ret n → try_complete p m = Ret (Complete w) →
  usual_sizes m → Forall (λ e : bytes, blen e < 2 ^ 64) w → blen w < 2 ^ 64 → (∀ t, t ∈ iter_scripts tr → no_pk_h t = true) →
  satisfaction_weight w = n.
Proof.
  intros Hp Hn Hc Hm Hb Hb2 Ht. rewrite (weight_exact tr a p m w n) by done. rewrite (no_pk_h_count tr a p) by done. apply N.add_0_r.
Qed.
Print Assumptions C65_expected_weight_partial.
Example C65_expected_weight_case :
  let m := toy_material [] [preimage] in let w := witness_with plan_h m in
  plan_satisfaction (DTr tr1) assets_h = Ret (Some plan_h) ∧ expected_weight plan_h = Ret 188
  ∧ try_complete plan_h m = Ret (Complete w) ∧ usual_sizes m ∧ satisfaction_weight w = 188.
Proof. split; [done|]. split; [done|]. split; [done|]. split; [by apply toy_sizes, Forall_singleton|done]. Qed.

Theorem C65_expected_weight_with_pk_h (E : KeyEnv) (L : KeyLaws) AK (D : CanDerive AK) tr (a : Assets AK) p m w n :
  plan_satisfaction (DTr tr) a = Ret (Some p) → expected_weight p = Ret n → try_complete p m = Ret (Complete w) →
  usual_sizes m → Forall (λ e : bytes, blen e < 2 ^ 64) w → blen w < 2 ^ 64 →
  satisfaction_weight w = n + pk_count (p_template p).
Proof. exact (weight_exact tr a p m w n). Qed.
Print Assumptions C65_expected_weight_with_pk_h.
Example C65_expected_weight_with_pk_h_case :
  plan_satisfaction (DTr (tr_one leaf_pkh)) assets_AB = Ret (Some plan_pkh) ∧ pk_count (p_template plan_pkh) = 1.
Proof. done. Qed.

Theorem C65_expected_weight_refuted : ∃ (E : KeyEnv) (L : KeyLaws) tr (a : Assets DescKey) p m w n,
  plan_satisfaction (DTr tr) a = Ret (Some p) ∧ expected_weight p = Ret n ∧ try_complete p m = Ret (Complete w)
  ∧ usual_sizes m ∧ n < satisfaction_weight w.
Proof.
  exists toy_env, toy_laws, (tr_one leaf_pkh), assets_AB, plan_pkh, (toy_material [kA] []), (witness_with plan_pkh (toy_material [kA] [])), (weight_of plan_pkh).
  split; [done|]. split; [done|]. split; [done|]. split; [by apply toy_sizes|]. vm_compute. reflexivity.
Qed.
Print Assumptions C65_expected_weight_refuted.

(** ** C73: the witness of a completed plan satisfies the script and proves it is in the tree *)

(** If of any two joined parts of a script one takes no arguments, without [pk_h], and if
    relative lock times use no undefined bits. *)
Theorem C73_witness_satisfies_partial (E : KeyEnv) (L : KeyLaws) AK (D : CanDerive AK) cx tr (a : Assets AK) p m w :
  (∀ b, cx_hash cx HHash160 b = hash_bytes HHash160 b) → material_ok cx m →
  plan_satisfaction (DTr tr) a = Ret (Some p) → try_complete p m = Ret (Complete w) → tx_waits cx p →
  (∀ t, t ∈ iter_scripts tr → well_typed t ∧ one_sided t = true ∧ no_pk_h t = true ∧ plain_older t = true) →
  (p_target p = Segwitv1 tr KeySpend ∧ ∃ s, m_sigs m !! tr_internal tr = Some s ∧ w = [sig_to_vec s])
  ∨ ∃ t args cb, t ∈ iter_scripts tr ∧ w = args ++ [script_bytes t; cb] ∧ satisfies cx (encode t) args ∧ opens tr (script_bytes t) cb.
Proof. exact (complete_satisfies cx tr a p m w). Qed.
Print Assumptions C73_witness_satisfies_partial.
(** A transaction with the version, lock time and sequence that the plan says it requires waits long enough. *)
Theorem C73_required_waits (E : KeyEnv) AK (D : CanDerive AK) cx tr (a : Assets AK) p :
  plan_satisfaction (DTr tr) a = Ret (Some p) → as_required cx p → tx_waits cx p.
Proof. exact (λ _, required_waits cx p). Qed.
Print Assumptions C73_required_waits.
Example C73_required_waits_case : plan_satisfaction (DTr (tr_one leaf_older)) assets_old = Ret (Some plan_older) ∧
  as_required (toy_cx 0 2 0x10001) plan_older ∧ ¬ as_required (toy_cx 0 1 0x10001) plan_older ∧
  plan_satisfaction (DTr tr1) assets_h = Ret (Some plan_h) ∧ is_Some (p_locktime plan_h).
Proof.
  split; [done|]. split.
  { split; [|split; [done|split; [|done]]]. - by intros v [= <-]. - by intros s [= <-]. }
  split; [|split; [done|by eexists]]. intros (Hv & _). specialize (Hv 2 eq_refl). by vm_compute in Hv.
Qed.
Example C73_witness_satisfies_case :
  let cx := toy_cx 500000150 2 0xfffffffd in let m := toy_material [] [preimage] in
  (∀ b, cx_hash cx HHash160 b = hash_bytes HHash160 b) ∧ material_ok cx m
  ∧ plan_satisfaction (DTr tr1) assets_h = Ret (Some plan_h) ∧ try_complete plan_h m = Ret (Complete (witness_with plan_h m))
  ∧ tx_waits cx plan_h
  ∧ (∀ t, t ∈ iter_scripts tr1 → well_typed t ∧ one_sided t = true ∧ no_pk_h t = true ∧ plain_older t = true).
Proof.
  split; [done|]. split; [by apply toy_material_ok, Forall_singleton|]. split; [done|]. split; [done|].
  split; [|exact tr1_clean]. split; [|done]. intros x [= <-]. by apply (bool_decide_unpack _).
Qed.

(** Two parts that both take arguments: [and_v(v:pk(A), pk(B))]. *)
Theorem C73_witness_satisfies_refuted : ∃ (E : KeyEnv) (L : KeyLaws) cx t (a : Assets DescKey) p m args path,
  let tr := tr_one t in
  (∀ h b, cx_hash cx h b = hash_bytes h b) ∧ material_ok cx m ∧ well_typed t
  ∧ plan_satisfaction (DTr tr) a = Ret (Some p) ∧ tx_waits cx p
  ∧ try_complete p m = Ret (Complete (args ++ [script_bytes t; control_block tr path]))
  ∧ ¬ satisfies cx (encode t) args ∧ satisfies cx (encode t) (rev args).
Proof.
  exists toy_env, toy_laws, (toy_cx 0 2 0xfffffffd), leaf_both, assets_AB, plan_both, (toy_material [kA; kB] []),
    [sig_to_vec (toy_sig kA); sig_to_vec (toy_sig kB)], [].
  split; [done|]. split; [by apply toy_material_ok|]. split; [by eexists|]. split; [done|]. split; [done|]. split; [done|].
  split; [by apply not_satisfies|by apply satisfiesb_spec].
Qed.
Print Assumptions C73_witness_satisfies_refuted.
(** A key behind its hash: [pk_h(A)]. *)
Theorem C73_pk_h_refuted : ∃ (E : KeyEnv) (L : KeyLaws) cx t (a : Assets DescKey) p m args path,
  let tr := tr_one t in
  (∀ h b, cx_hash cx h b = hash_bytes h b) ∧ material_ok cx m ∧ well_typed t ∧ one_sided t = true
  ∧ plan_satisfaction (DTr tr) a = Ret (Some p) ∧ tx_waits cx p
  ∧ try_complete p m = Ret (Complete (args ++ [script_bytes t; control_block tr path])) ∧ ¬ satisfies cx (encode t) args.
Proof.
  exists toy_env, toy_laws, (toy_cx 0 2 0xfffffffd), leaf_pkh, assets_AB, plan_pkh, (toy_material [kA] []),
    [sig_to_vec (toy_sig kA); key_bytes kA], [].
  split; [done|]. split; [by apply toy_material_ok|]. split; [by eexists|]. split; [done|]. split; [done|]. split; [done|]. split; [done|].
  by apply not_satisfies.
Qed.
Print Assumptions C73_pk_h_refuted.
(** Undefined bits of a relative lock time: [and_v(v:older(65537), older(5))]; the sequence is
    the larger number, but the shorter wait. *)
Theorem C73_older_refuted : ∃ (E : KeyEnv) (L : KeyLaws) cx t (a : Assets DescKey) p m args path,
  let tr := tr_one t in
  (∀ h b, cx_hash cx h b = hash_bytes h b) ∧ material_ok cx m ∧ well_typed t ∧ one_sided t = true ∧ no_pk_h t = true
  ∧ plan_satisfaction (DTr tr) a = Ret (Some p) ∧ tx_waits cx p
  ∧ try_complete p m = Ret (Complete (args ++ [script_bytes t; control_block tr path])) ∧ ¬ satisfies cx (encode t) args.
Proof.
  exists toy_env, toy_laws, (toy_cx 0 2 0x10001), leaf_older, assets_old, plan_older, no_material, [], [].
  split; [done|]. split; [by apply (toy_material_ok _ _ _ [] [])|]. split; [by eexists|]. split; [done|]. split; [done|]. split; [done|].
  split; [|split; [done|by apply not_satisfies]]. split; [done|]. intros s [= <-]. by apply (bool_decide_unpack _).
Qed.
Print Assumptions C73_older_refuted.

(** ** C74: signatures are made with the keys the descriptor names *)

(** Unless an asset is itself an extended key in the descriptor with steps to derive. *)
Theorem C74_right_keys_partial (E : KeyEnv) R tr (a : Assets DescKey) p r km key_msg leaf_msg ty m b m' :
  ring_laws R → honest_keymap R km → plan_satisfaction (DTr tr) a = Ret (Some p) → requirements p = Ret r →
  (∀ k, k ∈ req_keys (r_sigs r) → honest_origin R (pk_asset k) ∧ honest_origin R (pk_key k) ∧ not_itself_derived k) →
  sign_with_keymap (r_sigs r) km key_msg leaf_msg ty m = Ret (Ok b, m') →
  ∃ msg, sig_message (r_sigs r) key_msg leaf_msg = Some msg ∧ m_preimages m' = m_preimages m
    ∧ (∀ k, k ∈ req_keys (r_sigs r) → is_Some (km !! pk_asset k) → ∃ sk, key_secret R (pk_key k) = Some sk
         ∧ m_sigs m' !! pk_key k = Some (mkSig (schnorr_sign (sig_tweak (r_sigs r) sk) msg) ty))
    ∧ (∀ key, (∀ k, k ∈ req_keys (r_sigs r) → is_Some (km !! pk_asset k) → pk_key k ≠ key) → m_sigs m' !! key = m_sigs m !! key)
    ∧ (b = true ↔ ∃ k, k ∈ req_keys (r_sigs r) ∧ is_Some (km !! pk_asset k)).
Proof.
  intros HR Hkm Hp Hr Hk. apply sign_sound; [done|done|]. intros k Hin. destruct (Hk k Hin) as (? & ? & ?).
  destruct (plan_but_locktime tr a p r Hp Hr) as [Hs _]. destruct (Hs k Hin). done.
Qed.
Print Assumptions C74_right_keys_partial.
Example C74_right_keys_case :
  ring_laws toy_ring ∧ honest_keymap toy_ring keymap_AB ∧ plan_satisfaction (DTr (tr_one leaf_both)) assets_AB = Ret (Some plan_both)
  ∧ req_keys (r_sigs (requirements_of plan_both)) = [mkPlanKey kA [] kA; mkPlanKey aB [1; 2] kB]
  ∧ (∃ m', sign_with_keymap (r_sigs (requirements_of plan_both)) keymap_AB None (λ _, Some 5) 0 no_material = Ret (Ok true, m')
       ∧ map_to_list (m_sigs m') = map_to_list (m_sigs (toy_material [kA; kB] []))).
Proof.
  split; [exact toy_ring_laws|]. split; [exact keymap_AB_honest|]. split; [done|]. split; [done|].
  eexists. split; vm_compute; reflexivity.
Qed.

Theorem C74_right_keys_refuted : ∃ (E : KeyEnv) R tr (a : Assets DescKey) p r km m' k sk,
  ring_laws R ∧ honest_keymap R km ∧ plan_satisfaction (DTr tr) a = Ret (Some p) ∧ requirements p = Ret r
  ∧ k ∈ req_keys (r_sigs r) ∧ honest_origin R (pk_asset k) ∧ honest_origin R (pk_key k)
  ∧ sign_with_keymap (r_sigs r) km None (λ _, Some 5) 0 no_material = Ret (Ok true, m')
  ∧ key_secret R (pk_key k) = Some sk ∧ m_sigs m' !! pk_key k ≠ Some (mkSig (schnorr_sign sk 5) 0).
Proof.
  exists toy_env, toy_ring, (tr_one (pk kX)), (mkAssets [kX] None None []), plan_X, (requirements_of plan_X), keymap_X.
  eexists _, (mkPlanKey kX [] kX), 23. split; [exact toy_ring_laws|]. split; [exact keymap_X_honest|].
  split; [done|]. split; [done|]. split; [left|]. split; [done|]. split; [done|]. split; [vm_compute; reflexivity|]. split; [done|].
  vm_compute. discriminate.
Qed.
Print Assumptions C74_right_keys_refuted.

(** ** C75: planning fails only if the assets reach no spending path *)

(** For leaves no path of which mixes kinds of lock times. *)
Theorem C75_plan_found_partial (E : KeyEnv) AK (D : CanDerive AK) tr (a : Assets AK) :
  plan_satisfaction (DTr tr) a = Ret None →
  (∀ x, x ∈ a_keys a → can_derive x (tr_internal tr) = None)
  ∧ ∀ t l, t ∈ iter_scripts tr → unmixed t → way t l → ¬ Forall (within a) l.
Proof.
  intros Hn. split.
  - destruct (plan_none tr a Hn) as [Hk _]. exact (find_key_None _ _ Hk).
  - intros t l Ht Hu Hw Hf. apply (plan_complete tr a t l Hn Ht Hu Hw). eapply Forall_impl; [exact Hf|exact (within_weaken a)].
Qed.
Print Assumptions C75_plan_found_partial.
Example C75_plan_found_case :
  plan_satisfaction (DTr tr1) (mkAssets [kA] (Some 4) (Some (Seconds 500000100)) []) = Ret None ∧ unmixed leaf1 ∧ unmixed leaf2
  ∧ iter_scripts tr1 = [leaf1; leaf2].
Proof. split; [done|]. split; [exact leaf1_unmixed|]. split; [exact leaf2_unmixed|done]. Qed.

(** Planning ends for scripts of the fragments that are handled, if the maximum lock time is
    not in blocks. *)
Theorem C75_planning_ends (E : KeyEnv) AK (D : CanDerive AK) tr (a : Assets AK) :
  no_block_locktime a → (∀ t, t ∈ iter_scripts tr → handled t = true) → ∃ o, plan_satisfaction (DTr tr) a = Ret o.
Proof. exact (handled_plan tr a). Qed.
Print Assumptions C75_planning_ends.
Example C75_planning_ends_case : no_block_locktime assets_h ∧ forallb handled (iter_scripts tr1) = true.
Proof. done. Qed.

(** An [or_i] decided by size, before the other half of a conjunction shows the kinds differ. *)
Theorem C75_plan_found_refuted : ∃ (E : KeyEnv) tr (a : Assets DescKey) t l,
  plan_satisfaction (DTr tr) a = Ret None ∧ t ∈ iter_scripts tr ∧ well_typed t ∧ way t l ∧ consistent l ∧ Forall (within a) l.
Proof.
  exists toy_env, (tr_one leaf_units), assets_time, leaf_units, [NAfter 500000001; NSig kA; NZero].
  split; [done|]. split; [left|]. split; [by eexists|]. split; [exact leaf_units_way|]. split.
  - split; intros n n' ? ?; needs_in; done.
  - constructor; [|constructor; [|constructor; [done|constructor]]].
    + exists (Seconds 600000000). done.
    + exists kA. split; [left|done].
Qed.
Print Assumptions C75_plan_found_refuted.
(** A multisig leaf stops the program, even if another leaf could be spent. *)
Theorem C75_planning_panics_refuted : ∃ (E : KeyEnv) tr (a : Assets DescKey) t l,
  plan_satisfaction (DTr tr) a = Panic ∧ t ∈ iter_scripts tr ∧ way t l ∧ Forall (within a) l.
Proof.
  exists toy_env, (mkTr kI (Some (TapNode (TapLeaf (pk kA)) (TapLeaf (TMultiA 1 [kA; kB]))))), assets_AB, (pk kA), [NSig kA].
  split; [done|]. split; [left|]. split; [by repeat constructor|]. constructor; [|constructor]. exists kA. split; [left|done].
Qed.
Print Assumptions C75_planning_panics_refuted.

(** A maximum lock time in blocks stops the program at the first [after]. *)
Theorem C75_block_locktime_panics_refuted : ∃ (E : KeyEnv) tr (a : Assets DescKey) t l,
  plan_satisfaction (DTr tr) a = Panic ∧ t ∈ iter_scripts tr ∧ handled t = true ∧ way t l ∧ Forall (within a) l.
Proof.
  exists toy_env, (tr_one (TAfter 100)), (mkAssets [] None (Some (Blocks 200)) []), (TAfter 100), [NAfter 100].
  split; [done|]. split; [left|]. split; [done|]. split; [constructor|]. constructor; [|constructor]. exists (Blocks 200). done.
Qed.
Print Assumptions C75_block_locktime_panics_refuted.

(** ** C76: the cheapest path is planned *)

(** Counting what the path puts on the stack. *)
Theorem C76_smallest_template_partial (E : KeyEnv) AK (D : CanDerive AK) tr (a : Assets AK) p s t l :
  plan_satisfaction (DTr tr) a = Ret (Some p) → p_target p = Segwitv1 tr (LeafSpend s) →
  t ∈ iter_scripts tr → unmixed t → way t l → Forall (within_but_locktime a) l →
  template_size (p_template p) ≤ path_size l.
Proof. exact (plan_minimal tr a p s t l). Qed.
Print Assumptions C76_smallest_template_partial.
Example C76_smallest_template_case :
  plan_satisfaction (DTr tr1) assets_AB = Ret (Some plan_AB) ∧ p_target plan_AB = Segwitv1 tr1 (LeafSpend (script_bytes leaf1))
  ∧ leaf2 ∈ iter_scripts tr1 ∧ way leaf2 [NSig kB; NOne] ∧ Forall (within_but_locktime assets_AB) [NSig kB; NOne]
  ∧ template_size (p_template plan_AB) = 64 ∧ path_size [NSig kB; NOne] = 65.
Proof.
  split; [done|]. split; [done|]. split; [right; left|]. split; [apply (way_or_i_l _ _ [NSig kB]); by repeat constructor|].
  split; [|done]. constructor; [|constructor; [done|constructor]]. exists aB. split; [right; left|]. by eexists.
Qed.

(** The script and its place in the tree also weigh: with less to choose from, planning finds
    a lighter plan. *)
Theorem C76_cheapest_plan_refuted : ∃ (E : KeyEnv) (L : KeyLaws) tr (a a' : Assets DescKey) p p' n n',
  a_keys a' = a_keys a ∧ a_age a' = a_age a ∧ a_locktime a' = a_locktime a ∧ a_images a' ⊆ a_images a
  ∧ plan_satisfaction (DTr tr) a = Ret (Some p) ∧ expected_weight p = Ret n
  ∧ plan_satisfaction (DTr tr) a' = Ret (Some p') ∧ expected_weight p' = Ret n' ∧ n' < n.
Proof.
  exists toy_env, toy_laws, tr_deep, assets_deep, assets_shallow, (plan_of tr_deep assets_deep), (plan_of tr_deep assets_shallow),
    (weight_of (plan_of tr_deep assets_deep)), (weight_of (plan_of tr_deep assets_shallow)).
  split; [done|]. split; [done|]. split; [done|]. split; [apply list_subseteq_nil|]. split; [done|]. split; [done|]. split; [done|]. split; [done|].
  vm_compute. reflexivity.
Qed.
Print Assumptions C76_cheapest_plan_refuted.

(** ** C77: signing what a plan requires completes it *)

(** Signing that does not stop the program or report an error. *)
Theorem C77_signing_completes_partial (E : KeyEnv) tr (a : Assets DescKey) p r km key_msg leaf_msg ty m b m' :
  plan_satisfaction (DTr tr) a = Ret (Some p) → requirements p = Ret r →
  (∀ k, k ∈ req_keys (r_sigs r) → is_Some (km !! pk_asset k)) → (∀ i, i ∈ r_images r → is_Some (m_preimages m !! i)) →
  sign_with_keymap (r_sigs r) km key_msg leaf_msg ty m = Ret (Ok b, m') →
  ∃ w, try_complete p m' = Ret (Complete w).
Proof. exact (sign_completes tr a p r km key_msg leaf_msg ty m b m'). Qed.
Print Assumptions C77_signing_completes_partial.
Example C77_signing_completes_case :
  plan_satisfaction (DTr (tr_one leaf_both)) assets_AB = Ret (Some plan_both)
  ∧ (∀ k, k ∈ req_keys (r_sigs (requirements_of plan_both)) → is_Some (keymap_AB !! pk_asset k))
  ∧ is_Some (match sign_with_keymap (r_sigs (requirements_of plan_both)) keymap_AB None (λ _, Some 5) 0 no_material with
             | Ret (Ok true, m') => Some m' | _ => None end).
Proof. split; [done|]. split; [|vm_compute; by eexists]. intros k Hk. change (k ∈ [mkPlanKey kA [] kA; mkPlanKey aB [1; 2] kB]) in Hk.
  needs_in; vm_compute; by eexists.
Qed.

(** A plan that requires nothing. *)
Theorem C77_signing_completes_refuted : ∃ (E : KeyEnv) tr (a : Assets DescKey) p r km m w,
  plan_satisfaction (DTr tr) a = Ret (Some p) ∧ requirements p = Ret r
  ∧ (∀ k, k ∈ req_keys (r_sigs r) → is_Some (km !! pk_asset k)) ∧ (∀ i, i ∈ r_images r → is_Some (m_preimages m !! i))
  ∧ (∀ key_msg leaf_msg ty, sign_with_keymap (r_sigs r) km key_msg leaf_msg ty m = Panic)
  ∧ try_complete p m = Ret (Complete w).
Proof.
  exists toy_env, (tr_one leaf_older), assets_old, plan_older, no_requirements, keymap_AB, no_material, (witness_with plan_older no_material).
  split; [done|]. split; [done|]. split; [by intros k []%elem_of_nil|]. split; [by intros i []%not_elem_of_empty|]. done.
Qed.
Print Assumptions C77_signing_completes_refuted.
