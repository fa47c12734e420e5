(** Concrete descriptors, assets and plans. *)
From Verif Require Export SignProofs.

(** A toy world: the public key of a secret is its number, hashes are sums. *)
Definition total (b : bytes) : N := foldr N.add 0 b.
Definition toy_child (x : N) (p : Path) : N := foldl (λ x i, x * 3 + i + 1) x p.
Definition toy_number (k : DescKey) : N := match k with Single _ k => k | XPub _ x path _ => toy_child x path end.
Definition toy_env : KeyEnv := {|
  xpub_fingerprint x := x;
  key_bytes k := 2 :: replicate 31 0 ++ [toy_number k];
  xonly_bytes k := replicate 31 0 ++ [toy_number k];
  hash_bytes h b := replicate (match h with HSha256 | HHash256 => 32 | _ => 20 end) (total b mod 256);
  tap_leaf_hash s := replicate 32 (total s mod 256);
  tap_branch_hash a b := replicate 32 ((total a + total b + 1) mod 256);
  tap_parity _ _ := 1;
  derive_priv x p := Some (toy_child x p);
  tap_tweak sk _ := sk;
  schnorr_sign sk msg := replicate 62 0 ++ [sk; msg]
|}.
#[local] Existing Instance toy_env.
Lemma toy_laws : KeyLaws (H:=toy_env).
Proof. split; intros; cbn; try done. by rewrite (N.add_comm (total a)). Qed.
#[local] Existing Instance toy_laws.
Definition toy_ring : Keyring := mkRing id id id (λ x p, Some (toy_child x p)).
Lemma toy_ring_laws : ring_laws (H:=toy_env) toy_ring.
Proof. intros x p q. cbn. unfold toy_child. by rewrite foldl_app. Qed.
(** A transaction signed as message 5; preimages are hashed as keys are *)
Definition toy_cx (locktime version sequence : N) : script_ctx :=
  mkCtx (λ key sig, bool_decide (last key = sig !! 62%nat) && bool_decide (sig !! 63%nat = Some 5)) hash_bytes locktime version sequence.
Definition toy_sig (k : DescKey) : SchnorrSig := mkSig (schnorr_sign (toy_number k) 5) 0.
Definition toy_material (ks : list DescKey) (ps : list bytes) : Material :=
  mkMaterial (list_to_map ((λ k, (k, toy_sig k)) <$> ks)) (list_to_map ((λ p : bytes, ((HSha256, hash_bytes HSha256 p), p)) <$> ps)).

Definition kA : DescKey := Single None 11.
Definition kB : DescKey := XPub None 7 [1; 2] 0.
Definition kI : DescKey := Single None 99.
Definition aB : DescKey := XPub None 7 [1] 1.
Definition pk (k : DescKey) : term := TCheck (TPkK k).
Definition preimage : bytes := replicate 32 3.
Definition sha : bytes := hash_bytes HSha256 preimage.

(** tr(I, {and_v(v:older(5), pk(A)), or_i(pk(B), and_v(v:sha256(h), after(500000100)))}) *)
Definition leaf1 : term := TAndV (TVerify (TOlder 5)) (pk kA).
Definition leaf2 : term := TOrI (pk kB) (TAndV (TVerify (THash HSha256 sha)) (TAfter 500000100)).
Definition tr1 : Tr := mkTr kI (Some (TapNode (TapLeaf leaf1) (TapLeaf leaf2))).
Definition assets_AB : Assets DescKey := mkAssets [kA; aB] (Some 10) None [].
Definition assets_h : Assets DescKey := mkAssets [] None (Some (Seconds 500000200)) [(HSha256, sha)].

Definition plan_of (tr : Tr) (a : Assets DescKey) : Plan DescKey :=
  match plan_satisfaction (DTr tr) a with Ret (Some p) => p | _ => mkPlan [] Legacy None None end.
Definition requirements_of (p : Plan DescKey) : Requirements DescKey := match requirements p with Ret r => r | Panic => no_requirements end.
Definition witness_with (p : Plan DescKey) (m : Material) : list bytes := match try_complete p m with Ret (Complete w) => w | _ => [] end.
Definition weight_of (p : Plan DescKey) : N := match expected_weight p with Ret n => n | Panic => 0 end.
Definition plan_AB : Plan DescKey := plan_of tr1 assets_AB.
Definition plan_h : Plan DescKey := plan_of tr1 assets_h.
Definition plan_B : Plan DescKey := plan_of tr1 (mkAssets [aB] None None []).

Lemma satisfiesb_spec cx l args : satisfiesb cx l args = true ↔ satisfies cx l args.
Proof.
  unfold satisfiesb, satisfies. split.
  - destruct (exec _ _ _) as [[st alt cond]|]; [|done]. destruct st as [|x [|]]; try done; destruct alt; try done; destruct cond; try done.
    intros Ht. by exists x.
  - by intros (x & -> & Hx).
Qed.
Lemma not_satisfies cx l args : satisfiesb cx l args = false → ¬ satisfies cx l args.
Proof. intros E Hs%satisfiesb_spec. congruence. Qed.

Lemma toy_material_ok lt v sq ks ps : Forall (λ p : bytes, length p = 32%nat) ps → material_ok (toy_cx lt v sq) (toy_material ks ps).
Proof.
  intros Hp. split.
  - intros k s Hk%elem_of_list_to_map_2. apply elem_of_list_fmap in Hk as (k' & ? & _). simplify_eq. split; [by left|].
    cbn. rewrite !bool_decide_true; done.
  - intros h i p Hi%elem_of_list_to_map_2. apply elem_of_list_fmap in Hi as (p' & ? & Hin). simplify_eq.
    rewrite Forall_forall in Hp. split; [by apply Hp|]. done.
Qed.
Lemma toy_sizes ks ps : Forall (λ p : bytes, length p = 32%nat) ps → usual_sizes (toy_material ks ps).
Proof.
  intros Hp. split.
  - intros k s Hk%elem_of_list_to_map_2. apply elem_of_list_fmap in Hk as (k' & ? & _). simplify_eq. done.
  - intros i p Hi%elem_of_list_to_map_2. apply elem_of_list_fmap in Hi as (p' & ? & Hin). simplify_eq.
    rewrite Forall_forall in Hp. by apply Hp.
Qed.

Ltac ways := repeat match goal with
  | Hw : way ?t _ |- _ => let t' := eval hnf in t in progress change t with t' in Hw
  | Hw : way _ _ |- _ => inversion Hw; subst; clear Hw
  end.
Ltac needs_in := repeat match goal with
  | Hi : _ ∈ _ ++ _ |- _ => apply elem_of_app in Hi as [Hi|Hi]
  | Hi : _ ∈ _ :: _ |- _ => apply elem_of_cons in Hi as [Hi|Hi]
  | Hi : _ ∈ [] |- _ => by apply elem_of_nil in Hi
  end; simplify_eq.
Lemma tr1_leaves t : t ∈ iter_scripts tr1 → t = leaf1 ∨ t = leaf2.
Proof. intros Ht. cbn in Ht. needs_in; auto. Qed.
Lemma leaf1_unmixed : unmixed leaf1.
Proof. intros l Hl. ways. split; intros n n' ? ?; needs_in; done. Qed.
Lemma leaf2_unmixed : unmixed leaf2.
Proof. intros l Hl. ways; split; intros n n' ? ?; needs_in; done. Qed.
Lemma assets_h_reach : reaches_locktimes assets_h tr1.
Proof.
  intros t l n Ht Hw Hn. destruct (tr1_leaves _ Ht) as [->| ->]; ways; needs_in. exists (Seconds 500000200). done.
Qed.
Lemma tr1_clean t : t ∈ iter_scripts tr1 → well_typed t ∧ one_sided t = true ∧ no_pk_h t = true ∧ plain_older t = true.
Proof. intros Ht. destruct (tr1_leaves _ Ht) as [->| ->]; (split; [by eexists|done]). Qed.

(** One leaf *)
Definition tr_one (t : term) : Tr := mkTr kI (Some (TapLeaf t)).
Lemma tr_one_leaves t u : u ∈ iter_scripts (tr_one t) → u = t.
Proof. by intros ?%elem_of_list_singleton. Qed.

(** and_v(v:pk(A), after(700000000)) *)
Definition leaf_late : term := TAndV (TVerify (pk kA)) (TAfter 700000000).
Definition assets_early : Assets DescKey := mkAssets [kA] None (Some (Seconds 600000000)) [].
Definition plan_late : Plan DescKey := plan_of (tr_one leaf_late) assets_early.

(** pk_h(A) *)
Definition leaf_pkh : term := TCheck (TPkH kA).
Definition plan_pkh : Plan DescKey := plan_of (tr_one leaf_pkh) assets_AB.
(** and_v(v:pk(A), pk(B)) *)
Definition leaf_both : term := TAndV (TVerify (pk kA)) (pk kB).
Definition plan_both : Plan DescKey := plan_of (tr_one leaf_both) assets_AB.
(** and_v(v:older(0x10001), older(5)) *)
Definition leaf_older : term := TAndV (TVerify (TOlder 0x10001)) (TOlder 5).
Definition assets_old : Assets DescKey := mkAssets [] (Some 0x10001) None [].
Definition plan_older : Plan DescKey := plan_of (tr_one leaf_older) assets_old.

(** and_v(or_i(v:after(100), v:pk(A)), after(500000001)) *)
Definition leaf_units : term := TAndV (TOrI (TVerify (TAfter 100)) (TVerify (pk kA))) (TAfter 500000001).
Definition assets_time : Assets DescKey := mkAssets [kA] None (Some (Seconds 600000000)) [].
Lemma leaf_units_way : way leaf_units [NAfter 500000001; NSig kA; NZero].
Proof. apply (way_and_v _ _ [NSig kA; NZero] [NAfter 500000001]); [|constructor]. apply (way_or_i_r _ _ [NSig kA]). by repeat constructor. Qed.

(** {pk(A), {sha256(h), older(5)}} *)
Definition tr_deep : Tr := mkTr kI (Some (TapNode (TapLeaf (pk kA)) (TapNode (TapLeaf (THash HSha256 sha)) (TapLeaf (TOlder 5))))).
Definition assets_deep : Assets DescKey := mkAssets [kA] None None [(HSha256, sha)].
Definition assets_shallow : Assets DescKey := mkAssets [kA] None None [].

(** An extended key with a step to derive, as asset and in the descriptor *)
Definition kX : DescKey := XPub None 7 [1] 0.
Definition plan_X : Plan DescKey := plan_of (tr_one (pk kX)) (mkAssets [kX] None None []).
Definition keymap_X : KeyMap := {[ kX := SecXPrv 7 ]}.
Definition keymap_AB : KeyMap := {[ kA := SecSingle 11; aB := SecXPrv 7 ]}.
Lemma keymap_AB_honest : honest_keymap toy_ring keymap_AB.
Proof.
  intros k s Hk. unfold keymap_AB in Hk. apply lookup_insert_Some in Hk as [[<- <-]|[_ Hk]]; [done|].
  apply lookup_singleton_Some in Hk as [<- <-]. done.
Qed.
Lemma keymap_X_honest : honest_keymap toy_ring keymap_X.
Proof. intros k s Hk. unfold keymap_X in Hk. apply lookup_singleton_Some in Hk as [<- <-]. done. Qed.
