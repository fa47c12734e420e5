(** Proofs about the command line wallet: signing what was planned (C104). *)
From Verif Require Export CliPlanProofs.
From Verif Require CliModel.
Local Open Scope N_scope.

Section plans.
Context `{!CliModel.CliEnv, !KeyEnv}.
Notation wallet_assets ks := (mkAssets (AK := DescKey) ks None None []).

Lemma expected_weight_total d (a : Assets DescKey) p : plan_satisfaction d a = Ret (Some p) → ∃ n, expected_weight p = Ret n.
Proof.
  intros Hp. destruct (planned_tr _ _ _ Hp) as [tr ->]. unfold expected_weight.
  destruct (plan_shape _ _ _ Hp) as [(pk & Hk & ->)|(t & tp & Ht & Hst & -> & _)]; cbn [p_target]; [by eexists|].
  destruct (control_path_Some _ _ Ht) as [path ->]. by eexists.
Qed.
Lemma sign_leaf_total km msg l : (∀ k, k ∈ l → is_Some (km !! pk_asset k)) → (∀ k s hint, km !! k = Some s → is_Some (secret_of s hint)) →
  ∀ m b, ∃ m', sign_leaf km 0 msg l m b = (Ok (match l with [] => b | _ => true end), m').
Proof.
  intros Hk Hd. induction l as [|k l IH]; intros m b; [by eexists|]. cbn [sign_leaf].
  destruct (Hk k ltac:(left)) as [s Es]. rewrite Es. destruct (Hd _ _ (pk_hint k) Es) as [sk ->].
  destruct (IH ltac:(intros; apply Hk; by right) (mkMaterial (<[pk_key k := mkSig (schnorr_sign sk msg) 0]> (m_sigs m)) (m_preimages m)) true) as [m' ->].
  exists m'. by destruct l.
Qed.
Lemma requirements_place tr (a : Assets DescKey) p r : plan_satisfaction (DTr tr) a = Ret (Some p) → requirements p = Ret r → req_keys (r_sigs r) ≠ [] →
  (∃ k root, r_sigs r = ReqTapKey k root) ∨ ∃ leaf l, r_sigs r = ReqTapScript leaf l.
Proof.
  intros Hp Hr Hn. unfold requirements in Hr.
  destruct (try_complete_shape _ _ _ no_material Hp) as [(w0 & tail & E & _)|(_ & [(pk & _ & _ & E)|(s & Ht' & E)])]; simpl in E; rewrite E in Hr; simpl in Hr; injection Hr as <-; [by destruct Hn|left; by eexists _, _|right; by eexists _, _].
Qed.
Lemma sign_inputs_total km t pv l ks : (∀ k, k ∈ ks → is_Some (km !! k)) → (∀ k s hint, km !! k = Some s → is_Some (secret_of s hint)) →
  (∀ p, p ∈ l → ∃ d, plan_satisfaction d (wallet_assets ks) = Ret (Some p) ∧ ∀ r, requirements p = Ret r → req_keys (r_sigs r) ≠ []) →
  ∀ i, (∀ j, (j < length l)%nat → is_Some (CliModel.sighash_key t pv (i + j)) ∧ ∀ leaf, is_Some (CliModel.sighash_leaf t pv (i + j) leaf)) →
  ∃ ws, CliModel.sign_inputs km t pv i l = Ret (Ok ws).
Proof.
  intros Hk Hd. induction l as [|p l IH]; intros Hl i Hh; cbn [CliModel.sign_inputs]; [by eexists|].
  destruct (Hl p ltac:(left)) as (d & Hp & Hn). destruct (planned_tr _ _ _ Hp) as [tr ->].
  destruct (try_complete_exact _ _ _ Hp) as (r & Hr & _). rewrite Hr. cbn [mbind outcome_bind]. specialize (Hn r Hr).
  destruct (plan_but_locktime _ _ _ _ Hp Hr) as (Hin & Him & _).
  assert (r_images r = ∅) as Ei. { apply set_eq. intros i'. split; [|by intros []%elem_of_empty]. intros Hi'%Him. by apply elem_of_nil in Hi'. }
  unfold requires_hash_preimages. rewrite bool_decide_false by (intros Hx; by apply Hx).
  assert (∀ k, k ∈ req_keys (r_sigs r) → is_Some (km !! pk_asset k)) as Hkm.
  { intros k Hk'. apply Hk. exact (proj1 (Hin k Hk')). }
  destruct (Hh 0%nat ltac:(cbn; lia)) as [[msg Hmsg] Hleaf]. rewrite Nat.add_0_r in Hmsg, Hleaf.
  assert (∃ m, sign_with_keymap (r_sigs r) km (CliModel.sighash_key t pv i) (CliModel.sighash_leaf t pv i) 0 no_material = Ret (Ok true, m)) as [m Hs].
  { destruct (requirements_place _ _ _ _ Hp Hr Hn) as [(k & root & Er)|(leaf & ks' & Er)]; rewrite Er in *; cbn [sign_with_keymap req_keys] in *.
    - rewrite Hmsg. destruct (Hkm k ltac:(left)) as [s Es]. rewrite Es. destruct (Hd _ _ (pk_hint k) Es) as [sk ->]. by eexists.
    - destruct (Hleaf leaf) as [msg' ->]. destruct (sign_leaf_total km msg' ks' Hkm Hd no_material false) as [m' ->]. exists m'. by destruct ks'. }
  rewrite Hs. cbn [mbind outcome_bind fst snd].
  destruct (sign_completes _ _ _ _ _ _ _ _ _ _ _ Hp Hr Hkm ltac:(rewrite Ei; set_solver) Hs) as [w ->]. cbn [mbind outcome_bind].
  destruct (IH ltac:(intros; apply Hl; by right) (S i)) as [ws ->].
  { intros j Hj. specialize (Hh (S j) ltac:(cbn; lia)). by rewrite <-plus_n_Sm in Hh. }
  by eexists.
Qed.
End plans.
