(** Proofs about the command line wallet: the plans and the signatures of the inputs. *)
From Verif Require Export PlanProofs3 SignProofs.
From Verif Require MachineSpec CoinSelectSpec CliModel.
Local Open Scope N_scope.

(** ** Sizes *)
Lemma compact_Z v : CoinSelectSpec.compact_len (Z.of_N v) = Z.of_N (varint_len v).
Proof.
  unfold CoinSelectSpec.compact_len, varint_len, u32_max.
  change (2 ^ 16)%Z with 65536%Z. change (2 ^ 32)%Z with 4294967296%Z.
  destruct (N.leb_spec v 252), (Z.ltb_spec (Z.of_N v) 253); try lia.
  destruct (N.leb_spec v 65535), (Z.ltb_spec (Z.of_N v) 65536); try lia.
  destruct (N.leb_spec v 4294967295), (Z.ltb_spec (Z.of_N v) 4294967296); try lia.
Qed.
(** The input of a transaction as coin selection weighs it *)
Definition input_of (w : list (list N)) : CoinSelectSpec.tx_input := CoinSelectSpec.mkTI 0 ((λ e : list N, Z.of_nat (length e)) <$> w).
Lemma input_weight w : Forall (λ e : list N, blen e < 2 ^ 64) w → blen w < 2 ^ 64 →
  CoinSelectSpec.satisfaction_weight (input_of w) = Z.of_N (satisfaction_weight w).
Proof.
  intros He Hw. unfold CoinSelectSpec.satisfaction_weight, satisfaction_weight, CoinSelectSpec.witness_size, input_of.
  cbn [CoinSelectSpec.ti_script CoinSelectSpec.ti_witness]. change (CoinSelectSpec.bytes_len 0) with 1%Z.
  rewrite witness_bytes_size, !N2Z.inj_add, fmap_length. unfold blen at 1. rewrite compact_length by done.
  rewrite <-compact_Z. unfold blen at 1. rewrite nat_N_Z.
  assert (CoinSelectSpec.Zsum (CoinSelectSpec.bytes_len <$> ((λ e : list N, Z.of_nat (length e)) <$> w)) =
    Z.of_N (foldr N.add 0 ((λ e : list N, blen (compact_bytes (blen e)) + blen e) <$> w))) as ->; [|lia].
  clear Hw. induction He as [|e w Hb He IH]; [done|]. rewrite !fmap_cons. unfold CoinSelectSpec.Zsum in *. cbn [foldr]. rewrite IH.
  rewrite !N2Z.inj_add. unfold CoinSelectSpec.bytes_len. rewrite <-nat_N_Z, compact_Z.
  change (blen (compact_bytes (blen e))) with (N.of_nat (length (compact_bytes (blen e)))). by rewrite compact_length by done.
Qed.

Section plans.
Context `{!CliModel.CliEnv, !KeyEnv}.
Notation wallet_assets ks := (mkAssets (AK := DescKey) ks None None []).

Lemma planned_tr d (a : Assets DescKey) p : plan_satisfaction d a = Ret (Some p) → ∃ tr, d = DTr tr.
Proof. destruct d as [| | | | |tr]; try done. by exists tr. Qed.
Lemma planned_target tr (a : Assets DescKey) p : plan_satisfaction (DTr tr) a = Ret (Some p) → ∃ sp, p_target p = Segwitv1 tr sp.
Proof. intros Hp. destruct (plan_shape _ _ _ Hp) as [(pk & Hk & ->)|(t & tp & Ht & Hst & -> & _)]; by eexists. Qed.
Lemma planned_version d (a : Assets DescKey) p : plan_satisfaction d a = Ret (Some p) → witness_version p = Some 1.
Proof.
  intros Hp. destruct (planned_tr _ _ _ Hp) as [tr ->]. destruct (planned_target _ _ _ Hp) as [sp E]. unfold witness_version. by rewrite E.
Qed.
(** Without lock times among the assets there are none in the plan *)
Lemma planned_sequence d ks p : plan_satisfaction d (wallet_assets ks) = Ret (Some p) → p_sequence p = None ∧ p_locktime p = None.
Proof.
  intros Hp. destruct (planned_tr _ _ _ Hp) as [tr ->]. destruct (try_complete_exact _ _ _ Hp) as (r & Hr & _).
  destruct (plan_but_locktime _ _ _ _ Hp Hr) as (_ & _ & H1 & H2). split.
  - destruct (p_sequence p) as [q|]; [|done]. by destruct (H1 q eq_refl) as (age & ? & _).
  - destruct (p_locktime p) as [q|]; [|done]. by destruct (H2 q eq_refl) as (age & ?).
Qed.
Lemma complete_nonempty tr (a : Assets DescKey) p m w : plan_satisfaction (DTr tr) a = Ret (Some p) → try_complete p m = Ret (Complete w) → w ≠ [].
Proof.
  intros Hp Hc. destruct (try_complete_shape _ _ _ m Hp) as [(w0 & tail & E & Hw & _ & Ht)|(Hm0 & [(pk & ? & ? & E)|(s & ? & E)])];
    [|simpl in E; congruence..].
  rewrite E in Hc. simplify_eq. destruct Ht as [[Ht ->]|(s & path & Ht & Hpath & ->)]; [|by destruct w0].
  destruct (plan_shape _ _ _ Hp) as [(pk & Hk & ->)|(t & tp & Htt & Hst & -> & _)]; [|done]. rewrite app_nil_r.
  cbn [p_template witness_of item_witness] in Hw. destruct (m_sigs m !! pk_key pk); [|done]. cbn in Hw. by simplify_eq.
Qed.

(** ** Signing *)
Lemma sign_leaf_sizes km msg l : (∀ sk m, length (schnorr_sign sk m) = 64%nat) → ∀ m b r m', usual_sizes m →
  sign_leaf km 0 msg l m b = (r, m') → usual_sizes m'.
Proof.
  intros Hl. induction l as [|k l IH]; intros m b r m' Hm E; cbn [sign_leaf] in E; [by injection E as _ <-|].
  destruct (km !! pk_asset k) as [s|]; [|by eapply IH]. destruct (secret_of s (pk_hint k)) as [sk|]; [|by injection E as _ <-].
  eapply IH; [|exact E]. destruct Hm as [H1 H2]. split; [|done]. cbn [m_sigs]. intros k' s' Hs'.
  apply lookup_insert_Some in Hs' as [[_ <-]|[_ Hs']]; [|by eapply H1]. cbn [sig_bytes sig_type]. done.
Qed.
Lemma no_material_sizes : usual_sizes no_material.
Proof. split; intros ? ? E; cbn in E; by rewrite lookup_empty in E. Qed.
Lemma sign_sizes sigs km km1 lm m r m' : (∀ sk m, length (schnorr_sign sk m) = 64%nat) → usual_sizes m →
  sign_with_keymap sigs km km1 lm 0 m = Ret (r, m') → usual_sizes m'.
Proof.
  intros Hl Hm E. destruct sigs as [| |k root|leaf keys]; cbn [sign_with_keymap] in E; try done.
  - destruct km1 as [msg|]; [|by injection E as _ <-]. destruct (km !! pk_asset k) as [s|]; [|by injection E as _ <-].
    destruct (secret_of s (pk_hint k)) as [sk|]; [|by injection E as _ <-]. injection E as _ <-.
    destruct Hm as [H1 H2]. split; [|done]. cbn [m_sigs]. intros k' s' Hs'.
    apply lookup_insert_Some in Hs' as [[_ <-]|[_ Hs']]; [|by eapply H1]. cbn [sig_bytes sig_type]. done.
  - destruct (lm leaf) as [msg|]; [|by injection E as _ <-]. injection E as E. by eapply sign_leaf_sizes.
Qed.

Lemma sign_inputs_inv km t pv l : ∀ i ws, CliModel.sign_inputs km t pv i l = Ret (Ok ws) →
  length ws = length l ∧ ∀ j p, l !! j = Some p → ∃ r m w, ws !! j = Some w ∧ requirements p = Ret r ∧ r_images r = ∅ ∧
    sign_with_keymap (r_sigs r) km (CliModel.sighash_key t pv (i + j)) (CliModel.sighash_leaf t pv (i + j)) 0 no_material = Ret (Ok true, m) ∧
    try_complete p m = Ret (Complete w).
Proof.
  induction l as [|p l IH]; intros i ws E; cbn [CliModel.sign_inputs] in E; [by injection E as <-|].
  destruct (requirements p) as [r|] eqn:Er; [|done]. cbn [mbind outcome_bind] in E.
  destruct (requires_hash_preimages r) eqn:Eh; [done|].
  destruct (sign_with_keymap _ _ _ _ _ _) as [[rs m]|] eqn:Es; [|done]. cbn [mbind outcome_bind fst snd] in E.
  destruct rs as [[]|]; try done.
  destruct (try_complete p m) as [st|] eqn:Ec; [|done]. cbn [mbind outcome_bind] in E. destruct st as [w|]; [|done].
  destruct (CliModel.sign_inputs km t pv (S i) l) as [[ws'|]|] eqn:El; try done. cbn [mbind outcome_bind] in E. injection E as <-.
  destruct (IH _ _ El) as [IH1 IH2]. split; [cbn [length]; by rewrite IH1|].
  intros [|j] p' Hp'; cbn [lookup list_lookup] in *.
  - injection Hp' as <-. exists r, m, w. rewrite Nat.add_0_r. split; [done|]. split; [done|]. split; [|done].
    unfold requires_hash_preimages in Eh. apply bool_decide_eq_false in Eh. by apply dec_stable in Eh.
  - destruct (IH2 j p' Hp') as (r' & m' & w' & H1 & H2). exists r', m', w'. rewrite <-plus_n_Sm. done.
Qed.

(** ** What the signatures achieve *)
Lemma signed_witness `{!KeyLaws} R km tr ks p r m w key_msg leaf_msg valid lock ver seq :
  (∀ sk m, length (schnorr_sign sk m) = 64%nat) →
  (∀ k sk msg, key_secret R k = Some sk → valid msg (xonly_bytes k) (schnorr_sign sk msg) = true) →
  ring_laws R → honest_keymap R km →
  plan_satisfaction (DTr tr) (wallet_assets ks) = Ret (Some p) → requirements p = Ret r →
  (∀ k, k ∈ req_keys (r_sigs r) → honest_origin R (pk_asset k) ∧ honest_origin R (pk_key k) ∧ not_itself_derived k) →
  (∀ t, t ∈ iter_scripts tr → well_typed t ∧ one_sided t = true ∧ no_pk_h t = true ∧ plain_older t = true) →
  sign_with_keymap (r_sigs r) km key_msg leaf_msg 0 no_material = Ret (Ok true, m) → try_complete p m = Ret (Complete w) →
  (∃ sk msg, key_secret R (tr_internal tr) = Some sk ∧ key_msg = Some msg ∧ w = [schnorr_sign (tap_tweak sk (merkle_root tr)) msg])
  ∨ ∃ leaf args cb, leaf ∈ iter_scripts tr ∧ w = args ++ [script_bytes leaf; cb] ∧ opens tr (script_bytes leaf) cb
     ∧ satisfies (ScriptSpec.mkCtx (λ key sig, match leaf_msg (tap_leaf_hash (script_bytes leaf)) with Some m => valid m key sig | None => false end)
         hash_bytes lock ver seq) (encode leaf) args.
Proof.
  intros Hlen Hvalid HR Hkm Hp Hr Hk Hleaf Hs Hc.
  assert (∀ k, k ∈ req_keys (r_sigs r) → can_derive (pk_asset k) (pk_key k) = Some (pk_hint k)) as Hder.
  { intros k Hin. destruct (plan_but_locktime tr _ p r Hp Hr) as [Hw _]. by destruct (Hw k Hin). }
  destruct (sign_sound (r_sigs r) km key_msg leaf_msg 0 no_material true m R HR Hkm) as (msg & Hmsg & Hpre & Hsig & Hother & _).
  { intros k Hin. destruct (Hk k Hin) as (? & ? & ?). auto. }
  { exact Hs. }
  assert (∀ key sg, m_sigs m !! key = Some sg → ∃ k sk, k ∈ req_keys (r_sigs r) ∧ pk_key k = key ∧ key_secret R key = Some sk ∧
    sg = mkSig (schnorr_sign (sig_tweak (r_sigs r) sk) msg) 0) as Hall.
  { intros key sg Hsg. destruct (decide (Exists (λ k, is_Some (km !! pk_asset k) ∧ pk_key k = key) (req_keys (r_sigs r)))) as [He|He].
    - apply Exists_exists in He as (k & Hin & Hkm' & <-). destruct (Hsig k Hin Hkm') as (sk & Hsk & Hm). exists k, sk.
      rewrite Hm in Hsg. injection Hsg as <-. done.
    - rewrite Hother in Hsg; [done|]. intros k Hin Hkm' E. apply He, Exists_exists. by exists k. }
  assert (tx_waits (AK := DescKey) (ScriptSpec.mkCtx (λ _ _, true) hash_bytes lock ver seq) p ∧ p_sequence p = None ∧ p_locktime p = None) as (_ & Hq & Hl).
  { destruct (planned_sequence _ _ _ Hp) as [Hq Hl]. split; [|done]. split; intros x Hx; congruence. }
  destruct (planned_target _ _ _ Hp) as [[|s] Htg].
  - left. destruct (complete_satisfies (ScriptSpec.mkCtx (λ _ _, true) hash_bytes lock ver seq) tr (wallet_assets ks) p m w) as [(_ & sg & Hsg & ->)|(t & args & path & Ht & Hw & _)];
      try done.
    + split; [|by rewrite Hpre]. intros k sg Hsg. split; [left|done]. destruct (Hall _ _ Hsg) as (k' & sk & _ & _ & _ & ->).
      unfold sig_to_vec. cbn. rewrite app_nil_r. apply Hlen.
    + split; intros x Hx; congruence.
    + destruct (Hall _ _ Hsg) as (k' & sk & Hin & Ek & Hsk & ->). exists sk, msg. split; [done|].
      destruct (try_complete_shape _ _ _ no_material Hp) as [(w0 & tail & E & Hw & Hf & _)|(_ & [(pk & _ & _ & E)|(s & Ht' & _)])].
      * unfold requirements in Hr. rewrite E in Hr. injection Hr as <-. by apply elem_of_nil in Hin.
      * unfold requirements in Hr. rewrite E in Hr. injection Hr as <-. cbn in Hmsg. split; [done|]. unfold sig_to_vec. cbn. by rewrite app_nil_r.
      * congruence.
    + exfalso. destruct (try_complete_shape _ _ _ m Hp) as [(w0 & tail & E & Hw' & _ & Htl)|(Hm0 & [(pk & ? & ? & E)|(s & ? & E)])]; [|congruence..].
      destruct Htl as [[_ ->]|(s & pa & ? & _)]; [|congruence].
      destruct (plan_shape _ _ _ Hp) as [(pk & Hk' & Ep)|(t' & tp & Hti & Hst & Ep & _)].
      * rewrite Ep in Hw'. cbn in Hw'. rewrite E in Hc. simplify_eq. rewrite app_nil_r in *.
        destruct (m_sigs m !! _); [|done]. cbn in Hw'. simplify_eq. destruct args as [|? [|? ?]]; simplify_eq/=.
      * rewrite Ep in Htg. done.
  - right. set (cx := ScriptSpec.mkCtx (λ key sig, match leaf_msg (tap_leaf_hash s) with Some m => valid m key sig | None => false end) hash_bytes lock ver seq).
    assert (∃ l im, r_sigs r = ReqTapScript (tap_leaf_hash s) l ∧ im = r_images r) as (l & _ & Er & _).
    { destruct (try_complete_shape _ _ _ no_material Hp) as [(w0 & tail & E & Hw & Hf & _)|(_ & [(pk & _ & ? & E)|(s' & Ht' & E)])].
      - unfold requirements in Hr. rewrite E in Hr. injection Hr as <-. done.
      - congruence.
      - unfold requirements in Hr. rewrite E in Hr. injection Hr as <-. rewrite Htg in Ht'. injection Ht' as <-. by eexists _, _. }
    rewrite Er in *. cbn in Hmsg, Hsig.
    destruct (complete_satisfies cx tr (wallet_assets ks) p m w) as [(? & _)|(t & args & path & Ht & Hw & Hsat & Hroot)]; try done.
    + split; [|by rewrite Hpre]. intros k sg Hsg. destruct (Hall _ _ Hsg) as (k' & sk & _ & _ & Hsk & ->).
      unfold sig_to_vec. cbn. rewrite app_nil_r, Hmsg. split; [left; apply Hlen|]. by apply Hvalid.
    + split; intros x Hx; congruence.
    + congruence.
    + assert (script_bytes t = s) as Et.
      { destruct (try_complete_shape _ _ _ m Hp) as [(w0 & tail & E & Hw' & _ & Htl)|(Hm0 & [(pk & ? & ? & E)|(s' & ? & E)])]; [|congruence..].
        destruct Htl as [[? _]|(s' & pa & Ht' & _ & ->)]; [congruence|]. rewrite Htg in Ht'. injection Ht' as <-. rewrite E in Hc. injection Hc as Hc.
        rewrite Hw in Hc. apply app_inj_2 in Hc as [_ Hc]; [|done]. by injection Hc. }
      exists t, args, path. rewrite Et. rewrite Et in Hw, Hroot. done.
Qed.
End plans.
