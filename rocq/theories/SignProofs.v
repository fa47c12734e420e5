(** Signing with the keys the descriptor names. *)
From Verif Require Export PlanProofs3.

Section signing.
Context `{KeyEnv}.
Implicit Types (R : Keyring) (km : KeyMap) (k : PlanKey DescKey) (m : Material).

Lemma strip_prefix_Some l p r : strip_prefix l p = Some r → l = p ++ r.
Proof.
  revert p. induction l as [|y l IH]; intros [|x p]; simpl; try (by intros [= ->]).
  case_bool_decide; [|done]. subst. by intros ->%IH.
Qed.
Lemma path_to_child_Some parent origin child hint : path_to_child parent origin child = Some hint →
  parent.1 = origin.1 ∧ origin.2 ++ default [] child = parent.2 ++ hint.
Proof.
  unfold path_to_child. case_bool_decide; [|done]. destruct (strip_prefix origin.2 parent.2) as [r|] eqn:E; [|done]. simpl.
  intros [= <-]. split; [done|]. apply strip_prefix_Some in E as ->. by rewrite <- app_assoc.
Qed.
Definition origin_of (o : option KeySource) (x : N) : KeySource := match o with Some o => o | None => (xpub_fingerprint x, []) end.
Lemma origin_derive R o x path w q : ring_laws R → honest_origin R (XPub o x path w) →
  derive_priv (kr_master R (origin_of o x).1) ((origin_of o x).2 ++ q) = derive_priv (kr_private R x) q.
Proof.
  intros HR Hh. destruct o as [o|]; simpl in *.
  - rewrite (HR _ o.2 q), Hh. done.
  - by rewrite Hh.
Qed.

Lemma secret_right R km k s : ring_laws R → honest_keymap R km → honest_origin R (pk_asset k) → honest_origin R (pk_key k) →
  km !! pk_asset k = Some s → can_derive (pk_asset k) (pk_key k) = Some (pk_hint k) → not_itself_derived k →
  secret_of s (pk_hint k) = key_secret R (pk_key k).
Proof.
  intros HR Hkm Ha Hk Hs Hc Hn. specialize (Hkm _ _ Hs). clear Hs. unfold can_derive, desckey_can_derive in Hc. destruct k as [ak hint dk].
  simpl in *. case_bool_decide as E.
  - simplify_eq. destruct dk as [o key|o x path w]; destruct s as [sk'|y]; try done; subst; simpl; [done|].
    unfold not_itself_derived in Hn. simpl in Hn. by destruct path as [|? ?].
  - destruct ak as [|o x path w]; [done|]. destruct s as [|y]; [done|]. subst y. simpl.
    unfold can_derive, keysource_can_derive in Hc. fold (origin_of o x) in Hc.
    destruct dk as [[o'|] key|o' x' path' w']; [|done|].
    + apply path_to_child_Some in Hc as [E1 E2]. simpl in *. rewrite app_nil_r in E2.
      rewrite <- (origin_derive R o x path w) by done. rewrite <- E2, E1. done.
    + fold (origin_of o' x') in Hc. apply path_to_child_Some in Hc as [E1 E2]. simpl in *.
      rewrite <- (origin_derive R o x path w) by done. rewrite <- E2, E1. by apply (origin_derive R o' x' path' w').
Qed.

Lemma sign_leaf_sound km ty msg l m b m' b' : sign_leaf km ty msg l m b = (Ok b', m') →
  m_preimages m' = m_preimages m
  ∧ (∀ key, key ∉ pk_key <$> filter (λ k, is_Some (km !! pk_asset k)) l → m_sigs m' !! key = m_sigs m !! key)
  ∧ (∀ k, k ∈ l → is_Some (km !! pk_asset k) → ∃ k' s sk, k' ∈ l ∧ pk_key k' = pk_key k ∧ km !! pk_asset k' = Some s ∧ secret_of s (pk_hint k') = Some sk
       ∧ m_sigs m' !! pk_key k = Some (mkSig (schnorr_sign sk msg) ty))
  ∧ (b' = true ↔ b = true ∨ ∃ k, k ∈ l ∧ is_Some (km !! pk_asset k)).
Proof.
  revert m b. induction l as [|x l IH]; intros m b; simpl.
  { intros ?. simplify_eq. split; [done|]. split; [done|]. split; [intros k []%elem_of_nil|].
    split; [auto|]. intros [?|(k & []%elem_of_nil & _)]. done. }
  destruct (km !! pk_asset x) as [s|] eqn:Es.
  - destruct (secret_of s (pk_hint x)) as [sk|] eqn:Esk; [|done]. intros (P & U & S & B)%IH. simpl in *.
    split; [done|]. split; [|split].
    + intros key Hkey. rewrite filter_cons_True in Hkey by (by rewrite Es). simpl in Hkey. apply not_elem_of_cons in Hkey as [Hx Hl].
      rewrite U by done. by rewrite lookup_insert_ne.
    + intros k Hk Hs. destruct (decide (pk_key k ∈ pk_key <$> filter (λ k, is_Some (km !! pk_asset k)) l)) as [Hin|Hin].
      * apply elem_of_list_fmap in Hin as (k2 & Ek & [Hs2 Hk2]%elem_of_list_filter). rewrite Ek.
        destruct (S _ Hk2 Hs2) as (k' & s' & sk' & ? & ? & ? & ? & ?). exists k', s', sk'. split; [by right|]. done.
      * apply elem_of_cons in Hk as [->|Hk].
        -- exists x, s, sk. split; [left|]. split; [done|]. split; [done|]. split; [done|]. rewrite U by done. apply lookup_insert.
        -- destruct Hin. apply elem_of_list_fmap. exists k. split; [done|]. by apply elem_of_list_filter.
    + split; [|by rewrite B; auto]. intros _. right. exists x. split; [left|by rewrite Es].
  - intros (P & U & S & B)%IH. split; [done|]. split; [|split].
    + intros key Hkey. apply U. by rewrite filter_cons_False in Hkey by (rewrite Es; by intros [? ?]).
    + intros k [->|Hk]%elem_of_cons Hs; [rewrite Es in Hs; by destruct Hs|].
      destruct (S _ Hk Hs) as (k' & s' & sk' & ? & ? & ? & ? & ?). exists k', s', sk'. split; [by right|]. done.
    + rewrite B. split; intros [?|(k & Hk & Hs)]; auto; right; exists k.
      * split; [by right|done].
      * apply elem_of_cons in Hk as [->|Hk]; [rewrite Es in Hs; by destruct Hs|done].
Qed.

Lemma sign_sound (s : ReqSigs DescKey) km key_msg leaf_msg ty m b m' R : ring_laws R → honest_keymap R km →
  (∀ k, k ∈ req_keys s → honest_origin R (pk_asset k) ∧ honest_origin R (pk_key k) ∧ can_derive (pk_asset k) (pk_key k) = Some (pk_hint k) ∧ not_itself_derived k) →
  sign_with_keymap s km key_msg leaf_msg ty m = Ret (Ok b, m') →
  ∃ msg, sig_message s key_msg leaf_msg = Some msg ∧ m_preimages m' = m_preimages m
    ∧ (∀ k, k ∈ req_keys s → is_Some (km !! pk_asset k) → ∃ sk, key_secret R (pk_key k) = Some sk
         ∧ m_sigs m' !! pk_key k = Some (mkSig (schnorr_sign (sig_tweak s sk) msg) ty))
    ∧ (∀ key, (∀ k, k ∈ req_keys s → is_Some (km !! pk_asset k) → pk_key k ≠ key) → m_sigs m' !! key = m_sigs m !! key)
    ∧ (b = true ↔ ∃ k, k ∈ req_keys s ∧ is_Some (km !! pk_asset k)).
Proof.
  intros HR Hkm Hk. destruct s as [|l|k root|leaf l]; simpl in *; try done.
  - destruct key_msg as [msg|]; [|done]. destruct (km !! pk_asset k) as [s|] eqn:Es.
    + destruct (secret_of s (pk_hint k)) as [sk|] eqn:Esk; [|done]. intros ?. simplify_eq/=. exists msg. split; [done|]. split; [done|].
      split; [|split].
      * intros k' ->%elem_of_list_singleton _. exists sk. destruct (Hk k ltac:(left)) as (? & ? & ? & ?). split; [|apply lookup_insert].
        by rewrite <- (secret_right R km k s).
      * intros key Hkey. apply lookup_insert_ne. apply (Hkey k); [left|by rewrite Es].
      * split; [|done]. intros _. exists k. split; [left|by rewrite Es].
    + intros ?. simplify_eq. exists msg. split; [done|]. split; [done|]. split; [|split].
      * intros k' ->%elem_of_list_singleton [? ?]. congruence.
      * done.
      * split; [done|]. intros (k' & ->%elem_of_list_singleton & [? ?]). congruence.
  - destruct (leaf_msg leaf) as [msg|]; [|done]. intros [= Hs]. destruct (sign_leaf_sound _ _ _ _ _ _ _ _ Hs) as (P & U & S & B).
    exists msg. split; [done|]. split; [done|]. split; [|split].
    + intros k Hin Hs'. destruct (S k Hin Hs') as (k' & s & sk & Hk' & Ek & Es & Esk & Em). exists sk. split; [|done].
      destruct (Hk k' Hk') as (? & ? & ? & ?). rewrite <- Ek. by rewrite <- (secret_right R km k' s).
    + intros key Hkey. apply U. intros (k & -> & [Hs' Hin]%elem_of_list_filter)%elem_of_list_fmap. by apply (Hkey k).
    + rewrite B. split; [intros [?|?]; done|auto].
Qed.

(** Signing everything that is required completes the plan *)
Lemma sign_completes tr a p r km key_msg leaf_msg ty m b m' :
  plan_satisfaction (DTr tr) a = Ret (Some p) → requirements p = Ret r →
  (∀ k, k ∈ req_keys (r_sigs r) → is_Some (km !! pk_asset k)) → (∀ i, i ∈ r_images r → is_Some (m_preimages m !! i)) →
  sign_with_keymap (r_sigs r) km key_msg leaf_msg ty m = Ret (Ok b, m') →
  ∃ w, try_complete p m' = Ret (Complete w).
Proof.
  intros Hp Hr Hk Hi Hs. destruct (try_complete_exact _ _ _ Hp) as (r0 & Hr0 & Hc). rewrite Hr in Hr0. simplify_eq.
  destruct (Hc m') as ([w|r'] & Hst & Hx); [by exists w|]. exfalso. destruct Hx as [Hn _]. apply Hn. clear Hn Hc Hst.
  unfold sign_with_keymap in Hs. destruct r0 as [[|l|k root|leaf l] is]; simpl in *; try done.
  - destruct key_msg as [msg|]; [|done]. destruct (Hk k ltac:(left)) as [s Es]. rewrite Es in Hs.
    destruct (secret_of s (pk_hint k)) as [sk|]; [|done]. simplify_eq. split; simpl.
    + intros k' ->%elem_of_list_singleton. by rewrite lookup_insert.
    + done.
  - destruct (leaf_msg leaf) as [msg|]; [|done]. injection Hs as Hs. destruct (sign_leaf_sound _ _ _ _ _ _ _ _ Hs) as (P & U & S & B).
    split; simpl.
    + intros k Hin. destruct (S k Hin (Hk k Hin)) as (? & ? & ? & ? & ? & ? & ? & ->). done.
    + intros i Hin. rewrite P. auto.
Qed.
End signing.
