(** What a plan promises, in terms of the spending paths of ScriptSpec. *)
From Verif Require Export ScriptSpec.

Section plan_spec.
Context `{KeyEnv} {AK : Type} `{!CanDerive AK}.
Implicit Types (a : Assets AK).

(** The asset key of a planned signature can make it *)
Definition sig_within (a : Assets AK) (k : PlanKey AK) : Prop :=
  pk_asset k ∈ a_keys a ∧ can_derive (pk_asset k) (pk_key k) = Some (pk_hint k).
(** A need the assets cover *)
Definition within (a : Assets AK) (n : need) : Prop :=
  match n with
  | NSig k => ∃ x, x ∈ a_keys a ∧ is_Some (can_derive x k)
  | NImage h i => (h, i) ∈ a_images a
  | NAfter n => ∃ max, a_locktime a = Some max ∧ is_same_unit (locktime_from n) max = true ∧ n ≤ lt_u32 max
  | NOlder n => ∃ age, a_age a = Some age ∧ is_height_locked n = is_height_locked age ∧ n ≤ age
  | NKey _ | NOne | NZero => True
  end.
(** What is asked of a lock time instead: that some maximum is given *)
Definition within_but_locktime (a : Assets AK) (n : need) : Prop :=
  match n with NAfter _ => is_Some (a_locktime a) | _ => within a n end.

Definition item_need (i : item AK) : need :=
  match i with ISign k => NSig (pk_key k) | IPk k => NKey k | IOne => NOne | IZero => NZero | IHash h i => NImage h i end.
Definition is_lock (n : need) : bool := match n with NAfter _ | NOlder _ => true | _ => false end.
(** The needs that put something on the stack *)
Definition stack_needs (l : list need) : list need := List.filter (λ n, negb (is_lock n)) l.

(** The lock time is the latest of the path, all in the same unit; likewise the sequence *)
Definition latest_lock (o : option LockTime) (l : list need) : Prop :=
  match o with
  | None => ∀ n, NAfter n ∉ l
  | Some x => (∃ n, NAfter n ∈ l ∧ x = locktime_from n)
              ∧ ∀ n, NAfter n ∈ l → is_same_unit (locktime_from n) x = true ∧ n ≤ lt_u32 x
  end.
Definition latest_age (o : option N) (l : list need) : Prop :=
  match o with
  | None => ∀ n, NOlder n ∉ l
  | Some s => NOlder s ∈ l ∧ ∀ n, NOlder n ∈ l → is_height_locked n = is_height_locked s ∧ n ≤ s
  end.

(** A path whose lock times agree in kind *)
Definition consistent (l : list need) : Prop :=
  (∀ n n', NAfter n ∈ l → NAfter n' ∈ l → is_same_unit (locktime_from n) (locktime_from n') = true)
  ∧ (∀ n n', NOlder n ∈ l → NOlder n' ∈ l → is_height_locked n = is_height_locked n').
(** No path of the script mixes kinds of lock times (miniscript's sanity check) *)
Definition unmixed (t : term) : Prop := ∀ l, way t l → consistent l.

Definition need_size (n : need) : N :=
  match n with NSig _ => 64 | NKey _ => 32 | NImage _ _ => 32 | NOne => 1 | NZero => 0 | NAfter _ | NOlder _ => 0 end.
Definition path_size (l : list need) : N := foldr N.add 0 (need_size <$> l).

(** Scripts in which of any two joined parts at most one takes arguments *)
Fixpoint silent (t : term) : bool :=
  match t with
  | TTrue | TAfter _ | TOlder _ => true
  | TAlt t | TSwap t | TCheck t | TVerify t | TNonZero t | TZeroNotEqual t => silent t
  | TAndV l r | TAndB l r => silent l && silent r
  | _ => false
  end.
Fixpoint one_sided (t : term) : bool :=
  match t with
  | TAlt t | TSwap t | TCheck t | TVerify t | TNonZero t | TZeroNotEqual t | TDupIf t => one_sided t
  | TAndV l r | TAndB l r => (silent l || silent r) && one_sided l && one_sided r
  | TOrI l r => one_sided l && one_sided r
  | _ => true
  end.
(** Scripts without [pk_h] *)
Fixpoint no_pk_h (t : term) : bool :=
  match t with
  | TPkH _ => false
  | TAlt t | TSwap t | TCheck t | TVerify t | TNonZero t | TZeroNotEqual t | TDupIf t => no_pk_h t
  | TAndV l r | TAndB l r | TOrI l r => no_pk_h l && no_pk_h r
  | _ => true
  end.
(** Scripts whose relative lock times use only the bits that count: the kind and 16 bits *)
Fixpoint plain_older (t : term) : bool :=
  match t with
  | TOlder n => N.land n 0x40ffff =? n
  | TAlt t | TSwap t | TCheck t | TVerify t | TNonZero t | TZeroNotEqual t | TDupIf t => plain_older t
  | TAndV l r | TAndB l r | TOrI l r => plain_older l && plain_older r
  | _ => true
  end.

(** ** Requirements *)
Definition req_keys (s : ReqSigs AK) : list (PlanKey AK) :=
  match s with ReqLegacy l | ReqSegwitv0 l | ReqTapScript _ l => l | ReqTapKey k _ => [k] end.
Definition supplied (m : Material) (r : Requirements AK) : Prop :=
  (∀ k, k ∈ req_keys (r_sigs r) → is_Some (m_sigs m !! pk_key k)) ∧ (∀ i, i ∈ r_images r → is_Some (m_preimages m !! i)).
(** [r'] is what is left of [r]: the same kind of signatures over the same leaf or tree *)
Definition same_place (s s' : ReqSigs AK) : Prop :=
  match s, s' with
  | ReqTapKey k root, ReqTapKey k' root' => k = k' ∧ root = root'
  | ReqTapScript leaf _, ReqTapScript leaf' _ => leaf = leaf'
  | _, _ => False
  end.
Definition left_over (m : Material) (r r' : Requirements AK) : Prop :=
  same_place (r_sigs r) (r_sigs r')
  ∧ req_keys (r_sigs r') = List.filter (λ k, bool_decide (m_sigs m !! pk_key k = None)) (req_keys (r_sigs r))
  ∧ (∀ i, i ∈ r_images r' ↔ i ∈ r_images r ∧ m_preimages m !! i = None).

(** ** Whole plans *)
(** Everything a plan relies on is covered by the assets *)
Definition plan_within (a : Assets AK) (p : Plan AK) (r : Requirements AK) : Prop :=
  (∀ k, k ∈ req_keys (r_sigs r) → sig_within a k)
  ∧ (∀ i, i ∈ r_images r → i ∈ a_images a)
  ∧ (∀ s, p_sequence p = Some s → ∃ age, a_age a = Some age ∧ is_height_locked s = is_height_locked age ∧ s ≤ age)
  ∧ (∀ x, p_locktime p = Some x → ∃ max, a_locktime a = Some max ∧ is_same_unit x max = true ∧ lt_u32 x ≤ lt_u32 max).
(** The assets reach every absolute lock time of the descriptor *)
Definition reaches_locktimes (a : Assets AK) (tr : Tr) : Prop :=
  ∀ t l n, t ∈ iter_scripts tr → way t l → NAfter n ∈ l → within a (NAfter n).

(** The fragments planning handles *)
Fixpoint handled (t : term) : bool :=
  match t with
  | TAndOr _ _ _ | TOrB _ _ | TOrD _ _ | TOrC _ _ | TThresh _ _ | TMulti _ _ | TMultiA _ _ => false
  | TAlt t | TSwap t | TCheck t | TVerify t | TNonZero t | TZeroNotEqual t | TDupIf t => handled t
  | TAndV l r | TAndB l r | TOrI l r => handled l && handled r
  | _ => true
  end.
(** No maximum lock time in blocks is given *)
Definition no_block_locktime (a : Assets AK) : Prop := ∀ h, a_locktime a ≠ Some (Blocks h).
(** Well typed scripts *)
Definition well_typed (t : term) : Prop := ∃ τ, type_of t = Some τ ∧ ty_base τ = TyB.

(** The transaction waits for the lock time and the sequence of the plan *)
Definition tx_waits (cx : script_ctx) (p : Plan AK) : Prop :=
  (∀ x, p_locktime p = Some x → cltv_ok cx (Z.of_N (lt_u32 x))) ∧ (∀ s, p_sequence p = Some s → csv_ok cx s).
(** The transaction has the least version, the lock time and the sequence that the plan requires; an input without a
    required sequence is not final. *)
Definition as_required (cx : script_ctx) (p : Plan AK) : Prop :=
  (∀ v, min_version p = Some v → v ≤ cx_version cx) ∧ (∀ x, p_locktime p = Some x → cx_locktime cx = lt_u32 x) ∧
  (∀ s, p_sequence p = Some s → cx_sequence cx = s) ∧ cx_sequence cx ≠ 0xffffffff.
(** Signatures of 64 bytes with the default sighash type, preimages of 32 bytes *)
Definition usual_sizes (m : Material) : Prop :=
  (∀ k s, m_sigs m !! k = Some s → length (sig_bytes s) = 64%nat ∧ sig_type s = 0)
  ∧ (∀ i p, m_preimages m !! i = Some p → length p = 32%nat).
(** The weight an input adds with an empty script sig and this witness *)
Definition satisfaction_weight (w : list bytes) : N := 4 * 1 + blen (witness_bytes w).
End plan_spec.

(** ** Whose keys *)
(** The private key behind a single key and an extended key, the master of a fingerprint,
    and the descendants of extended private keys. *)
Record Keyring := mkRing { kr_single : N → N; kr_private : N → N; kr_master : N → N; kr_child : N → Path → option N }.

Section ring.
Context `{KeyEnv}.

(** Deriving in two steps is deriving at once *)
Definition ring_laws (R : Keyring) : Prop :=
  ∀ x p q, derive_priv x (p ++ q) = (kr_child R x p ≫= λ y, derive_priv y q).
(** A key is where its origin says; without one, an extended key is a master key *)
Definition honest_origin (R : Keyring) (k : DescKey) : Prop :=
  match k with
  | Single (Some o) key => derive_priv (kr_master R o.1) o.2 = Some (kr_single R key)
  | Single None _ => True
  | XPub (Some o) x _ _ => kr_child R (kr_master R o.1) o.2 = Some (kr_private R x)
  | XPub None x _ _ => kr_master R (xpub_fingerprint x) = kr_private R x
  end.
(** The private key a descriptor key stands for *)
Definition key_secret (R : Keyring) (k : DescKey) : option N :=
  match k with Single _ key => Some (kr_single R key) | XPub _ x path _ => derive_priv (kr_private R x) path end.
(** The key map holds the private keys of its keys *)
Definition honest_keymap (R : Keyring) (km : KeyMap) : Prop :=
  ∀ k s, km !! k = Some s →
    match k, s with
    | Single _ key, SecSingle sk => sk = kr_single R key
    | XPub _ x _ _, SecXPrv y => y = kr_private R x
    | _, _ => False
    end.
(** The asset key is not itself an extended key with steps to derive *)
Definition not_itself_derived (k : PlanKey DescKey) : Prop :=
  match pk_key k with XPub _ _ (_ :: _) _ => pk_asset k ≠ pk_key k | _ => True end.
(** The message of a required signature, and the tweak of its key *)
Definition sig_message (s : ReqSigs DescKey) (key_msg : option N) (leaf_msg : bytes → option N) : option N :=
  match s with ReqTapKey _ _ => key_msg | ReqTapScript leaf _ => leaf_msg leaf | _ => None end.
Definition sig_tweak (s : ReqSigs DescKey) (sk : N) : N := match s with ReqTapKey _ root => tap_tweak sk root | _ => sk end.
End ring.
