(** Model of bdk_tmp_plan (src/lib.rs, src/plan_impls.rs, src/template.rs, src/requirements.rs).
    Bytes are numbers below 256, [usize] sums do not overflow.  What the [miniscript] and
    [bitcoin] crates do on the way (script encoding, control blocks, lock times) is written
    down from their documentation; hashing, key derivation and signing are parameters. *)
From Verif Require Export Base.

Notation bytes := (list N) (only parsing).
(** lib.rs:33-35; [VarInt::len] of the bitcoin crate *)
Definition varint_len (v : N) : N :=
  if v <=? 252 then 1 else if v <=? 65535 then 3 else if v <=? u32_max then 5 else 9.
(** [len()], lib.rs:115-143 *)
Definition blen {A} (l : list A) : N := N.of_nat (length l).

(** ** Keys *)

(** [DerivationPath]: child numbers; hardened ones are 2^31 and above *)
Notation Path := (list N) (only parsing).
(** [KeySource], lib.rs:368: fingerprint and path *)
Notation KeySource := (N * list N)%type (only parsing).
(** [DescriptorPublicKey] of miniscript, as matched in lib.rs:370-382, 388-401: a single key,
    or an extended key with a derivation path and a wildcard kind.  [DefiniteDescriptorKey] is
    a wrapper around one without wildcard, [DescriptorPublicKey::from] unwraps it. *)
Inductive DescKey :=
| Single (origin : option KeySource) (key : N)
| XPub (origin : option KeySource) (xkey : N) (path : Path) (wildcard : N).
Global Instance DescKey_eq_dec : EqDecision DescKey.
Proof. solve_decision. Defined.
Global Instance DescKey_countable : Countable DescKey.
Proof.
  refine (inj_countable'
    (λ k, match k with Single o k => inl (o, k) | XPub o x p w => inr (o, x, p, w) end)
    (λ s, match s with inl (o, k) => Single o k | inr (o, x, p, w) => XPub o x p w end) _).
  by intros [].
Defined.
(** [DescriptorSecretKey], the fields read by requirements.rs:144-151, 191-198 *)
Inductive DescSecret :=
| SecSingle (key : N)
| SecXPrv (xkey : N).

(** The four hash functions of miniscript: fragments, templates, assets, material and
    requirements have one case or field for each (plan_impls.rs:241-272, template.rs:15-18,
    lib.rs:343-346); here one with this index. *)
Inductive hash_kind := HSha256 | HHash256 | HRipemd160 | HHash160.
Global Instance hash_kind_eq_dec : EqDecision hash_kind.
Proof. solve_decision. Defined.
Global Instance hash_kind_countable : Countable hash_kind.
Proof.
  refine (inj_countable'
    (λ k, match k with HSha256 => 0%nat | HHash256 => 1%nat | HRipemd160 => 2%nat | HHash160 => 3%nat end)
    (λ n, match n with O => HSha256 | S O => HHash256 | S (S O) => HRipemd160 | _ => HHash160 end) _).
  by intros [].
Defined.
Notation image := (hash_kind * list N)%type (only parsing).

(** Cryptography, by the calls the code makes (lib.rs:33-420, requirements.rs:117-217). *)
Class KeyEnv := {
  xpub_fingerprint : N → N;                  (* xkey_fingerprint, lib.rs:377, 394 *)
  key_bytes : DescKey → bytes;               (* to_public_key().to_bytes(), template.rs:73 *)
  xonly_bytes : DescKey → bytes;             (* x-only keys in scripts and control blocks *)
  hash_bytes : hash_kind → bytes → bytes;    (* in scripts: HASH160 of a key *)
  tap_leaf_hash : bytes → bytes;             (* TapLeafHash::from_script, lib.rs:252 *)
  tap_branch_hash : bytes → bytes → bytes;   (* nodes of the tree, spend_info *)
  tap_parity : DescKey → option bytes → N;   (* parity bit of the output key *)
  derive_priv : N → Path → option N;         (* requirements.rs:148, 195 *)
  tap_tweak : N → option bytes → N;          (* requirements.rs:156-160 *)
  schnorr_sign : N → N → bytes               (* sign_schnorr_no_aux_rand, :163, 202 *)
}.

(** lib.rs:364-366 [CanDerive] *)
Class CanDerive (AK : Type) := can_derive : AK → DescKey → option Path.

(** [slice::strip_prefix], lib.rs:412 *)
Fixpoint strip_prefix (l p : Path) : option Path :=
  match p, l with
  | [], _ => Some l
  | x :: p, y :: l => if bool_decide (x = y) then strip_prefix l p else None
  | _ :: _, [] => None
  end.

(** lib.rs:405-419 *)
Definition path_to_child (parent origin : KeySource) (child : option Path) : option Path :=
  if bool_decide (parent.1 = origin.1) then
    (λ r, r ++ default [] child) <$> strip_prefix origin.2 parent.2
  else None.

(** ** Scripts *)

(** [miniscript::Terminal] as matched in plan_impls.rs:181-323; [Multi] and [MultiA] carry
    threshold and keys, [RawPkH] the key hash *)
Inductive term :=
| TTrue | TFalse
| TPkK (k : DescKey) | TPkH (k : DescKey) | TRawPkH (h : bytes)
| TAfter (n : N) | TOlder (n : N)
| THash (h : hash_kind) (i : bytes)
| TAlt (t : term) | TSwap (t : term) | TCheck (t : term) | TDupIf (t : term)
| TVerify (t : term) | TNonZero (t : term) | TZeroNotEqual (t : term)
| TAndV (l r : term) | TAndB (l r : term) | TAndOr (a b c : term)
| TOrB (l r : term) | TOrD (l r : term) | TOrC (l r : term) | TOrI (l r : term)
| TThresh (k : N) (l : list term) | TMulti (k : N) (l : list DescKey) | TMultiA (k : N) (l : list DescKey).

(** The opcodes miniscript compiles to; scripts are encoded at plan_impls.rs:144. *)
Inductive op :=
| OPush (b : bytes) | ONum (n : N)
| OIf | ONotIf | OElse | OEndIf
| OVerify | OToAlt | OFromAlt | OIfDup | ODup | OSwap | OSize
| OEqual | OEqualVerify | OAdd | OBoolAnd | OBoolOr | ONonZero
| ONumEqual | ONumEqualVerify | OHash (h : hash_kind)
| OCheckSig | OCheckSigVerify | OCheckSigAdd | OCheckMultiSig | OCheckMultiSigVerify
| OCltv | OCsv.

(** [Builder::push_verify] of the bitcoin crate: the last opcode becomes its
    verifying form (part of [encode], plan_impls.rs:144) *)
Definition verify_op (o : op) : list op :=
  match o with
  | OEqual => [OEqualVerify]
  | ONumEqual => [ONumEqualVerify]
  | OCheckSig => [OCheckSigVerify]
  | OCheckMultiSig => [OCheckMultiSigVerify]
  | _ => [o; OVerify]
  end.
(** The same on a script (part of [encode], plan_impls.rs:144) *)
Fixpoint push_verify (s : list op) : list op :=
  match s with
  | [] => [OVerify]
  | [o] => verify_op o
  | o :: s => o :: push_verify s
  end.

(** Script numbers: little endian, the top bit of the last byte is the sign.  Values are
    below 2^31 (part of [encode], plan_impls.rs:144). *)
Definition num_bytes (n : N) : bytes :=
  if n =? 0 then []
  else if n <=? 0x7f then [n]
  else if n <=? 0x7fff then [n mod 256; n / 256]
  else if n <=? 0x7fffff then [n mod 256; (n / 256) mod 256; n / 65536]
  else [n mod 256; (n / 256) mod 256; (n / 65536) mod 256; n / 16777216].

Section scripts.
Context `{KeyEnv}.

(** [Miniscript::encode], called in plan_impls.rs:144 *)
Fixpoint encode (t : term) : list op :=
  match t with
  | TTrue => [ONum 1]
  | TFalse => [ONum 0]
  | TPkK k => [OPush (xonly_bytes k)]
  | TPkH k => [ODup; OHash HHash160; OPush (hash_bytes HHash160 (xonly_bytes k)); OEqualVerify]
  | TRawPkH h => [ODup; OHash HHash160; OPush h; OEqualVerify]
  | TAfter n => [ONum n; OCltv]
  | TOlder n => [ONum n; OCsv]
  | THash h i => [OSize; ONum 32; OEqualVerify; OHash h; OPush i; OEqual]
  | TAlt t => OToAlt :: encode t ++ [OFromAlt]
  | TSwap t => OSwap :: encode t
  | TCheck t => encode t ++ [OCheckSig]
  | TDupIf t => [ODup; OIf] ++ encode t ++ [OEndIf]
  | TVerify t => push_verify (encode t)
  | TNonZero t => [OSize; ONonZero; OIf] ++ encode t ++ [OEndIf]
  | TZeroNotEqual t => encode t ++ [ONonZero]
  | TAndV l r => encode l ++ encode r
  | TAndB l r => encode l ++ encode r ++ [OBoolAnd]
  | TAndOr a b c => encode a ++ [ONotIf] ++ encode c ++ [OElse] ++ encode b ++ [OEndIf]
  | TOrB l r => encode l ++ encode r ++ [OBoolOr]
  | TOrD l r => encode l ++ [OIfDup; ONotIf] ++ encode r ++ [OEndIf]
  | TOrC l r => encode l ++ [ONotIf] ++ encode r ++ [OEndIf]
  | TOrI l r => [OIf] ++ encode l ++ [OElse] ++ encode r ++ [OEndIf]
  | TThresh k l =>
      match l with
      | [] => [ONum k; OEqual]
      | t :: l => encode t ++ concat (map (λ t, encode t ++ [OAdd]) l) ++ [ONum k; OEqual]
      end
  | TMulti k l => [ONum k] ++ ((λ p, OPush (key_bytes p)) <$> l) ++ [ONum (blen l); OCheckMultiSig]
  | TMultiA k l =>
      match l with
      | [] => [ONum k; ONumEqual]
      | p :: l => [OPush (xonly_bytes p); OCheckSig]
                  ++ concat (map (λ p, [OPush (xonly_bytes p); OCheckSigAdd]) l) ++ [ONum k; ONumEqual]
      end
  end.

(** Opcode bytes of the script language; scripts as bytes, plan_impls.rs:144 *)
Definition op_code (o : op) : N :=
  match o with
  | OPush _ | ONum _ => 0
  | OIf => 0x63 | ONotIf => 0x64 | OElse => 0x67 | OEndIf => 0x68
  | OVerify => 0x69 | OToAlt => 0x6b | OFromAlt => 0x6c | OIfDup => 0x73 | ODup => 0x76
  | OSwap => 0x7c | OSize => 0x82 | OEqual => 0x87 | OEqualVerify => 0x88 | OAdd => 0x93
  | OBoolAnd => 0x9a | OBoolOr => 0x9b | ONonZero => 0x92
  | ONumEqual => 0x9c | ONumEqualVerify => 0x9d
  | OHash HRipemd160 => 0xa6 | OHash HSha256 => 0xa8 | OHash HHash160 => 0xa9 | OHash HHash256 => 0xaa
  | OCheckSig => 0xac | OCheckSigVerify => 0xad | OCheckSigAdd => 0xba
  | OCheckMultiSig => 0xae | OCheckMultiSigVerify => 0xaf
  | OCltv => 0xb1 | OCsv => 0xb2
  end.
(** plan_impls.rs:144: the bytes of one opcode *)
Definition op_bytes (o : op) : bytes :=
  match o with
  | OPush b => blen b :: b     (* at most 75 bytes *)
  | ONum n => if n =? 0 then [0] else if n <=? 16 then [0x50 + n] else blen (num_bytes n) :: num_bytes n
  | _ => [op_code o]
  end.
(** plan_impls.rs:144 [script.encode()] *)
Definition script_bytes (t : term) : bytes := concat (map op_bytes (encode t)).

(** [Tr], lib.rs:60: internal key and tree of leaves *)
Inductive tap_tree := TapLeaf (t : term) | TapNode (l r : tap_tree).
Record Tr := mkTr { tr_internal : DescKey; tr_tree : option tap_tree }.

(** [Tr::iter_scripts], plan_impls.rs:132-135: left to right *)
Fixpoint tree_leaves (x : tap_tree) : list term :=
  match x with TapLeaf t => [t] | TapNode l r => tree_leaves l ++ tree_leaves r end.
Definition iter_scripts (tr : Tr) : list term := match tr_tree tr with Some x => tree_leaves x | None => [] end.

(** The root hash of a tree ([spend_info], lib.rs:138, 213, 242) *)
Fixpoint tree_root (x : tap_tree) : bytes :=
  match x with
  | TapLeaf t => tap_leaf_hash (script_bytes t)
  | TapNode l r => tap_branch_hash (tree_root l) (tree_root r)
  end.
(** [spend_info().merkle_root()], lib.rs:242 *)
Definition merkle_root (tr : Tr) : option bytes := tree_root <$> tr_tree tr.
(** Every leaf with its path of sibling hashes, from the leaf up ([spend_info], lib.rs:138, 213) *)
Fixpoint tree_paths (x : tap_tree) : list (term * list bytes) :=
  match x with
  | TapLeaf t => [(t, [])]
  | TapNode l r => ((λ p, (p.1, p.2 ++ [tree_root r])) <$> tree_paths l)
                   ++ ((λ p, (p.1, p.2 ++ [tree_root l])) <$> tree_paths r)
  end.
(** The first of the smallest entries: the head after the stable sort of plan_impls.rs:137-139 *)
Fixpoint first_min {A} (f : A → N) (l : list A) : option A :=
  match l with
  | [] => None
  | x :: l => match first_min f l with Some y => if f y <? f x then Some y else Some x | None => Some x end
  end.
(** [spend_info().control_block(script)], lib.rs:138-141, 213-216: the shortest path of a
    leaf with this script.  Simplification: of several shortest the leftmost (the library
    takes the one with the smallest hashes). *)
Definition control_path (tr : Tr) (script : bytes) : option (list bytes) :=
  match tr_tree tr with
  | None => None
  | Some x => snd <$> first_min (λ p, blen p.2) (filter (λ p, script_bytes p.1 = script) (tree_paths x))
  end.
(** [ControlBlock::serialize] and [size]: leaf version and parity, internal key,
    path; lib.rs:138-143, 213-217 *)
Definition control_block (tr : Tr) (path : list bytes) : bytes :=
  (0xc0 + tap_parity (tr_internal tr) (merkle_root tr)) :: xonly_bytes (tr_internal tr) ++ concat path.
Definition control_block_size (path : list bytes) : N := 33 + 32 * blen path.
End scripts.

(** ** Lock times *)

(** [LockTime] of the bitcoin crate, lib.rs:74 *)
Inductive LockTime := Blocks (n : N) | Seconds (n : N).
Global Instance LockTime_eq_dec : EqDecision LockTime.
Proof. solve_decision. Defined.
(** [LockTime::from] a consensus number, plan_impls.rs:219 *)
Definition locktime_from (n : N) : LockTime := if n <? 500000000 then Blocks n else Seconds n.
(** [to_consensus_u32] and [is_same_unit], plan_impls.rs:12-13 *)
Definition lt_u32 (l : LockTime) : N := match l with Blocks n | Seconds n => n end.
Definition is_same_unit (a b : LockTime) : bool :=
  match a, b with Blocks _, Blocks _ | Seconds _, Seconds _ => true | _, _ => false end.
(** [LockTime::is_satisfied_by(height, time)], plan_impls.rs:224 *)
Definition is_satisfied_by (l : LockTime) (height time : N) : bool :=
  match l with Blocks n => n <=? height | Seconds n => n <=? time end.
(** [Height::from_consensus] and [Time::from_consensus], plan_impls.rs:221-222: heights are
    below 500000000, times are not *)
Definition height_from_consensus (n : N) : option N := if n <? 500000000 then Some n else None.
Definition time_from_consensus (n : N) : option N := if n <? 500000000 then None else Some n.
(** [Sequence::is_height_locked]: neither the disable nor the type bit is set;
    plan_impls.rs:29, 238 *)
Definition is_height_locked (s : N) : bool := negb (N.testbit s 31) && negb (N.testbit s 22).

(** ** Templates *)

(** template.rs:22-33 [PlanKey] *)
Record PlanKey (AK : Type) := mkPlanKey { pk_asset : AK; pk_hint : Path; pk_key : DescKey }.
Global Arguments mkPlanKey {_} _ _ _.
Global Arguments pk_asset {_} _.
Global Arguments pk_hint {_} _.
Global Arguments pk_key {_} _.
(** template.rs:10-20 [TemplateItem] *)
Inductive item (AK : Type) :=
| ISign (k : PlanKey AK) | IPk (k : DescKey) | IOne | IZero | IHash (h : hash_kind) (i : bytes).
Global Arguments ISign {_} _.
Global Arguments IPk {_} _.
Global Arguments IOne {_}.
Global Arguments IZero {_}.
Global Arguments IHash {_} _ _.

(** template.rs:36-47 *)
Definition item_size {AK} (i : item AK) : N :=
  match i with
  | ISign _ => 64
  | IPk _ => 32
  | IOne => varint_len 1
  | IZero => 0
  | IHash _ _ => 32
  end.

(** [SchnorrSig]: signature and sighash type, 0 is the default; [to_vec], template.rs:57 *)
Record SchnorrSig := mkSig { sig_bytes : bytes; sig_type : N }.
Definition sig_to_vec (s : SchnorrSig) : bytes :=
  sig_bytes s ++ (if sig_type s =? 0 then [] else [sig_type s]).
(** lib.rs:84-99 [SatisfactionMaterial]; [ecdsa_sigs] is never read *)
Record Material := mkMaterial { m_sigs : gmap DescKey SchnorrSig; m_preimages : gmap image bytes }.
Definition no_material : Material := mkMaterial ∅ ∅.

(** template.rs:50-75 [to_witness_stack]; [unwrap] panics *)
Definition item_witness `{KeyEnv} {AK} (m : Material) (i : item AK) : outcome (list bytes) :=
  match i with
  | ISign k => match m_sigs m !! pk_key k with Some s => Ret [sig_to_vec s] | None => Panic end
  | IOne => Ret [[1]]
  | IZero => Ret [[]]
  | IHash h i => match m_preimages m !! (h, i) with Some p => Ret [p] | None => Panic end
  | IPk k => Ret [key_bytes k]
  end.

(** ** Planning *)

(** lib.rs:339-348 [Assets] *)
Record Assets (AK : Type) := mkAssets {
  a_keys : list AK;
  a_age : option N;
  a_locktime : option LockTime;
  a_images : list image
}.
Global Arguments mkAssets {_} _ _ _ _.
Global Arguments a_keys {_} _.
Global Arguments a_age {_} _.
Global Arguments a_locktime {_} _.
Global Arguments a_images {_} _.

(** plan_impls.rs:155-160 [TermPlan] *)
Record TermPlan (AK : Type) := mkTP { tp_locktime : option LockTime; tp_sequence : option N; tp_template : list (item AK) }.
Global Arguments mkTP {_} _ _ _.
Global Arguments tp_locktime {_} _.
Global Arguments tp_sequence {_} _.
Global Arguments tp_template {_} _.

(** lib.rs:44-63 [TrSpend] and [Target]; the leaf version is always that of tapscript
    (plan_impls.rs:146) *)
Inductive TrSpend := KeySpend | LeafSpend (script : bytes).
Inductive Target := Legacy | Segwitv0 (code : bytes) | Segwitv1 (tr : Tr) (spend : TrSpend).
(** lib.rs:67-76 [Plan] *)
Record Plan (AK : Type) := mkPlan {
  p_template : list (item AK);
  p_target : Target;
  p_locktime : option LockTime;
  p_sequence : option N
}.
Global Arguments mkPlan {_} _ _ _ _.
Global Arguments p_template {_} _.
Global Arguments p_target {_} _.
Global Arguments p_locktime {_} _.
Global Arguments p_sequence {_} _.
(** [Descriptor], lib.rs:428-435 *)
Inductive Descriptor := DBare | DPkh | DWpkh | DSh | DWsh | DTr (tr : Tr).

(** requirements.rs:63-84 [RequiredSignatures] *)
Inductive ReqSigs (AK : Type) :=
| ReqLegacy (keys : list (PlanKey AK))
| ReqSegwitv0 (keys : list (PlanKey AK))
| ReqTapKey (key : PlanKey AK) (root : option bytes)
| ReqTapScript (leaf : bytes) (keys : list (PlanKey AK)).
Global Arguments ReqLegacy {_} _.
Global Arguments ReqSegwitv0 {_} _.
Global Arguments ReqTapKey {_} _ _.
Global Arguments ReqTapScript {_} _ _.
(** requirements.rs:18-31 [Requirements]; the default, :33-51 *)
Record Requirements (AK : Type) := mkReq { r_sigs : ReqSigs AK; r_images : gset image }.
Global Arguments mkReq {_} _ _.
Global Arguments r_sigs {_} _.
Global Arguments r_images {_} _.
Definition no_requirements {AK} : Requirements AK := mkReq (ReqLegacy []) ∅.
(** requirements.rs:55-60 *)
Definition requires_hash_preimages {AK} (r : Requirements AK) : bool := bool_decide (r_images r ≠ ∅).
(** lib.rs:327-337 [PlanState]; the script sig is always [None] *)
Inductive PlanState (AK : Type) := Complete (witness : list bytes) | Incomplete (r : Requirements AK).
Global Arguments Complete {_} _.
Global Arguments Incomplete {_} _.

Section plan.
Context `{KeyEnv} {AK : Type} `{!CanDerive AK}.
Implicit Types (a : Assets AK) (p : Plan AK) (t : term).

(** plan_impls.rs:8-51 [TermPlan::combine] *)
Definition combine (x y : TermPlan AK) : option (TermPlan AK) :=
  match
    match tp_locktime x, tp_locktime y with
    | Some l, Some r =>
        if is_same_unit l r then Some (Some (if lt_u32 r <? lt_u32 l then l else r)) else None
    | Some l, None => Some (Some l)
    | None, r => Some r
    end
  with
  | None => None
  | Some locktime =>
      match
        match tp_sequence x, tp_sequence y with
        | Some l, Some r =>
            if bool_decide (is_height_locked l = is_height_locked r)
            then Some (Some (if r <? l then l else r)) else None
        | Some l, None => Some (Some l)
        | None, r => Some r
        end
      with
      | None => None
      | Some sequence => Some (mkTP locktime sequence (tp_template x ++ tp_template y))
      end
  end.
(** plan_impls.rs:53-55 *)
Definition template_size (l : list (item AK)) : N := foldr N.add 0 (item_size <$> l).
(** plan_impls.rs:162-169; and [plan.template.push(..)], :287, 301, 305 *)
Definition tp_new (l : list (item AK)) : TermPlan AK := mkTP None None l.
Definition tp_push (i : item AK) (x : TermPlan AK) : TermPlan AK :=
  mkTP (tp_locktime x) (tp_sequence x) (tp_template x ++ [i]).

(** plan_impls.rs:111-114, 189-192, 203-206: the first asset key that can derive [k] *)
Fixpoint find_key (l : list AK) (k : DescKey) : option (PlanKey AK) :=
  match l with
  | [] => None
  | x :: l => match can_derive x k with Some h => Some (mkPlanKey x h k) | None => find_key l k end
  end.

(** plan_impls.rs:181-323 [plan_steps]; [todo!()] panics *)
Fixpoint plan_steps (a : Assets AK) (t : term) : outcome (option (TermPlan AK)) :=
  match t with
  | TTrue => Ret (Some (tp_new []))
  | TFalse => Ret None
  | TPkH k => Ret ((λ pk, tp_new [ISign pk; IPk k]) <$> find_key (a_keys a) k)
  | TPkK k => Ret ((λ pk, tp_new [ISign pk]) <$> find_key (a_keys a) k)
  | TRawPkH _ => Ret None
  | TAfter n =>
      match a_locktime a with
      | None => Ret None
      | Some max =>
          ht ← match max with
               | Blocks h => match time_from_consensus 0 with Some t => Ret (h, t) | None => Panic end
               | Seconds s => match height_from_consensus 0 with Some h => Ret (h, s) | None => Panic end
               end;
          if is_satisfied_by max ht.1 ht.2 then Ret (Some (mkTP (Some (locktime_from n)) None [])) else Ret None
      end
  | TOlder n =>
      match a_age a with
      | None => Ret None
      | Some max =>
          if bool_decide (is_height_locked max = is_height_locked n) then
            if n <=? max then Ret (Some (mkTP None (Some n) [])) else Ret None
          else Ret None
      end
  | THash h i => if bool_decide ((h, i) ∈ a_images a) then Ret (Some (tp_new [IHash h i])) else Ret None
  | TAlt t | TSwap t | TCheck t | TVerify t | TNonZero t | TZeroNotEqual t => plan_steps a t
  | TDupIf t => x ← plan_steps a t; Ret (option_map (tp_push IOne) x)
  | TAndV l r | TAndB l r =>
      x ← plan_steps a l;
      match x with
      | None => Ret None
      | Some x =>
          y ← plan_steps a r;
          match y with None => Ret None | Some y => Ret (combine x y) end
      end
  | TOrI l r =>
      x ← plan_steps a l;
      y ← plan_steps a r;
      Ret match option_map (tp_push IOne) x, option_map (tp_push IZero) y with
          | Some x, Some y =>
              if template_size (tp_template x) <=? template_size (tp_template y) then Some x else Some y
          | Some x, None => Some x
          | None, y => y
          end
  | TAndOr _ _ _ | TOrB _ _ | TOrD _ _ | TOrC _ _ | TThresh _ _ | TMulti _ _ | TMultiA _ _ => Panic
  end.

(** plan_impls.rs:132-135: the scripts that can be planned, in order *)
Fixpoint plan_leaves (a : Assets AK) (l : list term) : outcome (list (term * TermPlan AK)) :=
  match l with
  | [] => Ret []
  | t :: l =>
      x ← plan_steps a t;
      rest ← plan_leaves a l;
      Ret (match x with Some x => (t, x) :: rest | None => rest end)
  end.

(** plan_impls.rs:104-153; the head of a stable sort by size is the first smallest *)
Definition plan_satisfaction_tr (tr : Tr) (a : Assets AK) : outcome (option (Plan AK)) :=
  match find_key (a_keys a) (tr_internal tr) with
  | Some pk => Ret (Some (mkPlan [ISign pk] (Segwitv1 tr KeySpend) None None))
  | None =>
      plans ← plan_leaves a (iter_scripts tr);
      Ret match first_min (λ x, template_size (tp_template x.2)) plans with
          | None => None
          | Some (t, x) =>
              Some (mkPlan (tp_template x) (Segwitv1 tr (LeafSpend (script_bytes t))) (tp_locktime x) (tp_sequence x))
          end
  end.

(** lib.rs:421-436 *)
Definition plan_satisfaction (d : Descriptor) (a : Assets AK) : outcome (option (Plan AK)) :=
  match d with DTr tr => plan_satisfaction_tr tr a | _ => Panic end.

(** ** Plans *)

(** lib.rs:106-162 *)
Definition witness_size (elems : list N) : N := varint_len (blen elems) + foldr N.add 0 ((λ e, varint_len e + e) <$> elems).
Definition expected_weight (p : Plan AK) : outcome N :=
  match p_target p with
  | Legacy => Panic
  | Segwitv0 _ => Ret (1 * 4 + witness_size (item_size <$> p_template p))
  | Segwitv1 tr KeySpend => Ret (1 * 4 + witness_size (item_size <$> p_template p))
  | Segwitv1 tr (LeafSpend script) =>
      match control_path tr script with
      | None => Panic
      | Some path =>
          Ret (1 * 4 + witness_size ((item_size <$> p_template p) ++ [blen script; control_block_size path]))
      end
  end.

(** lib.rs:175-187 *)
Definition unsatisfied (m : Material) (i : item AK) : bool :=
  match i with
  | ISign k => bool_decide (m_sigs m !! pk_key k = None)
  | IHash h i => bool_decide (m_preimages m !! (h, i) = None)
  | IPk _ | IOne | IZero => false
  end.
Fixpoint witness_of (m : Material) (l : list (item AK)) : outcome (list bytes) :=
  match l with
  | [] => Ret []
  | i :: l => x ← item_witness m i; rest ← witness_of m l; Ret (x ++ rest)
  end.
(** lib.rs:272-291 *)
Definition req_add (s : list (PlanKey AK) * gset image) (i : item AK) : list (PlanKey AK) * gset image :=
  match i with
  | ISign k => (s.1 ++ [k], s.2)
  | IHash h i => (s.1, {[ (h, i) ]} ∪ s.2)
  | IPk _ | IOne | IZero => s
  end.

(** lib.rs:171-296 *)
Definition try_complete (p : Plan AK) (m : Material) : outcome (PlanState AK) :=
  let missing := List.filter (unsatisfied m) (p_template p) in
  match missing with
  | [] =>
      w ← witness_of m (p_template p);
      match p_target p with
      | Segwitv0 _ | Legacy => Panic
      | Segwitv1 tr KeySpend => Ret (Complete w)
      | Segwitv1 tr (LeafSpend script) =>
          match control_path tr script with
          | None => Panic
          | Some path => Ret (Complete (w ++ [script; control_block tr path]))
          end
      end
  | _ =>
      match p_target p with
      | Segwitv0 _ | Legacy => Panic
      | Segwitv1 tr KeySpend =>
          match p_template p with
          | [ISign k] => Ret (Incomplete (mkReq (ReqTapKey k (merkle_root tr)) ∅))
          | _ => Panic
          end
      | Segwitv1 tr (LeafSpend script) =>
          let r := foldl req_add ([], ∅) missing in
          Ret (Incomplete (mkReq (ReqTapScript (tap_leaf_hash script) r.1) r.2))
      end
  end.

(** lib.rs:164-169 *)
Definition requirements (p : Plan AK) : outcome (Requirements AK) :=
  s ← try_complete p no_material;
  Ret match s with Complete _ => no_requirements | Incomplete r => r end.

(** lib.rs:299-305, 318-324 *)
Definition witness_version (p : Plan AK) : option N :=
  match p_target p with Legacy => None | Segwitv0 _ => Some 0 | Segwitv1 _ _ => Some 1 end.
Definition min_version (p : Plan AK) : option N := match p_sequence p with Some _ => Some 2 | None => Some 1 end.
End plan.

(** ** Deriving and signing *)

(** lib.rs:368-384 [CanDerive for KeySource] *)
Global Instance keysource_can_derive `{KeyEnv} : CanDerive KeySource := λ self key,
  match key with
  | Single origin _ => match origin with Some o => path_to_child self o None | None => None end
  | XPub origin xkey path _ =>
      path_to_child self (match origin with Some o => o | None => (xpub_fingerprint xkey, []) end) (Some path)
  end.
(** lib.rs:386-403 [CanDerive for DescriptorPublicKey] *)
Global Instance desckey_can_derive `{KeyEnv} : CanDerive DescKey := λ self key,
  if bool_decide (self = key) then Some []
  else match self with
       | XPub origin xkey _ _ =>
           can_derive (match origin with Some o => o | None => (xpub_fingerprint xkey, []) end) key
       | Single _ _ => None
       end.

(** [KeyMap] of miniscript, requirements.rs:120 *)
Notation KeyMap := (gmap DescKey DescSecret) (only parsing).
(** requirements.rs:86-90 [SigningError] *)
Inductive SigningError := SigHashError | DerivationError.
(** requirements.rs:144-151, 191-198 *)
Definition secret_of `{KeyEnv} (s : DescSecret) (hint : Path) : option N :=
  match s with SecSingle k => Some k | SecXPrv x => derive_priv x hint end.

Section sign.
Context `{KeyEnv}.

(** requirements.rs:187-213: the keys of one script; the flag says whether one was signed for *)
Fixpoint sign_leaf (km : KeyMap) (ty msg : N) (l : list (PlanKey DescKey)) (m : Material) (modified : bool)
  : result bool SigningError * Material :=
  match l with
  | [] => (Ok modified, m)
  | k :: l =>
      match km !! pk_asset k with
      | None => sign_leaf km ty msg l m modified
      | Some s =>
          match secret_of s (pk_hint k) with
          | None => (Err DerivationError, m)
          | Some sk => sign_leaf km ty msg l
                         (mkMaterial (<[pk_key k := mkSig (schnorr_sign sk msg) ty]> (m_sigs m)) (m_preimages m)) true
          end
      end
  end.

(** requirements.rs:117-217 [sign_with_keymap]; the signature hashes of the input for the key
    path and for a leaf are arguments ([None]: the library reports an error), [ty] is the
    sighash type (0, the default, if not given).  The material is changed in place. *)
Definition sign_with_keymap (sigs : ReqSigs DescKey) (km : KeyMap) (key_msg : option N) (leaf_msg : bytes → option N)
    (ty : N) (m : Material) : outcome (result bool SigningError * Material) :=
  match sigs with
  | ReqLegacy _ | ReqSegwitv0 _ => Panic
  | ReqTapKey k root =>
      match key_msg with
      | None => Ret (Err SigHashError, m)
      | Some msg =>
          match km !! pk_asset k with
          | None => Ret (Ok false, m)
          | Some s =>
              match secret_of s (pk_hint k) with
              | None => Ret (Err DerivationError, m)
              | Some sk =>
                  Ret (Ok true, mkMaterial (<[pk_key k := mkSig (schnorr_sign (tap_tweak sk root) msg) ty]> (m_sigs m)) (m_preimages m))
              end
          end
      end
  | ReqTapScript leaf keys =>
      match leaf_msg leaf with
      | None => Ret (Err SigHashError, m)
      | Some msg => Ret (sign_leaf km ty msg keys m false)
      end
  end.
End sign.
