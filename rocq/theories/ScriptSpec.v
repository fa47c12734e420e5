(** What it means to spend a taproot leaf: the script language (BIP 342, for the opcodes
    miniscript uses), the types and satisfactions of miniscript
    (bitcoin.sipa.be/miniscript), the commitment of a control block (BIP 341), and the
    size of a serialised witness.  Written from those documents, not from the code.  Limits
    on the stack and on the number of signature checks are left out. *)
From Verif Require Export PlanModel.

(** ** Running a script *)

(** What a script sees of the transaction: which signatures are valid, hashes, the lock time,
    the version, and the sequence number of the input *)
Record script_ctx := mkCtx {
  cx_sig : bytes → bytes → bool;            (* key, signature *)
  cx_hash : hash_kind → bytes → bytes;
  cx_locktime : N;
  cx_version : N;
  cx_sequence : N
}.
(** Stack (top first), alternative stack, one flag for every open [IF] *)
Record machine := mkM { ms_stack : list bytes; ms_alt : list bytes; ms_cond : list bool }.
Definition running (s : machine) : bool := forallb id (ms_cond s).

(** The value of a script number of at most [n] bytes *)
Fixpoint le_value (b : bytes) : Z :=
  match b with
  | [] => 0
  | [x] => if (x <? 128)%N then Z.of_N x else - Z.of_N (x - 128)
  | x :: b => let v := le_value b in
              if (v <? 0)%Z || bool_decide (last b = Some 128%N ∧ v = 0%Z) then (v * 256 - Z.of_N x)%Z else (v * 256 + Z.of_N x)%Z
  end.
Definition num_value (n : nat) (b : bytes) : option Z := if bool_decide (length b ≤ n)%nat then Some (le_value b) else None.
(** False: zero in any number of bytes, of either sign *)
Fixpoint truthy (b : bytes) : bool :=
  match b with
  | [] => false
  | [x] => negb (x =? 0) && negb (x =? 128)
  | x :: b => negb (x =? 0) || truthy b
  end.
Definition of_bool (b : bool) : bytes := if b then [1] else [].

(** BIP 65 and BIP 112 *)
Definition cltv_ok (cx : script_ctx) (n : Z) : Prop :=
  (0 ≤ n)%Z ∧ ((n < 500000000)%Z ↔ cx_locktime cx < 500000000) ∧ (n ≤ Z.of_N (cx_locktime cx))%Z ∧ cx_sequence cx ≠ 0xffffffff.
Global Instance cltv_ok_dec cx n : Decision (cltv_ok cx n).
Proof.
  unfold cltv_ok. assert (D : Decision ((n < 500000000)%Z ↔ cx_locktime cx < 500000000)); [|apply _].
  destruct (decide (n < 500000000)%Z), (decide (cx_locktime cx < 500000000)); [left|right|right|left]; tauto.
Defined.
Definition csv_ok (cx : script_ctx) (n : N) : Prop :=
  N.testbit n 31 = true
  ∨ 2 ≤ cx_version cx ∧ N.testbit (cx_sequence cx) 31 = false
    ∧ N.testbit n 22 = N.testbit (cx_sequence cx) 22
    ∧ N.land n 0xffff ≤ N.land (cx_sequence cx) 0xffff.
Global Instance csv_ok_dec cx n : Decision (csv_ok cx n).
Proof. unfold csv_ok. apply _. Defined.

(** BIP 342: an empty signature is a failed check, any other must be valid; only keys of 32
    bytes are checked *)
Definition check_sig (cx : script_ctx) (key sig : bytes) : option bool :=
  if bool_decide (key = []) then None
  else if bool_decide (sig = []) then Some false
  else if bool_decide (length key = 32%nat) then if cx_sig cx key sig then Some true else None
  else Some true.

(** One opcode other than those of conditionals *)
Definition step_stack (cx : script_ctx) (o : op) (s alt : list bytes) : option (list bytes * list bytes) :=
  match o, s with
  | OPush b, _ => Some (b :: s, alt)
  | ONum n, _ => Some (num_bytes n :: s, alt)
  | OVerify, x :: s => if truthy x then Some (s, alt) else None
  | OToAlt, x :: s => Some (s, x :: alt)
  | OFromAlt, _ => match alt with x :: alt => Some (x :: s, alt) | [] => None end
  | OIfDup, x :: _ => Some (if truthy x then x :: s else s, alt)
  | ODup, x :: _ => Some (x :: s, alt)
  | OSwap, x :: y :: s => Some (y :: x :: s, alt)
  | OSize, x :: _ => Some (num_bytes (blen x) :: s, alt)
  | OEqual, x :: y :: s => Some (of_bool (bool_decide (x = y)) :: s, alt)
  | OEqualVerify, x :: y :: s => if bool_decide (x = y) then Some (s, alt) else None
  | OAdd, x :: y :: s =>
      match num_value 4 x, num_value 4 y with Some a, Some b => Some (num_bytes (Z.to_N (a + b)) :: s, alt) | _, _ => None end
  | OBoolAnd, x :: y :: s =>
      match num_value 4 x, num_value 4 y with
      | Some a, Some b => Some (of_bool (bool_decide (a ≠ 0 ∧ b ≠ 0)%Z) :: s, alt) | _, _ => None end
  | OBoolOr, x :: y :: s =>
      match num_value 4 x, num_value 4 y with
      | Some a, Some b => Some (of_bool (bool_decide (a ≠ 0 ∨ b ≠ 0)%Z) :: s, alt) | _, _ => None end
  | ONonZero, x :: s =>
      match num_value 4 x with Some a => Some (of_bool (bool_decide (a ≠ 0)%Z) :: s, alt) | None => None end
  | ONumEqual, x :: y :: s =>
      match num_value 4 x, num_value 4 y with
      | Some a, Some b => Some (of_bool (bool_decide (a = b)) :: s, alt) | _, _ => None end
  | ONumEqualVerify, x :: y :: s =>
      match num_value 4 x, num_value 4 y with
      | Some a, Some b => if bool_decide (a = b) then Some (s, alt) else None | _, _ => None end
  | OHash h, x :: s => Some (cx_hash cx h x :: s, alt)
  | OCheckSig, key :: sig :: s => match check_sig cx key sig with Some b => Some (of_bool b :: s, alt) | None => None end
  | OCheckSigVerify, key :: sig :: s => match check_sig cx key sig with Some true => Some (s, alt) | _ => None end
  | OCheckSigAdd, key :: n :: sig :: s =>
      match num_value 4 n, check_sig cx key sig with
      | Some n, Some b => Some (num_bytes (Z.to_N (n + if b then 1 else 0)) :: s, alt) | _, _ => None end
  | OCltv, x :: _ =>
      match num_value 5 x with Some n => if bool_decide (cltv_ok cx n) then Some (s, alt) else None | None => None end
  | OCsv, x :: _ =>
      match num_value 5 x with
      | Some n => if bool_decide (0 ≤ n)%Z && bool_decide (csv_ok cx (Z.to_N n)) then Some (s, alt) else None
      | None => None end
  | _, _ => None
  end.

Definition step (cx : script_ctx) (o : op) (s : machine) : option machine :=
  match o with
  | OIf | ONotIf =>
      if running s then
        match ms_stack s with
        | x :: st =>
            (* BIP 342: the argument is exactly empty or 1 *)
            if bool_decide (x = [] ∨ x = [1]) then
              Some (mkM st (ms_alt s) (match o with OIf => bool_decide (x ≠ []) | _ => bool_decide (x = []) end :: ms_cond s))
            else None
        | [] => None
        end
      else Some (mkM (ms_stack s) (ms_alt s) (false :: ms_cond s))
  | OElse => match ms_cond s with c :: r => Some (mkM (ms_stack s) (ms_alt s) (negb c :: r)) | [] => None end
  | OEndIf => match ms_cond s with c :: r => Some (mkM (ms_stack s) (ms_alt s) r) | [] => None end
  | _ =>
      if running s then
        match step_stack cx o (ms_stack s) (ms_alt s) with
        | Some (st, alt) => Some (mkM st alt (ms_cond s)) | None => None end
      else Some s
  end.
Fixpoint exec (cx : script_ctx) (l : list op) (s : machine) : option machine :=
  match l with
  | [] => Some s
  | o :: l => match step cx o s with Some s => exec cx l s | None => None end
  end.
(** The leaf script [l] is satisfied by the stack [args] (as in the witness, top last): it
    leaves exactly one true element. *)
Definition satisfies (cx : script_ctx) (l : list op) (args : list bytes) : Prop :=
  ∃ x, exec cx l (mkM (rev args) [] []) = Some (mkM [x] [] []) ∧ truthy x = true.
Definition satisfiesb (cx : script_ctx) (l : list op) (args : list bytes) : bool :=
  match exec cx l (mkM (rev args) [] []) with
  | Some (mkM [x] [] []) => truthy x
  | _ => false
  end.

(** ** Miniscript types *)

Inductive base_type := TyB | TyV | TyK | TyW.
Global Instance base_type_eq_dec : EqDecision base_type.
Proof. solve_decision. Defined.
(** zero-arg, one-arg, nonzero, dissatisfiable, unit *)
Record mtype := mkTy { ty_base : base_type; ty_z : bool; ty_o : bool; ty_n : bool; ty_d : bool; ty_u : bool }.
Definition is_bkv (b : base_type) : bool := match b with TyW => false | _ => true end.

Fixpoint type_of (t : term) : option mtype :=
  match t with
  | TTrue => Some (mkTy TyB true false false false true)
  | TFalse => Some (mkTy TyB true false false true true)
  | TPkK _ => Some (mkTy TyK false true true true true)
  | TPkH _ | TRawPkH _ => Some (mkTy TyK false false true true true)
  | TAfter n | TOlder n => if (1 <=? n) && (n <? 2147483648) then Some (mkTy TyB true false false false false) else None
  | THash _ _ => Some (mkTy TyB false true true true true)
  | TAlt t =>
      x ← type_of t; if bool_decide (ty_base x = TyB) then Some (mkTy TyW false false false (ty_d x) (ty_u x)) else None
  | TSwap t =>
      x ← type_of t; if bool_decide (ty_base x = TyB) && ty_o x then Some (mkTy TyW false false false (ty_d x) (ty_u x)) else None
  | TCheck t =>
      x ← type_of t; if bool_decide (ty_base x = TyK) then Some (mkTy TyB false (ty_o x) (ty_n x) (ty_d x) true) else None
  | TDupIf t =>
      x ← type_of t; if bool_decide (ty_base x = TyV) && ty_z x then Some (mkTy TyB false true true true true) else None
  | TVerify t =>
      x ← type_of t; if bool_decide (ty_base x = TyB) then Some (mkTy TyV (ty_z x) (ty_o x) (ty_n x) false false) else None
  | TNonZero t =>
      x ← type_of t; if bool_decide (ty_base x = TyB) && ty_n x then Some (mkTy TyB false (ty_o x) true true (ty_u x)) else None
  | TZeroNotEqual t =>
      x ← type_of t; if bool_decide (ty_base x = TyB) then Some (mkTy TyB (ty_z x) (ty_o x) (ty_n x) (ty_d x) true) else None
  | TAndV l r =>
      x ← type_of l; y ← type_of r;
      if bool_decide (ty_base x = TyV) && is_bkv (ty_base y) then
        Some (mkTy (ty_base y) (ty_z x && ty_z y) (ty_z x && ty_o y || ty_z y && ty_o x) (ty_n x || ty_z x && ty_n y) false (ty_u y))
      else None
  | TAndB l r =>
      x ← type_of l; y ← type_of r;
      if bool_decide (ty_base x = TyB) && bool_decide (ty_base y = TyW) then
        Some (mkTy TyB (ty_z x && ty_z y) (ty_z x && ty_o y || ty_z y && ty_o x) (ty_n x || ty_z x && ty_n y) (ty_d x && ty_d y) true)
      else None
  | TAndOr a b c =>
      x ← type_of a; y ← type_of b; z ← type_of c;
      if bool_decide (ty_base x = TyB) && ty_d x && ty_u x && bool_decide (ty_base y = ty_base z) && is_bkv (ty_base y) then
        Some (mkTy (ty_base y) (ty_z x && ty_z y && ty_z z) (ty_z x && ty_o y && ty_o z || ty_o x && ty_z y && ty_z z)
                   false (ty_d z) (ty_u y && ty_u z))
      else None
  | TOrB l r =>
      x ← type_of l; y ← type_of r;
      if bool_decide (ty_base x = TyB) && ty_d x && bool_decide (ty_base y = TyW) && ty_d y then
        Some (mkTy TyB (ty_z x && ty_z y) (ty_z x && ty_o y || ty_z y && ty_o x) false true true)
      else None
  | TOrD l r =>
      x ← type_of l; y ← type_of r;
      if bool_decide (ty_base x = TyB) && ty_d x && ty_u x && bool_decide (ty_base y = TyB) then
        Some (mkTy TyB (ty_z x && ty_z y) (ty_o x && ty_z y) false (ty_d y) (ty_u y))
      else None
  | TOrC l r =>
      x ← type_of l; y ← type_of r;
      if bool_decide (ty_base x = TyB) && ty_d x && ty_u x && bool_decide (ty_base y = TyV) then
        Some (mkTy TyV (ty_z x && ty_z y) (ty_o x && ty_z y) false false false)
      else None
  | TOrI l r =>
      x ← type_of l; y ← type_of r;
      if bool_decide (ty_base x = ty_base y) && is_bkv (ty_base x) then
        Some (mkTy (ty_base x) false (ty_z x && ty_z y) false (ty_d x || ty_d y) (ty_u x && ty_u y))
      else None
  | TThresh k l =>
      (* only the base type is tracked: planning does not handle thresholds *)
      if (1 <=? k) && (k <=? blen l) then Some (mkTy TyB false false false true true) else None
  | TMulti k l | TMultiA k l => if (1 <=? k) && (k <=? blen l) then Some (mkTy TyB false false false true true) else None
  end.

(** ** Spending paths *)

(** What a path asks for: a signature, a key, a preimage, a selector on the stack; a lock time *)
Inductive need := NSig (k : DescKey) | NKey (k : DescKey) | NImage (h : hash_kind) (i : bytes) | NOne | NZero | NAfter (n : N) | NOlder (n : N).
Global Instance need_eq_dec : EqDecision need.
Proof. solve_decision. Defined.
(** [way t l]: [l] satisfies [t], in the order of the witness (top of the stack last).  The
    fragments that need a dissatisfaction ([andor], [or_b], [or_c], [or_d], [thresh], [multi])
    have no way here. *)
Inductive way : term → list need → Prop :=
| way_true : way TTrue []
| way_pk_k k : way (TPkK k) [NSig k]
| way_pk_h k : way (TPkH k) [NSig k; NKey k]
| way_after n : way (TAfter n) [NAfter n]
| way_older n : way (TOlder n) [NOlder n]
| way_hash h i : way (THash h i) [NImage h i]
| way_alt t l : way t l → way (TAlt t) l
| way_swap t l : way t l → way (TSwap t) l
| way_check t l : way t l → way (TCheck t) l
| way_dupif t l : way t l → way (TDupIf t) (l ++ [NOne])
| way_verify t l : way t l → way (TVerify t) l
| way_nonzero t l : way t l → way (TNonZero t) l
| way_zeronotequal t l : way t l → way (TZeroNotEqual t) l
| way_and_v a b l r : way a l → way b r → way (TAndV a b) (r ++ l)
| way_and_b a b l r : way a l → way b r → way (TAndB a b) (r ++ l)
| way_or_i_l a b l : way a l → way (TOrI a b) (l ++ [NOne])
| way_or_i_r a b r : way b r → way (TOrI a b) (r ++ [NZero]).

(** The stack elements of a need *)
Definition need_witness `{KeyEnv} (m : Material) (n : need) : option (list bytes) :=
  match n with
  | NSig k => (λ s, [sig_to_vec s]) <$> m_sigs m !! k
  | NKey k => Some [xonly_bytes k]
  | NImage h i => (λ p, [p]) <$> m_preimages m !! (h, i)
  | NOne => Some [[1]]
  | NZero => Some [[]]
  | NAfter _ | NOlder _ => Some []
  end.
Fixpoint needs_witness `{KeyEnv} (m : Material) (l : list need) : option (list bytes) :=
  match l with
  | [] => Some []
  | n :: l => x ← need_witness m n; y ← needs_witness m l; Some (x ++ y)
  end.
(** The transaction waits long enough *)
Definition lock_ok (cx : script_ctx) (n : need) : Prop :=
  match n with NAfter n => cltv_ok cx (Z.of_N n) | NOlder n => csv_ok cx n | _ => True end.
(** Every supplied signature and preimage is right *)
Definition material_ok `{KeyEnv} (cx : script_ctx) (m : Material) : Prop :=
  (∀ k s, m_sigs m !! k = Some s → (length (sig_to_vec s) = 64%nat ∨ length (sig_to_vec s) = 65%nat) ∧ cx_sig cx (xonly_bytes k) (sig_to_vec s) = true)
  ∧ (∀ h i p, m_preimages m !! (h, i) = Some p → length p = 32%nat ∧ cx_hash cx h p = i).

(** ** Sizes and commitments *)

Fixpoint le_bytes (n : nat) (v : N) : bytes :=
  match n with O => [] | S n => v mod 256 :: le_bytes n (v / 256) end.
(** compact size integers *)
Definition compact_bytes (v : N) : bytes :=
  if v <? 253 then [v] else if v <? 65536 then 0xfd :: le_bytes 2 v
  else if v <? 4294967296 then 0xfe :: le_bytes 4 v else 0xff :: le_bytes 8 v.
(** A witness on the wire, BIP 141 *)
Definition witness_bytes (w : list bytes) : bytes :=
  compact_bytes (blen w) ++ concat (map (λ e, compact_bytes (blen e) ++ e) w).
(** BIP 341: the root a script and the path of a control block commit to *)
Definition root_from `{KeyEnv} (script : bytes) (path : list bytes) : bytes :=
  foldl tap_branch_hash (tap_leaf_hash script) path.
(** BIP 341: a control block is the leaf version with the parity of the output key, the internal key and
    hashes of 32 bytes, which lead from the script to the root the output key commits to. *)
Definition opens `{KeyEnv} (tr : Tr) (script cb : bytes) : Prop :=
  ∃ path, cb = [0xc0 + tap_parity (tr_internal tr) (merkle_root tr)] ++ xonly_bytes (tr_internal tr) ++ concat path ∧
    Forall (λ h : bytes, length h = 32%nat) path ∧ merkle_root tr = Some (root_from script path).

(** Sizes of keys and hashes; nodes are hashed in sorted order *)
Class KeyLaws `{KeyEnv} : Prop := {
  xonly_length k : length (xonly_bytes k) = 32%nat;
  key_length k : length (key_bytes k) = 33%nat;
  leaf_hash_length s : length (tap_leaf_hash s) = 32%nat;
  branch_hash_length a b : length (tap_branch_hash a b) = 32%nat;
  branch_hash_comm a b : tap_branch_hash a b = tap_branch_hash b a
}.
