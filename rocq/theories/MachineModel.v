(** Machine integers and [f32], as bdk_coin_select uses them.  Facilities of Rust's
    [core]; the citations name the uses. *)
From Verif Require Export Base.
From Coq Require Export Floats.SpecFloat.
#[global] Open Scope Z_scope.

(** ** Integers *)

(** The integer types of bdk_coin_select/src/coin_selector.rs:6-17,44-68 and
    bnb.rs:27-35; [usize] is the 64-bit one. *)
Inductive ity := U32 | U64 | USize | I64.

(** Their bounds, coin_selector.rs:6-17 *)
Definition imin (t : ity) : Z := match t with I64 => -9223372036854775808 | _ => 0 end.
Definition imax (t : ity) : Z :=
  match t with
  | U32 => 4294967295
  | U64 | USize => 18446744073709551615
  | I64 => 9223372036854775807
  end.
Definition in_ity (t : ity) (z : Z) : bool := (imin t <=? z) && (z <=? imax t).
(** Two's complement wrapping; also what an [as] cast between integer types does
    (coin_selector.rs:39 [self.value as i64], 236, 368). *)
Definition wrap (t : ity) (z : Z) : Z := imin t + (z - imin t) mod (imax t - imin t + 1).

(** The result of [+], [-] or a [sum()], coin_selector.rs:176, 183, 344: with overflow checks ([dbg], the debug
    profile) overflowing panics, without them (release) it wraps. *)
Definition fit (dbg : bool) (t : ity) (z : Z) : outcome Z :=
  if in_ity t z then Ret z else if dbg then Panic else Ret (wrap t z).

(** [Iterator::sum] and the additive folds of coin_selector.rs:171-193, bnb.rs:40-45. *)
Fixpoint sum_fit (dbg : bool) (t : ity) (acc : Z) (l : list Z) : outcome Z :=
  match l with
  | [] => Ret acc
  | x :: l' => acc' ← fit dbg t (acc + x); sum_fit dbg t acc' l'
  end.

(** [u64::saturating_sub], coin_selector.rs:308-330,401. *)
Definition sat_sub (a b : Z) : Z := Z.max 0 (a - b).

(** ** f32 *)

(** IEEE 754 binary32: 24 bits of precision, largest exponent 128; arithmetic
    rounds to nearest, ties to even.  Used by coin_selector.rs:39,73-77,127-130,196-199,
    237,297-300 and bnb.rs:228-234. *)
Notation f32 := spec_float (only parsing).
Definition f32_prec : Z := 24.
Definition f32_emax : Z := 128.
Definition f32_mul : f32 → f32 → f32 := SFmul f32_prec f32_emax.
Definition f32_add : f32 → f32 → f32 := SFadd f32_prec f32_emax.
Definition f32_sub : f32 → f32 → f32 := SFsub f32_prec f32_emax.
Definition f32_div : f32 → f32 → f32 := SFdiv f32_prec f32_emax.
(** [a > b], bnb.rs:228. *)
Definition f32_gt (a b : f32) : bool := SFltb b a.
(** [n as f32] of an unsigned integer, coin_selector.rs:39, 299. *)
Definition f32_of (n : Z) : f32 := binary_normalize f32_prec f32_emax n 0 false.
(** [f32::ceil], coin_selector.rs:39, 299.  A finite number with a non-negative exponent is an integer already. *)
Definition f32_ceil (x : f32) : f32 :=
  match x with
  | S754_finite s m e =>
      if 0 <=? e then x
      else binary_normalize f32_prec f32_emax
             (if s then - (Zpos m / 2 ^ (- e)) else - (- Zpos m / 2 ^ (- e))) 0 s
  | _ => x
  end.
(** Truncation of a finite float towards zero, coin_selector.rs:129. *)
Definition trunc_pos (m : positive) (e : Z) : Z :=
  if 0 <=? e then Zpos m * 2 ^ e else Zpos m / 2 ^ (- e).
(** [x as u64], [x as i64], coin_selector.rs:39, 299: truncation, saturating at the type's bounds, 0 for NaN. *)
Definition f32_as (t : ity) (x : f32) : Z :=
  match x with
  | S754_nan | S754_zero _ => 0
  | S754_infinity s => if s then imin t else imax t
  | S754_finite s m e =>
      let z := if s then - trunc_pos m e else trunc_pos m e in
      Z.max (imin t) (Z.min (imax t) z)
  end.
(** The literal [0.25_f32], coin_selector.rs:73. *)
Definition f32_quarter : f32 := S754_finite false 8388608 (-25).
