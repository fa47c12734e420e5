(** Exact values of floats and rounding, for stating what binary32 arithmetic does. *)
From Verif Require Import MachineModel.

(** [x] rounded to a whole number of [2^k]s: to nearest, ties to even. *)
Definition rne (x k : Z) : Z :=
  let q := x / 2 ^ k in
  match 2 * (x mod 2 ^ k) ?= 2 ^ k with
  | Lt => q
  | Gt => q + 1
  | Eq => if Z.even q then q else q + 1
  end.

(** Exact values are scaled by 2^400.  The exponent of the last place of the float
    nearest to a positive [x]: 24 significant bits, but nothing below 2^-149. *)
Definition ulp_exp (x : Z) : Z := Z.max (Z.log2 x + 1 - 24) 251.
(** The float nearest to [x], ties to even. *)
Definition RN (x : Z) : Z := if x <=? 0 then 0 else rne x (ulp_exp x) * 2 ^ ulp_exp x.

(** [x] is a non-negative finite binary32 number of value [v / 2^400]. *)
Definition f32_is (x : f32) (v : Z) : Prop :=
  match x with
  | S754_zero _ => v = 0
  | S754_finite false m e =>
      -149 ≤ e ≤ 104 ∧ Zpos m < 2 ^ 24 ∧ (2 ^ 23 ≤ Zpos m ∨ e = -149) ∧ v = Zpos m * 2 ^ (e + 400)
  | _ => False
  end.

(** Least whole number of units not below [v]. *)
Definition up (v : Z) : Z := - (- v / 2 ^ 400).

(** The fee for [w] weight units at the rate [R / 2^400], with the two roundings to a
    float and the final rounding up that the code makes. *)
Definition fee_units (w R : Z) : Z := up (RN (RN (w * 2 ^ 400) * R / 2 ^ 400)).
