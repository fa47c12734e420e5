(** What binary32 arithmetic computes, on exact values.  A non-negative finite float
    is an integer multiple of 2^-149; values are scaled by 2^400 so that products
    of two floats are integers as well. *)
From Verif Require Import MachineModel MachineSpec.

Lemma pow2_pos k : 0 < 2 ^ k ∨ k < 0.
Proof. destruct (Z.le_gt_cases 0 k); [left; apply Z.pow_pos_nonneg; lia|by right]. Qed.
Lemma pow2_gt k : 0 ≤ k → 0 < 2 ^ k.
Proof. intros. apply Z.pow_pos_nonneg; lia. Qed.
Lemma pow2_le a b : a ≤ b → 2 ^ a ≤ 2 ^ b.
Proof. intros. apply Z.pow_le_mono_r; lia. Qed.

Lemma digits_log2 m : Zpos (digits2_pos m) = Z.log2 (Zpos m) + 1.
Proof.
  induction m as [m IH|m IH|]; simpl digits2_pos.
  - rewrite Pos2Z.inj_succ, IH, Pos2Z.inj_xI.
    rewrite Z.log2_succ_double by lia. lia.
  - rewrite Pos2Z.inj_succ, IH, Pos2Z.inj_xO.
    rewrite Z.log2_double by lia. lia.
  - done.
Qed.

(** ** Rounding an integer to a multiple of [2^k] *)

Lemma rne_0 x : 0 ≤ x → rne x 0 = x.
Proof. intros. unfold rne. change (2 ^ 0) with 1. rewrite Z.div_1_r, Z.mod_1_r. done. Qed.

Lemma rne_exact a k : 0 ≤ k → rne (a * 2 ^ k) k = a.
Proof.
  intros Hk. pose proof (pow2_gt k Hk). unfold rne.
  rewrite Z.div_mul, Z.mod_mul by lia.
  destruct (2 * 0 ?= 2 ^ k) eqn:Hc; try done.
  - apply Z.compare_eq in Hc. lia.
  - rewrite Z.compare_gt_iff in Hc. lia.
Qed.

Lemma rne_bounds x k : 0 ≤ k →
  2 * (rne x k * 2 ^ k) ≤ 2 * x + 2 ^ k ∧ 2 * x - 2 ^ k ≤ 2 * (rne x k * 2 ^ k).
Proof.
  intros Hk. pose proof (pow2_gt k Hk) as Hp. unfold rne.
  pose proof (Z.div_mod x (2 ^ k) ltac:(lia)) as Hd.
  pose proof (Z.mod_pos_bound x (2 ^ k) Hp) as Hm.
  set (q := x / 2 ^ k) in *. set (r := x mod 2 ^ k) in *. clearbody q r.
  destruct (2 * r ?= 2 ^ k) eqn:Hc.
  - apply Z.compare_eq in Hc. destruct (Z.even q); nia.
  - rewrite Z.compare_lt_iff in Hc. nia.
  - rewrite Z.compare_gt_iff in Hc. nia.
Qed.

Lemma rne_mono x y k : 0 ≤ k → x ≤ y → rne x k ≤ rne y k.
Proof.
  intros Hk Hxy. pose proof (pow2_gt k Hk) as Hp.
  pose proof (Z.div_mod x (2 ^ k) ltac:(lia)) as Hdx.
  pose proof (Z.mod_pos_bound x (2 ^ k) Hp) as Hmx.
  pose proof (Z.div_mod y (2 ^ k) ltac:(lia)) as Hdy.
  pose proof (Z.mod_pos_bound y (2 ^ k) Hp) as Hmy.
  unfold rne.
  set (qx := x / 2 ^ k) in *. set (rx := x mod 2 ^ k) in *.
  set (qy := y / 2 ^ k) in *. set (ry := y mod 2 ^ k) in *. clearbody qx rx qy ry.
  assert (qx ≤ qy) by nia.
  destruct (decide (qx = qy)) as [->|Hne].
  - assert (rx ≤ ry) by nia.
    destruct (2 * rx ?= 2 ^ k) eqn:Hcx, (2 * ry ?= 2 ^ k) eqn:Hcy;
      rewrite ?Z.compare_eq_iff, ?Z.compare_lt_iff, ?Z.compare_gt_iff in *;
      destruct (Z.even qy); lia.
  - destruct (2 * rx ?= 2 ^ k), (2 * ry ?= 2 ^ k);
      destruct (Z.even qx), (Z.even qy); lia.
Qed.

Lemma rne_scale x a b : 0 ≤ a → 0 ≤ b → rne (x * 2 ^ b) (a + b) = rne x a.
Proof.
  intros Ha Hb. pose proof (pow2_gt a Ha). pose proof (pow2_gt b Hb). unfold rne.
  rewrite Z.pow_add_r by lia. rewrite Z.div_mul_cancel_r by lia.
  rewrite Z.mul_mod_distr_r by lia.
  rewrite Z.mul_assoc, <-Zmult_compare_compat_r by lia. done.
Qed.

(** ** [shr_1] and [round_nearest_even] compute [rne] *)

Definition shr_inv (m k : Z) (rec : shr_record) : Prop :=
  ∃ rem, 0 ≤ rem < 2 ^ k ∧ m = shr_m rec * 2 ^ k + rem ∧ 0 ≤ shr_m rec ∧
    match shr_r rec, shr_s rec with
    | false, false => rem = 0
    | false, true => 0 < 2 * rem < 2 ^ k
    | true, false => 2 * rem = 2 ^ k
    | true, true => 2 ^ k < 2 * rem
    end.

Lemma shr_1_inv m k rec : 0 ≤ k → shr_inv m k rec → shr_inv m (k + 1) (shr_1 rec).
Proof.
  intros Hk (rem & Hrem & Hm & Hpos & Hc). pose proof (pow2_gt k Hk) as Hp.
  assert (H2 : 2 ^ (k + 1) = 2 * 2 ^ k) by (rewrite Z.pow_add_r by lia; change (2 ^ 1) with 2; lia).
  destruct rec as [mm r s]. cbn [shr_m shr_r shr_s] in *.
  destruct mm as [|p|p]; [| |lia].
  - exists rem. cbn. destruct r, s; cbn; rewrite H2; lia.
  - destruct p as [p|p|]; cbn [shr_1 shr_m shr_r shr_s].
    + exists (rem + 2 ^ k). rewrite H2. rewrite Pos2Z.inj_xI in Hm.
      destruct r, s; cbn; lia.
    + exists rem. rewrite H2. rewrite Pos2Z.inj_xO in Hm. destruct r, s; cbn; lia.
    + exists (rem + 2 ^ k). rewrite H2. destruct r, s; cbn; lia.
Qed.

Lemma iter_shr_inv p : ∀ m k rec, 0 ≤ k → shr_inv m k rec → shr_inv m (k + Zpos p) (iter_pos shr_1 p rec).
Proof.
  induction p as [p IH|p IH|]; intros m k rec Hk Hinv; simpl iter_pos.
  - replace (k + Zpos p~1) with (k + 1 + Zpos p + Zpos p) by lia.
    apply IH; [lia|]. apply IH; [lia|]. by apply shr_1_inv.
  - replace (k + Zpos p~0) with (k + Zpos p + Zpos p) by lia.
    apply IH; [lia|]. by apply IH.
  - by apply shr_1_inv.
Qed.

Lemma shr_inv_rne m k rec : 0 ≤ k → shr_inv m k rec →
  round_nearest_even (shr_m rec) (loc_of_shr_record rec) = rne m k.
Proof.
  intros Hk (rem & Hrem & Hm & Hpos & Hc). pose proof (pow2_gt k Hk) as Hp.
  unfold rne.
  assert (m / 2 ^ k = shr_m rec) as ->.
  { symmetry. apply (Z.div_unique m (2 ^ k) _ rem); [lia|]. rewrite Hm. lia. }
  assert (m mod 2 ^ k = rem) as ->.
  { symmetry. apply (Z.mod_unique m (2 ^ k) (shr_m rec)); [lia|]. rewrite Hm. lia. }
  destruct rec as [mm r s]. cbn [shr_m shr_r shr_s] in *.
  destruct r, s; cbn [loc_of_shr_record round_nearest_even].
  - assert (2 * rem ?= 2 ^ k = Gt) as -> by (rewrite Z.compare_gt_iff; lia). done.
  - assert (2 * rem ?= 2 ^ k = Eq) as -> by (rewrite Z.compare_eq_iff; lia). done.
  - assert (2 * rem ?= 2 ^ k = Lt) as -> by (rewrite Z.compare_lt_iff; lia). done.
  - assert (2 * rem ?= 2 ^ k = Lt) as -> by (rewrite Z.compare_lt_iff; lia). done.
Qed.

Lemma shr_rne m e n : 0 ≤ m →
  ∃ rec, shr (shr_record_of_loc m loc_Exact) e n = (rec, e + Z.max 0 n) ∧
    round_nearest_even (shr_m rec) (loc_of_shr_record rec) = rne m (Z.max 0 n) ∧
    shr_m rec = m / 2 ^ (Z.max 0 n).
Proof.
  intros Hm. cbn [shr_record_of_loc]. 
  assert (Hinv : shr_inv m 0 (Build_shr_record m false false)).
  { exists 0. change (2 ^ 0) with 1. cbn. lia. }
  destruct n as [|p|p]; cbn [shr].
  - eexists. rewrite Z.max_id, Z.add_0_r. split; [done|]. 
    rewrite (shr_inv_rne m 0 _ ltac:(lia) Hinv). split; [done|]. cbn. change (2 ^ 0) with 1. by rewrite Z.div_1_r.
  - pose proof (iter_shr_inv p m 0 _ ltac:(lia) Hinv) as Hi. rewrite Z.add_0_l in Hi.
    eexists. replace (Z.max 0 (Zpos p)) with (Zpos p) by lia. split; [done|].
    split; [exact (shr_inv_rne m (Zpos p) _ ltac:(lia) Hi)|].
    destruct Hi as (rem & Hrem & Hmm & _). apply (Z.div_unique m _ _ rem); [lia|]. rewrite Hmm at 1. lia.
  - eexists. replace (Z.max 0 (Zneg p)) with 0 by lia. rewrite Z.add_0_r. split; [done|].
    rewrite (shr_inv_rne m 0 _ ltac:(lia) Hinv). split; [done|]. cbn. change (2 ^ 0) with 1. by rewrite Z.div_1_r.
Qed.

(** ** Rounding to a float *)

Lemma ulp_exp_scale m a : 0 ≤ a → ulp_exp (Zpos m * 2 ^ a) = Z.max (Z.log2 (Zpos m) + 1 + a - 24) 251.
Proof.
  intros Ha. unfold ulp_exp. rewrite Z.log2_mul_pow2 by lia. f_equal. lia.
Qed.

Lemma RN_pos x : 0 < x → RN x = rne x (ulp_exp x) * 2 ^ ulp_exp x.
Proof. intros. unfold RN. destruct (Z.leb_spec x 0); [lia|done]. Qed.

Lemma RN_multiple m a : ulp_exp (Zpos m * 2 ^ a) ≤ a → RN (Zpos m * 2 ^ a) = Zpos m * 2 ^ a.
Proof.
  intros Ha. set (u := ulp_exp (Zpos m * 2 ^ a)) in *.
  assert (251 ≤ u) by (unfold u, ulp_exp; lia).
  pose proof (pow2_gt a ltac:(lia)).
  rewrite RN_pos by lia. fold u.
  replace (Zpos m * 2 ^ a) with (Zpos m * 2 ^ (a - u) * 2 ^ u) at 1.
  - rewrite rne_exact by lia. rewrite <-Z.mul_assoc, <-Z.pow_add_r by lia. do 2 f_equal. lia.
  - rewrite <-Z.mul_assoc, <-Z.pow_add_r by lia. do 2 f_equal. lia.
Qed.

Notation fexp32 := (fexp f32_prec f32_emax).
Lemma fexp32_eq e : fexp32 e = Z.max (e - 24) (-149).
Proof. reflexivity. Qed.

Lemma round_aux_spec m e :
  -400 ≤ e → (e ≤ -149 ∨ 24 ≤ Z.log2 (Zpos m) + 1) →
  RN (Zpos m * 2 ^ (e + 400)) < 2 ^ 528 →
  f32_is (binary_round_aux f32_prec f32_emax false (Zpos m) e loc_Exact) (RN (Zpos m * 2 ^ (e + 400))).
Proof.
  intros He Hn Hlt.
  pose proof (ulp_exp_scale m (e + 400) ltac:(lia)) as Hu.
  pose proof (Z.log2_spec (Zpos m) ltac:(lia)) as Hlog.
  pose proof (Z.log2_nonneg (Zpos m)) as Hlog0.
  set (d := Z.log2 (Zpos m) + 1) in *.
  replace (Z.succ (Z.log2 (Zpos m))) with d in Hlog by (unfold d; lia).
  replace (Z.log2 (Zpos m)) with (d - 1) in Hlog by (unfold d; lia).
  assert (Hd1 : 1 ≤ d) by (unfold d; lia).
  unfold binary_round_aux.
  unfold shr_fexp at 1. cbn [Zdigits2]. rewrite digits_log2. fold d. rewrite fexp32_eq.
  set (e1 := Z.max (d + e - 24) (-149)) in *.
  assert (Hu1 : ulp_exp (Zpos m * 2 ^ (e + 400)) = e1 + 400) by (unfold e1; lia).
  assert (Hk : 0 ≤ e1 - e) by (unfold e1; lia).
  destruct (shr_rne (Zpos m) e (e1 - e) ltac:(lia)) as (rec & -> & -> & _).
  rewrite Z.max_r by lia. replace (e + (e1 - e)) with e1 by lia.
  pose proof (pow2_gt (e + 400) ltac:(lia)) as Hpe.
  assert (HR : RN (Zpos m * 2 ^ (e + 400)) = rne (Zpos m) (e1 - e) * 2 ^ (e1 + 400)).
  { rewrite RN_pos by lia. rewrite Hu1. f_equal.
    replace (e1 + 400) with (e1 - e + (e + 400)) by lia. apply rne_scale; lia. }
  rewrite HR in *. clear HR.
  assert (Hq2 : rne (Zpos m) (e1 - e) ≤ 2 ^ 24).
  { rewrite <-(rne_exact (2 ^ 24) (e1 - e)) by lia. apply rne_mono; [lia|].
    rewrite <-Z.pow_add_r by lia. pose proof (pow2_le d (24 + (e1 - e)) ltac:(unfold e1; lia)). lia. }
  assert (Hq0 : 0 ≤ rne (Zpos m) (e1 - e)).
  { rewrite <-(rne_exact 0 (e1 - e)) by lia. apply rne_mono; lia. }
  assert (Hq1 : e1 = -149 ∨ 2 ^ 23 ≤ rne (Zpos m) (e1 - e)).
  { destruct (decide (e1 = -149)) as [|Hne]; [by left|right].
    assert (Hke : e1 - e = d - 24) by (unfold e1 in *; lia).
    rewrite <-(rne_exact (2 ^ 23) (e1 - e)) by lia. apply rne_mono; [lia|].
    rewrite <-Z.pow_add_r by lia. rewrite Hke. replace (23 + (d - 24)) with (d - 1) by lia. lia. }
  assert (He1 : -149 ≤ e1) by (unfold e1; lia).
  set (q := rne (Zpos m) (e1 - e)) in *. clearbody q.
  assert (Hmax : q ≠ 0 → e1 ≤ 104 ∧ (q = 2 ^ 24 → e1 ≤ 103)).
  { intros Hq. destruct Hq1 as [->|Hq1]; [lia|].
    split.
    - destruct (Z.le_gt_cases e1 104) as [?|Hgt]; [lia|exfalso].
      pose proof (pow2_le 505 (e1 + 400) ltac:(lia)).
      assert (2 ^ 23 * 2 ^ 505 ≤ q * 2 ^ (e1 + 400)) by (apply Z.mul_le_mono_nonneg; lia).
      change (2 ^ 528) with (2 ^ 23 * 2 ^ 505) in Hlt. lia.
    - intros ->. destruct (Z.le_gt_cases e1 103) as [?|Hgt]; [lia|exfalso].
      pose proof (pow2_le 504 (e1 + 400) ltac:(lia)).
      assert (2 ^ 24 * 2 ^ 504 ≤ 2 ^ 24 * 2 ^ (e1 + 400)) by (apply Z.mul_le_mono_nonneg; lia).
      change (2 ^ 528) with (2 ^ 24 * 2 ^ 504) in Hlt. lia. }
  clear Hlt Hlog Hu Hu1 Hn Hk.
  unfold shr_fexp.
  destruct (shr_rne q e1 (fexp32 (Zdigits2 q + e1) - e1) Hq0) as (rec' & -> & _ & ->).
  change (f32_emax - f32_prec) with 104.
  destruct q as [|q|q]; [| |lia].
  { rewrite Zdiv_0_l. cbn [f32_is]. lia. }
  destruct (Hmax ltac:(lia)) as [Hm1 Hm2]. clear Hmax.
  cbn [Zdigits2]. rewrite digits_log2, fexp32_eq.
  destruct (decide (Zpos q = 2 ^ 24)) as [Heq|Hne].
  - rewrite Heq. change (Z.log2 (2 ^ 24)) with 24.
    replace (Z.max 0 (Z.max (24 + 1 + e1 - 24) (-149) - e1)) with 1 by lia.
    change (2 ^ 24 / 2 ^ 1) with (Zpos 8388608).
    specialize (Hm2 Heq). destruct (Z.leb_spec (e1 + 1) 104); [|lia].
    cbn [f32_is]. split; [lia|]. split; [lia|]. split; [lia|].
    change (2 ^ 24) with (Zpos 8388608 * 2). rewrite <-Z.mul_assoc. f_equal.
    replace (e1 + 1 + 400) with (Z.succ (e1 + 400)) by lia. rewrite Z.pow_succ_r; lia.
  - assert (Z.log2 (Zpos q) < 24) by (apply Z.log2_lt_pow2; lia).
    pose proof (Z.log2_nonneg (Zpos q)).
    rewrite Z.max_l by lia. change (2 ^ 0) with 1. rewrite Z.div_1_r, Z.add_0_r.
    destruct (Z.leb_spec e1 104); [|lia].
    cbn [f32_is]. split; [lia|]. split; [lia|]. split; [|done].
    destruct Hq1; [by right|by left].
Qed.

Lemma shift_pos_mul d m : Zpos (shift_pos d m) = Zpos m * 2 ^ Zpos d.
Proof. rewrite shift_pos_correct. rewrite Z.mul_comm. f_equal. Qed.

Lemma round_spec m e :
  -400 ≤ e → RN (Zpos m * 2 ^ (e + 400)) < 2 ^ 528 →
  f32_is (binary_round f32_prec f32_emax false m e) (RN (Zpos m * 2 ^ (e + 400))).
Proof.
  intros He Hlt. unfold binary_round, shl_align. rewrite digits_log2, fexp32_eq.
  pose proof (Z.log2_nonneg (Zpos m)) as Hlog0.
  destruct (Z.max (Z.log2 (Zpos m) + 1 + e - 24) (-149) - e) as [|p|p] eqn:Hk.
  - apply round_aux_spec; [lia|lia|done].
  - apply round_aux_spec; [lia|lia|done].
  - set (e1 := Z.max (Z.log2 (Zpos m) + 1 + e - 24) (-149)) in *.
    assert (Hx : Zpos (shift_pos p m) * 2 ^ (e1 + 400) = Zpos m * 2 ^ (e + 400)).
    { rewrite shift_pos_mul, <-Z.mul_assoc, <-Z.pow_add_r by lia. do 2 f_equal. lia. }
    rewrite <-Hx. apply round_aux_spec.
    + lia.
    + rewrite shift_pos_mul, Z.log2_mul_pow2 by lia. lia.
    + by rewrite Hx.
Qed.

(** ** Order and error of rounding *)

Lemma ulp_exp_mono x y : x ≤ y → ulp_exp x ≤ ulp_exp y.
Proof. intros. unfold ulp_exp. pose proof (Z.log2_le_mono x y ltac:(lia)). lia. Qed.

Lemma RN_nonneg x : 0 ≤ RN x.
Proof.
  unfold RN. destruct (Z.leb_spec x 0); [lia|].
  assert (251 ≤ ulp_exp x) by (unfold ulp_exp; lia).
  pose proof (pow2_gt (ulp_exp x) ltac:(lia)).
  apply Z.mul_nonneg_nonneg; [|lia].
  rewrite <-(rne_exact 0 (ulp_exp x)) by lia. apply rne_mono; lia.
Qed.

(** Rounding stays below a power of two that is at least the exact value. *)
Lemma rne_binade x : 0 < x → rne x (ulp_exp x) ≤ 2 ^ 24.
Proof.
  intros Hx. assert (251 ≤ ulp_exp x) by (unfold ulp_exp; lia).
  pose proof (Z.log2_spec x Hx) as [_ Hl]. pose proof (Z.log2_nonneg x).
  rewrite <-(rne_exact (2 ^ 24) (ulp_exp x)) by lia. apply rne_mono; [lia|].
  rewrite <-Z.pow_add_r by lia.
  pose proof (pow2_le (Z.succ (Z.log2 x)) (24 + ulp_exp x) ltac:(unfold ulp_exp; lia)). lia.
Qed.

Lemma RN_mono x y : x ≤ y → RN x ≤ RN y.
Proof.
  intros Hxy. destruct (Z.le_gt_cases x 0) as [Hx|Hx].
  { unfold RN at 1. destruct (Z.leb_spec x 0); [|lia]. apply RN_nonneg. }
  rewrite !RN_pos by lia.
  pose proof (ulp_exp_mono x y Hxy) as Hu.
  assert (251 ≤ ulp_exp x) by (unfold ulp_exp; lia).
  destruct (decide (ulp_exp x = ulp_exp y)) as [Heq|Hne].
  - rewrite Heq. pose proof (pow2_gt (ulp_exp y) ltac:(lia)).
    apply Z.mul_le_mono_nonneg_r; [lia|]. apply rne_mono; lia.
  - pose proof (rne_binade x Hx) as Hbx.
    assert (Huy : ulp_exp y = Z.log2 y - 23) by (unfold ulp_exp in *; lia).
    assert (Hby : 2 ^ 23 ≤ rne y (ulp_exp y)).
    { rewrite <-(rne_exact (2 ^ 23) (ulp_exp y)) by lia. apply rne_mono; [lia|].
      rewrite <-Z.pow_add_r by lia. replace (23 + ulp_exp y) with (Z.log2 y) by lia.
      apply Z.log2_spec. lia. }
    pose proof (pow2_gt (ulp_exp x) ltac:(lia)).
    trans (2 ^ 24 * 2 ^ ulp_exp x); [by apply Z.mul_le_mono_nonneg_r; lia|].
    trans (2 ^ 23 * 2 ^ ulp_exp y).
    + rewrite <-!Z.pow_add_r by lia. apply pow2_le. lia.
    + pose proof (pow2_gt (ulp_exp y) ltac:(lia)). apply Z.mul_le_mono_nonneg_r; lia.
Qed.

Lemma RN_err x : 0 ≤ x → 2 * RN x ≤ 2 * x + 2 ^ ulp_exp x ∧ 2 * x - 2 ^ ulp_exp x ≤ 2 * RN x.
Proof.
  intros Hx. assert (251 ≤ ulp_exp x) by (unfold ulp_exp; lia).
  pose proof (pow2_gt (ulp_exp x) ltac:(lia)).
  destruct (decide (x = 0)) as [->|Hne]; [change (RN 0) with 0; lia|].
  rewrite RN_pos by lia. apply rne_bounds. lia.
Qed.

(** Relative error at most 2^-24 for normal numbers. *)
Lemma RN_rel x : 2 ^ 274 ≤ x → 2 ^ 24 * RN x ≤ (2 ^ 24 + 1) * x ∧ (2 ^ 24 - 1) * x ≤ 2 ^ 24 * RN x.
Proof.
  intros Hx. assert (H0 : 0 < x) by lia.
  pose proof (RN_err x ltac:(lia)) as [He1 He2].
  assert (274 ≤ Z.log2 x) by (apply Z.log2_le_pow2; lia).
  assert (Hu : ulp_exp x = Z.log2 x - 23) by (unfold ulp_exp; lia).
  pose proof (Z.log2_spec x H0) as [Hl _].
  assert (Hp : 2 ^ 23 * 2 ^ ulp_exp x ≤ x).
  { rewrite <-Z.pow_add_r by lia. replace (23 + ulp_exp x) with (Z.log2 x) by lia. done. }
  change (2 ^ 24) with 16777216. change (2 ^ 23) with 8388608 in Hp. lia.
Qed.

Lemma RN_exact n a : 251 ≤ a → 0 ≤ n < 2 ^ 24 → RN (n * 2 ^ a) = n * 2 ^ a.
Proof.
  intros Ha Hn. destruct n as [|n|n]; [done| |lia].
  apply RN_multiple. rewrite ulp_exp_scale by lia.
  assert (Z.log2 (Zpos n) < 24) by (apply Z.log2_lt_pow2; lia). lia.
Qed.

Lemma RN_pow2 a : 251 ≤ a → RN (2 ^ a) = 2 ^ a.
Proof. intros. pose proof (RN_exact 1 a H ltac:(lia)) as Hr. by rewrite Z.mul_1_l in Hr. Qed.

Lemma RN_le_pow2 x a : 251 ≤ a → x ≤ 2 ^ a → RN x ≤ 2 ^ a.
Proof. intros Ha Hx. rewrite <-(RN_pow2 a Ha). by apply RN_mono. Qed.

Lemma RN_lt_528 x a : 251 ≤ a < 528 → x ≤ 2 ^ a → RN x < 2 ^ 528.
Proof.
  intros Ha Hx. pose proof (RN_le_pow2 x a ltac:(lia) Hx).
  pose proof (Z.pow_lt_mono_r 2 a 528 ltac:(lia) ltac:(lia) ltac:(lia)). lia.
Qed.

(** ** The operations *)

Lemma f32_is_range x v : f32_is x v → 0 ≤ v < 2 ^ 528.
Proof.
  destruct x as [s|s| |[] m e]; cbn [f32_is]; try done.
  - intros ->. lia.
  - intros (He & Hm & _ & ->). pose proof (pow2_gt (e + 400) ltac:(lia)).
    split; [lia|]. pose proof (pow2_le (e + 400) 504 ltac:(lia)).
    change (2 ^ 528) with (2 ^ 24 * 2 ^ 504).
    apply Z.lt_le_trans with (2 ^ 24 * 2 ^ (e + 400)).
    + apply Z.mul_lt_mono_pos_r; lia.
    + apply Z.mul_le_mono_nonneg_l; lia.
Qed.

Lemma f32_is_RN x v : f32_is x v → RN v = v.
Proof.
  destruct x as [s|s| |[] m e]; cbn [f32_is]; try done.
  - intros ->. done.
  - intros (He & Hm & _ & ->). apply RN_exact; lia.
Qed.

Lemma f32_is_inj x v v' : f32_is x v → f32_is x v' → v = v'.
Proof. destruct x as [s|s| |[] m e]; cbn [f32_is]; try done; [congruence|]. intros (_&_&_&->) (_&_&_&->). done. Qed.

Lemma f32_of_spec n : 0 ≤ n < 2 ^ 100 → f32_is (f32_of n) (RN (n * 2 ^ 400)).
Proof.
  intros Hn. unfold f32_of, binary_normalize. destruct n as [|n|n]; [done| |lia].
  apply (round_spec n 0); [lia|]. apply (RN_lt_528 _ 500); [lia|].
  change (2 ^ 500) with (2 ^ 100 * 2 ^ 400). apply Z.mul_le_mono_nonneg_r; [|lia]. lia.
Qed.

Lemma f32_mul_spec x y X Y : f32_is x X → f32_is y Y → RN (X * Y / 2 ^ 400) < 2 ^ 528 →
  f32_is (f32_mul x y) (RN (X * Y / 2 ^ 400)).
Proof.
  destruct x as [sx|sx| |[] mx ex], y as [sy|sy| |[] my ey]; cbn [f32_is]; try done.
  - intros -> ->. done.
  - intros -> _. done.
  - intros _ ->. by rewrite Z.mul_0_r.
  - intros (Hex & Hmx & Hcx & ->) (Hey & Hmy & Hcy & ->).
    replace (Zpos mx * 2 ^ (ex + 400) * (Zpos my * 2 ^ (ey + 400)) / 2 ^ 400)
      with (Zpos (mx * my) * 2 ^ (ex + ey + 400)).
    2:{ replace (Zpos mx * 2 ^ (ex + 400) * (Zpos my * 2 ^ (ey + 400)))
          with (Zpos (mx * my) * 2 ^ (ex + ey + 400) * 2 ^ 400).
        { rewrite Z.div_mul; [done|]. lia. }
        rewrite Pos2Z.inj_mul.
        replace (Zpos mx * 2 ^ (ex + 400) * (Zpos my * 2 ^ (ey + 400)))
          with (Zpos mx * Zpos my * (2 ^ (ex + 400) * 2 ^ (ey + 400))) by ring.
        rewrite <-Z.mul_assoc, <-!Z.pow_add_r by lia. do 2 f_equal. lia. }
    intros Hlt. cbn [f32_mul SFmul xorb]. apply round_aux_spec; [lia| |done].
    destruct Hcx as [Hcx| ->], Hcy as [Hcy| ->]; [right|right|right|left; lia].
    + assert (23 ≤ Z.log2 (Zpos (mx * my))); [|lia]. apply Z.log2_le_pow2; [lia|]. nia.
    + assert (23 ≤ Z.log2 (Zpos (mx * my))); [|lia]. apply Z.log2_le_pow2; [lia|]. nia.
    + assert (23 ≤ Z.log2 (Zpos (mx * my))); [|lia]. apply Z.log2_le_pow2; [lia|]. nia.
Qed.

Lemma shl_align_val m e e' : e' ≤ e → Zpos (shl_align m e e').1 = Zpos m * 2 ^ (e - e').
Proof.
  intros. unfold shl_align. destruct (e' - e) as [|p|p] eqn:He; [|lia|]; cbn [fst].
  - replace (e - e') with 0 by lia. change (2 ^ 0) with 1. lia.
  - rewrite shift_pos_mul. do 2 f_equal. lia.
Qed.

Lemma shl_align_scaled m e e' : -400 ≤ e' ≤ e →
  Zpos (shl_align m e e').1 * 2 ^ (e' + 400) = Zpos m * 2 ^ (e + 400).
Proof.
  intros. rewrite shl_align_val by lia. rewrite <-Z.mul_assoc, <-Z.pow_add_r by lia. do 2 f_equal. lia.
Qed.

Lemma normalize_spec z e : -400 ≤ e → 0 ≤ z → RN (z * 2 ^ (e + 400)) < 2 ^ 528 →
  f32_is (binary_normalize f32_prec f32_emax z e false) (RN (z * 2 ^ (e + 400))).
Proof.
  intros He Hz. destruct z as [|p|p]; [done| |lia]. intros Hlt. by apply round_spec.
Qed.

Lemma f32_sub_spec x y X Y : f32_is x X → f32_is y Y → Y ≤ X → f32_is (f32_sub x y) (RN (X - Y)).
Proof.
  intros Hx Hy Hle.
  pose proof (f32_is_range _ _ Hx) as HX. pose proof (f32_is_range _ _ Hy) as HY.
  pose proof (f32_is_RN _ _ Hx) as HRX.
  assert (Hlt : RN (X - Y) < 2 ^ 528).
  { pose proof (RN_mono (X - Y) X ltac:(lia)). lia. }
  destruct x as [sx|sx| |[] mx ex], y as [sy|sy| |[] my ey]; cbn [f32_is] in Hx, Hy; try done.
  - subst. cbn [f32_sub SFsub]. unfold f32_sub, SFsub. by destruct (Bool.eqb sx (negb sy)).
  - subst X. destruct Hy as (? & ? & ? & ->). pose proof (pow2_gt (ey + 400) ltac:(lia)). lia.
  - subst Y. rewrite Z.sub_0_r, HRX. exact Hx.
  - destruct Hx as (Hex & Hmx & Hcx & HXe), Hy as (Hey & Hmy & Hcy & HYe).
    unfold f32_sub, SFsub. cbn [cond_Zopp].
    set (ez := Z.min ex ey).
    pose proof (shl_align_scaled mx ex ez ltac:(unfold ez; lia)) as H1.
    pose proof (shl_align_scaled my ey ez ltac:(unfold ez; lia)) as H2.
    assert (Hv : (Zpos (shl_align mx ex ez).1 - Zpos (shl_align my ey ez).1) * 2 ^ (ez + 400) = X - Y)
      by (rewrite Z.mul_sub_distr_r; lia).
    rewrite <-Hv. pose proof (pow2_gt (ez + 400) ltac:(unfold ez; lia)).
    apply normalize_spec; [unfold ez; lia|nia|]. by rewrite Hv.
Qed.

Lemma f32_add_spec x y X Y : f32_is x X → f32_is y Y → RN (X + Y) < 2 ^ 528 →
  f32_is (f32_add x y) (RN (X + Y)).
Proof.
  intros Hx Hy Hlt.
  pose proof (f32_is_RN _ _ Hx) as HRX. pose proof (f32_is_RN _ _ Hy) as HRY.
  destruct x as [sx|sx| |[] mx ex], y as [sy|sy| |[] my ey]; cbn [f32_is] in Hx, Hy; try done.
  - subst. unfold f32_add, SFadd. by destruct (Bool.eqb sx sy).
  - subst X. rewrite Z.add_0_l, HRY. exact Hy.
  - subst Y. rewrite Z.add_0_r, HRX. exact Hx.
  - destruct Hx as (Hex & Hmx & Hcx & HXe), Hy as (Hey & Hmy & Hcy & HYe).
    unfold f32_add, SFadd. cbn [cond_Zopp].
    set (ez := Z.min ex ey).
    pose proof (shl_align_scaled mx ex ez ltac:(unfold ez; lia)) as H1.
    pose proof (shl_align_scaled my ey ez ltac:(unfold ez; lia)) as H2.
    assert (Hv : (Zpos (shl_align mx ex ez).1 + Zpos (shl_align my ey ez).1) * 2 ^ (ez + 400) = X + Y)
      by (rewrite Z.mul_add_distr_r; lia).
    rewrite <-Hv. apply normalize_spec; [unfold ez; lia|lia|]. by rewrite Hv.
Qed.

Lemma pow2_400 e : -400 ≤ e ≤ 0 → 2 ^ 400 = 2 ^ (- e) * 2 ^ (e + 400).
Proof. intros. rewrite <-Z.pow_add_r by lia. f_equal. lia. Qed.

Lemma trunc_pos_spec m e : -400 ≤ e → trunc_pos m e = Zpos m * 2 ^ (e + 400) / 2 ^ 400.
Proof.
  intros He. unfold trunc_pos. destruct (Z.leb_spec 0 e).
  - rewrite Z.pow_add_r, Z.mul_assoc by lia. rewrite Z.div_mul; [done|lia].
  - pose proof (pow2_gt (- e) ltac:(lia)). pose proof (pow2_gt (e + 400) ltac:(lia)).
    rewrite (pow2_400 e) by lia. rewrite Z.div_mul_cancel_r by lia. done.
Qed.

Lemma f32_as_spec t x v : f32_is x v → f32_as t x = Z.min (imax t) (v / 2 ^ 400).
Proof.
  intros Hx. pose proof (f32_is_range _ _ Hx) as HX.
  assert (0 ≤ v / 2 ^ 400) by (apply Z.div_pos; lia).
  destruct x as [s|s| |[] m e]; cbn [f32_is] in Hx; try done.
  - subst. cbn. destruct t; cbn; reflexivity.
  - destruct Hx as (He & _ & _ & ->). cbn [f32_as]. rewrite trunc_pos_spec by lia.
    destruct t; cbn [imin imax]; lia.
Qed.

Lemma up_mul z : up (z * 2 ^ 400) = z.
Proof. unfold up. rewrite <-Z.mul_opp_l, Z.div_mul by lia. lia. Qed.
Lemma up_bounds v : v ≤ up v * 2 ^ 400 < v + 2 ^ 400.
Proof.
  unfold up. pose proof (Z.div_mod (- v) (2 ^ 400) ltac:(lia)).
  pose proof (Z.mod_pos_bound (- v) (2 ^ 400) ltac:(lia)). lia.
Qed.
Lemma up_mono v w : v ≤ w → up v ≤ up w.
Proof. intros. unfold up. pose proof (Z.div_le_mono (- w) (- v) (2 ^ 400) ltac:(lia) ltac:(lia)). lia. Qed.
Lemma up_le v z : v ≤ z * 2 ^ 400 → up v ≤ z.
Proof. intros Hv. apply up_mono in Hv. by rewrite up_mul in Hv. Qed.

Lemma f32_ceil_spec x v : f32_is x v → f32_is (f32_ceil x) (up v * 2 ^ 400).
Proof.
  destruct x as [s|s| |[] m e]; cbn [f32_is]; try done.
  - intros ->. done.
  - intros (He & Hm & Hc & ->). unfold f32_ceil. destruct (Z.leb_spec 0 e) as [H0|H0].
    + rewrite Z.pow_add_r, Z.mul_assoc by lia. rewrite up_mul. cbn [f32_is].
      rewrite Z.pow_add_r, Z.mul_assoc by lia. done.
    + assert (Hup : up (Zpos m * 2 ^ (e + 400)) = - (- Zpos m / 2 ^ (- e))).
      { unfold up. f_equal. pose proof (pow2_gt (- e) ltac:(lia)). pose proof (pow2_gt (e + 400) ltac:(lia)).
        rewrite (pow2_400 e) by lia. rewrite <-Z.mul_opp_l. rewrite Z.div_mul_cancel_r by lia. done. }
      rewrite Hup. set (z := - (- Zpos m / 2 ^ (- e))).
      pose proof (pow2_gt (- e) ltac:(lia)) as Hp.
      assert (Hz : 0 ≤ z ≤ 2 ^ 23).
      { pose proof (Z.div_mod (- Zpos m) (2 ^ (- e)) ltac:(lia)) as Hd.
        pose proof (Z.mod_pos_bound (- Zpos m) (2 ^ (- e)) ltac:(lia)) as Hmd.
        pose proof (pow2_le 1 (- e) ltac:(lia)) as Hp1. change (2 ^ 1) with 2 in Hp1.
        unfold z. change (2 ^ 23) with 8388608. change (2 ^ 24) with 16777216 in Hm. nia. }
      clearbody z.
      rewrite <-(RN_exact z 400) by lia. change 400 with (0 + 400) at 1. apply normalize_spec; [lia|lia|].
      rewrite RN_exact by lia.
      change (2 ^ 528) with (2 ^ 128 * 2 ^ 400). change (0 + 400) with 400. nia.
Qed.

(** ** Magnitudes of possibly negative floats *)

Definition f32_mag (x : f32) (v : Z) : Prop := f32_is (SFabs x) v.

Lemma f32_is_mag x v : f32_is x v → f32_mag x v.
Proof. destruct x as [s|s| |[] m e]; done. Qed.

Lemma SFabs_round_aux s m e l :
  SFabs (binary_round_aux f32_prec f32_emax s m e l) = SFabs (binary_round_aux f32_prec f32_emax false m e l).
Proof.
  unfold binary_round_aux. destruct (shr_fexp _ _ m e l) as [r1 e1].
  destruct (shr_fexp _ _ _ e1 loc_Exact) as [r2 e2].
  destruct (shr_m r2); try done. by destruct (Zle_bool _ _).
Qed.
Lemma SFabs_round s m e :
  SFabs (binary_round f32_prec f32_emax s m e) = SFabs (binary_round f32_prec f32_emax false m e).
Proof. unfold binary_round. destruct (shl_align _ _ _). apply SFabs_round_aux. Qed.

Lemma f32_is_abs x v : f32_is x v → f32_is (SFabs x) v.
Proof. destruct x as [s|s| |[] m e]; done. Qed.

Lemma normalize_mag z e : -400 ≤ e → RN (Z.abs z * 2 ^ (e + 400)) < 2 ^ 528 →
  f32_mag (binary_normalize f32_prec f32_emax z e false) (RN (Z.abs z * 2 ^ (e + 400))).
Proof.
  intros He Hlt. destruct z as [|p|p]; [done| |].
  - apply f32_is_mag. by apply round_spec.
  - unfold f32_mag. cbn [binary_normalize]. rewrite SFabs_round. apply f32_is_abs. by apply round_spec.
Qed.

Lemma f32_sub_mag x y X Y : f32_is x X → f32_is y Y → f32_mag (f32_sub x y) (RN (Z.abs (X - Y))).
Proof.
  intros Hx Hy. destruct (Z.le_gt_cases Y X) as [Hle|Hlt].
  { rewrite Z.abs_eq by lia. apply f32_is_mag. by apply f32_sub_spec. }
  rewrite Z.abs_neq by lia.
  pose proof (f32_is_range _ _ Hx) as HX. pose proof (f32_is_range _ _ Hy) as HY.
  pose proof (f32_is_RN _ _ Hy) as HRY.
  assert (Hlt' : RN (- (X - Y)) < 2 ^ 528).
  { pose proof (RN_mono (- (X - Y)) Y ltac:(lia)). lia. }
  destruct x as [sx|sx| |[] mx ex], y as [sy|sy| |[] my ey]; cbn [f32_is] in Hx, Hy; try done; try lia.
  - subst X. replace (- (0 - Y)) with Y by lia. rewrite HRY. exact Hy.
  - destruct Hx as (Hex & Hmx & Hcx & HXe), Hy as (Hey & Hmy & Hcy & HYe).
    unfold f32_sub, SFsub. cbn [cond_Zopp].
    set (ez := Z.min ex ey).
    pose proof (shl_align_scaled mx ex ez ltac:(unfold ez; lia)) as H1.
    pose proof (shl_align_scaled my ey ez ltac:(unfold ez; lia)) as H2.
    pose proof (pow2_gt (ez + 400) ltac:(unfold ez; lia)).
    assert (Hv : Z.abs (Zpos (shl_align mx ex ez).1 - Zpos (shl_align my ey ez).1) * 2 ^ (ez + 400) = - (X - Y)).
    { rewrite Z.abs_neq by nia. rewrite Z.mul_opp_l, Z.mul_sub_distr_r. lia. }
    rewrite <-Hv. apply normalize_mag; [unfold ez; lia|]. by rewrite Hv.
Qed.

Lemma SFabs_mul x y : SFabs (f32_mul x y) = SFabs (f32_mul (SFabs x) (SFabs y)).
Proof.
  destruct x as [sx|sx| |sx mx ex], y as [sy|sy| |sy my ey]; try done.
  unfold f32_mul. cbn [SFmul SFabs]. apply SFabs_round_aux.
Qed.

Lemma f32_mul_mag x y X Y : f32_mag x X → f32_mag y Y → RN (X * Y / 2 ^ 400) < 2 ^ 528 →
  f32_mag (f32_mul x y) (RN (X * Y / 2 ^ 400)).
Proof.
  intros Hx Hy Hlt. unfold f32_mag in *. rewrite SFabs_mul. apply f32_is_abs. by apply f32_mul_spec.
Qed.

Lemma f32_as_mag x v : f32_mag x v → Z.abs (f32_as I64 x) ≤ v / 2 ^ 400.
Proof.
  intros Hx. pose proof (f32_as_spec I64 _ _ Hx) as Ha. pose proof (f32_is_range _ _ Hx) as HX.
  assert (0 ≤ v / 2 ^ 400) by (apply Z.div_pos; lia).
  destruct x as [s|s| |[] m e]; cbn [SFabs f32_mag f32_is f32_as] in *; try done; cbn [imin imax] in *; try lia.
  destruct Hx as (He & _ & _ & ->). rewrite trunc_pos_spec in * by lia. lia.
Qed.

(** ** Fees *)

Lemma RN_mul_le X Y a b : 0 ≤ X ≤ 2 ^ (a + 400) → 0 ≤ Y ≤ 2 ^ (b + 400) → 0 ≤ a → 0 ≤ b → a + b < 128 →
  0 ≤ X * Y / 2 ^ 400 ≤ 2 ^ (a + b + 400) ∧ RN (X * Y / 2 ^ 400) ≤ 2 ^ (a + b + 400) ∧ RN (X * Y / 2 ^ 400) < 2 ^ 528.
Proof.
  intros HX HY Ha Hb Hab.
  assert (Hp : 0 ≤ X * Y / 2 ^ 400 ≤ 2 ^ (a + b + 400)).
  { split; [apply Z.div_pos; nia|]. apply Z.div_le_upper_bound; [lia|].
    rewrite <-Z.pow_add_r by lia. replace (400 + (a + b + 400)) with ((a + 400) + (b + 400)) by lia.
    rewrite Z.pow_add_r by lia. apply Z.mul_le_mono_nonneg; lia. }
  split; [done|]. split; [by apply RN_le_pow2; lia|]. apply (RN_lt_528 _ (a + b + 400)); lia.
Qed.

Lemma RN_weight_le w : 0 ≤ w ≤ 2 ^ 32 → 0 ≤ RN (w * 2 ^ 400) ≤ 2 ^ (32 + 400).
Proof.
  intros Hw. split; [apply RN_nonneg|]. apply RN_le_pow2; [lia|].
  rewrite Z.pow_add_r by lia. apply Z.mul_le_mono_nonneg_r; lia.
Qed.

Lemma weight_mul_spec w rate R : 0 ≤ w ≤ 2 ^ 32 → f32_is rate R → R ≤ 2 ^ 420 →
  f32_is (f32_mul (f32_of w) rate) (RN (RN (w * 2 ^ 400) * R / 2 ^ 400)) ∧
  RN (RN (w * 2 ^ 400) * R / 2 ^ 400) ≤ 2 ^ 452.
Proof.
  intros Hw Hr HR. pose proof (f32_is_range _ _ Hr). pose proof (RN_weight_le w Hw) as Hwr.
  pose proof (RN_mul_le (RN (w * 2 ^ 400)) R 32 20 Hwr ltac:(change (20 + 400) with 420; lia)) as Hm.
  destruct Hm as (Hm0 & Hm1 & Hm2); try lia.
  split; [|done]. apply f32_mul_spec; try done. apply f32_of_spec. lia.
Qed.

Lemma up_bound v a : 400 ≤ a → v ≤ 2 ^ a → up v ≤ 2 ^ (a - 400).
Proof.
  intros Ha Hv. apply up_le. rewrite <-Z.pow_add_r by lia.
  replace (a - 400 + 400) with a by lia. done.
Qed.
Lemma up_nonneg v : 0 ≤ v → 0 ≤ up v.
Proof. intros Hv. apply up_mono in Hv. change (up 0) with 0 in Hv. done. Qed.

Lemma fee_units_range w R : 0 ≤ w ≤ 2 ^ 32 → 0 ≤ R ≤ 2 ^ 420 → 0 ≤ fee_units w R ≤ 2 ^ 52.
Proof.
  intros Hw HR. pose proof (RN_weight_le w Hw) as Hwr.
  pose proof (RN_mul_le (RN (w * 2 ^ 400)) R 32 20 Hwr ltac:(change (20 + 400) with 420; lia)) as Hm.
  destruct Hm as (Hm0 & Hm1 & Hm2); try lia.
  unfold fee_units. split; [apply up_nonneg, RN_nonneg|]. apply (up_bound _ 452); [lia|done].
Qed.

Lemma weight_fee_as t w rate R : 0 ≤ w ≤ 2 ^ 32 → f32_is rate R → R ≤ 2 ^ 420 → t = U64 ∨ t = I64 →
  f32_as t (f32_ceil (f32_mul (f32_of w) rate)) = fee_units w R.
Proof.
  intros Hw Hr HR Ht. pose proof (f32_is_range _ _ Hr).
  destruct (weight_mul_spec w rate R Hw Hr HR) as [Hm _]. apply f32_ceil_spec in Hm.
  rewrite (f32_as_spec t _ _ Hm). fold (fee_units w R). rewrite Z.div_mul by lia.
  pose proof (fee_units_range w R Hw ltac:(lia)). destruct Ht as [-> | ->]; cbn [imax]; lia.
Qed.

Lemma fee_units_mono w w' R : w ≤ w' → 0 ≤ R → fee_units w R ≤ fee_units w' R.
Proof.
  intros Hw HR. unfold fee_units. apply up_mono, RN_mono, Z.div_le_mono; [lia|].
  apply Z.mul_le_mono_nonneg_r; [done|]. apply RN_mono. lia.
Qed.
