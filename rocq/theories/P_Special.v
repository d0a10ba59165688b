(** * Special values, classification, conversions between forms *)
From Coq Require Import ZArith Reals List Bool.
From Flocq Require Import Core IEEE754.BinarySingleNaN.
From Verif Require Import F64 Prim DoubleM QuadM Spec SpecialProofs.
Import ListNotations.

(** C07.  As soon as one operand is NaN or infinite (or the product has a zero
    left operand, or the divisor is zero) the result is exactly what IEEE-754
    binary64 gives on the leading components, with a zero low component. *)
Theorem C07_add_special : forall x y,
  is_finite (d0 x) && is_finite (d0 y) = false -> d_add x y = mkD (fadd (d0 x) (d0 y)) f0.
Proof. exact d_add_special. Qed.
Print Assumptions C07_add_special.
Theorem C07_sub_special : forall x y,
  is_finite (d0 x) && is_finite (d0 y) = false -> d_sub x y = mkD (fsub (d0 x) (d0 y)) f0.
Proof. exact d_sub_special. Qed.
Print Assumptions C07_sub_special.
Theorem C07_mul_special : forall x y,
  is_finite (d0 x) && is_finite (d0 y) = false \/ feqb (d0 x) f0 = true ->
  d_mul x y = mkD (fmul (d0 x) (d0 y)) f0.
Proof. exact d_mul_special. Qed.
Print Assumptions C07_mul_special.
Theorem C07_div_special : forall x y,
  is_finite (d0 x) && is_finite (d0 y) = false \/ feqb (d0 y) f0 = true ->
  d_div x y = mkD (fdiv (d0 x) (d0 y)) f0.
Proof. exact d_div_special. Qed.
Print Assumptions C07_div_special.
(** a zero right factor gives a zero (numerically), whatever finite x *)
Theorem C07_mul_zero_right : forall x y, is_finite (d0 x) = true -> is_finite (d1 x) = true ->
  feqb (d0 y) f0 = true -> feqb (d1 y) f0 = true -> d_eq (d_mul x y) D_ZERO = true.
Proof. exact d_mul_zero_right. Qed.
Print Assumptions C07_mul_zero_right.
(** a zero dividend gives a zero *)
Theorem C07_div_zero_left : forall x y, is_finite (d0 y) = true -> is_finite (d1 y) = true ->
  feqb (d0 y) f0 = false ->
  feqb (d0 x) f0 = true -> feqb (d1 x) f0 = true -> d_eq (d_div x y) D_ZERO = true.
Proof. exact d_div_zero_left. Qed.
Print Assumptions C07_div_zero_left.
(** the sign of a zero result is not IEEE's: 1 * -0 and -0 + -0 give +0 *)
Theorem C07_zero_sign_refuted :
  d_mul D_ONE D_NEG_ZERO = D_ZERO /\ fmul f1 fn0 = fn0 /\
  d_add D_NEG_ZERO D_NEG_ZERO = D_ZERO /\ fadd fn0 fn0 = fn0.
Proof. vm_compute. repeat split; reflexivity. Qed.
Print Assumptions C07_zero_sign_refuted.
Example C07_ex : d_add (mkD finf fnan) (mkD fninf f1) = D_NAN /\
  d_div (mkD fn1 f0) D_ZERO = D_NEG_INFINITY /\ d_mul (mkD fn0 f0) D_INFINITY = D_NAN.
Proof. vm_compute. repeat split; reflexivity. Qed.

(** C08: the same for Quad *)
Theorem C08_add_special : forall x y,
  is_finite (q0 x) && is_finite (q0 y) = false -> q_add x y = mkQ (fadd (q0 x) (q0 y)) f0 f0 f0.
Proof. exact q_add_special. Qed.
Print Assumptions C08_add_special.
Theorem C08_sub_special : forall x y,
  is_finite (q0 x) && is_finite (q0 y) = false -> q_sub x y = mkQ (fsub (q0 x) (q0 y)) f0 f0 f0.
Proof. exact q_sub_special. Qed.
Print Assumptions C08_sub_special.
Theorem C08_mul_special : forall x y,
  is_finite (q0 x) && is_finite (q0 y) = false \/ feqb (q0 x) f0 = true ->
  q_mul x y = mkQ (fmul (q0 x) (q0 y)) f0 f0 f0.
Proof. exact q_mul_special. Qed.
Print Assumptions C08_mul_special.
Theorem C08_div_special : forall x y,
  is_finite (q0 x) && is_finite (q0 y) = false \/ feqb (q0 y) f0 = true ->
  q_div x y = mkQ (fdiv (q0 x) (q0 y)) f0 f0 f0.
Proof. exact q_div_special. Qed.
Print Assumptions C08_div_special.
Example C08_ex : q_div (mkQ fn1 f0 f0 f0) Q_ZERO = Q_NEG_INFINITY /\ q_mul Q_ZERO Q_INFINITY = Q_NAN /\
  q_sub Q_INFINITY Q_INFINITY = Q_NAN.
Proof. vm_compute. repeat split; reflexivity. Qed.

(** C09 is false: MAX + MAX and MAX * 2 are NaN, while f64 gives infinity *)
Theorem C09_overflow_refuted :
  exists x, DNorm x /\
    d_is_nan (d_add x x) = true /\ fadd (d0 x) (d0 x) = finf /\
    d_is_nan (d_mul x (mkD f2 f0)) = true /\ fmul (d0 x) f2 = finf.
Proof. exact overflow_refuted. Qed.
Print Assumptions C09_overflow_refuted.
(** what is true: the operators never return a finite leading component when
    the f64 operation on the leading components overflows *)
Theorem C09_overflow_not_finite_partial : forall x y,
  is_finite (d0 x) = true -> is_finite (d0 y) = true ->
  (is_finite (fadd (d0 x) (d0 y)) = false -> d_is_finite (d_add x y) = false) /\
  (is_finite (fsub (d0 x) (d0 y)) = false -> d_is_finite (d_sub x y) = false) /\
  (is_finite (fmul (d0 x) (d0 y)) = false -> d_is_finite (d_mul x y) = false).
Proof. exact overflow_not_finite. Qed.
Print Assumptions C09_overflow_not_finite_partial.

(** C50 *)
Theorem C50_classify_double : forall x,
  (* exactly one of the three *)
  (Nat.b2n (d_is_nan x) + Nat.b2n (d_is_infinite x) + Nat.b2n (d_is_finite x) = 1)%nat /\
  (* finite splits in three *)
  (Nat.b2n (d_is_finite x) = Nat.b2n (d_is_zero x) + Nat.b2n (d_is_subnormal x) + Nat.b2n (d_is_normal x))%nat /\
  d_is_sign_negative x = negb (d_is_sign_positive x) /\
  (* normal means magnitude at least 2^-1022 *)
  (d_is_normal x = true <-> is_finite (d0 x) = true /\ (bpow radix2 (-1022) <= Rabs (V (d0 x)))%R) /\
  (d_is_zero x = true <-> is_finite (d0 x) = true /\ V (d0 x) = 0%R).
Proof. exact d_classify_ok. Qed.
Print Assumptions C50_classify_double.
Theorem C50_classify_quad : forall x,
  (Nat.b2n (q_is_nan x) + Nat.b2n (q_is_infinite x) + Nat.b2n (q_is_finite x) = 1)%nat /\
  (Nat.b2n (q_is_finite x) = Nat.b2n (q_is_zero x) + Nat.b2n (q_is_subnormal x) + Nat.b2n (q_is_normal x))%nat /\
  q_is_sign_negative x = negb (q_is_sign_positive x) /\
  (q_is_normal x = true <-> is_finite (q0 x) = true /\ (bpow radix2 (-1022) <= Rabs (V (q0 x)))%R) /\
  (q_is_zero x = true <-> is_finite (q0 x) = true /\ V (q0 x) = 0%R).
Proof. exact q_classify_ok. Qed.
Print Assumptions C50_classify_quad.
(** classification looks only at the leading component *)
Theorem C50_leading_only : forall a b b' c c' d d',
  d_classify (mkD a b) = d_classify (mkD a b') /\ q_classify (mkQ a b c d) = q_classify (mkQ a b' c' d').
Proof. exact classify_leading. Qed.
Print Assumptions C50_leading_only.

(** C51 *)
Theorem C51_double_roundtrip : forall a b,
  d_to_tuple (d_new a b) = (a, b) /\ d_to_tuple (d_from_tuple (a, b)) = (a, b) /\
  (forall x, d_from_tuple (d_to_tuple x) = x) /\
  d_to_f64 (d_new a b) = a /\
  d_index (d_new a b) 0 = Val a /\ d_index (d_new a b) 1 = Val b.
Proof. exact d_roundtrip. Qed.
Print Assumptions C51_double_roundtrip.
Theorem C51_double_index_panics : forall x i, (2 <= i)%Z -> d_index x i = Panicked.
Proof. exact d_index_panics. Qed.
Print Assumptions C51_double_index_panics.
Theorem C51_double_to_f64_nearest : forall x, DNorm x -> V (d_to_f64 x) = RN (DV x).
Proof. exact d_to_f64_nearest. Qed.
Print Assumptions C51_double_to_f64_nearest.
Theorem C51_quad_roundtrip : forall a b c d,
  q_to_tuple4 (q_new a b c d) = (a, b, c, d) /\ q_to_tuple4 (q_from_tuple4 (a, b, c, d)) = (a, b, c, d) /\
  (forall x, q_from_tuple4 (q_to_tuple4 x) = x) /\
  q_to_tuple3 (q_from_tuple3 (a, b, c)) = (a, b, c) /\ q_to_tuple2 (q_from_tuple2 (a, b)) = (a, b) /\
  q_from_tuple3 (a, b, c) = q_new a b c f0 /\ q_from_tuple2 (a, b) = q_new a b f0 f0 /\
  q_to_f64 (q_new a b c d) = a /\
  q_index (q_new a b c d) 0 = Val a /\ q_index (q_new a b c d) 1 = Val b /\
  q_index (q_new a b c d) 2 = Val c /\ q_index (q_new a b c d) 3 = Val d.
Proof. exact q_roundtrip. Qed.
Print Assumptions C51_quad_roundtrip.
Theorem C51_quad_index_panics : forall x i, (4 <= i)%Z -> q_index x i = Panicked.
Proof. exact q_index_panics. Qed.
Print Assumptions C51_quad_index_panics.

(** C56 *)
Theorem C56_double_forms_agree : forall x y,
  (d_add_rr x y = d_add x y /\ d_add_vr x y = d_add x y /\ d_add_rv x y = d_add x y /\ d_add_assign x y = d_add x y) /\
  (d_sub_rr x y = d_sub x y /\ d_sub_vr x y = d_sub x y /\ d_sub_rv x y = d_sub x y /\ d_sub_assign x y = d_sub x y) /\
  (d_mul_rr x y = d_mul x y /\ d_mul_vr x y = d_mul x y /\ d_mul_rv x y = d_mul x y /\ d_mul_assign x y = d_mul x y) /\
  (d_div_rr x y = d_div x y /\ d_div_vr x y = d_div x y /\ d_div_rv x y = d_div x y /\ d_div_assign x y = d_div x y) /\
  (d_rem_rr x y = d_rem x y /\ d_rem_vr x y = d_rem x y /\ d_rem_rv x y = d_rem x y /\ d_rem_assign x y = d_rem x y) /\
  d_neg_ref x = d_neg x.
Proof. exact d_forms. Qed.
Print Assumptions C56_double_forms_agree.
Theorem C56_quad_forms_agree : forall x y,
  (q_add_rr x y = q_add x y /\ q_add_vr x y = q_add x y /\ q_add_rv x y = q_add x y /\ q_add_assign x y = q_add x y) /\
  (q_sub_rr x y = q_sub x y /\ q_sub_vr x y = q_sub x y /\ q_sub_rv x y = q_sub x y /\ q_sub_assign x y = q_sub x y) /\
  (q_mul_rr x y = q_mul x y /\ q_mul_vr x y = q_mul x y /\ q_mul_rv x y = q_mul x y /\ q_mul_assign x y = q_mul x y) /\
  (q_div_rr x y = q_div x y /\ q_div_vr x y = q_div x y /\ q_div_rv x y = q_div x y /\ q_div_assign x y = q_div x y) /\
  (q_rem_rr x y = q_rem x y /\ q_rem_vr x y = q_rem x y /\ q_rem_rv x y = q_rem x y /\ q_rem_assign x y = q_rem x y) /\
  q_neg_ref x = q_neg x.
Proof. exact q_forms. Qed.
Print Assumptions C56_quad_forms_agree.
