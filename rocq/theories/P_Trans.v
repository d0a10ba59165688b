(** * C28, C29, C43-C48, C57, C61, C62: special values, domains and totality of
    the algebraic and transcendental functions

    A NaN is any pair (quadruple) with a NaN high word, whatever the other words
    hold; likewise for infinities and zeros.  [lm] stands for the f64 library
    functions (ln, exp, log2, atan2, to_string ...): everything here holds
    whatever they return, unless a premise says otherwise.  [dbg] is true in a
    build with overflow checks. *)
From Coq Require Import ZArith Reals Lra Lia List Bool.
From Flocq Require Import Core IEEE754.BinarySingleNaN.
From Verif Require Import RN F64 Prim DoubleM QuadM Spec F64Facts SpecialProofs LawProofs ParseM AlgM ConstM TransM TransProofs TrigProofs TransMore FromProofs TransThms Exact.
Import ListNotations.
Local Open Scope R_scope.

(** square root of zeros (unchanged), negatives (NaN) and +inf *)
Theorem C28_double_special_partial : forall lm dbg,
  (forall s l, d_sqrt lm dbg (mkD (B754_zero s) l) = Val (mkD (B754_zero s) l)) /\
  (forall x, d_is_sign_negative x = true -> d_is_zero x = false -> d_sqrt lm dbg x = Val D_NAN) /\
  (forall l, d_sqrt lm dbg (mkD finf l) = Val D_INFINITY).
Proof. exact d_sqrt_special. Qed.
Print Assumptions C28_double_special_partial.

(** the Quad root of either zero is +0 *)
Theorem C28_quad_special_partial : forall lm dbg,
  (forall s b c d, q_sqrt lm dbg (mkQ (B754_zero s) b c d) = Val Q_ZERO) /\
  (forall x, q_is_sign_negative x = true -> q_is_zero x = false -> q_sqrt lm dbg x = Val Q_NAN) /\
  (forall b c d, q_sqrt lm dbg (mkQ finf b c d) = Val Q_INFINITY).
Proof. exact q_sqrt_special. Qed.
Print Assumptions C28_quad_special_partial.

Example C28_case : forall lm dbg, d_sqrt lm dbg (mkD (fofZ (-4)) f0) = Val D_NAN.
Proof. intros. apply (proj1 (proj2 (d_sqrt_special lm dbg))); vm_compute; reflexivity. Qed.

(** n-th root: the table over zero, infinite and negative operands by sign and parity of n *)
Theorem C29_double : forall lm dbg n,
  (forall x, d_nroot lm dbg x 0 = Val D_NAN) /\ (forall x, d_nroot lm dbg x 1 = Val x) /\
  (n <> 0%Z -> n <> 1%Z -> forall s l, d_nroot lm dbg (mkD (B754_zero s) l) n =
  Val (mkD (if (n <? 0)%Z then B754_infinity (s && Z.odd n) else B754_zero (s && Z.odd n)) f0)) /\
  (n <> 0%Z -> n <> 1%Z -> forall s l, d_nroot lm dbg (mkD (B754_infinity s) l) n =
  Val (if s && Z.even n then D_NAN else mkD (if (n <? 0)%Z then B754_zero s else B754_infinity s) f0)) /\
  (n <> 0%Z -> Z.even n = true -> forall x, d_is_sign_negative x = true -> d_is_zero x = false -> d_nroot lm dbg x n = Val D_NAN) /\
  (forall x, d_is_zero x = false -> d_nroot lm dbg x 2 = d_sqrt lm dbg x).
Proof. exact d_nroot_special. Qed.
Print Assumptions C29_double.

(** the same table for Quad *)
Theorem C29_quad : forall lm dbg n,
  (forall x, q_nroot lm dbg x 0 = Val Q_NAN) /\ (forall x, q_nroot lm dbg x 1 = Val x) /\
  (n <> 0%Z -> n <> 1%Z -> forall s b c d, q_nroot lm dbg (mkQ (B754_zero s) b c d) n =
  Val (mkQ (if (n <? 0)%Z then B754_infinity (s && Z.odd n) else B754_zero (s && Z.odd n)) f0 f0 f0)) /\
  (n <> 0%Z -> n <> 1%Z -> forall s b c d, q_nroot lm dbg (mkQ (B754_infinity s) b c d) n =
  Val (if s && Z.even n then Q_NAN else mkQ (if (n <? 0)%Z then B754_zero s else B754_infinity s) f0 f0 f0)) /\
  (n <> 0%Z -> Z.even n = true -> forall x, q_is_sign_negative x = true -> q_is_zero x = false -> q_nroot lm dbg x n = Val Q_NAN) /\
  (forall x, q_is_zero x = false -> q_nroot lm dbg x 2 = q_sqrt lm dbg x).
Proof. exact q_nroot_special. Qed.
Print Assumptions C29_quad.

Example C29_case : forall lm dbg, d_nroot lm dbg (mkD fninf f0) (-3) = Val (mkD (B754_zero true) f0) /\
  d_nroot lm dbg (mkD (fofZ (-8)) f0) 4 = Val D_NAN /\ d_nroot lm dbg (mkD (B754_zero true) f0) (-3) = Val (mkD (B754_infinity true) f0).
Proof.
  intros. destruct (d_nroot_special lm dbg (-3)) as [_ [_ [A [B _]]]]. destruct (d_nroot_special lm dbg 4) as [_ [_ [_ [_ [C _]]]]].
  split; [apply B; lia|]. split; [apply C; try lia; vm_compute; reflexivity|apply A; lia].
Qed.

(** exp: NaN, zeros, infinities, the two range limits, and exp(1) = E.  [d_exp] is a total function: exp always returns *)
Theorem C43_double_special : (forall l, d_exp (mkD fnan l) = D_NAN) /\ (forall s l, d_exp (mkD (B754_zero s) l) = D_ONE) /\
  (forall l, d_exp (mkD finf l) = D_INFINITY) /\ (forall l, d_exp (mkD fninf l) = D_ZERO) /\
  (forall x, Fin (d0 x) -> V (d0 x) < -600 -> d_exp x = D_ZERO) /\
  (forall x, Fin (d0 x) -> 708 < V (d0 x) -> d_exp x = D_INFINITY) /\
  d_exp D_ONE = D_E.
Proof. exact d_exp_special. Qed.
Print Assumptions C43_double_special.

(** Quad exp *)
Theorem C43_quad_special : (forall b c d, q_exp (mkQ fnan b c d) = Q_NAN) /\ (forall s b c d, q_exp (mkQ (B754_zero s) b c d) = Q_ONE) /\
  (forall b c d, q_exp (mkQ finf b c d) = Q_INFINITY) /\ (forall b c d, q_exp (mkQ fninf b c d) = Q_ZERO) /\
  (forall x, Fin (q0 x) -> V (q0 x) < -470 -> q_exp x = Q_ZERO) /\
  (forall x, Fin (q0 x) -> 709 <= V (q0 x) -> q_exp x = Q_INFINITY) /\
  q_exp Q_ONE = Q_E.
Proof. exact q_exp_special. Qed.
Print Assumptions C43_quad_special.

Example C43_case : d_exp (mkD (fofZ (-601)) f0) = D_ZERO /\ d_exp (mkD (fofZ 709) f0) = D_INFINITY /\ q_exp (mkQ (fofZ 709) f0 f0 f0) = Q_INFINITY.
Proof.
  destruct (fofZ_exact (-601)) as [F1 V1]; [lia|]. destruct (fofZ_exact 709) as [F2 V2]; [lia|].
  split; [|split]; [apply d_exp_special|apply d_exp_special|apply q_exp_special]; cbn [d0 q0]; auto; rewrite ?V1, ?V2; lra.
Qed.

(** natural logarithm *)
Theorem C44_double_special : forall lm dbg,
  (forall l, d_ln lm dbg (mkD fnan l) = Val D_NAN) /\
  (forall x, d_is_sign_negative x = true -> d_ln lm dbg x = Val D_NAN) /\
  (forall l, d_ln lm dbg (mkD f0 l) = Val D_NEG_INFINITY) /\
  (forall l, d_ln lm dbg (mkD finf l) = Val D_INFINITY) /\
  d_ln lm dbg D_ONE = Val D_ZERO.
Proof. exact d_ln_special. Qed.
Print Assumptions C44_double_special.

(** natural logarithm, Quad *)
Theorem C44_quad_special : forall lm dbg,
  (forall b c d, q_ln lm dbg (mkQ fnan b c d) = Val Q_NAN) /\
  (forall x, q_is_sign_negative x = true -> q_ln lm dbg x = Val Q_NAN) /\
  (forall b c d, q_ln lm dbg (mkQ f0 b c d) = Val Q_NEG_INFINITY) /\
  (forall b c d, q_ln lm dbg (mkQ finf b c d) = Val Q_INFINITY) /\
  q_ln lm dbg Q_ONE = Val Q_ZERO.
Proof. exact q_ln_special. Qed.
Print Assumptions C44_quad_special.

(** log10, log2 and log with a base *)
Theorem C44_double_bases : forall lm dbg,
  (forall x, d_is_sign_negative x = true -> d_log10 lm dbg x = Val D_NAN /\ d_log2 lm dbg x = Val D_NAN) /\
  (forall l, d_log10 lm dbg (mkD fnan l) = Val D_NAN /\ d_log2 lm dbg (mkD fnan l) = Val D_NAN) /\
  (forall l, d_log10 lm dbg (mkD f0 l) = Val D_NEG_INFINITY /\ d_log2 lm dbg (mkD f0 l) = Val D_NEG_INFINITY) /\
  (forall l, d_log10 lm dbg (mkD finf l) = Val D_INFINITY /\ d_log2 lm dbg (mkD finf l) = Val D_INFINITY) /\
  d_log10 lm dbg D_ONE = Val D_ZERO /\ d_log2 lm dbg D_ONE = Val D_ZERO /\
  (forall l b, d_log lm dbg (mkD fnan l) b = Val D_NAN) /\
  (forall x b, d_is_sign_negative b = true \/ d_is_zero b = true -> d_log lm dbg x b = Val D_NAN).
Proof. exact d_log_special. Qed.
Print Assumptions C44_double_bases.

(** log10, log2 and log with a base, Quad *)
Theorem C44_quad_bases : forall lm dbg,
  (forall x, q_is_sign_negative x = true -> q_log10 lm dbg x = Val Q_NAN /\ q_log2 lm dbg x = Val Q_NAN) /\
  (forall b c d, q_log10 lm dbg (mkQ fnan b c d) = Val Q_NAN /\ q_log2 lm dbg (mkQ fnan b c d) = Val Q_NAN) /\
  (forall b c d, q_log10 lm dbg (mkQ f0 b c d) = Val Q_NEG_INFINITY /\ q_log2 lm dbg (mkQ f0 b c d) = Val Q_NEG_INFINITY) /\
  (forall b c d, q_log10 lm dbg (mkQ finf b c d) = Val Q_INFINITY /\ q_log2 lm dbg (mkQ finf b c d) = Val Q_INFINITY) /\
  q_log10 lm dbg Q_ONE = Val Q_ZERO /\ q_log2 lm dbg Q_ONE = Val Q_ZERO /\
  (forall x b c d, q_log lm dbg (mkQ fnan b c d) x = Val Q_NAN) /\
  (forall x b, q_is_sign_negative b = true \/ q_is_zero b = true -> q_log lm dbg x b = Val Q_NAN).
Proof. exact q_log_special. Qed.
Print Assumptions C44_quad_bases.

(** ln always returns: in a release build for any library, in a build with overflow checks if f64::ln is finite on positive numbers and f64::log2 of a finite number is at most 2048 *)
Theorem C44_double_total : forall lm dbg x,
  dbg = false \/ log2_bounded lm -> exists r, d_ln lm dbg x = Val r.
Proof. exact d_ln_total. Qed.
Print Assumptions C44_double_total.

(** the same for Quad *)
Theorem C44_quad_total : forall lm dbg x,
  dbg = false \/ log2_bounded lm -> exists r, q_ln lm dbg x = Val r.
Proof. exact q_ln_total. Qed.
Print Assumptions C44_quad_total.

Example C44_case : forall lm dbg, d_ln lm dbg (mkD (fofZ (-3)) f0) = Val D_NAN /\ d_log10 lm dbg (mkD (fofZ (-3)) f0) = Val D_NAN.
Proof.
  intros. split; [apply (proj1 (proj2 (d_ln_special lm dbg)))|apply (proj1 (d_log_special lm dbg))]; vm_compute; reflexivity.
Qed.
(** the premise of the totality theorem is satisfiable: a library whose log2 is exact on powers of two and 0 elsewhere would do; the simplest is constant *)
Example C44_log2_bounded_case : log2_bounded (Build_libm (fun _ => f0) (fun _ => f1) (fun _ => f0) (fun _ => f0) (fun _ _ => f0) (fun _ => [])).
Proof. split; [reflexivity|]. intros; vm_compute; reflexivity. Qed.

(** sin, cos, tan and sin_cos of non-finite arguments and zeros *)
Theorem C45_double_special : forall lm dbg,
  (forall x, d_is_finite x = false ->
  d_sin lm dbg x = Val D_NAN /\ d_cos lm dbg x = Val D_NAN /\ d_tan lm dbg x = Val D_NAN /\
  d_sin_cos lm dbg x = Val (D_NAN, D_NAN)) /\
  (forall s l, d_sin lm dbg (mkD (B754_zero s) l) = Val (mkD (B754_zero s) l) /\
  d_cos lm dbg (mkD (B754_zero s) l) = Val D_ONE /\
  d_tan lm dbg (mkD (B754_zero s) l) = Val (d_div D_ZERO D_ONE) /\
  d_sin_cos lm dbg (mkD (B754_zero s) l) = Val (D_ZERO, D_ONE)).
Proof. exact d_trig_special. Qed.
Print Assumptions C45_double_special.

(** the same for Quad *)
Theorem C45_quad_special : forall lm dbg,
  (forall x, q_is_finite x = false ->
  q_sin lm dbg x = Val Q_NAN /\ q_cos lm dbg x = Val Q_NAN /\ q_tan lm dbg x = Val Q_NAN /\
  q_sin_cos lm dbg x = Val (Q_NAN, Q_NAN)) /\
  (forall s b c d, q_sin lm dbg (mkQ (B754_zero s) b c d) = Val Q_ZERO /\
  q_cos lm dbg (mkQ (B754_zero s) b c d) = Val Q_ONE /\
  q_tan lm dbg (mkQ (B754_zero s) b c d) = Val (q_div Q_ZERO Q_ONE) /\
  q_sin_cos lm dbg (mkQ (B754_zero s) b c d) = Val (Q_ZERO, Q_ONE)).
Proof. exact q_trig_special. Qed.
Print Assumptions C45_quad_special.

(** NOT total: [D_HUGE] = 4504587281683481 * 2^150 is a finite f64, and sin, cos, tan and sin_cos of it panic (table index out of range), in every build *)
Theorem C45_double_panic_refuted : forall lm dbg,
  d_sin lm dbg D_HUGE = Panicked /\ d_cos lm dbg D_HUGE = Panicked /\ d_sin_cos lm dbg D_HUGE = Panicked /\ d_tan lm dbg D_HUGE = Panicked.
Proof. exact d_sin_cos_panic. Qed.
Print Assumptions C45_double_panic_refuted.

(** Quad: 6004799503160661 * 2^250 *)
Theorem C45_quad_panic_refuted : forall lm dbg,
  q_sin lm dbg Q_HUGE = Panicked /\ q_cos lm dbg Q_HUGE = Panicked /\ q_sin_cos lm dbg Q_HUGE = Panicked /\ q_tan lm dbg Q_HUGE = Panicked.
Proof. exact q_sin_cos_panic. Qed.
Print Assumptions C45_quad_panic_refuted.

Example C45_huge : DNorm D_HUGE /\ DV D_HUGE = 4504587281683481 * bpow radix2 150 /\ QFin Q_HUGE /\ QV Q_HUGE = 6004799503160661 * bpow radix2 250.
Proof. exact huge_values. Qed.

(** atan2(y, x) on the axes, at infinity and on the diagonals *)
Theorem C46_double : forall lm dbg,
  (* on the vertical axis: +-pi/2; at the origin NaN *)
  (forall s l y, d_atan2 lm dbg y (mkD (B754_zero s) l) =
  Val (if d_is_zero y then D_NAN else if d_is_sign_negative y then d_neg D_FRAC_PI_2 else D_FRAC_PI_2)) /\
  (* on the horizontal axis: 0 or pi *)
  (forall s l x, d_is_zero x = false -> d_atan2 lm dbg (mkD (B754_zero s) l) x =
  Val (if d_is_sign_negative x then D_PI else D_ZERO)) /\
  (* infinite ordinate, finite abscissa: +-pi/2 *)
  (forall s l x, d_is_zero x = false -> d_is_infinite x = false ->
  d_atan2 lm dbg (mkD (B754_infinity s) l) x = Val (if s then d_neg D_FRAC_PI_2 else D_FRAC_PI_2)) /\
  (* both infinite: NaN *)
  (forall s s' l l', d_atan2 lm dbg (mkD (B754_infinity s) l) (mkD (B754_infinity s') l') = Val D_NAN) /\
  (* finite ordinate, infinite abscissa *)
  (forall s l y, d_is_zero y = false -> d_is_infinite y = false -> d_atan2 lm dbg y (mkD (B754_infinity s) l) = Val D_ZERO) /\
  (* diagonals *)
  (forall x, d_is_finite x = true -> d_is_zero x = false -> d_eq x x = true ->
  d_atan2 lm dbg x x = Val (if d_is_sign_negative x then d_neg D_FRAC_3_PI_4 else D_FRAC_PI_4) /\
  d_atan2 lm dbg x (d_neg x) = Val (if d_is_sign_negative x then d_neg D_FRAC_PI_4 else D_FRAC_3_PI_4)).
Proof. exact d_atan2_special. Qed.
Print Assumptions C46_double.

(** the same for Quad *)
Theorem C46_quad : forall lm dbg,
  (forall s b c d y, q_atan2 lm dbg y (mkQ (B754_zero s) b c d) =
  Val (if q_is_zero y then Q_NAN else if q_is_sign_negative y then q_neg Q_FRAC_PI_2 else Q_FRAC_PI_2)) /\
  (forall s b c d x, q_is_zero x = false -> q_atan2 lm dbg (mkQ (B754_zero s) b c d) x =
  Val (if q_is_sign_negative x then Q_PI else Q_ZERO)) /\
  (forall s b c d x, q_is_zero x = false -> q_is_infinite x = false ->
  q_atan2 lm dbg (mkQ (B754_infinity s) b c d) x = Val (if s then q_neg Q_FRAC_PI_2 else Q_FRAC_PI_2)) /\
  (forall s s' b c d b' c' d', q_atan2 lm dbg (mkQ (B754_infinity s) b c d) (mkQ (B754_infinity s') b' c' d') = Val Q_NAN) /\
  (forall s b c d y, q_is_zero y = false -> q_is_infinite y = false -> q_atan2 lm dbg y (mkQ (B754_infinity s) b c d) = Val Q_ZERO) /\
  (forall x, q_is_finite x = true -> q_is_zero x = false -> q_eq x x = true ->
  q_atan2 lm dbg x x = Val (if q_is_sign_negative x then q_neg Q_FRAC_3_PI_4 else Q_FRAC_PI_4) /\
  q_atan2 lm dbg x (q_neg x) = Val (if q_is_sign_negative x then q_neg Q_FRAC_PI_4 else Q_FRAC_3_PI_4)).
Proof. exact q_atan2_special. Qed.
Print Assumptions C46_quad.

(** two entries of the table are wrong: the angle of (-inf, 1) should be pi and is reported as 0; the origin gives NaN *)
Theorem C46_refuted : forall lm dbg,
  (exists r, d_atan2 lm dbg D_ONE D_NEG_INFINITY = Val r /\ DV r = 0) /\ d_atan2 lm dbg D_ZERO D_ZERO = Val D_NAN /\
  (exists r, q_atan2 lm dbg Q_ONE Q_NEG_INFINITY = Val r /\ QV r = 0) /\ q_atan2 lm dbg Q_ZERO Q_ZERO = Val Q_NAN.
Proof. exact atan2_refuted. Qed.
Print Assumptions C46_refuted.

Example C46_case : forall lm dbg, d_atan2 lm dbg D_NEG_ONE (d_neg D_NEG_ONE) = Val (d_neg D_FRAC_PI_4).
Proof.
  intros. destruct (d_atan2_special lm dbg) as [_ [_ [_ [_ [_ D]]]]].
  destruct (D D_NEG_ONE) as [_ E]; [reflexivity|reflexivity|reflexivity|exact E].
Qed.

(** domains of asin, acos, acosh and atanh over all normalized values *)
Theorem C47_double : forall lm dbg,
  (forall x, DNorm x -> 1 < Rabs (DV x) -> d_asin lm dbg x = Val D_NAN /\ d_acos lm dbg x = Val D_NAN) /\
  (forall s l, d_asin lm dbg (mkD (B754_infinity s) l) = Val D_NAN /\ d_acos lm dbg (mkD (B754_infinity s) l) = Val D_NAN /\
  d_atanh lm dbg (mkD (B754_infinity s) l) = Val D_NAN) /\
  d_asin lm dbg D_ONE = Val D_FRAC_PI_2 /\ d_asin lm dbg D_NEG_ONE = Val (d_neg D_FRAC_PI_2) /\
  d_acos lm dbg D_ONE = Val D_ZERO /\ d_acos lm dbg D_NEG_ONE = Val D_PI /\
  (forall x, DNorm x -> DV x < 1 -> d_acosh lm dbg x = Val D_NAN) /\ d_acosh lm dbg D_ONE = Val D_ZERO /\
  (forall l, d_acosh lm dbg (mkD finf l) = Val D_INFINITY) /\ (forall l, d_acosh lm dbg (mkD fninf l) = Val D_NAN) /\
  (forall x, DNorm x -> 1 <= Rabs (DV x) -> d_atanh lm dbg x = Val D_NAN).
Proof. exact d_inv_domain. Qed.
Print Assumptions C47_double.

(** the same for Quad *)
Theorem C47_quad : forall lm dbg,
  (forall x, QNorm x -> 1 < Rabs (QV x) -> q_asin lm dbg x = Val Q_NAN /\ q_acos lm dbg x = Val Q_NAN) /\
  (forall s b c d, q_asin lm dbg (mkQ (B754_infinity s) b c d) = Val Q_NAN /\ q_acos lm dbg (mkQ (B754_infinity s) b c d) = Val Q_NAN /\
  q_atanh lm dbg (mkQ (B754_infinity s) b c d) = Val Q_NAN) /\
  q_asin lm dbg Q_ONE = Val Q_FRAC_PI_2 /\ q_asin lm dbg Q_NEG_ONE = Val (q_neg Q_FRAC_PI_2) /\
  q_acos lm dbg Q_ONE = Val Q_ZERO /\ q_acos lm dbg Q_NEG_ONE = Val Q_PI /\
  (forall x, QNorm x -> QV x < 1 -> q_acosh lm dbg x = Val Q_NAN) /\ q_acosh lm dbg Q_ONE = Val Q_ZERO /\
  (forall b c d, q_acosh lm dbg (mkQ finf b c d) = Val Q_INFINITY) /\ (forall b c d, q_acosh lm dbg (mkQ fninf b c d) = Val Q_NAN) /\
  (forall x, QNorm x -> 1 <= Rabs (QV x) -> q_atanh lm dbg x = Val Q_NAN).
Proof. exact q_inv_domain. Qed.
Print Assumptions C47_quad.

Example C47_case : forall lm dbg, d_asin lm dbg (mkD f1 (f2pow 1 (-80))) = Val D_NAN /\ d_acosh lm dbg (mkD f1 (f2pow (-1) (-80))) = Val D_NAN.
Proof. exact inv_domain_case. Qed.

(** sinh, cosh, tanh, asinh and sinh_cosh of NaN, zeros and infinities.  Missing: termination of the sinh loop *)
Theorem C48_double_special_partial : forall lm dbg,
  (forall l, d_sinh lm dbg (mkD fnan l) = Val D_NAN /\ d_cosh (mkD fnan l) = D_NAN /\ d_tanh lm dbg (mkD fnan l) = Val D_NAN /\
  d_sinh_cosh lm dbg (mkD fnan l) = Val (D_NAN, D_NAN)) /\
  (forall s l, d_sinh lm dbg (mkD (B754_zero s) l) = Val (mkD (B754_zero s) l) /\ d_cosh (mkD (B754_zero s) l) = D_ONE /\
  d_tanh lm dbg (mkD (B754_zero s) l) = Val D_ZERO /\ d_asinh lm dbg (mkD (B754_zero s) l) = Val (mkD (B754_zero s) l) /\
  d_sinh_cosh lm dbg (mkD (B754_zero s) l) = Val (D_ZERO, D_ONE)) /\
  (forall s l, d_sinh lm dbg (mkD (B754_infinity s) l) = Val (mkD (B754_infinity s) l) /\ d_cosh (mkD (B754_infinity s) l) = D_INFINITY /\
  d_tanh lm dbg (mkD (B754_infinity s) l) = Val (if s then D_NEG_ONE else D_ONE) /\
  d_asinh lm dbg (mkD (B754_infinity s) l) = Val (mkD (B754_infinity s) f0)).
Proof. exact d_hyper_special. Qed.
Print Assumptions C48_double_special_partial.

(** the same for Quad *)
Theorem C48_quad_special_partial : forall lm dbg,
  (forall b c d, q_sinh lm dbg (mkQ fnan b c d) = Val Q_NAN /\ q_cosh (mkQ fnan b c d) = Q_NAN /\ q_tanh lm dbg (mkQ fnan b c d) = Val Q_NAN /\
  q_sinh_cosh lm dbg (mkQ fnan b c d) = Val (Q_NAN, Q_NAN)) /\
  (forall s b c d, q_sinh lm dbg (mkQ (B754_zero s) b c d) = Val Q_ZERO /\ q_cosh (mkQ (B754_zero s) b c d) = Q_ONE /\
  q_tanh lm dbg (mkQ (B754_zero s) b c d) = Val Q_ZERO /\
  q_sinh_cosh lm dbg (mkQ (B754_zero s) b c d) = Val (Q_ZERO, Q_ONE)) /\
  (forall s b c d, q_sinh lm dbg (mkQ (B754_infinity s) b c d) = Val (mkQ (B754_infinity s) f0 f0 f0) /\ q_cosh (mkQ (B754_infinity s) b c d) = Q_INFINITY /\
  q_tanh lm dbg (mkQ (B754_infinity s) b c d) = Val (if s then Q_NEG_ONE else Q_ONE) /\
  q_asinh lm dbg (mkQ (B754_infinity s) b c d) = Val (mkQ (B754_infinity s) f0 f0 f0)).
Proof. exact q_hyper_special. Qed.
Print Assumptions C48_quad_special_partial.

(** an integral nonzero f64 becomes exactly itself with a zero low word *)
Theorem C57_double_integers : forall lm dbg a,
  Fin a -> (exists z, V a = IZR z) -> V a <> 0 -> d_from_f64 lm dbg a = Val (mkD a f0).
Proof. exact d_from_f64_int. Qed.
Print Assumptions C57_double_integers.

(** the same for Quad *)
Theorem C57_quad_integers : forall lm dbg a,
  Fin a -> (exists z, V a = IZR z) -> V a <> 0 -> q_from_f64 lm dbg a = Val (mkQ a f0 f0 f0).
Proof. exact q_from_f64_int. Qed.
Print Assumptions C57_quad_integers.

(** zeros, infinities and NaN *)
Theorem C57_special : forall lm dbg,
  d_from_f64 lm dbg f0 = Val D_ZERO /\ d_from_f64 lm dbg (fneg f0) = Val D_NEG_ZERO /\ d_from_f64 lm dbg fnan = Val D_NAN /\
  d_from_f64 lm dbg finf = Val D_INFINITY /\ d_from_f64 lm dbg fninf = Val D_NEG_INFINITY /\
  q_from_f64 lm dbg f0 = Val Q_ZERO /\ q_from_f64 lm dbg (fneg f0) = Val Q_NEG_ZERO /\ q_from_f64 lm dbg fnan = Val Q_NAN /\
  q_from_f64 lm dbg finf = Val Q_INFINITY /\ q_from_f64 lm dbg fninf = Val Q_NEG_INFINITY.
Proof. exact from_f64_special. Qed.
Print Assumptions C57_special.

Example C57_case : forall lm dbg, d_from_f64 lm dbg (f2pow 12345678901 900) = Val (mkD (f2pow 12345678901 900) f0).
Proof.
  intros. destruct (f2pow_exact 12345678901 900) as [F E]; try lia. apply d_from_f64_int; auto.
  - exists (12345678901 * 2 ^ 900)%Z. rewrite E, mult_IZR, (IZR_Zpower radix2) by lia. reflexivity.
  - rewrite E. apply Rmult_integral_contrapositive_currified; [lra|]. apply Rgt_not_eq, bpow_gt_0.
Qed.

(** powf over zero, negative, NaN, one and infinite operands *)
Theorem C61_double : forall lm dbg,
  (forall s s' l l', d_powf lm dbg (mkD (B754_zero s) l) (mkD (B754_zero s') l') = Val D_NAN) /\
  (forall s l n, d_is_zero n = false -> d_powf lm dbg (mkD (B754_zero s) l) n =
  Val (if d_is_sign_negative n then D_INFINITY else D_ZERO)) /\
  (forall x, d_is_zero x = false -> d_is_sign_negative x = true -> forall n, d_is_infinite n = false -> d_powf lm dbg x n = Val D_NAN) /\
  (forall l n, d_is_infinite n = false -> d_powf lm dbg (mkD fnan l) n = Val D_NAN) /\
  (forall s l, d_powf lm dbg D_ONE (mkD (B754_infinity s) l) = Val D_NAN) /\
  (forall x, d_is_zero x = false -> d_eq x D_ONE = false -> forall s l, d_powf lm dbg x (mkD (B754_infinity s) l) = Val (if s then D_ZERO else D_INFINITY)) /\
  (forall n, DFin n -> d_powf lm dbg D_ONE n = Val D_ONE).
Proof. exact d_powf_special. Qed.
Print Assumptions C61_double.

(** the same for Quad, without one to a finite power *)
Theorem C61_quad_partial : forall lm dbg,
  (forall s s' b c d b' c' d', q_powf lm dbg (mkQ (B754_zero s) b c d) (mkQ (B754_zero s') b' c' d') = Val Q_NAN) /\
  (forall s b c d n, q_is_zero n = false -> q_powf lm dbg (mkQ (B754_zero s) b c d) n =
  Val (if q_is_sign_negative n then Q_INFINITY else Q_ZERO)) /\
  (forall x, q_is_zero x = false -> q_is_sign_negative x = true -> forall n, q_is_infinite n = false -> q_powf lm dbg x n = Val Q_NAN) /\
  (forall b c d n, q_is_infinite n = false -> q_powf lm dbg (mkQ fnan b c d) n = Val Q_NAN) /\
  (forall s b c d, q_powf lm dbg Q_ONE (mkQ (B754_infinity s) b c d) = Val Q_NAN) /\
  (forall x, q_is_zero x = false -> q_eq x Q_ONE = false -> forall s b c d, q_powf lm dbg x (mkQ (B754_infinity s) b c d) = Val (if s then Q_ZERO else Q_INFINITY)).
Proof. exact q_powf_special. Qed.
Print Assumptions C61_quad_partial.

(** two entries are not the limits: (1/2)^(+inf) should be 0 and is +inf; 0^0 is NaN *)
Theorem C61_limits_refuted : forall lm dbg,
  d_powf lm dbg (mkD fhalf f0) D_INFINITY = Val D_INFINITY /\ d_powf lm dbg D_ZERO D_ZERO = Val D_NAN /\
  q_powf lm dbg (mkQ fhalf f0 f0 f0) Q_INFINITY = Val Q_INFINITY /\ q_powf lm dbg Q_ZERO Q_ZERO = Val Q_NAN.
Proof. exact powf_refuted. Qed.
Print Assumptions C61_limits_refuted.

(** NaN propagates through every unary function *)
Theorem C62_double : forall lm dbg l,
  d_sqrt lm dbg (mkD fnan l) = Val D_NAN /\ d_exp (mkD fnan l) = D_NAN /\ d_ln lm dbg (mkD fnan l) = Val D_NAN /\
  d_log10 lm dbg (mkD fnan l) = Val D_NAN /\ d_log2 lm dbg (mkD fnan l) = Val D_NAN /\
  d_sin lm dbg (mkD fnan l) = Val D_NAN /\ d_cos lm dbg (mkD fnan l) = Val D_NAN /\ d_tan lm dbg (mkD fnan l) = Val D_NAN /\
  d_asin lm dbg (mkD fnan l) = Val D_NAN /\ d_acos lm dbg (mkD fnan l) = Val D_NAN /\ d_atan lm dbg (mkD fnan l) = Val D_NAN /\
  d_sinh lm dbg (mkD fnan l) = Val D_NAN /\ d_cosh (mkD fnan l) = D_NAN /\ d_tanh lm dbg (mkD fnan l) = Val D_NAN /\
  d_asinh lm dbg (mkD fnan l) = Val D_NAN /\ d_acosh lm dbg (mkD fnan l) = Val D_NAN /\ d_atanh lm dbg (mkD fnan l) = Val D_NAN.
Proof. exact d_nan_out. Qed.
Print Assumptions C62_double.

(** the same for Quad; sqrt is missing (a NaN with arbitrary low words) *)
Theorem C62_quad_partial : forall lm dbg b c d,
  let x := mkQ fnan b c d in
  q_exp x = Q_NAN /\ q_ln lm dbg x = Val Q_NAN /\ q_log10 lm dbg x = Val Q_NAN /\ q_log2 lm dbg x = Val Q_NAN /\
  q_sin lm dbg x = Val Q_NAN /\ q_cos lm dbg x = Val Q_NAN /\ q_tan lm dbg x = Val Q_NAN /\
  q_asin lm dbg x = Val Q_NAN /\ q_acos lm dbg x = Val Q_NAN /\ q_atan lm dbg x = Val Q_NAN /\
  q_sinh lm dbg x = Val Q_NAN /\ q_cosh x = Q_NAN /\ q_tanh lm dbg x = Val Q_NAN /\
  q_asinh lm dbg x = Val Q_NAN /\ q_acosh lm dbg x = Val Q_NAN /\ q_atanh lm dbg x = Val Q_NAN.
Proof. exact q_nan_out. Qed.
Print Assumptions C62_quad_partial.

(** atan2 and powf do not propagate NaN *)
Theorem C62_double_refuted : forall lm dbg l,
  d_atan2 lm dbg (mkD fnan l) D_ZERO = Val D_FRAC_PI_2 /\ d_atan2 lm dbg D_ZERO (mkD fnan l) = Val D_ZERO /\
  d_atan2 lm dbg (mkD fnan l) D_NEG_INFINITY = Val D_ZERO /\
  d_powf lm dbg D_ZERO (mkD fnan l) = Val D_ZERO /\ d_powf lm dbg (mkD fnan l) D_INFINITY = Val D_INFINITY.
Proof. exact d_nan_lost. Qed.
Print Assumptions C62_double_refuted.

(** the same for Quad *)
Theorem C62_quad_refuted : forall lm dbg b c d,
  q_atan2 lm dbg (mkQ fnan b c d) Q_ZERO = Val Q_FRAC_PI_2 /\ q_atan2 lm dbg Q_ZERO (mkQ fnan b c d) = Val Q_ZERO /\
  q_atan2 lm dbg (mkQ fnan b c d) Q_NEG_INFINITY = Val Q_ZERO /\
  q_powf lm dbg Q_ZERO (mkQ fnan b c d) = Val Q_ZERO /\ q_powf lm dbg (mkQ fnan b c d) Q_INFINITY = Val Q_INFINITY.
Proof. exact q_nan_lost. Qed.
Print Assumptions C62_quad_refuted.
