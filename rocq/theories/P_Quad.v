(** * Quad accuracy and order: what is true of the code, and what is false, with witnesses *)
From Coq Require Import ZArith Reals.
From Flocq Require Import Core IEEE754.BinarySingleNaN.
From Verif Require Import F64 Prim DoubleM QuadM Spec QuadSpec QuadWit Witness QMulFine QAddThms QAccThms.
Local Open Scope R_scope.

(** C52: the claim "normalised and within a small multiple of 2^-212" fails:
    error above 2^-168, and a result that is not in normal form *)
Theorem C52_add_accuracy_refuted : exists x y, QNorm x /\ QNorm y /\
  Rabs (QV (q_add x y) - (QV x + QV y)) > bpow radix2 (-168) * Rabs (QV x + QV y).
Proof. exact q_add_err_refuted. Qed.
Print Assumptions C52_add_accuracy_refuted.
Theorem C52_add_normal_refuted : exists x y, QNorm x /\ QNorm y /\ QFin (q_add x y) /\ ~ QNorm (q_add x y).
Proof. exact q_add_norm_refuted. Qed.
Print Assumptions C52_add_normal_refuted.

(** C53 *)
Theorem C53_mul_normal_refuted : exists x y, QNorm x /\ QNorm y /\ QFin (q_mul x y) /\ ~ QNorm (q_mul x y).
Proof. exact q_mul_norm_refuted. Qed.
Print Assumptions C53_mul_normal_refuted.

(** C54: a quotient between 2^400 and 2^600 comes out as minus infinity, and
    one with |x| <= 2^400 has a relative error above 2^-40 *)
Theorem C54_div_infinite_refuted : exists x y, QNorm x /\ QNorm y /\
  bpow radix2 400 <= QV x / QV y <= bpow radix2 600 /\
  q_is_sign_negative (q_div x y) = true /\ q_is_finite (q_div x y) = false.
Proof. exact q_div_inf_refuted. Qed.
Print Assumptions C54_div_infinite_refuted.
Theorem C54_div_accuracy_refuted : exists x y, QNorm x /\ QNorm y /\
  Rabs (V (q0 x)) <= bpow radix2 400 /\ QFin (q_div x y) /\
  Rabs (QV (q_div x y) - QV x / QV y) > bpow radix2 (-40) * Rabs (QV x / QV y).
Proof. exact q_div_err_refuted. Qed.
Print Assumptions C54_div_accuracy_refuted.

(** C59: two computed sums compare against the order of their real values *)
Theorem C59_order_refuted : exists x y z w, QNorm x /\ QNorm y /\ QNorm z /\ QNorm w /\
  QV (q_add z w) < QV (q_add x y) /\
  q_lt (q_add x y) (q_add z w) = true /\ q_gt (q_add x y) (q_add z w) = false.
Proof. exact q_cmp_computed_refuted. Qed.
Print Assumptions C59_order_refuted.

(** C52: what does hold.  The error of x + y is below 2^-96 (|x|+|y|) always,
    below 2^-147 (|x|+|y|) when at most 44 leading bits cancel, and below
    2^-147 |x+y| when the operands have the same sign. *)
Theorem C52_add_accuracy_partial : forall x y, QNorm x \/ QNormW x -> QNorm y \/ QNormW y ->
  Rabs (QV x) <= bpow radix2 999 -> Rabs (QV y) <= bpow radix2 999 ->
  QFin (q_add x y) /\
  Rabs (QV (q_add x y) - (QV x + QV y)) <= bpow radix2 (-96) * (Rabs (QV x) + Rabs (QV y)) /\
  (bpow radix2 (-44) * (Rabs (QV x) + Rabs (QV y)) <= Rabs (QV x + QV y) ->
   Rabs (QV (q_add x y) - (QV x + QV y)) <= bpow radix2 (-147) * (Rabs (QV x) + Rabs (QV y))) /\
  (0 <= QV x * QV y -> Rabs (QV (q_add x y) - (QV x + QV y)) <= bpow radix2 (-147) * Rabs (QV x + QV y)).
Proof. intros x y Hx Hy. exact (q_add_acc53 x y (QNorms_dec x Hx) (QNorms_dec y Hy)). Qed.
Print Assumptions C52_add_accuracy_partial.
Theorem C52_sub_accuracy_partial : forall x y, QNorm x \/ QNormW x -> QNorm y \/ QNormW y ->
  Rabs (QV x) <= bpow radix2 999 -> Rabs (QV y) <= bpow radix2 999 ->
  QFin (q_sub x y) /\
  Rabs (QV (q_sub x y) - (QV x - QV y)) <= bpow radix2 (-96) * (Rabs (QV x) + Rabs (QV y)) /\
  (bpow radix2 (-44) * (Rabs (QV x) + Rabs (QV y)) <= Rabs (QV x - QV y) ->
   Rabs (QV (q_sub x y) - (QV x - QV y)) <= bpow radix2 (-147) * (Rabs (QV x) + Rabs (QV y))) /\
  (QV x * QV y <= 0 -> Rabs (QV (q_sub x y) - (QV x - QV y)) <= bpow radix2 (-147) * Rabs (QV x - QV y)).
Proof. intros x y Hx Hy. exact (q_sub_acc53 x y (QNorms_dec x Hx) (QNorms_dec y Hy)). Qed.
Print Assumptions C52_sub_accuracy_partial.
(** the same for operands that are themselves computed and only satisfy [QDec k] *)
Theorem C52_add_accuracy_general_partial : forall k x y, (40 <= k <= 53)%Z -> QDec k x -> QDec k y ->
  Rabs (QV x) <= bpow radix2 999 -> Rabs (QV y) <= bpow radix2 999 ->
  QFin (q_add x y) /\
  Rabs (QV (q_add x y) - (QV x + QV y)) <= bpow radix2 (10 - 2 * k) * (Rabs (QV x) + Rabs (QV y)) /\
  (bpow radix2 (9 - k) * (Rabs (QV x) + Rabs (QV y)) <= Rabs (QV x + QV y) ->
   Rabs (QV (q_add x y) - (QV x + QV y)) <= bpow radix2 (12 - 3 * k) * (Rabs (QV x) + Rabs (QV y))).
Proof. exact q_add_acc. Qed.
Print Assumptions C52_add_accuracy_general_partial.
Example C52_witness : QNorm w_qa_x /\ QNorm w_qa_y /\ Rabs (QV w_qa_x) <= bpow radix2 999 /\
  Rabs (QV w_qa_y) <= bpow radix2 999 /\ 0 <= QV w_qa_x * QV w_qa_y.
Proof. exact add_acc_wit. Qed.

(** C53: the relative error of x * y is below 2^-203 = 512 * 2^-212 *)
Theorem C53_mul_accuracy : forall x y, QNorm x \/ QNormW x -> QNorm y \/ QNormW y ->
  Rabs (QV x) <= bpow radix2 499 -> Rabs (QV y) <= bpow radix2 499 -> bpow radix2 (-500) <= Rabs (QV x * QV y) ->
  QFin (q_mul x y) /\ Rabs (QV (q_mul x y) - QV x * QV y) <= bpow radix2 (-203) * Rabs (QV x * QV y).
Proof. intros x y Hx Hy. exact (q_mul_acc53 x y (QNorms_dec x Hx) (QNorms_dec y Hy)). Qed.
Print Assumptions C53_mul_accuracy.
Theorem C53_mul_accuracy_general : forall k x y, (40 <= k <= 53)%Z -> QDec k x -> QDec k y ->
  Rabs (QV x) <= bpow radix2 499 -> Rabs (QV y) <= bpow radix2 499 -> bpow radix2 (-500) <= Rabs (QV x * QV y) ->
  QFin (q_mul x y) /\ Rabs (QV (q_mul x y) - QV x * QV y) <= bpow radix2 (9 - 4 * k) * Rabs (QV x * QV y).
Proof. exact q_mul_fine. Qed.
Print Assumptions C53_mul_accuracy_general.
Example C53_witness : QNorm w_qm_x /\ QNorm w_qm_y /\ Rabs (QV w_qm_x) <= bpow radix2 499 /\
  Rabs (QV w_qm_y) <= bpow radix2 499 /\ bpow radix2 (-500) <= Rabs (QV w_qm_x * QV w_qm_y).
Proof. exact mul_acc_wit. Qed.

(** C13 for Quads: exact when the last component of one operand is above the
    third of the other and no two components tie; and x*y, y*x always agree
    to 2^-202 *)
Theorem C13_quad_add_comm_partial : forall x y, QNorm x \/ QNormW x -> QNorm y \/ QNormW y ->
  qapart x y -> Rabs (V (q2 x)) < Rabs (V (q3 y)) -> q_add x y = q_add y x.
Proof. exact q_add_comm_far. Qed.
Print Assumptions C13_quad_add_comm_partial.
Theorem C13_quad_mul_comm_partial : forall x y, QNorm x \/ QNormW x -> QNorm y \/ QNormW y ->
  Rabs (QV x) <= bpow radix2 499 -> Rabs (QV y) <= bpow radix2 499 -> bpow radix2 (-500) <= Rabs (QV x * QV y) ->
  Rabs (QV (q_mul x y) - QV (q_mul y x)) <= bpow radix2 (-202) * Rabs (QV x * QV y).
Proof. intros x y Hx Hy. exact (q_mul_comm_close x y (QNorms_dec x Hx) (QNorms_dec y Hy)). Qed.
Print Assumptions C13_quad_mul_comm_partial.
Example C13_quad_witness : QNorm w_qc_x /\ QNorm w_qc_y /\ qapart w_qc_x w_qc_y /\ Rabs (V (q2 w_qc_x)) < Rabs (V (q3 w_qc_y)).
Proof. exact comm_wit. Qed.
