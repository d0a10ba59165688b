(** * C49, C65, C66: constants and tables *)
From Coq Require Import ZArith Reals List Arith Factorial.
From Flocq Require Import Core.
From Verif Require Import F64 Prim DoubleM QuadM Spec ConstM ConstSpec ConstProofs ConstMore TableProofs TableQuad.
Local Open Scope R_scope.

(** C49: every published constant, paired in ConstSpec.v with the real number it
    stands for, is normalised and within 2^-104 (Double) or 2^-212 (Quad) of it *)
Theorem C49_double_constants : Forall (fun '(c, r) => DNorm c /\ approx (DV c) r 1 (-104)) double_consts.
Proof. exact double_consts_ok. Qed.
Print Assumptions C49_double_constants.
Theorem C49_quad_constants : Forall (fun '(c, r) => QNorm c /\ approx (QV c) r 1 (-212)) quad_consts.
Proof. exact quad_consts_ok. Qed.
Print Assumptions C49_quad_constants.
Example C49_witness : In (D_PI, PI) double_consts /\ In (Q_LN_2, ln 2) quad_consts.
Proof. split; cbv [double_consts quad_consts In]; tauto. Qed.

(** C65: MAX and MIN bound every normalised value and are negatives of each
    other; MIN_POSITIVE and EPSILON *)
Theorem C65_double_max : DNorm D_MAX /\ D_MIN = d_neg D_MAX /\ forall x, DNorm x -> DV D_MIN <= DV x <= DV D_MAX.
Proof. exact d_max_ok. Qed.
Print Assumptions C65_double_max.
Theorem C65_quad_max : QNormW Q_MAX /\ Q_MIN = q_neg Q_MAX /\ forall x, QNormW x -> QV Q_MIN <= QV x <= QV Q_MAX.
Proof. exact q_max_ok. Qed.
Print Assumptions C65_quad_max.
Theorem C65_min_positive : DV D_MIN_POSITIVE = bpow radix2 (-1022) /\ QV Q_MIN_POSITIVE = bpow radix2 (-863).
Proof. exact min_positive_ok. Qed.
Print Assumptions C65_min_positive.
(** the source comments Double::EPSILON as 2^-104; the literal is a little less *)
Theorem C65_double_epsilon_refuted : DV D_EPSILON <> bpow radix2 (-104) /\
  Rabs (DV D_EPSILON - bpow radix2 (-104)) <= bpow radix2 (-49) * bpow radix2 (-104).
Proof. exact d_epsilon_refuted. Qed.
Print Assumptions C65_double_epsilon_refuted.
Theorem C65_quad_epsilon : QNorm Q_EPSILON /\ Rabs (QV Q_EPSILON - bpow radix2 (-209)) <= bpow radix2 (-217) * bpow radix2 (-209).
Proof. exact q_epsilon_ok. Qed.
Print Assumptions C65_quad_epsilon.

(** C66: the tables behind exp, sin and cos *)
Theorem C66_double_inverse_factorials : length D_INV_FACTS = 15%nat /\
  forall i, (i < 15)%nat -> approx (DV (nth i D_INV_FACTS D_ZERO)) (/ INR (fact (i + 3))) 1 (-104).
Proof. exact d_inv_facts_ok. Qed.
Print Assumptions C66_double_inverse_factorials.
Theorem C66_quad_inverse_factorials : length Q_INV_FACTS = 15%nat /\
  forall i, (i < 15)%nat -> approx (QV (nth i Q_INV_FACTS Q_ZERO)) (/ INR (fact (i + 3))) 1 (-212).
Proof. exact q_inv_facts_ok. Qed.
Print Assumptions C66_quad_inverse_factorials.
Theorem C66_double_sines : length D_SINES = 4%nat /\
  forall i, (i < 4)%nat -> approx (DV (nth i D_SINES D_ZERO)) (sin (INR (i + 1) * PI / 16)) 1 (-104).
Proof. exact d_sines_ok. Qed.
Print Assumptions C66_double_sines.
Theorem C66_double_cosines : length D_COSINES = 4%nat /\
  forall i, (i < 4)%nat -> approx (DV (nth i D_COSINES D_ZERO)) (cos (INR (i + 1) * PI / 16)) 1 (-104).
Proof. exact d_cosines_ok. Qed.
Print Assumptions C66_double_cosines.
Theorem C66_quad_sines_cosines : length Q_SINES = 256%nat /\ length Q_COSINES = 256%nat /\ forall i, (i < 256)%nat ->
  approx (QV (nth i Q_SINES Q_ZERO)) (sin (INR (i + 1) * PI / 1024)) 1 (-210) /\
  approx (QV (nth i Q_COSINES Q_ZERO)) (cos (INR (i + 1) * PI / 1024)) 1 (-210).
Proof. exact quad_tables_ok. Qed.
Print Assumptions C66_quad_sines_cosines.
