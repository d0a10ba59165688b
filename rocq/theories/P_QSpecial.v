(** * Quad counterparts of the special-value theorems of P_Trans: 1^n = 1, sqrt of NaN *)
From Coq Require Import ZArith Reals List Bool.
From Flocq Require Import Core IEEE754.BinarySingleNaN.
From Verif Require Import RN F64 Prim DoubleM QuadM Spec F64Facts ParseM AlgM ConstM TransM QSpecMore.

(** one to any finite power is exactly one (trans.rs:powf, Quad) *)
Theorem C61_quad_one : forall lm dbg n, QFin n -> q_powf lm dbg Q_ONE n = Val Q_ONE.
Proof. exact q_powf_one. Qed.
Print Assumptions C61_quad_one.
(** a concrete exponent meets the hypothesis: -1/2 *)
Example C61_quad_one_case : QFin (mkQ (fneg fhalf) (fofZ 0) f0 f0).
Proof. repeat split; reflexivity. Qed.

(** the square root of a NaN is a NaN, whatever its low words are *)
Theorem C62_quad_sqrt : forall lm dbg b c d, q_sqrt lm dbg (mkQ fnan b c d) = Val Q_NAN.
Proof. exact q_sqrt_nan_any. Qed.
Print Assumptions C62_quad_sqrt.
