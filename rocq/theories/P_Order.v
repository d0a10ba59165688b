(** * Comparison and uniqueness of representation *)
From Coq Require Import ZArith Reals List Bool.
From Flocq Require Import Core IEEE754.BinarySingleNaN.
From Verif Require Import F64 Prim DoubleM QuadM Spec Check OrderProofs.
Local Open Scope R_scope.

(** C10 *)
Theorem C10_double_order : forall x y, DNorm x -> DNorm y ->
  d_partial_cmp x y = Some (Rcompare (DV x) (DV y)) /\
  (d_eq x y = true <-> DV x = DV y) /\
  (d_lt x y = true <-> DV x < DV y) /\ (d_le x y = true <-> DV x <= DV y) /\
  (d_gt x y = true <-> DV x > DV y) /\ (d_ge x y = true <-> DV x >= DV y).
Proof. exact d_ord_ok. Qed.
Print Assumptions C10_double_order.
Theorem C10_quad_order : forall x y, QNorm x -> QNorm y ->
  q_partial_cmp x y = Some (Rcompare (QV x) (QV y)) /\
  (q_eq x y = true <-> QV x = QV y) /\
  (q_lt x y = true <-> QV x < QV y) /\ (q_le x y = true <-> QV x <= QV y) /\
  (q_gt x y = true <-> QV x > QV y) /\ (q_ge x y = true <-> QV x >= QV y).
Proof. exact q_ord_ok. Qed.
Print Assumptions C10_quad_order.

(** C11 *)
Theorem C11_double_laws : forall x y z,
  (d_eq x y = true -> d_eq y x = true) /\
  (d_eq x y = true -> d_eq y z = true -> d_eq x z = true) /\
  d_eq x x = negb (is_nan (d0 x)) && negb (is_nan (d1 x)) /\
  (d_eq x y = true <-> d_partial_cmp x y = Some Eq) /\
  d_partial_cmp y x = match d_partial_cmp x y with Some c => Some (CompOpp c) | None => None end /\
  (forall o, d_partial_cmp x y = Some o -> d_partial_cmp y z = Some o -> d_partial_cmp x z = Some o) /\
  (is_nan (d0 x) = true -> d_partial_cmp x y = None /\ d_partial_cmp y x = None).
Proof. exact d_laws. Qed.
Print Assumptions C11_double_laws.
Theorem C11_quad_laws : forall x y z,
  (q_eq x y = true -> q_eq y x = true) /\
  (q_eq x y = true -> q_eq y z = true -> q_eq x z = true) /\
  q_eq x x = negb (is_nan (q0 x)) && negb (is_nan (q1 x)) && negb (is_nan (q2 x)) && negb (is_nan (q3 x)) /\
  (q_eq x y = true <-> q_partial_cmp x y = Some Eq) /\
  q_partial_cmp y x = match q_partial_cmp x y with Some c => Some (CompOpp c) | None => None end /\
  (forall o, q_partial_cmp x y = Some o -> q_partial_cmp y z = Some o -> q_partial_cmp x z = Some o) /\
  (is_nan (q0 x) = true -> q_partial_cmp x y = None /\ q_partial_cmp y x = None).
Proof. exact q_laws. Qed.
Print Assumptions C11_quad_laws.

(** C12 *)
Theorem C12_double_unique : forall x y, DNorm x -> DNorm y -> DV x = DV y ->
  d_eq x y = true /\ V (d0 x) = V (d0 y) /\ V (d1 x) = V (d1 y).
Proof. exact d_unique. Qed.
Print Assumptions C12_double_unique.
Theorem C12_quad_unique : forall x y, QNorm x -> QNorm y -> QV x = QV y -> q_eq x y = true.
Proof. exact q_unique. Qed.
Print Assumptions C12_quad_unique.
(** the criterion |lo| <= ulp(hi)/2 of the crate's documentation is not enough *)
Theorem C12_doc_criterion_refuted : exists x y,
  DFin x /\ DFin y /\ DV x = DV y /\
  Rabs (V (d1 x)) <= / 2 * ulp radix2 (FLT_exp (-1074) 53) (V (d0 x)) /\
  Rabs (V (d1 y)) <= / 2 * ulp radix2 (FLT_exp (-1074) 53) (V (d0 y)) /\
  d_eq x y = false /\ d_lt y x = true.
Proof. exact doc_criterion_refuted. Qed.
Print Assumptions C12_doc_criterion_refuted.
Example C10_ex :
  let x := mkD (fofZ 3) (f2pow 1 (-60)) in let y := mkD (fofZ 3) (f2pow (-1) (-60)) in
  let q := mkQ (fofZ 3) (f2pow 1 (-60)) (f2pow (-1) (-120)) (f2pow 1 (-180)) in
  DNorm x /\ DNorm y /\ d_lt y x = true /\ QNorm q /\ q_lt (q_neg q) q = true.
Proof. exact order_example. Qed.
