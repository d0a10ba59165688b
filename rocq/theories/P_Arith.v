(** * Properties of Double arithmetic *)
From Coq Require Import ZArith Reals.
From Flocq Require Import Core IEEE754.BinarySingleNaN.
From Verif Require Import F64 Prim DoubleM Spec DAddProofs DMulProofs Check.
Local Open Scope R_scope.

(** C01 *)
Theorem C01_add_accurate : forall x y, DNorm x -> DNorm y ->
  Rabs (V (d0 x)) <= bpow radix2 1015 -> Rabs (V (d0 y)) <= bpow radix2 1015 ->
  DNorm (d_add x y) /\ approx (DV (d_add x y)) (DV x + DV y) 6 (-106).
Proof. exact d_add_ok. Qed.
Print Assumptions C01_add_accurate.

(** C02 *)
Theorem C02_sub_accurate : forall x y, DNorm x -> DNorm y ->
  Rabs (V (d0 x)) <= bpow radix2 1015 -> Rabs (V (d0 y)) <= bpow radix2 1015 ->
  DNorm (d_sub x y) /\ approx (DV (d_sub x y)) (DV x - DV y) 6 (-106).
Proof. exact d_sub_ok. Qed.
Print Assumptions C02_sub_accurate.

(** C03 *)
Theorem C03_mul_accurate : forall x y, DNorm x -> DNorm y ->
  (V (d0 x) * V (d0 y) = 0 \/
   bpow radix2 (-900) <= Rabs (V (d0 x) * V (d0 y)) <= bpow radix2 1015) ->
  DNorm (d_mul x y) /\ approx (DV (d_mul x y)) (DV x * DV y) 9 (-106).
Proof. exact d_mul_ok. Qed.
Print Assumptions C03_mul_accurate.

(** hypotheses are met: x = 3 + 2^-60, y = -(3 - 2^-70), heavy cancellation *)
Definition ex_x := mkD (fofZ 3) (f2pow 1 (-60)).
Definition ex_y := mkD (fofZ (-3)) (f2pow 1 (-70)).
Example ex_xy_ok : DNorm ex_x /\ DNorm ex_y /\ D15 ex_x /\ D15 ex_y /\
  mul_window (V (d0 ex_x)) (V (d0 ex_y)) /\
  d_eq (d_add ex_x ex_y) (mkD (f2pow 1025 (-70)) f0) = true.
Proof.
  refine (conj _ (conj _ (conj _ (conj _ (conj _ _))))).
  - apply dnormb_ok. vm_compute. reflexivity.
  - apply dnormb_ok. vm_compute. reflexivity.
  - apply D15_check; vm_compute; reflexivity.
  - apply D15_check; vm_compute; reflexivity.
  - apply mul_window_check; vm_compute; reflexivity.
  - vm_compute. reflexivity.
Qed.
