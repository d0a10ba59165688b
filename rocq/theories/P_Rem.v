(** * Remainder and iterator sums / products *)
From Coq Require Import ZArith Reals Lia List Bool.
From Flocq Require Import Core IEEE754.BinarySingleNaN.
From Verif Require Import F64 Prim DoubleM QuadM Spec ParseNum RemProofs RemThms.
Import ListNotations.
Local Open Scope R_scope.

(** C30.  [Z.modulo] is the floored modulus: for b > 0 it lies in [0, b), for b < 0 in (b, 0]. *)
Theorem C30_double_rem_exact_partial : forall x y a b,
  DNorm x -> DV x = IZR a -> DNorm y -> DV y = IZR b ->
  (b <> 0)%Z -> (Z.abs a <= 2 ^ 100)%Z -> (Z.abs b <= 2 ^ 50)%Z ->
  DNorm (d_rem x y) /\ DV (d_rem x y) = IZR (a mod b) /\
  ((0 < b -> 0 <= a mod b < b) /\ (b < 0 -> b < a mod b <= 0))%Z.
Proof.
  exact (fun x y a b N1 E1 N2 E2 B1 B2 B3 =>
    let K := d_rem_range x y a b (conj N1 E1) (conj N2 E2) B1 B2 B3 in conj (proj1 (proj1 K)) (conj (proj2 (proj1 K)) (proj2 K))).
Qed.
Print Assumptions C30_double_rem_exact_partial.
(** the range restriction is needed: 1 % 3e16 is 30000000000000001, and 3b % b is b for some b *)
Theorem C30_double_rem_refuted :
  (exists x y, DInt x 1 /\ DInt y 30000000000000000 /\ DInt (d_rem x y) 30000000000000001) /\
  (exists x y, DInt x (3 * 428510439577648138950) /\ DInt y 428510439577648138950 /\ DInt (d_rem x y) 428510439577648138950).
Proof. exact d_rem_refuted. Qed.
Print Assumptions C30_double_rem_refuted.
Theorem C30_quad_rem_refuted : exists x y, QInt x 1 /\ QInt y 30000000000000000 /\ QInt (q_rem x y) 30000000000000001.
Proof. exact q_rem_refuted. Qed.
Print Assumptions C30_quad_rem_refuted.
(** every operator form computes x - y * floor(x / y) *)
Theorem C30_rem_forms : forall x y,
  (d_rem x y = d_sub x (d_mul y (d_floor (d_div x y))) /\ d_rem_rr x y = d_rem x y /\ d_rem_vr x y = d_rem x y /\ d_rem_rv x y = d_rem x y /\ d_rem_assign x y = d_rem x y).
Proof. exact rem_def. Qed.
Print Assumptions C30_rem_forms.
Theorem C30_quad_rem_forms : forall x y,
  (q_rem x y = q_sub x (q_mul y (q_floor (q_div x y))) /\ q_rem_rr x y = q_rem x y /\ q_rem_vr x y = q_rem x y /\ q_rem_rv x y = q_rem x y /\ q_rem_assign x y = q_rem x y).
Proof. exact q_rem_def. Qed.
Print Assumptions C30_quad_rem_forms.
(** -(2^99 + 1) mod 7 with a two-word dividend *)
Example C30_case : DInt (mkD (f2pow (-1) 99) (fofZ (-1))) (- 2 ^ 99 - 1) /\ DInt (mkD (fofZ 7) f0) 7 /\
  DInt (d_rem (mkD (f2pow (-1) 99) (fofZ (-1))) (mkD (fofZ 7) f0)) 5 /\ ((- 2 ^ 99 - 1) mod 7 = 5)%Z.
Proof. split; [|split; [|split]]; [apply DInt_z..|]; vm_compute; reflexivity. Qed.

(** C31 *)
Theorem C31_left_folds :
  (d_sum [] = D_ZERO /\ d_product [] = D_ONE /\ forall l x, d_sum (l ++ [x]) = d_add (d_sum l) x /\ d_product (l ++ [x]) = d_mul (d_product l) x) /\
  (q_sum [] = Q_ZERO /\ q_product [] = Q_ONE /\ forall l x, q_sum (l ++ [x]) = q_add (q_sum l) x /\ q_product (l ++ [x]) = q_mul (q_product l) x).
Proof. exact sums_fold. Qed.
Print Assumptions C31_left_folds.
(** integer-valued items: exact while every partial sum stays within 2^103, in any number of items *)
Theorem C31_double_sum_exact : forall l ns,
  Forall2 (fun x n => DNorm x /\ DV x = IZR n) l ns ->
  (forall k, Z.abs (fold_left Z.add (firstn k ns) 0) <= 2 ^ 103)%Z ->
  DNorm (d_sum l) /\ DV (d_sum l) = IZR (fold_left Z.add ns 0%Z).
Proof. exact (fun l ns F P => d_sum_int l ns D_ZERO 0 D_ZERO_int F P). Qed.
Print Assumptions C31_double_sum_exact.
Theorem C31_double_product_exact : forall l ns,
  Forall2 (fun x n => DNorm x /\ DV x = IZR n) l ns -> (forall n, In n ns -> n <> 0)%Z ->
  (Z.abs (fold_left Z.mul ns 1) <= 2 ^ 102)%Z ->
  DNorm (d_product l) /\ DV (d_product l) = IZR (fold_left Z.mul ns 1%Z).
Proof.
  exact (fun l ns F NZ P => eq_ind _ (fun z => DInt (d_product l) z)
    (d_product_int l ns D_ONE 1 D_ONE_int F ltac:(lia) NZ (eq_ind_r (fun z => (Z.abs z <= 2 ^ 102)%Z) P (Z.mul_1_l _))) _ (Z.mul_1_l _)).
Qed.
Print Assumptions C31_double_product_exact.
(** a NaN item anywhere makes the result NaN *)
Theorem C31_nan : forall l m,
  (existsb d_is_nan l = true -> d_is_nan (d_sum l) = true /\ d_is_nan (d_product l) = true) /\
  (existsb q_is_nan m = true -> q_is_nan (q_sum m) = true /\ q_is_nan (q_product m) = true).
Proof. exact sums_nan. Qed.
Print Assumptions C31_nan.
Example C31_case :
  DInt (d_sum [mkD (f2pow 1 99) (fofZ 1); mkD (fofZ 5) f0; mkD (f2pow (-1) 99) f0]) 6 /\
  DInt (d_product [mkD (fofZ 12345678912345) f0; mkD (fofZ 98765432198765) f0]) (12345678912345 * 98765432198765).
Proof. split; apply DInt_z; vm_compute; reflexivity. Qed.
