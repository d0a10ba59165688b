(** * Where the remainder goes wrong (lemmas) *)
From Coq Require Import ZArith Reals Lra Lia List Bool.
From Flocq Require Import Core IEEE754.BinarySingleNaN.
From Verif Require Import RN F64 Prim DoubleM QuadM Spec F64Facts Exact DDivProofs ParseNum RemProofs.
Local Open Scope R_scope.

(** 2^1074 times the value, as an integer, decides equality of values *)
Lemma DInt_z x n : dnormx x = true -> zd x = (n * 2 ^ 1074)%Z -> DInt x n.
Proof.
  intros N E. split; [now apply dnormx_ok|]. rewrite zd_ok, E, mult_IZR. replace (IZR (2 ^ 1074)) with (bp 1074) by (symmetry; apply (IZR_Zpower radix2 1074); lia).
  rewrite Rmult_assoc, <- bpow_plus. change (bp (1074 + -1074)) with 1. ring.
Qed.
Definition QInt (x : Quad) (n : Z) : Prop := QNorm x /\ QV x = IZR n.
Lemma QInt_z x n : qnormx x = true -> zq x = (n * 2 ^ 1074)%Z -> QInt x n.
Proof.
  intros N E. split; [now apply qnormx_ok|]. rewrite zq_ok, E, mult_IZR. replace (IZR (2 ^ 1074)) with (bp 1074) by (symmetry; apply (IZR_Zpower radix2 1074); lia).
  rewrite Rmult_assoc, <- bpow_plus. change (bp (1074 + -1074)) with 1. ring.
Qed.
Lemma QV_z x n : zq x = (n * 2 ^ 1074)%Z -> QV x = IZR n.
Proof.
  intros E. rewrite zq_ok, E, mult_IZR. replace (IZR (2 ^ 1074)) with (bp 1074) by (symmetry; apply (IZR_Zpower radix2 1074); lia).
  rewrite Rmult_assoc, <- bpow_plus. change (bp (1074 + -1074)) with 1. ring.
Qed.

Definition w_rem_x := mkD (fofZ 30000000000000000) f0.
Definition w_rem_b := mkD (f2pow 6538550408594485 16) (fofZ (-30010)).
Definition w_rem_3b := mkD (f2pow 4903912806445863 18) (fofZ 106578).

Lemma d_rem_refuted :
  (exists x y, DInt x 1 /\ DInt y 30000000000000000 /\ DInt (d_rem x y) 30000000000000001) /\
  (exists x y, DInt x (3 * 428510439577648138950) /\ DInt y 428510439577648138950 /\ DInt (d_rem x y) 428510439577648138950).
Proof.
  split.
  - exists D_ONE, w_rem_x. split; [|split]; apply DInt_z; vm_compute; reflexivity.
  - exists w_rem_3b, w_rem_b. split; [|split]; apply DInt_z; vm_compute; reflexivity.
Qed.
Lemma q_rem_refuted : exists x y, QInt x 1 /\ QInt y 30000000000000000 /\ QInt (q_rem x y) 30000000000000001.
Proof. exists Q_ONE, (mkQ (fofZ 30000000000000000) f0 f0 f0). split; [|split]; apply QInt_z; vm_compute; reflexivity. Qed.

Lemma sums_fold :
  (d_sum nil = D_ZERO /\ d_product nil = D_ONE /\ forall l x, d_sum (l ++ x :: nil) = d_add (d_sum l) x /\ d_product (l ++ x :: nil) = d_mul (d_product l) x) /\
  (q_sum nil = Q_ZERO /\ q_product nil = Q_ONE /\ forall l x, q_sum (l ++ x :: nil) = q_add (q_sum l) x /\ q_product (l ++ x :: nil) = q_mul (q_product l) x).
Proof.
  split; (split; [reflexivity|split; [reflexivity|]]); intros l x; unfold d_sum, d_product, q_sum, q_product; now rewrite !fold_left_app.
Qed.
Lemma rem_def x y :
  (d_rem x y = d_sub x (d_mul y (d_floor (d_div x y))) /\ d_rem_rr x y = d_rem x y /\ d_rem_vr x y = d_rem x y /\ d_rem_rv x y = d_rem x y /\ d_rem_assign x y = d_rem x y).
Proof. repeat split. unfold d_rem_assign. apply d_assign_id. Qed.
Lemma q_rem_def x y :
  (q_rem x y = q_sub x (q_mul y (q_floor (q_div x y))) /\ q_rem_rr x y = q_rem x y /\ q_rem_vr x y = q_rem x y /\ q_rem_rv x y = q_rem x y /\ q_rem_assign x y = q_rem x y).
Proof. repeat split. unfold q_rem_assign. now destruct (q_rem x y). Qed.
