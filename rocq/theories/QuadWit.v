(** * Counterexamples for Quad accuracy, normal form and order (lemmas) *)
From Coq Require Import ZArith Reals Lra Lia Bool.
From Flocq Require Import Core IEEE754.BinarySingleNaN.
From Verif Require Import RN F64 Prim DoubleM QuadM Spec F64Facts Witness Exact.
Local Open Scope R_scope.

Lemma q_add_err_refuted : exists x y, QNorm x /\ QNorm y /\
  Rabs (QV (q_add x y) - (QV x + QV y)) > bp (-168) * Rabs (QV x + QV y).
Proof.
  exists w_qa_err_x, w_qa_err_y. refine (conj (qnormx_ok _ _) (conj (qnormx_ok _ _) _)); try (vm_compute; reflexivity).
  apply (sum_err_z _ _ _ 168); [lia|vm_compute; reflexivity].
Qed.
Lemma q_add_norm_refuted : exists x y, QNorm x /\ QNorm y /\ QFin (q_add x y) /\ ~ QNorm (q_add x y).
Proof.
  exists w_qa_nc_x, w_qa_nc_y. refine (conj (qnormx_ok _ _) (conj (qnormx_ok _ _) (conj _ _))); try (vm_compute; reflexivity).
  - now repeat split.
  - apply qnormx_no; vm_compute; reflexivity.
Qed.
Lemma q_mul_norm_refuted : exists x y, QNorm x /\ QNorm y /\ QFin (q_mul x y) /\ ~ QNorm (q_mul x y).
Proof.
  exists w_qm_nc_x, w_qm_nc_y. refine (conj (qnormx_ok _ _) (conj (qnormx_ok _ _) (conj _ _))); try (vm_compute; reflexivity).
  - now repeat split.
  - apply qnormx_no; vm_compute; reflexivity.
Qed.
Lemma q_div_inf_refuted : exists x y, QNorm x /\ QNorm y /\
  bp 400 <= QV x / QV y <= bp 600 /\ q_is_sign_negative (q_div x y) = true /\ q_is_finite (q_div x y) = false.
Proof.
  exists w_qd_nan_x, w_qd_nan_y. refine (conj (qnormx_ok _ _) (conj (qnormx_ok _ _) (conj _ _))); try (vm_compute; reflexivity).
  - rewrite !zq_ok. set (X := zq w_qd_nan_x). set (Y := zq w_qd_nan_y).
    assert (HY : (Y < 0)%Z) by (vm_compute; reflexivity).
    assert (H1 : (X <= 2 ^ 400 * Y)%Z) by (vm_compute; discriminate).
    assert (H2 : (2 ^ 600 * Y <= X)%Z) by (vm_compute; discriminate).
    apply IZR_lt in HY. apply IZR_le in H1, H2. rewrite mult_IZR in H1, H2. rewrite !(IZR_Zpower radix2) in H1, H2 by lia.
    assert (B := bp1074). replace (IZR X * bp (-1074) / (IZR Y * bp (-1074))) with (IZR X * / IZR Y) by (field; lra).
    assert (I : / IZR Y < 0) by now apply Rinv_lt_0_compat.
    split.
    + replace (bp 400) with (bp 400 * IZR Y * / IZR Y) by (field; lra). rewrite !(Rmult_comm _ (/ IZR Y)); apply Rmult_le_compat_neg_l; lra.
    + replace (bp 600) with (bp 600 * IZR Y * / IZR Y) by (field; lra). rewrite !(Rmult_comm _ (/ IZR Y)); apply Rmult_le_compat_neg_l; lra.
  - split; vm_compute; reflexivity.
Qed.
Lemma q_div_err_refuted : exists x y, QNorm x /\ QNorm y /\
  Rabs (V (q0 x)) <= bp 400 /\ QFin (q_div x y) /\
  Rabs (QV (q_div x y) - QV x / QV y) > bp (-40) * Rabs (QV x / QV y).
Proof.
  exists w_qd_err_x, w_qd_err_y. refine (conj (qnormx_ok _ _) (conj (qnormx_ok _ _) (conj _ (conj _ _)))); try (vm_compute; reflexivity).
  - rewrite zv_ok, Rabs_mult, <- abs_IZR. rewrite (Rabs_pos_eq (bp _)) by apply bpow_ge_0.
    assert (H : (Z.abs (zv (q0 w_qd_err_x)) <= 2 ^ 1474)%Z) by (vm_compute; discriminate).
    apply IZR_le in H. rewrite (IZR_Zpower radix2) in H by lia.
    replace (bp 400) with (bp 1474 * bp (-1074)) by (rewrite <- bpow_plus; reflexivity).
    apply Rmult_le_compat_r; auto. apply bpow_ge_0.
  - now repeat split.
  - apply (quot_err_z _ _ _ 40); [lia|vm_compute; discriminate|vm_compute; reflexivity].
Qed.
Lemma q_cmp_computed_refuted : exists x y z w, QNorm x /\ QNorm y /\ QNorm z /\ QNorm w /\
  QV (q_add z w) < QV (q_add x y) /\ q_lt (q_add x y) (q_add z w) = true /\ q_gt (q_add x y) (q_add z w) = false.
Proof.
  exists w_qa_nc_x, w_qa_nc_y, w_cmp, Q_ZERO.
  refine (conj (qnormx_ok _ _) (conj (qnormx_ok _ _) (conj (qnormx_ok _ _) (conj (qnormx_ok _ _) (conj (qlt_z _ _ _) (conj _ _))))));
  vm_compute; reflexivity.
Qed.
