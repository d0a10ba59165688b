(** * Whole expressions *)
From Coq Require Import ZArith Reals List Bool Lia Lra.
From Flocq Require Import Core IEEE754.BinarySingleNaN.
From Verif Require Import RN F64 F64Facts Prim DoubleM QuadM AlgM ConstM Spec Exact Witness FromProofs Printer ConstProofs QuadSpec QAccThms QGeoAcc QGeoMul FoldThms P_Sum ExprSpec ExprProofs.
Import ListNotations.
Local Open Scope R_scope.

Lemma cost_small (n : nat) k e : (0 <= k)%Z -> (Z.of_nat n <= 2 ^ k)%Z -> (k + e <= -2)%Z -> INR n * bpow radix2 e <= / 4.
Proof.
  intros Hk H He. rewrite INR_IZR_INZ. apply IZR_le in H. change 2%Z with (radix_val radix2) in H. rewrite IZR_Zpower in H by lia.
  apply Rle_trans with (bpow radix2 k * bpow radix2 e); [apply Rmult_le_compat_r; [apply bpow_ge_0|exact H]|].
  rewrite <- bpow_plus. change (/ 4) with (bpow radix2 (-2)). now apply bpow_le.
Qed.

(** C92: a whole Double expression built with unary minus, +, -, *, / and sqrt, in any shape
    and of any size, computes its exact real value with relative error at most
    2 * 2^-101 per rounding, provided it does not cancel and stays in range *)
Theorem C92_double_expression : forall lm dbg e,
  printer lm -> d_benign e -> (Z.of_nat (d_cost e) <= 2 ^ 99)%Z ->
  exists r, d_run lm dbg e = Val r /\ DNorm r /\
    Rabs (DV r - d_real e) <= 2 * INR (d_cost e) * bpow radix2 (-101) * Rabs (d_real e).
Proof.
  intros lm dbg e PR HB HC. assert (K := cost_small _ 99 (-101) ltac:(lia) HC ltac:(lia)).
  destruct (d_expr_ok lm dbg e PR HB K) as (r & E & N & A). exists r. split; [exact E|]. split; [exact N|].
  apply relg_final; [apply bpow_ge_0|exact K|exact A].
Qed.
Print Assumptions C92_double_expression.

(** C93: the same for Quad expressions of unary minus, +, - and * *)
Theorem C93_quad_expression : forall e, q_benign e -> (Z.of_nat (q_cost e) <= 2 ^ 135)%Z ->
  QGeo (q_run e) /\ Rabs (QV (q_run e) - q_real e) <= 2 * INR (q_cost e) * bpow radix2 (-137) * Rabs (q_real e).
Proof.
  intros e HB HC. assert (K := cost_small _ 135 (-137) ltac:(lia) HC ltac:(lia)).
  destruct (q_expr_ok e HB K) as (N & A). split; [exact N|].
  apply relg_final; [apply bpow_ge_0|exact K|exact A].
Qed.
Print Assumptions C93_quad_expression.

(** C91, for products: the class closed under sums is closed under products as well *)
Theorem C91_quad_mul_closed : forall x y, QGeo x -> QGeo y ->
  Rabs (QV x) <= bpow radix2 499 -> Rabs (QV y) <= bpow radix2 499 -> bpow radix2 (-500) <= Rabs (QV x * QV y) ->
  QGeo (q_mul x y) /\ Rabs (QV (q_mul x y) - QV x * QV y) <= bpow radix2 (-146) * Rabs (QV x * QV y).
Proof. exact q_mul_geo. Qed.
Print Assumptions C91_quad_mul_closed.

(** ** concrete cases: sqrt(pi*pi + 1) / (pi - (-1)), and x*x + (-y)*x with full-width x < 0 < y *)
Lemma in790 x : / 16 <= Rabs x <= 16 -> bpow radix2 (-790) <= Rabs x <= bpow radix2 790.
Proof.
  intros H. split; [apply Rle_trans with (bpow radix2 (-4)); [apply bpow_le; lia|change (bpow radix2 (-4)) with (/ 16); lra]|].
  apply Rle_trans with (bpow radix2 4); [change (bpow radix2 4) with 16; lra|apply bpow_le; lia].
Qed.
Lemma in490 x : / 16 <= Rabs x <= 16 -> bpow radix2 (-490) <= Rabs x <= bpow radix2 490.
Proof.
  intros H. split; [apply Rle_trans with (bpow radix2 (-4)); [apply bpow_le; lia|change (bpow radix2 (-4)) with (/ 16); lra]|].
  apply Rle_trans with (bpow radix2 4); [change (bpow radix2 4) with 16; lra|apply bpow_le; lia].
Qed.
Definition ex_d : dexpr := DQuot (DRoot (DPlus (DTimes (DLeaf D_PI) (DLeaf D_PI)) (DLeaf D_ONE))) (DMinus (DLeaf D_PI) (DNeg (DLeaf D_ONE))).
Example C92_case : d_benign ex_d /\ d_cost ex_d = 6%nat.
Proof.
  split; [|reflexivity]. destruct DNorm_ONE as [N1 E1]. destruct d_PI_ok as [N2 A2].
  assert (P : 3 <= DV D_PI <= 3.3).
  { unfold approx in A2. assert (K1 : 3.1 <= PI <= 3.2) by (split; consts). rewrite (Rabs_pos_eq PI) in A2 by lra.
    assert (B : bpow radix2 (-104) <= / 1024) by (change (/ 1024) with (bpow radix2 (-10)); apply bpow_le; lia).
    assert (1 * bpow radix2 (-104) * PI <= / 1024 * 4) by (rewrite Rmult_1_l; apply Rmult_le_compat; [apply bpow_ge_0|lra|lra|lra]).
    apply Rabs_le_inv in A2. lra. }
  unfold ex_d. cbn [d_benign d_real]. rewrite E1. set (p := DV D_PI) in *. clearbody p.
  assert (Q : 9 <= p * p <= 10.9) by (split; [apply Rle_trans with (3 * 3); [lra|apply Rmult_le_compat; lra]|apply Rle_trans with (3.3 * 3.3); [apply Rmult_le_compat; lra|lra]]).
  assert (SQ : 3 <= sqrt (p * p + 1) <= 4).
  { split; [rewrite <- (sqrt_square 3) by lra; apply sqrt_le_1_alt; lra|rewrite <- (sqrt_square 4) by lra; apply sqrt_le_1_alt; lra]. }
  assert (D : 3 / 5 <= sqrt (p * p + 1) / (p - - (1)) <= 1).
  { assert (/ 5 <= / (p - - (1))) by (apply Rinv_le_contravar; lra). assert (/ (p - - (1)) <= / 4) by (apply Rinv_le_contravar; lra).
    unfold Rdiv. split; [apply Rmult_le_compat; lra|]. apply Rle_trans with (4 * / 4); [apply Rmult_le_compat; lra|lra]. }
  split; [apply in790; rewrite Rabs_pos_eq; lra|]. split.
  - split; [apply in790; rewrite Rabs_pos_eq; lra|]. split; [|lra].
    split; [apply in790; rewrite Rabs_pos_eq; lra|]. split; [|split; [|lra]].
    + split; [apply in790; rewrite Rabs_pos_eq; lra|]. split; (split; [apply in790; rewrite Rabs_pos_eq; lra|exact N2]).
    + split; [apply in790; rewrite Rabs_pos_eq; lra|exact N1].
  - split; [apply in790; rewrite Rabs_pos_eq; lra|]. split; [|split].
    + split; [apply in790; rewrite Rabs_pos_eq; lra|exact N2].
    + split; [apply in790; rewrite Rabs_Ropp, Rabs_pos_eq; lra|]. split; [apply in790; rewrite Rabs_pos_eq; lra|exact N1].
    + lra.
Qed.
Definition ex_q : qexpr := QPlus (QTimes (QLeaf w_qm_x) (QLeaf w_qm_x)) (QTimes (QNeg (QLeaf w_qm_y)) (QLeaf w_qm_x)).
Example C93_case : q_benign ex_q /\ q_cost ex_q = 2%nat.
Proof.
  split; [|reflexivity]. destruct w_qm_box as [Bx By].
  assert (Nx : QNorm w_qm_x) by (apply qnormx_ok; vm_compute; reflexivity).
  assert (Ny : QNorm w_qm_y) by (apply qnormx_ok; vm_compute; reflexivity).
  unfold ex_q. cbn [q_benign q_real]. set (a := QV w_qm_x) in *. set (b := QV w_qm_y) in *. clearbody a b.
  assert (Q1 : 0.64 <= a * a <= 0.81) by (replace (a * a) with ((- a) * (- a)) by ring; split; [apply Rle_trans with (0.8 * 0.8); [lra|apply Rmult_le_compat; lra]|apply Rle_trans with (0.9 * 0.9); [apply Rmult_le_compat; lra|lra]]).
  assert (Q2 : 0.48 <= - b * a <= 0.63) by (replace (- b * a) with (b * - a) by ring; split; [apply Rle_trans with (0.6 * 0.8); [lra|apply Rmult_le_compat; lra]|apply Rle_trans with (0.7 * 0.9); [apply Rmult_le_compat; lra|lra]]).
  split; [apply in490; rewrite Rabs_pos_eq; lra|]. split; [|split].
  - split; [apply in490; rewrite Rabs_pos_eq; lra|]. split; (split; [apply in490; rewrite Rabs_left; lra|now left]).
  - split; [apply in490; rewrite Rabs_pos_eq; lra|]. split; [|split; [apply in490; rewrite Rabs_left; lra|now left]].
    split; [apply in490; rewrite Rabs_left; lra|]. split; [apply in490; rewrite Rabs_pos_eq; lra|now left].
  - apply Rmult_lt_0_compat; lra.
Qed.
