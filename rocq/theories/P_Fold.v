(** * Sums, products, squares and powers of any length *)
From Coq Require Import ZArith Reals List Bool Lia Lra.
From Flocq Require Import Core IEEE754.BinarySingleNaN.
From Verif Require Import RN F64 F64Facts Prim DoubleM QuadM Spec Exact Witness QuadSpec QAccThms QAddAcc QFallThms QSqrAcc QPowProofs FoldSpec FoldProofs FoldThms.
Import ListNotations.
Local Open Scope R_scope.

(** a sequence length as a real number *)
Lemma len_small (n : nat) c k m : (Z.of_nat n <= 2 ^ k)%Z -> (0 <= k)%Z -> 0 <= c -> c * bpow radix2 k <= m -> INR n * c <= m.
Proof.
  intros H Hk Hc Hm. rewrite INR_IZR_INZ. apply IZR_le in H. change 2%Z with (radix_val radix2) in H. rewrite IZR_Zpower in H by exact Hk.
  apply Rle_trans with (bpow radix2 k * c); [apply Rmult_le_compat_r; assumption|lra].
Qed.

(** C84: Iterator::sum of Doubles.  n values whose absolute values add up to at
    most 2^1010: the sum is canonical and its error is at most n * 12 * 2^-106
    times the sum of the absolute values *)
Theorem C84_double_sum : forall l, Forall DNorm l -> (Z.of_nat (length l) <= 2 ^ 100)%Z ->
  rsum (map (fun x => Rabs (DV x)) l) <= bpow radix2 1010 ->
  DNorm (d_sum l) /\
  Rabs (DV (d_sum l) - rsum (map DV l)) <= INR (length l) * (12 * bpow radix2 (-106)) * rsum (map (fun x => Rabs (DV x)) l).
Proof.
  intros l H Hn HB. apply d_sum_ok; auto. apply (len_small _ _ 100); auto; [lia| |].
  - assert (K := bpow_gt_0 radix2 (-106)). lra.
  - rewrite Rmult_assoc, <- bpow_plus. change (bpow radix2 (-106 + 100)) with (/ 64). lra.
Qed.
Print Assumptions C84_double_sum.

(** C85: Iterator::product of Doubles: relative error at most n * 18 * 2^-106 as
    long as every partial product stays within [2^-890, 2^1010] *)
Theorem C85_double_product : forall l, Forall DNorm l -> (Z.of_nat (length l) <= 2 ^ 100)%Z ->
  (forall l1 l2, l = l1 ++ l2 -> bpow radix2 (-890) <= Rabs (rprod (map DV l1)) <= bpow radix2 1010) ->
  DNorm (d_product l) /\
  Rabs (DV (d_product l) - rprod (map DV l)) <= INR (length l) * (18 * bpow radix2 (-106)) * Rabs (rprod (map DV l)).
Proof.
  intros l H Hn HB. apply d_product_ok; auto. apply (len_small _ _ 100); auto; [lia| |].
  - assert (K := bpow_gt_0 radix2 (-106)). lra.
  - rewrite Rmult_assoc, <- bpow_plus. change (bpow radix2 (-106 + 100)) with (/ 64). lra.
Qed.
Print Assumptions C85_double_product.

(** C86: Iterator::product of Quads: relative error at most n * 2^-197 as long as
    the factors and every partial product stay within [2^-490, 2^490] *)
Theorem C86_quad_product : forall l, Forall (fun x => (QNorm x \/ QNormW x) /\ Rabs (QV x) <= bpow radix2 490) l ->
  (Z.of_nat (length l) <= 2 ^ 190)%Z ->
  (forall l1 l2, l = l1 ++ l2 -> bpow radix2 (-490) <= Rabs (rprod (map QV l1)) <= bpow radix2 490) ->
  QFin (q_product l) /\
  Rabs (QV (q_product l) - rprod (map QV l)) <= INR (length l) * bpow radix2 (-197) * Rabs (rprod (map QV l)).
Proof.
  intros l H Hn HB.
  destruct (q_product_ok l) as [K1 K2]; auto.
  - eapply Forall_impl; [|exact H]. intros x [N B]. split; [now apply QNorms_dec|exact B].
  - apply (len_small _ _ 190); auto; [lia|apply bpow_ge_0|].
    rewrite <- bpow_plus. change (bpow radix2 (-197 + 190)) with (/ 128). lra.
  - split; [apply K1|exact K2].
Qed.
Print Assumptions C86_quad_product.

(** C87: a computed Quad product is again a good factor: its components fall off
    by 52 bits each, and the error stays below 2^-198 however long the chain *)
Theorem C87_quad_mul_closed : forall x y, QFall 52 x -> QFall 52 y ->
  Rabs (QV x) <= bpow radix2 499 -> Rabs (QV y) <= bpow radix2 499 -> bpow radix2 (-500) <= Rabs (QV x * QV y) ->
  QFall 52 (q_mul x y) /\ Rabs (QV (q_mul x y) - QV x * QV y) <= bpow radix2 (-198) * Rabs (QV x * QV y).
Proof. intros x y. exact (q_mul_fall 52 x y ltac:(lia)). Qed.
Print Assumptions C87_quad_mul_closed.
Theorem C87_quad_sqr_closed : forall x, QFall 52 x ->
  Rabs (QV x) <= bpow radix2 498 -> bpow radix2 (-500) <= QV x * QV x ->
  QFall 52 (q_sqr x) /\ Rabs (QV (q_sqr x) - QV x * QV x) <= bpow radix2 (-198) * (QV x * QV x).
Proof. intros x. exact (q_sqr_fall 52 x ltac:(lia)). Qed.
Print Assumptions C87_quad_sqr_closed.
Theorem C87_canonical_closed : forall x, QNorm x \/ QNormW x -> QFall 52 x.
Proof. intros x H. exact (QDec_fall 53 x ltac:(lia) (QNorms_dec x H)). Qed.
Print Assumptions C87_canonical_closed.

(** C88: sqr on canonical Quads: relative error below 2^-198, non-negative *)
Theorem C88_quad_sqr : forall x, QNorm x \/ QNormW x ->
  Rabs (QV x) <= bpow radix2 498 -> bpow radix2 (-500) <= QV x * QV x ->
  QFin (q_sqr x) /\ 0 < QV (q_sqr x) /\
  Rabs (QV (q_sqr x) - QV x * QV x) <= bpow radix2 (-198) * (QV x * QV x).
Proof.
  intros x H B L. destruct (C87_quad_sqr_closed x (C87_canonical_closed x H) B L) as [F E].
  split; [apply F|]. split; [|exact E].
  apply abs_le in E. assert (G := bpow_gt_0 radix2 (-500)).
  assert (K : bpow radix2 (-198) * (QV x * QV x) <= / 2 * (QV x * QV x)) by (apply Rmult_le_compat_r; [lra|]; change (/ 2) with (bpow radix2 (-1)); apply bpow_le; lia).
  lra.
Qed.
Print Assumptions C88_quad_sqr.

(** C89: positive integer powers of a Quad: x^n to n * 2^-197, never a panic *)
Theorem C89_quad_powi : forall dbg x n, QNorm x \/ QNormW x -> (1 <= n <= 2147483647)%Z ->
  bpow radix2 (-490) <= Rabs (QV x) ^ Z.to_nat n <= bpow radix2 490 ->
  exists r, q_powi dbg x n = Val r /\ QFin r /\
    Rabs (QV r - QV x ^ Z.to_nat n) <= IZR n * bpow radix2 (-197) * Rabs (QV x ^ Z.to_nat n).
Proof.
  intros dbg x n H Hn W. destruct (q_powi_pos_ok dbg x n (QNorms_dec x H) Hn W) as (r & E & F & A).
  exists r. split; [exact E|]. split; [apply F|exact A].
Qed.
Print Assumptions C89_quad_powi.

(** ** concrete cases *)
Definition fw_x := mkD (fofZ 3) (f2pow 1 (-60)).
Definition fw_y := mkD (fofZ (-7)) (f2pow 1 (-70)).
Lemma fw_vals : DV fw_x = 3 + bpow radix2 (-60) /\ DV fw_y = -7 + bpow radix2 (-70).
Proof.
  unfold DV, fw_x, fw_y; cbn [d0 d1].
  rewrite (proj2 (fofZ_exact 3 ltac:(lia))), (proj2 (fofZ_exact (-7) ltac:(lia))).
  rewrite (proj2 (f2pow_exact 1 (-60) ltac:(lia) ltac:(lia) ltac:(lia))), (proj2 (f2pow_exact 1 (-70) ltac:(lia) ltac:(lia) ltac:(lia))). split; ring.
Qed.
Lemma fw_small : 0 < bpow radix2 (-60) < / 8 /\ 0 < bpow radix2 (-70) < / 8.
Proof.
  assert (A := bpow_gt_0 radix2 (-60)). assert (B := bpow_gt_0 radix2 (-70)).
  assert (bpow radix2 (-60) < bpow radix2 (-3)) by (apply bpow_lt; lia). assert (bpow radix2 (-70) < bpow radix2 (-3)) by (apply bpow_lt; lia).
  change (/ 8) with (bpow radix2 (-3)). lra.
Qed.
Example C84_C85_case : Forall DNorm [fw_x; fw_y; fw_x] /\
  rsum (map (fun x => Rabs (DV x)) [fw_x; fw_y; fw_x]) <= bpow radix2 1010 /\
  (forall l1 l2, [fw_x; fw_y; fw_x] = l1 ++ l2 -> bpow radix2 (-890) <= Rabs (rprod (map DV l1)) <= bpow radix2 1010).
Proof.
  destruct fw_vals as [Ex Ey]. destruct fw_small as [Sx Sy].
  assert (K : 1024 <= bpow radix2 1010) by (change 1024 with (bpow radix2 10); apply bpow_le; lia).
  assert (K' : bpow radix2 (-890) <= 1) by (change 1 with (bpow radix2 0); apply bpow_le; lia).
  split; [repeat constructor; apply dnormx_ok; vm_compute; reflexivity|].
  split.
  - cbn [map]. rewrite !rsum_cons, rsum_nil, Ex, Ey. rewrite (Rabs_pos_eq (3 + _)), (Rabs_left (-7 + _)) by lra. lra.
  - intros l1 l2 E.
    assert (C : l1 = [] \/ l1 = [fw_x] \/ l1 = [fw_x; fw_y] \/ l1 = [fw_x; fw_y; fw_x]).
    { destruct l1 as [|a [|b [|c [|d l1]]]]; cbn [app] in E; [now left|injection E as <- _; auto|injection E as <- <- _; auto|injection E as <- <- <- _; auto 6|discriminate]. }
    assert (Px : 3 <= Rabs (DV fw_x) <= 4) by (rewrite Ex, Rabs_pos_eq by lra; lra).
    assert (Py : 6 <= Rabs (DV fw_y) <= 7) by (rewrite Ey, Rabs_left by lra; lra).
    set (a := Rabs (DV fw_x)) in *. set (b := Rabs (DV fw_y)) in *.
    assert (Q1 : 18 <= a * b <= 28) by (split; [replace 18 with (3 * 6) by ring|replace 28 with (4 * 7) by ring]; apply Rmult_le_compat; lra).
    assert (Q2 : 54 <= a * b * a <= 112) by (split; [replace 54 with (18 * 3) by ring|replace 112 with (28 * 4) by ring]; apply Rmult_le_compat; lra).
    destruct C as [->|[->|[->| ->]]]; cbn [map]; rewrite ?rprod_cons, rprod_nil, ?Rabs_mult, ?Rabs_R1; fold a b; lra.
Qed.

(** for Quads: two full-width factors *)
Example C86_case : Forall (fun x => (QNorm x \/ QNormW x) /\ Rabs (QV x) <= bpow radix2 490) [w_qm_x; w_qm_y] /\
  (forall l1 l2, [w_qm_x; w_qm_y] = l1 ++ l2 -> bpow radix2 (-490) <= Rabs (rprod (map QV l1)) <= bpow radix2 490).
Proof.
  assert (K' : bpow radix2 (-490) <= 1) by (change 1 with (bpow radix2 0); apply bpow_le; lia).
  assert (K : 1 <= bpow radix2 490) by (change 1 with (bpow radix2 0); apply bpow_le; lia).
  assert (K1 : bpow radix2 1 <= bpow radix2 490) by (apply bpow_le; lia).
  assert (K2 : bpow radix2 1 * bpow radix2 1 <= bpow radix2 490) by (rewrite <- bpow_plus; apply bpow_le; lia).
  assert (K3 : bpow radix2 (-490) <= bpow radix2 (-10)) by (apply bpow_le; lia).
  assert (Bx : Rabs (QV w_qm_x) <= bpow radix2 1) by (apply qabs_le_z; [lia|vm_compute; reflexivity]).
  assert (By : Rabs (QV w_qm_y) <= bpow radix2 1) by (apply qabs_le_z; [lia|vm_compute; reflexivity]).
  assert (V1 : QV Q_ONE = 1) by apply QFall_ONE.
  assert (Lx : bpow radix2 (-10) <= Rabs (QV w_qm_x * QV Q_ONE)) by (apply qprod_ge_z; [lia|vm_compute; reflexivity]).
  rewrite V1, Rmult_1_r in Lx.
  assert (Ly : bpow radix2 (-10) <= Rabs (QV w_qm_x * QV w_qm_y)) by (apply qprod_ge_z; [lia|vm_compute; reflexivity]).
  split.
  - apply Forall_cons; [split; [left; apply qnormx_ok; vm_compute; reflexivity|lra]|].
    apply Forall_cons; [split; [left; apply qnormx_ok; vm_compute; reflexivity|lra]|apply Forall_nil].
  - intros l1 l2 E.
    assert (C : l1 = [] \/ l1 = [w_qm_x] \/ l1 = [w_qm_x; w_qm_y]).
    { destruct l1 as [|a [|b [|c l1]]]; cbn [app] in E; [now left|injection E as <- _; auto|injection E as <- <- _; auto|discriminate]. }
    destruct C as [->|[->| ->]]; cbn [map]; rewrite ?rprod_cons, rprod_nil, ?Rmult_1_r, ?Rabs_R1; try lra.
    split; [lra|]. rewrite Rabs_mult. eapply Rle_trans; [|exact K2]. apply Rmult_le_compat; auto using Rabs_pos.
Qed.

(** a full-width Quad cubed; its square and cube are in range *)
Example C89_case : QNorm w_qm_x /\ Rabs (QV w_qm_x) <= bpow radix2 498 /\ bpow radix2 (-500) <= QV w_qm_x * QV w_qm_x /\
  bpow radix2 (-490) <= Rabs (QV w_qm_x) ^ Z.to_nat 3 <= bpow radix2 490.
Proof.
  assert (Bx : Rabs (QV w_qm_x) <= bpow radix2 1) by (apply qabs_le_z; [lia|vm_compute; reflexivity]).
  assert (V1 : QV Q_ONE = 1) by apply QFall_ONE.
  assert (Lx : bpow radix2 (-10) <= Rabs (QV w_qm_x * QV Q_ONE)) by (apply qprod_ge_z; [lia|vm_compute; reflexivity]).
  rewrite V1, Rmult_1_r in Lx.
  split; [apply qnormx_ok; vm_compute; reflexivity|].
  split; [eapply Rle_trans; [exact Bx|apply bpow_le; lia]|].
  change (bpow radix2 1) with 2 in Bx. set (a := Rabs (QV w_qm_x)) in *.
  assert (P := bpow_gt_0 radix2 (-10)).
  split.
  - assert (E : QV w_qm_x * QV w_qm_x = a * a) by (unfold a; rewrite <- Rabs_mult, Rabs_pos_eq; [reflexivity|apply Rle_0_sqr]). rewrite E.
    apply Rle_trans with (bpow radix2 (-10) * bpow radix2 (-10)); [rewrite <- bpow_plus; apply bpow_le; lia|apply Rmult_le_compat; lra].
  - change (Z.to_nat 3) with 3%nat. split.
    + apply Rle_trans with (bpow radix2 (-10) ^ 3).
      * replace (bpow radix2 (-10) ^ 3) with (bpow radix2 (-10 + -10 + -10)) by (rewrite !bpow_plus; ring). apply bpow_le; lia.
      * apply pow_incr. lra.
    + apply Rle_trans with (2 ^ 3); [apply pow_incr; lra|]. change (2 ^ 3) with (2 * (2 * (2 * 1))). replace (2 * (2 * (2 * 1))) with (bpow radix2 3) by (change (bpow radix2 3) with 8; ring). apply bpow_le; lia.
Qed.
