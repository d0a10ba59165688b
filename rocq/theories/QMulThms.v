(** * Quad multiplication: accuracy theorem *)
From Coq Require Import ZArith Reals List Bool Lia Lra.
From Flocq Require Import Core IEEE754.BinarySingleNaN.
From Verif Require Import F64 F64Facts Prim DoubleM QuadM RN Spec EFT SpecialProofs QuadSpec QAddAcc QAddThms QMulAcc.
Local Open Scope R_scope.

Lemma q_mul_fin x y : QFin x -> QFin y -> V (q0 x) <> 0 -> q_mul x y = q_mul_core x y.
Proof.
  intros (Fx & _) (Fy & _) N. unfold q_mul, q_pre_mul, q_is_nan, q_is_infinite, q_is_zero.
  assert (Z : feqb (q0 x) f0 = false).
  { destruct (feqb (q0 x) f0) eqn:E; [|reflexivity]. apply feqb_V in E; [|assumption|apply Fin_0]. now rewrite V_0 in E. }
  rewrite Z.
  destruct (q0 x) as [| | |]; try discriminate Fx; destruct (q0 y) as [| | |]; try discriminate Fy; reflexivity.
Qed.

Lemma QDec_le k x : (40 <= k)%Z -> QDec k x -> Rabs (QV x) <= (1 + / 524288) * Rabs (V (q0 x)).
Proof.
  intros Hk (F & H1 & H2 & H3).
  assert (B : bp (- k) <= / 1099511627776) by (change (/ 1099511627776) with (bp (-40)); apply bpow_le; lia).
  assert (P := bpow_ge_0 radix2 (- k)).
  assert (Q0 := Rabs_pos (V (q0 x))). assert (Q1 := Rabs_pos (V (q1 x))). assert (Q2 := Rabs_pos (V (q2 x))).
  assert (L1 : Rabs (V (q1 x)) <= / 1099511627776 * Rabs (V (q0 x))) by (eapply Rle_trans; [exact H1|]; apply Rmult_le_compat_r; lra).
  assert (L2 : Rabs (V (q2 x)) <= / 1099511627776 * Rabs (V (q1 x))) by (eapply Rle_trans; [exact H2|]; apply Rmult_le_compat_r; lra).
  assert (L3 : Rabs (V (q3 x)) <= / 1099511627776 * Rabs (V (q2 x))) by (eapply Rle_trans; [exact H3|]; apply Rmult_le_compat_r; lra).
  assert (T : Rabs (QV x) <= Rabs (V (q0 x)) + Rabs (V (q1 x)) + Rabs (V (q2 x)) + Rabs (V (q3 x))).
  { unfold QV.
    eapply Rle_trans; [apply Rabs_triang|]. apply Rplus_le_compat_r.
    eapply Rle_trans; [apply Rabs_triang|]. apply Rplus_le_compat_r. apply Rabs_triang. }
  lra.
Qed.

Lemma q_mul_acc k x y : (40 <= k <= 53)%Z -> QDec k x -> QDec k y ->
  Rabs (QV x) <= bp 499 -> Rabs (QV y) <= bp 499 -> bp (-700) <= Rabs (QV x * QV y) ->
  QFin (q_mul x y) /\
  Rabs (QV (q_mul x y) - QV x * QV y) <= bp (7 - 3 * k) * Rabs (QV x * QV y).
Proof.
  intros Hk Hx Hy Bx By Lo.
  assert (Ix := QDec_hi k x ltac:(lia) Hx). assert (Iy := QDec_hi k y ltac:(lia) Hy).
  assert (Jx := QDec_le k x ltac:(lia) Hx). assert (Jy := QDec_le k y ltac:(lia) Hy).
  rewrite Rabs_mult in *.
  set (X := Rabs (V (q0 x))) in *. set (Y := Rabs (V (q0 y))) in *.
  assert (PX : 0 <= X) by apply Rabs_pos. assert (PY : 0 <= Y) by apply Rabs_pos.
  assert (PQX := Rabs_pos (QV x)). assert (PQY := Rabs_pos (QV y)).
  set (N0 := X * Y). assert (PN : 0 <= N0) by (apply Rmult_le_pos; lra).
  assert (U1 : N0 <= (1 + / 524288) * (1 + / 524288) * (Rabs (QV x) * Rabs (QV y))).
  { unfold N0. replace ((1 + / 524288) * (1 + / 524288) * (Rabs (QV x) * Rabs (QV y))) with (((1 + / 524288) * Rabs (QV x)) * ((1 + / 524288) * Rabs (QV y))) by ring.
    apply Rmult_le_compat; lra. }
  assert (U2 : Rabs (QV x) * Rabs (QV y) <= (1 + / 524288) * (1 + / 524288) * N0).
  { unfold N0. replace ((1 + / 524288) * (1 + / 524288) * (X * Y)) with (((1 + / 524288) * X) * ((1 + / 524288) * Y)) by ring.
    apply Rmult_le_compat; lra. }
  assert (B500 : 2 * bp 499 = bp 500) by (change 2 with (bp 1); rewrite <- bpow_plus; reflexivity).
  assert (X500 : X <= bp 500) by lra. assert (Y500 : Y <= bp 500) by lra.
  set (e := bp (- k)).
  assert (Pe : 0 < e) by apply bpow_gt_0.
  assert (Ue : u <= e) by (change u with (bp (-53)); apply bpow_le; lia).
  assert (Le : e <= / 1099511627776) by (change (/ 1099511627776) with (bp (-40)); apply bpow_le; lia).
  assert (P700 := bpow_gt_0 radix2 (-700)). assert (N700 : bp (-701) <= N0).
  { assert (2 * bp (-701) = bp (-700)) by (change 2 with (bp 1); rewrite <- bpow_plus; reflexivity). lra. }
  assert (NZ : V (q0 x) <> 0).
  { intros Z. assert (X = 0) by (unfold X; rewrite Z; apply Rabs_R0). assert (N0 = 0) by (unfold N0; rewrite H; ring).
    assert (P701 := bpow_gt_0 radix2 (-701)). lra. }
  rewrite q_mul_fin by (apply Hx || apply Hy || exact NZ).
  set (N1 := e * N0). set (N2 := e * N1). set (N3 := e * N2). set (N4 := e * N3). set (N5 := e * N4).
  assert (PN1 : 0 <= N1) by (apply Rmult_le_pos; lra). assert (PN2 : 0 <= N2) by (apply Rmult_le_pos; lra).
  assert (PN3 : 0 <= N3) by (apply Rmult_le_pos; lra). assert (PN4 : 0 <= N4) by (apply Rmult_le_pos; lra).
  assert (PN5 : 0 <= N5) by (apply Rmult_le_pos; lra).
  assert (HS : Scales5 N0 N1 N2 N3 N4 N5).
  { assert (N0 <= bp 1000).
    { unfold N0. replace (bp 1000) with (bp 500 * bp 500) by (rewrite <- bpow_plus; reflexivity). apply Rmult_le_compat; lra. }
    repeat split; try assumption; apply Rmult_le_compat_r; assumption. }
  assert (HE : eta <= / 1024 * N5).
  { assert (E5 : bp (-265) * bp (-701) <= N5).
    { unfold N5, N4, N3, N2, N1. replace (e * (e * (e * (e * (e * N0))))) with ((e * (e * (e * (e * e)))) * N0) by ring.
      apply Rmult_le_compat; [apply bpow_ge_0|apply bpow_ge_0| |exact N700].
      unfold e. rewrite <- !bpow_plus. apply bpow_le. lia. }
    rewrite <- bpow_plus in E5. change (-265 + -701)%Z with (-966)%Z in E5.
    assert (1024 * eta <= bp (-966)) by (change 1024 with (bp 10); rewrite <- bpow_plus; apply bpow_le; lia). lra. }
  (* component bounds *)
  assert (GC : forall z Z, QDec k z -> Z = Rabs (V (q0 z)) -> 0 <= Z -> Rabs (V (q1 z)) <= e * Z /\ Rabs (V (q2 z)) <= e * (e * Z) /\ Rabs (V (q3 z)) <= e * (e * (e * Z))).
  { intros z Z (F & H1 & H2 & H3) EZ PZ. fold e in H1, H2, H3. rewrite <- EZ in H1.
    assert (L2 : Rabs (V (q2 z)) <= e * (e * Z)) by (eapply Rle_trans; [exact H2|]; apply Rmult_le_compat_l; lra).
    split; [exact H1|]. split; [exact L2|]. eapply Rle_trans; [exact H3|]; apply Rmult_le_compat_l; lra. }
  destruct (GC x X Hx eq_refl PX) as (X1 & X2 & X3). destruct (GC y Y Hy eq_refl PY) as (Y1 & Y2 & Y3). clear GC.
  assert (mono : forall Z, 0 <= Z -> e * Z <= Z).
  { intros Z PZ. rewrite <- (Rmult_1_l Z) at 2. apply Rmult_le_compat_r; lra. }
  assert (nn : forall Z, 0 <= Z -> 0 <= e * Z) by (intros; apply Rmult_le_pos; lra).
  assert (pb : forall a b A B, Rabs a <= A -> Rabs b <= B -> Rabs (a * b) <= A * B).
  { intros a b A B Ha Hb. rewrite Rabs_mult. apply Rmult_le_compat; auto using Rabs_pos. }
  assert (QX : Q500 x).
  { destruct Hx as ((F0 & F1 & F2 & F3) & _). assert (M1 := mono X PX). assert (M2 := mono (e * X) (nn _ PX)). assert (M3 := mono (e * (e * X)) (nn _ (nn _ PX))).
    split; [split; [exact F0|exact X500]|]. split; [split; [exact F1|lra]|]. split; split; [exact F2|lra|exact F3|lra]. }
  assert (QY : Q500 y).
  { destruct Hy as ((F0 & F1 & F2 & F3) & _). assert (M1 := mono Y PY). assert (M2 := mono (e * Y) (nn _ PY)). assert (M3 := mono (e * (e * Y)) (nn _ (nn _ PY))).
    split; [split; [exact F0|exact Y500]|]. split; [split; [exact F1|lra]|]. split; split; [exact F2|lra|exact F3|lra]. }
  assert (X0 : Rabs (V (q0 x)) <= X) by (unfold X; lra). assert (Y0 : Rabs (V (q0 y)) <= Y) by (unfold Y; lra).
  destruct (q_mul_core_ok N0 N1 N2 N3 N4 N5 x y HS HE QX QY) as (R1 & R2).
  { unfold QProd. cbv zeta.
    Ltac pbq := match goal with pb : forall a b A B, _ |- Rabs (?a * ?b) <= ?N =>
      match goal with HA : Rabs a <= ?A |- _ => match goal with HB : Rabs b <= ?B |- _ =>
        apply Rle_trans with (A * B); [apply pb; assumption|] end end end.
    assert (M6 := mono N5 PN5).
    repeat split; pbq; unfold N5, N4, N3, N2, N1, N0 in *;
      match goal with |- ?a <= ?b => first [ apply Req_le; ring | apply Rle_trans with (e * b); [apply Req_le; ring|assumption] ] end. }
  { rewrite Rabs_mult. change (18 * N1 <= X * Y). fold N0. unfold N1. assert (e * N0 <= / 1099511627776 * N0) by (apply Rmult_le_compat_r; lra). lra. }
  split; [exact R1|].
  assert (E3 : bp (7 - 3 * k) = 128 * (e * e * e)).
  { unfold e. change 128 with (bp 7). rewrite <- !bpow_plus. f_equal. lia. }
  rewrite E3.
  assert (P3 : 0 < e * e * e) by (repeat apply Rmult_lt_0_compat; lra).
  assert (W : N3 <= e * e * e * ((1 + / 524288) * (1 + / 524288) * (Rabs (QV x) * Rabs (QV y)))).
  { unfold N3, N2, N1. replace (e * (e * (e * N0))) with (e * e * e * N0) by ring. apply Rmult_le_compat_l; lra. }
  assert (Y' : 0 <= e * e * e * (Rabs (QV x) * Rabs (QV y))) by (apply Rmult_le_pos; [lra|apply Rmult_le_pos; lra]).
  lra.
Qed.
