(** * Quad multiplication and non-cancelling addition on the two-scale class, and expressions with quotients *)
From Coq Require Import ZArith Reals List Bool Lia Lra.
From Flocq Require Import Core IEEE754.BinarySingleNaN.
From Verif Require Import F64 F64Facts Prim DoubleM QuadM RN Spec EFT SpecialProofs QuadSpec QAddAcc QAddThms QMulAcc QMulThms QLoose QLDiv DDivProofs QExactProofs.
Import ListNotations.
Local Open Scope R_scope.

Lemma QL_mono d e x : d <= e -> QL d x -> QL e x.
Proof.
  intros H (F & A & B & C). assert (P := Rabs_pos (V (q0 x))).
  assert (K : d * Rabs (V (q0 x)) <= e * Rabs (V (q0 x))) by (apply Rmult_le_compat_r; lra).
  split; [exact F|]. lra.
Qed.
Lemma QL_neg d x : QL d x -> QL d (q_neg x) /\ QV (q_neg x) = - QV x.
Proof.
  intros (F & A & B & C). split; [|now apply QV_neg]. destruct F as (F0 & F1 & F2 & F3).
  destruct (fneg_ok _ F0) as [G0 E0]. destruct (fneg_ok _ F1) as [G1 E1]. destruct (fneg_ok _ F2) as [G2 E2]. destruct (fneg_ok _ F3) as [G3 E3].
  unfold QL, QFin, q_neg. cbn [q0 q1 q2 q3]. rewrite E0, E1, E2, E3, !Rabs_Ropp. auto 10.
Qed.
(** the value and the leading component *)
Lemma QL_abs d x : 0 <= d -> d <= / 1099511627776 -> QL d x ->
  (1 - / 1000000) * Rabs (V (q0 x)) <= Rabs (QV x) <= (1 + / 1000000) * Rabs (V (q0 x)).
Proof.
  intros Pd Hd L. assert (K := QL_val d x Pd L).
  assert (T1 := Rabs_triang (V (q0 x)) (QV x - V (q0 x))). replace (V (q0 x) + (QV x - V (q0 x))) with (QV x) in T1 by ring.
  assert (T2 := Rabs_triang (QV x) (- (QV x - V (q0 x)))). replace (QV x + - (QV x - V (q0 x))) with (V (q0 x)) in T2 by ring. rewrite Rabs_Ropp in T2.
  assert (P := Rabs_pos (V (q0 x))).
  assert (dM : d * Rabs (V (q0 x)) <= / 1099511627776 * Rabs (V (q0 x))) by (apply Rmult_le_compat_r; lra).
  lra.
Qed.
Lemma QL_geo x : QGeo x -> QL (4 * u) x.
Proof.
  intros (F & A & B & C & _). change (bpow radix2 (-53)) with u in *. assert (P := Rabs_pos (V (q0 x))).
  split; [exact F|]. lra.
Qed.
(** a computed Quad that is close to a nonzero value, with small low parts *)
Lemma QL_intro e q z M : 0 < M -> e <= / 1099511627776 -> 0 <= e -> QFin q -> (1 - / 100000) * M <= Rabs z -> Rabs (QV q - z) <= / 1000000 * M ->
  Rabs (V (q1 q)) <= e * M -> Rabs (V (q2 q)) <= e * M -> Rabs (V (q3 q)) <= e * M -> QL ((1 + / 1000) * e) q.
Proof.
  intros PM He Pe F Z E A B C.
  assert (eM : e * M <= / 1099511627776 * M) by (apply Rmult_le_compat_r; lra).
  assert (Cq : (1 - / 10000) * M <= Rabs (V (q0 q))).
  { assert (Rabs z <= Rabs (V (q0 q)) + Rabs (V (q1 q)) + Rabs (V (q2 q)) + Rabs (V (q3 q)) + Rabs (QV q - z)).
    { replace z with (V (q0 q) + V (q1 q) + V (q2 q) + V (q3 q) + - (QV q - z)) at 1 by (unfold QV; ring).
      assert (T1 := Rabs_triang (V (q0 q) + V (q1 q) + V (q2 q) + V (q3 q)) (- (QV q - z))). rewrite Rabs_Ropp in T1.
      assert (T2 := Rabs_triang (V (q0 q) + V (q1 q) + V (q2 q)) (V (q3 q))). assert (T3 := Rabs_triang (V (q0 q) + V (q1 q)) (V (q2 q))). assert (T4 := Rabs_triang (V (q0 q)) (V (q1 q))). lra. }
    lra. }
  assert (K : e * M <= (1 + / 1000) * e * Rabs (V (q0 q))).
  { replace ((1 + / 1000) * e * Rabs (V (q0 q))) with (e * ((1 + / 1000) * Rabs (V (q0 q)))) by ring. apply Rmult_le_compat_l; lra. }
  split; [exact F|]. lra.
Qed.

Lemma q_mul_L d x y : 4 * u <= d -> d <= / 1099511627776 -> QL d x -> QL d y ->
  Rabs (V (q0 x)) <= bp 490 -> Rabs (V (q0 y)) <= bp 490 -> bp (-600) <= Rabs (V (q0 x)) * Rabs (V (q0 y)) ->
  QL (4 * u) (q_mul x y) /\
  Rabs (QV (q_mul x y) - QV x * QV y) <= (1280 * (u * d) + 5 * (d * d)) * Rabs (QV x * QV y).
Proof.
  intros Hd1 Hd2 Lx Ly XH YH LO. assert (Pd : 0 <= d) by lra.
  assert (AX := QL_abs d x Pd Hd2 Lx). assert (AY := QL_abs d y Pd Hd2 Ly).
  destruct Lx as (Fx & X1 & X2 & X3). destruct Ly as (Fy & Y1 & Y2 & Y3).
  set (X := Rabs (V (q0 x))) in *. set (Y := Rabs (V (q0 y))) in *.
  assert (PX : 0 <= X) by apply Rabs_pos. assert (PY : 0 <= Y) by apply Rabs_pos.
  assert (P6 := bpow_gt_0 radix2 (-600)).
  set (N0 := X * Y) in *. set (N1 := d * N0). set (N2 := d * N1).
  assert (PN : 0 < N0) by lra.
  assert (n1 : 4 * (u * N0) <= N1). { unfold N1. replace (4 * (u * N0)) with (4 * u * N0) by ring. apply Rmult_le_compat_r; lra. }
  assert (n2 : N1 <= / 1099511627776 * N0) by (apply Rmult_le_compat_r; lra).
  assert (n3 : N2 <= / 1099511627776 * N1) by (apply Rmult_le_compat_r; lra).
  assert (PN2 : 0 <= N2) by (apply Rmult_le_pos; lra).
  assert (NB : N0 <= bp 980). { replace (bp 980) with (bp 490 * bp 490) by (rewrite <- bpow_plus; reflexivity). apply Rmult_le_compat; assumption. }
  assert (G1 : 2 * bp 980 <= bp 1000). { assert (E : bp 20 * bp 980 = bp 1000) by (rewrite <- bpow_plus; reflexivity). change (bp 20) with 1048576 in E. assert (0 < bp 980) by apply bpow_gt_0. lra. }
  assert (G9 : bp 490 <= bp 500) by (apply bpow_le; lia).
  assert (NZ : V (q0 x) <> 0). { intros K. unfold N0, X in LO. rewrite K, Rabs_R0, Rmult_0_l in LO. lra. }
  assert (ET : eta <= / 1024 * (u * (u * N1))).
  { apply Rle_trans with (/ 1024 * (u * (u * (4 * (u * bp (-600)))))); [|lra].
    change (/ 1024) with (bp (-10)). change 4 with (bp 2). rewrite <- !u_bp, <- !bpow_plus. apply bpow_le. lia. }
  unfold q_mul. rewrite q_pre_mul_fin by (apply Fx || apply Fy || exact NZ). cbn [from_pre].
  assert (dX : d * X <= / 1099511627776 * X) by (apply Rmult_le_compat_r; lra).
  assert (dY : d * Y <= / 1099511627776 * Y) by (apply Rmult_le_compat_r; lra).
  assert (M1 : forall a b A B, Rabs a <= A -> Rabs b <= B -> 0 <= A -> 0 <= B -> Rabs (a * b) <= A * B).
  { intros a b A B Ha Hb PA PB. rewrite Rabs_mult. apply Rmult_le_compat; first [apply Rabs_pos|assumption]. }
  assert (PdX : 0 <= d * X) by (apply Rmult_le_pos; assumption). assert (PdY : 0 <= d * Y) by (apply Rmult_le_pos; assumption).
  assert (Z01 : X * (d * Y) = N1) by (unfold N1, N0; ring). assert (Z10 : (d * X) * Y = N1) by (unfold N1, N0; ring). assert (Z11 : (d * X) * (d * Y) = N2) by (unfold N2, N1, N0; ring).
  destruct (q_mul_core_L N0 N1 N2 x y) as [L E].
  { repeat split; lra. } { lra. } { lra. } { exact PN2. } { lra. } { exact ET. }
  { destruct Fx as (? & ? & ? & ?). unfold Q500, fb. fold X. repeat split; first [assumption|lra]. }
  { destruct Fy as (? & ? & ? & ?). unfold Q500, fb. fold Y. repeat split; first [assumption|lra]. }
  { unfold QProd. cbn zeta.
    assert (K01 : forall a b, Rabs a <= X -> Rabs b <= d * Y -> Rabs (a * b) <= N1) by (intros; rewrite <- Z01; apply M1; assumption).
    assert (K10 : forall a b, Rabs a <= d * X -> Rabs b <= Y -> Rabs (a * b) <= N1) by (intros; rewrite <- Z10; apply M1; assumption).
    assert (K11 : forall a b, Rabs a <= d * X -> Rabs b <= d * Y -> Rabs (a * b) <= N2) by (intros; rewrite <- Z11; apply M1; assumption).
    assert (K11' : forall a b, Rabs a <= d * X -> Rabs b <= d * Y -> Rabs (a * b) <= N1) by (intros a b Ha Hb; assert (K := K11 a b Ha Hb); lra).
    assert (XX : Rabs (V (q0 x)) <= X) by apply Rle_refl. assert (YY : Rabs (V (q0 y)) <= Y) by apply Rle_refl.
    split; [apply M1; assumption|]. repeat split; first [now apply K01|now apply K10|now apply K11|now apply K11']. }
  assert (XY : (1 - / 100000) * N0 <= Rabs (QV x * QV y)).
  { rewrite Rabs_mult. apply Rle_trans with (((1 - / 1000000) * X) * ((1 - / 1000000) * Y)).
    - replace (((1 - / 1000000) * X) * ((1 - / 1000000) * Y)) with ((1 - / 1000000) * (1 - / 1000000) * N0) by (unfold N0; ring). apply Rmult_le_compat_r; lra.
    - apply Rmult_le_compat; lra. }
  set (z := QV x * QV y) in *. clearbody z. set (q := q_mul_core x y) in *. clearbody q.
  assert (FQ := lbQ_fin _ _ _ _ _ L). destruct L as (_ & [_ C1] & [_ C2] & [_ C3]).
  split.
  - apply QL_mono with ((1 + / 1000) * (3 * u)); [lra|].
    apply (QL_intro (3 * u) q z N0 PN); [lra|lra|exact FQ|exact XY|lra|lra|lra|lra].
  - eapply Rle_trans; [exact E|]. replace (1270 * (u * N1) + 4 * N2) with ((1270 * (u * d) + 4 * (d * d)) * N0) by (unfold N2, N1; ring).
    assert (PU : 0 <= u * d) by (apply Rmult_le_pos; lra). assert (PD : 0 <= d * d) by (apply Rmult_le_pos; lra).
    apply Rle_trans with ((1280 * (u * d) + 5 * (d * d)) * ((1 - / 100000) * N0)).
    + replace ((1280 * (u * d) + 5 * (d * d)) * ((1 - / 100000) * N0)) with ((1280 * (u * d) + 5 * (d * d)) * (1 - / 100000) * N0) by ring.
      apply Rmult_le_compat_r; lra.
    + apply Rmult_le_compat_l; [lra|exact XY].
Qed.

(** a sum of two terms of the same sign *)
Lemma q_add_L d x y : 4 * u <= d -> d <= / 1099511627776 -> QL d x -> QL d y ->
  Rabs (V (q0 x)) <= bp 900 -> Rabs (V (q0 y)) <= bp 900 -> 0 < QV x * QV y ->
  QL (18 * u) (q_add x y) /\
  Rabs (QV (q_add x y) - (QV x + QV y)) <= 680 * (u * d) * Rabs (QV x + QV y).
Proof.
  intros Hd1 Hd2 Lx Ly XH YH SG. assert (Pd : 0 <= d) by lra.
  assert (AX := QL_abs d x Pd Hd2 Lx). assert (AY := QL_abs d y Pd Hd2 Ly).
  destruct Lx as (Fx & X1 & X2 & X3). destruct Ly as (Fy & Y1 & Y2 & Y3).
  assert (G9 : bp 900 <= bp 1000) by (apply bpow_le; lia).
  set (X := Rabs (V (q0 x))) in *. set (Y := Rabs (V (q0 y))) in *.
  assert (PX : 0 <= X) by apply Rabs_pos. assert (PY : 0 <= Y) by apply Rabs_pos.
  set (M := Rmax X Y).
  assert (MX : X <= M) by apply Rmax_l. assert (MY : Y <= M) by apply Rmax_r.
  assert (ES : Rabs (QV x + QV y) = Rabs (QV x) + Rabs (QV y)).
  { destruct (Rlt_or_le 0 (QV x)) as [H|H].
    - assert (0 < QV y) by (apply Rmult_lt_reg_l with (QV x); lra). rewrite !Rabs_pos_eq; lra.
    - assert (QV x < 0) by (destruct H as [H|H]; [exact H|rewrite H, Rmult_0_l in SG; lra]).
      assert (QV y < 0) by (destruct (Rlt_or_le (QV y) 0) as [K|K]; [exact K|assert (0 <= - QV x * QV y) by (apply Rmult_le_pos; lra); lra]).
      rewrite !Rabs_left; lra. }
  assert (PM : 0 < M).
  { assert (QV x <> 0) by (intros K; rewrite K, Rmult_0_l in SG; lra). assert (K := Rabs_pos_lt _ H). lra. }
  assert (SL : (1 - / 100000) * M <= Rabs (QV x + QV y)).
  { rewrite ES. unfold M, Rmax. destruct (Rle_dec X Y); lra. }
  assert (MB : M <= bp 900) by (unfold M, Rmax; destruct (Rle_dec X Y); lra).
  set (m := d * M).
  assert (m1 : 4 * (u * M) <= m). { unfold m. replace (4 * (u * M)) with (4 * u * M) by ring. apply Rmult_le_compat_r; lra. }
  assert (m2 : m <= / 1099511627776 * M) by (apply Rmult_le_compat_r; lra).
  assert (dX : d * X <= m) by (apply Rmult_le_compat_l; lra). assert (dY : d * Y <= m) by (apply Rmult_le_compat_l; lra).
  rewrite q_add_fin by assumption.
  destruct (q_add_core_L M m x y) as [L E].
  { repeat split; lra. }
  { destruct Fx as (? & ? & ? & ?). unfold QB, fb. fold X. repeat split; first [assumption|lra]. }
  { destruct Fy as (? & ? & ? & ?). unfold QB, fb. fold Y. repeat split; first [assumption|lra]. }
  set (z := QV x + QV y) in *. clearbody z. set (q := q_add_core x y) in *. clearbody q.
  assert (FQ := lbQ_fin _ _ _ _ _ L). destruct L as (_ & [_ C1] & [_ C2] & [_ C3]).
  split.
  - apply QL_mono with ((1 + / 1000) * ((17 + / 2) * u)); [lra|].
    apply (QL_intro ((17 + / 2) * u) q z M PM); [lra|lra|exact FQ|exact SL|lra|lra|lra|lra].
  - eapply Rle_trans; [exact E|]. assert (PU : 0 <= u * d) by (apply Rmult_le_pos; lra).
    apply Rle_trans with (680 * (u * d) * ((1 - / 100000) * M)).
    + unfold m. replace (672 * (u * (d * M))) with (672 * (u * d) * M) by ring.
      replace (680 * (u * d) * ((1 - / 100000) * M)) with (680 * (u * d) * (1 - / 100000) * M) by ring. apply Rmult_le_compat_r; lra.
    + apply Rmult_le_compat_l; [lra|exact SL].
Qed.
