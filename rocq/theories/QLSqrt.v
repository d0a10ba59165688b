(** * Quad squaring and square root on the two-scale class *)
From Coq Require Import ZArith Reals List Bool Lia Lra.
From Flocq Require Import Core IEEE754.BinarySingleNaN.
From Verif Require Import F64 F64Facts Prim DoubleM QuadM AlgM RN Spec EFT SpecialProofs ExactProofs QExactProofs LawProofs QuadSpec QAddAcc QAddThms QMulAcc QMulThms QGeoAcc QGeoMul QSqrAcc QLoose QLDiv QLOps
  QPowProofs FoldThms ExprProofs ParseM ParseSpec ParseProofs ParseThms ParseNum DDivProofs DAddProofs DMulProofs FromProofs QParse SqrtProofs OrderProofs.
Import ListNotations.
Local Open Scope R_scope.

Lemma q_sqr_L d x : 4 * u <= d -> d <= / 1099511627776 -> QL d x ->
  Rabs (V (q0 x)) <= bp 490 -> bp (-600) <= Rabs (V (q0 x)) * Rabs (V (q0 x)) ->
  QL (4 * u) (q_sqr x) /\ Rabs (QV (q_sqr x) - QV x * QV x) <= (66 * (d * d) + 470 * (u * d)) * (QV x * QV x).
Proof.
  intros Hd1 Hd2 Lx XH LO. assert (Pd : 0 <= d) by lra.
  assert (AX := QL_abs d x Pd Hd2 Lx).
  destruct Lx as (Fx & X1 & X2 & X3).
  set (X := Rabs (V (q0 x))) in *. assert (PX : 0 <= X) by apply Rabs_pos.
  assert (P6 := bpow_gt_0 radix2 (-600)).
  set (N0 := X * X) in *. set (N1 := d * N0). set (N2 := d * N1).
  assert (PN : 0 < N0) by lra.
  assert (n1 : 4 * (u * N0) <= N1). { unfold N1. replace (4 * (u * N0)) with (4 * u * N0) by ring. apply Rmult_le_compat_r; lra. }
  assert (n2 : N1 <= / 1099511627776 * N0) by (apply Rmult_le_compat_r; lra).
  assert (n3 : N2 <= / 1099511627776 * N1) by (apply Rmult_le_compat_r; lra).
  assert (n4 : 4 * (u * N1) <= N2). { unfold N2. replace (4 * (u * N1)) with (4 * u * N1) by ring. apply Rmult_le_compat_r; lra. }
  assert (PN2 : 0 <= N2) by (apply Rmult_le_pos; lra).
  assert (NB : N0 <= bp 980). { replace (bp 980) with (bp 490 * bp 490) by (rewrite <- bpow_plus; reflexivity). apply Rmult_le_compat; assumption. }
  assert (G1 : 2 * bp 980 <= bp 1000). { assert (E : bp 20 * bp 980 = bp 1000) by (rewrite <- bpow_plus; reflexivity). change (bp 20) with 1048576 in E. assert (0 < bp 980) by apply bpow_gt_0. lra. }
  assert (G9 : bp 490 <= bp 499) by (apply bpow_le; lia). assert (G10 : 2 * bp 499 = bp 500) by (change 2 with (bp 1); rewrite <- bpow_plus; reflexivity).
  assert (P49 := bpow_gt_0 radix2 499).
  assert (ET : eta <= / 1024 * N2).
  { apply Rle_trans with (/ 1024 * (4 * (u * (4 * (u * bp (-600)))))); [|lra].
    change (/ 1024) with (bp (-10)). change 4 with (bp 2). rewrite <- !u_bp, <- !bpow_plus. apply bpow_le. lia. }
  assert (ET2 : eta <= / 1024 * (u * N0)).
  { apply Rle_trans with (/ 1024 * (u * bp (-600))); [|lra].
    change (/ 1024) with (bp (-10)). rewrite <- !u_bp, <- !bpow_plus. apply bpow_le. lia. }
  rewrite q_sqr_fin by assumption.
  assert (dX : d * X <= / 1099511627776 * X) by (apply Rmult_le_compat_r; lra).
  assert (PdX : 0 <= d * X) by (apply Rmult_le_pos; assumption).
  assert (M1 : forall a b A B, Rabs a <= A -> Rabs b <= B -> 0 <= A -> 0 <= B -> Rabs (a * b) <= A * B).
  { intros a b A B Ha Hb PA PB. rewrite Rabs_mult. apply Rmult_le_compat; first [apply Rabs_pos|assumption]. }
  assert (Z01 : X * (d * X) = N1) by (unfold N1, N0; ring). assert (Z11 : (d * X) * (d * X) = N2) by (unfold N2, N1, N0; ring).
  assert (K01 : forall a b, Rabs a <= X -> Rabs b <= d * X -> Rabs (a * b) <= N1) by (intros; rewrite <- Z01; apply M1; assumption).
  assert (K11 : forall a b, Rabs a <= d * X -> Rabs b <= d * X -> Rabs (a * b) <= N2) by (intros; rewrite <- Z11; apply M1; assumption).
  assert (K11' : forall a b, Rabs a <= d * X -> Rabs b <= d * X -> Rabs (a * b) <= N1) by (intros a b Ha Hb; assert (K := K11 a b Ha Hb); lra).
  assert (XX : Rabs (V (q0 x)) <= X) by apply Rle_refl.
  assert (QX : Q500 x). { destruct Fx as (? & ? & ? & ?). unfold Q500, fb. fold X. repeat split; first [assumption|lra]. }
  assert (dbl : forall a, Fin a -> Rabs (V a) <= bp 499 -> fb (bp 500) (fmul f2 a) /\ V (fmul f2 a) = 2 * V a).
  { intros a Fa Ba. destruct (Bd_mul 1 499 f2 a) as [B E]; [lia|split; [apply Fin_2|rewrite V_2, Rabs_pos_eq by lra; change (bp 1) with 2; lra]|split; assumption|].
    rewrite V_2, rn_twice in E by auto with fmt. split; [|exact E]. destruct B as [B _]. split; [exact B|].
    rewrite E, Rabs_mult, (Rabs_pos_eq 2) by lra. lra. }
  destruct (dbl (q0 x) (proj1 Fx) ltac:(fold X; lra)) as [Bdx Vdx]. destruct (dbl (q1 x) (proj1 (proj2 Fx)) ltac:(lra)) as [Bdy Vdy].
  destruct (sqr_core_ex x) as (h0 & l0 & h1 & l1 & h2 & l2 & h3 & l3 & h4 & h5 & r1 & a1 & b0 & b1 & c0 & c1 & d0 & d1 & e0' & e1' & g0 & g1 & i0 & i1 & r2 & j1 & k0 & k1 & m0 & m1 & n0 & n1' & o0 & o1 & r3 & z1 & r4 & E0 & E1 & E2 & E3 & E4 & E5 & T1 & T2 & T3 & T4 & T5 & T6 & T7 & T8 & T9 & T10 & T11 & T12 & T13 & Er4 & EC).
  rewrite EC.
  destruct (tpb (q0 x) (q0 x) N0) as (h0' & l0' & E0' & Fh0 & Fl0 & A0 & A1 & A2); [apply Fx|apply Fx|fold X; lra|fold X; lra|apply M1; assumption|].
  rewrite E0 in E0'. injection E0' as <- <-.
  destruct (sqr_parts_gen x (fmul f2 (q0 x)) (fmul f2 (q1 x)) N1 N1 N1 N2 N2 h1 l1 h2 l2 h3 l3 h4 h5 l0 r1 a1 b0 b1 c0 c1 d0 d1 e0' e1' g0 g1 i0 i1 r2 j1 k0 k1 m0 m1 n0 n1' o0 o1 r3 z1 r4)
    as (R1 & R2 & R3 & R4 & _ & _ & RE); try assumption; try lra; try (now apply K01); try (now apply K11); try (now apply K11').
  { split; [exact Fl0|lra]. }
  destruct (renorm5_L ((1 + 2 * u) * N0) (52 * N1) (4 * N1) (30 * N1) (17 * N1 + / 2 * N1) (/ 2 * N1) h0 r1 r2 r3 r4) as [W1 W2].
  { repeat split; lra. } 1-5: lra. { split; [exact Fh0|lra]. }
  { destruct R1; split; [assumption|lra]. } { destruct R2; split; [assumption|lra]. } { destruct R3; split; [assumption|lra]. } { destruct R4; split; [assumption|lra]. }
  clear E0 E1 E2 E3 E4 E5 T1 T2 T3 T4 T5 T6 T7 T8 T9 T10 T11 T12 T13 Er4 EC.
  destruct (QV_mkQ4 (renorm5 h0 r1 r2 r3 r4)) as [Q1 _]. rewrite <- Q1 in W2. apply lbQ_mkQ4 in W1.
  set (q := mkQ4 (renorm5 h0 r1 r2 r3 r4)) in *. clearbody q.
  assert (XY : (1 - / 100000) * N0 <= QV x * QV x).
  { rewrite <- (Rabs_pos_eq (QV x * QV x)) by apply Rle_0_sqr. rewrite Rabs_mult. apply Rle_trans with (((1 - / 1000000) * X) * ((1 - / 1000000) * X)).
    - replace (((1 - / 1000000) * X) * ((1 - / 1000000) * X)) with ((1 - / 1000000) * (1 - / 1000000) * N0) by (unfold N0; ring). apply Rmult_le_compat_r; lra.
    - apply Rmult_le_compat; lra. }
  set (z := QV x * QV x) in *. clearbody z. set (s0 := V (q0 x) * V (q0 x)) in *. clearbody s0.
  assert (FE : Rabs (QV q - z) <= 469 * (u * N1) + 65 * N2).
  { clear - A0 RE W2 ET ET2 n3 n4 PN2 n1 PN. assert (Peta := bpow_gt_0 radix2 (-1073)). absall. apply Rabs_le. lra. }
  assert (FQ := lbQ_fin _ _ _ _ _ W1). destruct W1 as (_ & [_ C1] & [_ C2] & [_ C3]).
  split.
  - apply QL_mono with ((1 + / 1000) * (3 * u)); [lra|].
    apply (QL_intro (3 * u) q z N0 PN); [lra|lra|exact FQ|rewrite (Rabs_pos_eq z) by lra; exact XY|lra|lra|lra|lra].
  - eapply Rle_trans; [exact FE|]. replace (469 * (u * N1) + 65 * N2) with ((469 * (u * d) + 65 * (d * d)) * N0) by (unfold N2, N1; ring).
    assert (PU : 0 <= u * d) by (apply Rmult_le_pos; lra). assert (PD : 0 <= d * d) by (apply Rmult_le_pos; lra).
    apply Rle_trans with ((66 * (d * d) + 470 * (u * d)) * ((1 - / 100000) * N0)).
    + replace ((66 * (d * d) + 470 * (u * d)) * ((1 - / 100000) * N0)) with ((66 * (d * d) + 470 * (u * d)) * (1 - / 100000) * N0) by ring.
      apply Rmult_le_compat_r; lra.
    + apply Rmult_le_compat_l; [lra|exact XY].
Qed.
