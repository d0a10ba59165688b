(** * Quad squaring and power-of-two scaling keep the class [QGeo] *)
From Coq Require Import ZArith Reals List Bool Lia Lra.
From Flocq Require Import Core IEEE754.BinarySingleNaN Mult_error.
From Verif Require Import F64 F64Facts Prim DoubleM QuadM RN Spec EFT SpecialProofs QuadSpec QAddAcc QAddThms QMulAcc QMulThms QMulFine QFallAcc QGeoAcc QGeoMul QSqrAcc LdexpProofs DDivProofs OrderProofs.
Import ListNotations.
Local Open Scope R_scope.

Lemma q_sqr_geoS x : QGeoS x -> Rabs (QV x) <= bp 498 -> bp (-500) <= QV x * QV x ->
  QGeo (q_sqr x) /\ Rabs (QV (q_sqr x) - QV x * QV x) <= bp (-146) * (QV x * QV x).
Proof.
  intros Hx Bx Lo.
  assert (Ix := QGeoS_hi x Hx). assert (Jx := QGeoS_le x Hx).
  assert (EP : QV x * QV x = Rabs (QV x) * Rabs (QV x)) by (rewrite <- Rabs_mult, Rabs_pos_eq; [reflexivity|apply Rle_0_sqr]).
  rewrite q_sqr_fin by apply Hx.
  destruct Hx as ((Fx0 & Fx1 & Fx2 & Fx3) & X1 & X2 & X3 & _).
  set (X := Rabs (V (q0 x))) in *.
  assert (PX : 0 <= X) by apply Rabs_pos. assert (PQX := Rabs_pos (QV x)).
  assert (B499 : 2 * bp 498 = bp 499) by (change 2 with (bp 1); rewrite <- bpow_plus; reflexivity).
  assert (B500 : 2 * bp 499 = bp 500) by (change 2 with (bp 1); rewrite <- bpow_plus; reflexivity).
  assert (P498 := bpow_gt_0 radix2 498).
  assert (QX : Q500 x) by (unfold Q500, fb; fold X; repeat split; try assumption; lra).
  set (N0 := X * X).
  assert (PN : 0 <= N0) by (apply Rmult_le_pos; lra).
  rewrite EP in Lo |- *.
  assert (U1 : N0 <= (1 + / 524288) * (1 + / 524288) * (Rabs (QV x) * Rabs (QV x))).
  { unfold N0. replace ((1 + / 524288) * (1 + / 524288) * (Rabs (QV x) * Rabs (QV x))) with (((1 + / 524288) * Rabs (QV x)) * ((1 + / 524288) * Rabs (QV x))) by ring.
    apply Rmult_le_compat; lra. }
  assert (U2 : Rabs (QV x) * Rabs (QV x) <= (1 + / 524288) * (1 + / 524288) * N0).
  { unfold N0. replace ((1 + / 524288) * (1 + / 524288) * (X * X)) with (((1 + / 524288) * X) * ((1 + / 524288) * X)) by ring.
    apply Rmult_le_compat; lra. }
  assert (Hi : N0 <= bp 1000).
  { unfold N0. replace (bp 1000) with (bp 500 * bp 500) by (rewrite <- bpow_plus; reflexivity). apply Rmult_le_compat; lra. }
  assert (Lo1 : bp (-501) <= N0).
  { assert (2 * bp (-501) = bp (-500)) by (change 2 with (bp 1); rewrite <- bpow_plus; reflexivity). assert (P := bpow_gt_0 radix2 (-501)). lra. }
  assert (L5 : bp (-760) <= 1024 * u * u * u * u * u * N0).
  { replace (bp (-760)) with (bp (-259) * bp (-501)) by (rewrite <- bpow_plus; reflexivity).
    apply Rmult_le_compat; [apply bpow_ge_0|apply bpow_ge_0| |exact Lo1].
    change (-259)%Z with (10 + -53 + -53 + -53 + -53 + -53 + -4)%Z. rewrite !bpow_plus. change (bp 10) with 1024. change (bp (-53)) with u. change (bp (-4)) with (/ 16). lra. }
  assert (L713 : eta <= / 1048576 * bp (-760)).
  { assert (1048576 * eta <= bp (-760)) by (change 1048576 with (bp 20); rewrite <- bpow_plus; apply bpow_le; lia). lra. }
  assert (Peta := bpow_gt_0 radix2 (-1073)).
  assert (dbl : forall a, Fin a -> Rabs (V a) <= bp 499 -> fb (bp 500) (fmul f2 a) /\ V (fmul f2 a) = 2 * V a).
  { intros a Fa Ba. destruct (Bd_mul 1 499 f2 a) as [B E]; [lia|split; [apply Fin_2|rewrite V_2, Rabs_pos_eq by lra; change (bp 1) with 2; lra]|split; assumption|].
    rewrite V_2, rn_twice in E by auto with fmt. split; [|exact E]. destruct B as [B _]. split; [exact B|].
    rewrite E, Rabs_mult, (Rabs_pos_eq 2) by lra. lra. }
  destruct (dbl (q0 x) Fx0 ltac:(fold X; lra)) as [Bdx Vdx]. destruct (dbl (q1 x) Fx1 ltac:(lra)) as [Bdy Vdy].
  destruct (sqr_core_ex x) as (h0 & l0 & h1 & l1 & h2 & l2 & h3 & l3 & h4 & h5 & r1 & a1 & b0 & b1 & c0 & c1 & d0 & d1 & e0' & e1' & g0 & g1 & i0 & i1 & r2 & j1 & k0 & k1 & m0 & m1 & n0 & n1 & o0 & o1 & r3 & z1 & r4 & E0 & E1 & E2 & E3 & E4 & E5 & T1 & T2 & T3 & T4 & T5 & T6 & T7 & T8 & T9 & T10 & T11 & T12 & T13 & Er4 & EC).
  rewrite EC.
  assert (EA : Rabs (V (q0 x) * V (q0 x)) = N0) by (rewrite Rabs_mult; reflexivity).
  destruct (two_prod_ok 500 500 (q0 x) (q0 x)) as (F0 & G0 & H0 & H0'); [lia|split; [apply QX|apply QX]|split; [apply QX|apply QX]| |].
  { intros _. rewrite EA. eapply Rle_trans; [|exact Lo1]. apply bpow_le. lia. }
  rewrite E0 in F0, G0, H0, H0'. cbn [fst snd] in F0, G0, H0, H0'.
  set (P := V (q0 x) * V (q0 x)) in *.
  assert (K0 : Rabs (rn P - P) <= u * N0 + eta).
  { assert (K := rn_err P). rewrite EA in K. assert (bp (-1075) <= eta) by (apply bpow_le; lia). lra. }
  assert (Bl0 : Rabs (V l0) <= 101 / 100 * (4 * u * N0)).
  { rewrite H0', <- Rabs_Ropp. replace (- (P - rn P)) with (rn P - P) by ring. lra. }
  assert (pb : forall a b A B C, Rabs a <= A * X -> Rabs b <= B * X -> 0 <= A -> 0 <= B -> A * B <= C -> Rabs (a * b) <= C * N0).
  { intros a b A B C Ha Hb PA PB HC. rewrite Rabs_mult.
    apply Rle_trans with ((A * X) * (B * X)); [apply Rmult_le_compat; auto using Rabs_pos|].
    replace (A * X * (B * X)) with ((A * B) * N0) by (unfold N0; ring). apply Rmult_le_compat_r; assumption. }
  assert (X0 : Rabs (V (q0 x)) <= 1 * X) by (unfold X; lra).
  destruct (sqr_parts_gen x (fmul f2 (q0 x)) (fmul f2 (q1 x)) (4 * u * N0) (16 * u * u * N0) (64 * u * u * u * N0) (256 * u * u * u * u * N0) (1024 * u * u * u * u * u * N0)
    h1 l1 h2 l2 h3 l3 h4 h5 l0 r1 a1 b0 b1 c0 c1 d0 d1 e0' e1' g0 g1 i0 i1 r2 j1 k0 k1 m0 m1 n0 n1 o0 o1 r3 z1 r4)
    as ([Fr1 R1] & [Fr2 R2] & [Fr3 R3] & [Fr4 R4] & _ & _ & RS); try assumption; try lra.
  1: (apply (pb _ _ _ _ _ X0 X1); lra).
  1: (apply (pb _ _ _ _ _ X0 X2); lra).
  1: (apply (pb _ _ _ _ _ X1 X1); lra).
  1: (apply (pb _ _ _ _ _ X0 X3); lra).
  1: (apply (pb _ _ _ _ _ X1 X2); lra).
  1: (apply (pb _ _ _ _ _ X1 X3); lra).
  1: (apply (pb _ _ _ _ _ X2 X2); lra).
  1: (apply (pb _ _ _ _ _ X2 X3); lra).
  1: (apply (pb _ _ _ _ _ X3 X3); lra).
  1: (split; [exact G0|exact Bl0]).
  assert (Bh0 : Rabs (V h0) <= 2 * N0).
  { rewrite H0. replace (rn P) with (rn P - P + P) by ring. eapply Rle_trans; [apply Rabs_triang|]. lra. }
  assert (Hh : N0 <= Rabs (V h0) + Rabs (V l0)).
  { rewrite <- EA. replace P with (V h0 + V l0) by (rewrite H0', H0; ring). apply Rabs_triang. }
  assert (HS : Scales5 N0 (4 * u * N0) (16 * u * u * N0) (64 * u * u * u * N0) (256 * u * u * u * u * N0) (1024 * u * u * u * u * u * N0)).
  { unfold Scales5. clear - PN Hi. clearbody N0. repeat split; lra. }
  clear E1 E2 E3 E4 E5 T1 T2 T3 T4 T5 T6 T7 T8 T9 T10 T11 T12 T13 Er4 EC.
  assert (GG := renorm5_geo _ _ _ _ _ _ h0 r1 r2 r3 r4 HS F0 Fr1 Fr2 Fr3 Fr4 ltac:(lra) ltac:(lra) ltac:(lra) ltac:(lra) ltac:(lra) ltac:(lra) ltac:(lra)).
  destruct (renorm5_any _ _ _ _ _ _ h0 r1 r2 r3 r4 HS F0 Fr1 Fr2 Fr3 Fr4 ltac:(lra) ltac:(lra) ltac:(lra) ltac:(lra) ltac:(lra) ltac:(lra)) as [W1 W2].
  split; [now apply geo4_QGeo|].
  destruct (QV_mkQ4 (renorm5 h0 r1 r2 r3 r4)) as [-> _].
  rewrite EP in RS. set (R0 := Rabs (QV x) * Rabs (QV x)) in *. clearbody R0.
  assert (S1 : Rabs (V h0 + V r1 + V r2 + V r3 + V r4 - R0) <= 64 * (256 * u * u * u * u * N0)).
  { rewrite <- Rabs_Ropp.
    replace (- (V h0 + V r1 + V r2 + V r3 + V r4 - R0)) with (V l0 + (R0 - P) - (V r1 + V r2 + V r3 + V r4)) by (rewrite H0', H0; ring).
    exact RS. }
  change (bp (-146)) with (/ 89202980794122492566142873090593446023921664).
  set (w := qsum4 (renorm5 h0 r1 r2 r3 r4)) in *. set (v := V h0 + V r1 + V r2 + V r3 + V r4) in *.
  clearbody w v N0. clear - W2 S1 U1 PN.
  apply abs_le in W2, S1. apply Rabs_le. lra.
Qed.

(** ** scaling by a power of two *)
(** every component is scaled, and rounded if it becomes subnormal *)
Definition scaled (n : Z) (a b : f64) : Prop := Fin b /\ V b = rn (V a * bp n).
Lemma scaled_facts n a b : (-1074 <= n)%Z -> scaled n a b ->
  V b = V a * bp n \/ (Rabs (V a * bp n) <= bp (-1022) /\ Rabs (V b) <= bp (-1022) /\ Rabs (V b - V a * bp n) <= bp (-1075)).
Proof.
  intros Hn [Fb E]. rewrite E. destruct (Rle_or_lt (bp (-1022)) (Rabs (V a * bp n))) as [L|L].
  - left. destruct (Z_le_gt_dec 0 n) as [P|P].
    + apply rn_id. apply mult_bpow_pos_exact_FLT; auto using V_fmt.
    + rewrite rn_scale; [now rewrite (rn_id (V a)) by apply V_fmt| |exact L].
      apply Rle_trans with (1 := L). rewrite Rabs_mult, (Rabs_pos_eq (bp n)) by apply bpow_ge_0.
      assert (bp n <= 1) by (change 1 with (bp 0); apply bpow_le; lia). assert (P0 := Rabs_pos (V a)).
      rewrite <- (Rmult_1_r (Rabs (V a))) at 2. apply Rmult_le_compat_l; lra.
  - right. split; [lra|]. split; [apply rn_abs_le; [apply fmt_bpow; lia|lra]|]. apply sub_err. exact L.
Qed.
Lemma QGeo_scaled n x y : (-1074 <= n)%Z -> QGeo x -> scaled n (q0 x) (q0 y) -> scaled n (q1 x) (q1 y) -> scaled n (q2 x) (q2 y) -> scaled n (q3 x) (q3 y) ->
  bp (-800) <= Rabs (V (q0 x)) * bp n -> QGeoS y /\ Rabs (QV y - QV x * bp n) <= bp (-1073).
Proof.
  intros Hn (F & H1 & H2 & H3 & H4) S0 S1 S2 S3 Lo.
  assert (FY : QFin y). { repeat split; [apply S0|apply S1|apply S2|apply S3]. }
  apply scaled_facts in S0; [|exact Hn]. apply scaled_facts in S1; [|exact Hn]. apply scaled_facts in S2; [|exact Hn]. apply scaled_facts in S3; [|exact Hn].
  assert (Pn := bpow_gt_0 radix2 n). set (b := bp n) in *.
  assert (A : forall a, Rabs (a * b) = Rabs a * b) by (intros a; rewrite Rabs_mult, (Rabs_pos_eq b) by lra; reflexivity).
  assert (L1 : bp (-1022) <= / 1048576 * (u * u * u * bp (-800))).
  { change (/ 1048576) with (bp (-20)). rewrite <- u_bp, <- !bpow_plus. apply bpow_le. lia. }
  assert (L2 : 4 * bp (-1075) <= bp (-1073)) by (change 4 with (bp 2); rewrite <- bpow_plus; apply bpow_le; lia).
  assert (P8 := bpow_gt_0 radix2 (-800)). assert (P10 := bpow_gt_0 radix2 (-1022)). assert (P75 := bpow_gt_0 radix2 (-1075)).
  assert (L3 : bp (-1022) < bp (-800)) by (apply bpow_lt; lia).
  destruct S0 as [S0|[S0 _]]; [|rewrite A in S0; lra].
  change (bpow radix2 (-53)) with u in *.
  assert (G1 : Rabs (V (q1 x)) * b <= 2 * u * (Rabs (V (q0 x)) * b)).
  { replace (2 * u * (Rabs (V (q0 x)) * b)) with (2 * u * Rabs (V (q0 x)) * b) by ring. apply Rmult_le_compat_r; lra. }
  assert (G2 : Rabs (V (q2 x)) * b <= 8 * u * u * (Rabs (V (q0 x)) * b)).
  { replace (8 * u * u * (Rabs (V (q0 x)) * b)) with (8 * u * u * Rabs (V (q0 x)) * b) by ring. apply Rmult_le_compat_r; lra. }
  assert (G3 : Rabs (V (q3 x)) * b <= 48 * u * u * u * (Rabs (V (q0 x)) * b)).
  { replace (48 * u * u * u * (Rabs (V (q0 x)) * b)) with (48 * u * u * u * Rabs (V (q0 x)) * b) by ring. apply Rmult_le_compat_r; lra. }
  assert (G4 : Rabs (V (q2 x)) * b <= 32 * (Rabs (V (q1 x)) * b) + 16 * u * u * u * (Rabs (V (q0 x)) * b)).
  { replace (32 * (Rabs (V (q1 x)) * b) + 16 * u * u * u * (Rabs (V (q0 x)) * b)) with ((32 * Rabs (V (q1 x)) + 16 * u * u * u * Rabs (V (q0 x))) * b) by ring. apply Rmult_le_compat_r; lra. }
  assert (E0 : Rabs (V (q0 y)) = Rabs (V (q0 x)) * b) by (rewrite S0; apply A).
  set (m0 := Rabs (V (q0 x)) * b) in *. set (m1 := Rabs (V (q1 x)) * b) in *. set (m2 := Rabs (V (q2 x)) * b) in *. set (m3 := Rabs (V (q3 x)) * b) in *.
  assert (Q : forall c c', V c' = V c * b \/ (Rabs (V c * b) <= bp (-1022) /\ Rabs (V c') <= bp (-1022) /\ Rabs (V c' - V c * b) <= bp (-1075)) ->
     (Rabs (V c') = Rabs (V c) * b \/ (Rabs (V c) * b <= bp (-1022) /\ Rabs (V c') <= bp (-1022))) /\ Rabs (V c' - V c * b) <= bp (-1075)).
  { intros c c' [->|(K1 & K2 & K3)].
    - split; [left; apply A|]. rewrite Rminus_diag_eq, Rabs_R0 by reflexivity. lra.
    - rewrite A in K1. auto. }
  destruct (Q _ _ S1) as [T1 D1]. destruct (Q _ _ S2) as [T2 D2]. destruct (Q _ _ S3) as [T3 D3]. fold m1 in T1. fold m2 in T2. fold m3 in T3.
  split.
  - split; [exact FY|]. rewrite E0. 
    assert (Pm : 0 < m0) by lra. assert (Pu : 0 <= u * u * u * m0) by lra.
    assert (N1 := Rabs_pos (V (q1 y))).
    split; [destruct T1 as [T1|[T1 T1']]; lra|]. split; [destruct T2 as [T2|[T2 T2']]; lra|]. split; [destruct T3 as [T3|[T3 T3']]; lra|].
    destruct T2 as [T2|[T2 T2']]; destruct T1 as [T1|[T1 T1']]; lra.
  - replace (QV y - QV x * b) with ((V (q1 y) - V (q1 x) * b) + (V (q2 y) - V (q2 x) * b) + (V (q3 y) - V (q3 x) * b)) by (unfold QV; rewrite S0; ring).
    clear - D1 D2 D3 L2 P75. absall. apply Rabs_le. lra.
Qed.
