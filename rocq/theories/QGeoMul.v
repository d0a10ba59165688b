(** * Quad multiplication keeps the class [QGeo] *)
From Coq Require Import ZArith Reals List Bool Lia Lra.
From Flocq Require Import Core IEEE754.BinarySingleNaN.
From Verif Require Import F64 F64Facts Prim DoubleM QuadM RN Spec EFT SpecialProofs QuadSpec QAddAcc QAddThms QMulAcc QMulThms QMulFine QFallAcc QGeoAcc.
Import ListNotations.
Local Open Scope R_scope.

Lemma renorm5_geo N0 N1 N2 N3 N4 N5 a b c d e : Scales5 N0 N1 N2 N3 N4 N5 ->
  Fin a -> Fin b -> Fin c -> Fin d -> Fin e ->
  16 * N1 <= Rabs (V a) -> Rabs (V a) <= 2 * N0 -> N0 <= 3 * Rabs (V a) ->
  Rabs (V b) <= 8 * N1 -> Rabs (V c) <= 32 * N2 -> Rabs (V d) <= 128 * N3 -> Rabs (V e) <= 2048 * N4 ->
  geo4 (renorm5 a b c d e).
Proof.
  intros (P0 & P1 & P2 & P3 & P4 & P5 & P6 & P7 & P8 & P9 & P10 & P11) Fa Fb Fc Fd Fe Ho Ha Ha' Hb Hc Hd He.
  assert (G := big18). assert (G0 := bpow_gt_0 radix2 1000).
  unfold renorm5.
  destruct (qs_lo d e (Rabs (V d)) (Rabs (V e))) as (s1 & e1 & E1 & F1 & F2 & _ & (H12 & H13 & _) & _); [assumption|assumption|lra|lra|lra|lra|]. rewrite E1; clear E1.
  assert (Pd := Rabs_pos (V d)). assert (Pe := Rabs_pos (V e)). assert (Pc := Rabs_pos (V c)). assert (Ps1 := Rabs_pos (V s1)).
  destruct (qs_lo c s1 (Rabs (V c)) (Rabs (V s1))) as (s2 & e2 & E2 & F3 & F4 & _ & (H22 & H23 & _) & H24); [assumption|assumption|lra|lra|lra|lra|]. rewrite E2; clear E2.
  assert (B1 : Rabs (V s1) <= 129 * N3) by lra.
  assert (B2 : Rabs (V s2) <= 33 * N2) by lra.
  destruct (qs_lo b s2 (8 * N1) (33 * N2)) as (s3 & e3 & E3 & F5 & F6 & _ & (H32 & H33 & _) & _); [assumption|assumption|lra|lra|lra|lra|].
  assert (B3 : Rabs (V s3) <= 9 * N1) by lra.
  destruct (qs_lo a s3 (Rabs (V a)) (9 * N1)) as (s4 & e4 & E4 & F7 & F8 & H41 & (H42 & H43 & _) & _); [assumption|assumption|lra|lra|lra|lra|].
  rewrite E3, E4.
  assert (CR : forall s5 e5, quick_two_sum e4 e3 = (s5, e5) -> Rabs (V e3) <= M18 -> Rabs (V e4) <= M18 -> V e4 <> 0 -> V e5 <> 0 -> Rabs (V e2) <= 26 * Rabs (V s5)).
  { intros s5 e5 E5 Be3 Be4 N4' N5'.
    destruct (quick_nz e4 e3 s5 e5 F8 F6 Be4 Be3 E5 N5') as [K1 K2].
    assert (NZ3 : V e3 <> 0).
    { intros Z. apply N5'. destruct (quick_ok e4 e3) as (_ & _ & _ & W); [split; auto; lra..|left; rewrite Z, Rabs_R0; apply Rabs_pos|].
      rewrite E5 in W. cbn [snd] in W. rewrite W, Z, Rplus_0_r, rn_id by auto with fmt. ring. }
    destruct (quick_nz b s2 s3 e3 Fb F3 ltac:(lra) ltac:(lra) E3 NZ3) as [_ K3].
    assert (O : Rabs (V s3) <= Rabs (V a)) by lra.
    destruct (quick_ok a s3) as (_ & _ & V3 & V4); [split; auto; lra..|now left|]. rewrite E4 in V3, V4. cbn [fst snd] in V3, V4.
    assert (GR := err_grid (V a) (V s3) ltac:(auto with fmt) ltac:(auto with fmt) O). rewrite <- V4 in GR. specialize (GR N4').
    assert (Ps5 := Rabs_pos (V s5)). lra. }
  clear E3 E4.
  set (M := Rabs (V a)) in *. 
  assert (PM : 0 <= M) by lra.
  assert (BM : M <= 2 * bp 1000) by lra.
  assert (L0 : Rabs (V s4) <= 1025/1024 * M) by lra.
  assert (K0 : 1023/1024 * M <= Rabs (V s4)) by lra.
  assert (L1 : Rabs (V e4) <= 1025/1024 * u * M) by lra.
  assert (L2 : Rabs (V e3) <= / 1073741824 * u * M) by lra.
  assert (L3 : Rabs (V e2) <= / 524288 * u * u * M) by lra.
  assert (L4 : Rabs (V e1) <= / 32 * u * u * u * M) by lra.
  clear H12 H13 H22 H23 H24 H32 H33 H41 H42 H43 Ho Ha Ha' Hb Hc Hd He P0 P1 P2 P3 P4 P5 P6 P7 P8 P9 P10 P11 Pd Pe Pc Ps1 B1 B2 B3.
  assert (Be3 : Rabs (V e3) <= M18) by lra. assert (Be4 : Rabs (V e4) <= M18) by lra.
  Ltac sg5 := cbn [geo4]; rewrite ?V_0, ?Rabs_R0; repeat (split; [lra|]); lra.
  destruct (fne0 e4) eqn:Z1.
  - stq e4 e3 (1025/1024 * u * M) (/ 1073741824 * u * M) s5 e5 H51 H52 H53 H54 H55.
    assert (Rabs (V s5) <= 1027/1024 * u * M) by lra. assert (Rabs (V e5) <= 1027/1024 * u * u * M) by lra. clear H51 H52 H53 H54.
    destruct (fne0 e5) eqn:Z2.
    + assert (Ps5 := Rabs_pos (V s5)).
      assert (C2 : Rabs (V e2) <= 26 * Rabs (V s5)) by (apply (CR s5 e5 E); auto; now apply fne0_nz).
      stq e5 e2 (1027/1024 * u * u * M) (/ 524288 * u * u * M) s6 e6 H61 H62 H63 H64 H65.
      assert (Rabs (V s6) <= 1029/1024 * u * u * M) by lra. assert (Rabs (V e6) <= 1029/1024 * u * u * u * M) by lra.
      assert (Rabs (V s6) <= 28 * Rabs (V s5)) by lra. clear H61 H62 H63 H64 H55.
      destruct (fne0 e6) eqn:Z3.
      * sf e6 e1 (1029/1024 * u * u * u * M) (/ 32 * u * u * u * M) H71 H72. sg5.
      * stq s6 e1 (1029/1024 * u * u * M) (/ 32 * u * u * u * M) s7 e7 H71 H72 H73 H74 H75. sg5.
    + stq s5 e2 (1027/1024 * u * M) (/ 524288 * u * u * M) s6 e6 H61 H62 H63 H64 H65.
      assert (Rabs (V s6) <= 1029/1024 * u * M) by lra. assert (Rabs (V e6) <= 1029/1024 * u * u * M) by lra. clear H61 H62 H63 H64.
      destruct (fne0 e6) eqn:Z3.
      * stq e6 e1 (1029/1024 * u * u * M) (/ 32 * u * u * u * M) s7 e7 H71 H72 H73 H74 H75. sg5.
      * stq s6 e1 (1029/1024 * u * M) (/ 32 * u * u * u * M) s7 e7 H71 H72 H73 H74 H75. sg5.
  - clear CR. stq s4 e3 (1025/1024 * M) (/ 1073741824 * u * M) s5 e5 H51 H52 H53 H54 H55.
    assert (Rabs (V s5) <= 1027/1024 * M) by lra. assert (1021/1024 * M <= Rabs (V s5)) by lra. assert (Rabs (V e5) <= 1027/1024 * u * M) by lra. clear H51 H52 H53 H54 H55 K0.
    destruct (fne0 e5) eqn:Z2.
    + stq e5 e2 (1027/1024 * u * M) (/ 524288 * u * u * M) s6 e6 H61 H62 H63 H64 H65.
      assert (Rabs (V s6) <= 1029/1024 * u * M) by lra. assert (Rabs (V e6) <= 1029/1024 * u * u * M) by lra. clear H61 H62 H63 H64.
      destruct (fne0 e6) eqn:Z3.
      * stq e6 e1 (1029/1024 * u * u * M) (/ 32 * u * u * u * M) s7 e7 H71 H72 H73 H74 H75. sg5.
      * stq s6 e1 (1029/1024 * u * M) (/ 32 * u * u * u * M) s7 e7 H71 H72 H73 H74 H75. sg5.
    + stq s5 e2 (1027/1024 * M) (/ 524288 * u * u * M) s6 e6 H61 H62 H63 H64 H65.
      assert (Rabs (V s6) <= 1029/1024 * M) by lra. assert (1019/1024 * M <= Rabs (V s6)) by lra. assert (Rabs (V e6) <= 1029/1024 * u * M) by lra. clear H61 H62 H63 H64.
      destruct (fne0 e6) eqn:Z3.
      * stq e6 e1 (1029/1024 * u * M) (/ 32 * u * u * u * M) s7 e7 H71 H72 H73 H74 H75. sg5.
      * stq s6 e1 (1029/1024 * M) (/ 32 * u * u * u * M) s7 e7 H71 H72 H73 H74 H75. assert (Pe7 := Rabs_pos (V e7)). sg5.
Qed.

Lemma geo4_QGeo t : geo4 t -> qfin4 t -> QGeo (mkQ4 t).
Proof.
  intros H F. unfold QGeo. change (bpow radix2 (-53)) with u.
  split; [now apply QV_mkQ4|]. destruct t as [[[a b] c] d]. exact H.
Qed.
Lemma QGeoS_le x : QGeoS x -> Rabs (QV x) <= (1 + / 524288) * Rabs (V (q0 x)).
Proof.
  intros (F & H1 & H2 & H3 & H4).
  assert (Q0 := Rabs_pos (V (q0 x))).
  assert (T : Rabs (QV x) <= Rabs (V (q0 x)) + Rabs (V (q1 x)) + Rabs (V (q2 x)) + Rabs (V (q3 x))).
  { unfold QV. eapply Rle_trans; [apply Rabs_triang|]. apply Rplus_le_compat_r.
    eapply Rle_trans; [apply Rabs_triang|]. apply Rplus_le_compat_r. apply Rabs_triang. }
  lra.
Qed.

Lemma QGeo_le x : QGeo x -> Rabs (QV x) <= (1 + / 524288) * Rabs (V (q0 x)).
Proof. intros H. apply QGeoS_le, QGeoS_of, H. Qed.

Lemma q_mul_geoS x y : QGeoS x -> QGeoS y ->
  Rabs (QV x) <= bp 499 -> Rabs (QV y) <= bp 499 -> bp (-500) <= Rabs (QV x * QV y) ->
  QGeo (q_mul x y) /\ Rabs (QV (q_mul x y) - QV x * QV y) <= bp (-146) * Rabs (QV x * QV y).
Proof.
  intros Hx Hy Bx By Lo.
  assert (Ix := QGeoS_hi x Hx). assert (Iy := QGeoS_hi y Hy). assert (Jx := QGeoS_le x Hx). assert (Jy := QGeoS_le y Hy).
  rewrite Rabs_mult in Lo.
  destruct Hx as ((Fx0 & Fx1 & Fx2 & Fx3) & X1 & X2 & X3 & _). destruct Hy as ((Fy0 & Fy1 & Fy2 & Fy3) & Y1 & Y2 & Y3 & _).
  set (X := Rabs (V (q0 x))) in *. set (Y := Rabs (V (q0 y))) in *.
  assert (PX : 0 <= X) by apply Rabs_pos. assert (PY : 0 <= Y) by apply Rabs_pos.
  assert (PQX := Rabs_pos (QV x)). assert (PQY := Rabs_pos (QV y)).
  assert (B500 : 2 * bp 499 = bp 500) by (change 2 with (bp 1); rewrite <- bpow_plus; reflexivity).
  assert (QX : Q500 x) by (unfold Q500, fb; fold X; repeat split; try assumption; lra).
  assert (QY : Q500 y) by (unfold Q500, fb; fold Y; repeat split; try assumption; lra).
  set (N0 := X * Y).
  assert (PN : 0 <= N0) by (apply Rmult_le_pos; lra).
  assert (U1 : N0 <= (1 + / 524288) * (1 + / 524288) * (Rabs (QV x) * Rabs (QV y))).
  { unfold N0. replace ((1 + / 524288) * (1 + / 524288) * (Rabs (QV x) * Rabs (QV y))) with (((1 + / 524288) * Rabs (QV x)) * ((1 + / 524288) * Rabs (QV y))) by ring.
    apply Rmult_le_compat; lra. }
  assert (U2 : Rabs (QV x) * Rabs (QV y) <= (1 + / 524288) * (1 + / 524288) * N0).
  { unfold N0. replace ((1 + / 524288) * (1 + / 524288) * (X * Y)) with (((1 + / 524288) * X) * ((1 + / 524288) * Y)) by ring.
    apply Rmult_le_compat; lra. }
  assert (Hi : N0 <= bp 1000).
  { unfold N0. replace (bp 1000) with (bp 500 * bp 500) by (rewrite <- bpow_plus; reflexivity). apply Rmult_le_compat; lra. }
  assert (Lo1 : bp (-501) <= N0).
  { assert (2 * bp (-501) = bp (-500)) by (change 2 with (bp 1); rewrite <- bpow_plus; reflexivity). assert (P := bpow_gt_0 radix2 (-501)). lra. }
  assert (NZ : V (q0 x) <> 0).
  { intros Z. assert (Z0 : X = 0) by (unfold X; rewrite Z; apply Rabs_R0). assert (N0 = 0) by (unfold N0; rewrite Z0; ring).
    assert (P701 := bpow_gt_0 radix2 (-501)). lra. }
  rewrite q_mul_fin; [|repeat split; assumption|repeat split; assumption|exact NZ].
  rewrite Rabs_mult.
  set (R0 := Rabs (QV x) * Rabs (QV y)) in *. clearbody R0.
  destruct (mul_core_ex x y) as (h0 & l0 & h1 & l1 & h2 & l2 & h3 & l3 & h4 & l4 & h5 & l5 & h6 & l6 & h7 & l7 & h8 & l8 & h9 & l9 & r1 & t0 & t1 & r2 & t2 & t3 & r3 & t4 & r4 &
    E0 & E1 & E2 & E3 & E4 & E5 & E6 & E7 & E8 & E9 & T1 & T2 & T3 & Er4 & EQ). rewrite EQ.
  assert (L5 : bp (-760) <= 1024 * u * u * u * u * u * N0).
  { replace (bp (-760)) with (bp (-259) * bp (-501)) by (rewrite <- bpow_plus; reflexivity).
    apply Rmult_le_compat; [apply bpow_ge_0|apply bpow_ge_0| |exact Lo1].
    change (-259)%Z with (10 + -53 + -53 + -53 + -53 + -53 + -4)%Z. rewrite !bpow_plus. change (bp 10) with 1024. change (bp (-53)) with u. change (bp (-4)) with (/ 16). lra. }
  assert (L713 : eta <= / 1048576 * bp (-760)).
  { assert (1048576 * eta <= bp (-760)) by (change 1048576 with (bp 20); rewrite <- bpow_plus; apply bpow_le; lia). lra. }
  assert (Peta := bpow_gt_0 radix2 (-1073)).
  assert (EA : Rabs (V (q0 x) * V (q0 y)) = N0) by (rewrite Rabs_mult; reflexivity).
  destruct (two_prod_ok 500 500 (q0 x) (q0 y)) as (F0 & G0 & H0 & H0'); [lia|split; [apply QX|apply QX]|split; [apply QY|apply QY]| |].
  { intros _. rewrite EA. eapply Rle_trans; [|exact Lo1]. apply bpow_le. lia. }
  rewrite E0 in F0, G0, H0, H0'. cbn [fst snd] in F0, G0, H0, H0'.
  set (P := V (q0 x) * V (q0 y)) in *.
  assert (K0 : Rabs (rn P - P) <= u * N0 + eta).
  { assert (K := rn_err P). rewrite EA in K. assert (bp (-1075) <= eta) by (apply bpow_le; lia). lra. }
  assert (Bl0 : Rabs (V l0) <= 101 / 100 * (4 * u * N0)).
  { rewrite H0', <- Rabs_Ropp. replace (- (P - rn P)) with (rn P - P) by ring. lra. }
  assert (pb : forall a b A B C, Rabs a <= A * X -> Rabs b <= B * Y -> 0 <= A -> 0 <= B -> A * B <= C -> Rabs (a * b) <= C * N0).
  { intros a b A B C Ha Hb PA PB HC. rewrite Rabs_mult.
    apply Rle_trans with ((A * X) * (B * Y)); [apply Rmult_le_compat; auto using Rabs_pos|].
    replace (A * X * (B * Y)) with ((A * B) * N0) by (unfold N0; ring). apply Rmult_le_compat_r; assumption. }
  assert (X0 : Rabs (V (q0 x)) <= 1 * X) by (unfold X; lra). assert (Y0 : Rabs (V (q0 y)) <= 1 * Y) by (unfold Y; lra).
  destruct (mul_parts_gen x y (4 * u * N0) (16 * u * u * N0) (64 * u * u * u * N0) (256 * u * u * u * u * N0) (1024 * u * u * u * u * u * N0)
     h1 l1 h2 l2 h3 l3 h4 l4 h5 l5 h6 l6 h7 l7 h8 l8 h9 l9 l0 r1 t0 t1 r2 t2 t3 r3 t4 r4) as ([Fr1 R1] & [Fr2 R2] & [Fr3 R3] & [Fr4 R4] & _ & _ & _ & _ & RS);
    try assumption; try lra.
  1: (apply (pb _ _ _ _ _ X0 Y1); lra).
  1: (apply (pb _ _ _ _ _ X1 Y0); lra).
  1: (apply (pb _ _ _ _ _ X0 Y2); lra).
  1: (apply (pb _ _ _ _ _ X1 Y1); lra).
  1: (apply (pb _ _ _ _ _ X2 Y0); lra).
  1: (apply (pb _ _ _ _ _ X0 Y3); lra).
  1: (apply (pb _ _ _ _ _ X1 Y2); lra).
  1: (apply (pb _ _ _ _ _ X2 Y1); lra).
  1: (apply (pb _ _ _ _ _ X3 Y0); lra).
  1: (apply (pb _ _ _ _ _ X1 Y3); lra).
  1: (apply (pb _ _ _ _ _ X2 Y2); lra).
  1: (apply (pb _ _ _ _ _ X3 Y1); lra).
  1: (apply (pb _ _ _ _ _ X2 Y3); lra).
  1: (apply (pb _ _ _ _ _ X3 Y2); lra).
  1: (apply (pb _ _ _ _ _ X3 Y3); lra).
  1: (split; [exact G0|exact Bl0]).
  assert (Bh0 : Rabs (V h0) <= 2 * N0).
  { rewrite H0. replace (rn P) with (rn P - P + P) by ring. eapply Rle_trans; [apply Rabs_triang|]. lra. }
  assert (Hh : N0 <= Rabs (V h0) + Rabs (V l0)).
  { rewrite <- EA. replace P with (V h0 + V l0) by (rewrite H0', H0; ring). apply Rabs_triang. }
  assert (HS : Scales5 N0 (4 * u * N0) (16 * u * u * N0) (64 * u * u * u * N0) (256 * u * u * u * u * N0) (1024 * u * u * u * u * u * N0)).
  { unfold Scales5. clear - PN Hi. clearbody N0. repeat split; lra. }
  assert (GG := renorm5_geo _ _ _ _ _ _ h0 r1 r2 r3 r4 HS F0 Fr1 Fr2 Fr3 Fr4 ltac:(lra) ltac:(lra) ltac:(lra) R1 R2 R3 R4).
  destruct (renorm5_any _ _ _ _ _ _ h0 r1 r2 r3 r4 HS F0 Fr1 Fr2 Fr3 Fr4 ltac:(lra) ltac:(lra) R1 R2 R3 R4) as [W1 W2].
  split; [now apply geo4_QGeo|].
  destruct (QV_mkQ4 (renorm5 h0 r1 r2 r3 r4)) as [-> _].
  assert (S1 : Rabs (V h0 + V r1 + V r2 + V r3 + V r4 - QV x * QV y) <= 10000 * (1024 * u * u * u * u * u * N0)).
  { rewrite <- Rabs_Ropp.
    replace (- (V h0 + V r1 + V r2 + V r3 + V r4 - QV x * QV y)) with (V l0 + (QV x * QV y - P) - (V r1 + V r2 + V r3 + V r4)) by (rewrite H0', H0; ring).
    exact RS. }
  change (bp (-146)) with (/ 89202980794122492566142873090593446023921664).
  set (w := qsum4 (renorm5 h0 r1 r2 r3 r4)) in *. set (z := QV x * QV y) in *. set (v := V h0 + V r1 + V r2 + V r3 + V r4) in *.
  clearbody w z v N0. clear - W2 S1 U1 PN.
  apply abs_le in W2, S1. apply Rabs_le. lra.
Qed.
Lemma q_mul_geo x y : QGeo x -> QGeo y ->
  Rabs (QV x) <= bp 499 -> Rabs (QV y) <= bp 499 -> bp (-500) <= Rabs (QV x * QV y) ->
  QGeo (q_mul x y) /\ Rabs (QV (q_mul x y) - QV x * QV y) <= bp (-146) * Rabs (QV x * QV y).
Proof. intros Hx Hy. apply q_mul_geoS; now apply QGeoS_of. Qed.
