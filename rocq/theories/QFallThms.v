(** * Quad multiplication: accuracy on the class [QFall], which is closed under it *)
From Coq Require Import ZArith Reals List Bool Lia Lra.
From Flocq Require Import Core IEEE754.BinarySingleNaN.
From Verif Require Import F64 F64Facts Prim DoubleM QuadM RN Spec EFT SpecialProofs QuadSpec QAddAcc QAddThms QMulAcc QMulThms QMulFine QFallAcc.
Local Open Scope R_scope.

Lemma QFall_sc k x : QFall k x -> let e := bp (- k) in let X := Rabs (V (q0 x)) in
  Rabs (V (q1 x)) <= e * X /\ Rabs (V (q2 x)) <= e * e * X /\ Rabs (V (q3 x)) <= e * e * e * X /\
  Rabs (V (q2 x)) <= 4 * e * Rabs (V (q1 x)) + e * e * e * X.
Proof.
  intros (F & H1 & H2 & H3 & H4). cbv zeta.
  replace (bp (- k) * bp (- k)) with (bp (- 2 * k)) by (rewrite <- bpow_plus; f_equal; lia).
  replace (bp (- 2 * k) * bp (- k)) with (bp (- 3 * k)) by (rewrite <- bpow_plus; f_equal; lia).
  replace (4 * bp (- k)) with (bp (2 - k)) by (change 4 with (bp 2); rewrite <- bpow_plus; f_equal; lia).
  auto.
Qed.

Lemma QDec_fall k x : (40 <= k <= 53)%Z -> QDec k x -> QFall (Z.min k 52) x.
Proof.
  intros Hk (F & H1 & H2 & H3).
  set (j := Z.min k 52). assert (E : bp (- k) <= bp (- j)) by (apply bpow_le; lia).
  set (e := bp (- j)) in *. assert (Pe : 0 < e) by apply bpow_gt_0.
  assert (P0 := Rabs_pos (V (q0 x))). assert (P1 := Rabs_pos (V (q1 x))). assert (P2 := Rabs_pos (V (q2 x))).
  assert (L1 : Rabs (V (q1 x)) <= e * Rabs (V (q0 x))) by (eapply Rle_trans; [exact H1|]; apply Rmult_le_compat_r; lra).
  assert (L2 : Rabs (V (q2 x)) <= e * Rabs (V (q1 x))) by (eapply Rle_trans; [exact H2|]; apply Rmult_le_compat_r; lra).
  assert (L3 : Rabs (V (q3 x)) <= e * Rabs (V (q2 x))) by (eapply Rle_trans; [exact H3|]; apply Rmult_le_compat_r; lra).
  assert (M2 : Rabs (V (q2 x)) <= e * (e * Rabs (V (q0 x)))) by (eapply Rle_trans; [exact L2|]; apply Rmult_le_compat_l; lra).
  assert (M3 : Rabs (V (q3 x)) <= e * (e * (e * Rabs (V (q0 x))))) by (eapply Rle_trans; [exact L3|]; apply Rmult_le_compat_l; lra).
  split; [exact F|]. split; [exact L1|].
  replace (bp (- 2 * j)) with (e * e) by (unfold e; rewrite <- bpow_plus; f_equal; lia).
  replace (bp (- 3 * j)) with (e * e * e) by (unfold e; rewrite <- !bpow_plus; f_equal; lia).
  replace (bp (2 - j)) with (4 * e) by (unfold e; change 4 with (bp 2); rewrite <- !bpow_plus; f_equal; lia).
  split; [lra|]. split; [lra|].
  assert (0 <= e * e * e * Rabs (V (q0 x))) by (repeat apply Rmult_le_pos; lra).
  assert (0 <= e * Rabs (V (q1 x))) by (apply Rmult_le_pos; lra). lra.
Qed.

Lemma QFall_le k x : (40 <= k)%Z -> QFall k x ->
  Rabs (QV x) <= (1 + / 524288) * Rabs (V (q0 x)) /\ Rabs (V (q0 x)) <= (1 + / 524288) * Rabs (QV x).
Proof.
  intros Hk H. destruct (QFall_sc k x H) as (H1 & H2 & H3 & _). set (e := bp (- k)) in *.
  assert (B : e <= / 1099511627776) by (change (/ 1099511627776) with (bp (-40)); apply bpow_le; lia).
  assert (P : 0 <= e) by apply bpow_ge_0.
  assert (B2 : e * e <= / 1099511627776) by nra. assert (B3 : e * e * e <= / 1099511627776) by nra.
  assert (Q0 := Rabs_pos (V (q0 x))).
  assert (L1 : Rabs (V (q1 x)) <= / 1099511627776 * Rabs (V (q0 x))) by (eapply Rle_trans; [exact H1|]; apply Rmult_le_compat_r; lra).
  assert (L2 : Rabs (V (q2 x)) <= / 1099511627776 * Rabs (V (q0 x))) by (eapply Rle_trans; [exact H2|]; apply Rmult_le_compat_r; lra).
  assert (L3 : Rabs (V (q3 x)) <= / 1099511627776 * Rabs (V (q0 x))) by (eapply Rle_trans; [exact H3|]; apply Rmult_le_compat_r; lra).
  unfold QV. set (a := V (q0 x)) in *. set (b := V (q1 x)) in *. set (c := V (q2 x)) in *. set (d := V (q3 x)) in *.
  assert (T1 := Rabs_triang (a + b + c) d). assert (T2 := Rabs_triang (a + b) c). assert (T3 := Rabs_triang a b).
  split; [lra|].
  assert (T4 : Rabs a <= Rabs (a + b + c + d) + Rabs b + Rabs c + Rabs d).
  { replace a with ((a + b + c + d) + - b + - c + - d) at 1 by ring.
    assert (S1 := Rabs_triang (a + b + c + d + - b + - c) (- d)). assert (S2 := Rabs_triang (a + b + c + d + - b) (- c)).
    assert (S3 := Rabs_triang (a + b + c + d) (- b)). rewrite !Rabs_Ropp in *. lra. }
  lra.
Qed.

Lemma mul_gridW k x y N0 h0 l0 h1 l1 h2 l2 h3 l3 h4 l4 h5 l5 h6 l6 h7 l7 h8 l8 h9 l9 r1 t0 t1 r2 t2 t3 r3 t4 r4 :
  (40 <= k <= 52)%Z -> QFall k x -> QFall k y -> Q500 x -> Q500 y -> N0 = Rabs (V (q0 x)) * Rabs (V (q0 y)) ->
  bp (-501) <= N0 <= bp 1000 ->
  two_prod (q0 x) (q0 y) = (h0, l0) ->
  two_prod (q0 x) (q1 y) = (h1, l1) -> two_prod (q1 x) (q0 y) = (h2, l2) ->
  two_prod (q0 x) (q2 y) = (h3, l3) -> two_prod (q1 x) (q1 y) = (h4, l4) -> two_prod (q2 x) (q0 y) = (h5, l5) ->
  two_prod (q0 x) (q3 y) = (h6, l6) -> two_prod (q1 x) (q2 y) = (h7, l7) -> two_prod (q2 x) (q1 y) = (h8, l8) -> two_prod (q3 x) (q0 y) = (h9, l9) ->
  three_three_sum h1 h2 l0 = (r1, t0, t1) -> six_three_sum t0 h3 h4 h5 l1 l2 = (r2, t2, t3) ->
  nine_two_sum t1 t2 h6 h7 h8 h9 l3 l4 l5 = (r3, t4) ->
  r4 = fadd (fadd (fadd (fadd (fadd (fadd (fadd (fadd t3 t4) (fmul (q1 x) (q3 y))) (fmul (q2 x) (q2 y))) (fmul (q3 x) (q1 y))) l6) l7) l8) l9 ->
  let e := bp (- k) in let N1 := e * N0 in let N2 := e * N1 in let N3 := e * N2 in let N4 := e * N3 in
  fb (2 * N0) h0 /\ 16 * N1 <= Rabs (V h0) /\ N0 <= 3 * Rabs (V h0) /\ fb (8 * N1) r1 /\ fb (32 * N2) r2 /\ fb (128 * N3) r3 /\ fb (2048 * N4) r4 /\
  Rabs (V h0 + V r1 + V r2 + V r3 + V r4 - QV x * QV y) <= N4 /\
  ((exists k, (-1074 <= k)%Z /\ mult2 k (V r1) /\ Rabs (V r2) + Rabs (V r3) + Rabs (V r4) <= / 2 * bp (k + 52)) \/
   (Rabs (V r1) <= / 4 * N2 /\ Rabs (V r2) + Rabs (V r3) + Rabs (V r4) <= 200 * N3)).
Proof.
  intros Hk Hx Hy QX QY EN [Lo Hi] E0 E1 E2 E3 E4 E5 E6 E7 E8 E9 T1 T2 T3 Er4 e.
  assert (Pe : 0 < e) by apply bpow_gt_0.
  assert (Ue : u <= e) by (change u with (bp (-53)); apply bpow_le; lia).
  assert (Le : e <= / 1099511627776) by (change (/ 1099511627776) with (bp (-40)); apply bpow_le; lia).
  assert (Ge : bp (-53) <= e) by (apply bpow_le; lia).
  assert (Peta := bpow_gt_0 radix2 (-1073)). assert (P501 := bpow_gt_0 radix2 (-501)).
  intros N1 N2 N3 N4. set (N5 := e * N4).
  assert (em : forall N, 0 <= N -> e * N <= / 1099511627776 * N) by (intros; apply Rmult_le_compat_r; assumption).
  assert (um : forall N, 0 <= N -> u * N <= e * N) by (intros; apply Rmult_le_compat_r; assumption).
  assert (nn : forall N, 0 <= N -> 0 <= e * N) by (intros; apply Rmult_le_pos; lra).
  assert (PN1 : 0 <= N1) by (apply nn; lra). assert (PN2 : 0 <= N2) by (apply nn; lra). assert (PN3 : 0 <= N3) by (apply nn; lra). assert (PN4 : 0 <= N4) by (apply nn; lra).
  assert (PN5 : 0 <= N5) by (apply nn; lra).
  assert (A1 := em N0 ltac:(lra)). fold N1 in A1. assert (A2 := em N1 PN1). fold N2 in A2. assert (A3 := em N2 PN2). fold N3 in A3. assert (A4 := em N3 PN3). fold N4 in A4. assert (A5 := em N4 PN4). fold N5 in A5.
  assert (U1 := um N0 ltac:(lra)). fold N1 in U1. assert (U2 := um N1 PN1). fold N2 in U2. assert (U3 := um N2 PN2). fold N3 in U3. assert (U4 := um N3 PN3). fold N4 in U4. assert (U5 := um N4 PN4). fold N5 in U5.
  assert (L5 : bp (-761) <= N5).
  { unfold N5, N4, N3, N2, N1. replace (e * (e * (e * (e * (e * N0))))) with ((e * (e * (e * (e * e)))) * N0) by ring.
    replace (bp (-761)) with (bp (-260) * bp (-501)) by (rewrite <- bpow_plus; reflexivity).
    apply Rmult_le_compat; [apply bpow_ge_0|apply bpow_ge_0| |exact Lo].
    unfold e. rewrite <- !bpow_plus. apply bpow_le. lia. }
  assert (L713 : eta <= / 1048576 * bp (-761)).
  { assert (1048576 * eta <= bp (-761)) by (change 1048576 with (bp 20); rewrite <- bpow_plus; apply bpow_le; lia). lra. }
  assert (QX' := QX). assert (QY' := QY).
  destruct QX' as ((Fx0 & Bx0) & (Fx1 & Bx1) & (Fx2 & Bx2) & (Fx3 & Bx3)). destruct QY' as ((Fy0 & By0) & (Fy1 & By1) & (Fy2 & By2) & (Fy3 & By3)).
  assert (EA : Rabs (V (q0 x) * V (q0 y)) = N0) by (rewrite Rabs_mult; now symmetry).
  (* the leading product is exact *)
  destruct (two_prod_ok 500 500 (q0 x) (q0 y)) as (F0 & G0 & H0 & H0'); [lia|split; assumption..| |].
  { intros _. rewrite EA. eapply Rle_trans; [|exact Lo]. apply bpow_le. lia. }
  rewrite E0 in F0, G0, H0, H0'. cbn [fst snd] in F0, G0, H0, H0'.
  set (P := V (q0 x) * V (q0 y)) in *.
  assert (K0 : Rabs (rn P - P) <= u * N0 + eta).
  { assert (K := rn_err P). rewrite EA in K. assert (bp (-1075) <= eta) by (apply bpow_le; lia). lra. }
  assert (Bl0 : Rabs (V l0) <= 101 / 100 * N1).
  { rewrite H0', <- Rabs_Ropp. replace (- (P - rn P)) with (rn P - P) by ring. lra. }
  (* partial products *)
  destruct (QFall_sc k x Hx) as (X1 & X2 & X3 & X4). destruct (QFall_sc k y Hy) as (Y1 & Y2 & Y3 & Y4). cbv zeta in *. fold e in X1, X2, X3, X4, Y1, Y2, Y3, Y4.
  set (X := Rabs (V (q0 x))) in *. set (Y := Rabs (V (q0 y))) in *.
  assert (PX : 0 <= X) by apply Rabs_pos. assert (PY : 0 <= Y) by apply Rabs_pos.
  assert (pb : forall a b A B C, Rabs a <= A -> Rabs b <= B -> A * B = C -> Rabs (a * b) <= C).
  { intros a b A B C Ha Hb <-. rewrite Rabs_mult. apply Rmult_le_compat; auto using Rabs_pos. }
  assert (X0 : Rabs (V (q0 x)) <= X) by (unfold X; lra). assert (Y0 : Rabs (V (q0 y)) <= Y) by (unfold Y; lra).
  assert (P01 : Rabs (V (q0 x) * V (q1 y)) <= N1) by (apply (pb _ _ _ _ _ X0 Y1); unfold N1; rewrite EN; ring).
  assert (P10 : Rabs (V (q1 x) * V (q0 y)) <= N1) by (apply (pb _ _ _ _ _ X1 Y0); unfold N1; rewrite EN; ring).
  assert (P02 : Rabs (V (q0 x) * V (q2 y)) <= N2) by (apply (pb _ _ _ _ _ X0 Y2); unfold N2, N1; rewrite EN; ring).
  assert (P11 : Rabs (V (q1 x) * V (q1 y)) <= N2) by (apply (pb _ _ _ _ _ X1 Y1); unfold N2, N1; rewrite EN; ring).
  assert (P20 : Rabs (V (q2 x) * V (q0 y)) <= N2) by (apply (pb _ _ _ _ _ X2 Y0); unfold N2, N1; rewrite EN; ring).
  assert (P03 : Rabs (V (q0 x) * V (q3 y)) <= N3) by (apply (pb _ _ _ _ _ X0 Y3); unfold N3, N2, N1; rewrite EN; ring).
  assert (P12 : Rabs (V (q1 x) * V (q2 y)) <= N3) by (apply (pb _ _ _ _ _ X1 Y2); unfold N3, N2, N1; rewrite EN; ring).
  assert (P21 : Rabs (V (q2 x) * V (q1 y)) <= N3) by (apply (pb _ _ _ _ _ X2 Y1); unfold N3, N2, N1; rewrite EN; ring).
  assert (P30 : Rabs (V (q3 x) * V (q0 y)) <= N3) by (apply (pb _ _ _ _ _ X3 Y0); unfold N3, N2, N1; rewrite EN; ring).
  assert (P13 : Rabs (V (q1 x) * V (q3 y)) <= N4) by (apply (pb _ _ _ _ _ X1 Y3); unfold N4, N3, N2, N1; rewrite EN; ring).
  assert (P22 : Rabs (V (q2 x) * V (q2 y)) <= N4) by (apply (pb _ _ _ _ _ X2 Y2); unfold N4, N3, N2, N1; rewrite EN; ring).
  assert (P31 : Rabs (V (q3 x) * V (q1 y)) <= N4) by (apply (pb _ _ _ _ _ X3 Y1); unfold N4, N3, N2, N1; rewrite EN; ring).
  assert (P23 : Rabs (V (q2 x) * V (q3 y)) <= N5) by (apply (pb _ _ _ _ _ X2 Y3); unfold N5, N4, N3, N2, N1; rewrite EN; ring).
  assert (P32 : Rabs (V (q3 x) * V (q2 y)) <= N5) by (apply (pb _ _ _ _ _ X3 Y2); unfold N5, N4, N3, N2, N1; rewrite EN; ring).
  assert (P33 : Rabs (V (q3 x) * V (q3 y)) <= N5).
  { apply Rle_trans with (e * N5); [apply (pb _ _ _ _ _ X3 Y3); unfold N5, N4, N3, N2, N1; rewrite EN; ring|]. assert (K := em _ PN5). lra. }
  (* the second-order ones again, against x0 y1 and x1 y0 *)
  assert (B02 : forall M, Rabs (V (q0 x) * V (q1 y)) <= M -> Rabs (V (q0 x) * V (q2 y)) <= 4 * (e * M) + N3).
  { intros M HM. rewrite Rabs_mult in *. fold X in HM |- *.
    apply Rle_trans with (X * (4 * e * Rabs (V (q1 y)) + e * e * e * Y)); [apply Rmult_le_compat_l; lra|].
    assert (e * (X * Rabs (V (q1 y))) <= e * M) by (apply Rmult_le_compat_l; lra).
    replace (X * (4 * e * Rabs (V (q1 y)) + e * e * e * Y)) with (4 * (e * (X * Rabs (V (q1 y)))) + N3) by (unfold N3, N2, N1; rewrite EN; ring). lra. }
  assert (B20 : forall M, Rabs (V (q1 x) * V (q0 y)) <= M -> Rabs (V (q2 x) * V (q0 y)) <= 4 * (e * M) + N3).
  { intros M HM. rewrite Rabs_mult in *. fold Y in HM |- *.
    apply Rle_trans with ((4 * e * Rabs (V (q1 x)) + e * e * e * X) * Y); [apply Rmult_le_compat_r; lra|].
    assert (e * (Rabs (V (q1 x)) * Y) <= e * M) by (apply Rmult_le_compat_l; lra).
    replace ((4 * e * Rabs (V (q1 x)) + e * e * e * X) * Y) with (4 * (e * (Rabs (V (q1 x)) * Y)) + N3) by (unfold N3, N2, N1; rewrite EN; ring). lra. }
  assert (B11 : forall M, Rabs (V (q0 x) * V (q1 y)) <= M -> Rabs (V (q1 x) * V (q1 y)) <= e * M).
  { intros M HM. rewrite Rabs_mult in *. fold X in HM |- *.
    apply Rle_trans with (e * X * Rabs (V (q1 y))); [apply Rmult_le_compat_r; [apply Rabs_pos|exact X1]|].
    rewrite Rmult_assoc. apply Rmult_le_compat_l; lra. }
  assert (MPt : forall M1 M2 M3 M4 M5, eta <= / 1024 * M5 -> M1 <= bp 1000 -> 0 <= M2 -> 0 <= M3 -> 0 <= M4 -> 0 <= M5 ->
    M2 <= M1 -> M3 <= M2 -> M4 <= M3 -> M5 <= M4 -> u * M1 <= M2 -> u * M2 <= M3 -> u * M3 <= M4 -> u * M4 <= M5 ->
    Rabs (V (q0 x) * V (q1 y)) <= M1 -> Rabs (V (q1 x) * V (q0 y)) <= M1 ->
    Rabs (V (q0 x) * V (q2 y)) <= M2 -> Rabs (V (q1 x) * V (q1 y)) <= M2 -> Rabs (V (q2 x) * V (q0 y)) <= M2 ->
    N3 <= M3 -> N4 <= M4 -> N5 <= M5 -> fb (101/100 * M1) l0 ->
    fb (8 * M1) r1 /\ fb (32 * M2) r2 /\ fb (128 * M3) r3 /\ fb (2048 * M4) r4 /\
    Fin h1 /\ Fin h2 /\ Rabs (V h1) <= 101 / 100 * M1 /\ Rabs (V h2) <= 101 / 100 * M1 /\
    Rabs (V l0 + (QV x * QV y - P) - (V r1 + V r2 + V r3 + V r4)) <= 10000 * M5).
  { intros M1 M2 M3 M4 M5 I1 I2 I3 I4 I5 I6 I7 I8 I9 I10 I11 I12 I13 I14 J1 J2 J3 J4 J5 J6 J7 J8 J9.
    apply (mul_parts_gen x y M1 M2 M3 M4 M5 h1 l1 h2 l2 h3 l3 h4 l4 h5 l5 h6 l6 h7 l7 h8 l8 h9 l9 l0 r1 t0 t1 r2 t2 t3 r3 t4 r4);
      try assumption; lra. }
  clear Er4 T2 T3 E3 E4 E5 E6 E7 E8 E9.
  destruct (MPt N1 N2 N3 N4 N5) as (R1 & R2 & R3 & R4 & Fh1 & Fh2 & Bh1 & Bh2 & RS); try assumption; try lra; [split; assumption|].
  split.
  { split; [exact F0|]. rewrite H0. replace (rn P) with (rn P - P + P) by ring. eapply Rle_trans; [apply Rabs_triang|]. lra. }
  assert (Hh : N0 <= Rabs (V h0) + Rabs (V l0)).
  { rewrite <- EA. replace P with (V h0 + V l0) by (rewrite H0', H0; ring). apply Rabs_triang. }
  split; [lra|]. split; [lra|]. split; [exact R1|]. split; [exact R2|]. split; [exact R3|]. split; [exact R4|].
  split.
  { rewrite <- Rabs_Ropp.
    replace (- (V h0 + V r1 + V r2 + V r3 + V r4 - QV x * QV y)) with (V l0 + (QV x * QV y - P) - (V r1 + V r2 + V r3 + V r4)) by (rewrite H0', H0; ring).
    eapply Rle_trans; [exact RS|]. lra. }
  set (m := Rmax (Rmax (Rabs (V h1)) (Rabs (V h2))) (Rabs (V l0))).
  assert (m1 : Rabs (V h1) <= m) by (unfold m; eapply Rle_trans; [apply Rmax_l|apply Rmax_l]).
  assert (m2 : Rabs (V h2) <= m) by (unfold m; eapply Rle_trans; [apply Rmax_r|apply Rmax_l]).
  assert (m3 : Rabs (V l0) <= m) by (unfold m; apply Rmax_r).
  assert (mu : m <= 101 / 100 * N1) by (unfold m; apply Rmax_lub; [apply Rmax_lub|]; lra).
  assert (B1 := tp_back _ _ _ _ Fx0 Fy1 Bx0 By1 E1). assert (B2 := tp_back _ _ _ _ Fx1 Fy0 Bx1 By0 E2).
  destruct (Rle_lt_dec (/ 64 * N2) m) as [ML|ML].
  - left.
    assert (Bm : 102/100 * m <= bp 1000) by lra.
    assert (Q01 : Rabs (V (q0 x) * V (q1 y)) <= 102/100 * m) by lra.
    assert (Q10 : Rabs (V (q1 x) * V (q0 y)) <= 102/100 * m) by lra.
    set (T := 4 * (e * (102/100 * m)) + N3).
    assert (Pm : 0 <= 102/100 * m) by lra. assert (C1 := em _ Pm). assert (C2 := nn _ Pm). assert (C3 := um _ Pm).
    assert (EM : e * (/ 64 * N2) <= e * m) by (apply Rmult_le_compat_l; lra).
    assert (EM' : e * (/ 64 * N2) = / 64 * N3) by (unfold N3; ring).
    assert (EM'' : e * (102/100 * m) = 102/100 * (e * m)) by ring.
    assert (T1' : T <= 70 * (e * m)) by (unfold T; lra).
    assert (T2' : e * m <= / 1099511627776 * m) by (apply em; lra).
    assert (PT : 0 <= T) by (unfold T; lra).
    destruct (MPt (102/100 * m) T T T T)
      as (_ & [_ S2] & [_ S3] & [_ S4] & _); try lra; try assumption; try (unfold T; lra).
    { apply B02. exact Q01. }
    { eapply Rle_trans; [apply B11; exact Q01|]. unfold T; lra. }
    { apply B20. exact Q10. }
    { split; [assumption|lra]. }
    set (kc := (cexp radix2 fexp64 (V (q0 x)) + cexp radix2 fexp64 (V (q0 y)))%Z).
    assert (NK : N0 < bp (kc + 106)).
    { rewrite EN. apply Rlt_le_trans with (bp (mag radix2 (V (q0 x))) * bp (mag radix2 (V (q0 y)))).
      - apply Rmult_le_0_lt_compat; try apply Rabs_pos; apply bpow_mag_gt.
      - rewrite <- bpow_plus. apply bpow_le. unfold kc. rewrite !cexp64. lia. }
    assert (Kc : (-1074 <= kc)%Z).
    { assert (KK : bp (-501) < bp (kc + 106)) by lra. apply lt_bpow in KK. lia. }
    assert (Ml : mult2 kc (V l0)).
    { assert (MP : mult2 kc P) by (apply mult2_mul; apply mult2_cexp; auto with fmt).
      rewrite H0'. apply mult2_minus; [exact MP|]. now apply mult2_rn. }
    assert (B16 : 4 * bp 1000 <= bp 1016) by (change 4 with (bp 2); rewrite <- bpow_plus; apply bpow_le; lia).
    assert (B17 : bp 1016 <= bp 1017) by (apply bpow_le; lia). assert (B18 : bp 1017 <= bp 1018) by (apply bpow_le; lia).
    assert (Er : V r1 = rn (V l0 + rn (V h1 + V h2))).
    { clear - T1 Fh1 Fh2 G0 m1 m2 m3 Bm B16 B17 B18 mu. assert (Pm := Rabs_pos (V h1)). assert (Bs : Rabs (V h1) + Rabs (V h2) <= bp 1016) by lra.
      apply ttsum_fst with (4 := Bs) (5 := T1); split; try assumption; lra. }
    destruct (grid3 (V h1) (V h2) (V l0) kc) as (k1 & Hk1 & Mk1 & D); auto with fmt.
    { fold m. assert (bp (-900) <= / 64 * bp (-761)); [|lra].
      assert (64 * bp (-900) <= bp (-761)) by (change 64 with (bp 6); rewrite <- bpow_plus; apply bpow_le; lia). lra. }
    fold m in D. exists k1. split; [exact Hk1|]. rewrite Er. split; [exact Mk1|].
    destruct D as [D| ->].
    + assert (Q : bp (k1 + 58) = 64 * bp (k1 + 52)) by (change 64 with (bp 6); rewrite <- bpow_plus; f_equal; lia).
      assert (Pk := bpow_gt_0 radix2 (k1 + 52)). lra.
    + assert (Q : bp (kc + 106) = 18014398509481984 * bp (kc + 52)) by (change 18014398509481984 with (bp 54); rewrite <- bpow_plus; f_equal; lia).
      assert (Pk := bpow_gt_0 radix2 (kc + 52)). destruct R2 as [_ R2], R3 as [_ R3], R4 as [_ R4]. lra.
  - right.
    set (m' := / 60 * N2). assert (Q01 : Rabs (V (q0 x) * V (q1 y)) <= m') by (unfold m'; lra).
    assert (Q10 : Rabs (V (q1 x) * V (q0 y)) <= m') by (unfold m'; lra).
    assert (EM : e * m' = / 60 * N3) by (unfold m', N3; ring).
    set (T := 4 * (e * m') + N3). assert (PT : 0 <= T) by (unfold T; lra).
    destruct (MPt m' T T (2 * N4) (2 * N5))
      as ([_ S1] & [_ S2] & [_ S3] & [_ S4] & _); try (unfold T, m' in *; lra); try assumption.
    { apply B02. exact Q01. }
    { eapply Rle_trans; [apply B11; exact Q01|]. unfold T; lra. }
    { apply B20. exact Q10. }
    { split; [assumption|unfold m'; lra]. }
Qed.

Lemma fall4_QFall t : fall4 t -> qfin4 t -> QFall 52 (mkQ4 t).
Proof.
  destruct t as [[[a b] c] d]. cbn [fall4 qfin4]. intros (H1 & H2 & H3 & H4) F.
  assert (E1 : bp (- (52)) = 2 * u) by (change 2 with (bp 1); rewrite <- u_bp, <- bpow_plus; reflexivity).
  assert (E2 : bp (- 2 * 52) = 4 * u * u) by (change 4 with (bp 2); rewrite <- u_bp, <- !bpow_plus; reflexivity).
  assert (E3 : bp (- 3 * 52) = 8 * u * u * u) by (change 8 with (bp 3); rewrite <- u_bp, <- !bpow_plus; reflexivity).
  assert (E4 : bp (2 - 52) = 8 * u) by (change 8 with (bp 3); rewrite <- u_bp, <- !bpow_plus; reflexivity).
  unfold QFall, mkQ4. cbn [q0 q1 q2 q3]. rewrite E1, E2, E3, E4. auto.
Qed.

Lemma q_mul_fall k x y : (40 <= k <= 52)%Z -> QFall k x -> QFall k y ->
  Rabs (QV x) <= bp 499 -> Rabs (QV y) <= bp 499 -> bp (-500) <= Rabs (QV x * QV y) ->
  QFall 52 (q_mul x y) /\
  Rabs (QV (q_mul x y) - QV x * QV y) <= bp (10 - 4 * k) * Rabs (QV x * QV y).
Proof.
  intros Hk Hx Hy Bx By Lo.
  destruct (QFall_le k x ltac:(lia) Hx) as [Jx Ix]. destruct (QFall_le k y ltac:(lia) Hy) as [Jy Iy].
  assert (EP : Rabs (QV x * QV y) = Rabs (QV x) * Rabs (QV y)) by apply Rabs_mult.
  set (X := Rabs (V (q0 x))) in *. set (Y := Rabs (V (q0 y))) in *.
  assert (PX : 0 <= X) by apply Rabs_pos. assert (PY : 0 <= Y) by apply Rabs_pos.
  assert (PQX := Rabs_pos (QV x)). assert (PQY := Rabs_pos (QV y)).
  set (N0 := X * Y). assert (PN : 0 <= N0) by (apply Rmult_le_pos; lra).
  assert (U1 : N0 <= (1 + / 524288) * (1 + / 524288) * (Rabs (QV x) * Rabs (QV y))).
  { unfold N0. replace ((1 + / 524288) * (1 + / 524288) * (Rabs (QV x) * Rabs (QV y))) with (((1 + / 524288) * Rabs (QV x)) * ((1 + / 524288) * Rabs (QV y))) by ring.
    apply Rmult_le_compat; lra. }
  assert (U2 : Rabs (QV x) * Rabs (QV y) <= (1 + / 524288) * (1 + / 524288) * N0).
  { unfold N0. replace ((1 + / 524288) * (1 + / 524288) * (X * Y)) with (((1 + / 524288) * X) * ((1 + / 524288) * Y)) by ring.
    apply Rmult_le_compat; lra. }
  assert (B500 : 2 * bp 499 = bp 500) by (change 2 with (bp 1); rewrite <- bpow_plus; reflexivity).
  assert (X500 : X <= bp 500) by lra. assert (Y500 : Y <= bp 500) by lra.
  set (e := bp (- k)).
  assert (Pe : 0 < e) by apply bpow_gt_0.
  assert (Ue : u <= e) by (change u with (bp (-53)); apply bpow_le; lia).
  assert (Le : e <= / 1099511627776) by (change (/ 1099511627776) with (bp (-40)); apply bpow_le; lia).
  assert (P500 := bpow_gt_0 radix2 (-500)). assert (N501 : bp (-501) <= N0).
  { assert (2 * bp (-501) = bp (-500)) by (change 2 with (bp 1); rewrite <- bpow_plus; reflexivity). lra. }
  assert (NZ : V (q0 x) <> 0).
  { intros Z. assert (HX : X = 0) by (unfold X; rewrite Z; apply Rabs_R0). assert (HN : N0 = 0) by (unfold N0; rewrite HX; ring).
    assert (P501 := bpow_gt_0 radix2 (-501)). lra. }
  assert (N1000 : N0 <= bp 1000).
  { unfold N0. replace (bp 1000) with (bp 500 * bp 500) by (rewrite <- bpow_plus; reflexivity). apply Rmult_le_compat; lra. }
  rewrite q_mul_fin by (apply Hx || apply Hy || exact NZ).
  set (N1 := e * N0). set (N2 := e * N1). set (N3 := e * N2). set (N4 := e * N3). set (N5 := e * N4).
  assert (PN1 : 0 <= N1) by (apply Rmult_le_pos; lra). assert (PN2 : 0 <= N2) by (apply Rmult_le_pos; lra).
  assert (PN3 : 0 <= N3) by (apply Rmult_le_pos; lra). assert (PN4 : 0 <= N4) by (apply Rmult_le_pos; lra).
  assert (PN5 : 0 <= N5) by (apply Rmult_le_pos; lra).
  assert (HS : Scales5 N0 N1 N2 N3 N4 N5).
  { repeat split; try assumption; apply Rmult_le_compat_r; assumption. }
  assert (QQ : forall z, QFall k z -> Rabs (V (q0 z)) <= bp 500 -> Q500 z).
  { intros z Hz B0. destruct (QFall_sc k z Hz) as (H1 & H2 & H3 & _). fold e in H1, H2, H3. cbv zeta in *. destruct Hz as ((F0 & F1 & F2 & F3) & _).
    assert (PZ := Rabs_pos (V (q0 z))).
    assert (e1 : e <= 1) by lra. assert (e2 : e * e <= 1) by nra. assert (e3 : e * e * e <= 1) by nra.
    assert (mono : forall w, w <= 1 -> w * Rabs (V (q0 z)) <= Rabs (V (q0 z))).
    { intros w Hw. rewrite <- (Rmult_1_l (Rabs (V (q0 z)))) at 2. apply Rmult_le_compat_r; lra. }
    assert (M1 := mono _ e1). assert (M2 := mono _ e2). assert (M3 := mono _ e3).
    split; [split; [exact F0|lra]|]. split; [split; [exact F1|lra]|]. split; split; [exact F2|lra|exact F3|lra]. }
  destruct (mul_core_ex x y) as (h0 & l0 & h1 & l1 & h2 & l2 & h3 & l3 & h4 & l4 & h5 & l5 & h6 & l6 & h7 & l7 & h8 & l8 & h9 & l9 & r1 & t0 & t1 & r2 & t2 & t3 & r3 & t4 & r4 & E0 & E1 & E2 & E3 & E4 & E5 & E6 & E7 & E8 & E9 & T1 & T2 & T3 & Er4 & EC).
  rewrite EC.
  destruct (mul_gridW k x y N0 _ _ _ _ _ _ _ _ _ _ _ _ _ _ _ _ _ _ _ _ _ _ _ _ _ _ _ _ r4 Hk Hx Hy (QQ x Hx X500) (QQ y Hy Y500) eq_refl (conj N501 N1000) E0 E1 E2 E3 E4 E5 E6 E7 E8 E9 T1 T2 T3 Er4)
    as ((F0 & C0) & C0' & C0'' & (F1 & C1) & (F2 & C2) & (F3 & C3) & (F4 & C4) & RS & D).
  fold e in C0', C1, C2, C3, C4, RS, D. fold N1 in C0', C1, C2, C3, C4, RS, D. fold N2 in C2, C3, C4, RS, D. fold N3 in C3, C4, RS, D. fold N4 in C4, RS, D.
  clear Er4 EC E0 E1 E2 E3 E4 E5 E6 E7 E8 E9 T1 T2 T3.
  destruct (renorm5_fine N0 N1 N2 N3 N4 N5 (200 * N3) h0 r1 r2 r3 r4 ltac:(lra) HS F0 F1 F2 F3 F4 C0' C0 C1 C2 C3 C4 D) as [Q1 Q2].
  assert (Q3 : fall4 (renorm5 h0 r1 r2 r3 r4)).
  { apply (renorm5_fall N0 N1 N2 N3 N4 N5); auto. destruct D as [D|[_ D]]; [now left|now right]. }
  set (t := renorm5 h0 r1 r2 r3 r4) in *. clearbody t.
  split; [now apply fall4_QFall|].
  destruct (QV_mkQ4 t) as [-> _].
  assert (E4' : bp (10 - 4 * k) = 1024 * (e * e * e * e)).
  { unfold e. change 1024 with (bp 10). rewrite <- !bpow_plus. f_equal. lia. }
  rewrite E4', EP.
  assert (P4 : 0 < e * e * e * e) by (repeat apply Rmult_lt_0_compat; lra).
  assert (W : N4 <= e * e * e * e * ((1 + / 524288) * (1 + / 524288) * (Rabs (QV x) * Rabs (QV y)))).
  { unfold N4, N3, N2, N1. replace (e * (e * (e * (e * N0)))) with (e * e * e * e * N0) by ring. apply Rmult_le_compat_l; lra. }
  assert (Y' : 0 <= e * e * e * e * (Rabs (QV x) * Rabs (QV y))) by (apply Rmult_le_pos; [lra|apply Rmult_le_pos; lra]).
  assert (U34 : u * N3 <= N4) by apply HS.
  set (w := e * e * e * e) in *. set (S4 := qsum4 t) in *. set (xy := QV x * QV y) in *.
  replace (S4 - xy) with ((S4 - (V h0 + V r1 + V r2 + V r3 + V r4)) + (V h0 + V r1 + V r2 + V r3 + V r4 - xy)) by ring.
  eapply Rle_trans; [apply Rabs_triang|]. lra.
Qed.
