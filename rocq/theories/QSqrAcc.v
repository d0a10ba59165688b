(** * Quad squaring: accuracy and closure of the class [QFall] *)
From Coq Require Import ZArith Reals List Bool Lia Lra.
From Flocq Require Import Core IEEE754.BinarySingleNaN.
From Verif Require Import F64 F64Facts Prim DoubleM QuadM RN Spec EFT OrderProofs DDivProofs SpecialProofs QuadSpec QAddAcc QAddThms QMulAcc QMulThms QMulFine QFallAcc QFallThms.
Local Open Scope R_scope.

(** the intermediate results of a square, by name *)
Lemma sqr_core_ex x : exists h0 l0 h1 l1 h2 l2 h3 l3 h4 h5 r1 a1 b0 b1 c0 c1 d0 d1 e0 e1 g0 g1 i0 i1 r2 j1 k0 k1 m0 m1 n0 n1 o0 o1 r3 z1 r4,
  two_prod (q0 x) (q0 x) = (h0, l0) /\
  two_prod (fmul f2 (q0 x)) (q1 x) = (h1, l1) /\
  two_prod (fmul f2 (q0 x)) (q2 x) = (h2, l2) /\
  two_prod (q1 x) (q1 x) = (h3, l3) /\
  h4 = fmul (fmul f2 (q0 x)) (q3 x) /\
  h5 = fmul (fmul f2 (q1 x)) (q2 x) /\
  two_sum h1 l0 = (r1, a1) /\
  two_sum a1 l1 = (b0, b1) /\
  two_sum h2 h3 = (c0, c1) /\
  two_sum b0 c0 = (d0, d1) /\
  two_sum b1 c1 = (e0, e1) /\
  two_sum d1 e0 = (g0, g1) /\
  quick_two_sum g0 (fadd e1 g1) = (i0, i1) /\
  quick_two_sum d0 i0 = (r2, j1) /\
  quick_two_sum i1 j1 = (k0, k1) /\
  two_sum h4 h5 = (m0, m1) /\
  two_sum l2 l3 = (n0, n1) /\
  two_sum m0 n0 = (o0, o1) /\
  two_sum k0 o0 = (r3, z1) /\
  r4 = fadd (fadd (fadd (fadd m1 n1) o1) k1) z1 /\
  q_sqr_core x = mkQ4 (renorm5 h0 r1 r2 r3 r4).
Proof.
  unfold q_sqr_core. rewrite !two_sqr_two_prod.
  destruct (two_prod (q0 x) (q0 x)) as [h0 l0] eqn:E0.
  destruct (two_prod (fmul f2 (q0 x)) (q1 x)) as [h1 l1] eqn:E1.
  destruct (two_prod (fmul f2 (q0 x)) (q2 x)) as [h2 l2] eqn:E2.
  destruct (two_prod (q1 x) (q1 x)) as [h3 l3] eqn:E3. cbv zeta.
  set (h4 := fmul (fmul f2 (q0 x)) (q3 x)). set (h5 := fmul (fmul f2 (q1 x)) (q2 x)).
  destruct (two_sum h1 l0) as [r1 a1] eqn:E4. destruct (two_sum a1 l1) as [b0 b1] eqn:E5.
  destruct (two_sum h2 h3) as [c0 c1] eqn:E6. destruct (two_sum b0 c0) as [d0 d1] eqn:E7.
  destruct (two_sum b1 c1) as [e0 e1] eqn:E8. destruct (two_sum d1 e0) as [g0 g1] eqn:E9.
  destruct (quick_two_sum g0 (fadd e1 g1)) as [i0 i1] eqn:E10.
  destruct (quick_two_sum d0 i0) as [r2 j1] eqn:E11. destruct (quick_two_sum i1 j1) as [k0 k1] eqn:E12.
  destruct (two_sum h4 h5) as [m0 m1] eqn:E13. destruct (two_sum l2 l3) as [n0 n1] eqn:E14.
  destruct (two_sum m0 n0) as [o0 o1] eqn:E15. destruct (two_sum k0 o0) as [r3 z1] eqn:E16.
  exists h0, l0, h1, l1, h2, l2, h3, l3, h4, h5, r1, a1, b0, b1, c0, c1, d0, d1, e0, e1, g0, g1, i0, i1, r2, j1, k0, k1, m0, m1, n0, n1, o0, o1, r3, z1.
  eexists. do 19 (split; [first [exact eq_refl|assumption]|]). split; exact eq_refl.
Qed.

Ltac ts a b A B E H1 H2 H3 :=
  let s := fresh in let e := fresh in let Q := fresh in let F1 := fresh "F" in let F2 := fresh "F" in let X := fresh in
  destruct (tsb a b A B) as (s & e & Q & F1 & F2 & H1 & H2 & H3 & X); [assumption|assumption|lra|lra|lra|lra|];
  rewrite E in Q; injection Q as <- <-; clear X E.
Ltac qq a b A B E H1 H2 H3 :=
  let s := fresh in let e := fresh in let Q := fresh in let F1 := fresh "F" in let F2 := fresh "F" in
  destruct (qs a b A B) as (s & e & Q & F1 & F2 & H1 & H2 & H3); [assumption|assumption|lra|lra|lra|lra|];
  rewrite E in Q; injection Q as <- <-; clear E.

Lemma sqr_bounds M1 M2 M3 M4 h1 l0 h2 h3 l1 h4 h5 l2 l3 r1 a1 b0 b1 c0 c1 d0 d1 e0 e1 g0 g1 i0 i1 r2 j1 k0 k1 m0 m1 n0 n1 o0 o1 r3 z1 r4 :
  0 <= M4 -> M1 <= bp 1000 -> u * M1 <= M2 -> u * M2 <= M3 -> u * M3 <= M4 -> M2 <= M1 -> M3 <= M2 -> M4 <= M3 ->
  fb (202/100 * M1) h1 -> fb (101/100 * M1) l0 ->
  fb (202/100 * M2) h2 -> fb (101/100 * M2) h3 -> fb (202/100 * M2) l1 ->
  fb (202/100 * M3) h4 -> fb (202/100 * M3) h5 -> fb (202/100 * M3) l2 -> fb (101/100 * M3) l3 ->
  two_sum h1 l0 = (r1, a1) -> two_sum a1 l1 = (b0, b1) -> two_sum h2 h3 = (c0, c1) -> two_sum b0 c0 = (d0, d1) ->
  two_sum b1 c1 = (e0, e1) -> two_sum d1 e0 = (g0, g1) -> quick_two_sum g0 (fadd e1 g1) = (i0, i1) ->
  quick_two_sum d0 i0 = (r2, j1) -> quick_two_sum i1 j1 = (k0, k1) -> two_sum h4 h5 = (m0, m1) -> two_sum l2 l3 = (n0, n1) ->
  two_sum m0 n0 = (o0, o1) -> two_sum k0 o0 = (r3, z1) -> r4 = fadd (fadd (fadd (fadd m1 n1) o1) k1) z1 ->
  fb (4 * M1) r1 /\ fb (9 * M2 + 20 * M3 + 30 * M4) r2 /\ fb (17 * M3 + 100 * M4) r3 /\ fb (100 * M4) r4 /\
  Rabs (V r1 + V r2 + V r3 + V r4 - (V h1 + V l0 + V h2 + V h3 + V l1 + V h4 + V h5 + V l2 + V l3)) <= 53 * M4.
Proof.
  intros P0 P1 P2 P3 P4 P5 P6 P7 [? ?] [? ?] [? ?] [? ?] [? ?] [? ?] [? ?] [? ?] [? ?] E1 E2 E3 E4 E5 E6 E7 E8 E9 E10 E11 E12 E13 Er4.
  assert (G18 := big18).
  ts h1 l0 (202/100 * M1) (101/100 * M1) E1 K11 K12 K13.
  assert (Ba1 : Rabs (V a1) <= 304/100 * M2) by lra.
  ts a1 l1 (304/100 * M2) (202/100 * M2) E2 K21 K22 K23.
  assert (Bb0 : Rabs (V b0) <= 51/10 * M2) by lra. assert (Bb1 : Rabs (V b1) <= 51/10 * M3) by lra. clear K22 K23.
  ts h2 h3 (202/100 * M2) (101/100 * M2) E3 K31 K32 K33.
  assert (Bc0 : Rabs (V c0) <= 31/10 * M2) by lra. assert (Bc1 : Rabs (V c1) <= 31/10 * M3) by lra. clear K32 K33.
  ts b0 c0 (51/10 * M2) (31/10 * M2) E4 K41 K42 K43.
  assert (Bd0 : Rabs (V d0) <= 83/10 * M2) by lra. assert (Bd1 : Rabs (V d1) <= 83/10 * M3) by lra. clear K42 K43.
  ts b1 c1 (51/10 * M3) (31/10 * M3) E5 K51 K52 K53.
  assert (Be0 : Rabs (V e0) <= 83/10 * M3) by lra. assert (Be1 : Rabs (V e1) <= 83/10 * M4) by lra. clear K52 K53.
  ts d1 e0 (83/10 * M3) (83/10 * M3) E6 K61 K62 K63.
  assert (Bg0 : Rabs (V g0) <= 17 * M3) by lra. assert (Bg1 : Rabs (V g1) <= 17 * M4) by lra. clear K62 K63.
  destruct (fa e1 g1 (83/10 * M4) (17 * M4)) as (Ff & Hf1 & Hf2); [assumption|assumption|lra|lra|lra|lra|].
  set (f := fadd e1 g1) in *. clearbody f. assert (Bf : Rabs (V f) <= 26 * M4) by lra. clear Hf2.
  qq g0 f (17 * M3) (26 * M4) E7 K71 K72 K73.
  assert (Bi0 : Rabs (V i0) <= 171/10 * M3 + 261/10 * M4) by lra. assert (Bi1 : Rabs (V i1) <= 18 * M4) by lra. clear K72 K73.
  qq d0 i0 (83/10 * M2) (171/10 * M3 + 261/10 * M4) E8 K81 K82 K83.
  assert (Bj1 : Rabs (V j1) <= 83/10 * M3 + 53 * M4) by lra. assert (Br2 : Rabs (V r2) <= 9 * M2 + 20 * M3 + 30 * M4) by lra. clear K82 K83.
  qq i1 j1 (18 * M4) (83/10 * M3 + 53 * M4) E9 K91 K92 K93.
  assert (Bk0 : Rabs (V k0) <= 84/10 * M3 + 72 * M4) by lra. assert (Bk1 : Rabs (V k1) <= 26 * M4) by lra. clear K92 K93.
  ts h4 h5 (202/100 * M3) (202/100 * M3) E10 KA1 KA2 KA3.
  assert (Bm0 : Rabs (V m0) <= 41/10 * M3) by lra. assert (Bm1 : Rabs (V m1) <= 41/10 * M4) by lra. clear KA2 KA3.
  ts l2 l3 (202/100 * M3) (101/100 * M3) E11 KB1 KB2 KB3.
  assert (Bn0 : Rabs (V n0) <= 31/10 * M3) by lra. assert (Bn1 : Rabs (V n1) <= 31/10 * M4) by lra. clear KB2 KB3.
  ts m0 n0 (41/10 * M3) (31/10 * M3) E12 KC1 KC2 KC3.
  assert (Bo0 : Rabs (V o0) <= 73/10 * M3) by lra. assert (Bo1 : Rabs (V o1) <= 73/10 * M4) by lra. clear KC2 KC3.
  ts k0 o0 (84/10 * M3 + 72 * M4) (73/10 * M3) E13 KD1 KD2 KD3.
  assert (Br3 : Rabs (V r3) <= 17 * M3 + 100 * M4) by lra. assert (Bz1 : Rabs (V z1) <= 18 * M4) by lra. clear KD2 KD3.
  sf m1 n1 (41/10 * M4) (31/10 * M4) Z1 Z1'. set (w1 := fadd m1 n1) in *.
  sf w1 o1 (73/10 * M4) (73/10 * M4) Z2 Z2'. set (w2 := fadd w1 o1) in *.
  sf w2 k1 (15 * M4) (26 * M4) Z3 Z3'. set (w3 := fadd w2 k1) in *.
  sf w3 z1 (42 * M4) (18 * M4) Z4 Z4'. rewrite <- Er4 in *.
  split; [split; [assumption|lra]|]. split; [split; [assumption|lra]|]. split; [split; [assumption|lra]|]. split; [split; [assumption|lra]|].
  clear Er4. clearbody w1 w2 w3.
  assert (SE : V r1 + V r2 + V r3 + V r4 - (V h1 + V l0 + V h2 + V h3 + V l1 + V h4 + V h5 + V l2 + V l3) =
    (V f - (V e1 + V g1)) + (V i0 + V i1 - (V g0 + V f)) + (V r2 + V j1 - (V d0 + V i0)) + (V k0 + V k1 - (V i1 + V j1)) +
    (V w1 - (V m1 + V n1)) + (V w2 - (V w1 + V o1)) + (V w3 - (V w2 + V k1)) + (V r4 - (V w3 + V z1))) by lra.
  rewrite SE. clear SE Z1' Z2' Z3' Z4' K11 K21 K31 K41 K51 K61 KA1 KB1 KC1 KD1.
  apply abs_le in Hf1, K71, K81, K91, Z1, Z2, Z3, Z4. apply Rabs_le. clear P1 G18.
  assert (U43 : 2 * u * (171/10 * M3 + 261/10 * M4) <= 343/10 * M4) by lra.
  assert (U44 : 2 * u * (83/10 * M3 + 53 * M4) <= 168/10 * M4) by lra.
  split; lra.
Qed.

Lemma sqr_parts_gen x dx dy M1 M2 M3 M4 M5 h1 l1 h2 l2 h3 l3 h4 h5 l0 r1 a1 b0 b1 c0 c1 d0 d1 e0 e1 g0 g1 i0 i1 r2 j1 k0 k1 m0 m1 n0 n1 o0 o1 r3 z1 r4 :
  Q500 x -> fb (bp 500) dx -> fb (bp 500) dy -> V dx = 2 * V (q0 x) -> V dy = 2 * V (q1 x) ->
  eta <= / 1024 * M5 -> M1 <= bp 1000 ->
  0 <= M2 -> 0 <= M3 -> 0 <= M4 -> 0 <= M5 ->
  M2 <= M1 -> M3 <= M2 -> M4 <= M3 -> M5 <= M4 ->
  u * M1 <= M2 -> u * M2 <= M3 -> u * M3 <= M4 -> u * M4 <= M5 ->
  let p i j := Rabs (V (i x) * V (j x)) in
  p q0 q1 <= M1 -> p q0 q2 <= M2 -> p q1 q1 <= M2 -> p q0 q3 <= M3 -> p q1 q2 <= M3 ->
  p q1 q3 <= M4 -> p q2 q2 <= M4 -> p q2 q3 <= M5 -> p q3 q3 <= M5 ->
  two_prod dx (q1 x) = (h1, l1) -> two_prod dx (q2 x) = (h2, l2) -> two_prod (q1 x) (q1 x) = (h3, l3) ->
  h4 = fmul dx (q3 x) -> h5 = fmul dy (q2 x) ->
  fb (101/100 * M1) l0 ->
  two_sum h1 l0 = (r1, a1) -> two_sum a1 l1 = (b0, b1) -> two_sum h2 h3 = (c0, c1) -> two_sum b0 c0 = (d0, d1) ->
  two_sum b1 c1 = (e0, e1) -> two_sum d1 e0 = (g0, g1) -> quick_two_sum g0 (fadd e1 g1) = (i0, i1) ->
  quick_two_sum d0 i0 = (r2, j1) -> quick_two_sum i1 j1 = (k0, k1) -> two_sum h4 h5 = (m0, m1) -> two_sum l2 l3 = (n0, n1) ->
  two_sum m0 n0 = (o0, o1) -> two_sum k0 o0 = (r3, z1) -> r4 = fadd (fadd (fadd (fadd m1 n1) o1) k1) z1 ->
  fb (4 * M1) r1 /\ fb (9 * M2 + 20 * M3 + 30 * M4) r2 /\ fb (17 * M3 + 100 * M4) r3 /\ fb (100 * M4) r4 /\
  Fin h1 /\ Rabs (V h1) <= 202 / 100 * M1 /\
  Rabs (V l0 + (QV x * QV x - V (q0 x) * V (q0 x)) - (V r1 + V r2 + V r3 + V r4)) <= 64 * M4.
Proof.
  intros QX [Fdx Bdx] [Fdy Bdy] Vx Vy HE Hi PM2 PM3 PM4 PM5 A2 A3 A4 A5 U2 U3 U4 U5. cbv zeta.
  destruct x as [x0 x1 x2 x3]. unfold Q500 in QX. cbn [q0 q1 q2 q3] in *.
  destruct QX as ((Fx0 & Bx0) & (Fx1 & Bx1) & (Fx2 & Bx2) & (Fx3 & Bx3)).
  intros P01 P02 P11' P03 P12 P13 P22 P23 P33 E1 E2 E3 E4 E5 B0 T1 T2 T3 T4 T5 T6 T7 T8 T9 T10 T11 T12 T13 Er4.
  assert (dbl : forall a b d C, V d = 2 * V a -> Rabs (V a * V b) <= C -> Rabs (V d * V b) <= 2 * C).
  { intros a b d C Ed H. rewrite Ed, Rmult_assoc, Rabs_mult, (Rabs_pos_eq 2) by lra. lra. }
  assert (D01 := dbl x0 x1 dx _ Vx P01). assert (D02 := dbl x0 x2 dx _ Vx P02). assert (D03 := dbl x0 x3 dx _ Vx P03). assert (D12 := dbl x1 x2 dy _ Vy P12).
  tq dx x1 (2 * M1) E1 F1 G1 H11 H12 H13. tq dx x2 (2 * M2) E2 F2 G2 H21 H22 H23. tq x1 x1 M2 E3 F3 G3 H31 H32 H33.
  destruct (fmb dx x3 (2 * M3)) as (Fa & Ha1 & Ha2); [assumption..|]. destruct (fmb dy x2 (2 * M3)) as (Fb & Hb1 & Hb2); [assumption..|].
  rewrite <- E4 in Fa, Ha1, Ha2. rewrite <- E5 in Fb, Hb1, Hb2.
  destruct B0 as [B0 B0'].
  destruct (sqr_bounds M1 M2 M3 M4 h1 l0 h2 h3 l1 h4 h5 l2 l3 r1 a1 b0 b1 c0 c1 d0 d1 e0 e1 g0 g1 i0 i1 r2 j1 k0 k1 m0 m1 n0 n1 o0 o1 r3 z1 r4) as (R1 & R2 & R3 & R4 & RS);
    [lra|lra|lra|lra|lra|lra|lra|lra|split; [assumption|lra]..|assumption|assumption|assumption|assumption|assumption|assumption|assumption|assumption|assumption|assumption|assumption|assumption|assumption|exact Er4|].
  split; [exact R1|]. split; [exact R2|]. split; [exact R3|]. split; [exact R4|]. split; [exact F1|]. split; [lra|].
  clear Er4 T1 T2 T3 T4 T5 T6 T7 T8 T9 T10 T11 T12 T13 E4 E5.
  replace (QV (mkQ x0 x1 x2 x3) * QV (mkQ x0 x1 x2 x3) - V x0 * V x0) with
    (V dx * V x1 + V dx * V x2 + V x1 * V x1 + V dx * V x3 + V dy * V x2 + 2 * (V x1 * V x3) + V x2 * V x2 + 2 * (V x2 * V x3) + V x3 * V x3)
    by (unfold QV; cbn [q0 q1 q2 q3]; rewrite Vx, Vy; ring).
  set (m01 := V dx * V x1) in *. set (m02 := V dx * V x2) in *. set (m11 := V x1 * V x1) in *. set (m03 := V dx * V x3) in *. set (m12 := V dy * V x2) in *.
  set (m13 := V x1 * V x3) in *. set (m22 := V x2 * V x2) in *. set (m23 := V x2 * V x3) in *. set (m33 := V x3 * V x3) in *.
  clearbody m01 m02 m11 m03 m12 m13 m22 m23 m33.
  assert (Peta := bpow_gt_0 radix2 (-1073)). clear - Peta H11 H21 H31 Ha1 Hb1 P13 P22 P23 P33 RS HE A2 A3 A4 A5 U2 U3 U4 U5 PM2 PM3 PM4 PM5.
  absall. apply Rabs_le. split; lra.
Qed.

Lemma sqr_gridW k x dx dy N0 h0 l0 h1 l1 h2 l2 h3 l3 h4 h5 r1 a1 b0 b1 c0 c1 d0 d1 e0 e1 g0 g1 i0 i1 r2 j1 k0 k1 m0 m1 n0 n1 o0 o1 r3 z1 r4 :
  (40 <= k <= 52)%Z -> QFall k x -> Q500 x -> fb (bp 500) dx -> fb (bp 500) dy -> V dx = 2 * V (q0 x) -> V dy = 2 * V (q1 x) ->
  N0 = Rabs (V (q0 x)) * Rabs (V (q0 x)) -> bp (-501) <= N0 <= bp 1000 ->
  two_prod (q0 x) (q0 x) = (h0, l0) ->
  two_prod dx (q1 x) = (h1, l1) -> two_prod dx (q2 x) = (h2, l2) -> two_prod (q1 x) (q1 x) = (h3, l3) ->
  h4 = fmul dx (q3 x) -> h5 = fmul dy (q2 x) ->
  two_sum h1 l0 = (r1, a1) -> two_sum a1 l1 = (b0, b1) -> two_sum h2 h3 = (c0, c1) -> two_sum b0 c0 = (d0, d1) ->
  two_sum b1 c1 = (e0, e1) -> two_sum d1 e0 = (g0, g1) -> quick_two_sum g0 (fadd e1 g1) = (i0, i1) ->
  quick_two_sum d0 i0 = (r2, j1) -> quick_two_sum i1 j1 = (k0, k1) -> two_sum h4 h5 = (m0, m1) -> two_sum l2 l3 = (n0, n1) ->
  two_sum m0 n0 = (o0, o1) -> two_sum k0 o0 = (r3, z1) -> r4 = fadd (fadd (fadd (fadd m1 n1) o1) k1) z1 ->
  let e := bp (- k) in let N1 := e * N0 in let N2 := e * N1 in let N3 := e * N2 in let N4 := e * N3 in
  fb (2 * N0) h0 /\ 16 * N1 <= Rabs (V h0) /\ N0 <= 3 * Rabs (V h0) /\ fb (8 * N1) r1 /\ fb (32 * N2) r2 /\ fb (128 * N3) r3 /\ fb (2048 * N4) r4 /\
  Rabs (V h0 + V r1 + V r2 + V r3 + V r4 - QV x * QV x) <= 64 * N4 /\
  ((exists k, (-1074 <= k)%Z /\ mult2 k (V r1) /\ Rabs (V r2) + Rabs (V r3) + Rabs (V r4) <= / 2 * bp (k + 52)) \/
   (Rabs (V r1) <= / 4 * N2 /\ Rabs (V r2) + Rabs (V r3) + Rabs (V r4) <= 120 * N3)).
Proof.
  intros Hk Hx QX Bdx Bdy Vdx Vdy EN [Lo Hi] E0 E1 E2 E3 E4 E5 T1 T2 T3 T4 T5 T6 T7 T8 T9 T10 T11 T12 T13 Er4 e.
  assert (Pe : 0 < e) by apply bpow_gt_0.
  assert (Ue : u <= e) by (change u with (bp (-53)); apply bpow_le; lia).
  assert (Le : e <= / 1099511627776) by (change (/ 1099511627776) with (bp (-40)); apply bpow_le; lia).
  assert (Ge : bp (-53) <= e) by (apply bpow_le; lia).
  assert (Peta := bpow_gt_0 radix2 (-1073)). assert (P501 := bpow_gt_0 radix2 (-501)).
  intros N1 N2 N3 N4. set (N5 := e * N4).
  assert (em : forall N, 0 <= N -> e * N <= / 1099511627776 * N) by (intros; apply Rmult_le_compat_r; assumption).
  assert (um : forall N, 0 <= N -> u * N <= e * N) by (intros; apply Rmult_le_compat_r; assumption).
  assert (nn : forall N, 0 <= N -> 0 <= e * N) by (intros; apply Rmult_le_pos; lra).
  assert (PN1 : 0 <= N1) by (apply nn; lra). assert (PN2 : 0 <= N2) by (apply nn; lra). assert (PN3 : 0 <= N3) by (apply nn; lra). assert (PN4 : 0 <= N4) by (apply nn; lra).
  assert (PN5 : 0 <= N5) by (apply nn; lra).
  assert (A1 := em N0 ltac:(lra)). fold N1 in A1. assert (A2 := em N1 PN1). fold N2 in A2. assert (A3 := em N2 PN2). fold N3 in A3. assert (A4 := em N3 PN3). fold N4 in A4. assert (A5 := em N4 PN4). fold N5 in A5.
  assert (U1 := um N0 ltac:(lra)). fold N1 in U1. assert (U2 := um N1 PN1). fold N2 in U2. assert (U3 := um N2 PN2). fold N3 in U3. assert (U4 := um N3 PN3). fold N4 in U4. assert (U5 := um N4 PN4). fold N5 in U5.
  assert (L5 : bp (-761) <= N5).
  { unfold N5, N4, N3, N2, N1. replace (e * (e * (e * (e * (e * N0))))) with ((e * (e * (e * (e * e)))) * N0) by ring.
    replace (bp (-761)) with (bp (-260) * bp (-501)) by (rewrite <- bpow_plus; reflexivity).
    apply Rmult_le_compat; [apply bpow_ge_0|apply bpow_ge_0| |exact Lo].
    unfold e. rewrite <- !bpow_plus. apply bpow_le. lia. }
  assert (L713 : eta <= / 1048576 * bp (-761)).
  { assert (1048576 * eta <= bp (-761)) by (change 1048576 with (bp 20); rewrite <- bpow_plus; apply bpow_le; lia). lra. }
  assert (QX' := QX).
  destruct QX' as ((Fx0 & Bx0) & (Fx1 & Bx1) & (Fx2 & Bx2) & (Fx3 & Bx3)).
  assert (EA : Rabs (V (q0 x) * V (q0 x)) = N0) by (rewrite Rabs_mult; now symmetry).
  (* the leading product is exact *)
  destruct (two_prod_ok 500 500 (q0 x) (q0 x)) as (F0 & G0 & H0 & H0'); [lia|split; assumption..| |].
  { intros _. rewrite EA. eapply Rle_trans; [|exact Lo]. apply bpow_le. lia. }
  rewrite E0 in F0, G0, H0, H0'. cbn [fst snd] in F0, G0, H0, H0'.
  set (P := V (q0 x) * V (q0 x)) in *.
  assert (K0 : Rabs (rn P - P) <= u * N0 + eta).
  { assert (K := rn_err P). rewrite EA in K. assert (bp (-1075) <= eta) by (apply bpow_le; lia). lra. }
  assert (Bl0 : Rabs (V l0) <= 101 / 100 * N1).
  { rewrite H0', <- Rabs_Ropp. replace (- (P - rn P)) with (rn P - P) by ring. lra. }
  (* partial products *)
  destruct (QFall_sc k x Hx) as (X1 & X2 & X3 & X4). cbv zeta in *. fold e in X1, X2, X3, X4.
  set (X := Rabs (V (q0 x))) in *.
  assert (PX : 0 <= X) by apply Rabs_pos.
  assert (pb : forall a b A B C, Rabs a <= A -> Rabs b <= B -> A * B = C -> Rabs (a * b) <= C).
  { intros a b A B C Ha Hb <-. rewrite Rabs_mult. apply Rmult_le_compat; auto using Rabs_pos. }
  assert (X0 : Rabs (V (q0 x)) <= X) by (unfold X; lra).
  assert (P01 : Rabs (V (q0 x) * V (q1 x)) <= N1) by (apply (pb _ _ _ _ _ X0 X1); unfold N1; rewrite EN; ring).
  assert (P02 : Rabs (V (q0 x) * V (q2 x)) <= N2) by (apply (pb _ _ _ _ _ X0 X2); unfold N2, N1; rewrite EN; ring).
  assert (P11 : Rabs (V (q1 x) * V (q1 x)) <= N2) by (apply (pb _ _ _ _ _ X1 X1); unfold N2, N1; rewrite EN; ring).
  assert (P03 : Rabs (V (q0 x) * V (q3 x)) <= N3) by (apply (pb _ _ _ _ _ X0 X3); unfold N3, N2, N1; rewrite EN; ring).
  assert (P12 : Rabs (V (q1 x) * V (q2 x)) <= N3) by (apply (pb _ _ _ _ _ X1 X2); unfold N3, N2, N1; rewrite EN; ring).
  assert (P13 : Rabs (V (q1 x) * V (q3 x)) <= N4) by (apply (pb _ _ _ _ _ X1 X3); unfold N4, N3, N2, N1; rewrite EN; ring).
  assert (P22 : Rabs (V (q2 x) * V (q2 x)) <= N4) by (apply (pb _ _ _ _ _ X2 X2); unfold N4, N3, N2, N1; rewrite EN; ring).
  assert (P23 : Rabs (V (q2 x) * V (q3 x)) <= N5) by (apply (pb _ _ _ _ _ X2 X3); unfold N5, N4, N3, N2, N1; rewrite EN; ring).
  assert (P33 : Rabs (V (q3 x) * V (q3 x)) <= N5).
  { apply Rle_trans with (e * N5); [apply (pb _ _ _ _ _ X3 X3); unfold N5, N4, N3, N2, N1; rewrite EN; ring|]. assert (K := em _ PN5). lra. }
  assert (B02 : forall M, Rabs (V (q0 x) * V (q1 x)) <= M -> Rabs (V (q0 x) * V (q2 x)) <= 4 * (e * M) + N3).
  { intros M HM. rewrite Rabs_mult in *. fold X in HM |- *.
    apply Rle_trans with (X * (4 * e * Rabs (V (q1 x)) + e * e * e * X)); [apply Rmult_le_compat_l; lra|].
    assert (e * (X * Rabs (V (q1 x))) <= e * M) by (apply Rmult_le_compat_l; lra).
    replace (X * (4 * e * Rabs (V (q1 x)) + e * e * e * X)) with (4 * (e * (X * Rabs (V (q1 x)))) + N3) by (unfold N3, N2, N1; rewrite EN; ring). lra. }
  assert (B11 : forall M, Rabs (V (q0 x) * V (q1 x)) <= M -> Rabs (V (q1 x) * V (q1 x)) <= e * M).
  { intros M HM. rewrite Rabs_mult in *. fold X in HM |- *.
    apply Rle_trans with (e * X * Rabs (V (q1 x))); [apply Rmult_le_compat_r; [apply Rabs_pos|exact X1]|].
    rewrite Rmult_assoc. apply Rmult_le_compat_l; lra. }
  assert (MPt : forall M1 M2 M3 M4 M5, eta <= / 1024 * M5 -> M1 <= bp 1000 -> 0 <= M2 -> 0 <= M3 -> 0 <= M4 -> 0 <= M5 ->
    M2 <= M1 -> M3 <= M2 -> M4 <= M3 -> M5 <= M4 -> u * M1 <= M2 -> u * M2 <= M3 -> u * M3 <= M4 -> u * M4 <= M5 ->
    Rabs (V (q0 x) * V (q1 x)) <= M1 ->
    Rabs (V (q0 x) * V (q2 x)) <= M2 -> Rabs (V (q1 x) * V (q1 x)) <= M2 ->
    N3 <= M3 -> N4 <= M4 -> N5 <= M5 -> fb (101/100 * M1) l0 ->
    fb (4 * M1) r1 /\ fb (9 * M2 + 20 * M3 + 30 * M4) r2 /\ fb (17 * M3 + 100 * M4) r3 /\ fb (100 * M4) r4 /\
    Fin h1 /\ Rabs (V h1) <= 202 / 100 * M1 /\
    Rabs (V l0 + (QV x * QV x - P) - (V r1 + V r2 + V r3 + V r4)) <= 64 * M4).
  { intros M1 M2 M3 M4 M5 I1 I2 I3 I4 I5 I6 I7 I8 I9 I10 I11 I12 I13 I14 J1 J2 J3 J4 J5 J6 J7.
    apply (sqr_parts_gen x dx dy M1 M2 M3 M4 M5 h1 l1 h2 l2 h3 l3 h4 h5 l0 r1 a1 b0 b1 c0 c1 d0 d1 e0 e1 g0 g1 i0 i1 r2 j1 k0 k1 m0 m1 n0 n1 o0 o1 r3 z1 r4);
      try assumption; lra. }
  clear Er4 T2 T3 T4 T5 T6 T7 T8 T9 T10 T11 T12 T13 E2 E3 E4 E5.
  destruct (MPt N1 N2 N3 N4 N5) as ((Fr1 & R1) & (Fr2 & R2) & (Fr3 & R3) & (Fr4 & R4) & Fh1 & Bh1 & RS); try assumption; try lra; [split; assumption|].
  split.
  { split; [exact F0|]. rewrite H0. replace (rn P) with (rn P - P + P) by ring. eapply Rle_trans; [apply Rabs_triang|]. lra. }
  assert (Hh : N0 <= Rabs (V h0) + Rabs (V l0)).
  { rewrite <- EA. replace P with (V h0 + V l0) by (rewrite H0', H0; ring). apply Rabs_triang. }
  split; [lra|]. split; [lra|]. split; [split; [exact Fr1|lra]|]. split; [split; [exact Fr2|lra]|]. split; [split; [exact Fr3|lra]|]. split; [split; [exact Fr4|lra]|].
  split.
  { rewrite <- Rabs_Ropp.
    replace (- (V h0 + V r1 + V r2 + V r3 + V r4 - QV x * QV x)) with (V l0 + (QV x * QV x - P) - (V r1 + V r2 + V r3 + V r4)) by (rewrite H0', H0; ring).
    exact RS. }
  set (m := Rmax (Rmax (Rabs (V h1)) (Rabs 0)) (Rabs (V l0))).
  assert (m1' : Rabs (V h1) <= m) by (unfold m; eapply Rle_trans; [apply Rmax_l|apply Rmax_l]).
  assert (m3 : Rabs (V l0) <= m) by (unfold m; apply Rmax_r).
  assert (mu : m <= 202 / 100 * N1) by (unfold m; rewrite Rabs_R0; apply Rmax_lub; [apply Rmax_lub|]; lra).
  destruct Bdx as [Fdx Bdx].
  assert (B1 := tp_back _ _ _ _ Fdx Fx1 Bdx Bx1 E1).
  assert (B1' : 2 * Rabs (V (q0 x) * V (q1 x)) <= 101 / 100 * Rabs (V h1) + 4 * eta).
  { rewrite Vdx in B1. rewrite Rmult_assoc, (Rabs_mult 2), (Rabs_pos_eq 2) in B1 by lra. exact B1. }
  clear B1.
  destruct (Rle_lt_dec (/ 64 * N2) m) as [ML|ML].
  - left.
    assert (Bm : 102/100 * m <= bp 1000) by lra.
    assert (Q01 : Rabs (V (q0 x) * V (q1 x)) <= 102/100 * m) by lra.
    set (T := 4 * (e * (102/100 * m)) + N3).
    assert (Pm : 0 <= 102/100 * m) by lra. assert (C1 := em _ Pm). assert (C2 := nn _ Pm). assert (C3 := um _ Pm).
    assert (EM : e * (/ 64 * N2) <= e * m) by (apply Rmult_le_compat_l; lra).
    assert (EM' : e * (/ 64 * N2) = / 64 * N3) by (unfold N3; ring).
    assert (EM'' : e * (102/100 * m) = 102/100 * (e * m)) by ring.
    assert (T1' : T <= 70 * (e * m)) by (unfold T; lra).
    assert (T2' : e * m <= / 1099511627776 * m) by (apply em; lra).
    assert (PT : 0 <= T) by (unfold T; lra).
    destruct (MPt (102/100 * m) T T T T)
      as (_ & [_ S2] & [_ S3] & [_ S4] & _); try lra; try assumption; try (unfold T; lra).
    { apply B02. exact Q01. }
    { eapply Rle_trans; [apply B11; exact Q01|]. unfold T; lra. }
    { split; [assumption|lra]. }
    set (kc := (cexp radix2 fexp64 (V (q0 x)) + cexp radix2 fexp64 (V (q0 x)))%Z).
    assert (NK : N0 < bp (kc + 106)).
    { rewrite EN. apply Rlt_le_trans with (bp (mag radix2 (V (q0 x))) * bp (mag radix2 (V (q0 x)))).
      - apply Rmult_le_0_lt_compat; try apply Rabs_pos; apply bpow_mag_gt.
      - rewrite <- bpow_plus. apply bpow_le. unfold kc. rewrite !cexp64. lia. }
    assert (Kc : (-1074 <= kc)%Z).
    { assert (KK : bp (-501) < bp (kc + 106)) by lra. apply lt_bpow in KK. lia. }
    assert (Ml : mult2 kc (V l0)).
    { assert (MP : mult2 kc P) by (apply mult2_mul; apply mult2_cexp; auto with fmt).
      rewrite H0'. apply mult2_minus; [exact MP|]. now apply mult2_rn. }
    assert (B16 : 4 * bp 1000 <= bp 1016) by (change 4 with (bp 2); rewrite <- bpow_plus; apply bpow_le; lia).
    assert (B18 : bp 1016 <= bp 1018) by (apply bpow_le; lia).
    assert (Er : V r1 = rn (V l0 + rn (V h1 + 0))).
    { destruct (two_sum_ok h1 l0) as (_ & _ & S1 & _); [split; [assumption|lra]..|].
      rewrite T1 in S1. cbn [fst] in S1. rewrite S1, Rplus_0_r, (rn_id (V h1)) by auto with fmt. f_equal. ring. }
    destruct (grid3 (V h1) 0 (V l0) kc) as (k1' & Hk1 & Mk1 & D); auto with fmt.
    { fold m. assert (bp (-900) <= / 64 * bp (-761)); [|lra].
      assert (64 * bp (-900) <= bp (-761)) by (change 64 with (bp 6); rewrite <- bpow_plus; apply bpow_le; lia). lra. }
    fold m in D. exists k1'. split; [exact Hk1|]. rewrite Er. split; [exact Mk1|].
    destruct D as [D| ->].
    + assert (Q : bp (k1' + 58) = 64 * bp (k1' + 52)) by (change 64 with (bp 6); rewrite <- bpow_plus; f_equal; lia).
      assert (Pk := bpow_gt_0 radix2 (k1' + 52)). lra.
    + assert (Q : bp (kc + 106) = 18014398509481984 * bp (kc + 52)) by (change 18014398509481984 with (bp 54); rewrite <- bpow_plus; f_equal; lia).
      assert (Pk := bpow_gt_0 radix2 (kc + 52)). lra.
  - right.
    set (m' := / 60 * N2). assert (Q01 : Rabs (V (q0 x) * V (q1 x)) <= m') by (unfold m'; lra).
    assert (EM : e * m' = / 60 * N3) by (unfold m', N3; ring).
    set (T := 4 * (e * m') + N3). assert (PT : 0 <= T) by (unfold T; lra).
    destruct (MPt m' T T (2 * N4) (2 * N5))
      as ([_ S1] & [_ S2] & [_ S3] & [_ S4] & _); try (unfold T, m' in *; lra); try assumption.
    { apply B02. exact Q01. }
    { eapply Rle_trans; [apply B11; exact Q01|]. unfold T; lra. }
    { split; [assumption|unfold m'; lra]. }
Qed.

Lemma q_sqr_fin x : QFin x -> q_sqr x = q_sqr_core x.
Proof.
  intros (Fx & _). unfold q_sqr, q_pre_sqr, q_is_infinite. destruct (q0 x) as [| | |]; try discriminate Fx; reflexivity.
Qed.

Lemma q_sqr_fall k x : (40 <= k <= 52)%Z -> QFall k x ->
  Rabs (QV x) <= bp 498 -> bp (-500) <= QV x * QV x ->
  QFall 52 (q_sqr x) /\
  Rabs (QV (q_sqr x) - QV x * QV x) <= bp (10 - 4 * k) * (QV x * QV x).
Proof.
  intros Hk Hx Bx Lo.
  destruct (QFall_le k x ltac:(lia) Hx) as [Jx Ix].
  assert (EP : QV x * QV x = Rabs (QV x) * Rabs (QV x)) by (rewrite <- Rabs_mult, Rabs_pos_eq; [reflexivity|apply Rle_0_sqr]).
  set (X := Rabs (V (q0 x))) in *. assert (PX : 0 <= X) by apply Rabs_pos. assert (PQX := Rabs_pos (QV x)).
  set (N0 := X * X). assert (PN : 0 <= N0) by (apply Rmult_le_pos; lra).
  assert (U1 : N0 <= (1 + / 524288) * (1 + / 524288) * (Rabs (QV x) * Rabs (QV x))).
  { unfold N0. replace ((1 + / 524288) * (1 + / 524288) * (Rabs (QV x) * Rabs (QV x))) with (((1 + / 524288) * Rabs (QV x)) * ((1 + / 524288) * Rabs (QV x))) by ring.
    apply Rmult_le_compat; lra. }
  assert (U2 : Rabs (QV x) * Rabs (QV x) <= (1 + / 524288) * (1 + / 524288) * N0).
  { unfold N0. replace ((1 + / 524288) * (1 + / 524288) * (X * X)) with (((1 + / 524288) * X) * ((1 + / 524288) * X)) by ring.
    apply Rmult_le_compat; lra. }
  assert (B499 : 2 * bp 498 = bp 499) by (change 2 with (bp 1); rewrite <- bpow_plus; reflexivity).
  assert (B500 : 2 * bp 499 = bp 500) by (change 2 with (bp 1); rewrite <- bpow_plus; reflexivity).
  assert (P498 := bpow_gt_0 radix2 498).
  assert (X500 : X <= bp 499) by lra.
  set (e := bp (- k)).
  assert (Pe : 0 < e) by apply bpow_gt_0.
  assert (Ue : u <= e) by (change u with (bp (-53)); apply bpow_le; lia).
  assert (Le : e <= / 1099511627776) by (change (/ 1099511627776) with (bp (-40)); apply bpow_le; lia).
  assert (P500 := bpow_gt_0 radix2 (-500)). assert (N501 : bp (-501) <= N0).
  { assert (2 * bp (-501) = bp (-500)) by (change 2 with (bp 1); rewrite <- bpow_plus; reflexivity). lra. }
  assert (N1000 : N0 <= bp 1000).
  { unfold N0. replace (bp 1000) with (bp 500 * bp 500) by (rewrite <- bpow_plus; reflexivity). apply Rmult_le_compat; lra. }
  rewrite q_sqr_fin by apply Hx.
  set (N1 := e * N0). set (N2 := e * N1). set (N3 := e * N2). set (N4 := e * N3). set (N5 := e * N4).
  assert (PN1 : 0 <= N1) by (apply Rmult_le_pos; lra). assert (PN2 : 0 <= N2) by (apply Rmult_le_pos; lra).
  assert (PN3 : 0 <= N3) by (apply Rmult_le_pos; lra). assert (PN4 : 0 <= N4) by (apply Rmult_le_pos; lra).
  assert (PN5 : 0 <= N5) by (apply Rmult_le_pos; lra).
  assert (HS : Scales5 N0 N1 N2 N3 N4 N5).
  { repeat split; try assumption; apply Rmult_le_compat_r; assumption. }
  destruct (QFall_sc k x Hx) as (H1 & H2 & H3 & _). fold e in H1, H2, H3. cbv zeta in *. destruct (Hx) as ((F0' & F1' & F2' & F3') & _).
  fold X in H1, H2, H3.
  assert (e1 : e <= 1) by lra. assert (e2 : e * e <= 1) by nra. assert (e3 : e * e * e <= 1) by nra.
  assert (mono : forall w, w <= 1 -> w * X <= X).
  { intros w Hw. rewrite <- (Rmult_1_l X) at 2. apply Rmult_le_compat_r; lra. }
  assert (MM1 := mono _ e1). assert (MM2 := mono _ e2). assert (MM3 := mono _ e3).
  assert (QX : Q500 x).
  { fold X in MM1. split; [split; [exact F0'|fold X; lra]|]. split; [split; [exact F1'|lra]|]. split; split; [exact F2'|lra|exact F3'|lra]. }
  assert (dbl : forall a, Fin a -> Rabs (V a) <= bp 499 -> fb (bp 500) (fmul f2 a) /\ V (fmul f2 a) = 2 * V a).
  { intros a Fa Ba. destruct (Bd_mul 1 499 f2 a) as [B E]; [lia|split; [apply Fin_2|rewrite V_2, Rabs_pos_eq by lra; change (bp 1) with 2; lra]|split; assumption|].
    rewrite V_2, rn_twice in E by auto with fmt. split; [|exact E]. destruct B as [B _]. split; [exact B|].
    rewrite E, Rabs_mult, (Rabs_pos_eq 2) by lra. lra. }
  destruct (dbl (q0 x) F0' X500) as [Bdx Vdx]. destruct (dbl (q1 x) F1' ltac:(lra)) as [Bdy Vdy].
  destruct (sqr_core_ex x) as (h0 & l0 & h1 & l1 & h2 & l2 & h3 & l3 & h4 & h5 & r1 & a1 & b0 & b1 & c0 & c1 & d0 & d1 & e0' & e1' & g0 & g1 & i0 & i1 & r2 & j1 & k0 & k1 & m0 & m1 & n0 & n1 & o0 & o1 & r3 & z1 & r4 & E0 & E1 & E2 & E3 & E4 & E5 & T1 & T2 & T3 & T4 & T5 & T6 & T7 & T8 & T9 & T10 & T11 & T12 & T13 & Er4 & EC).
  rewrite EC.
  destruct (sqr_gridW k x _ _ N0 _ _ _ _ _ _ _ _ _ _ _ _ _ _ _ _ _ _ _ _ _ _ _ _ _ _ _ _ _ _ _ _ _ _ _ _ r4 Hk Hx QX Bdx Bdy Vdx Vdy eq_refl (conj N501 N1000) E0 E1 E2 E3 E4 E5 T1 T2 T3 T4 T5 T6 T7 T8 T9 T10 T11 T12 T13 Er4)
    as ((F0 & C0) & C0' & C0'' & (F1 & C1) & (F2 & C2) & (F3 & C3) & (F4 & C4) & RS & D).
  fold e in C0', C1, C2, C3, C4, RS, D. fold N1 in C0', C1, C2, C3, C4, RS, D. fold N2 in C2, C3, C4, RS, D. fold N3 in C3, C4, RS, D. fold N4 in C4, RS, D.
  clear Er4 EC E0 E1 E2 E3 E4 E5 T1 T2 T3 T4 T5 T6 T7 T8 T9 T10 T11 T12 T13.
  destruct (renorm5_fine N0 N1 N2 N3 N4 N5 (120 * N3) h0 r1 r2 r3 r4 ltac:(lra) HS F0 F1 F2 F3 F4 C0' C0 C1 C2 C3 C4 D) as [Q1 Q2].
  assert (Q3 : fall4 (renorm5 h0 r1 r2 r3 r4)).
  { apply (renorm5_fall N0 N1 N2 N3 N4 N5); auto. destruct D as [D|[_ D]]; [now left|right; lra]. }
  set (t := renorm5 h0 r1 r2 r3 r4) in *. clearbody t.
  split; [now apply fall4_QFall|].
  destruct (QV_mkQ4 t) as [-> _].
  assert (E4' : bp (10 - 4 * k) = 1024 * (e * e * e * e)).
  { unfold e. change 1024 with (bp 10). rewrite <- !bpow_plus. f_equal. lia. }
  rewrite E4'. rewrite EP in RS |- *.
  assert (P4 : 0 < e * e * e * e) by (repeat apply Rmult_lt_0_compat; lra).
  assert (W : N4 <= e * e * e * e * ((1 + / 524288) * (1 + / 524288) * (Rabs (QV x) * Rabs (QV x)))).
  { unfold N4, N3, N2, N1. replace (e * (e * (e * (e * N0)))) with (e * e * e * e * N0) by ring. apply Rmult_le_compat_l; lra. }
  assert (Y' : 0 <= e * e * e * e * (Rabs (QV x) * Rabs (QV x))) by (apply Rmult_le_pos; [lra|apply Rmult_le_pos; lra]).
  assert (U34 : u * N3 <= N4) by apply HS.
  set (w := e * e * e * e) in *. set (S4 := qsum4 t) in *. set (xy := Rabs (QV x) * Rabs (QV x)) in *.
  replace (S4 - xy) with ((S4 - (V h0 + V r1 + V r2 + V r3 + V r4)) + (V h0 + V r1 + V r2 + V r3 + V r4 - xy)) by ring.
  eapply Rle_trans; [apply Rabs_triang|]. lra.
Qed.
