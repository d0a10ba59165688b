(** * Quad multiplication: how far the computed product is from the exact one *)
From Coq Require Import ZArith Reals List Bool Lia Lra.
From Flocq Require Import Core IEEE754.BinarySingleNaN.
From Verif Require Import F64 F64Facts Prim DoubleM QuadM RN Spec EFT SpecialProofs QuadSpec QAddAcc QAddThms.
Local Open Scope R_scope.

Notation eta := (bp (-1073)).

Lemma prod_err a b : fmt a -> fmt b ->
  Rabs (rn (a * b) + rn (a * b - rn (a * b)) - a * b) <= eta.
Proof.
  intros Fa Fb. assert (Pe := bpow_gt_0 radix2 (-1073)).
  destruct (Rle_lt_dec (bp (-969)) (Rabs (a * b))) as [H|H].
  - rewrite (rn_id (a * b - rn (a * b))) by (apply mul_err_fmt; auto).
    replace (rn (a * b) + (a * b - rn (a * b)) - a * b) with 0 by ring. rewrite Rabs_R0. lra.
  - assert (E1 := rn_err (a * b)). assert (E2 := rn_err (a * b - rn (a * b))).
    rewrite <- Rabs_Ropp in E1. replace (- (rn (a * b) - a * b)) with (a * b - rn (a * b)) in E1 by ring.
    set (d := a * b - rn (a * b)) in *.
    replace (rn (a * b) + rn d - a * b) with (rn d - d) by (unfold d; ring).
    assert (B1 : bp (-1075) * 4 = eta) by (change 4 with (bp 2); rewrite <- bpow_plus; reflexivity).
    assert (B2 : u * bp (-969) = bp (-1022)) by (rewrite <- u_bp, <- bpow_plus; reflexivity).
    assert (B3 : u * bp (-1022) = bp (-1075)) by (rewrite <- u_bp, <- bpow_plus; reflexivity).
    assert (P5 := bpow_gt_0 radix2 (-1075)). lra.
Qed.

(** [two_prod] with a bound [C] on the exact product *)
Lemma tpb a b C : Fin a -> Fin b -> Rabs (V a) <= bp 500 -> Rabs (V b) <= bp 500 ->
  Rabs (V a * V b) <= C ->
  exists p e, two_prod a b = (p, e) /\ Fin p /\ Fin e /\
    Rabs (V p + V e - V a * V b) <= eta /\
    Rabs (V e) <= u * C + 2 * eta /\
    Rabs (V p) <= (1 + u) * C + eta.
Proof.
  intros Fa Fb Ha Hb HC.
  destruct (two_prod_gen 500 500 a b) as (F1 & F2 & E1 & E2); [lia|split; assumption..|].
  destruct (two_prod a b) as [p e]. cbn [fst snd] in *. exists p, e.
  split; [reflexivity|]. split; [assumption|]. split; [assumption|].
  rewrite E1, E2. assert (D := prod_err (V a) (V b) ltac:(auto with fmt) ltac:(auto with fmt)).
  assert (K := rn_err (V a * V b)).
  assert (B1 : bp (-1075) * 4 = eta) by (change 4 with (bp 2); rewrite <- bpow_plus; reflexivity).
  assert (P5 := bpow_gt_0 radix2 (-1075)).
  set (p' := rn (V a * V b)) in *. set (e' := rn (V a * V b - p')) in *.
  split; [exact D|]. split.
  - replace e' with ((p' + e' - V a * V b) + - (p' - V a * V b)) by ring.
    eapply Rle_trans; [apply Rabs_triang|]. rewrite Rabs_Ropp. lra.
  - replace p' with ((p' - V a * V b) + V a * V b) by ring.
    eapply Rle_trans; [apply Rabs_triang|]. lra.
Qed.
Lemma fmb a b C : Fin a -> Fin b -> Rabs (V a) <= bp 500 -> Rabs (V b) <= bp 500 ->
  Rabs (V a * V b) <= C ->
  Fin (fmul a b) /\ Rabs (V (fmul a b) - V a * V b) <= u * C + eta /\ Rabs (V (fmul a b)) <= (1 + u) * C + eta.
Proof.
  intros Fa Fb Ha Hb HC.
  destruct (Bd_mul 500 500 a b) as [[F _] E]; [lia|split; assumption..|].
  split; [exact F|]. rewrite E. assert (K := rn_err (V a * V b)).
  assert (B1 : bp (-1075) * 4 = eta) by (change 4 with (bp 2); rewrite <- bpow_plus; reflexivity).
  assert (P5 := bpow_gt_0 radix2 (-1075)).
  split; [lra|]. replace (rn (V a * V b)) with ((rn (V a * V b) - V a * V b) + V a * V b) by ring.
  eapply Rle_trans; [apply Rabs_triang|]. lra.
Qed.

(** ** the sums of three, four, six and nine *)
Ltac st a b A B s e E1 E2 E3 :=
  let E := fresh "E" in let F1 := fresh "F" in let F2 := fresh "F" in let X := fresh "X" in
  destruct (tsb a b A B) as (s & e & E & F1 & F2 & E1 & E2 & E3 & X);
  [assumption|assumption|lra|lra|lra|lra| rewrite E; clear E X].
Ltac sf a b A B E1 E2 :=
  let F := fresh "F" in
  destruct (fa a b A B) as (F & E1 & E2); [assumption|assumption|lra|lra|lra|lra|].

(** exact sum of three at a common scale [N] (coefficients [A], [B], [C] <= 64) *)
Lemma sum33 a b c N A B C : Fin a -> Fin b -> Fin c -> 0 <= N -> 0 <= A <= 64 -> 0 <= B <= 64 -> 0 <= C <= 64 -> N <= bp 1010 ->
  Rabs (V a) <= A * N -> Rabs (V b) <= B * N -> Rabs (V c) <= C * N ->
  exists s t w, three_three_sum a b c = (s, t, w) /\ Fin s /\ Fin t /\ Fin w /\
    V s + V t + V w = V a + V b + V c /\
    Rabs (V s) <= (A + B + C + / 1048576) * N /\
    Rabs (V t) <= u * ((2 * A + 2 * B + C + / 1048576) * N) /\
    Rabs (V w) <= u * (u * ((2 * A + 2 * B + C + / 1048576) * N)).
Proof.
  intros Fa Fb Fc PN PA PB PC BN Ha Hb Hc.
  assert (G : 256 * bp 1010 = bp 1018) by (change 256 with (bp 8); rewrite <- bpow_plus; reflexivity).
  assert (A * N <= 64 * N) by (apply Rmult_le_compat_r; lra).
  assert (B * N <= 64 * N) by (apply Rmult_le_compat_r; lra).
  assert (C * N <= 64 * N) by (apply Rmult_le_compat_r; lra).
  unfold three_three_sum.
  st a b (A * N) (B * N) s1 e1 S1 S2 S3.
  st c s1 (C * N) ((1 + u) * (A * N + B * N)) s2 e2 S4 S5 S6.
  st e1 e2 (u * (A * N) + u * (B * N)) (u * (C * N) + u * ((1 + u) * (A * N + B * N))) s3 e3 S7 S8 S9.
  exists s2, s3, e3. split; [reflexivity|]. split; [assumption|]. split; [assumption|]. split; [assumption|].
  split; [lra|]. split; [lra|]. split; lra.
Qed.

Lemma sum42 a b c d N A B C D : Fin a -> Fin b -> Fin c -> Fin d -> 0 <= N -> N <= bp 1010 ->
  0 <= A <= 256 -> 0 <= B <= 256 -> 0 <= C <= 256 -> 0 <= D <= 256 ->
  Rabs (V a) <= A * N -> Rabs (V b) <= u * (B * N) -> Rabs (V c) <= C * N -> Rabs (V d) <= u * (D * N) ->
  exists s t, four_two_sum a b c d = (s, t) /\ Fin s /\ Fin t /\
    Rabs (V s + V t - (V a + V b + V c + V d)) <= u * (u * (3 * (A + B + C + D) * N)) /\
    Rabs (V s) <= (A + C + / 1048576) * N /\
    Rabs (V t) <= u * ((A + B + C + D + / 1048576) * N).
Proof.
  intros Fa Fb Fc Fd PN BN PA PB PC PD Ha Hb Hc Hd.
  assert (G : 256 * bp 1010 = bp 1018) by (change 256 with (bp 8); rewrite <- bpow_plus; reflexivity).
  assert (A * N <= 256 * N) by (apply Rmult_le_compat_r; lra).
  assert (B * N <= 256 * N) by (apply Rmult_le_compat_r; lra).
  assert (C * N <= 256 * N) by (apply Rmult_le_compat_r; lra).
  assert (D * N <= 256 * N) by (apply Rmult_le_compat_r; lra).
  unfold four_two_sum.
  assert (0 <= A * N) by (apply Rmult_le_pos; lra). assert (0 <= B * N) by (apply Rmult_le_pos; lra).
  assert (0 <= C * N) by (apply Rmult_le_pos; lra). assert (0 <= D * N) by (apply Rmult_le_pos; lra).
  st a c (A * N) (C * N) s1 e1 S1 S2 S3.
  sf e1 b (u * (A * N) + u * (C * N)) (u * (B * N)) S4 S5.
  sf (fadd e1 b) d ((1 + u) * (u * (A * N) + u * (C * N) + u * (B * N))) (u * (D * N)) S6 S7.
  exists s1, (fadd (fadd e1 b) d). split; [reflexivity|]. split; [assumption|]. split; [assumption|].
  apply abs_le in S4, S6. split; [apply Rabs_le; lra|]. split; lra.
Qed.

Lemma sum63 a b c d e f N : Fin a -> Fin b -> Fin c -> Fin d -> Fin e -> Fin f -> 0 <= N -> N <= bp 1001 ->
  Rabs (V a) <= 8 * N -> Rabs (V b) <= 2 * N -> Rabs (V c) <= 2 * N -> Rabs (V d) <= 2 * N -> Rabs (V e) <= 2 * N -> Rabs (V f) <= 2 * N ->
  exists s t w, six_three_sum a b c d e f = (s, t, w) /\ Fin s /\ Fin t /\ Fin w /\
    Rabs (V s + V t + V w - (V a + V b + V c + V d + V e + V f)) <= u * (u * (u * (256 * N))) /\
    Rabs (V s) <= 21 * N /\ Rabs (V t) <= u * (56 * N) /\ Rabs (V w) <= u * (u * (128 * N)).
Proof.
  intros Fa Fb Fc Fd Fe Ff PN BN Ha Hb Hc Hd He Hf.
  assert (G : 512 * bp 1001 = bp 1010) by (change 512 with (bp 9); rewrite <- bpow_plus; reflexivity).
  assert (G2 : 256 * bp 1010 = bp 1018) by (change 256 with (bp 8); rewrite <- bpow_plus; reflexivity).
  unfold six_three_sum.
  destruct (sum33 a b c N 8 2 2) as (p0 & p1 & p2 & E1 & Fp0 & Fp1 & Fp2 & S1 & S2 & S3 & S4); [assumption..|lra|lra|lra|lra|lra|lra|lra|lra|]. rewrite E1; clear E1.
  destruct (sum33 d e f N 2 2 2) as (r0 & r1 & r2 & E1 & Fr0 & Fr1 & Fr2 & S5 & S6 & S7 & S8); [assumption..|lra|lra|lra|lra|lra|lra|lra|lra|]. rewrite E1; clear E1.
  st p0 r0 (13 * N) (7 * N) s0 s1 X1 X2 X3.
  st p1 r1 (u * (22 * N + N)) (u * (10 * N + N)) w0 w1 X4 X5 X6.
  st w0 s1 (u * (35 * N)) (u * (20 * N)) z0 z1 X7 X8 X9.
  sf p2 r2 (u * (u * (23 * N))) (u * (u * (11 * N))) Y1 Y2.
  sf (fadd p2 r2) w1 (u * (u * (35 * N))) (u * (u * (34 * N))) Y3 Y4.
  sf (fadd (fadd p2 r2) w1) z1 (u * (u * (70 * N))) (u * (u * (55 * N))) Y5 Y6.
  exists s0, z0, (fadd (fadd (fadd p2 r2) w1) z1).
  split; [reflexivity|]. split; [assumption|]. split; [assumption|]. split; [assumption|].
  assert (T0 : Rabs (V s0) <= 21 * N).
  { lra. }
  assert (T1 : Rabs (V z0) <= u * (56 * N)).
  { lra. }
  assert (T2 : Rabs (V (fadd (fadd (fadd p2 r2) w1) z1)) <= u * (u * (128 * N))).
  { lra. }
  split; [|split; [assumption|split; assumption]].
  apply abs_le in Y1, Y3, Y5. apply Rabs_le; lra.
Qed.

Lemma sum92 a b c d e f g h i N : Fin a -> Fin b -> Fin c -> Fin d -> Fin e -> Fin f -> Fin g -> Fin h -> Fin i -> 0 <= N -> N <= bp 1001 ->
  Rabs (V a) <= 8 * N -> Rabs (V b) <= 57 * N -> Rabs (V c) <= 2 * N -> Rabs (V d) <= 2 * N -> Rabs (V e) <= 2 * N -> Rabs (V f) <= 2 * N ->
  Rabs (V g) <= 2 * N -> Rabs (V h) <= 2 * N -> Rabs (V i) <= 2 * N ->
  exists s t, nine_two_sum a b c d e f g h i = (s, t) /\ Fin s /\ Fin t /\
    Rabs (V s + V t - (V a + V b + V c + V d + V e + V f + V g + V h + V i)) <= u * (u * (2048 * N)) /\
    Rabs (V s) <= 100 * N /\ Rabs (V t) <= u * (400 * N).
Proof.
  intros Fa Fb Fc Fd Fe Ff Fg Fh Fi PN BN Ha Hb Hc Hd He Hf Hg Hh Hi.
  assert (G : 512 * bp 1001 = bp 1010) by (change 512 with (bp 9); rewrite <- bpow_plus; reflexivity).
  assert (G2 : 256 * bp 1010 = bp 1018) by (change 256 with (bp 8); rewrite <- bpow_plus; reflexivity).
  unfold nine_two_sum.
  st a b (8 * N) (57 * N) p0 p1 X1 X2 X3.
  st c d (2 * N) (2 * N) k0 k1 X4 X5 X6.
  st e f (2 * N) (2 * N) r0 r1 X7 X8 X9.
  st g h (2 * N) (2 * N) s0 s1 X10 X11 X12.
  destruct (sum42 p0 p1 k0 k1 N 66 66 5 5) as (t0 & t1 & E1 & Ft0 & Ft1 & Y1 & Y2 & Y3); [assumption..|lra|lra|lra|lra|lra|lra|lra|lra|lra|lra|]. rewrite E1; clear E1.
  destruct (sum42 r0 r1 s0 s1 N 5 5 5 5) as (w0 & w1 & E1 & Fw0 & Fw1 & Y4 & Y5 & Y6); [assumption..|lra|lra|lra|lra|lra|lra|lra|lra|lra|lra|]. rewrite E1; clear E1.
  destruct (sum42 t0 t1 w0 w1 N 72 143 11 21) as (v0 & v1 & E1 & Fv0 & Fv1 & Y7 & Y8 & Y9); [assumption..|lra|lra|lra|lra|lra|lra|lra|lra|lra|lra|]. rewrite E1; clear E1.
  st v0 i (84 * N) (2 * N) z0 z1 X13 X14 X15.
  sf z1 v1 (u * (87 * N)) (u * (248 * N)) Z1 Z2.
  exists z0, (fadd z1 v1). split; [reflexivity|]. split; [assumption|]. split; [assumption|].
  assert (T0 : Rabs (V z0) <= 100 * N) by lra.
  assert (T1 : Rabs (V (fadd z1 v1)) <= u * (400 * N)) by lra.
  split; [|split; assumption].
  apply abs_le in Y1, Y4, Y7, Z1. apply Rabs_le; lra.
Qed.

Definition Scales5 (N0 N1 N2 N3 N4 N5 : R) : Prop :=
  0 <= N5 /\ N0 <= bp 1000 /\
  u * N0 <= N1 /\ u * N1 <= N2 /\ u * N2 <= N3 /\ u * N3 <= N4 /\ u * N4 <= N5 /\
  N1 <= / 1099511627776 * N0 /\ N2 <= / 1099511627776 * N1 /\ N3 <= / 1099511627776 * N2 /\
  N4 <= / 1099511627776 * N3 /\ N5 <= / 1099511627776 * N4.

Ltac absall := repeat match goal with H : Rabs _ <= _ |- _ => apply abs_le in H end.
Ltac fin5 := cbn [qfin4 qsum4]; rewrite ?V_0; split;
  [repeat (split; [first [assumption|apply Fin_0]|]); first [assumption|apply Fin_0]
  |absall; apply Rabs_le; lra].

Lemma renorm5_any N0 N1 N2 N3 N4 N5 a b c d e : Scales5 N0 N1 N2 N3 N4 N5 ->
  Fin a -> Fin b -> Fin c -> Fin d -> Fin e ->
  16 * N1 <= Rabs (V a) -> Rabs (V a) <= 2 * N0 -> Rabs (V b) <= 8 * N1 -> Rabs (V c) <= 32 * N2 -> Rabs (V d) <= 128 * N3 -> Rabs (V e) <= 2048 * N4 ->
  qfin4 (renorm5 a b c d e) /\
  Rabs (qsum4 (renorm5 a b c d e) - (V a + V b + V c + V d + V e)) <= 100 * N3.
Proof.
  intros (P0 & P1 & P2 & P3 & P4 & P5 & P6 & P7 & P8 & P9 & P10 & P11) Fa Fb Fc Fd Fe Ho Ha Hb Hc Hd He.
  assert (G := big18). unfold renorm5.
  step qs d e (128 * N3) (2048 * N4) s1 e1 H11 H12 H13.
  step qs c s1 (32 * N2) (129 * N3) s2 e2 H21 H22 H23.
  step qs b s2 (8 * N1) (33 * N2) s3 e3 H31 H32 H33.
  destruct (qs_ord a s3 (2 * N0) (9 * N1)) as (s4 & e4 & E4 & F7 & F8 & H41 & H42 & H43); [assumption|assumption|lra|lra|lra|lra|lra|].
  rewrite E4; clear E4.
  assert (L0 : Rabs (V s4) <= 3 * N0) by lra. assert (L1 : Rabs (V e4) <= 3 * N1) by lra.
  assert (L2 : Rabs (V e3) <= 9 * N2) by lra. assert (L3 : Rabs (V e2) <= 34 * N3) by lra. assert (L4 : Rabs (V e1) <= 129 * N4) by lra.
  clear H12 H13 H22 H23 H32 H33 H42 H43 Ho Ha Hb Hc Hd He.
  destruct (fne0 e4) eqn:Z1.
  - step qs e4 e3 (3 * N1) (9 * N2) s5 e5 H51 H52 H53.
    destruct (fne0 e5) eqn:Z2.
    + step qs e5 e2 (4 * N2) (34 * N3) s6 e6 H61 H62 H63.
      destruct (fne0 e6) eqn:Z3.
      * sf e6 e1 (5 * N3) (129 * N4) H71 H72. fin5.
      * apply fne0_V in Z3; [|assumption]. step qs s6 e1 (5 * N2) (129 * N4) s7 e7 H71 H72 H73. fin5.
    + apply fne0_V in Z2; [|assumption]. step qs s5 e2 (4 * N1) (34 * N3) s6 e6 H61 H62 H63.
      destruct (fne0 e6) eqn:Z3.
      * step qs e6 e1 (5 * N2) (129 * N4) s7 e7 H71 H72 H73. fin5.
      * apply fne0_V in Z3; [|assumption]. step qs s6 e1 (5 * N1) (129 * N4) s7 e7 H71 H72 H73. fin5.
  - apply fne0_V in Z1; [|assumption]. step qs s4 e3 (3 * N0) (9 * N2) s5 e5 H51 H52 H53.
    destruct (fne0 e5) eqn:Z2.
    + step qs e5 e2 (4 * N1) (34 * N3) s6 e6 H61 H62 H63.
      destruct (fne0 e6) eqn:Z3.
      * step qs e6 e1 (5 * N2) (129 * N4) s7 e7 H71 H72 H73. fin5.
      * apply fne0_V in Z3; [|assumption]. step qs s6 e1 (5 * N1) (129 * N4) s7 e7 H71 H72 H73. fin5.
    + apply fne0_V in Z2; [|assumption]. step qs s5 e2 (4 * N0) (34 * N3) s6 e6 H61 H62 H63.
      destruct (fne0 e6) eqn:Z3.
      * step qs e6 e1 (5 * N1) (129 * N4) s7 e7 H71 H72 H73. fin5.
      * apply fne0_V in Z3; [|assumption]. step qs s6 e1 (5 * N0) (129 * N4) s7 e7 H71 H72 H73. fin5.
Qed.

Definition QProd (N0 N1 N2 N3 N4 N5 : R) (x y : Quad) : Prop :=
  let p i j := Rabs (V (i x) * V (j y)) in
  p q0 q0 <= N0 /\
  p q0 q1 <= N1 /\ p q1 q0 <= N1 /\
  p q0 q2 <= N2 /\ p q1 q1 <= N2 /\ p q2 q0 <= N2 /\
  p q0 q3 <= N3 /\ p q1 q2 <= N3 /\ p q2 q1 <= N3 /\ p q3 q0 <= N3 /\
  p q1 q3 <= N4 /\ p q2 q2 <= N4 /\ p q3 q1 <= N4 /\
  p q2 q3 <= N5 /\ p q3 q2 <= N5 /\ p q3 q3 <= N5.

Definition Q500 (x : Quad) : Prop := fb (bp 500) (q0 x) /\ fb (bp 500) (q1 x) /\ fb (bp 500) (q2 x) /\ fb (bp 500) (q3 x).

Ltac tp a b C p e E1 E2 E3 :=
  let E := fresh "E" in let F1 := fresh "F" in let F2 := fresh "F" in
  destruct (tpb a b C) as (p & e & E & F1 & F2 & E1 & E2 & E3);
  [assumption|assumption|assumption|assumption|assumption| rewrite E; clear E].
Ltac fm a b C E1 E2 :=
  let F := fresh "F" in
  destruct (fmb a b C) as (F & E1 & E2); [assumption|assumption|assumption|assumption|assumption|].

Lemma q_mul_core_ok N0 N1 N2 N3 N4 N5 x y : Scales5 N0 N1 N2 N3 N4 N5 -> eta <= / 1024 * N5 ->
  Q500 x -> Q500 y -> QProd N0 N1 N2 N3 N4 N5 x y -> 18 * N1 <= Rabs (V (q0 x) * V (q0 y)) ->
  QFin (q_mul_core x y) /\ Rabs (QV (q_mul_core x y) - QV x * QV y) <= 101 * N3.
Proof.
  intros HS He. assert (S := HS). destruct S as (P0 & P1 & P2 & P3 & P4 & P5 & P6 & P7 & P8 & P9 & P10 & P11).
  assert (Pe := bpow_gt_0 radix2 (-1073)).
  destruct x as [x0 x1 x2 x3], y as [y0 y1 y2 y3].
  unfold Q500, QProd. cbn [q0 q1 q2 q3].
  intros ((Fx0 & Bx0) & (Fx1 & Bx1) & (Fx2 & Bx2) & (Fx3 & Bx3)) ((Fy0 & By0) & (Fy1 & By1) & (Fy2 & By2) & (Fy3 & By3))
    (M00 & M01 & M10 & M02 & M11 & M20 & M03 & M12 & M21 & M30 & M13 & M22 & M31 & M23 & M32 & M33) Lo.
  assert (G : 2 * bp 1000 = bp 1001) by (change 2 with (bp 1); rewrite <- bpow_plus; reflexivity).
  assert (G18 := big18). assert (G10 : bp 1000 <= bp 1010) by (apply bpow_le; lia).
  unfold q_mul_core. cbn [q0 q1 q2 q3].
  tp x0 y0 N0 h0 l0 ea0 eb0 ec0. tp x0 y1 N1 h1 l1 ea1 eb1 ec1. tp x1 y0 N1 h2 l2 ea2 eb2 ec2.
  tp x0 y2 N2 h3 l3 ea3 eb3 ec3. tp x1 y1 N2 h4 l4 ea4 eb4 ec4. tp x2 y0 N2 h5 l5 ea5 eb5 ec5.
  tp x0 y3 N3 h6 l6 ea6 eb6 ec6. tp x1 y2 N3 h7 l7 ea7 eb7 ec7. tp x2 y1 N3 h8 l8 ea8 eb8 ec8. tp x3 y0 N3 h9 l9 ea9 eb9 ec9.
  fm x1 y3 N4 ea10 eb10. fm x2 y2 N4 ea11 eb11. fm x3 y1 N4 ea12 eb12.
  set (ha := fmul x1 y3) in *. set (hb := fmul x2 y2) in *. set (hc := fmul x3 y1) in *. clearbody ha hb hc.
  destruct (sum33 h1 h2 l0 N1 (101/100) (101/100) (101/100)) as (r1 & t0 & t1 & E1 & Fr1 & Ft0 & Ft1 & S1 & S2 & S3 & S4); [assumption|assumption|assumption|lra|lra|lra|lra|lra|lra|lra|lra|].
  rewrite E1; clear E1.
  destruct (sum63 t0 h3 h4 h5 l1 l2 N2) as (r2 & t2 & t3 & E1 & Fr2 & Ft2 & Ft3 & S5 & S6 & S7 & S8); [assumption|assumption|assumption|assumption|assumption|assumption|lra|lra|lra|lra|lra|lra|lra|lra|].
  rewrite E1; clear E1.
  destruct (sum92 t1 t2 h6 h7 h8 h9 l3 l4 l5 N3) as (r3 & t4 & E1 & Fr3 & Ft4 & S9 & S10 & S11); [assumption|assumption|assumption|assumption|assumption|assumption|assumption|assumption|assumption|lra|lra|lra|lra|lra|lra|lra|lra|lra|lra|lra|].
  rewrite E1; clear E1.
  assert (K3 : Rabs (V t3) <= 128 * N4) by lra. assert (K4 : Rabs (V t4) <= 400 * N4) by lra.
  assert (J0 : Rabs (V ha) <= 2 * N4) by lra. assert (J1 : Rabs (V hb) <= 2 * N4) by lra. assert (J2 : Rabs (V hc) <= 2 * N4) by lra.
  assert (J6 : Rabs (V l6) <= 2 * N4) by lra. assert (J7 : Rabs (V l7) <= 2 * N4) by lra.
  assert (J8 : Rabs (V l8) <= 2 * N4) by lra. assert (J9 : Rabs (V l9) <= 2 * N4) by lra.
  assert (R1 : Rabs (V r1) <= 8 * N1) by lra. assert (R2 : Rabs (V r2) <= 32 * N2) by lra. assert (R3 : Rabs (V r3) <= 128 * N3) by lra.
  assert (R0 : Rabs (V h0) <= 2 * N0) by lra.
  assert (L0 : Rabs (V l0) <= 2 * N1) by lra.
  assert (RL : 16 * N1 <= Rabs (V h0)).
  { assert (T : Rabs (V x0 * V y0) <= Rabs (V h0) + Rabs (V l0) + eta).
    { replace (V x0 * V y0) with (V h0 + V l0 + - (V h0 + V l0 - V x0 * V y0)) by ring.
      eapply Rle_trans; [apply Rabs_triang|]. rewrite Rabs_Ropp.
      assert (T := Rabs_triang (V h0) (V l0)). lra. }
    assert (Rabs (V l0) <= N1 + 2 * eta) by lra.
    assert (Rabs (V l0) <= u * N0 + 2 * eta) by lra.
    lra. }
  clear ec0 ec1 ec2 ec3 ec4 ec5 ec6 ec7 ec8 ec9 eb0 eb1 eb2 eb3 eb4 eb5 eb6 eb7 eb8 eb9 eb10 eb11 eb12 S2 S3 S4 S6 S7 S8 S10 S11 L0.
  clear Bx0 Bx1 Bx2 Bx3 By0 By1 By2 By3 M00 M01 M10 M02 M11 M20 M03 M12 M21 M30 M13 M22 M31 Lo.
  sf t3 t4 (128 * N4) (400 * N4) Z1 Z1'.
  sf (fadd t3 t4) ha (529 * N4) (2 * N4) Z2 Z2'. set (g1 := fadd t3 t4) in *.
  sf (fadd g1 ha) hb (532 * N4) (2 * N4) Z3 Z3'. set (g2 := fadd g1 ha) in *.
  sf (fadd g2 hb) hc (535 * N4) (2 * N4) Z4 Z4'. set (g3 := fadd g2 hb) in *.
  sf (fadd g3 hc) l6 (538 * N4) (2 * N4) Z5 Z5'. set (g4 := fadd g3 hc) in *.
  sf (fadd g4 l6) l7 (541 * N4) (2 * N4) Z6 Z6'. set (g5 := fadd g4 l6) in *.
  sf (fadd g5 l7) l8 (544 * N4) (2 * N4) Z7 Z7'. set (g6 := fadd g5 l7) in *.
  sf (fadd g6 l8) l9 (547 * N4) (2 * N4) Z8 Z8'. set (g7 := fadd g6 l8) in *.
  set (r4 := fadd g7 l9) in *.
  destruct (renorm5_any N0 N1 N2 N3 N4 N5 h0 r1 r2 r3 r4 HS) as (W1 & W2); [assumption|assumption|assumption|assumption|assumption|assumption|assumption|assumption|assumption|assumption|lra|].
  destruct (QV_mkQ4 (renorm5 h0 r1 r2 r3 r4)) as [Q1 Q2].
  split; [apply Q2; exact W1|]. rewrite Q1.
  clearbody r4 g7 g6 g5 g4 g3 g2 g1.
  replace (QV (mkQ x0 x1 x2 x3) * QV (mkQ y0 y1 y2 y3)) with
    (V x0 * V y0 + V x0 * V y1 + V x1 * V y0 + V x0 * V y2 + V x1 * V y1 + V x2 * V y0 + V x0 * V y3 + V x1 * V y2 + V x2 * V y1 + V x3 * V y0 +
     V x1 * V y3 + V x2 * V y2 + V x3 * V y1 + V x2 * V y3 + V x3 * V y2 + V x3 * V y3) by (unfold QV; cbn [q0 q1 q2 q3]; ring).
  set (m00 := V x0 * V y0) in *. set (m01 := V x0 * V y1) in *. set (m10 := V x1 * V y0) in *.
  set (m02 := V x0 * V y2) in *. set (m11 := V x1 * V y1) in *. set (m20 := V x2 * V y0) in *.
  set (m03 := V x0 * V y3) in *. set (m12 := V x1 * V y2) in *. set (m21 := V x2 * V y1) in *. set (m30 := V x3 * V y0) in *.
  set (m13 := V x1 * V y3) in *. set (m22 := V x2 * V y2) in *. set (m31 := V x3 * V y1) in *.
  set (m23 := V x2 * V y3) in *. set (m32 := V x3 * V y2) in *. set (m33 := V x3 * V y3) in *.
  clearbody m00 m01 m10 m02 m11 m20 m03 m12 m21 m30 m13 m22 m31 m23 m32 m33.
  set (q := qsum4 (renorm5 h0 r1 r2 r3 r4)) in *. clearbody q.
  clear Z1' Z2' Z3' Z4' Z5' Z6' Z7' Z8' K3 K4 J0 J1 J2 J6 J7 J8 J9 R0 R1 R2 R3 RL.
  absall. apply Rabs_le. split; lra.
Qed.
