(** * The leading component of a Quad sum that cancels *)
From Coq Require Import ZArith Reals List Bool Lia Lra Psatz.
From Flocq Require Import Core IEEE754.BinarySingleNaN.
From Verif Require Import RN F64 F64Facts Prim DoubleM QuadM Spec EFT SpecialProofs DAddProofs ExactProofs QExactProofs LawProofs QuadSpec QAddAcc QAddThms QMulAcc QGeoAcc.
Import ListNotations.
Local Open Scope R_scope.

Definition fst4 (t : f64 * f64 * f64 * f64) : f64 := let '(a, _, _, _) := t in a.
(** the sum's size is controlled by the leading component, up to the third scale *)
Lemma renorm4_head M0 M1 M2 M3 a b c d : Scales M0 M1 M2 M3 ->
  Fin a -> Fin b -> Fin c -> Fin d ->
  Rabs (V a) <= 16 * M0 -> Rabs (V b) <= 64 * M1 -> Rabs (V c) <= 128 * M2 -> Rabs (V d) <= 64 * M2 ->
  Rabs (V a + V b + V c + V d) <= 2 * Rabs (V (fst4 (renorm4 a b c d))) + 300 * M2.
Proof.
  intros (P0 & P1 & P2 & P3 & P4 & P5 & P6 & P7) Fa Fb Fc Fd Ha Hb Hc Hd.
  assert (G := big18). unfold renorm4.
  assert (AD : forall x y A B, Fin x -> Fin y -> Rabs (V x) <= A -> Rabs (V y) <= B -> A <= M18 -> B <= M18 -> Rabs (V x + V y) <= 11 / 10 * Rabs (V (fadd x y))).
  { intros x y A B Fx Fy Hx Hy LA LB. destruct (fadd_b x y Fx Fy ltac:(lra) ltac:(lra)) as [_ K].
    assert (T := Rabs_triang (V (fadd x y)) (- (V (fadd x y) - (V x + V y)))). rewrite Rabs_Ropp in T.
    replace (V (fadd x y) + - (V (fadd x y) - (V x + V y))) with (V x + V y) in T by ring. assert (P := Rabs_pos (V x + V y)). lra. }
  step qs c d (128 * M2) (64 * M2) s1 e1 H11 H12 H13.
  step qs b s1 (64 * M1) (193 * M2) s2 e2 H21 H22 H23.
  destruct (qs a s2 (16 * M0) (65 * M1)) as (s3 & e3 & E3 & F3 & F4 & H5 & H6 & H7); [assumption|assumption|lra|lra|lra|lra|].
  assert (S3 : s3 = fadd a s2) by (injection E3 as <- _; reflexivity).
  assert (K3 : Rabs (V a + V s2) <= 11 / 10 * Rabs (V s3)) by (rewrite S3; apply (AD a s2 (16 * M0) (65 * M1)); [assumption|assumption|lra|lra|lra|lra]).
  assert (W : Rabs (V a + V b + V c + V d) <= Rabs (V a + V s2) + 70 * M2).
  { replace (V a + V b + V c + V d) with ((V a + V s2) + ((V b + V c + V d) - V s2)) by ring.
    eapply Rle_trans; [apply Rabs_triang|]. apply Rplus_le_compat_l. apply abs_le in H11, H21, H12, H22. apply Rabs_le. lra. }
  rewrite E3. clear E3.
  destruct (fne0 e3) eqn:Z1.
  - destruct (quick_two_sum e3 e2) as [s4 e4]. destruct (fne0 e4); [destruct (quick_two_sum e4 e1)|destruct (quick_two_sum s4 e1)]; cbn [fst4]; assert (P := Rabs_pos (V s3)); lra.
  - destruct (qs s3 e2 (17 * M0) (66 * M2)) as (s4 & e4 & E4 & F5 & F6 & H41 & H42 & H43); [assumption|assumption|lra|lra|lra|lra|].
    assert (S4 : s4 = fadd s3 e2) by (injection E4 as <- _; reflexivity).
    assert (K4 := AD s3 e2 (17 * M0) (66 * M2) F3 ltac:(assumption) ltac:(lra) ltac:(lra) ltac:(lra) ltac:(lra)). rewrite <- S4 in K4.
    assert (W2 : Rabs (V s3) <= Rabs (V s3 + V e2) + 66 * M2).
    { replace (V s3) with ((V s3 + V e2) + - V e2) at 1 by ring. eapply Rle_trans; [apply Rabs_triang|]. rewrite Rabs_Ropp. lra. }
    rewrite E4. assert (P4' := Rabs_pos (V s4)). destruct (fne0 e4).
    + destruct (quick_two_sum e4 e1). cbn [fst4]. lra.
    + destruct (qs s4 e1 (18 * M0) (400 * M3)) as (s5 & e5 & E5 & F7 & F8 & H51 & H52 & H53); [assumption|assumption|lra|lra|lra|lra|].
      assert (S5 : s5 = fadd s4 e1) by (injection E5 as <- _; reflexivity).
      assert (K5 := AD s4 e1 (18 * M0) (400 * M3) F5 ltac:(assumption) ltac:(lra) ltac:(lra) ltac:(lra) ltac:(lra)). rewrite <- S5 in K5.
      assert (W3 : Rabs (V s4) <= Rabs (V s4 + V e1) + 400 * M3).
      { replace (V s4) with ((V s4 + V e1) + - V e1) at 1 by ring. eapply Rle_trans; [apply Rabs_triang|]. rewrite Rabs_Ropp. lra. }
      rewrite E5. cbn [fst4]. assert (P5' := Rabs_pos (V s5)). lra.
Qed.
Lemma q_add_head x y : QGeoS x -> QGeoS y -> Rabs (QV x) <= bp 999 -> Rabs (QV y) <= bp 999 ->
  QFin (q_add x y) /\ Rabs (QV x + QV y) <= 2 * Rabs (V (q0 (q_add x y))) + bp (-90) * (Rabs (QV x) + Rabs (QV y)).
Proof.
  intros Gx Gy Bx By.
  assert (Ix := QGeoS_hi x Gx). assert (Iy := QGeoS_hi y Gy).
  rewrite q_add_fin by (apply Gx || apply Gy).
  set (A := Rabs (QV x) + Rabs (QV y)) in *.
  set (M0 := Rmax (Rabs (V (q0 x))) (Rabs (V (q0 y)))).
  assert (Mx : Rabs (V (q0 x)) <= M0) by apply Rmax_l. assert (My : Rabs (V (q0 y)) <= M0) by apply Rmax_r.
  assert (PA := Rabs_pos (QV x)). assert (PB := Rabs_pos (QV y)). assert (PC := Rabs_pos (V (q0 x))).
  assert (MA : M0 <= (1 + / 524288) * A) by (unfold M0, A; apply Rmax_lub; lra).
  assert (MB : M0 <= bp 1000).
  { assert (B1000 : 2 * bp 999 = bp 1000) by (change 2 with (bp 1); rewrite <- bpow_plus; reflexivity).
    assert (0 < bp 999) by apply bpow_gt_0. apply Rmax_lub; lra. }
  assert (PM : 0 <= M0) by lra.
  clearbody M0.
  assert (HS : Scales M0 (2 * u * M0) (8 * u * u * M0) (1600 * u * u * u * M0)).
  { unfold Scales. repeat split; lra. }
  destruct (q_add_core_shape _ _ _ _ x y HS) as (a & b & c & d & E & [G0 O0] & [G1 O1] & [G2 O2] & [G3 O3] & D).
  { destruct x as [x0 x1 x2 x3], y as [y0 y1 y2 y3]. unfold QGeoS, QFin in Gx, Gy. cbn [q0 q1 q2 q3] in *.
    destruct Gx as ((? & ? & ? & ?) & ? & ? & ? & ?), Gy as ((? & ? & ? & ?) & ? & ? & ? & ?).
    assert (Rabs (V x0) <= M0) by assumption. 
    assert (P2 := Rabs_pos (V x2)). assert (P2' := Rabs_pos (V y2)). assert (P0' := Rabs_pos (V y0)).
    apply (geo_bounds (17 * u * u * u * M0)); cbn [q0 q1 q2 q3]; first [assumption|lra]. }
  rewrite E. destruct (renorm4_any _ _ _ _ a b c d HS) as (R1 & R2 & R3); [assumption..|].
  destruct (QV_mkQ4 (renorm4 a b c d)) as [Q1 Q2]. split; [now apply Q2|].
  assert (H := renorm4_head _ _ _ _ a b c d HS G0 G1 G2 G3 O0 O1 O2 O3).
  replace (q0 (mkQ4 (renorm4 a b c d))) with (fst4 (renorm4 a b c d)) by (destruct (renorm4 a b c d) as [[[? ?] ?] ?]; reflexivity).
  set (h := Rabs (V (fst4 (renorm4 a b c d)))) in *. assert (0 <= h) by apply Rabs_pos. change (bp (-90)) with (/ 1237940039285380274899124224).
  replace (QV x + QV y) with ((V a + V b + V c + V d) + - (V a + V b + V c + V d - (QV x + QV y))) by ring.
  eapply Rle_trans; [apply Rabs_triang|]. rewrite Rabs_Ropp. unfold M18 in *. lra.
Qed.
