(** * Quad addition, multiplication and squaring with absolute error bounds *)
From Coq Require Import ZArith Reals List Bool Lia Lra.
From Flocq Require Import Core IEEE754.BinarySingleNaN.
From Verif Require Import F64 F64Facts Prim DoubleM QuadM AlgM RN Spec EFT SpecialProofs ExactProofs QExactProofs LawProofs QuadSpec QAddAcc QAddThms QMulAcc QMulThms QGeoAcc QGeoMul QSqrAcc QLoose QLDiv QLOps
  QPowProofs FoldThms ExprProofs ParseM ParseSpec ParseProofs ParseThms ParseNum DDivProofs DAddProofs DMulProofs FromProofs QParse SqrtProofs OrderProofs QLSqrt.
Import ListNotations.
Local Open Scope R_scope.

Lemma QB_mono a d b e x : a <= b -> d <= e -> QB a d x -> QB b e x.
Proof. intros H K ([F0 A] & [F1 B] & [F2 C] & [F3 D]). unfold QB, fb. repeat split; try assumption; lra. Qed.
Lemma QB_fin a d x : QB a d x -> QFin x.
Proof. intros ([F0 A] & [F1 B] & [F2 C] & [F3 D]). repeat split; assumption. Qed.
Lemma QB_val a d x : QB a d x -> Rabs (QV x - V (q0 x)) <= 3 * d.
Proof.
  intros ([F0 A] & [F1 B] & [F2 C] & [F3 D]). replace (QV x - V (q0 x)) with (V (q1 x) + V (q2 x) + V (q3 x)) by (unfold QV; ring).
  apply Rabs_le_inv in B, C, D. apply Rabs_le. lra.
Qed.
Lemma QB_sharp a d b x : QB a d x -> Rabs (QV x) <= b -> QB (b + 3 * d) d x.
Proof.
  intros H K. assert (E := QB_val a d x H). destruct H as ([F0 A] & H). split; [|exact H]. split; [exact F0|].
  apply Rabs_le_inv in E, K. apply Rabs_le. lra.
Qed.
Lemma QB_abs a d x : QB a d x -> Rabs (QV x) <= a + 3 * d.
Proof. intros H. assert (E := QB_val a d x H). destruct H as ([F0 A] & _). apply Rabs_le_inv in E, A. apply Rabs_le. lra. Qed.
Lemma QB_neg a d x : QB a d x -> QB a d (q_neg x) /\ QV (q_neg x) = - QV x /\ (V (q0 (q_neg x)) = 0 -> V (q0 x) = 0).
Proof.
  intros H. assert (F := QB_fin _ _ _ H). destruct H as ([F0 A] & [F1 B] & [F2 C] & [F3 D]).
  destruct (fneg_ok _ F0) as [G0 E0]. destruct (fneg_ok _ F1) as [G1 E1]. destruct (fneg_ok _ F2) as [G2 E2]. destruct (fneg_ok _ F3) as [G3 E3].
  split; [|split; [now apply QV_neg|]].
  - unfold QB, fb, q_neg. cbn [q0 q1 q2 q3]. rewrite E0, E1, E2, E3, !Rabs_Ropp. auto 10.
  - unfold q_neg. cbn [q0]. rewrite E0. lra.
Qed.
Lemma QL_QB d x a : QL d x -> Rabs (V (q0 x)) <= a -> 0 <= d -> QB a (d * a) x.
Proof.
  intros ((F0 & F1 & F2 & F3) & A & B & C) H P. assert (K : d * Rabs (V (q0 x)) <= d * a) by (apply Rmult_le_compat_l; assumption).
  unfold QB, fb. repeat split; try assumption; lra.
Qed.

Lemma badd M0 M1 x y : 0 <= M1 -> M0 <= bp 1000 -> u * M0 <= M1 -> M1 <= M0 -> QB M0 M1 x -> QB M0 M1 y ->
  Rabs (QV (q_add x y) - (QV x + QV y)) <= 672 * (u * M1) /\ QB (17 * M0 + 130 * M1) (17 * (u * M0) + 900 * (u * M1)) (q_add x y) /\
  (V (q0 (q_add x y)) = 0 -> QV (q_add x y) = 0).
Proof.
  intros P0 P1 P2 P3 Hx Hy. rewrite q_add_fin by (eapply QB_fin; eassumption).
  destruct (q_add_core_LZ M0 M1 x y) as (L & E & Z); [repeat split; assumption|assumption|assumption|].
  split; [exact E|]. split; [|exact Z]. destruct L as (L0 & [F1 L1] & [F2 L2] & [F3 L3]). split; [exact L0|]. unfold fb. repeat split; try assumption; lra.
Qed.
Lemma bsub M0 M1 x y : 0 <= M1 -> M0 <= bp 1000 -> u * M0 <= M1 -> M1 <= M0 -> QB M0 M1 x -> QB M0 M1 y ->
  Rabs (QV (q_sub x y) - (QV x - QV y)) <= 672 * (u * M1) /\ QB (17 * M0 + 130 * M1) (17 * (u * M0) + 900 * (u * M1)) (q_sub x y) /\
  (V (q0 (q_sub x y)) = 0 -> QV (q_sub x y) = 0).
Proof.
  intros P0 P1 P2 P3 Hx Hy. destruct (QB_neg _ _ _ Hy) as (Hn & En & _). unfold q_sub.
  destruct (badd M0 M1 x (q_neg y)) as (A & B & C); try assumption. rewrite En in A. split; [exact A|]. split; assumption.
Qed.

Lemma prod_le a b A B : Rabs a <= A -> Rabs b <= B -> Rabs (a * b) <= A * B.
Proof. intros H K. rewrite Rabs_mult. apply Rmult_le_compat; auto using Rabs_pos. Qed.
Section Mul.
Variables (a d b e : R) (x y : Quad) (N1 N2 : R).
Hypotheses (Hx : QB a d x) (Hy : QB b e y) (Pd : 0 <= d) (Pe : 0 <= e) (Pa : 0 <= a) (Pb : 0 <= b).
Hypotheses (A5 : a <= bp 400) (D5 : d <= bp 400) (B5 : b <= bp 400) (E5 : e <= bp 400).
Hypotheses (H1 : a * e <= N1) (H2 : d * b <= N1) (H3 : d * e <= N2) (H4 : N2 <= N1) (H5 : u * u <= N1).
Lemma bmul_core N0 : Rabs (V (q0 x) * V (q0 y)) <= N0 -> u * N0 <= N1 -> 130 * N1 <= N0 -> N0 <= bp 900 ->
  lbQ (N0 + 140 * N1 + 64 * (u * N0)) (2 * (u * N0) + 4000 * (u * N1)) (1260 * (u * N1)) (1260 * (u * N1)) (q_mul_core x y) /\
  Rabs (QV (q_mul_core x y) - QV x * QV y) <= 1270 * (u * N1) + 4 * N2.
Proof.
  intros G1 G2 G3 G4. assert (PN : 0 <= N2) by (apply Rle_trans with (2 := H3); apply Rmult_le_pos; assumption).
  assert (B9 : 2 * bp 900 <= bp 1000). { replace (2 * bp 900) with (bp 901) by exact (bp_split 900 1 ltac:(lia)). apply bpow_le. lia. }
  assert (P9 := bpow_gt_0 radix2 900). assert (B45 : bp 400 <= bp 500) by (apply bpow_le; lia).
  destruct Hx as ([F0 X0] & [F1 X1] & [F2 X2] & [F3 X3]). destruct Hy as ([K0 Y0] & [K1 Y1] & [K2 Y2] & [K3 Y3]).
  apply q_mul_core_L.
  - repeat split; lra.
  - lra.
  - lra.
  - exact PN.
  - exact H4.
  - apply Rle_trans with (/ 1024 * (u * (u * (u * u)))); [|lra]. change (/ 1024) with (bp (-10)). rewrite <- !u_bp, <- !bpow_plus. apply bpow_le. lia.
  - unfold Q500, fb. repeat split; first [assumption|lra].
  - unfold Q500, fb. repeat split; first [assumption|lra].
  - unfold QProd. cbn zeta.
    assert (K01 : forall p q, Rabs p <= a -> Rabs q <= e -> Rabs (p * q) <= N1) by (intros p q Hp Hq; eapply Rle_trans; [apply prod_le; eassumption|exact H1]).
    assert (K10 : forall p q, Rabs p <= d -> Rabs q <= b -> Rabs (p * q) <= N1) by (intros p q Hp Hq; eapply Rle_trans; [apply prod_le; eassumption|exact H2]).
    assert (K11 : forall p q, Rabs p <= d -> Rabs q <= e -> Rabs (p * q) <= N2) by (intros p q Hp Hq; eapply Rle_trans; [apply prod_le; eassumption|exact H3]).
    assert (K11' : forall p q, Rabs p <= d -> Rabs q <= e -> Rabs (p * q) <= N1) by (intros p q Hp Hq; assert (K := K11 p q Hp Hq); lra).
    split; [exact G1|]. repeat split; first [now apply K01|now apply K10|now apply K11|now apply K11'].
Qed.
Lemma bmul N0 : V (q0 x) <> 0 -> a * b <= N0 -> u * N0 <= N1 -> 130 * N1 <= N0 -> N0 <= bp 900 ->
  Rabs (QV (q_mul x y) - QV x * QV y) <= 1270 * (u * N1) + 4 * N2 /\ QB (N0 + 140 * N1 + 64 * (u * N0)) (2 * (u * N0) + 4000 * (u * N1)) (q_mul x y) /\
  (V (q0 (q_mul x y)) = 0 -> Rabs (QV (q_mul x y)) <= 7000 * (u * N1)).
Proof.
  intros NZ G1 G2 G3 G4. unfold q_mul. rewrite q_pre_mul_fin by (apply Hx || apply Hy || exact NZ). cbn [from_pre].
  assert (G0 : Rabs (V (q0 x) * V (q0 y)) <= N0) by (eapply Rle_trans; [apply prod_le; [apply Hx|apply Hy]|exact G1]).
  assert (PN : 0 <= N2) by (apply Rle_trans with (2 := H3); apply Rmult_le_pos; assumption).
  destruct (bmul_core N0 G0 G2 G3 G4) as [L E]. split; [exact E|]. split.
  { destruct L as (L0 & [F1 L1] & [F2 L2] & [F3 L3]). split; [exact L0|]. assert (0 <= u * N0) by (apply Rmult_le_pos; lra). unfold fb. repeat split; try assumption; lra. }
  set (p := Rabs (V (q0 x) * V (q0 y))) in *. intros Z. destruct (bmul_core (Rmax p (130 * N1))) as [L' E'].
  { apply Rmax_l. } { apply Rmax_case; [apply Rle_trans with (2 := G2); apply Rmult_le_compat_l; lra|lra]. } { apply Rmax_r. } { apply Rmax_case; lra. }
  destruct L' as (_ & [_ L1] & [_ L2] & [_ L3]). set (q := q_mul_core x y) in *.
  assert (QQ : Rabs (QV q) <= 2 * (u * Rmax p (130 * N1)) + 6520 * (u * N1)).
  { unfold QV. rewrite Z. apply Rabs_le_inv in L1, L2, L3. apply Rabs_le. lra. }
  unfold Rmax in *. destruct (Rle_dec p (130 * N1)) as [C|C]; [lra|]. exfalso. apply Rnot_le_lt in C.
  assert (PX : Rabs (QV x * QV y - V (q0 x) * V (q0 y)) <= 15 * N1).
  { assert (V1 := QB_val _ _ _ Hx). assert (V2 := QB_val _ _ _ Hy).
    replace (QV x * QV y - V (q0 x) * V (q0 y)) with (V (q0 x) * (QV y - V (q0 y)) + ((QV x - V (q0 x)) * V (q0 y) + (QV x - V (q0 x)) * (QV y - V (q0 y)))) by ring.
    assert (T1 := prod_le _ _ _ _ (proj2 (proj1 Hx)) V2). assert (T2 := prod_le _ _ _ _ V1 (proj2 (proj1 Hy))). assert (T3 := prod_le _ _ _ _ V1 V2).
    eapply Rle_trans; [apply Rabs_triang|]. eapply Rle_trans; [apply Rplus_le_compat_l, Rabs_triang|]. lra. }
  assert (T := Rabs_triang (V (q0 x) * V (q0 y) - QV x * QV y) (QV x * QV y)). replace (V (q0 x) * V (q0 y) - QV x * QV y + QV x * QV y) with (V (q0 x) * V (q0 y)) in T by ring. fold p in T.
  rewrite Rabs_minus_sym in PX. assert (T2 := Rabs_triang (QV x * QV y - QV q) (QV q)). replace (QV x * QV y - QV q + QV q) with (QV x * QV y) in T2 by ring.
  rewrite Rabs_minus_sym in E. lra.
Qed.
End Mul.
(** a zero first factor *)
Lemma zmul x y : Fin (q0 x) -> Fin (q0 y) -> V (q0 x) = 0 -> QB 0 0 (q_mul x y) /\ QV (q_mul x y) = 0.
Proof.
  intros Fx Fy Z. unfold q_mul. rewrite (q_pre_mul_zero x y Fx Fy Z).
  assert (V0 : V f0 = 0) by reflexivity. assert (Vn : V (q0 Q_NEG_ZERO) = 0) by reflexivity.
  assert (G : forall q, q = Q_ZERO \/ q = Q_NEG_ZERO -> QB 0 0 q /\ QV q = 0).
  { intros q [-> | ->]; split.
    - unfold QB, fb, Q_ZERO. cbn. repeat split; try (apply Rle_refl); try reflexivity; change (V f0) with 0; rewrite Rabs_R0; lra.
    - unfold QV, Q_ZERO. cbn [q0 q1 q2 q3]. change (V f0) with 0. ring.
    - unfold QB, fb. repeat split; try reflexivity; match goal with |- Rabs ?t <= 0 => replace t with 0 by reflexivity; rewrite Rabs_R0; lra end.
    - unfold QV. replace (V (q0 Q_NEG_ZERO)) with 0 by reflexivity. replace (V (q1 Q_NEG_ZERO)) with 0 by reflexivity. replace (V (q2 Q_NEG_ZERO)) with 0 by reflexivity. replace (V (q3 Q_NEG_ZERO)) with 0 by reflexivity. ring. }
  destruct (Bool.eqb _ _); cbn [from_pre]; apply G; auto.
Qed.

Lemma bsqr a d x : 0 < a -> QB a d x -> 4 * (u * a) <= d -> d <= / 68719476736 * a -> a <= bp 400 -> u * u <= d ->
  Rabs (QV (q_sqr x) - QV x * QV x) <= 469 * (u * (d * a)) + 65 * (d * d) /\ QB (2 * (a * a)) ((2 * (u * (a * a)) + 9000 * (u * (d * a)))) (q_sqr x).
Proof.
  intros Pa Hx D1 D2 A4 Lu. set (N0 := a * a) in *. set (N1 := d * a) in *. set (N2 := d * d) in *.
  assert (PN : 0 < N0) by (apply Rmult_lt_0_compat; lra). assert (Pd : 0 < d) by lra.
  assert (n1 : 4 * (u * N0) <= N1). { unfold N1, N0. replace (4 * (u * (a * a))) with (4 * (u * a) * a) by ring. apply Rmult_le_compat_r; lra. }
  assert (n2 : N1 <= / 68719476736 * N0). { unfold N1, N0. rewrite <- Rmult_assoc. apply Rmult_le_compat_r; lra. }
  assert (n3 : N2 <= / 68719476736 * N1). { unfold N1, N2. replace (/ 68719476736 * (d * a)) with (d * (/ 68719476736 * a)) by ring. apply Rmult_le_compat_l; lra. }
  assert (n4 : 4 * (u * N1) <= N2). { unfold N1, N2. replace (4 * (u * (d * a))) with (d * (4 * (u * a))) by ring. apply Rmult_le_compat_l; lra. }
  assert (PN2 : 0 <= N2) by (apply Rmult_le_pos; lra).
  assert (NB : N0 <= bp 800). { replace (bp 800) with (bp 400 * bp 400) by (rewrite <- bpow_plus; reflexivity). apply Rmult_le_compat; lra. }
  assert (G1 : 2 * bp 800 <= bp 1000). { replace (2 * bp 800) with (bp 801) by exact (bp_split 800 1 ltac:(lia)). apply bpow_le. lia. }
  assert (G9 : bp 400 <= bp 499) by (apply bpow_le; lia). assert (G10 : 2 * bp 499 = bp 500) by (change 2 with (bp 1); rewrite <- bpow_plus; reflexivity).
  assert (P49 := bpow_gt_0 radix2 499).
  assert (ET : eta <= / 1024 * N2).
  { apply Rle_trans with (/ 1024 * (u * u * (u * u))); [|apply Rmult_le_compat_l; [lra|]; unfold N2; apply Rmult_le_compat; lra].
    change (/ 1024) with (bp (-10)). rewrite <- !u_bp, <- !bpow_plus. apply bpow_le. lia. }
  assert (UM : u * N0 <= N1 / 4) by lra.
  assert (ET2 : eta <= / 1024 * (u * N0)).
  { apply Rle_trans with (1 := ET). apply Rmult_le_compat_l; [lra|]. apply Rle_trans with (/ 68719476736 * N1); [exact n3|].
    apply Rle_trans with (u * (131072 * N1)); [lra|]. apply Rmult_le_compat_l; lra. }
  rewrite q_sqr_fin by (eapply QB_fin; eassumption).
  destruct Hx as ([F0 X0] & [F1 X1] & [F2 X2] & [F3 X3]). assert (dA : d <= a) by lra.
  assert (K01 : forall p q, Rabs p <= a -> Rabs q <= d -> Rabs (p * q) <= N1) by (intros p q Hp Hq; eapply Rle_trans; [apply prod_le; eassumption|right; unfold N1; ring]).
  assert (K11 : forall p q, Rabs p <= d -> Rabs q <= d -> Rabs (p * q) <= N2) by (intros p q Hp Hq; eapply Rle_trans; [apply prod_le; eassumption|right; unfold N2; ring]).
  assert (K11' : forall p q, Rabs p <= d -> Rabs q <= d -> Rabs (p * q) <= N1) by (intros p q Hp Hq; assert (K := K11 p q Hp Hq); lra).
  assert (QX : Q500 x). { unfold Q500, fb. repeat split; first [assumption|lra]. }
  assert (dbl : forall c, Fin c -> Rabs (V c) <= bp 499 -> fb (bp 500) (fmul f2 c) /\ V (fmul f2 c) = 2 * V c).
  { intros c Fa Ba. destruct (Bd_mul 1 499 f2 c) as [B E]; [lia|split; [apply Fin_2|rewrite V_2, Rabs_pos_eq by lra; change (bp 1) with 2; lra]|split; assumption|].
    rewrite V_2, rn_twice in E by auto with fmt. split; [|exact E]. destruct B as [B _]. split; [exact B|].
    rewrite E, Rabs_mult, (Rabs_pos_eq 2) by lra. lra. }
  destruct (dbl (q0 x) F0 ltac:(lra)) as [Bdx Vdx]. destruct (dbl (q1 x) F1 ltac:(lra)) as [Bdy Vdy].
  destruct (sqr_core_ex x) as (h0 & l0 & h1 & l1 & h2 & l2 & h3 & l3 & h4 & h5 & r1 & a1 & b0 & b1 & c0 & c1 & d0 & d1 & e0' & e1' & g0 & g1 & i0 & i1 & r2 & j1 & k0 & k1 & m0 & m1 & n0 & n1' & o0 & o1 & r3 & z1 & r4 & E0 & E1 & E2 & E3 & E4 & E5 & T1 & T2 & T3 & T4 & T5 & T6 & T7 & T8 & T9 & T10 & T11 & T12 & T13 & Er4 & EC).
  rewrite EC.
  destruct (tpb (q0 x) (q0 x) N0) as (h0' & l0' & E0' & Fh0 & Fl0 & A0 & A1 & A2); [assumption|assumption|lra|lra|apply prod_le; assumption|].
  rewrite E0 in E0'. injection E0' as <- <-.
  destruct (sqr_parts_gen x (fmul f2 (q0 x)) (fmul f2 (q1 x)) N1 N1 N1 N2 N2 h1 l1 h2 l2 h3 l3 h4 h5 l0 r1 a1 b0 b1 c0 c1 d0 d1 e0' e1' g0 g1 i0 i1 r2 j1 k0 k1 m0 m1 n0 n1' o0 o1 r3 z1 r4)
    as (R1 & R2 & R3 & R4 & _ & _ & RE); try assumption; try lra; try (now apply K01); try (now apply K11); try (now apply K11').
  { split; [exact Fl0|lra]. }
  destruct (renorm5_L ((1 + 2 * u) * N0) (104 * N1) (4 * N1) (30 * N1) (17 * N1 + / 2 * N1) (/ 2 * N1) h0 r1 r2 r3 r4) as [W1 W2].
  { repeat split; lra. } 1-5: lra. { split; [exact Fh0|lra]. }
  { destruct R1; split; [assumption|lra]. } { destruct R2; split; [assumption|lra]. } { destruct R3; split; [assumption|lra]. } { destruct R4; split; [assumption|lra]. }
  destruct (renorm5_L ((1 + 2 * u) * N0) (52 * N1) (4 * N1) (30 * N1) (17 * N1 + / 2 * N1) (/ 2 * N1) h0 r1 r2 r3 r4) as [_ W2'].
  { repeat split; lra. } 1-5: lra. { split; [exact Fh0|lra]. }
  { destruct R1; split; [assumption|lra]. } { destruct R2; split; [assumption|lra]. } { destruct R3; split; [assumption|lra]. } { destruct R4; split; [assumption|lra]. }
  clear E0 E1 E2 E3 E4 E5 T1 T2 T3 T4 T5 T6 T7 T8 T9 T10 T11 T12 T13 Er4 EC W2. rename W2' into W2.
  destruct (QV_mkQ4 (renorm5 h0 r1 r2 r3 r4)) as [Q1 _]. rewrite <- Q1 in W2. apply lbQ_mkQ4 in W1.
  set (q := mkQ4 (renorm5 h0 r1 r2 r3 r4)) in *. clearbody q.
  set (z := QV x * QV x) in *. clearbody z. set (s0 := V (q0 x) * V (q0 x)) in *. clearbody s0.
  split.
  - clear - A0 RE W2 ET ET2 n3 n4 PN2 n1 PN. assert (Peta := bpow_gt_0 radix2 (-1073)). absall. apply Rabs_le. lra.
  - destruct W1 as ([G0 C0] & [G1' C1] & [G2 C2] & [G3 C3]). unfold QB, fb. repeat split; try assumption; lra.
Qed.
