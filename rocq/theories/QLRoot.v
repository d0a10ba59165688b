(** * Quad square root: Newton steps on the two-scale class *)
From Coq Require Import ZArith Reals List Bool Lia Lra.
From Flocq Require Import Core IEEE754.BinarySingleNaN.
From Verif Require Import F64 F64Facts Prim DoubleM QuadM AlgM RN Spec EFT SpecialProofs ExactProofs QExactProofs LawProofs QuadSpec QAddAcc QAddThms QMulAcc QMulThms QGeoAcc QGeoMul QSqrAcc QLoose QLDiv QLOps
  QPowProofs FoldThms ExprProofs ParseM ParseSpec ParseProofs ParseThms ParseNum DDivProofs DAddProofs DMulProofs FromProofs QExprSpec QParse SqrtProofs OrderProofs QLSqrt.
Import ListNotations.
Local Open Scope R_scope.

(** one Newton step for 1/sqrt A, where [h] is A/2 *)
Lemma q_sqrt_step_ok h r A rho : QL (32 * u) h -> 0 < rho -> A = rho * rho -> bp (-92) <= A <= bp 92 ->
  Rabs (QV h - A / 2) <= u * u * A -> QL (18 * u) r -> Rabs (QV r * rho - 1) <= 64 * u ->
  let r' := q_sqrt_step h (mkQ fhalf f0 f0 f0) r in
  QL (18 * u) r' /\ Rabs (QV r' * rho - 1) <= 80000 * (u * u).
Proof.
  intros Lh Pr EA BA Eh Lr Er. unfold q_sqrt_step. set (k := mkQ fhalf f0 f0 f0).
  assert (PA : 0 < A) by (assert (K := bpow_gt_0 radix2 (-92)); lra).
  destruct fhalf_V as [Fh Vh].
  assert (Ar := QL_abs (18 * u) r ltac:(lra) ltac:(lra) Lr). assert (Ah := QL_abs (32 * u) h ltac:(lra) ltac:(lra) Lh).
  set (R := QV r) in *. set (R0 := Rabs (V (q0 r))) in *.
  (* the size of r *)
  assert (RB : bp (-46) <= rho <= bp 46).
  { split; apply Rnot_lt_le; intros K.
    - assert (rho * rho < bp (-46) * bp (-46)) by (apply Rmult_le_0_lt_compat; lra). rewrite <- bpow_plus in H. change (-46 + -46)%Z with (-92)%Z in H. lra.
    - assert (P := bpow_gt_0 radix2 46). assert (bp 46 * bp 46 < rho * rho) by (apply Rmult_le_0_lt_compat; lra). rewrite <- bpow_plus in H. change (46 + 46)%Z with 92%Z in H. lra. }
  assert (Rr : 1 - 64 * u <= R * rho <= 1 + 64 * u) by (apply Rabs_le_inv in Er; lra).
  assert (PR : 0 < R) by (apply Rmult_lt_reg_r with rho; lra).
  rewrite (Rabs_pos_eq R) in Ar by lra.
  assert (RL : bp (-48) <= R0).
  { assert (K : / 2 <= R * bp 46) by (apply Rle_trans with (R * rho); [lra|apply Rmult_le_compat_l; lra]).
    assert (K2 : bp (-48) * bp 46 = / 4) by (rewrite <- bpow_plus; reflexivity). assert (P46 := bpow_gt_0 radix2 46).
    assert (bp (-48) * 2 <= R). { apply Rmult_le_reg_r with (bp 46); [exact P46|]. lra. } lra. }
  assert (RU : R0 <= bp 48).
  { assert (K : R * bp (-46) <= 2) by (apply Rle_trans with (R * rho); [apply Rmult_le_compat_l; lra|lra]).
    assert (K2 : bp 48 * bp (-46) = 4) by (rewrite <- bpow_plus; reflexivity). assert (P46 := bpow_gt_0 radix2 (-46)).
    assert (R <= / 2 * bp 48). { apply Rmult_le_reg_r with (bp (-46)); [exact P46|]. lra. } lra. }
  assert (P48 := bpow_gt_0 radix2 (-48)).
  (* the square *)
  assert (G4 : bp 48 <= bp 490) by (apply bpow_le; lia).
  destruct (q_sqr_L (18 * u) r) as [Ls Es]; [lra|lra|exact Lr|fold R0; lra| |].
  { fold R0. apply Rle_trans with (bp (-48) * bp (-48)); [rewrite <- bpow_plus; apply bpow_le; lia|apply Rmult_le_compat; lra]. }
  fold R in Es. set (s := q_sqr r) in *. clearbody s.
  assert (As := QL_abs (4 * u) s ltac:(lra) ltac:(lra) Ls).
  assert (PRR : 0 < R * R) by (apply Rmult_lt_0_compat; exact PR).
  replace (66 * (18 * u * (18 * u)) + 470 * (u * (18 * u))) with (29844 * (u * u)) in Es by ring.
  set (e2 := u * u) in *. assert (e2v : e2 = u * / 9007199254740992) by reflexivity.
  assert (SRR : Rabs (QV s - R * R) <= / 1000000 * (R * R)).
  { eapply Rle_trans; [exact Es|]. apply Rmult_le_compat_r; lra. }
  assert (SB : (1 - / 1000000) * (R * R) <= Rabs (QV s) <= (1 + / 1000000) * (R * R)).
  { apply Rabs_le_inv in SRR. assert (0 < QV s) by lra. rewrite Rabs_pos_eq by lra. lra. }
  (* sizes of R*R *)
  assert (RR1 : bp (-94) <= R * R).
  { apply Rle_trans with ((/ 2 * bp (-46)) * (/ 2 * bp (-46))).
    - replace (/ 2 * bp (-46) * (/ 2 * bp (-46))) with (bp (-94)); [lra|]. change (/ 2) with (bp (-1)). rewrite <- !bpow_plus. reflexivity.
    - assert (K : bp (-48) = / 4 * bp (-46)) by (change (/ 4) with (bp (-2)); rewrite <- bpow_plus; reflexivity).
      assert (J : / 2 <= R * bp 46) by (apply Rle_trans with (R * rho); [lra|apply Rmult_le_compat_l; lra]).
      assert (J2 : / 2 * bp (-46) <= R). { apply Rmult_le_reg_r with (bp 46); [apply bpow_gt_0|]. rewrite Rmult_assoc, <- bpow_plus. change (bp (-46 + 46)) with 1. lra. }
      assert (P := bpow_gt_0 radix2 (-46)). apply Rmult_le_compat; lra. }
  assert (RR2 : R * R <= bp 97).
  { apply Rle_trans with ((2 * bp 46) * (2 * bp 46)).
    - assert (J : R * bp (-46) <= 2) by (apply Rle_trans with (R * rho); [apply Rmult_le_compat_l; lra|lra]).
      assert (J2 : R <= 2 * bp 46). { apply Rmult_le_reg_r with (bp (-46)); [apply bpow_gt_0|]. rewrite Rmult_assoc, <- bpow_plus. change (bp (46 + -46)) with 1. lra. }
      apply Rmult_le_compat; lra.
    - change 2 with (bp 1). rewrite <- !bpow_plus. apply bpow_le. lia. }
  (* t = h * s *)
  assert (HB : (1 - / 1000000) * (A / 2) <= Rabs (QV h) <= (1 + / 1000000) * (A / 2)).
  { apply Rabs_le_inv in Eh. assert (e2 * A <= / 4000000 * A) by (apply Rmult_le_compat_r; [lra|unfold e2; lra]). rewrite Rabs_pos_eq; lra. }
  assert (B93 : bp (-92) = 4 * bp (-94)) by exact (bp_split (-94) 2 ltac:(lia)).
  assert (G5 : bp 97 = 32 * bp 92) by exact (bp_split 92 5 ltac:(lia)). assert (G6 : bp 100 = 8 * bp 97) by exact (bp_split 97 3 ltac:(lia)).
  assert (G7 : bp 100 <= bp 490) by (apply bpow_le; lia). assert (P97 := bpow_gt_0 radix2 97). assert (P94 := bpow_gt_0 radix2 (-94)).
  destruct (q_mul_L (32 * u) h s) as [Lt Et]; [lra|lra|exact Lh|apply QL_mono with (4 * u); [lra|exact Ls]|lra|lra| |].
  { apply Rle_trans with ((/ 2 * bp (-94)) * (/ 2 * bp (-94))).
    - change (/ 2) with (bp (-1)). rewrite <- !bpow_plus. apply bpow_le. lia.
    - apply Rmult_le_compat; lra. }
  replace (1280 * (u * (32 * u)) + 5 * (32 * u * (32 * u))) with (46080 * e2) in Et by (unfold e2; ring).
  set (t := q_mul h s) in *. clearbody t.
  assert (At := QL_abs (4 * u) t ltac:(lra) ltac:(lra) Lt).
  set (g := R * rho - 1) in *.
  assert (EAR : A * (R * R) = (1 + g) * (1 + g)) by (unfold g; rewrite EA; ring).
  assert (Gg : g * g <= 4096 * e2).
  { replace (g * g) with (Rabs g * Rabs g) by (rewrite <- Rabs_mult; apply Rabs_pos_eq, Rle_0_sqr).
    apply Rle_trans with ((64 * u) * (64 * u)); [apply Rmult_le_compat; try apply Rabs_pos; exact Er|unfold e2; lra]. }
  assert (Gg0 : 0 <= g * g) by apply Rle_0_sqr.
  assert (EAR2 : A * (R * R) = 1 + 2 * g + g * g) by (rewrite EAR; ring).
  assert (Gb := Rabs_le_inv _ _ Er).
  assert (HS : Rabs (QV h * QV s - A * (R * R) / 2) <= 14924 * e2).
  { replace (QV h * QV s - A * (R * R) / 2) with ((QV h - A / 2) * QV s + A / 2 * (QV s - R * R)) by field.
    assert (K1 : Rabs ((QV h - A / 2) * QV s) <= 11 / 10 * e2).
    { rewrite Rabs_mult. apply Rle_trans with (e2 * A * ((1 + / 1000000) * (R * R))); [apply Rmult_le_compat; try apply Rabs_pos; [exact Eh|lra]|].
      replace (e2 * A * ((1 + / 1000000) * (R * R))) with (e2 * ((1 + / 1000000) * (A * (R * R)))) by ring.
      rewrite (Rmult_comm (11 / 10)). apply Rmult_le_compat_l; [unfold e2; lra|]. rewrite EAR2. lra. }
    assert (K2 : Rabs (A / 2 * (QV s - R * R)) <= 14922 * (1 + / 1000000) * e2).
    { rewrite Rabs_mult, (Rabs_pos_eq (A / 2)) by lra. apply Rle_trans with (A / 2 * (29844 * e2 * (R * R))); [apply Rmult_le_compat_l; [lra|exact Es]|].
      replace (A / 2 * (29844 * e2 * (R * R))) with (14922 * e2 * (A * (R * R))) by field.
      replace (14922 * (1 + / 1000000) * e2) with (14922 * e2 * (1 + / 1000000)) by ring. apply Rmult_le_compat_l; [unfold e2; lra|]. rewrite EAR2. lra. }
    eapply Rle_trans; [apply Rabs_triang|]. unfold e2 in *. lra. }
  assert (HS2 : Rabs (QV h * QV s) <= / 2 + / 1000000).
  { apply Rabs_le_inv in HS. apply Rabs_le. unfold e2 in *. lra. }
  assert (ET : Rabs (QV t - A * (R * R) / 2) <= 37966 * e2).
  { replace (QV t - A * (R * R) / 2) with ((QV t - QV h * QV s) + (QV h * QV s - A * (R * R) / 2)) by ring.
    eapply Rle_trans; [apply Rabs_triang|].
    assert (46080 * e2 * Rabs (QV h * QV s) <= 46080 * e2 * (/ 2 + / 1000000)) by (apply Rmult_le_compat_l; [unfold e2; lra|exact HS2]). unfold e2 in *. lra. }
  assert (TB : Rabs (QV t) <= / 2 + / 100000). { apply Rabs_le_inv in ET. apply Rabs_le. unfold e2 in *. lra. }
  (* w = k - t *)
  cbn zeta. unfold q_sub. destruct (QL_neg (4 * u) t Lt) as [Lnt Vnt].
  assert (Fk : QFin k) by (unfold k, QFin; cbn [q0 q1 q2 q3]; auto using Fin_0).
  assert (Vk : QV k = / 2) by (unfold k, QV; cbn [q0 q1 q2 q3]; rewrite Vh, V_0; ring).
  rewrite (q_add_fin k (q_neg t) Fk (proj1 Lnt)).
  assert (Ant := QL_abs (4 * u) (q_neg t) ltac:(lra) ltac:(lra) Lnt). rewrite Vnt, Rabs_Ropp in Ant.
  assert (B1000 : 51 / 100 <= bp 1000) by (apply Rle_trans with (bp 0); [change (bp 0) with 1; lra|apply bpow_le; lia]).
  destruct (q_add_core_LZ (51 / 100) (204 / 100 * u) k (q_neg t)) as (Lw & Ew & Zw).
  { repeat split; lra. }
  { unfold k, QB, fb. cbn [q0 q1 q2 q3]. rewrite V_0, Rabs_R0, Vh, Rabs_pos_eq by lra. repeat split; first [exact Fh|apply Fin_0|lra]. }
  { destruct Lnt as ((? & ? & ? & ?) & ? & ? & ?). unfold QB, fb. repeat split; first [assumption|lra]. }
  rewrite Vnt, Vk in Ew. set (w := q_add_core k (q_neg t)) in *. clearbody w.
  assert (Fw := lbQ_fin _ _ _ _ _ Lw). destruct Lw as (_ & [_ W1] & [_ W2] & [_ W3]).
  assert (EW : Rabs (QV w - (- g - g * g / 2)) <= 39338 * e2).
  { rewrite EAR2 in ET. apply Rabs_le_inv in ET, Ew. apply Rabs_le. unfold e2 in *. lra. }
  assert (WB : Rabs (QV w) <= 6401 / 100 * u).
  { apply Rabs_le_inv in EW. apply Rabs_le. unfold e2 in *. lra. }
  assert (W0 : Rabs (V (q0 w)) <= 73 * u).
  { assert (T1 := Rabs_triang (QV w) (- (V (q1 w) + V (q2 w) + V (q3 w)))). replace (QV w + - (V (q1 w) + V (q2 w) + V (q3 w))) with (V (q0 w)) in T1 by (unfold QV; ring).
    rewrite Rabs_Ropp in T1. assert (T2 := Rabs_triang (V (q1 w) + V (q2 w)) (V (q3 w))). assert (T3 := Rabs_triang (V (q1 w)) (V (q2 w))). lra. }
  assert (PR0 : 0 < R0) by lra.
  (* p = w * r *)
  assert (MP : lbQ (2710 * (u * R0)) (43000 * (e2 * R0)) (43000 * (e2 * R0)) (43000 * (e2 * R0)) (q_mul w r) /\ Rabs (QV (q_mul w r) - QV w * R) <= 13340 * (e2 * R0)).
  { destruct Lr as (Fr & R1 & R2 & R3). fold R0 in R1, R2, R3.
    assert (PE2 : 0 <= e2 * R0) by (apply Rmult_le_pos; [unfold e2; lra|lra]).
    destruct (Req_dec (V (q0 w)) 0) as [Z|NZ].
    - unfold q_mul. rewrite q_pre_mul_zero; [|apply Fw|apply Fr|exact Z]. cbn [from_pre].
      destruct (QFV_zero_if (Bool.eqb (fsign_pos (q0 w)) (fsign_pos (q0 r)))) as ([F0 V0] & [F1 V1] & [F2 V2] & [F3 V3]).
      rewrite (Zw Z). unfold QV. rewrite V0, V1, V2, V3. split.
      + unfold lbQ, fb. rewrite V0, V1, V2, V3, Rabs_R0. repeat split; first [assumption|lra].
      + replace (0 + 0 + 0 + 0 - 0 * R) with 0 by ring. rewrite Rabs_R0. lra.
    - unfold q_mul. rewrite q_pre_mul_fin by (apply Fw || apply Fr || exact NZ). cbn [from_pre].
      assert (M1 : forall a b c e, Rabs a <= c -> Rabs b <= e -> 0 <= c -> 0 <= e -> Rabs (a * b) <= c * e).
      { intros a b c e Ha Hb Pc Pe. rewrite Rabs_mult. apply Rmult_le_compat; first [apply Rabs_pos|assumption]. }
      assert (UR : 0 <= u * R0) by lra.
      assert (L1 : Rabs (V (q1 w)) <= 88 / 10 * u) by lra. assert (L2 : Rabs (V (q2 w)) <= u) by lra. assert (L3 : Rabs (V (q3 w)) <= u) by lra.
      assert (EE : e2 * R0 = u * (u * R0)) by (unfold e2; ring).
      destruct (q_mul_core_L (1300 * (u * R0)) (10 * (u * R0)) (160 * (u * (u * R0))) w r) as [L E].
      { assert (bp 48 <= bp 1000) by (apply bpow_le; lia). repeat split; lra. } { lra. } { assert (bp 48 <= bp 1000) by (apply bpow_le; lia). lra. } { lra. } { lra. }
      { apply Rle_trans with (/ 1024 * (u * (u * (10 * (u * bp (-48)))))); [|lra].
        apply Rle_trans with (/ 1024 * (u * (u * (8 * (u * bp (-48)))))); [|lra].
        change (/ 1024) with (bp (-10)). change 8 with (bp 3). rewrite <- !u_bp, <- !bpow_plus. apply bpow_le. lia. }
      { assert (1 <= bp 500) by (change 1 with (bp 0); apply bpow_le; lia). destruct Fw as (? & ? & ? & ?). unfold Q500, fb. repeat split; first [assumption|lra]. }
      { assert (bp 48 <= bp 500) by (apply bpow_le; lia). destruct Fr as (? & ? & ? & ?). unfold Q500, fb. fold R0. repeat split; first [assumption|lra]. }
      { unfold QProd. cbn zeta. assert (RR0 : Rabs (V (q0 r)) <= R0) by apply Rle_refl.
        assert (D0 : 0 <= 18 * u * R0) by lra.
        assert (P00 := M1 _ _ _ _ W0 RR0 ltac:(lra) ltac:(lra)).
        assert (P01 : forall b, Rabs b <= 18 * u * R0 -> Rabs (V (q0 w) * b) <= 10 * (u * R0)) by (intros b Hb; assert (K := M1 _ _ _ _ W0 Hb ltac:(lra) D0); lra).
        assert (P10 : forall a, Rabs a <= 88 / 10 * u -> Rabs (a * V (q0 r)) <= 10 * (u * R0)) by (intros a Ha; assert (K := M1 _ _ _ _ Ha RR0 ltac:(lra) ltac:(lra)); lra).
        assert (P11 : forall a b, Rabs a <= 88 / 10 * u -> Rabs b <= 18 * u * R0 -> Rabs (a * b) <= 160 * (u * (u * R0))).
        { intros a b Ha Hb. assert (K := M1 _ _ _ _ Ha Hb ltac:(lra) D0). replace (88 / 10 * u * (18 * u * R0)) with (1584 / 10 * (u * (u * R0))) in K by field. lra. }
        assert (P11' : forall a b, Rabs a <= 88 / 10 * u -> Rabs b <= 18 * u * R0 -> Rabs (a * b) <= 10 * (u * R0)) by (intros a b Ha Hb; assert (K := P11 a b Ha Hb); lra).
        assert (L2' : Rabs (V (q2 w)) <= 88 / 10 * u) by lra. assert (L3' : Rabs (V (q3 w)) <= 88 / 10 * u) by lra.
        split; [lra|]. repeat split; first [now apply P01|now apply P10|now apply P11|now apply P11']. }
      fold R in E. rewrite EE. split.
      + destruct L as ([? ?] & [? ?] & [? ?] & [? ?]). unfold lbQ, fb. repeat split; first [assumption|lra].
      + lra. }
  destruct MP as [Lp Ep]. set (p := q_mul w r) in *. clearbody p.
  assert (Fp := lbQ_fin _ _ _ _ _ Lp).
  (* r' = r + p *)
  rewrite (q_add_fin r p (proj1 Lr) Fp).
  assert (EE : e2 * R0 = u * (u * R0)) by (unfold e2; ring).
  destruct (q_add_core_L R0 (18 * (u * R0)) r p) as [Lq Eq].
  { assert (bp 48 <= bp 1000) by (apply bpow_le; lia). repeat split; lra. }
  { destruct Lr as ((? & ? & ? & ?) & Z1 & Z2 & Z3). fold R0 in Z1, Z2, Z3. unfold QB, fb. fold R0. repeat split; first [assumption|lra]. }
  { destruct Lp as ([? ?] & [? ?] & [? ?] & [? ?]). unfold QB, fb. repeat split; first [assumption|lra]. }
  fold R in Eq. set (q := q_add_core r p) in *. clearbody q.
  assert (Fq := lbQ_fin _ _ _ _ _ Lq). destruct Lq as (_ & [_ Q1] & [_ Q2] & [_ Q3]).
  assert (WR : Rabs (QV w * R) <= 65 * u * R0).
  { rewrite Rabs_mult, (Rabs_pos_eq R) by lra. apply Rle_trans with (6401 / 100 * u * R); [apply Rmult_le_compat_r; lra|lra]. }
  assert (EQ : Rabs (QV q - (R + QV w * R)) <= 25436 * (e2 * R0)).
  { clear - Ep Eq EE PR0. absall. apply Rabs_le. lra. }
  assert (EQ' : Rabs (QV q - R) <= / 1000000 * R0).
  { clear - EQ WR EE PR0. absall. apply Rabs_le. lra. }
  split.
  - apply QL_mono with ((1 + / 1000) * ((17 + / 2) * u)); [lra|].
    apply (QL_intro ((17 + / 2) * u) q R R0 PR0); [lra|lra|exact Fq|rewrite Rabs_pos_eq; lra|lra|lra|lra|lra].
  - assert (RHO0 : R0 * rho <= 1 + / 100000).
    { apply Rle_trans with ((1 + / 500000) * R * rho); [apply Rmult_le_compat_r; lra|]. rewrite Rmult_assoc. apply Rle_trans with ((1 + / 500000) * (1 + 64 * u)); [apply Rmult_le_compat_l; lra|lra]. }
    replace (QV q * rho - 1) with ((QV q - (R + QV w * R)) * rho + ((1 + g) * (1 + QV w) - 1)) by (unfold g; ring).
    assert (K1 : Rabs ((QV q - (R + QV w * R)) * rho) <= 25437 * e2).
    { rewrite Rabs_mult, (Rabs_pos_eq rho) by lra. apply Rle_trans with (25436 * (e2 * R0) * rho); [apply Rmult_le_compat_r; lra|].
      replace (25436 * (e2 * R0) * rho) with (25436 * e2 * (R0 * rho)) by ring. apply Rle_trans with (25436 * e2 * (1 + / 100000)); [apply Rmult_le_compat_l; [unfold e2; lra|exact RHO0]|unfold e2; lra]. }
    assert (K2 : Rabs ((1 + g) * (1 + QV w) - 1) <= 46000 * e2).
    { set (ew := QV w - (- g - g * g / 2)) in *. replace ((1 + g) * (1 + QV w) - 1) with ((1 + g) * ew - 3 / 2 * (g * g) - / 2 * g * (g * g)) by (unfold ew; field).
      assert (J1 : Rabs ((1 + g) * ew) <= (1 + / 1000) * (39338 * e2)) by (rewrite Rabs_mult; apply Rmult_le_compat; try apply Rabs_pos; [apply Rabs_le; lra|exact EW]).
      assert (J2 : Rabs (/ 2 * g * (g * g)) <= / 1000 * (g * g)).
      { rewrite Rabs_mult, (Rabs_pos_eq (g * g)) by exact Gg0. apply Rmult_le_compat_r; [exact Gg0|]. apply Rabs_le. lra. }
      apply Rabs_le_inv in J1, J2. apply Rabs_le. unfold e2 in *. lra. }
    eapply Rle_trans; [apply Rabs_triang|]. apply Rle_trans with (25437 * e2 + 46000 * e2); [apply Rplus_le_compat; assumption|unfold e2; lra].
Qed.
