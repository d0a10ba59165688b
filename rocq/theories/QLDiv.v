(** * Quad division on the two-scale class: every low component at most [d] times the leading one *)
From Coq Require Import ZArith Reals List Bool Lia Lra.
From Flocq Require Import Core IEEE754.BinarySingleNaN.
From Verif Require Import F64 F64Facts Prim DoubleM QuadM RN Spec EFT SpecialProofs QuadSpec QAddAcc QAddThms QMulAcc QLoose DDivProofs QExactProofs.
Import ListNotations.
Local Open Scope R_scope.

Lemma fb_neg B a : fb B a -> fb B (fneg a).
Proof. intros [F H]. destruct (fneg_ok a F) as [F' E]. split; [exact F'|]. rewrite E, Rabs_Ropp. exact H. Qed.
Lemma QV_neg x : QFin x -> QV (q_neg x) = - QV x.
Proof.
  intros (F0 & F1 & F2 & F3). unfold QV, q_neg. cbn [q0 q1 q2 q3].
  rewrite (proj2 (fneg_ok _ F0)), (proj2 (fneg_ok _ F1)), (proj2 (fneg_ok _ F2)), (proj2 (fneg_ok _ F3)). ring.
Qed.

(** each low component at most [d] times the leading one *)
Definition QL (d : R) (x : Quad) : Prop :=
  QFin x /\ Rabs (V (q1 x)) <= d * Rabs (V (q0 x)) /\ Rabs (V (q2 x)) <= d * Rabs (V (q0 x)) /\ Rabs (V (q3 x)) <= d * Rabs (V (q0 x)).

Lemma div_step d y r B0 B1 e : QL d y -> 0 <= d -> bp (-300) <= Rabs (V (q0 y)) -> Rabs (V (q0 y)) <= bp 300 ->
  QB B0 B1 r -> bp (-600) <= B1 -> 3 * (u * B0) <= B1 -> B1 <= / 2 * B0 -> B0 <= bp 100 ->
  d * B0 <= e -> u * B0 <= e -> e <= / 1099511627776 * B0 ->
  let a := fdiv (q0 r) (q0 y) in let r' := q_sub r (q_mul_f64 y a) in
  Fin a /\ Rabs (V a) * Rabs (V (q0 y)) <= (1 + 2 * u) * B0 /\ Rabs (V (q0 r) - V (q0 y) * V a) <= (1 + / 1000) * (u * B0) /\
  QB (19 * (u * B0) + (31/10) * B1 + (32/10) * e) (18 * (u * B0) + 901 * (u * B1)) r' /\
  Rabs (QV r' - (QV r - QV y * V a)) <= 672 * (u * B1) + 54 * (u * e).
Proof.
  intros (Fy & Y1 & Y2 & Y3) Pd YL YH ([Fr0 R0] & [Fr1 R1] & [Fr2 R2] & [Fr3 R3]) L1 H3 H2 HB He Hu He2 a r'.
  assert (P300 := bpow_gt_0 radix2 (-300)). assert (P6 := bpow_gt_0 radix2 (-600)).
  set (Y := Rabs (V (q0 y))) in *.
  assert (Fy0 : Fin (q0 y)) by apply Fy.
  assert (NZ : V (q0 y) <> 0). { intros K. unfold Y in *. rewrite K, Rabs_R0 in *. lra. }
  assert (PY : 0 < Y) by lra.
  assert (AR : Rabs (V (q0 r) / V (q0 y)) <= B0 / Y).
  { unfold Rdiv. rewrite Rabs_mult, Rabs_inv. apply Rmult_le_compat_r; [left; apply Rinv_0_lt_compat; exact PY|exact R0]. }
  assert (AB : B0 / Y <= bp 400).
  { apply Rmult_le_reg_r with Y; [exact PY|]. unfold Rdiv. rewrite Rmult_assoc, Rinv_l by lra. rewrite Rmult_1_r.
    apply Rle_trans with (bp 400 * bp (-300)); [rewrite <- bpow_plus; exact HB|].
    apply Rmult_le_compat_l; [apply bpow_ge_0|exact YL]. }
  destruct (fdiv_B (q0 r) (q0 y) (bp 400) Fr0 Fy0 NZ) as (Fa & Ea & Ba).
  { lra. } { apply fmt_bpow; lia. } { apply bpow_lt; lia. }
  fold a in Fa, Ea, Ba.
  assert (TE : u * bp (-600) >= 1000000 * (bp (-1075) * bp 300)).
  { rewrite <- bpow_plus. assert (K : 1000000 * bp (-1075 + 300) <= bp 20 * bp (-1075 + 300)).
    { apply Rmult_le_compat_r; [apply bpow_ge_0|]. change (bp 20) with 1048576. lra. }
    rewrite <- bpow_plus in K. assert (K2 : bp (20 + (-1075 + 300)) <= u * bp (-600)).
    { rewrite <- u_bp, <- bpow_plus. apply bpow_le. lia. } lra. }
  assert (D1 : Rabs (V (q0 r) - V (q0 y) * V a) <= (1 + / 1000) * (u * B0)).
  { assert (K := rn_err (V (q0 r) / V (q0 y))). rewrite <- Ea in K.
    replace (V (q0 r) - V (q0 y) * V a) with (- (V (q0 y) * (V a - V (q0 r) / V (q0 y)))) by (field; exact NZ).
    rewrite Rabs_Ropp, Rabs_mult. fold Y.
    apply Rle_trans with (Y * (u * (B0 / Y) + bp (-1075))).
    { apply Rmult_le_compat_l; [lra|]. eapply Rle_trans; [exact K|]. lra. }
    replace (Y * (u * (B0 / Y) + bp (-1075))) with (u * B0 + bp (-1075) * Y) by (field; lra).
    assert (bp (-1075) * Y <= bp (-1075) * bp 300) by (apply Rmult_le_compat_l; [apply bpow_ge_0|exact YH]).
    lra. }
  assert (AY : Rabs (V a) * Y <= (1 + 2 * u) * B0).
  { unfold Y. rewrite <- Rabs_mult. replace (V a * V (q0 y)) with (V (q0 r) + - (V (q0 r) - V (q0 y) * V a)) by ring.
    eapply Rle_trans; [apply Rabs_triang|]. rewrite Rabs_Ropp. lra. }
  split; [exact Fa|]. split; [exact AY|]. split; [exact D1|].
  assert (BL : forall v, Rabs v <= d * Y -> Rabs (v * V a) <= (1 + 2 * u) * e).
  { intros v Hv. rewrite Rabs_mult. apply Rle_trans with (d * Y * Rabs (V a)); [apply Rmult_le_compat_r; [apply Rabs_pos|exact Hv]|].
    replace (d * Y * Rabs (V a)) with (d * (Rabs (V a) * Y)) by ring.
    apply Rle_trans with (d * ((1 + 2 * u) * B0)); [apply Rmult_le_compat_l; assumption|].
    replace (d * ((1 + 2 * u) * B0)) with ((1 + 2 * u) * (d * B0)) by ring. lra. }
  assert (G1000 : 8 * bp 100 <= bp 1000) by (change 8 with (bp 3); rewrite <- bpow_plus; apply bpow_le; lia).
  assert (G90 : / 1099511627776 * bp 100 = bp 60) by (change (/ 1099511627776) with (bp (-40)); rewrite <- bpow_plus; reflexivity).
  assert (G9 : 2 * bp 60 <= bp 90) by (change 2 with (bp 1); rewrite <- bpow_plus; apply bpow_le; lia).
  assert (P60 := bpow_gt_0 radix2 60).
  assert (d1 : d <= 1).
  { destruct (Rle_dec d 1) as [|N]; [assumption|exfalso]. assert (1 * B0 <= d * B0) by (apply Rmult_le_compat_r; lra). lra. }
  assert (Q5 : Q500 y).
  { assert (G5 : bp 300 <= bp 500) by (apply bpow_le; lia).
    assert (d * Y <= 1 * Y) by (apply Rmult_le_compat_r; lra).
    destruct Fy as (F0 & F1 & F2 & F3). unfold Q500, fb. fold Y. repeat split; first [assumption|lra]. }
  assert (Ba5 : fb (bp 500) a) by (split; [exact Fa|eapply Rle_trans; [exact Ba|apply bpow_le; lia]]).
  destruct (q_mul_f64_L ((1 + 2 * u) * B0) ((1 + 2 * u) * e) y a) as [PB PE].
  { repeat split; lra. } { lra. } { lra. } { lra. }
  { assert (K : eta <= / 1024 * (u * (u * (u * (1 * bp (-600)))))).
    { change (/ 1024) with (bp (-10)). rewrite <- !u_bp.
      replace (bp (-10) * (bp (-53) * (bp (-53) * (bp (-53) * (1 * bp (-600)))))) with (1 * (bp (-10) * bp (-53) * bp (-53) * bp (-53) * bp (-600))) by ring.
      rewrite <- !bpow_plus. assert (eta <= bp (-10 + -53 + -53 + -53 + -600)) by (apply bpow_le; lia).
      assert (0 < bp (-10 + -53 + -53 + -53 + -600)) by apply bpow_gt_0. lra. }
    assert (K2 : u * (1 * bp (-600)) <= (1 + 2 * u) * e) by lra. lra. }
  { exact Q5. } { exact Ba5. }
  { rewrite Rmult_comm in AY. rewrite Rabs_mult. exact AY. }
  { apply BL; exact Y1. } { apply BL; exact Y2. } { apply BL; exact Y3. }
  set (p := q_mul_f64 y a) in *. clearbody p.
  assert (Fp : QFin p) by (eapply lbQ_fin; exact PB).
  destruct PB as (Q0 & Q1 & Q2 & Q3).
  assert (WK : forall B B' w, fb B w -> B <= B' -> fb B' w) by (intros B B' w [? ?] ?; split; [assumption|lra]).
  assert (Er : r' = q_add_core r (q_neg p)).
  { unfold r', q_sub. apply q_add_fin; [repeat split; assumption|]. destruct Fp as (? & ? & ? & ?).
    split; [|split; [|split]]; cbn [q_neg q0 q1 q2 q3]; apply fneg_ok; assumption. }
  destruct (q_add_core_L ((1 + / 1000) * B0) B1 r (q_neg p)) as [SB SE].
  { repeat split; lra. }
  { repeat split; first [assumption|lra]. }
  { unfold QB. cbn [q_neg q0 q1 q2 q3]. split; [|split; [|split]]; apply fb_neg; (eapply WK; [eassumption|lra]). }
  rewrite <- Er in SB, SE. rewrite QV_neg in SE by exact Fp.
  assert (VE : Rabs (QV r' - (QV r - QV y * V a)) <= 672 * (u * B1) + 54 * (u * e)).
  { absall. apply Rabs_le. lra. }
  split; [|exact VE].
  clearbody r'. clear Er SE PE.
  destruct SB as ([G0 S0] & [G1 S1] & [G2 S2] & [G3 S3]).
  assert (B1y := BL _ Y1). assert (B2y := BL _ Y2). assert (B3y := BL _ Y3).
  unfold QB, fb. repeat split; try assumption; [|lra|lra|lra].
  assert (E1 : V (q0 r') = QV r' - V (q1 r') - V (q2 r') - V (q3 r')) by (unfold QV; ring).
  assert (E2 : QV r - QV y * V a = (V (q0 r) - V (q0 y) * V a) + V (q1 r) + V (q2 r) + V (q3 r) - V (q1 y) * V a - V (q2 y) * V a - V (q3 y) * V a) by (unfold QV; ring).
  rewrite E2 in VE. clear E2 S0 BL YL YH.
  set (k := V (q0 r) - V (q0 y) * V a) in *. clearbody k.
  set (z1 := V (q1 y) * V a) in *. set (z2 := V (q2 y) * V a) in *. set (z3 := V (q3 y) * V a) in *. clearbody z1 z2 z3.
  clear AR AB Ba AY Q5 Ba5 Q0 Q1 Q2 Q3 Y1 Y2 Y3 Ea. rewrite E1. absall. apply Rabs_le. lra.
Qed.

Lemma QL_val d x : 0 <= d -> QL d x -> Rabs (QV x - V (q0 x)) <= 3 * (d * Rabs (V (q0 x))).
Proof.
  intros Pd (F & H1 & H2 & H3). replace (QV x - V (q0 x)) with (V (q1 x) + V (q2 x) + V (q3 x)) by (unfold QV; ring).
  assert (T1 := Rabs_triang (V (q1 x) + V (q2 x)) (V (q3 x))). assert (T2 := Rabs_triang (V (q1 x)) (V (q2 x))). lra.
Qed.

Lemma q_div_L d x y : 4 * u <= d -> d <= / 1099511627776 -> QL d x -> QL d y ->
  bp (-300) <= Rabs (V (q0 x)) -> Rabs (V (q0 x)) <= bp 90 ->
  bp (-300) <= Rabs (V (q0 y)) -> Rabs (V (q0 y)) <= bp 300 ->
  QL (4 * u) (q_div x y) /\
  Rabs (QV (q_div x y) - QV x / QV y) <= (1024 * (u * d) + 13000 * (u * u)) * Rabs (QV x / QV y).
Proof.
  intros Hd1 Hd2 Lx Ly XL XH YL YH.
  assert (Pd : 0 <= d) by lra.
  assert (VX := QL_val d x Pd Lx). assert (VY := QL_val d y Pd Ly).
  set (M := Rabs (V (q0 x))) in *. set (m := d * M).
  assert (P300 := bpow_gt_0 radix2 (-300)).
  assert (m1 : 4 * (u * M) <= m). { unfold m. replace (4 * (u * M)) with (4 * u * M) by ring. apply Rmult_le_compat_r; lra. }
  assert (m2 : m <= / 1099511627776 * M) by (apply Rmult_le_compat_r; lra).
  assert (G1 : 1000 * bp 90 <= bp 100). { assert (bp 10 * bp 90 = bp 100) by (rewrite <- bpow_plus; reflexivity). assert (0 < bp 90) by apply bpow_gt_0. change (bp 10) with 1024 in *. lra. }
  assert (G2 : 1 * bp (-600) <= u * (u * (u * bp (-300)))). { rewrite Rmult_1_l, <- !u_bp, <- !bpow_plus. apply bpow_le. lia. }
  assert (dM : forall B0, 0 <= B0 -> d * B0 <= / 1099511627776 * B0) by (intros; apply Rmult_le_compat_r; assumption).
  assert (Fx := proj1 Lx). assert (Fy := proj1 Ly).
  assert (Xz : QB M m x).
  { destruct Fx as (? & ? & ? & ?), Lx as (_ & ? & ? & ?). unfold QB, fb. fold M. repeat split; first [assumption|unfold m; lra]. }
  assert (WK : forall A A' B B' w, QB A B w -> A <= A' -> B <= B' -> QB A' B' w).
  { intros A A' B B' w ([? ?] & [? ?] & [? ?] & [? ?]) ? ?. repeat split; first [assumption|lra]. }
  assert (NN : q_pre_div x y = None).
  { apply q_pre_div_fin; [apply Fx|apply Fy|]. intros K. rewrite K, Rabs_R0 in YL. lra. }
  unfold q_div. rewrite NN. cbn [from_pre].
  assert (mpos : 0 < m) by lra.
  destruct (div_step d y x M m m Ly Pd YL YH Xz) as (Fa0 & A0 & _ & R1 & E1); [lra|lra|lra|lra|unfold m; lra|lra|lra|].
  set (a0 := fdiv (q0 x) (q0 y)) in *. set (r1 := q_sub x (q_mul_f64 y a0)) in *. clearbody r1.
  apply (WK _ (12 * m) _ (19 * (u * M))) in R1; [|lra|lra].
  destruct (div_step d y r1 (12 * m) (19 * (u * M)) (/ 1099511627776 * (12 * m)) Ly Pd YL YH R1) as (Fa1 & A1 & _ & R2 & E2); [lra|lra|lra|lra|apply dM; lra|lra|lra|].
  set (a1 := fdiv (q0 r1) (q0 y)) in *. set (r2 := q_sub r1 (q_mul_f64 y a1)) in *. clearbody r2.
  apply (WK _ (60 * (u * M)) _ (4600 * (u * m))) in R2; [|lra|lra].
  destruct (div_step d y r2 (60 * (u * M)) (4600 * (u * m)) (60 * (u * m)) Ly Pd YL YH R2) as (Fa2 & A2 & _ & R3 & E3); [lra|lra|lra|lra|unfold m; lra|lra|lra|].
  set (a2 := fdiv (q0 r2) (q0 y)) in *. set (r3 := q_sub r2 (q_mul_f64 y a2)) in *. clearbody r3.
  apply (WK _ (15000 * (u * m)) _ (300 * (u * m))) in R3; [|lra|lra].
  destruct (div_step d y r3 (15000 * (u * m)) (300 * (u * m)) (/ 1099511627776 * (15000 * (u * m))) Ly Pd YL YH R3) as (Fa3 & A3 & _ & R4 & E4); [lra|lra|lra|lra|apply dM; lra|lra|lra|].
  set (a3 := fdiv (q0 r3) (q0 y)) in *. set (r4 := q_sub r3 (q_mul_f64 y a3)) in *. clearbody r4.
  apply (WK _ (1000 * (u * m)) _ (u * m)) in R4; [|lra|lra].
  destruct (div_step d y r4 (1000 * (u * m)) (u * m) (/ 1099511627776 * (1000 * (u * m))) Ly Pd YL YH R4) as (Fa4 & A4 & D4 & _ & _); [lra|lra|lra|lra|apply dM; lra|lra|lra|].
  set (a4 := fdiv (q0 r4) (q0 y)) in *.
  set (Y := Rabs (V (q0 y))) in *. assert (PY : 0 < Y) by lra.
  set (W := M / Y). set (w := m / Y).
  assert (PW : 0 < W) by (apply Rdiv_lt_0_compat; lra). assert (Pw : 0 < w) by (apply Rdiv_lt_0_compat; lra).
  assert (Ew : w = d * W) by (unfold w, W, m; field; lra).
  assert (w1 : 4 * (u * W) <= w). { rewrite Ew. replace (4 * (u * W)) with (4 * u * W) by ring. apply Rmult_le_compat_r; lra. }
  assert (w2 : w <= / 1099511627776 * W) by (rewrite Ew; apply Rmult_le_compat_r; lra).
  assert (WB : 4 * W <= bp 1000).
  { apply Rle_trans with (4 * bp 390).
    - apply Rmult_le_compat_l; [lra|]. unfold W. apply Rmult_le_reg_r with Y; [exact PY|]. unfold Rdiv. rewrite Rmult_assoc, Rinv_l by lra. rewrite Rmult_1_r.
      apply Rle_trans with (bp 390 * bp (-300)); [rewrite <- bpow_plus; exact XH|]. apply Rmult_le_compat_l; [apply bpow_ge_0|exact YL].
    - change 4 with (bp 2). rewrite <- bpow_plus. apply bpow_le. lia. }
  assert (DV1 : forall a c t, Rabs (V a) * Y <= (1 + 2 * u) * (c * t) -> Rabs (V a) <= (1 + 2 * u) * (c * (t / Y))).
  { intros a c t H. apply Rmult_le_reg_r with Y; [exact PY|]. replace ((1 + 2 * u) * (c * (t / Y)) * Y) with ((1 + 2 * u) * (c * t)) by (field; lra). exact H. }
  assert (B0 : Rabs (V a0) <= (1 + 2 * u) * W). { assert (K := DV1 a0 1 M). fold W in K. rewrite !Rmult_1_l in K. exact (K A0). }
  assert (B1 : Rabs (V a1) <= (1 + 2 * u) * (12 * w)) by exact (DV1 a1 12 m A1).
  assert (B2 : Rabs (V a2) <= (1 + 2 * u) * (60 * u * W)). { apply (DV1 a2 (60 * u) M). lra. }
  assert (B3 : Rabs (V a3) <= (1 + 2 * u) * (15000 * u * w)). { apply (DV1 a3 (15000 * u) m). lra. }
  assert (B4 : Rabs (V a4) <= (1 + 2 * u) * (1000 * u * w)). { apply (DV1 a4 (1000 * u) m). lra. }
  clear DV1 WK.
  destruct (renorm5_L ((1 + 2 * u) * W) (28 * w) (12 * w + / 100 * w) (15 * w + / 100 * w) (/ 100 * w) (/ 100 * w) a0 a1 a2 a3 a4) as [L5 E5].
  { repeat split; lra. } 1-5: lra. 1-5: split; [assumption|lra].
  assert (RHO : Rabs (QV x - QV y * (V a0 + V a1 + V a2 + V a3 + V a4)) <= 733 * (u * m) + 12769 * (u * (u * M))).
  { assert (K4 : Rabs (QV r4 - QV y * V a4) <= 5 * (u * m)).
    { replace (QV r4 - QV y * V a4) with ((V (q0 r4) - V (q0 y) * V a4) + (V (q1 r4) + V (q2 r4) + V (q3 r4)) - (QV y - V (q0 y)) * V a4) by (unfold QV; ring).
      assert (K5 : Rabs ((QV y - V (q0 y)) * V a4) <= u * m).
      { rewrite Rabs_mult. apply Rle_trans with (3 * (d * Y) * Rabs (V a4)); [apply Rmult_le_compat_r; [apply Rabs_pos|exact VY]|].
        replace (3 * (d * Y) * Rabs (V a4)) with (3 * d * (Rabs (V a4) * Y)) by ring.
        apply Rle_trans with (3 * / 1099511627776 * ((1 + 2 * u) * (1000 * (u * m)))); [|lra].
        apply Rmult_le_compat; [lra|apply Rmult_le_pos; [apply Rabs_pos|lra]|lra|exact A4]. }
      destruct R4 as (_ & [_ ?] & [_ ?] & [_ ?]).
      set (k5 := (QV y - V (q0 y)) * V a4) in *. set (k6 := V (q0 r4) - V (q0 y) * V a4) in *. clearbody k5 k6.
      clear - H H0 H1 K5 D4 mpos. absall. apply Rabs_le. lra. }
    replace (QV x - QV y * (V a0 + V a1 + V a2 + V a3 + V a4)) with
      (- (QV r1 - (QV x - QV y * V a0)) - (QV r2 - (QV r1 - QV y * V a1)) - (QV r3 - (QV r2 - QV y * V a2)) - (QV r4 - (QV r3 - QV y * V a3)) + (QV r4 - QV y * V a4)) by ring.
    set (k1 := QV r1 - (QV x - QV y * V a0)) in *. set (k2 := QV r2 - (QV r1 - QV y * V a1)) in *. set (k3 := QV r3 - (QV r2 - QV y * V a2)) in *.
    set (k4 := QV r4 - (QV r3 - QV y * V a3)) in *. set (k5 := QV r4 - QV y * V a4) in *. clearbody k1 k2 k3 k4 k5.
    clear - E1 E2 E3 E4 K4 m1 m2 mpos. absall. apply Rabs_le. lra. }
  assert (TX := Rabs_triang_inv (QV x) (QV x - V (q0 x))). replace (QV x - (QV x - V (q0 x))) with (V (q0 x)) in TX by ring. fold M in TX.
  assert (TX2 := Rabs_triang (V (q0 x)) (QV x - V (q0 x))). replace (V (q0 x) + (QV x - V (q0 x))) with (QV x) in TX2 by ring. fold M in TX2.
  assert (TY2 := Rabs_triang (V (q0 y)) (QV y - V (q0 y))). replace (V (q0 y) + (QV y - V (q0 y))) with (QV y) in TY2 by ring. fold Y in TY2.
  assert (TY := Rabs_triang (QV y) (- (QV y - V (q0 y)))). replace (QV y + - (QV y - V (q0 y))) with (V (q0 y)) in TY by ring. fold Y in TY. rewrite Rabs_Ropp in TY.
  assert (TX3 := Rabs_triang (QV x) (- (QV x - V (q0 x)))). replace (QV x + - (QV x - V (q0 x))) with (V (q0 x)) in TX3 by ring. fold M in TX3. rewrite Rabs_Ropp in TX3.
  clear TX. assert (dY := dM Y ltac:(lra)).
  set (yv := Rabs (QV y)) in *. assert (YV : (1 - / 1000000) * Y <= yv) by lra. assert (YV2 : yv <= (1 + / 1000000) * Y) by lra.
  assert (NY : QV y <> 0). { intros K. unfold yv in YV. rewrite K, Rabs_R0 in YV. lra. }
  assert (XV : (1 - / 1000000) * M <= Rabs (QV x)) by (unfold m in m2; lra).
  assert (XV2 : Rabs (QV x) <= (1 + / 1000000) * M) by (unfold m in m2; lra).
  assert (ST : Rabs (V a0 + V a1 + V a2 + V a3 + V a4 - QV x / QV y) <= 734 * (u * w) + 12800 * (u * (u * W))).
  { replace (V a0 + V a1 + V a2 + V a3 + V a4 - QV x / QV y) with (- ((QV x - QV y * (V a0 + V a1 + V a2 + V a3 + V a4)) / QV y)) by (field; exact NY).
    rewrite Rabs_Ropp. unfold Rdiv. rewrite Rabs_mult, Rabs_inv. fold yv.
    apply Rmult_le_reg_r with yv; [lra|]. rewrite Rmult_assoc, Rinv_l by lra. rewrite Rmult_1_r.
    eapply Rle_trans; [exact RHO|].
    assert (EM : M = W * Y) by (unfold W; field; lra). assert (Em : m = w * Y) by (unfold w; field; lra). rewrite EM, Em.
    replace (733 * (u * (w * Y)) + 12769 * (u * (u * (W * Y)))) with ((733 * (u * w) + 12769 * (u * (u * W))) * Y) by ring.
    apply Rle_trans with ((734 * (u * w) + 12800 * (u * (u * W))) * ((1 - / 1000000) * Y)); [|apply Rmult_le_compat_l; lra].
    replace ((734 * (u * w) + 12800 * (u * (u * W))) * ((1 - / 1000000) * Y)) with ((734 * (u * w) + 12800 * (u * (u * W))) * (1 - / 1000000) * Y) by ring.
    apply Rmult_le_compat_r; lra. }
  assert (QL1 : (1 - / 100000) * W <= Rabs (QV x / QV y)).
  { unfold Rdiv. rewrite Rabs_mult, Rabs_inv. fold yv. apply Rmult_le_reg_r with yv; [lra|]. rewrite (Rmult_assoc (Rabs (QV x))), Rinv_l by lra. rewrite Rmult_1_r.
    apply Rle_trans with ((1 - / 100000) * W * ((1 + / 1000000) * Y)); [apply Rmult_le_compat_l; lra|].
    replace ((1 - / 100000) * W * ((1 + / 1000000) * Y)) with ((1 - / 100000) * (1 + / 1000000) * (W * Y)) by ring.
    assert (EM : W * Y = M) by (unfold W; field; lra). rewrite EM. lra. }
  destruct (QV_mkQ4 (renorm5 a0 a1 a2 a3 a4)) as [Q1 _]. rewrite <- Q1 in E5. apply lbQ_mkQ4 in L5.
  set (q := mkQ4 (renorm5 a0 a1 a2 a3 a4)) in *. clearbody q.
  set (z := QV x / QV y) in *. clearbody z.
  set (sa := V a0 + V a1 + V a2 + V a3 + V a4) in *. clearbody sa.
  assert (FE : Rabs (QV q - z) <= 987 * (u * w) + 12800 * (u * (u * W))).
  { clear - E5 ST Pw PW. absall. apply Rabs_le. lra. }
  assert (FQ := lbQ_fin _ _ _ _ _ L5). destruct L5 as ([_ C0] & [_ C1] & [_ C2] & [_ C3]).
  assert (Cq : (1 - / 10000) * W <= Rabs (V (q0 q))).
  { assert (Rabs z <= Rabs (V (q0 q)) + Rabs (V (q1 q)) + Rabs (V (q2 q)) + Rabs (V (q3 q)) + Rabs (QV q - z)).
    { replace z with (V (q0 q) + V (q1 q) + V (q2 q) + V (q3 q) + - (QV q - z)) at 1 by (unfold QV; ring).
      assert (T1 := Rabs_triang (V (q0 q) + V (q1 q) + V (q2 q) + V (q3 q)) (- (QV q - z))). rewrite Rabs_Ropp in T1.
      assert (T2 := Rabs_triang (V (q0 q) + V (q1 q) + V (q2 q)) (V (q3 q))). assert (T3 := Rabs_triang (V (q0 q) + V (q1 q)) (V (q2 q))). assert (T4 := Rabs_triang (V (q0 q)) (V (q1 q))). lra. }
    lra. }
  split.
  - split; [exact FQ|]. repeat split; lra.
  - eapply Rle_trans; [exact FE|]. rewrite Ew.
    replace (987 * (u * (d * W)) + 12800 * (u * (u * W))) with ((987 * (u * d) + 12800 * (u * u)) * W) by ring.
    apply Rle_trans with ((1024 * (u * d) + 13000 * (u * u)) * ((1 - / 100000) * W)).
    + replace ((1024 * (u * d) + 13000 * (u * u)) * ((1 - / 100000) * W)) with ((1024 * (u * d) + 13000 * (u * u)) * (1 - / 100000) * W) by ring.
      apply Rmult_le_compat_r; lra.
    + apply Rmult_le_compat_l; lra.
Qed.
