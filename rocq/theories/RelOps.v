(** * Operations with operands that are themselves approximations *)
From Coq Require Import ZArith Reals Lra Lia Psatz Bool.
From Flocq Require Import Core IEEE754.BinarySingleNaN.
From Verif Require Import RN F64 Prim DoubleM Spec F64Facts EFT DWAdd DAddProofs DMulProofs DDivProofs MulAny AbsOps ParseM AlgM FromProofs SqrtProofs TransM ExpProofs ExpThms LnThms.
Local Open Scope R_scope.

Definition rel (e : R) (x : Double) (X : R) : Prop := DNorm x /\ Rabs (DV x - X) <= e * Rabs X.

Lemma rel_hi e x X : rel e x X -> 0 <= e <= / 1000 -> 99 / 100 * Rabs X <= Rabs (V (d0 x)) <= 101 / 100 * Rabs X.
Proof.
  intros [N H] He. assert (P := Rabs_pos X). assert (EX : e * Rabs X <= / 1000 * Rabs X) by (apply Rmult_le_compat_r; lra).
  assert (K1 := tri _ _ _ _ H (Rle_refl _)). assert (K2 := tri2 _ _ _ _ H (Rle_refl _)). assert (K3 := DNorm_hi_rel x N). assert (K4 := DNorm_val_rel x N).
  assert (K5 : Rabs (DV x) <= Rabs (DV x - V (d0 x)) + Rabs (V (d0 x))) by (replace (DV x) with (DV x - V (d0 x) + V (d0 x)) at 1 by ring; apply Rabs_triang).
  assert (K6 := Rabs_pos (V (d0 x))). lra.
Qed.
Lemma rel_val e x X : rel e x X -> 0 <= e <= / 1000 -> 999 / 1000 * Rabs X <= Rabs (DV x) <= 1001 / 1000 * Rabs X.
Proof.
  intros [N H] He. assert (P := Rabs_pos X). assert (EX : e * Rabs X <= / 1000 * Rabs X) by (apply Rmult_le_compat_r; lra).
  assert (K1 := tri _ _ _ _ H (Rle_refl _)). assert (K2 := tri2 _ _ _ _ H (Rle_refl _)). lra.
Qed.
Lemma rel_self x : DNorm x -> rel 0 x (DV x).
Proof. intros N. split; [exact N|]. rewrite Rminus_diag_eq, Rabs_R0 by reflexivity. lra. Qed.
Lemma rel_le e f x X : rel e x X -> e <= f -> rel f x X.
Proof. intros [N H] L. split; [exact N|]. apply Rle_trans with (1 := H). apply Rmult_le_compat_r; [apply Rabs_pos|exact L]. Qed.
Lemma rel_one : rel 0 D_ONE 1.
Proof. destruct one_ok as [N E]. rewrite <- E. now apply rel_self. Qed.

Lemma bp_100 k : 100 * bp k <= bp (k + 7).
Proof. assert (K : bp (k + 7) = 128 * bp k) by exact (bp_split k 7 ltac:(lia)). assert (P := bpow_gt_0 radix2 k). lra. Qed.
Lemma rel_div e f s c P Q : rel e s P -> rel f c Q -> 0 <= e <= / 1000 -> 0 <= f <= / 1000 -> bp (-890) <= Rabs P <= bp 1000 -> Q <> 0 -> bp (-890) <= Rabs (P / Q) <= bp 1000 ->
  rel (1003 / 1000 * (e + f) + 161 / 10 * vv) (d_div s c) (P / Q).
Proof.
  intros Rs Rc He Hf BP QZ BQ. assert (Hs := rel_hi _ _ _ Rs He). assert (Hc := rel_hi _ _ _ Rc Hf). assert (Vc := rel_val _ _ _ Rc Hf).
  destruct Rs as [Ns Es]. destruct Rc as [Nc Ec]. assert (PQ := Rabs_pos_lt Q QZ). assert (P9 := bpow_gt_0 radix2 (-890)).
  assert (B1 := bp_100 (-900)). assert (B2 : bp (-900 + 7) <= bp (-890)) by (apply bpow_le; lia). assert (B3 := bp_100 1000). assert (B4 : bp (1000 + 7) <= bp 1010) by (apply bpow_le; lia).
  assert (Q9 := bpow_gt_0 radix2 (-900)). assert (Q10 := bpow_gt_0 radix2 1000).
  set (hs := Rabs (V (d0 s))) in *. set (hc := Rabs (V (d0 c))) in *. assert (HC0 : 0 < hc) by lra.
  assert (VC0 : V (d0 c) <> 0) by (intros Z; unfold hc in HC0; rewrite Z, Rabs_R0 in HC0; lra).
  assert (SC : Rabs P * / Rabs Q = Rabs (P / Q)) by (unfold Rdiv; rewrite Rabs_mult, Rabs_inv by exact QZ; reflexivity).
  destruct (d_div_ok s c Ns Nc VC0) as [N D].
  { right. assert (DQ : Rabs (V (d0 s) / V (d0 c)) = hs * / hc) by (unfold Rdiv; rewrite Rabs_mult, Rabs_inv by exact VC0; reflexivity). rewrite DQ. fold hs.
    assert (I1 : / (101 / 100 * Rabs Q) <= / hc) by (apply Rinv_le_contravar; lra).
    assert (I2 : / hc <= / (99 / 100 * Rabs Q)) by (apply Rinv_le_contravar; lra).
    assert (L : 99 / 100 * Rabs P * / (101 / 100 * Rabs Q) <= hs * / hc).
    { apply Rmult_le_compat; try lra. left. apply Rinv_0_lt_compat. lra. }
    assert (U : hs * / hc <= 101 / 100 * Rabs P * / (99 / 100 * Rabs Q)).
    { apply Rmult_le_compat; try lra. left. now apply Rinv_0_lt_compat. }
    replace (99 / 100 * Rabs P * / (101 / 100 * Rabs Q)) with (99 / 101 * (Rabs P * / Rabs Q)) in L by (field; lra).
    replace (101 / 100 * Rabs P * / (99 / 100 * Rabs Q)) with (101 / 99 * (Rabs P * / Rabs Q)) in U by (field; lra). rewrite SC in L, U. lra. }
  split; [exact N|]. unfold approx in D. rewrite vv_bp in D.
  assert (DCZ : DV c <> 0) by (intros Z; rewrite Z, Rabs_R0 in Vc; lra).
  set (q := DV s / DV c) in *. set (T := P / Q) in *. assert (PT : 0 < Rabs T) by lra.
  assert (QE : Rabs (q - T) <= 1002 / 1000 * (e + f) * Rabs T).
  { replace (q - T) with (((DV s - P) - (DV c - Q) * T) * / DV c) by (unfold q, T; field; auto). rewrite Rabs_mult, Rabs_inv by exact DCZ.
    assert (K1 : Rabs (DV s - P - (DV c - Q) * T) <= e * Rabs P + f * Rabs Q * Rabs T).
    { unfold Rminus at 1. eapply Rle_trans; [apply Rabs_triang|]. rewrite Rabs_Ropp, Rabs_mult. apply Rplus_le_compat; [exact Es|]. apply Rmult_le_compat_r; [lra|exact Ec]. }
    assert (K2 : / Rabs (DV c) <= 1002 / 1000 * / Rabs Q).
    { replace (1002 / 1000 * / Rabs Q) with (/ (1000 / 1002 * Rabs Q)) by (field; lra). apply Rinv_le_contravar; lra. }
    replace (1002 / 1000 * (e + f) * Rabs T) with ((e * Rabs P + f * Rabs Q * Rabs T) * (1002 / 1000 * / Rabs Q)) by (rewrite <- SC; field; lra).
    apply Rmult_le_compat; [apply Rabs_pos|left; apply Rinv_0_lt_compat; lra|exact K1|exact K2]. }
  assert (QB : Rabs q <= 1003 / 1000 * Rabs T).
  { assert (K4 := tri _ _ _ _ QE (Rle_refl _)). assert (K5 : 1002 / 1000 * (e + f) * Rabs T <= 2004 / 1000000 * Rabs T) by (apply Rmult_le_compat_r; lra). lra. }
  assert (EF : 0 <= (e + f) * Rabs T) by (apply Rmult_le_pos; lra).
  replace (DV (d_div s c) - T) with ((DV (d_div s c) - q) + (q - T)) by ring. eapply Rle_trans; [apply Rabs_triang|]. lra.
Qed.
Lemma rel_recip e s E : rel e s E -> 0 <= e <= / 1000 -> bp (-890) <= Rabs E <= bp 890 -> rel (1003 / 1000 * e + 161 / 10 * vv) (d_recip s) (/ E).
Proof.
  intros Rs He BE. assert (P9 := bpow_gt_0 radix2 (-890)). assert (EZ : E <> 0) by (intros Z; rewrite Z, Rabs_R0 in BE; lra).
  assert (K := rel_div 0 e D_ONE s 1 E rel_one Rs ltac:(lra) He). replace (1 / E) with (/ E) in K by (field; exact EZ). replace (0 + e) with e in K by ring.
  assert (B0 : bp (-890) <= 1 <= bp 1000) by (change 1 with (bp 0); split; apply bpow_le; lia).
  apply K; [rewrite Rabs_R1; exact B0|exact EZ|]. rewrite Rabs_inv by exact EZ. split.
  - replace (bp (-890)) with (/ bp 890) by (rewrite <- bpow_opp; reflexivity). apply Rinv_le_contravar; lra.
  - apply Rle_trans with (/ bp (-890)); [apply Rinv_le_contravar; lra|]. rewrite <- bpow_opp. apply bpow_le. lia.
Qed.

(** sums, absolute *)
Lemma rel_D15 x k : DNorm x -> Rabs (DV x) <= bp k -> (k <= 1014)%Z -> D15 x.
Proof.
  intros N H L. unfold D15. assert (K := DNorm_hi_rel x N). assert (B : bp k <= bp 1014) by (apply bpow_le; lia). assert (B2 : bp 1015 = 2 * bp 1014) by exact (bp_split 1014 1 ltac:(lia)).
  assert (P := bpow_gt_0 radix2 1014). lra.
Qed.
Lemma sum_near x y X Y a b : DNorm x -> DNorm y -> Rabs (DV x - X) <= a -> Rabs (DV y - Y) <= b -> Rabs (DV x) <= bp 1000 -> Rabs (DV y) <= bp 1000 ->
  (DNorm (d_add x y) /\ Rabs (DV (d_add x y) - (X + Y)) <= 6 * vv * Rabs (X + Y) + (1 + 6 * vv) * (a + b)) /\
  (DNorm (d_sub x y) /\ Rabs (DV (d_sub x y) - (X - Y)) <= 6 * vv * Rabs (X - Y) + (1 + 6 * vv) * (a + b)).
Proof.
  intros Nx Ny Ha Hb Bx By. assert (Dx := rel_D15 x 1000 Nx Bx ltac:(lia)). assert (Dy := rel_D15 y 1000 Ny By ltac:(lia)).
  destruct (d_add_ok x y Nx Ny Dx Dy) as [N1 E1]. destruct (d_sub_ok x y Nx Ny Dx Dy) as [N2 E2]. unfold approx in E1, E2. rewrite vv_bp in E1, E2.
  split; (split; [assumption|]).
  - assert (K : Rabs (DV x + DV y - (X + Y)) <= a + b) by (replace (DV x + DV y - (X + Y)) with ((DV x - X) + (DV y - Y)) by ring; eapply Rle_trans; [apply Rabs_triang|lra]).
    assert (K2 := tri _ _ _ _ K (Rle_refl _)). replace (DV (d_add x y) - (X + Y)) with ((DV (d_add x y) - (DV x + DV y)) + (DV x + DV y - (X + Y))) by ring. eapply Rle_trans; [apply Rabs_triang|]. lra.
  - assert (K : Rabs (DV x - DV y - (X - Y)) <= a + b) by (replace (DV x - DV y - (X - Y)) with ((DV x - X) - (DV y - Y)) by ring; unfold Rminus at 1; eapply Rle_trans; [apply Rabs_triang|rewrite Rabs_Ropp; lra]).
    assert (K2 := tri _ _ _ _ K (Rle_refl _)). replace (DV (d_sub x y) - (X - Y)) with ((DV (d_sub x y) - (DV x - DV y)) + (DV x - DV y - (X - Y))) by ring. eapply Rle_trans; [apply Rabs_triang|]. lra.
Qed.

(** square roots *)
Lemma sqrt_near A B e : 0 < A -> 0 <= e <= / 1000 -> Rabs (B - A) <= e * A -> Rabs (sqrt B - sqrt A) <= 501 / 1000 * e * sqrt A.
Proof.
  intros PA He H. assert (K := Rabs_def2' _ _ H). assert (EA : e * A <= / 1000 * A) by (apply Rmult_le_compat_r; lra). assert (PB : 0 < B) by lra.
  assert (SA := sqrt_lt_R0 A PA). assert (SB := sqrt_lt_R0 B PB). assert (QA := sqrt_sqrt A (Rlt_le _ _ PA)). assert (QB := sqrt_sqrt B (Rlt_le _ _ PB)).
  assert (L : 998 / 1000 * sqrt A <= sqrt B).
  { replace (998 / 1000 * sqrt A) with (sqrt ((998 / 1000 * sqrt A) * (998 / 1000 * sqrt A))) by (apply sqrt_square; lra). apply sqrt_le_1_alt.
    replace (998 / 1000 * sqrt A * (998 / 1000 * sqrt A)) with (998 / 1000 * (998 / 1000) * (sqrt A * sqrt A)) by ring. rewrite QA. lra. }
  assert (F : (sqrt B - sqrt A) * (sqrt B + sqrt A) = B - A) by (replace ((sqrt B - sqrt A) * (sqrt B + sqrt A)) with (sqrt B * sqrt B - sqrt A * sqrt A) by ring; rewrite QA, QB; reflexivity).
  apply Rmult_le_reg_r with (sqrt B + sqrt A); [lra|]. rewrite <- (Rabs_pos_eq (sqrt B + sqrt A)) at 1 by lra. rewrite <- Rabs_mult, F.
  apply Rle_trans with (1 := H). apply Rle_trans with (501 / 1000 * e * sqrt A * (1998 / 1000 * sqrt A)).
  - replace (501 / 1000 * e * sqrt A * (1998 / 1000 * sqrt A)) with (501 / 1000 * (1998 / 1000) * e * (sqrt A * sqrt A)) by ring. rewrite QA.
    assert (0 <= e * A) by (apply Rmult_le_pos; lra). lra.
  - apply Rmult_le_compat_l; [apply Rmult_le_pos; [lra|lra]|lra].
Qed.
Lemma rel_sqrt lm dbg e a A : printer lm -> rel e a A -> 0 <= e <= / 1000 -> bp (-790) <= A <= bp 790 ->
  exists r, d_sqrt lm dbg a = Val r /\ rel (51 / 100 * e + 321 / 10 * vv) r (sqrt A).
Proof.
  intros PR Ra He BA. assert (P9 := bpow_gt_0 radix2 (-790)). assert (H := rel_hi _ _ _ Ra He). destruct Ra as [N E]. rewrite (Rabs_pos_eq A) in H, E by lra.
  assert (EA : e * A <= / 1000 * A) by (apply Rmult_le_compat_r; lra). assert (E' := Rabs_def2' _ _ E).
  assert (VP := DNorm_pos_hi a N ltac:(lra)). rewrite (Rabs_pos_eq (V (d0 a))) in H by lra.
  assert (B1 := bp_100 (-800)). assert (B2 : bp (-800 + 7) <= bp (-790)) by (apply bpow_le; lia). assert (B3 := bp_100 790). assert (B4 : bp (790 + 7) <= bp 800) by (apply bpow_le; lia).
  destruct (d_sqrt_ok lm dbg a PR N) as (r & K1 & K2 & K3); [lra|]. exists r. split; [exact K1|]. split; [exact K2|].
  unfold approx in K3. rewrite vv_bp in K3. assert (SN := sqrt_near A (DV a) e ltac:(lra) He E). assert (SA := sqrt_pos A). assert (SB := sqrt_pos (DV a)).
  rewrite (Rabs_pos_eq (sqrt (DV a))) in K3 by exact SB. rewrite (Rabs_pos_eq (sqrt A)) by exact SA. assert (K4 := Rabs_def2' _ _ SN).
  assert (ES : 0 <= e * sqrt A <= / 1000 * sqrt A) by (split; [apply Rmult_le_pos; lra|apply Rmult_le_compat_r; lra]).
  replace (DV r - sqrt A) with ((DV r - sqrt (DV a)) + (sqrt (DV a) - sqrt A)) by ring. eapply Rle_trans; [apply Rabs_triang|]. lra.
Qed.

(** logarithms *)
Lemma ln_near A B e : 0 < A -> 0 <= e <= / 1000 -> Rabs (B - A) <= e * A -> 0 < B /\ Rabs (ln B - ln A) <= 1002 / 1000 * e.
Proof.
  intros PA He H. assert (EA : e * A <= / 1000 * A) by (apply Rmult_le_compat_r; lra). assert (K := Rabs_def2' _ _ H). assert (PB : 0 < B) by lra. split; [exact PB|].
  assert (G : forall y, -1 < y -> ln (1 + y) <= y).
  { intros y Hy. rewrite <- (ln_exp y) at 2. destruct (Req_dec y 0) as [->|NZ]; [rewrite exp_0, Rplus_0_r; lra|]. left. apply ln_increasing; [lra|]. apply exp_ineq1. exact NZ. }
  set (y := (B - A) / A). assert (EB : B = A * (1 + y)) by (unfold y; field; lra).
  assert (Hy : Rabs y <= e). { unfold y, Rdiv. rewrite Rabs_mult, (Rabs_pos_eq (/ A)) by (left; now apply Rinv_0_lt_compat). apply Rmult_le_reg_r with A; [exact PA|]. rewrite Rmult_assoc, Rinv_l, Rmult_1_r by lra. exact H. }
  assert (Hy' := Rabs_def2' _ _ Hy). rewrite EB, ln_mult by lra. replace (ln A + ln (1 + y) - ln A) with (ln (1 + y)) by ring.
  assert (U := G y ltac:(lra)). assert (L : - (1002 / 1000 * e) <= ln (1 + y)).
  { assert (I : ln (/ (1 + y)) = - ln (1 + y)) by (apply ln_Rinv; lra). set (z := / (1 + y) - 1). assert (EZ : / (1 + y) = 1 + z) by (unfold z; ring).
    assert (Z : z = - y * / (1 + y)) by (unfold z; field; lra). assert (IY : 0 < / (1 + y) <= 1002 / 1000).
    { split; [apply Rinv_0_lt_compat; lra|]. replace (1002 / 1000) with (/ (1000 / 1002)) by lra. apply Rinv_le_contravar; lra. }
    assert (ZB : Rabs z <= e * (1002 / 1000)). { rewrite Z, Rabs_mult, Rabs_Ropp, (Rabs_pos_eq (/ (1 + y))) by lra. apply Rmult_le_compat; [apply Rabs_pos|lra|exact Hy|lra]. }
    assert (ZB' := Rabs_def2' _ _ ZB). rewrite EZ in I. assert (K2 := G z ltac:(lra)). lra. }
  apply Rabs_le. lra.
Qed.
Lemma rel_ln lm dbg e a A : log_close lm -> rel e a A -> 0 < A -> 0 <= e <= / 1000 -> -707 <= ln A <= 599 ->
  exists r, d_ln lm dbg a = Val r /\ DNorm r /\ Rabs (DV r - ln A) <= (272 / 10 * Rabs (ln A) + 500) * vv + 1003 / 1000 * e.
Proof.
  intros LC [N E] PA He BL. rewrite (Rabs_pos_eq A) in E by lra. destruct (ln_near A (DV a) e PA He E) as [PB LN]. assert (L' := Rabs_def2' _ _ LN).
  destruct (d_ln_ok lm dbg a LC N PB) as (r & K1 & K2 & K3); [lra|]. exists r. split; [exact K1|]. split; [exact K2|].
  assert (T := tri _ _ _ _ LN (Rle_refl _)). replace (DV r - ln A) with ((DV r - ln (DV a)) + (ln (DV a) - ln A)) by ring. eapply Rle_trans; [apply Rabs_triang|]. lra.
Qed.
