(** Elementary function pairs undo each other (C103). *)
From Coq Require Import ZArith Reals Lra Lia List Bool.
From Flocq Require Import Core IEEE754.BinarySingleNaN.
From Verif Require Import RN F64 Prim DoubleM QuadM ParseM FromProofs Spec F64Facts SqrtProofs Printer AlgM TransM ExpThms ExpProofs LnThms LogLib SinReduce SinThms AtanReal AtanMain AtanOuter QuadSpec QGeoAcc QLogSpec QExpThms QLnThms QHypThms P_QLn P_Exp P_Ln P_Trig P_Atan HypInv P_Hyper QExprSpec P_QExp.
Local Open Scope R_scope.
Notation bp := (bpow radix2).

Lemma ln1p e : Rabs e <= / 1024 -> Rabs (ln (1 + e)) <= 1001 / 1000 * Rabs e.
Proof.
  intros H. assert (K := Rabs_le_inv _ _ H).
  assert (UP : forall t, -1 < t -> ln (1 + t) <= t).
  { intros t Ht. destruct (Req_dec t 0) as [->|N]; [rewrite Rplus_0_r, ln_1; lra|]. apply Rlt_le. apply exp_lt_inv. rewrite exp_ln by lra. apply exp_ineq1; exact N. }
  assert (U1 := UP e ltac:(lra)).
  assert (L1 : e / (1 + e) <= ln (1 + e)).
  { assert (U2 := UP (- (e / (1 + e)))). assert (X : 1 + - (e / (1 + e)) = / (1 + e)) by (field; lra).
    assert (P : 0 < / (1 + e)) by (apply Rinv_0_lt_compat; lra). rewrite X, ln_Rinv in U2 by lra. assert (Y := U2 ltac:(lra)). lra. }
  assert (D : Rabs (e / (1 + e)) <= 1001 / 1000 * Rabs e).
  { unfold Rdiv at 1. rewrite Rabs_mult, Rmult_comm. apply Rmult_le_compat_r; [apply Rabs_pos|]. rewrite Rabs_pos_eq by (apply Rlt_le, Rinv_0_lt_compat; lra).
    apply Rmult_le_reg_r with (1 + e); [lra|]. rewrite Rinv_l by lra. lra. }
  assert (D' := Rabs_le_inv _ _ D). assert (Z0 := Rabs_pos e). assert (Z1 := Rle_abs e). apply Rabs_le. lra.
Qed.
(** the logarithm of a value known to a relative error *)
Lemma ln_of_rel v x d : 0 <= d <= / 1024 -> Rabs (v - exp x) <= d * exp x -> 0 < v /\ Rabs (ln v - x) <= 1001 / 1000 * d.
Proof.
  intros Hd H. assert (P := exp_pos x). set (e := (v - exp x) / exp x). assert (E : v = exp x * (1 + e)) by (unfold e; field; lra).
  assert (He : Rabs e <= d). { unfold e, Rdiv. rewrite Rabs_mult, (Rabs_pos_eq (/ exp x)) by (apply Rlt_le, Rinv_0_lt_compat; lra).
    apply Rmult_le_reg_r with (exp x); [lra|]. rewrite Rmult_assoc, Rinv_l by lra. lra. }
  assert (K := Rabs_le_inv _ _ He). split; [rewrite E; apply Rmult_lt_0_compat; lra|].
  rewrite E, ln_mult, ln_exp by lra. replace (x + ln (1 + e) - x) with (ln (1 + e)) by ring. eapply Rle_trans; [apply ln1p; lra|]. lra.
Qed.
(** the exponential of a value known to an absolute error *)
Lemma exp_of_abs r l d : 0 <= d <= / 4096 -> Rabs (r - l) <= d -> Rabs (exp r - exp l) <= 1001 / 1000 * d * exp l.
Proof.
  intros Hd H. replace (exp r - exp l) with ((exp (r - l) - 1) * exp l) by (unfold Rminus at 1 3; rewrite Rmult_plus_distr_r, <- exp_plus; replace (r - l + l) with r by ring; ring).
  assert (P := exp_pos l). rewrite Rabs_mult, (Rabs_pos_eq (exp l)) by lra. apply Rmult_le_compat_r; [lra|].
  assert (K := expm1_bound (r - l) ltac:(lra)). eapply Rle_trans; [exact K|]. assert (Q := Rabs_pos (r - l)).
  apply Rle_trans with (d * (1 + 3 * / 4096)); [apply Rmult_le_compat; lra|]. lra.
Qed.

Lemma B106 : 0 < bp (-106) <= / 1000000000000000000000000000.
Proof. split; [apply bpow_gt_0|]. apply Rle_trans with (bp (-90)); [apply bpow_le; lia|change (bp (-90)) with (/ 1237940039285380274899124224); lra]. Qed.
Lemma B137 : 0 < bp (-137) <= / 1000000000000000000000000000.
Proof. split; [apply bpow_gt_0|]. apply Rle_trans with (bp (-90)); [apply bpow_le; lia|change (bp (-90)) with (/ 1237940039285380274899124224); lra]. Qed.

Lemma d_ln_exp lm dbg x : log_close lm -> DNorm x -> -599 <= DV x <= 599 ->
  exists r, d_ln lm dbg (d_exp x) = Val r /\ DNorm r /\ Rabs (DV r - DV x) <= (43 * Rabs (DV x) + 985) * bp (-106).
Proof.
  intros C N H. destruct (C63_exp_accuracy x N ltac:(lra)) as [NE E]. assert (P := Rabs_pos (DV x)).
  assert (A : Rabs (DV x) <= 599) by (apply Rabs_le; lra). destruct B106 as [Q0 Q1].
  assert (D : (15 * Rabs (DV x) + 480) * bp (-106) <= 9465 * bp (-106)) by (apply Rmult_le_compat_r; lra). assert (D0 : 0 <= (15 * Rabs (DV x) + 480) * bp (-106)) by (apply Rmult_le_pos; lra).
  destruct (ln_of_rel _ _ _ (conj D0 (Rle_trans _ _ (/ 1024) D ltac:(lra))) E) as [PE L]. assert (L' := Rabs_le_inv _ _ L).
  destruct (C68_ln_accuracy lm dbg (d_exp x) C NE PE ltac:(lra)) as (r & R1 & R2 & R3). exists r. split; [exact R1|]. split; [exact R2|].
  set (q := bp (-106)) in *. clearbody q. replace (DV r - DV x) with ((DV r - ln (DV (d_exp x))) + (ln (DV (d_exp x)) - DV x)) by ring. eapply Rle_trans; [apply Rabs_triang|].
  assert (LA : Rabs (ln (DV (d_exp x))) <= Rabs (DV x) + / 1000). { replace (ln (DV (d_exp x))) with ((ln (DV (d_exp x)) - DV x) + DV x) by ring. eapply Rle_trans; [apply Rabs_triang|]. lra. }
  assert (R4 : (272 / 10 * Rabs (ln (DV (d_exp x))) + 500) * q <= (272 / 10 * (Rabs (DV x) + / 1000) + 500) * q) by (apply Rmult_le_compat_r; lra).
  assert (T : (272 / 10 * (Rabs (DV x) + / 1000) + 500) * q + 1001 / 1000 * ((15 * Rabs (DV x) + 480) * q) <= (43 * Rabs (DV x) + 985) * q).
  { replace (_ + _) with ((272 / 10 * (Rabs (DV x) + / 1000) + 500 + 1001 / 1000 * (15 * Rabs (DV x) + 480)) * q) by ring. apply Rmult_le_compat_r; lra. }
  lra.
Qed.
Lemma d_exp_ln lm dbg x : log_close lm -> DNorm x -> 0 < DV x -> -599 <= ln (DV x) <= 599 ->
  exists r, d_ln lm dbg x = Val r /\ DNorm (d_exp r) /\ Rabs (DV (d_exp r) - DV x) <= (43 * Rabs (ln (DV x)) + 985) * bp (-106) * DV x.
Proof.
  intros C N X H. destruct (C68_ln_accuracy lm dbg x C N X ltac:(lra)) as (r & R1 & R2 & R3). exists r. split; [exact R1|].
  set (l := ln (DV x)) in *. assert (EX : exp l = DV x) by (unfold l; now apply exp_ln). assert (P := Rabs_pos l).
  assert (A : Rabs l <= 599) by (apply Rabs_le; lra). destruct B106 as [Q0 Q1].
  assert (D : (272 / 10 * Rabs l + 500) * bp (-106) <= 17000 * bp (-106)) by (apply Rmult_le_compat_r; lra). assert (D0 : 0 <= (272 / 10 * Rabs l + 500) * bp (-106)) by (apply Rmult_le_pos; lra).
  assert (R' := Rabs_le_inv _ _ R3). destruct (C63_exp_accuracy r R2 ltac:(lra)) as [NE E]. split; [exact NE|].
  assert (F := exp_of_abs (DV r) l _ (conj D0 (Rle_trans _ _ (/ 4096) D ltac:(lra))) R3). rewrite EX in F.
  set (q := bp (-106)) in *. clearbody q. clear R1.
  assert (RA : Rabs (DV r) <= Rabs l + / 1000). { replace (DV r) with ((DV r - l) + l) by ring. eapply Rle_trans; [apply Rabs_triang|]. lra. }
  assert (ER : exp (DV r) <= 1001 / 1000 * DV x). { assert (F' := Rabs_le_inv _ _ F). assert (K : 1001 / 1000 * ((272 / 10 * Rabs l + 500) * q) * DV x <= / 1000 * DV x) by (apply Rmult_le_compat_r; lra). lra. }
  assert (E2 : (15 * Rabs (DV r) + 480) * q * exp (DV r) <= (15 * (Rabs l + / 1000) + 480) * q * (1001 / 1000 * DV x)).
  { apply Rmult_le_compat; [|apply Rlt_le, exp_pos| |exact ER]. { assert (Z0 := Rabs_pos (DV r)). apply Rmult_le_pos; lra. } apply Rmult_le_compat_r; lra. }
  replace (DV (d_exp r) - DV x) with ((DV (d_exp r) - exp (DV r)) + (exp (DV r) - DV x)) by ring. eapply Rle_trans; [apply Rabs_triang|].
  assert (T : (15 * (Rabs l + / 1000) + 480) * q * (1001 / 1000 * DV x) + 1001 / 1000 * ((272 / 10 * Rabs l + 500) * q) * DV x <= (43 * Rabs l + 985) * q * DV x).
  { replace (_ + _) with (1001 / 1000 * (15 * (Rabs l + / 1000) + 480 + (272 / 10 * Rabs l + 500)) * q * DV x) by ring. apply Rmult_le_compat_r; [lra|]. apply Rmult_le_compat_r; lra. }
  lra.
Qed.

Lemma asin_lower x : -1 <= x <= 1 -> Rabs x <= Rabs (asin x) <= 16 / 10.
Proof.
  intros H. assert (K := sin_lip (asin x) 0). rewrite sin_0, sin_asin, !Rminus_0_r in K by lra. split; [exact K|].
  assert (B := asin_bound x). assert (PB := pi_b). apply Rabs_le. lra.
Qed.
Lemma d_sin_asin lm dbg x : printer lm -> atan2_close lm -> DNorm x -> bp (-200) <= Rabs (DV x) -> bp (-80) <= 1 - DV x * DV x ->
  exists r s, d_asin lm dbg x = Val r /\ d_sin lm dbg r = Val s /\ DNorm s /\
    Rabs (DV s - DV x) <= (1978 + 94 / 10 * / sqrt (1 - DV x * DV x)) * bp (-106).
Proof.
  intros PR C N H1 H2. destruct (C81_asin_accuracy lm dbg x PR C N H1 H2) as (r & R1 & R2 & R3 & R4). exists r.
  assert (B40 : bp (-80) = / 1099511627776 * / 1099511627776) by (change (-80)%Z with (-40 + -40)%Z; rewrite bpow_plus; reflexivity).
  assert (S40 : / 1099511627776 <= sqrt (1 - DV x * DV x)). { rewrite <- (sqrt_Rsqr (/ 1099511627776)) by lra. apply sqrt_le_1; unfold Rsqr; lra. }
  assert (S41 : 0 < / sqrt (1 - DV x * DV x) <= 1099511627776).
  { split; [apply Rinv_0_lt_compat; lra|]. rewrite <- (Rinv_inv 1099511627776). apply Rinv_le_contravar; lra. }
  set (z := / sqrt (1 - DV x * DV x)) in *. clearbody z. clear S40.
  assert (X1 : -1 <= DV x <= 1) by nra. destruct (asin_lower (DV x) X1) as [L1 L2]. destruct B106 as [Q0 Q1].
  assert (E0 : (1472 + 94 / 10 * z) * bp (-106) <= 20000000000000 * bp (-106)) by (apply Rmult_le_compat_r; lra).
  assert (LOW : bp (-700) <= Rabs (DV r)).
  { destruct (Rle_or_lt (Rabs (DV x)) (79 / 1000)) as [W|W].
    - assert (K := R4 W). assert (K' : 300 * bp (-106) * Rabs (asin (DV x)) <= / 2 * Rabs (asin (DV x))) by (apply Rmult_le_compat_r; [apply Rabs_pos|lra]).
      assert (T : Rabs (asin (DV x)) <= Rabs (DV r) + Rabs (DV r - asin (DV x))). { replace (asin (DV x)) with (DV r - (DV r - asin (DV x))) at 1 by ring. unfold Rminus at 1. eapply Rle_trans; [apply Rabs_triang|]. rewrite Rabs_Ropp. lra. }
      assert (B : bp (-700) <= bp (-201)) by (apply bpow_le; lia). assert (B2 : bp (-200) = 2 * bp (-201)) by exact (bpow_plus radix2 1 (-201)). lra.
    - assert (T : Rabs (asin (DV x)) <= Rabs (DV r) + Rabs (DV r - asin (DV x))). { replace (asin (DV x)) with (DV r - (DV r - asin (DV x))) at 1 by ring. unfold Rminus at 1. eapply Rle_trans; [apply Rabs_triang|]. rewrite Rabs_Ropp. lra. }
      assert (B : bp (-700) <= / 1024) by (apply Rle_trans with (bp (-10)); [apply bpow_le; lia|cbn; lra]). lra. }
  assert (RH : Rabs (DV r) <= 17 / 10). { replace (DV r) with ((DV r - asin (DV x)) + asin (DV x)) by ring. eapply Rle_trans; [apply Rabs_triang|]. lra. }
  assert (B40' : 2 <= bp 40) by (apply Rle_trans with (bp 1); [cbn; lra|apply bpow_le; lia]).
  destruct (C71_sin_accuracy lm dbg r PR R2 ltac:(lra)) as (s & S1 & S2 & S3). exists s. repeat (split; [assumption|]).
  assert (LS := sin_lip (DV r) (asin (DV x))). rewrite sin_asin in LS by lra.
  assert (S3' : (15 * Rabs (DV r) + 480) * bp (-106) <= 5055 / 10 * bp (-106)) by (apply Rmult_le_compat_r; lra).
  replace (DV s - DV x) with ((DV s - sin (DV r)) + (sin (DV r) - DV x)) by ring. eapply Rle_trans; [apply Rabs_triang|]. 
  assert (Z1 : bp (-106) * 2 <= bp (-106) * 2) by lra. replace ((1978 + 94 / 10 * z) * bp (-106)) with ((1472 + 94 / 10 * z) * bp (-106) + 506 * bp (-106)) by ring. lra.
Qed.
Lemma d_cos_acos lm dbg x : printer lm -> atan2_close lm -> DNorm x -> bp (-200) <= Rabs (DV x) -> bp (-80) <= 1 - DV x * DV x ->
  exists r c, d_acos lm dbg x = Val r /\ d_cos lm dbg r = Val c /\ DNorm c /\
    Rabs (DV c - DV x) <= (2001 + 94 / 10 * / sqrt (1 - DV x * DV x)) * bp (-106).
Proof.
  intros PR C N H1 H2. destruct (C82_acos_accuracy lm dbg x PR C N H1 H2) as (r & R1 & R2 & R3). exists r.
  assert (B40 : bp (-80) = / 1099511627776 * / 1099511627776) by (change (-80)%Z with (-40 + -40)%Z; rewrite bpow_plus; reflexivity).
  assert (S40 : / 1099511627776 <= sqrt (1 - DV x * DV x)). { rewrite <- (sqrt_Rsqr (/ 1099511627776)) by lra. apply sqrt_le_1; unfold Rsqr; lra. }
  assert (S41 : 0 < / sqrt (1 - DV x * DV x) <= 1099511627776).
  { split; [apply Rinv_0_lt_compat; lra|]. rewrite <- (Rinv_inv 1099511627776). apply Rinv_le_contravar; lra. }
  assert (X1 : -1 <= DV x <= 1) by nra. assert (B := acos_bound (DV x)). assert (PB := pi_b). destruct B106 as [Q0 Q1].
  assert (L1 : / 1099511627776 <= acos (DV x)).
  { assert (K := sin_lip (acos (DV x)) 0). rewrite sin_0, sin_acos, !Rminus_0_r in K by lra. unfold Rsqr in K. rewrite (Rabs_pos_eq (acos _)), (Rabs_pos_eq (sqrt _)) in K by lra. lra. }
  set (z := / sqrt (1 - DV x * DV x)) in *. clearbody z. clear S40.
  assert (E0 : (1472 + 94 / 10 * z) * bp (-106) <= 20000000000000 * bp (-106)) by (apply Rmult_le_compat_r; lra).
  assert (R' := Rabs_le_inv _ _ R3). assert (LOW : / 1125899906842624 <= DV r <= 315 / 100) by lra.
  assert (B50 : bp (-700) <= / 1125899906842624) by (apply Rle_trans with (bp (-50)); [apply bpow_le; lia|cbn; lra]).
  assert (B40' : 4 <= bp 40) by (apply Rle_trans with (bp 2); [cbn; lra|apply bpow_le; lia]).
  assert (RA : Rabs (DV r) = DV r) by (apply Rabs_pos_eq; lra).
  destruct (C72_cos_accuracy lm dbg r PR R2 ltac:(lra)) as (s & S1 & S2 & S3). exists s. repeat (split; [assumption|]).
  assert (LS := cos_lip (DV r) (acos (DV x))). rewrite cos_acos in LS by lra.
  assert (S3' : (15 * Rabs (DV r) + 480) * bp (-106) <= 529 * bp (-106)) by (apply Rmult_le_compat_r; lra).
  replace (DV s - DV x) with ((DV s - cos (DV r)) + (cos (DV r) - DV x)) by ring. eapply Rle_trans; [apply Rabs_triang|].
  replace ((2001 + 94 / 10 * z) * bp (-106)) with ((1472 + 94 / 10 * z) * bp (-106) + 529 * bp (-106)) by ring. lra.
Qed.
(** how sinh carries an absolute error *)
Lemma sinh_of_abs r l d : 0 <= d <= / 4096 -> Rabs (r - l) <= d -> Rabs (sinh r - sinh l) <= 1001 / 1000 * d * cosh l /\ cosh r <= 1001 / 1000 * cosh l.
Proof.
  intros Hd H. assert (E1 := exp_of_abs r l d Hd H).
  assert (E2 := exp_of_abs (- r) (- l) d Hd ltac:(replace (- r - - l) with (- (r - l)) by ring; now rewrite Rabs_Ropp)).
  assert (P1 := exp_pos l). assert (P2 := exp_pos (- l)). apply Rabs_le_inv in E1. apply Rabs_le_inv in E2. unfold sinh, cosh.
  assert (Q1 : 1001 / 1000 * d * exp l <= / 1000 * exp l) by (apply Rmult_le_compat_r; lra). assert (Q2 : 1001 / 1000 * d * exp (- l) <= / 1000 * exp (- l)) by (apply Rmult_le_compat_r; lra).
  split; [|lra]. apply Rabs_le. replace (1001 / 1000 * d * ((exp l + exp (- l)) / 2)) with ((1001 / 1000 * d * exp l + 1001 / 1000 * d * exp (- l)) / 2) by field. lra.
Qed.
Lemma cosh_arcsinh x : cosh (arcsinh x) = sqrt (1 + x * x).
Proof.
  assert (P : 0 <= cosh (arcsinh x)) by (unfold cosh; assert (A := exp_pos (arcsinh x)); assert (B := exp_pos (- arcsinh x)); lra).
  rewrite <- (sqrt_Rsqr _ P). f_equal. assert (K : Rsqr (cosh (arcsinh x)) - Rsqr (sinh (arcsinh x)) = 1).
  { unfold Rsqr, cosh, sinh. assert (E : exp (arcsinh x) * exp (- arcsinh x) = 1) by (rewrite <- exp_plus, Rplus_opp_r; apply exp_0). field_simplify; rewrite ?E; lra. }
  rewrite sinh_arcsinh in K. unfold Rsqr in *. lra.
Qed.
Lemma ln_two_pow n : ln (2 ^ n) = INR n * ln 2.
Proof. induction n; [cbn; rewrite ln_1; ring|]. rewrite S_INR. cbn [pow]. rewrite ln_mult, IHn by (try apply pow_lt; lra). ring. Qed.
Lemma arcsinh_range x : 0 < x <= bp 99 -> 0 < arcsinh x <= 101.
Proof.
  intros H. split; [rewrite <- arcsinh_0; apply arcsinh_lt; lra|].
  assert (E : exp (arcsinh x) = sinh (arcsinh x) + cosh (arcsinh x)) by (unfold sinh, cosh; field). rewrite sinh_arcsinh, cosh_arcsinh in E.
  assert (Q : sqrt (1 + x * x) <= 1 + x). { rewrite <- (sqrt_Rsqr (1 + x)) by lra. apply sqrt_le_1; unfold Rsqr; nra. }
  assert (B : bp 99 = 2 ^ 99) by (rewrite (bpow_powerRZ radix2 99); reflexivity). 
  assert (B1 : 1 <= 2 ^ 99) by (rewrite <- B; apply (bpow_le radix2 0 99); lia).
  assert (K : exp (arcsinh x) <= 2 ^ 101) by (replace (2 ^ 101) with (4 * 2 ^ 99) by (change 101%nat with (2 + 99)%nat; rewrite pow_add; lra); lra).
  assert (LN2 : ln 2 <= 1). { rewrite <- (ln_exp 1). destruct (Rle_lt_or_eq_dec 2 (exp 1)) as [L|L]; [assert (Z := exp_ineq1 1 ltac:(lra)); lra|apply Rlt_le, ln_increasing; lra|rewrite L; lra]. }
  rewrite <- (ln_exp (arcsinh x)). apply Rle_trans with (ln (2 ^ 101)).
  - destruct K as [K|K]; [apply Rlt_le, ln_increasing; [apply exp_pos|exact K]|rewrite K; lra].
  - rewrite ln_two_pow. replace (INR 101) with 101 by (rewrite INR_IZR_INZ; reflexivity). lra.
Qed.
Lemma d_sinh_asinh lm dbg x : printer lm -> log_close lm -> DNorm x -> 0 < DV x <= bp 99 ->
  exists r s, d_asinh lm dbg x = Val r /\ d_sinh lm dbg r = Val s /\ DNorm s /\
    Rabs (DV s - DV x) <= (43 * arcsinh (DV x) + 1060) * bp (-106) * sqrt (1 + DV x * DV x).
Proof.
  intros PR C N H. destruct (C78_asinh_accuracy lm dbg x PR C N H) as (r & R1 & R2 & R3). exists r.
  destruct (arcsinh_range _ H) as [A1 A2]. assert (SH := sinh_arcsinh (DV x)). assert (CH := cosh_arcsinh (DV x)). set (l := arcsinh (DV x)) in *.
  rewrite (Rabs_pos_eq l) in R3 by lra. destruct B106 as [Q0 Q1].
  assert (D : (272 / 10 * l + 548) * bp (-106) <= 4000 * bp (-106)) by (apply Rmult_le_compat_r; lra). assert (D0 : 0 <= (272 / 10 * l + 548) * bp (-106)) by (apply Rmult_le_pos; lra).
  assert (R' := Rabs_le_inv _ _ R3). destruct (sinh_of_abs _ _ _ (conj D0 (Rle_trans _ _ (/ 4096) D ltac:(lra))) R3) as [F1 F2].
  assert (RA : Rabs (DV r) <= l + / 1000) by (apply Rabs_le; lra).
  destruct (C76_sinh_accuracy lm dbg r R2 ltac:(lra)) as (s & S1 & S2 & S3). exists s. repeat (split; [assumption|]).
  rewrite SH, CH in *. assert (P : 0 <= sqrt (1 + DV x * DV x)) by apply sqrt_pos. set (w := sqrt _) in *. clearbody w. set (q := bp (-106)) in *. clearbody q.
  assert (Z0 := Rabs_pos (DV r)). assert (E2 : (151 / 10 * Rabs (DV r) + 505) * q * cosh (DV r) <= (151 / 10 * (l + / 1000) + 505) * q * (1001 / 1000 * w)).
  { apply Rmult_le_compat; [apply Rmult_le_pos; lra| |apply Rmult_le_compat_r; lra|exact F2]. unfold cosh. assert (X1 := exp_pos (DV r)). assert (X2 := exp_pos (- DV r)). lra. }
  replace (DV s - DV x) with ((DV s - sinh (DV r)) + (sinh (DV r) - DV x)) by ring. eapply Rle_trans; [apply Rabs_triang|].
  assert (T : (151 / 10 * (l + / 1000) + 505) * q * (1001 / 1000 * w) + 1001 / 1000 * ((272 / 10 * l + 548) * q) * w <= (43 * l + 1060) * q * w).
  { replace (_ + _) with (1001 / 1000 * (151 / 10 * (l + / 1000) + 505 + (272 / 10 * l + 548)) * q * w) by ring. apply Rmult_le_compat_r; [lra|]. apply Rmult_le_compat_r; lra. }
  lra.
Qed.

(** Quads *)
Definition plain_exp (x : R) : Prop :=
  Rabs x <= 339 /\ bp (-15) <= Rabs x /\ bp (-19) <= Rabs (x + 1) /\
  (forall k : Z, k <> 0%Z -> bp (-26) * Rabs x <= Rabs (x - IZR k * ln 2)).
Lemma near_k x y d k : Rabs (y - x) <= d -> Rabs (x - k) - d <= Rabs (y - k).
Proof. intros H. assert (K : Rabs (x - k) <= Rabs (y - k) + Rabs (y - x)). { replace (x - k) with ((y - k) - (y - x)) by ring. unfold Rminus at 1. eapply Rle_trans; [apply Rabs_triang|]. rewrite Rabs_Ropp. lra. } lra. Qed.
Lemma near_0 x y d : Rabs (y - x) <= d -> Rabs x - d <= Rabs y <= Rabs x + d.
Proof.
  intros H. assert (A := near_k x y d 0 H). rewrite !Rminus_0_r in A. split; [exact A|].
  replace y with ((y - x) + x) by ring. eapply Rle_trans; [apply Rabs_triang|]. lra.
Qed.
Lemma q_ln_exp lm dbg x : log_tight lm -> QNorm x \/ QNormW x -> plain_exp (QV x) ->
  exists r, q_ln lm dbg (q_exp x) = Val r /\ QFin r /\ Rabs (QV r - QV x) <= (82 / 10 * Rabs (QV x) + 128) * bp (-137).
Proof.
  intros C N (H1 & H2 & H3 & H4). assert (P := Rabs_pos (QV x)). destruct (Rabs_le_inv _ _ H1) as [H5 H6].
  assert (B15 : bp (-15) = / 32768) by reflexivity. assert (B19 : bp (-19) = / 524288) by reflexivity. assert (B26 : bp (-26) = / 67108864) by reflexivity.
  assert (B16 : bp (-16) = / 65536) by reflexivity. assert (B20 : bp (-20) = / 1048576) by reflexivity. assert (B27 : bp (-27) = / 134217728) by reflexivity. assert (B28 : bp (-28) = / 268435456) by reflexivity.
  assert (B80 : bp (-80) <= bp (-15)) by (apply bpow_le; lia).
  destruct (q_exp_ok x (norms_geoS x N) ltac:(lra) ltac:(lra)) as [G E].
  { intros k Hk. assert (K := H4 k Hk). apply Rle_trans with (2 := K). apply Rmult_le_compat_r; lra. }
  destruct B137 as [Q0 Q1]. set (d := (3 * Rabs (QV x) + 60) * bp (-137)) in *.
  assert (D : d <= / 100000000000000000000000). { apply Rle_trans with (1077 * bp (-137)); [apply Rmult_le_compat_r; lra|lra]. }
  assert (D0 : 0 <= d) by (apply Rmult_le_pos; lra).
  destruct (ln_of_rel _ _ _ (conj D0 (Rle_trans _ _ (/ 1024) D ltac:(lra))) E) as [PE L].
  destruct (near_0 _ _ _ L) as [L1 L2]. assert (L' := Rabs_le_inv _ _ L).
  destruct (q_ln_ok lm dbg (q_exp x) C G PE) as (r & R1 & R2 & R3).
  { repeat split; try lra.
    - assert (K := near_k _ _ _ (-1) L). replace (QV x - -1) with (QV x + 1) in K by ring. replace (ln (QV (q_exp x)) - -1) with (ln (QV (q_exp x)) + 1) in K by ring. lra.
    - intros k Hk. assert (K := near_k _ _ _ (IZR k * ln 2) L). assert (K2 := H4 k Hk). rewrite B26 in K2. rewrite B27. lra. }
  exists r. split; [exact R1|]. split; [apply R2|]. clear R1 R2.
  set (q := bp (-137)) in *. assert (R4 : (51 / 10 * Rabs (ln (QV (q_exp x))) + 67) * q <= (51 / 10 * (Rabs (QV x) + / 1000) + 67) * q) by (apply Rmult_le_compat_r; lra).
  replace (QV r - QV x) with ((QV r - ln (QV (q_exp x))) + (ln (QV (q_exp x)) - QV x)) by ring. eapply Rle_trans; [apply Rabs_triang|].
  assert (T : (51 / 10 * (Rabs (QV x) + / 1000) + 67) * q + 1001 / 1000 * d <= (82 / 10 * Rabs (QV x) + 128) * q).
  { unfold d. replace (_ + _) with ((51 / 10 * (Rabs (QV x) + / 1000) + 67 + 1001 / 1000 * (3 * Rabs (QV x) + 60)) * q) by ring. apply Rmult_le_compat_r; lra. }
  lra.
Qed.
Lemma q_exp_ln lm dbg x : log_tight lm -> QNorm x \/ QNormW x -> 0 < QV x -> plain_log (ln (QV x)) ->
  exists r, q_ln lm dbg x = Val r /\ QTame (q_exp r) /\ Rabs (QV (q_exp r) - QV x) <= (82 / 10 * Rabs (ln (QV x)) + 128) * bp (-137) * QV x.
Proof.
  intros C N X H. destruct (C98_quad_ln lm dbg x C N X H) as (r & R1 & R2 & R3). exists r. split; [exact R1|]. clear R1. destruct H as (H1 & H2 & H3 & H4).
  set (l := ln (QV x)) in *. assert (EX : exp l = QV x) by (unfold l; now apply exp_ln). clearbody l. assert (P := Rabs_pos l). destruct (Rabs_le_inv _ _ H1) as [H5 H6].
  assert (B16 : bp (-16) = / 65536) by reflexivity. assert (B27 : bp (-27) = / 134217728) by reflexivity. assert (B28 : bp (-28) = / 268435456) by reflexivity. assert (B80 : bp (-80) <= bp (-17)) by (apply bpow_le; lia). change (bp (-17)) with (/ 131072) in B80.
  destruct B137 as [Q0 Q1]. set (d := (51 / 10 * l + 67) * bp (-137)). set (e := (51 / 10 * Rabs l + 67) * bp (-137)) in *. clear d.
  assert (D : e <= / 100000000000000000000000). { apply Rle_trans with (2000 * bp (-137)); [apply Rmult_le_compat_r; lra|lra]. }
  assert (D0 : 0 <= e) by (apply Rmult_le_pos; lra). destruct (near_0 _ _ _ R3) as [L1 L2]. assert (L' := Rabs_le_inv _ _ R3).
  destruct (C97_quad_exp_computed r R2 ltac:(lra) ltac:(lra)) as [T E].
  { intros k Hk. assert (K := near_k _ _ _ (IZR k * ln 2) R3). assert (K2 := H4 k Hk). rewrite B27 in K2. rewrite B28. lra. }
  split; [exact T|]. destruct R2 as [R2 _]. assert (F := exp_of_abs (QV r) l _ (conj D0 (Rle_trans _ _ (/ 4096) D ltac:(lra))) R3). rewrite EX in F.
  assert (ER : exp (QV r) <= 1001 / 1000 * QV x). { assert (F' := Rabs_le_inv _ _ F). assert (K : 1001 / 1000 * e * QV x <= / 1000 * QV x) by (apply Rmult_le_compat_r; lra). lra. }
  set (q := bp (-137)) in *. assert (Z0 := Rabs_pos (QV r)).
  assert (E2 : (3 * Rabs (QV r) + 60) * q * exp (QV r) <= (3 * (Rabs l + / 1000) + 60) * q * (1001 / 1000 * QV x)).
  { apply Rmult_le_compat; [apply Rmult_le_pos; lra|apply Rlt_le, exp_pos| |exact ER]. apply Rmult_le_compat_r; lra. }
  replace (QV (q_exp r) - QV x) with ((QV (q_exp r) - exp (QV r)) + (exp (QV r) - QV x)) by ring. eapply Rle_trans; [apply Rabs_triang|].
  assert (TT : (3 * (Rabs l + / 1000) + 60) * q * (1001 / 1000 * QV x) + 1001 / 1000 * e * QV x <= (82 / 10 * Rabs l + 128) * q * QV x).
  { unfold e. replace (_ + _) with (1001 / 1000 * (3 * (Rabs l + / 1000) + 60 + (51 / 10 * Rabs l + 67)) * q * QV x) by ring. apply Rmult_le_compat_r; [lra|]. apply Rmult_le_compat_r; lra. }
  lra.
Qed.
