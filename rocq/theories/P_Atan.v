(** * C79 - C82: accuracy of the Double atan2, atan, asin and acos

    [atan], [asin] and [acos] are the standard library's real functions.  [printer lm] is
    the contract on f64 printing of C28; [atan2_close lm] is the contract on f64::atan2:
    on arguments between 2^-210 and 2^210 in magnitude it returns the angle with a relative
    error of at most 2^-51.  Both hold together of some library, see [C79_contracts]. *)
From Coq Require Import ZArith Reals Lra Lia List Bool.
From Flocq Require Import Core IEEE754.BinarySingleNaN.
From Verif Require Import RN F64 Prim DoubleM Spec F64Facts ParseM FromProofs SqrtProofs Printer AlgM TransM ConstProofs AbsOps DMulProofs DAddProofs SinThms AtanReal AtanMain AtanOuter LibNear Check.
Local Open Scope R_scope.

(** what [ratan2] is: the only angle in (-PI, PI] of the point (x, y) *)
Theorem C79_angle : forall y x, x <> 0 \/ y <> 0 ->
  - PI < ratan2 y x <= PI /\ y = sqrt (x * x + y * y) * sin (ratan2 y x) /\ x = sqrt (x * x + y * y) * cos (ratan2 y x).
Proof. intros y x H. assert (P := ratan2_polar y x H). split; [apply P|]. apply (polar_sqrt y x _ P). Qed.
Print Assumptions C79_angle.

Theorem C79_atan2_accuracy : forall lm dbg y x,
  printer lm -> atan2_close lm -> DNorm y -> DNorm x ->
  bpow radix2 (-200) <= Rabs (DV y) <= bpow radix2 200 -> bpow radix2 (-200) <= Rabs (DV x) <= bpow radix2 200 ->
  exists r, d_atan2 lm dbg y x = Val r /\ DNorm r /\
    Rabs (DV r - ratan2 (DV y) (DV x)) <= 1400 * bpow radix2 (-106) /\
    (Rabs (ratan2 (DV y) (DV x)) <= 9 / 100 -> Rabs (DV r - ratan2 (DV y) (DV x)) <= 215 * bpow radix2 (-106) * Rabs (ratan2 (DV y) (DV x))).
Proof. intros lm dbg y x P A. exact (d_atan2_ok lm dbg P A y x). Qed.
Print Assumptions C79_atan2_accuracy.

Theorem C80_atan_accuracy : forall lm dbg x,
  printer lm -> atan2_close lm -> DNorm x -> bpow radix2 (-200) <= Rabs (DV x) <= bpow radix2 200 ->
  exists r, d_atan lm dbg x = Val r /\ DNorm r /\
    Rabs (DV r - atan (DV x)) <= 1400 * bpow radix2 (-106) /\
    (Rabs (DV x) <= 8 / 100 -> Rabs (DV r - atan (DV x)) <= 215 * bpow radix2 (-106) * Rabs (atan (DV x))).
Proof. intros lm dbg x P A. exact (d_atan_ok lm dbg P A x). Qed.
Print Assumptions C80_atan_accuracy.

(** asin and acos: the error grows like 1 / sqrt (1 - x^2) towards the ends *)
Theorem C81_asin_accuracy : forall lm dbg x,
  printer lm -> atan2_close lm -> DNorm x -> bpow radix2 (-200) <= Rabs (DV x) -> bpow radix2 (-80) <= 1 - DV x * DV x ->
  exists r, d_asin lm dbg x = Val r /\ DNorm r /\
    Rabs (DV r - asin (DV x)) <= (1472 + 94 / 10 * / sqrt (1 - DV x * DV x)) * bpow radix2 (-106) /\
    (Rabs (DV x) <= 79 / 1000 -> Rabs (DV r - asin (DV x)) <= 300 * bpow radix2 (-106) * Rabs (asin (DV x))).
Proof. intros lm dbg x P A. exact (d_asin_ok lm dbg P A x). Qed.
Print Assumptions C81_asin_accuracy.
Theorem C82_acos_accuracy : forall lm dbg x,
  printer lm -> atan2_close lm -> DNorm x -> bpow radix2 (-200) <= Rabs (DV x) -> bpow radix2 (-80) <= 1 - DV x * DV x ->
  exists r, d_acos lm dbg x = Val r /\ DNorm r /\
    Rabs (DV r - acos (DV x)) <= (1472 + 94 / 10 * / sqrt (1 - DV x * DV x)) * bpow radix2 (-106).
Proof. intros lm dbg x P A. exact (d_acos_ok lm dbg P A x). Qed.
Print Assumptions C82_acos_accuracy.

(** a library meeting both contracts *)
Definition with_atan2 (lm : libm) : libm :=
  {| lm_ln := lm_ln lm; lm_exp := lm_exp lm; lm_log10 := lm_log10 lm; lm_log2 := lm_log2 lm;
     lm_atan2 := fun a b => float_near (ratan2 (V a) (V b)); lm_to_string := lm_to_string lm |}.
Lemma with_atan2_ok lm : atan2_close (with_atan2 lm).
Proof.
  intros a b Fa Fb Ha Hb. cbn [with_atan2 lm_atan2]. apply float_near_51.
  assert (P1 := bpow_gt_0 radix2 (-210)). assert (Za : V a <> 0) by (intros Q; rewrite Q, Rabs_R0 in Ha; lra).
  assert (HP := ratan2_polar (V a) (V b) (or_intror Za)). set (t := ratan2 (V a) (V b)) in *. assert (PI < 4) by consts.
  destruct (polar_sqrt _ _ _ HP) as (Hh & E & _). destruct HP as [HP _]. split; [|apply Rabs_le; lra].
  apply Rle_trans with (2 := sin_small t). set (h := sqrt (V b * V b + V a * V a)) in *. assert (HU : h <= bp 211).
  { unfold h. rewrite <- (sqrt_square (bp 211)) by apply bpow_ge_0. apply sqrt_le_1_alt.
    assert (SQ : forall c, Rabs c <= bp 210 -> c * c <= bp 420). { intros c Hc. replace (c * c) with (Rabs c * Rabs c) by (rewrite <- Rabs_mult; apply Rabs_pos_eq, Rle_0_sqr). replace (bp 420) with (bp 210 * bp 210) by (rewrite <- bpow_plus; reflexivity). apply Rmult_le_compat; auto using Rabs_pos. }
    rewrite <- bpow_plus. change (211 + 211)%Z with 422%Z. assert (B : bp 422 = 4 * bp 420) by exact (bp_split 420 2 ltac:(lia)). assert (Q1 := SQ _ (proj2 Ha)). assert (Q2 := SQ _ (proj2 Hb)). assert (P4 := bpow_gt_0 radix2 420). lra. }
  assert (HP0 : 0 < h) by (apply sqrt_lt_R0; exact Hh).
  assert (EA : Rabs (V a) = h * Rabs (sin t)) by (rewrite E at 1; rewrite Rabs_mult, (Rabs_pos_eq h) by lra; reflexivity).
  apply Rmult_le_reg_l with (bp 211); [apply bpow_gt_0|]. apply Rle_trans with (bp (-210)); [rewrite <- bpow_plus; apply bpow_le; lia|].
  apply Rle_trans with (1 := proj1 Ha). rewrite EA. apply Rmult_le_compat_r; [apply Rabs_pos|exact HU].
Qed.
Theorem C79_contracts : forall lm, printer (with_printer (with_atan2 lm)) /\ atan2_close (with_printer (with_atan2 lm)).
Proof. intros lm. split; [apply with_printer_ok|]. exact (with_atan2_ok lm). Qed.
Print Assumptions C79_contracts.

(** the premises hold at (1/2, -3), at 1/2 and at -1/2 *)
Lemma single_case f v : Fin f -> V f = v -> DNorm (mkD f f0) /\ DV (mkD f f0) = v.
Proof. intros F E. destruct (d_single_norm f F) as [N K]. split; [exact N|]. now rewrite K. Qed.
Lemma mid_window v : / 4 <= Rabs v <= 4 -> bpow radix2 (-200) <= Rabs v <= bpow radix2 200.
Proof. intros H. split; [apply Rle_trans with (bp (-2)); [apply bpow_le; lia|change (bp (-2)) with (/ 4); lra]|apply Rle_trans with (bp 2); [change (bp 2) with 4; lra|apply bpow_le; lia]]. Qed.
Example C79_case : forall lm dbg, exists r, d_atan2 (with_printer (with_atan2 lm)) dbg (mkD fhalf f0) (mkD (fofZ (-3)) f0) = Val r /\ Rabs (DV r - (atan (/ 2 / -3) + PI)) <= bpow radix2 (-95).
Proof.
  intros lm dbg. destruct (C79_contracts lm) as [P A]. destruct (single_case fhalf (/ 2) (proj1 fhalf_V') (proj2 fhalf_V')) as [N1 E1].
  destruct (fofZ_exact (-3) ltac:(lia)) as [F3 V3]. destruct (single_case _ _ F3 V3) as [N2 E2].
  destruct (C79_atan2_accuracy _ dbg _ _ P A N1 N2) as (r & K1 & _ & K2 & _); rewrite ?E1, ?E2 in *.
  - apply mid_window. rewrite Rabs_pos_eq; lra.
  - apply mid_window. rewrite Rabs_left; lra.
  - exists r. split; [exact K1|]. unfold ratan2 in K2. destruct (Rlt_dec 0 (-3)); [lra|]. destruct (Rlt_dec (-3) 0); [|lra]. destruct (Rle_dec 0 (/ 2)); [|lra].
    apply Rle_trans with (1 := K2). change (bpow radix2 (-95)) with (/ 39614081257132168796771975168). change (bpow radix2 (-106)) with (/ 81129638414606681695789005144064). lra.
Qed.
Example C81_case : forall lm dbg, exists r s, d_asin (with_printer (with_atan2 lm)) dbg (mkD fhalf f0) = Val r /\ Rabs (DV r - asin (/ 2)) <= bpow radix2 (-95) /\
  d_acos (with_printer (with_atan2 lm)) dbg (mkD fhalf f0) = Val s /\ Rabs (DV s - acos (/ 2)) <= bpow radix2 (-95).
Proof.
  intros lm dbg. destruct (C79_contracts lm) as [P A]. destruct (single_case fhalf (/ 2) (proj1 fhalf_V') (proj2 fhalf_V')) as [N1 E1].
  assert (W := mid_window (/ 2) ltac:(rewrite Rabs_pos_eq; lra)).
  assert (H : bpow radix2 (-80) <= 1 - / 2 * / 2) by (apply Rle_trans with (bp (-1)); [apply bpow_le; lia|change (bp (-1)) with (/ 2); lra]).
  assert (IS : / sqrt (1 - / 2 * / 2) <= 2). { replace 2 with (/ / 2) at 3 by lra. apply Rinv_le_contravar; [lra|]. rewrite <- (sqrt_square (/ 2)) at 1 by lra. apply sqrt_le_1_alt. lra. }
  assert (N : (1472 + 94 / 10 * / sqrt (1 - / 2 * / 2)) * bpow radix2 (-106) <= bpow radix2 (-95)).
  { change (bpow radix2 (-95)) with (/ 39614081257132168796771975168). change (bpow radix2 (-106)) with (/ 81129638414606681695789005144064). lra. }
  destruct (C81_asin_accuracy _ dbg _ P A N1) as (r & K1 & _ & K2 & _); rewrite ?E1 in *; try tauto.
  destruct (C82_acos_accuracy _ dbg _ P A N1) as (s & L1 & _ & L2); rewrite ?E1 in *; try tauto.
  exists r, s. split; [exact K1|]. split; [lra|]. split; [exact L1|lra].
Qed.
