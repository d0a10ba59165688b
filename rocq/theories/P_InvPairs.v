(** * C103: elementary function pairs undo each other

    exp and ln, sin and asin, cos and acos, sinh and asinh, composed as the library computes them, return the
    argument they started from to within a stated number of units in the 106th (Double) or 137th (Quad) place.
    [log_close], [log_tight], [printer], [atan2_close] are the contracts on the f64 functions of C68, C98, C28 and
    C79; a library meeting all of them exists ([C78_contracts], [C79_contracts], [C98_contract]). *)
From Coq Require Import ZArith Reals Lra Lia List Bool.
From Flocq Require Import Core IEEE754.BinarySingleNaN.
From Verif Require Import RN F64 Prim DoubleM QuadM ParseM FromProofs Spec F64Facts SqrtProofs ConstProofs AbsOps Printer AlgM TransM LnThms LogLib AtanMain LibNear QuadSpec QExprSpec QLogSpec Exact P_Ln P_Atan P_Hyper P_QLn QLogThms QuadSpec InvPairs InvPairs2 InvPairs3 Check.
Local Open Scope R_scope.

(** ln (exp x) = x *)
Theorem C103_ln_exp : forall lm dbg x, log_close lm -> DNorm x -> -599 <= DV x <= 599 ->
  exists r, d_ln lm dbg (d_exp x) = Val r /\ DNorm r /\
    Rabs (DV r - DV x) <= (43 * Rabs (DV x) + 985) * bpow radix2 (-106).
Proof. exact d_ln_exp. Qed.
Print Assumptions C103_ln_exp.

(** exp (ln x) = x *)
Theorem C103_exp_ln : forall lm dbg x, log_close lm -> DNorm x -> 0 < DV x -> -599 <= ln (DV x) <= 599 ->
  exists r, d_ln lm dbg x = Val r /\ DNorm (d_exp r) /\
    Rabs (DV (d_exp r) - DV x) <= (43 * Rabs (ln (DV x)) + 985) * bpow radix2 (-106) * DV x.
Proof. exact d_exp_ln. Qed.
Print Assumptions C103_exp_ln.

(** sin (asin x) = x and cos (acos x) = x, with the loss of accuracy of asin and acos near +-1 *)
Theorem C103_sin_asin : forall lm dbg x, printer lm -> atan2_close lm -> DNorm x ->
  bpow radix2 (-200) <= Rabs (DV x) -> bpow radix2 (-80) <= 1 - DV x * DV x ->
  exists r s, d_asin lm dbg x = Val r /\ d_sin lm dbg r = Val s /\ DNorm s /\
    Rabs (DV s - DV x) <= (1978 + 94 / 10 * / sqrt (1 - DV x * DV x)) * bpow radix2 (-106).
Proof. exact d_sin_asin. Qed.
Print Assumptions C103_sin_asin.
Theorem C103_cos_acos : forall lm dbg x, printer lm -> atan2_close lm -> DNorm x ->
  bpow radix2 (-200) <= Rabs (DV x) -> bpow radix2 (-80) <= 1 - DV x * DV x ->
  exists r c, d_acos lm dbg x = Val r /\ d_cos lm dbg r = Val c /\ DNorm c /\
    Rabs (DV c - DV x) <= (2001 + 94 / 10 * / sqrt (1 - DV x * DV x)) * bpow radix2 (-106).
Proof. exact d_cos_acos. Qed.
Print Assumptions C103_cos_acos.

(** sinh (asinh x) = x for positive x *)
Theorem C103_sinh_asinh : forall lm dbg x, printer lm -> log_close lm -> DNorm x -> 0 < DV x <= bpow radix2 99 ->
  exists r s, d_asinh lm dbg x = Val r /\ d_sinh lm dbg r = Val s /\ DNorm s /\
    Rabs (DV s - DV x) <= (43 * arcsinh (DV x) + 1060) * bpow radix2 (-106) * sqrt (1 + DV x * DV x).
Proof. exact d_sinh_asinh. Qed.
Print Assumptions C103_sinh_asinh.

(** tanh (atanh x) = x and cosh (acosh x) = x; y is the real inverse *)
Theorem C103_tanh_atanh : forall lm dbg x y, printer lm -> log_close lm -> DNorm x ->
  bpow radix2 (-90) <= Rabs (DV x) -> bpow radix2 (-800) <= 1 - Rabs (DV x) -> tanh y = DV x -> Rabs y <= 599 ->
  exists r t, d_atanh lm dbg x = Val r /\ d_tanh lm dbg r = Val t /\ DNorm t /\
    Rabs (DV t - DV x) <= (28 * Rabs y + 867) * bpow radix2 (-106).
Proof. exact d_tanh_atanh. Qed.
Print Assumptions C103_tanh_atanh.
Theorem C103_cosh_acosh : forall lm dbg x y, printer lm -> log_close lm -> DNorm x ->
  1 + bpow radix2 (-80) <= DV x <= bpow radix2 99 -> 0 <= y -> cosh y = DV x ->
  exists r, d_acosh lm dbg x = Val r /\ DNorm (d_cosh r) /\
    Rabs (DV (d_cosh r) - DV x) <= (43 * y + 1033 + 6 * (cosh y / sinh y)) * bpow radix2 (-106) * DV x.
Proof. exact d_cosh_acosh. Qed.
Print Assumptions C103_cosh_acosh.

(** sqr (sqrt x) = x and sqrt (sqr x) = |x| *)
Theorem C103_sqr_sqrt : forall lm dbg x, printer lm -> DNorm x -> bpow radix2 (-700) <= DV x <= bpow radix2 700 ->
  exists r, d_sqrt lm dbg x = Val r /\ DNorm (d_sqr r) /\ Rabs (DV (d_sqr r) - DV x) <= 74 * bpow radix2 (-106) * DV x.
Proof. exact d_sqr_sqrt. Qed.
Print Assumptions C103_sqr_sqrt.
Theorem C103_sqrt_sqr : forall lm dbg x, printer lm -> DNorm x -> bpow radix2 (-350) <= Rabs (DV x) <= bpow radix2 350 ->
  exists r, d_sqrt lm dbg (d_sqr x) = Val r /\ DNorm r /\ Rabs (DV r - Rabs (DV x)) <= 42 * bpow radix2 (-106) * Rabs (DV x).
Proof. exact d_sqrt_sqr. Qed.
Print Assumptions C103_sqrt_sqr.

(** Quads: ln (exp x) = x and exp (ln x) = x, away from the points excluded in C97 and C98 *)
Theorem C103_quad_ln_exp : forall lm dbg x, log_tight lm -> QNorm x \/ QNormW x ->
  Rabs (QV x) <= 339 -> bpow radix2 (-15) <= Rabs (QV x) -> bpow radix2 (-19) <= Rabs (QV x + 1) ->
  (forall k : Z, k <> 0%Z -> bpow radix2 (-26) * Rabs (QV x) <= Rabs (QV x - IZR k * ln 2)) ->
  exists r, q_ln lm dbg (q_exp x) = Val r /\ QFin r /\
    Rabs (QV r - QV x) <= (82 / 10 * Rabs (QV x) + 128) * bpow radix2 (-137).
Proof. intros lm dbg x C N H1 H2 H3 H4. exact (q_ln_exp lm dbg x C N (conj H1 (conj H2 (conj H3 H4)))). Qed.
Print Assumptions C103_quad_ln_exp.
Theorem C103_quad_exp_ln : forall lm dbg x, log_tight lm -> QNorm x \/ QNormW x -> 0 < QV x -> plain_log (ln (QV x)) ->
  exists r, q_ln lm dbg x = Val r /\ QTame (q_exp r) /\
    Rabs (QV (q_exp r) - QV x) <= (82 / 10 * Rabs (ln (QV x)) + 128) * bpow radix2 (-137) * QV x.
Proof. exact q_exp_ln. Qed.
Print Assumptions C103_quad_exp_ln.

(** concrete cases: the premises hold at 7 for every logarithmic pair, and at 1/2 for asin and acos *)
Definition w_d7 : Double := mkD (fofZ 7) f0.
Lemma w_d7_ok : DNorm w_d7 /\ DV w_d7 = 7.
Proof. destruct (fofZ_exact 7 ltac:(lia)) as [F E]. destruct (d_single_norm (fofZ 7) F) as [N EV]. rewrite E in EV. split; assumption. Qed.
Lemma C103_b96 : 1500 * bpow radix2 (-106) <= bpow radix2 (-95).
Proof. change (-95)%Z with (11 + -106)%Z. rewrite bpow_plus. apply Rmult_le_compat_r; [apply bpow_ge_0|cbn; lra]. Qed.
Example C103_seven : forall lm dbg, exists r s, d_ln (with_logs lm) dbg (d_exp w_d7) = Val r /\ Rabs (DV r - 7) <= bpow radix2 (-95) /\
  d_ln (with_logs lm) dbg w_d7 = Val s /\ Rabs (DV (d_exp s) - 7) <= 7 * bpow radix2 (-95).
Proof.
  intros. destruct w_d7_ok as [N E]. assert (B := C103_b96). assert (L7 := ln7). destruct ExpThms.ln2_lo as (_ & _ & _ & _ & _ & B2). assert (P := bpow_gt_0 radix2 (-106)).
  destruct (C103_ln_exp (with_logs lm) dbg w_d7 (C68_contract lm) N) as (r & R1 & _ & R2); [rewrite E; lra|].
  destruct (C103_exp_ln (with_logs lm) dbg w_d7 (C68_contract lm) N) as (s & S1 & _ & S2); [rewrite E; lra|rewrite E; lra|].
  rewrite E in *. exists r, s. split; [exact R1|]. split; [rewrite (Rabs_pos_eq 7) in R2 by lra; lra|]. split; [exact S1|].
  rewrite (Rabs_pos_eq (ln 7)) in S2 by lra. apply Rle_trans with (1 := S2). rewrite (Rmult_comm _ 7). apply Rmult_le_compat_l; [lra|]. apply Rle_trans with (2 := B). apply Rmult_le_compat_r; lra.
Qed.
Print Assumptions C103_seven.
Example C103_sinh_seven : forall lm dbg, exists r s, d_asinh (with_printer (with_logs lm)) dbg w_d7 = Val r /\
  d_sinh (with_printer (with_logs lm)) dbg r = Val s /\ Rabs (DV s - 7) <= bpow radix2 (-90).
Proof.
  intros. destruct w_d7_ok as [N E]. assert (B99 : 7 <= bpow radix2 99) by (apply Rle_trans with (bpow radix2 3); [cbn; lra|apply bpow_le; lia]).
  destruct (C78_contracts lm) as [C1 C2]. destruct (C103_sinh_asinh (with_printer (with_logs lm)) dbg w_d7 C1 C2 N) as (r & s & R1 & R2 & _ & R3); rewrite E in *; [lra|].
  exists r, s. split; [exact R1|]. split; [exact R2|]. apply Rle_trans with (1 := R3). destruct (arcsinh_range 7 ltac:(lra)) as [A1 A2]. assert (P := bpow_gt_0 radix2 (-106)).
  assert (S8 : sqrt (1 + 7 * 7) <= 8). { rewrite <- (sqrt_Rsqr 8) by lra. apply sqrt_le_1; unfold Rsqr; lra. } assert (S0 := sqrt_pos (1 + 7 * 7)).
  change (-90)%Z with (16 + -106)%Z. rewrite bpow_plus. change (bpow radix2 16) with 65536. rewrite Rmult_assoc, (Rmult_comm (bpow radix2 (-106))), <- Rmult_assoc. apply Rmult_le_compat_r; [lra|].
  apply Rle_trans with ((43 * 101 + 1060) * 8); [apply Rmult_le_compat; lra|lra].
Qed.
Print Assumptions C103_sinh_seven.
Example C103_quad_seven : forall lm dbg, exists r s, q_ln (with_tight lm) dbg (q_exp w_seven) = Val r /\ Rabs (QV r - 7) <= bpow radix2 (-129) /\
  q_ln (with_tight lm) dbg w_seven = Val s /\ Rabs (QV (q_exp s) - 7) <= 7 * bpow radix2 (-129).
Proof.
  intros. destruct w_seven_ok as [N E]. assert (L7 := ln7). destruct ExpThms.ln2_lo as (_ & _ & _ & _ & _ & B2). assert (P := bpow_gt_0 radix2 (-137)).
  assert (B : 256 * bpow radix2 (-137) = bpow radix2 (-129)) by (symmetry; change (-129)%Z with (8 + -137)%Z; rewrite bpow_plus; reflexivity).
  destruct (C103_quad_ln_exp (with_tight lm) dbg w_seven (C98_contract lm) (or_introl N)) as (r & R1 & _ & R2); rewrite ?E in *; rewrite ?(Rabs_pos_eq 7) in * by lra; try lra.
  - change (bpow radix2 (-15)) with (/ 32768). lra.
  - rewrite Rabs_pos_eq by lra. change (bpow radix2 (-19)) with (/ 524288). lra.
  - intros k _. change (bpow radix2 (-26)) with (/ 67108864). assert (K := ln2_gap 7 10 (/ 32) ltac:(lra) ltac:(lra) k). lra.
  - destruct (C103_quad_exp_ln (with_tight lm) dbg w_seven (C98_contract lm) (or_introl N)) as (s & S1 & _ & S2); rewrite ?E in *; [lra|apply plain7|].
    exists r, s. split; [exact R1|]. split; [rewrite <- B; apply Rle_trans with (1 := R2); apply Rmult_le_compat_r; lra|]. split; [exact S1|].
    rewrite (Rabs_pos_eq (ln 7)) in S2 by lra. rewrite <- B. apply Rle_trans with (1 := S2). rewrite (Rmult_comm _ 7). apply Rmult_le_compat_l; [lra|]. apply Rmult_le_compat_r; lra.
Qed.
Print Assumptions C103_quad_seven.
Example C103_half : forall lm dbg, exists r s a c, d_asin (with_printer (with_atan2 lm)) dbg (mkD fhalf f0) = Val r /\
  d_sin (with_printer (with_atan2 lm)) dbg r = Val s /\ Rabs (DV s - / 2) <= bpow radix2 (-94) /\
  d_acos (with_printer (with_atan2 lm)) dbg (mkD fhalf f0) = Val a /\ d_cos (with_printer (with_atan2 lm)) dbg a = Val c /\ Rabs (DV c - / 2) <= bpow radix2 (-94).
Proof.
  intros lm dbg. destruct (C79_contracts lm) as [P A]. destruct (single_case fhalf (/ 2) (proj1 fhalf_V') (proj2 fhalf_V')) as [N1 E1].
  assert (W := mid_window (/ 2) ltac:(rewrite Rabs_pos_eq; lra)).
  assert (H : bpow radix2 (-80) <= 1 - / 2 * / 2) by (apply Rle_trans with (bpow radix2 (-1)); [apply bpow_le; lia|change (bpow radix2 (-1)) with (/ 2); lra]).
  assert (IS : / sqrt (1 - / 2 * / 2) <= 2). { replace 2 with (/ / 2) at 3 by lra. apply Rinv_le_contravar; [lra|]. rewrite <- (sqrt_square (/ 2)) at 1 by lra. apply sqrt_le_1_alt. lra. }
  assert (Q := bpow_gt_0 radix2 (-106)). assert (B : 4096 * bpow radix2 (-106) = bpow radix2 (-94)) by (symmetry; change (-94)%Z with (12 + -106)%Z; rewrite bpow_plus; reflexivity).
  destruct (C103_sin_asin _ dbg _ P A N1) as (r & s & K1 & K2 & _ & K3); rewrite ?E1 in *; try tauto.
  destruct (C103_cos_acos _ dbg _ P A N1) as (a & c & L1 & L2 & _ & L3); rewrite ?E1 in *; try tauto.
  exists r, s, a, c. split; [exact K1|]. split; [exact K2|]. rewrite <- B. split; [apply Rle_trans with (1 := K3); apply Rmult_le_compat_r; lra|].
  split; [exact L1|]. split; [exact L2|]. apply Rle_trans with (1 := L3). apply Rmult_le_compat_r; lra.
Qed.
Print Assumptions C103_half.
(** 1/2 = tanh (ln 3 / 2) and 7 = cosh (asinh (sqrt 48)) *)
Example C103_tanh_half : forall lm dbg, exists r t, d_atanh (with_printer (with_logs lm)) dbg (mkD fhalf f0) = Val r /\
  d_tanh (with_printer (with_logs lm)) dbg r = Val t /\ Rabs (DV t - / 2) <= bpow radix2 (-96).
Proof.
  intros. destruct (single_case fhalf (/ 2) (proj1 fhalf_V') (proj2 fhalf_V')) as [N E]. destruct (C78_contracts lm) as [C1 C2]. assert (Q := bpow_gt_0 radix2 (-106)).
  assert (T : tanh (ln 3 / 2) = / 2).
  { assert (K : exp (ln 3 / 2) * exp (ln 3 / 2) = 3) by (rewrite <- exp_plus; replace (ln 3 / 2 + ln 3 / 2) with (ln 3) by field; apply exp_ln; lra).
    assert (K2 : exp (ln 3 / 2) * exp (- (ln 3 / 2)) = 1) by (rewrite <- exp_plus, Rplus_opp_r; apply exp_0). assert (P := exp_pos (ln 3 / 2)). assert (P2 := exp_pos (- (ln 3 / 2))).
    assert (K3 : exp (ln 3 / 2) = 3 * exp (- (ln 3 / 2))). { apply Rmult_eq_reg_l with (exp (ln 3 / 2)); [|lra]. rewrite K. replace (exp (ln 3 / 2) * (3 * exp (- (ln 3 / 2)))) with (3 * (exp (ln 3 / 2) * exp (- (ln 3 / 2)))) by ring. rewrite K2. ring. }
    unfold tanh, sinh, cosh. rewrite K3. field. lra. }
  assert (B3 : 0 <= ln 3 <= 2). { split; [rewrite <- ln_1; apply Rlt_le, ln_increasing; lra|]. rewrite <- (ln_exp 2). apply Rlt_le, ln_increasing; [lra|]. apply Rle_lt_trans with (1 + 2); [lra|apply exp_ineq1; lra]. }
  destruct (C103_tanh_atanh (with_printer (with_logs lm)) dbg _ (ln 3 / 2) C1 C2 N) as (r & t & R1 & R2 & _ & R3); rewrite ?E in *; rewrite ?(Rabs_pos_eq (/ 2)), ?(Rabs_pos_eq (ln 3 / 2)) in * by lra.
  - apply Rle_trans with (bpow radix2 (-1)); [apply bpow_le; lia|cbn; lra].
  - apply Rle_trans with (bpow radix2 (-1)); [apply bpow_le; lia|cbn; lra].
  - exact T.
  - lra.
  - exists r, t. split; [exact R1|]. split; [exact R2|]. apply Rle_trans with (1 := R3). change (-96)%Z with (10 + -106)%Z. rewrite bpow_plus. apply Rmult_le_compat_r; [lra|]. change (bpow radix2 10) with 1024. lra.
Qed.
Print Assumptions C103_tanh_half.
Example C103_cosh_case : DNorm w_d7 /\ 1 + bpow radix2 (-80) <= DV w_d7 <= bpow radix2 99 /\ 0 <= arcsinh (sqrt 48) /\ cosh (arcsinh (sqrt 48)) = DV w_d7.
Proof.
  destruct w_d7_ok as [N E]. rewrite E. split; [exact N|]. split.
  - split; [apply Rle_trans with (1 + bpow radix2 0); [apply Rplus_le_compat_l, bpow_le; lia|cbn; lra]|apply Rle_trans with (bpow radix2 3); [cbn; lra|apply bpow_le; lia]].
  - split; [rewrite <- arcsinh_0; apply Rlt_le, arcsinh_lt, sqrt_lt_R0; lra|]. rewrite cosh_arcsinh, sqrt_sqrt by lra. replace (1 + 48) with (7 * 7) by ring. apply sqrt_square. lra.
Qed.
Print Assumptions C103_cosh_case.
Example C103_sqrt_seven : forall lm dbg, exists r s, d_sqrt (with_printer lm) dbg w_d7 = Val r /\ Rabs (DV (d_sqr r) - 7) <= 74 * bpow radix2 (-106) * 7 /\
  d_sqrt (with_printer lm) dbg (d_sqr w_d7) = Val s /\ Rabs (DV s - 7) <= 42 * bpow radix2 (-106) * 7.
Proof.
  intros. destruct w_d7_ok as [N E].
  assert (L : forall k, (0 <= k)%Z -> bpow radix2 (- k) <= 7) by (intros k Hk; apply Rle_trans with (bpow radix2 0); [apply bpow_le; lia|cbn; lra]).
  assert (U : forall k, (3 <= k)%Z -> 7 <= bpow radix2 k) by (intros k Hk; apply Rle_trans with (bpow radix2 3); [cbn; lra|apply bpow_le; lia]).
  destruct (C103_sqr_sqrt (with_printer lm) dbg w_d7 (with_printer_ok lm) N) as (r & R1 & _ & R2); [rewrite E; split; [apply (L 700%Z); lia|apply U; lia]|].
  destruct (C103_sqrt_sqr (with_printer lm) dbg w_d7 (with_printer_ok lm) N) as (s & S1 & _ & S2); [rewrite E, Rabs_pos_eq by lra; split; [apply (L 350%Z); lia|apply U; lia]|].
  rewrite E in *. rewrite (Rabs_pos_eq 7) in S2 by lra. exists r, s. tauto.
Qed.
Print Assumptions C103_sqrt_seven.
