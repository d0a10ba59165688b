(** * C75 - C78: accuracy of the Double hyperbolic functions

    [sinh], [cosh], [tanh] and [arcsinh] are the standard library's real functions;
    the real acosh and atanh are given by the equations they solve.  [printer lm] is
    the contract on f64 printing of C28 (used where a square root is taken), [log_close lm]
    the contract on f64::ln of C68; both are shown satisfiable there, and together below. *)
From Coq Require Import ZArith Reals Lra Lia List Bool.
From Flocq Require Import Core IEEE754.BinarySingleNaN.
From Verif Require Import RN F64 Prim DoubleM Spec F64Facts ParseM FromProofs SqrtProofs Printer AlgM TransM ConstProofs LnThms LogLib HypProofs HypThms HypMore HypInv SinhTiny Check.
Local Open Scope R_scope.

(** cosh: relative error (15.1 |x| + 505) 2^-106 *)
Theorem C75_cosh_accuracy : forall x,
  DNorm x -> DV x <> 0 -> Rabs (DV x) <= 600 ->
  DNorm (d_cosh x) /\ Rabs (DV (d_cosh x) - cosh (DV x)) <= (151 / 10 * Rabs (DV x) + 505) * bpow radix2 (-106) * cosh (DV x).
Proof.
  intros x N Z H. destruct (d_cosh_ok x N Z H) as [K1 K2]. split; [exact K1|]. destruct (cosh_ge (DV x)) as (C & _). rewrite (Rabs_pos_eq (cosh _)) in K2 by lra. exact K2.
Qed.
Print Assumptions C75_cosh_accuracy.

(** sinh: never panics (the Taylor loop stops), and its error is at most
    (15.1 |x| + 505) 2^-106 cosh x; relative to the result for |x| <= 0.049 *)
Theorem C76_sinh_accuracy : forall lm dbg x,
  DNorm x -> Rabs (DV x) <= 600 ->
  exists r, d_sinh lm dbg x = Val r /\ DNorm r /\
    Rabs (DV r - sinh (DV x)) <= (151 / 10 * Rabs (DV x) + 505) * bpow radix2 (-106) * cosh (DV x).
Proof. exact d_sinh_all. Qed.
Print Assumptions C76_sinh_accuracy.
Theorem C76_sinh_small : forall lm dbg x,
  DNorm x -> Rabs (DV x) <= 49 / 1000 ->
  exists r, d_sinh lm dbg x = Val r /\ DNorm r /\
    Rabs (DV r - sinh (DV x)) <= 65 * bpow radix2 (-106) * Rabs (sinh (DV x)).
Proof. exact d_sinh_small_all. Qed.
Print Assumptions C76_sinh_small.
Theorem C76_sinh_cosh_accuracy : forall lm dbg x,
  printer lm -> DNorm x -> Rabs (DV x) <= 600 ->
  exists s c, d_sinh_cosh lm dbg x = Val (s, c) /\ DNorm s /\ DNorm c /\
    Rabs (DV s - sinh (DV x)) <= (151 / 10 * Rabs (DV x) + 505) * bpow radix2 (-106) * cosh (DV x) /\
    Rabs (DV c - cosh (DV x)) <= (151 / 10 * Rabs (DV x) + 505) * bpow radix2 (-106) * cosh (DV x).
Proof. exact d_sinh_cosh_all. Qed.
Print Assumptions C76_sinh_cosh_accuracy.

(** C48: sinh of every normalized Double returns a value - the Taylor loop always stops *)
Theorem C48_double_sinh_returns : forall lm dbg x, DNorm x -> exists r, d_sinh lm dbg x = Val r.
Proof. exact d_sinh_total. Qed.
Print Assumptions C48_double_sinh_returns.

(** tanh: absolute error 600 * 2^-106 over the whole range, relative error 118 * 2^-106 near zero *)
Theorem C77_tanh_accuracy : forall lm dbg x,
  printer lm -> DNorm x -> Rabs (DV x) <= 600 ->
  exists r, d_tanh lm dbg x = Val r /\ DNorm r /\
    Rabs (DV r - tanh (DV x)) <= 600 * bpow radix2 (-106) /\
    (bpow radix2 (-200) <= Rabs (DV x) <= 49 / 1000 -> Rabs (DV r - tanh (DV x)) <= 118 * bpow radix2 (-106) * Rabs (tanh (DV x))).
Proof.
  intros lm dbg x P N H. destruct (d_tanh_all lm dbg x P N H) as (r & K1 & K2 & K3). exists r. split; [exact K1|]. split; [exact K2|]. split; [exact K3|].
  intros [L U]. destruct (d_tanh_ok lm dbg x P N (conj L H)) as (r' & J1 & _ & _ & J2). rewrite K1 in J1. injection J1 as <-. exact (J2 U).
Qed.
Print Assumptions C77_tanh_accuracy.

(** asinh of a positive argument; of a negative one the error grows with x^2 (the
    code computes x + sqrt(x^2 + 1) there, which cancels) *)
Theorem C78_asinh_accuracy : forall lm dbg x,
  printer lm -> log_close lm -> DNorm x -> 0 < DV x <= bpow radix2 99 ->
  exists r, d_asinh lm dbg x = Val r /\ DNorm r /\
    Rabs (DV r - arcsinh (DV x)) <= (272 / 10 * Rabs (arcsinh (DV x)) + 548) * bpow radix2 (-106).
Proof. intros lm dbg x P L. exact (d_asinh_pos lm dbg P L x). Qed.
Print Assumptions C78_asinh_accuracy.
Theorem C78_asinh_negative : forall lm dbg x,
  printer lm -> log_close lm -> DNorm x -> - bpow radix2 40 <= DV x < 0 ->
  exists r, d_asinh lm dbg x = Val r /\ DNorm r /\
    Rabs (DV r - arcsinh (DV x)) <= (272 / 10 * Rabs (arcsinh (DV x)) + 507 + 81 * (1 + DV x * DV x)) * bpow radix2 (-106).
Proof. intros lm dbg x P L. exact (d_asinh_neg lm dbg P L x). Qed.
Print Assumptions C78_asinh_negative.
Theorem C78_acosh_accuracy : forall lm dbg x y,
  printer lm -> log_close lm -> DNorm x -> 1 + bpow radix2 (-80) <= DV x <= bpow radix2 99 ->
  0 <= y -> cosh y = DV x ->
  exists r, d_acosh lm dbg x = Val r /\ DNorm r /\
    Rabs (DV r - y) <= (272 / 10 * y + 525 + 5 * (cosh y / sinh y)) * bpow radix2 (-106).
Proof. intros lm dbg x y P L. exact (d_acosh_ok lm dbg P L x y). Qed.
Print Assumptions C78_acosh_accuracy.
Theorem C78_atanh_accuracy : forall lm dbg x y,
  log_close lm -> DNorm x -> bpow radix2 (-90) <= Rabs (DV x) -> bpow radix2 (-800) <= 1 - Rabs (DV x) ->
  tanh y = DV x ->
  exists r, d_atanh lm dbg x = Val r /\ DNorm r /\
    Rabs (DV r - y) <= (272 / 10 * Rabs y + 265) * bpow radix2 (-106).
Proof. intros lm dbg x y L. exact (d_atanh_ok lm dbg L x y). Qed.
Print Assumptions C78_atanh_accuracy.

(** a library meeting both contracts *)
Theorem C78_contracts : forall lm, printer (with_printer (with_logs lm)) /\ log_close (with_printer (with_logs lm)).
Proof. intros lm. split; [apply with_printer_ok|]. exact (proj1 (with_logs_ok lm)). Qed.
Print Assumptions C78_contracts.

(** the premises hold at 1/2 and 3: sinh(1/2) and tanh(1/2) to 2^-96, acosh(3) to 2^-96 *)
Lemma half_case : DNorm (mkD fhalf f0) /\ DV (mkD fhalf f0) = / 2.
Proof.
  assert (F : Fin fhalf) by (vm_compute; reflexivity). destruct (d_single_norm fhalf F) as [N E]. split; [exact N|]. rewrite E. exact (proj2 AbsOps.fhalf_V').
Qed.
Example C77_half : forall lm dbg, exists r, d_tanh (with_printer lm) dbg (mkD fhalf f0) = Val r /\ Rabs (DV r - tanh (/ 2)) <= bpow radix2 (-96).
Proof.
  intros. destruct half_case as [N E]. destruct (C77_tanh_accuracy (with_printer lm) dbg _ (with_printer_ok lm) N) as (r & K1 & _ & K2 & _); rewrite E in *.
  - rewrite Rabs_pos_eq by lra. lra.
  - exists r. split; [exact K1|]. apply Rle_trans with (1 := K2). change (bpow radix2 (-96)) with (/ 79228162514264337593543950336). change (bpow radix2 (-106)) with (/ 81129638414606681695789005144064). lra.
Qed.
Example C78_atanh_half : forall lm dbg, exists y r, tanh y = / 2 /\ d_atanh (with_logs lm) dbg (mkD fhalf f0) = Val r /\ Rabs (DV r - y) <= bpow radix2 (-97).
Proof.
  intros. destruct half_case as [N E]. set (y := ln 3 / 2).
  assert (T : tanh y = / 2).
  { unfold y, tanh, sinh, cosh. set (w := exp (ln 3 / 2)). assert (W : w * w = 3) by (unfold w; rewrite <- exp_plus; replace (ln 3 / 2 + ln 3 / 2) with (ln 3) by field; apply exp_ln; lra).
    assert (PW : 0 < w) by apply exp_pos. set (v := exp (- (ln 3 / 2))). assert (WV : w * v = 1) by (unfold w, v; rewrite <- exp_plus, Rplus_opp_r; apply exp_0). assert (PV : 0 < v) by apply exp_pos.
    assert (VW : v = w / 3) by (apply Rmult_eq_reg_l with w; [rewrite WV; unfold Rdiv; rewrite <- Rmult_assoc, W; lra|lra]). clearbody v w. rewrite VW. field. lra. }
  assert (YB : 0 <= y <= 1). { assert (0 < ln 3) by (rewrite <- ln_1; apply ln_increasing; lra). assert (ln 3 < ln 4) by (apply ln_increasing; lra). replace 4 with (2 * 2) in H0 by ring. rewrite ln_mult in H0 by lra. assert (ln 2 < 1) by consts. unfold y. lra. }
  destruct (C78_atanh_accuracy (with_logs lm) dbg _ y (proj1 (with_logs_ok lm)) N) as (r & K1 & _ & K2); rewrite ?E in *.
  - rewrite Rabs_pos_eq by lra. apply Rle_trans with (bpow radix2 (-1)); [apply bpow_le; lia|cbn; lra].
  - rewrite Rabs_pos_eq by lra. apply Rle_trans with (bpow radix2 (-1)); [apply bpow_le; lia|cbn; lra].
  - exact T.
  - exists y, r. split; [exact T|]. split; [exact K1|]. apply Rle_trans with (1 := K2). rewrite Rabs_pos_eq by lra.
    change (bpow radix2 (-97)) with (/ 158456325028528675187087900672). change (bpow radix2 (-106)) with (/ 81129638414606681695789005144064). lra.
Qed.
Example C78_asinh_three : forall lm dbg, exists r, d_asinh (with_printer (with_logs lm)) dbg (mkD (fofZ 3) f0) = Val r /\ Rabs (DV r - arcsinh 3) <= bpow radix2 (-95).
Proof.
  intros. destruct (fofZ_exact 3 ltac:(lia)) as [F E]. destruct (d_single_norm (fofZ 3) F) as [N EV]. rewrite E in EV. destruct (C78_contracts lm) as [P L].
  destruct (C78_asinh_accuracy _ dbg _ P L N) as (r & K1 & _ & K2); rewrite EV in *.
  - split; [lra|]. apply Rle_trans with (bpow radix2 2); [cbn; lra|apply bpow_le; lia].
  - exists r. split; [exact K1|]. apply Rle_trans with (1 := K2).
    assert (B : 0 <= arcsinh 3 <= 8). { split; [rewrite <- arcsinh_0; left; apply arcsinh_lt; lra|]. unfold arcsinh. replace (3 ^ 2 + 1) with 10 by ring. assert (S0 : 0 <= sqrt 10 <= 4) by (split; [apply sqrt_pos|rewrite <- (sqrt_square 4) by lra; apply sqrt_le_1_alt; lra]).
      apply Rle_trans with (3 + sqrt 10); [|lra]. replace (3 + sqrt 10) with (1 + (2 + sqrt 10)) at 1 by ring. apply Rle_trans with (2 + sqrt 10); [apply ln_le1; lra|lra]. }
    rewrite Rabs_pos_eq by lra. change (bpow radix2 (-95)) with (/ 39614081257132168796771975168). change (bpow radix2 (-106)) with (/ 81129638414606681695789005144064). lra.
Qed.
