(** * C68, C69, C70: accuracy of the Double logarithms and of powf

    [log_close lm] says what is used of f64's own functions: f64::ln of a
    positive f64 within 2^-40 of the real logarithm, f64::log2 of a value up to
    1024 at most 10. *)
From Coq Require Import ZArith Reals Lra Lia List Bool.
From Flocq Require Import Core IEEE754.BinarySingleNaN.
From Verif Require Import RN F64 Prim DoubleM Spec F64Facts DDivProofs SqrtProofs BaseConst ConstProofs AlgM TransM ExpThms LnThms LogLib Check.
Local Open Scope R_scope.

(** the natural logarithm: canonical, and within (27.2 |ln x| + 500) 2^-106 of
    the real one (absolute error: near 1 the relative error is not bounded) *)
Theorem C68_ln_accuracy : forall lm dbg x,
  log_close lm -> DNorm x -> 0 < DV x -> -7079 / 10 <= ln (DV x) <= 5999 / 10 ->
  exists r, d_ln lm dbg x = Val r /\ DNorm r /\
    Rabs (DV r - ln (DV x)) <= (272 / 10 * Rabs (ln (DV x)) + 500) * bpow radix2 (-106).
Proof. exact d_ln_ok. Qed.
Print Assumptions C68_ln_accuracy.

(** some library meets the contract *)
Theorem C68_contract : forall lm, log_close (with_logs lm).
Proof. intros lm. apply with_logs_ok. Qed.
Print Assumptions C68_contract.

(** ln 7 to 2^-96 *)
Example C68_seven : forall lm dbg, exists r, d_ln (with_logs lm) dbg (mkD (fofZ 7) f0) = Val r /\ Rabs (DV r - ln 7) <= bpow radix2 (-96).
Proof.
  intros. destruct (fofZ_exact 7 ltac:(lia)) as [F E]. destruct (d_single_norm (fofZ 7) F) as [N EV]. rewrite E in EV.
  assert (B : 0 < ln 7 < 3).
  { split; [rewrite <- ln_1; apply ln_increasing; lra|]. apply Rlt_trans with (ln 10); [apply ln_increasing; lra|consts]. }
  destruct (C68_ln_accuracy (with_logs lm) dbg _ (C68_contract lm) N) as (r & K1 & _ & K2); rewrite EV in *; [lra|lra|].
  exists r. split; [exact K1|]. apply Rle_trans with (1 := K2). rewrite Rabs_pos_eq by lra.
  change (bpow radix2 (-96)) with (/ 79228162514264337593543950336). change (bpow radix2 (-106)) with (/ 81129638414606681695789005144064). lra.
Qed.

(** log10, log2 and log, for arguments that are 1 or whose logarithm is at least 2^-80 *)
Theorem C69_log10_accuracy : forall lm dbg x,
  log_close lm -> DNorm x -> 0 < DV x -> -7079 / 10 <= ln (DV x) <= 5999 / 10 -> (DV x = 1 \/ bpow radix2 (-80) <= Rabs (ln (DV x))) ->
  exists r, d_log10 lm dbg x = Val r /\ DNorm r /\
    Rabs (DV r - ln (DV x) / ln 10) <= (52 * Rabs (ln (DV x)) + 501) * bpow radix2 (-106) / ln 10.
Proof. exact d_log10_ok. Qed.
Print Assumptions C69_log10_accuracy.
Theorem C69_log2_accuracy : forall lm dbg x,
  log_close lm -> DNorm x -> 0 < DV x -> -7079 / 10 <= ln (DV x) <= 5999 / 10 -> (DV x = 1 \/ bpow radix2 (-80) <= Rabs (ln (DV x))) ->
  exists r, d_log2 lm dbg x = Val r /\ DNorm r /\
    Rabs (DV r - ln (DV x) / ln 2) <= (52 * Rabs (ln (DV x)) + 501) * bpow radix2 (-106) / ln 2.
Proof. exact d_log2_ok. Qed.
Print Assumptions C69_log2_accuracy.
(** any base with |ln b| >= 2^-30 *)
Theorem C69_log_accuracy : forall lm dbg x b,
  log_close lm -> DNorm x -> 0 < DV x -> -7079 / 10 <= ln (DV x) <= 5999 / 10 -> (DV x = 1 \/ bpow radix2 (-80) <= Rabs (ln (DV x))) ->
  DNorm b -> 0 < DV b -> -7079 / 10 <= ln (DV b) <= 5999 / 10 -> bpow radix2 (-30) <= Rabs (ln (DV b)) ->
  exists r, d_log lm dbg x b = Val r /\ DNorm r /\
    Rabs (DV r - ln (DV x) / ln (DV b)) <= ((100 + 1000 / Rabs (ln (DV b))) * Rabs (ln (DV x)) + 501) * bpow radix2 (-106) / Rabs (ln (DV b)).
Proof. exact d_log_ok. Qed.
Print Assumptions C69_log_accuracy.

(** 2.log(10) really is close to log10 2 *)
Example C69_two : forall lm dbg, exists r, d_log10 (with_logs lm) dbg (mkD (fofZ 2) f0) = Val r /\ Rabs (DV r - ln 2 / ln 10) <= bpow radix2 (-97).
Proof.
  intros. destruct (fofZ_exact 2 ltac:(lia)) as [F E]. destruct (d_single_norm (fofZ 2) F) as [N EV]. rewrite E in EV.
  assert (B : 6931 / 10000 <= ln 2 <= 6932 / 10000) by (split; consts). assert (B10 : 23 / 10 <= ln 10 <= 24 / 10) by (split; consts).
  destruct (C69_log10_accuracy (with_logs lm) dbg _ (C68_contract lm) N) as (r & K1 & _ & K2); rewrite EV in *; [lra|lra| |].
  - right. rewrite Rabs_pos_eq by lra. change (bpow radix2 (-80)) with (/ 1208925819614629174706176). lra.
  - exists r. split; [exact K1|]. apply Rle_trans with (1 := K2). rewrite Rabs_pos_eq by lra.
    change (bpow radix2 (-97)) with (/ 158456325028528675187087900672). change (bpow radix2 (-106)) with (/ 81129638414606681695789005144064).
    assert (I : 0 < / ln 10 <= 10 / 23). { split; [apply Rinv_0_lt_compat; lra|]. replace (10 / 23) with (/ (23 / 10)) by lra. apply Rinv_le_contravar; lra. }
    unfold Rdiv. apply Rle_trans with ((52 * ln 2 + 501) * / 81129638414606681695789005144064 * (10 / 23)); [apply Rmult_le_compat_l; lra|lra].
Qed.

(** powf(x, n) = x^n for positive x, with -599 <= n ln x <= 707 *)
Theorem C70_powf_accuracy : forall lm dbg x n,
  log_close lm -> DNorm x -> 0 < DV x -> -7079 / 10 <= ln (DV x) <= 5999 / 10 -> DNorm n -> Rabs (DV n) <= bpow radix2 60 ->
  -599 <= DV n * ln (DV x) <= 707 ->
  exists r, d_powf lm dbg x n = Val r /\ DNorm r /\
    Rabs (DV r - Rpower (DV x) (DV n)) <=
      (53 * Rabs (DV n * ln (DV x)) + 510 * Rabs (DV n) + 490) * bpow radix2 (-106) * Rpower (DV x) (DV n).
Proof. exact d_powf_ok. Qed.
Print Assumptions C70_powf_accuracy.
(** 2^(1/2) *)
Example C70_root_two : forall lm dbg, exists r, d_powf (with_logs lm) dbg (mkD (fofZ 2) f0) (mkD fhalf f0) = Val r /\
  Rabs (DV r - sqrt 2) <= 800 * bpow radix2 (-106) * sqrt 2.
Proof.
  intros. destruct (fofZ_exact 2 ltac:(lia)) as [F E]. destruct (d_single_norm (fofZ 2) F) as [N EV]. rewrite E in EV.
  destruct (d_single_norm fhalf Fin_half) as [Nh EH]. rewrite V_half in EH.
  assert (B : 6931 / 10000 <= ln 2 <= 6932 / 10000) by (split; consts).
  destruct (C70_powf_accuracy (with_logs lm) dbg _ (mkD fhalf f0) (C68_contract lm) N) as (r & K1 & _ & K2); rewrite ?EV, ?EH; auto; try lra.
  - rewrite Rabs_pos_eq by lra. apply Rle_trans with (bpow radix2 0); [cbn; lra|apply bpow_le; lia].
  - exists r. split; [exact K1|]. rewrite EV, EH in K2. rewrite <- Rpower_sqrt by lra. apply Rle_trans with (1 := K2).
    apply Rmult_le_compat_r; [left; apply exp_pos|]. rewrite !Rabs_pos_eq by lra. change (bpow radix2 (-106)) with (/ 81129638414606681695789005144064). lra.
Qed.
