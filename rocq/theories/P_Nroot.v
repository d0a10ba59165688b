(** * C83: accuracy of the Double n-th root and cube root

    [printer lm] is the contract on f64 printing of C28; [root_close lm] is the contract on
    f64::ln and f64::exp: a relative error of at most 2^-52 (one unit in the last place), on
    positive arguments of ln and on arguments of exp up to 300 in magnitude.  Both hold
    together of some library, see [C83_contracts].

    The code makes one Newton correction of exp(-ln|x|/n), so the error grows with the
    square of |ln x| / n: 2^-99 at x near 1, but only 2^-86 for the cube root of 2^800. *)
From Coq Require Import ZArith Reals Lra Lia List Bool.
From Flocq Require Import Core IEEE754.BinarySingleNaN.
From Verif Require Import RN F64 Prim DoubleM Spec F64Facts ParseM FromProofs SqrtProofs Printer AlgM ConstProofs AbsOps RelOps NrootProofs LibNear Check.
Local Open Scope R_scope.

(** the n-th root y of x is the real with y^n = x and the sign of x *)
Theorem C83_nroot_accuracy : forall lm dbg x n y,
  printer lm -> root_close lm -> DNorm x -> (3 <= n <= 4095)%Z ->
  bpow radix2 (-800) <= Rabs (DV x) <= bpow radix2 800 ->
  y ^ Z.to_nat n = DV x -> 0 < y * DV x ->
  exists r, d_nroot lm dbg x n = Val r /\ DNorm r /\
    Rabs (DV r - y) <= (IZR n * (29 / 10 * (Rabs (ln (Rabs (DV x))) / IZR n) + 33 / 10) ^ 2 + 37) * bpow radix2 (-106) * Rabs y.
Proof.
  intros lm dbg x n y P C N Hn HW HY HS. destruct (d_nroot_ok lm dbg x n y P C N Hn HW HY HS) as (r & K1 & K2 & K3). exists r. split; [exact K1|]. split; [exact K2|].
  apply Rle_trans with (1 := K3). apply Rmult_le_compat_r; [apply Rabs_pos|]. unfold nroot_err. rewrite vv_bp. cbn [pow]. rewrite Rmult_1_r. apply Rle_refl.
Qed.
Print Assumptions C83_nroot_accuracy.
Theorem C83_cbrt_accuracy : forall lm dbg x y,
  printer lm -> root_close lm -> DNorm x -> bpow radix2 (-800) <= Rabs (DV x) <= bpow radix2 800 -> y * y * y = DV x ->
  exists r, d_cbrt lm dbg x = Val r /\ DNorm r /\
    Rabs (DV r - y) <= (3 * (97 / 100 * Rabs (ln (Rabs (DV x))) + 33 / 10) ^ 2 + 37) * bpow radix2 (-106) * Rabs y.
Proof.
  intros lm dbg x y P C N HW HY. assert (P8 := bpow_gt_0 radix2 (-800)). assert (NZ : y <> 0) by (intros ->; rewrite <- HY, !Rmult_0_l, Rabs_R0 in HW; lra).
  destruct (C83_nroot_accuracy lm dbg x 3 y P C N ltac:(lia) HW) as (r & K1 & K2 & K3).
  - change (Z.to_nat 3) with 3%nat. rewrite <- HY. ring.
  - rewrite <- HY. replace (y * (y * y * y)) with (y * y * (y * y)) by ring. assert (0 < y * y) by (apply Rsqr_pos_lt in NZ; exact NZ). apply Rmult_lt_0_compat; assumption.
  - exists r. split; [exact K1|]. split; [exact K2|]. apply Rle_trans with (1 := K3). apply Rmult_le_compat_r; [apply Rabs_pos|]. apply Rmult_le_compat_r; [apply bpow_ge_0|].
    apply Rplus_le_compat_r, Rmult_le_compat_l; [lra|]. assert (L := Rabs_pos (ln (Rabs (DV x)))). apply pow_incr. lra.
Qed.
Print Assumptions C83_cbrt_accuracy.

Theorem C83_contracts : forall lm, printer (with_printer (with_roots lm)) /\ root_close (with_printer (with_roots lm)).
Proof. intros lm. split; [apply with_printer_ok|]. exact (with_roots_ok lm). Qed.
Print Assumptions C83_contracts.

(** the cube root of -27 is within 2^-96 of -3 *)
Example C83_case : forall lm dbg, exists r, d_cbrt (with_printer (with_roots lm)) dbg (mkD (fofZ (-27)) f0) = Val r /\ Rabs (DV r - -3) <= bpow radix2 (-96).
Proof.
  intros lm dbg. destruct (C83_contracts lm) as [P C]. destruct (fofZ_exact (-27) ltac:(lia)) as [F E]. destruct (d_single_norm _ F) as [N EV]. rewrite E in EV.
  assert (A : Rabs (-27) = 27) by (rewrite Rabs_left; lra).
  destruct (C83_cbrt_accuracy _ dbg _ (-3) P C N) as (r & K1 & _ & K2); rewrite ?EV, ?A in *.
  - split; [apply Rle_trans with (bpow radix2 0); [apply bpow_le; lia|cbn; lra]|apply Rle_trans with (bpow radix2 5); [cbn; lra|apply bpow_le; lia]].
  - ring.
  - exists r. split; [exact K1|]. apply Rle_trans with (1 := K2). rewrite (Rabs_left (-3)) by lra.
    assert (L : 0 <= ln 27 <= 4). { split; [rewrite <- ln_1; left; apply ln_increasing; lra|]. replace 27 with (3 * (3 * 3)) by ring. rewrite !ln_mult by lra.
      assert (ln 3 < 4 / 3); [|lra]. replace (4 / 3) with (ln (exp (4 / 3))) by apply ln_exp. apply ln_increasing; [lra|].
      assert (K := exp_ineq1 (2 / 3) ltac:(lra)). assert (exp (4 / 3) = exp (2 / 3) * exp (2 / 3)) by (rewrite <- exp_plus; f_equal; lra).
      assert (K' := exp_ineq1 (1 / 3) ltac:(lra)). assert (exp (2 / 3) = exp (1 / 3) * exp (1 / 3)) by (rewrite <- exp_plus; f_equal; lra).
      assert (16 / 9 <= exp (2 / 3)) by (rewrite H0; apply Rle_trans with (4 / 3 * (4 / 3)); [lra|apply Rmult_le_compat; lra]). rewrite H. apply Rlt_le_trans with (16 / 9 * (16 / 9)); [lra|apply Rmult_le_compat; lra]. }
    rewrite (Rabs_pos_eq (ln 27)) by lra. assert (Q : (97 / 100 * ln 27 + 33 / 10) ^ 2 <= (72 / 10) ^ 2) by (apply pow_incr; lra).
    change (bpow radix2 (-96)) with (/ 79228162514264337593543950336). change (bpow radix2 (-106)) with (/ 81129638414606681695789005144064). lra.
Qed.
