(** * C71 - C74: accuracy of the Double sine, cosine and tangent

    The half of the pair that is not summed as a series is sqrt(1 - s^2), and the
    square root converts f64 values by printing them: [printer lm] is the same
    contract on f64's own printing as in C28 (P_Sqrt.v, where it is shown to be
    satisfiable). *)
From Coq Require Import ZArith Reals Lra Lia List Bool.
From Flocq Require Import Core IEEE754.BinarySingleNaN.
From Verif Require Import RN F64 Prim DoubleM Spec F64Facts FromProofs SqrtProofs Printer AlgM TransM ConstProofs SinThms Check.
Local Open Scope R_scope.

(** sine: for every normalized x up to 2^40 in absolute value, no panic, a normalized
    result, and an absolute error of at most (15 |x| + 480) 2^-106 *)
Theorem C71_sin_accuracy : forall lm dbg x,
  printer lm -> DNorm x -> bpow radix2 (-700) <= Rabs (DV x) <= bpow radix2 40 ->
  exists r, d_sin lm dbg x = Val r /\ DNorm r /\
    Rabs (DV r - sin (DV x)) <= (15 * Rabs (DV x) + 480) * bpow radix2 (-106).
Proof. intros lm dbg x P. exact (d_sin_ok lm dbg P x). Qed.
Print Assumptions C71_sin_accuracy.

(** near zero the error is relative to the result *)
Theorem C71_sin_small : forall lm dbg x,
  DNorm x -> bpow radix2 (-700) <= Rabs (DV x) <= 98 / 1000 ->
  exists r, d_sin lm dbg x = Val r /\ DNorm r /\
    Rabs (DV r - sin (DV x)) <= 70 * bpow radix2 (-106) * Rabs (sin (DV x)).
Proof. exact d_sin_small_ok. Qed.
Print Assumptions C71_sin_small.

Theorem C72_cos_accuracy : forall lm dbg x,
  printer lm -> DNorm x -> bpow radix2 (-700) <= Rabs (DV x) <= bpow radix2 40 ->
  exists r, d_cos lm dbg x = Val r /\ DNorm r /\
    Rabs (DV r - cos (DV x)) <= (15 * Rabs (DV x) + 480) * bpow radix2 (-106).
Proof. intros lm dbg x P. exact (d_cos_ok lm dbg P x). Qed.
Print Assumptions C72_cos_accuracy.

Theorem C73_sin_cos_accuracy : forall lm dbg x,
  printer lm -> DNorm x -> bpow radix2 (-700) <= Rabs (DV x) <= bpow radix2 40 ->
  exists s c, d_sin_cos lm dbg x = Val (s, c) /\ DNorm s /\ DNorm c /\
    Rabs (DV s - sin (DV x)) <= (15 * Rabs (DV x) + 480) * bpow radix2 (-106) /\
    Rabs (DV c - cos (DV x)) <= (15 * Rabs (DV x) + 480) * bpow radix2 (-106).
Proof. intros lm dbg x P. exact (d_sin_cos_ok lm dbg P x). Qed.
Print Assumptions C73_sin_cos_accuracy.

(** the computed pair is on the unit circle, to the accuracy of its parts *)
Theorem C73_unit_circle : forall lm dbg x,
  printer lm -> DNorm x -> bpow radix2 (-700) <= Rabs (DV x) <= bpow radix2 40 ->
  exists s c, d_sin_cos lm dbg x = Val (s, c) /\
    Rabs (DV s * DV s + DV c * DV c - 1) <= 5 * ((15 * Rabs (DV x) + 480) * bpow radix2 (-106)).
Proof.
  intros lm dbg x P N H. destruct (C73_sin_cos_accuracy lm dbg x P N H) as (s & c & E & _ & _ & ES & EC). exists s, c. split; [exact E|].
  set (B := (15 * Rabs (DV x) + 480) * bpow radix2 (-106)) in *.
  assert (B1 : 0 <= B <= / 1000).
  { assert (PA := Rabs_pos (DV x)). assert (Q := proj2 H). change (bpow radix2 40) with 1099511627776 in Q. unfold B. change (bpow radix2 (-106)) with (/ 81129638414606681695789005144064). lra. }
  clearbody B. assert (U := sin2_cos2 (DV x)). unfold Rsqr in U. destruct (SIN_bound (DV x)) as [s1 s2]. destruct (COS_bound (DV x)) as [c1 c2].
  set (S := sin (DV x)) in *. set (C := cos (DV x)) in *. clearbody S C.
  assert (G : forall p q, Rabs (p - q) <= B -> -1 <= q <= 1 -> Rabs (p * p - q * q) <= (2 + / 1000) * B).
  { intros p q K L. replace (p * p - q * q) with ((p - q) * (p + q)) by ring. rewrite Rabs_mult, (Rmult_comm (2 + / 1000)).
    apply Rmult_le_compat; try apply Rabs_pos; [exact K|]. replace (p + q) with ((p - q) + 2 * q) by ring. eapply Rle_trans; [apply Rabs_triang|].
    assert (Rabs (2 * q) <= 2) by (apply Rabs_le; lra). lra. }
  assert (K1 := G _ _ ES (conj s1 s2)). assert (K2 := G _ _ EC (conj c1 c2)).
  replace (DV s * DV s + DV c * DV c - 1) with ((DV s * DV s - S * S) + (DV c * DV c - C * C)) by lra.
  eapply Rle_trans; [apply Rabs_triang|]. lra.
Qed.
Print Assumptions C73_unit_circle.

(** tangent: away from its zeros and poles (sine and cosine at least a thousand
    times their own error bound) *)
Theorem C74_tan_accuracy : forall lm dbg x,
  printer lm -> DNorm x -> bpow radix2 (-700) <= Rabs (DV x) <= bpow radix2 40 ->
  1000 * ((15 * Rabs (DV x) + 480) * bpow radix2 (-106)) <= Rabs (cos (DV x)) ->
  1000 * ((15 * Rabs (DV x) + 480) * bpow radix2 (-106)) <= Rabs (sin (DV x)) ->
  exists r, d_tan lm dbg x = Val r /\ DNorm r /\
    Rabs (DV r - tan (DV x)) <= 105 / 100 * ((15 * Rabs (DV x) + 480) * bpow radix2 (-106) / Rabs (cos (DV x))) * (1 + Rabs (tan (DV x))).
Proof. exact d_tan_ok. Qed.
Print Assumptions C74_tan_accuracy.
Theorem C74_tan_small : forall lm dbg x,
  printer lm -> DNorm x -> bpow radix2 (-700) <= Rabs (DV x) <= 98 / 1000 ->
  exists r, d_tan lm dbg x = Val r /\ DNorm r /\
    Rabs (DV r - tan (DV x)) <= 126 * bpow radix2 (-106) * Rabs (tan (DV x)).
Proof. exact d_tan_small_ok. Qed.
Print Assumptions C74_tan_small.

(** the premises hold at 100 (16 turns away from the base interval), and there the
    sine and cosine are right to 2^-95 *)
Example C71_hundred : forall lm dbg, exists s c, d_sin_cos (with_printer lm) dbg (mkD (fofZ 100) f0) = Val (s, c) /\
  Rabs (DV s - sin 100) <= bpow radix2 (-95) /\ Rabs (DV c - cos 100) <= bpow radix2 (-95).
Proof.
  intros. destruct (fofZ_exact 100 ltac:(lia)) as [F E]. destruct (d_single_norm (fofZ 100) F) as [N EV]. rewrite E in EV.
  destruct (C73_sin_cos_accuracy (with_printer lm) dbg _ (with_printer_ok lm) N) as (s & c & K & _ & _ & K1 & K2).
  - rewrite EV, Rabs_pos_eq by lra. split; [apply Rle_trans with (bpow radix2 0); [apply bpow_le; lia|cbn; lra]|]. change (bpow radix2 40) with 1099511627776. lra.
  - exists s, c. split; [exact K|]. rewrite EV, (Rabs_pos_eq 100) in K1, K2 by lra.
    change (bpow radix2 (-95)) with (/ 39614081257132168796771975168). change (bpow radix2 (-106)) with (/ 81129638414606681695789005144064) in K1, K2. split; lra.
Qed.
(** the tangent premises hold at 1 *)
Example C74_one : forall lm dbg, exists r, d_tan (with_printer lm) dbg (mkD (fofZ 1) f0) = Val r /\ Rabs (DV r - tan 1) <= bpow radix2 (-94).
Proof.
  intros. destruct (fofZ_exact 1 ltac:(lia)) as [F E]. destruct (d_single_norm (fofZ 1) F) as [N EV]. rewrite E in EV.
  assert (PB : 3 < PI < 4) by consts.
  assert (S1 : 1 / 2 <= sin 1). { rewrite <- sin_PI6. apply Rlt_le, sin_increasing_1; lra. }
  assert (C1 : 1 / 2 <= cos 1). { rewrite <- cos_PI3. apply Rlt_le, cos_decreasing_1; try lra; consts. }
  destruct (SIN_bound 1) as [_ S2]. change (bpow radix2 (-94)) with (/ 19807040628566084398385987584).
  destruct (C74_tan_accuracy (with_printer lm) dbg _ (with_printer_ok lm) N) as (r & K & _ & K1); rewrite ?EV, ?Rabs_R1 in *;
    change (bpow radix2 (-106)) with (/ 81129638414606681695789005144064) in *.
  - split; [apply Rle_trans with (bpow radix2 0); [apply bpow_le; lia|cbn; lra]|]. change (bpow radix2 40) with 1099511627776. lra.
  - rewrite Rabs_pos_eq by lra. lra.
  - rewrite Rabs_pos_eq by lra. lra.
  - exists r. split; [exact K|]. apply Rle_trans with (1 := K1). rewrite (Rabs_pos_eq (cos 1)) by lra.
    assert (IC : 0 < / cos 1 <= 2). { split; [apply Rinv_0_lt_compat; lra|]. replace 2 with (/ (1 / 2)) by lra. apply Rinv_le_contravar; lra. }
    assert (T : 0 <= tan 1 <= 2). { unfold tan, Rdiv. split; [apply Rmult_le_pos; lra|]. replace 2 with (1 * 2) by ring. apply Rmult_le_compat; lra. }
    rewrite (Rabs_pos_eq (tan 1)) by lra. apply Rle_trans with (105 / 100 * ((15 * 1 + 480) * / 81129638414606681695789005144064 * 2) * 3).
    + apply Rmult_le_compat; [unfold Rdiv; apply Rmult_le_pos; [lra|apply Rmult_le_pos; lra]|lra| |lra]. apply Rmult_le_compat_l; [lra|]. unfold Rdiv. apply Rmult_le_compat_l; lra.
    + lra.
Qed.
