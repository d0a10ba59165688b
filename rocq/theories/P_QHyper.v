(** * C101: accuracy of the Quad hyperbolic functions

    [cosh], [sinh] and [tanh] on the right are the standard library's real functions.
    The conditions on x are those of exp (C97): x is not tiny and not within a relative 2^-28 of a
    nonzero multiple of ln 2.  sinh, sinh_cosh and tanh are covered on both branches (exponentials, and the Taylor loop for
    |x| <= 0.05, where those conditions hold for free). *)
From Coq Require Import ZArith Reals List Bool Lia Lra.
From Flocq Require Import Core IEEE754.BinarySingleNaN.
From Verif Require Import RN F64 F64Facts DAddProofs Prim DoubleM QuadM AlgM TransM Spec Exact AbsOps QuadSpec QAccThms QGeoAcc QGeoMul ExpThms HypThms QExprSpec QExprProofs QLoose QLOps QParse QExpProofs QExpThms QLogThms QHypThms QSinhThms FromProofs Printer ConstProofs Check P_QExp P_QLn.
Import ListNotations.
Local Open Scope R_scope.

Theorem C101_quad_cosh : forall x, QNorm x \/ QNormW x ->
  bpow radix2 (-80) <= Rabs (QV x) <= 200 ->
  (forall k : Z, k <> 0%Z -> bpow radix2 (-28) * Rabs (QV x) <= Rabs (QV x - IZR k * ln 2)) ->
  QTame (q_cosh x) /\ Rabs (QV (q_cosh x) - cosh (QV x)) <= bpow radix2 (-89) * cosh (QV x).
Proof. intros x N [H1 H2] C. exact (q_cosh_ok x (norms_geoS x N) H2 (conj H1 C)). Qed.
Print Assumptions C101_quad_cosh.

Theorem C101_quad_sinh : forall lm dbg x, QNorm x \/ QNormW x ->
  bpow radix2 (-28) <= Rabs (QV x) <= 200 ->
  (forall k : Z, k <> 0%Z -> bpow radix2 (-28) * Rabs (QV x) <= Rabs (QV x - IZR k * ln 2)) ->
  exists r, q_sinh lm dbg x = Val r /\ QFin r /\ Rabs (QV r - sinh (QV x)) <= bpow radix2 (-85) * Rabs (sinh (QV x)).
Proof.
  intros lm dbg x N H C. destruct (q_sinh_all lm dbg x (norms_geoS x N) H C) as (r & K1 & K2 & K3).
  exists r. split; [exact K1|]. split; [apply K2|exact K3].
Qed.
Print Assumptions C101_quad_sinh.

(** near 0 nothing but the range is assumed: the exclusions above concern exp *)
Theorem C101_quad_sinh_small : forall lm dbg x, QNorm x \/ QNormW x ->
  bpow radix2 (-28) <= Rabs (QV x) <= 49 / 1000 ->
  exists r, q_sinh lm dbg x = Val r /\ QTame r /\ Rabs (QV r - sinh (QV x)) <= bpow radix2 (-87) * Rabs (sinh (QV x)).
Proof.
  intros lm dbg x N [L U]. assert (G := norms_geoS x N). destruct (branchQ x G) as [(_ & _ & B)|(B1 & _ & B2)]; [lra|].
  destruct (q_sinh_small lm dbg x G (conj L B2) B1) as (r & K1 & K2 & K3). exists r. split; [exact K1|]. split; [apply L_tame with (2 := K2); lra|].
  apply Rle_trans with (1 := K3). assert (E : bp (-85) = 4 * bp (-87)) by exact (bp_split (-87) 2 ltac:(lia)). destruct bp_8x as (E2 & _). rewrite E2 in E. apply Rmult_le_compat_r; [apply Rabs_pos|lra].
Qed.
Print Assumptions C101_quad_sinh_small.

Theorem C101_quad_sinh_cosh : forall lm dbg x, printer lm -> QNorm x \/ QNormW x ->
  bpow radix2 (-28) <= Rabs (QV x) <= 200 ->
  (forall k : Z, k <> 0%Z -> bpow radix2 (-28) * Rabs (QV x) <= Rabs (QV x - IZR k * ln 2)) ->
  exists s c, q_sinh_cosh lm dbg x = Val (s, c) /\ QFin s /\ QFin c /\
    Rabs (QV s - sinh (QV x)) <= bpow radix2 (-85) * Rabs (sinh (QV x)) /\ Rabs (QV c - cosh (QV x)) <= bpow radix2 (-88) * cosh (QV x).
Proof. intros lm dbg x PR N H C. exact (q_sinh_cosh_ok lm dbg x PR (norms_geoS x N) H C). Qed.
Print Assumptions C101_quad_sinh_cosh.

Theorem C101_quad_tanh : forall lm dbg x, printer lm -> QNorm x \/ QNormW x ->
  bpow radix2 (-28) <= Rabs (QV x) <= 60 ->
  (forall k : Z, k <> 0%Z -> bpow radix2 (-28) * Rabs (QV x) <= Rabs (QV x - IZR k * ln 2)) ->
  exists r, q_tanh lm dbg x = Val r /\ QTame r /\ Rabs (QV r - tanh (QV x)) <= bpow radix2 (-84) * Rabs (tanh (QV x)).
Proof. intros lm dbg x PR N H C. exact (q_tanh_all lm dbg x PR (norms_geoS x N) H C). Qed.
Print Assumptions C101_quad_tanh.

(** the contract on f64 printing is met by a concrete library *)
Theorem C101_contract : forall lm, printer (with_printer lm).
Proof. exact with_printer_ok. Qed.
Print Assumptions C101_contract.

(** cosh^2 - sinh^2 = 1 for the computed values, to 2^-83 cosh^2 *)
Theorem C101_quad_identity : forall lm dbg x, QNorm x \/ QNormW x ->
  bpow radix2 (-28) <= Rabs (QV x) <= 200 ->
  (forall k : Z, k <> 0%Z -> bpow radix2 (-28) * Rabs (QV x) <= Rabs (QV x - IZR k * ln 2)) ->
  exists r, q_sinh lm dbg x = Val r /\
    Rabs (QV (q_cosh x) * QV (q_cosh x) - QV r * QV r - 1) <= bpow radix2 (-83) * (cosh (QV x) * cosh (QV x)).
Proof.
  intros lm dbg x N H C. destruct (C101_quad_sinh lm dbg x N H C) as (r & K1 & _ & K2). exists r. split; [exact K1|].
  destruct (C101_quad_cosh x N) as [_ K3]; [|exact C|].
  { split; [|apply H]. apply Rle_trans with (2 := proj1 H). apply bpow_le; lia. }
  destruct (cosh_ge (QV x)) as (C1 & _ & C2). set (c := cosh (QV x)) in *. set (s := sinh (QV x)) in *.
  assert (I : c * c - s * s = 1). { unfold c, s, cosh, sinh. assert (E : exp (QV x) * exp (- QV x) = 1) by (rewrite <- exp_plus, Rplus_opp_r; apply exp_0). set (e := exp (QV x)) in *. set (f := exp (- QV x)) in *. replace ((e + f) / 2 * ((e + f) / 2) - (e - f) / 2 * ((e - f) / 2)) with (e * f) by field. exact E. }
  assert (B89 : bp (-85) = 16 * bp (-89)) by exact (bp_split (-89) 4 ltac:(lia)). assert (B83 : bp (-83) = 64 * bp (-89)) by exact (bp_split (-89) 6 ltac:(lia)). rewrite B89, B83 in *.
  assert (P9 : 0 < bp (-89) <= / 1000000000) by (split; [apply bpow_gt_0|]; apply Rle_trans with (bp (-30)); [apply bpow_le; lia|change (bp (-30)) with (/ 1073741824); lra]). set (q := bp (-89)) in *.
  assert (S1 : Rabs (QV r - s) <= 16 * q * c) by (apply Rle_trans with (1 := K2); apply Rmult_le_compat_l; lra). clear K2.
  set (a := QV (q_cosh x)) in *. set (b := QV r) in *. replace (a * a - b * b - 1) with ((a - c) * (2 * c + (a - c)) - (b - s) * (2 * s + (b - s))) by (rewrite <- I; ring).
  assert (qc : q * c <= / 1000000000 * c) by (apply Rmult_le_compat_r; lra).
  assert (A1 : Rabs ((a - c) * (2 * c + (a - c))) <= q * c * (3 * c)).
  { rewrite Rabs_mult. apply Rmult_le_compat; auto using Rabs_pos. eapply Rle_trans; [apply Rabs_triang|]. rewrite (Rabs_pos_eq (2 * c)) by lra. lra. }
  assert (A2 : Rabs ((b - s) * (2 * s + (b - s))) <= 16 * q * c * (3 * c)).
  { rewrite Rabs_mult. apply Rmult_le_compat; auto using Rabs_pos. eapply Rle_trans; [apply Rabs_triang|]. rewrite Rabs_mult, (Rabs_pos_eq 2) by lra. lra. }
  unfold Rminus at 1. eapply Rle_trans; [apply Rabs_triang|]. rewrite Rabs_Ropp. assert (0 <= q * (c * c)) by (apply Rmult_le_pos; [lra|apply Rmult_le_pos; lra]). lra.
Qed.
Print Assumptions C101_quad_identity.

(** 3 is in the domain of all of them *)
Example C101_three : (QNorm w_three \/ QNormW w_three) /\ QV w_three = 3 /\ bpow radix2 (-28) <= Rabs (QV w_three) <= 60 /\
  (forall k : Z, k <> 0%Z -> bpow radix2 (-28) * Rabs (QV w_three) <= Rabs (QV w_three - IZR k * ln 2)) /\
  Rabs (QV (q_cosh w_three) - cosh 3) <= bpow radix2 (-89) * cosh 3.
Proof.
  assert (E : QV w_three = 3). { destruct (fofZ_exact 3 ltac:(lia)) as [F3 V3]. unfold QV, w_three. cbn [q0 q1 q2 q3]. rewrite V3, V_0. ring. }
  destruct C97_three as (N & _ & C & _). split; [exact N|]. split; [exact E|]. split; [rewrite E, Rabs_pos_eq by lra; split; [apply Rle_trans with (bpow radix2 0); [apply bpow_le; lia|cbn; lra]|lra]|]. split; [exact C|].
  destruct (C101_quad_cosh w_three N) as [_ K]; [|exact C|rewrite E in K; exact K].
  rewrite E, Rabs_pos_eq by lra. split; [|lra]. apply Rle_trans with (bpow radix2 0); [apply bpow_le; lia|cbn; lra].
Qed.

(** and 2^-10 (a dyadic f64) is in the domain of the Taylor branch *)
Definition w_milli : Quad := mkQ (f2pow 1 (-10)) f0 f0 f0.
Example C101_milli : QNorm w_milli /\ QV w_milli = bpow radix2 (-10) /\ bpow radix2 (-28) <= Rabs (QV w_milli) <= 49 / 1000.
Proof.
  destruct (f2pow_exact 1 (-10) ltac:(lia) ltac:(lia) ltac:(lia)) as [F3 V3]. rewrite Rmult_1_l in V3.
  assert (E : QV w_milli = bpow radix2 (-10)). { unfold QV, w_milli. cbn [q0 q1 q2 q3]. rewrite V3, V_0. ring. }
  split; [apply qnormx_ok; vm_compute; reflexivity|]. split; [exact E|]. rewrite E, Rabs_pos_eq by apply bpow_ge_0. split; [apply bpow_le; lia|]. change (bpow radix2 (-10)) with (/ 1024). lra.
Qed.
