(** * C97: accuracy of Quad exp *)
From Coq Require Import ZArith Reals List Bool Lia Lra.
From Flocq Require Import Core IEEE754.BinarySingleNaN.
From Verif Require Import RN F64 F64Facts Prim DoubleM QuadM AlgM TransM Spec Exact AbsOps QuadSpec QAccThms QGeoAcc QGeoMul ExpThms QExprSpec QExprProofs QLoose QLOps QParse QExpProofs QExpThms.
Import ListNotations.
Local Open Scope R_scope.

Lemma geoS_tame x : QGeoS x -> QTame x.
Proof.
  intros (F & A & B & C & _). apply L_tame with (4 * u); [lra|]. assert (P := Rabs_pos (V (q0 x))). split; [exact F|]. lra.
Qed.

(** For every argument in the range where neither the argument nor the result is extreme, and which is not within
    a relative 2^-28 of a nonzero multiple of ln 2 (where the reduction cancels), exp is correct to
    (3|a| + 60) 2^-137 relative. *)
Theorem C97_quad_exp : forall a, QNorm a \/ QNormW a ->
  -469 <= QV a <= 707 -> bpow radix2 (-80) <= Rabs (QV a) ->
  (forall k : Z, k <> 0%Z -> bpow radix2 (-28) * Rabs (QV a) <= Rabs (QV a - IZR k * ln 2)) ->
  QTame (q_exp a) /\
  Rabs (QV (q_exp a) - exp (QV a)) <= (3 * Rabs (QV a) + 60) * bpow radix2 (-137) * exp (QV a).
Proof.
  intros a N H L C. destruct (q_exp_ok a (QGeoS_of _ (QGeo_dec _ (QNorms_dec _ N))) H L C) as [G E].
  split; [now apply geoS_tame|exact E].
Qed.
Print Assumptions C97_quad_exp.

(** the same for the results of sums and products without heavy cancellation (see C91), not only canonical arguments *)
Theorem C97_quad_exp_computed : forall a, QGeo a ->
  -469 <= QV a <= 707 -> bpow radix2 (-80) <= Rabs (QV a) ->
  (forall k : Z, k <> 0%Z -> bpow radix2 (-28) * Rabs (QV a) <= Rabs (QV a - IZR k * ln 2)) ->
  QTame (q_exp a) /\
  Rabs (QV (q_exp a) - exp (QV a)) <= (3 * Rabs (QV a) + 60) * bpow radix2 (-137) * exp (QV a).
Proof.
  intros a N H L C. destruct (q_exp_ok a (QGeoS_of _ N) H L C) as [G E]. split; [now apply geoS_tame|exact E].
Qed.
Print Assumptions C97_quad_exp_computed.

(** e^x is never computed as zero, negative or infinite on that domain *)
Theorem C97_quad_exp_positive : forall a, QNorm a \/ QNormW a ->
  -469 <= QV a <= 707 -> bpow radix2 (-80) <= Rabs (QV a) ->
  (forall k : Z, k <> 0%Z -> bpow radix2 (-28) * Rabs (QV a) <= Rabs (QV a - IZR k * ln 2)) ->
  QFin (q_exp a) /\ 0 < QV (q_exp a) /\ 0 < V (q0 (q_exp a)).
Proof.
  intros a N H L C. destruct (C97_quad_exp a N H L C) as [G E]. split; [apply G|].
  assert (PE := exp_pos (QV a)). assert (A : Rabs (QV a) <= 707) by (apply Rabs_le; lra).
  assert (K : (3 * Rabs (QV a) + 60) * bpow radix2 (-137) * exp (QV a) <= / 1000 * exp (QV a)).
  { apply Rmult_le_compat_r; [lra|]. destruct dl_mu as (Pm & Ed & Sm). fold dl. apply Rle_trans with (3000 * dl); [apply Rmult_le_compat_r; lra|lra]. }
  assert (K2 := Rle_trans _ _ _ E K). apply Rabs_def2' in K2. split; [lra|].
  destruct G as (_ & G1 & G2 & G3). change (bpow radix2 (-48)) with (/ 281474976710656) in *.
  destruct (Rle_or_lt (V (q0 (q_exp a))) 0) as [S|S]; [exfalso|exact S]. rewrite (Rabs_left1 (V (q0 (q_exp a)))) in * by exact S. unfold QV in K2.
  apply Rabs_def2' in G1. apply Rabs_def2' in G2. apply Rabs_def2' in G3. unfold QV in *. lra.
Qed.
Print Assumptions C97_quad_exp_positive.

(** e^3 *)
Definition w_three : Quad := mkQ (fofZ 3) f0 f0 f0.
Example C97_three : (QNorm w_three \/ QNormW w_three) /\ (-469 <= QV w_three <= 707 /\ bpow radix2 (-80) <= Rabs (QV w_three)) /\
  (forall k : Z, k <> 0%Z -> bpow radix2 (-28) * Rabs (QV w_three) <= Rabs (QV w_three - IZR k * ln 2)) /\
  Rabs (QV (q_exp w_three) - exp 3) <= bpow radix2 (-130) * exp 3.
Proof.
  destruct (fofZ_exact 3 ltac:(lia)) as [F3 V3].
  assert (E : QV w_three = 3) by (unfold QV, w_three; cbn [q0 q1 q2 q3]; rewrite V3, V_0; ring).
  assert (N : QNorm w_three) by (apply qnormx_ok; vm_compute; reflexivity).
  assert (A : -469 <= 3 <= 707 /\ bpow radix2 (-80) <= Rabs 3).
  { rewrite Rabs_pos_eq by lra. split; [lra|]. apply Rle_trans with (bpow radix2 0); [apply bpow_le; lia|cbn; lra]. }
  assert (C : forall k : Z, k <> 0%Z -> bpow radix2 (-28) * Rabs 3 <= Rabs (3 - IZR k * ln 2)).
  { intros k _. destruct ln2_lo as (_ & _ & _ & _ & _ & B). rewrite (Rabs_pos_eq 3) by lra. change (bpow radix2 (-28)) with (/ 268435456).
    destruct (Z_le_gt_dec k 4) as [L|L].
    - assert (L' : IZR k <= 4) by (apply IZR_le; lia). assert (IZR k * ln 2 <= 4 * ln 2) by (apply Rmult_le_compat_r; lra). rewrite Rabs_pos_eq; lra.
    - assert (L' : 5 <= IZR k) by (apply IZR_le; lia). assert (5 * ln 2 <= IZR k * ln 2) by (apply Rmult_le_compat_r; lra). rewrite Rabs_left1; lra. }
  split; [now left|]. rewrite E. split; [exact A|]. split; [exact C|].
  destruct (C97_quad_exp w_three) as [_ K]; [now left|rewrite E; apply A|rewrite E; apply A|rewrite E; exact C|]. rewrite E, (Rabs_pos_eq 3) in K by lra.
  apply Rle_trans with (1 := K). apply Rmult_le_compat_r; [left; apply exp_pos|]. change (-130)%Z with (-137 + 7)%Z. rewrite bpow_plus. change (bpow radix2 7) with 128. assert (P := bpow_gt_0 radix2 (-137)). lra.
Qed.
