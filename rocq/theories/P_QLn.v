(** * C98, C99, C100: accuracy of the Quad logarithms and of Quad powf

    [log_tight lm] (QLogSpec) says what is used of f64's own functions; [plain_log l] (QLogSpec) says
    that l = ln x is not where the Newton step cancels. *)
From Coq Require Import ZArith Reals List Bool Lia Lra.
From Flocq Require Import Core IEEE754.BinarySingleNaN.
From Verif Require Import RN F64 F64Facts Prim DoubleM QuadM AlgM TransM Spec Exact AbsOps QuadSpec QAccThms QGeoAcc QGeoMul ExpThms QExprSpec QExprProofs QLoose QLOps QParse QExpProofs QExpThms QLogSpec QLnThms QLogThms.
Import ListNotations.
Local Open Scope R_scope.

Lemma norms_geoS a : QNorm a \/ QNormW a -> QGeoS a.
Proof. intros N. exact (QGeoS_of _ (QGeo_dec _ (QNorms_dec _ N))). Qed.

(** the natural logarithm: within (5.1 |ln x| + 67) 2^-137 of the real one *)
Theorem C98_quad_ln : forall lm dbg a, log_tight lm -> QNorm a \/ QNormW a -> 0 < QV a -> plain_log (ln (QV a)) ->
  exists r, q_ln lm dbg a = Val r /\ QGeo r /\
    Rabs (QV r - ln (QV a)) <= (51 / 10 * Rabs (ln (QV a)) + 67) * bpow radix2 (-137).
Proof. intros lm dbg a C N. exact (q_ln_ok lm dbg a C (norms_geoS a N)). Qed.
Print Assumptions C98_quad_ln.
(** the same for computed arguments (see C91) *)
Theorem C98_quad_ln_computed : forall lm dbg a, log_tight lm -> QGeo a -> 0 < QV a -> plain_log (ln (QV a)) ->
  exists r, q_ln lm dbg a = Val r /\ QGeo r /\
    Rabs (QV r - ln (QV a)) <= (51 / 10 * Rabs (ln (QV a)) + 67) * bpow radix2 (-137).
Proof. intros lm dbg a C N. exact (q_ln_ok lm dbg a C (QGeoS_of a N)). Qed.
Print Assumptions C98_quad_ln_computed.
(** some library meets the contract *)
Theorem C98_contract : forall lm, log_tight (with_tight lm).
Proof. exact with_tight_ok. Qed.
Print Assumptions C98_contract.

(** 7 is such an argument: 2.8 ln 2 < ln 7 < (17/6) ln 2 *)
Lemma ln7 : 14 / 5 * ln 2 < ln 7 < 17 / 6 * ln 2.
Proof.
  assert (E : forall n x, 0 < x -> ln (x ^ n) = INR n * ln x) by (intros; now apply ln_pow).
  split.
  - assert (K : ln (2 ^ 14) < ln (7 ^ 5)) by (apply ln_increasing; lra). rewrite !E in K by lra. change (INR 14) with (IZR 14) in K || (replace (INR 14) with 14 in K by (cbn; lra)). replace (INR 5) with 5 in K by (cbn; lra). lra.
  - assert (K : ln (7 ^ 6) < ln (2 ^ 17)) by (apply ln_increasing; lra). rewrite !E in K by lra. replace (INR 17) with 17 in K by (cbn; lra). replace (INR 6) with 6 in K by (cbn; lra). lra.
Qed.
Lemma ln2_gap l j t : 0 < t <= / 2 -> (IZR j + t) * ln 2 <= l <= (IZR j + 1 - t) * ln 2 -> forall k : Z, t * ln 2 <= Rabs (l - IZR k * ln 2).
Proof.
  intros Ht H k. assert (B2 : 0 < ln 2) by (destruct ln2_lo as (_ & _ & _ & _ & _ & B); lra).
  destruct (Z_le_gt_dec k j) as [L|L].
  - assert (L' : IZR k <= IZR j) by (apply IZR_le; lia). assert (IZR k * ln 2 <= IZR j * ln 2) by (apply Rmult_le_compat_r; lra). assert (0 <= t * ln 2) by (apply Rmult_le_pos; lra). rewrite Rabs_pos_eq; lra.
  - assert (L' : IZR j + 1 <= IZR k) by (rewrite <- plus_IZR; apply IZR_le; lia). assert ((IZR j + 1) * ln 2 <= IZR k * ln 2) by (apply Rmult_le_compat_r; lra). assert (0 <= t * ln 2) by (apply Rmult_le_pos; lra). rewrite Rabs_left1; lra.
Qed.
Lemma plain7 : plain_log (ln 7).
Proof.
  assert (B := ln7). destruct ln2_lo as (_ & _ & _ & _ & _ & B2). unfold plain_log. change (bpow radix2 (-16)) with (/ 65536). change (bpow radix2 (-20)) with (/ 1048576). change (bpow radix2 (-27)) with (/ 134217728).
  rewrite (Rabs_pos_eq (ln 7)) by lra. rewrite (Rabs_pos_eq (ln 7 + 1)) by lra. split; [lra|]. split; [lra|]. split; [lra|].
  intros k _. assert (K := ln2_gap (ln 7) 2 (1 / 10) ltac:(lra) ltac:(lra) k). lra.
Qed.
Definition w_seven : Quad := mkQ (fofZ 7) f0 f0 f0.
Lemma w_seven_ok : QNorm w_seven /\ QV w_seven = 7.
Proof.
  destruct (fofZ_exact 7 ltac:(lia)) as [F E]. split; [apply qnormx_ok; vm_compute; reflexivity|]. unfold QV, w_seven. cbn [q0 q1 q2 q3]. rewrite E, V_0. ring.
Qed.
(** ln 7 to 2^-130 *)
Example C98_seven : forall lm dbg, exists r, q_ln (with_tight lm) dbg w_seven = Val r /\ Rabs (QV r - ln 7) <= bpow radix2 (-130).
Proof.
  intros. destruct w_seven_ok as [N E]. assert (B := ln7). destruct ln2_lo as (_ & _ & _ & _ & _ & B2).
  destruct (C98_quad_ln (with_tight lm) dbg w_seven (C98_contract lm) (or_introl N)) as (r & K1 & _ & K2); rewrite E in *; [lra|apply plain7|].
  exists r. split; [exact K1|]. apply Rle_trans with (1 := K2). rewrite Rabs_pos_eq by lra. change (-130)%Z with (-137 + 7)%Z. rewrite bpow_plus. change (bpow radix2 7) with 128. rewrite (Rmult_comm (bpow radix2 (-137))).
  apply Rmult_le_compat_r; [apply bpow_ge_0|lra].
Qed.

(** C99: log10, log2 and log, to a relative 2^-91 *)
Theorem C99_quad_log10 : forall lm dbg a, log_tight lm -> QNorm a \/ QNormW a -> 0 < QV a -> plain_log (ln (QV a)) ->
  exists r, q_log10 lm dbg a = Val r /\ QTame r /\
    Rabs (QV r - ln (QV a) / ln 10) <= bpow radix2 (-91) * Rabs (ln (QV a) / ln 10).
Proof. intros lm dbg a C N. exact (q_log10_ok lm dbg a C (norms_geoS a N)). Qed.
Print Assumptions C99_quad_log10.
Theorem C99_quad_log2 : forall lm dbg a, log_tight lm -> QNorm a \/ QNormW a -> 0 < QV a -> plain_log (ln (QV a)) ->
  exists r, q_log2 lm dbg a = Val r /\ QTame r /\
    Rabs (QV r - ln (QV a) / ln 2) <= bpow radix2 (-91) * Rabs (ln (QV a) / ln 2).
Proof. intros lm dbg a C N. exact (q_log2_ok lm dbg a C (norms_geoS a N)). Qed.
Print Assumptions C99_quad_log2.
Theorem C99_quad_log : forall lm dbg a b, log_tight lm ->
  QNorm a \/ QNormW a -> 0 < QV a -> plain_log (ln (QV a)) ->
  QNorm b \/ QNormW b -> 0 < QV b -> plain_log (ln (QV b)) ->
  exists r, q_log lm dbg a b = Val r /\ QTame r /\
    Rabs (QV r - ln (QV a) / ln (QV b)) <= bpow radix2 (-91) * Rabs (ln (QV a) / ln (QV b)).
Proof. intros lm dbg a b C N P H Nb. exact (q_log_ok lm dbg a b C (norms_geoS a N) P H (norms_geoS b Nb)). Qed.
Print Assumptions C99_quad_log.
(** log2 7 *)
Example C99_seven : forall lm dbg, exists r, q_log2 (with_tight lm) dbg w_seven = Val r /\ Rabs (QV r - ln 7 / ln 2) <= bpow radix2 (-89).
Proof.
  intros. destruct w_seven_ok as [N E]. assert (B := ln7). destruct ln2_lo as (_ & _ & _ & _ & _ & B2).
  destruct (C99_quad_log2 (with_tight lm) dbg w_seven (C98_contract lm) (or_introl N)) as (r & K1 & _ & K2); rewrite E in *; [lra|apply plain7|].
  exists r. split; [exact K1|]. apply Rle_trans with (1 := K2). change (-89)%Z with (-91 + 2)%Z. rewrite bpow_plus. change (bpow radix2 2) with 4. apply Rmult_le_compat_l; [apply bpow_ge_0|].
  unfold Rdiv. rewrite Rabs_mult, Rabs_inv, !Rabs_pos_eq by lra. apply Rmult_le_reg_r with (ln 2); [lra|]. rewrite Rmult_assoc, Rinv_l by lra. lra.
Qed.

(** C100: x^n = e^(n ln x), away from results close to powers of two *)
Theorem C100_quad_powf : forall lm dbg a n, log_tight lm ->
  QNorm a \/ QNormW a -> 0 < QV a -> plain_log (ln (QV a)) -> QNorm n \/ QNormW n ->
  -468 <= QV n * ln (QV a) <= 706 -> bpow radix2 (-79) <= Rabs (QV n * ln (QV a)) ->
  (forall k : Z, k <> 0%Z -> bpow radix2 (-27) * Rabs (QV n * ln (QV a)) <= Rabs (QV n * ln (QV a) - IZR k * ln 2)) ->
  exists r, q_powf lm dbg a n = Val r /\ QTame r /\
    Rabs (QV r - Rpower (QV a) (QV n)) <=
      (9 * Rabs (QV n * ln (QV a)) + 70 * Rabs (QV n) + 61) * bpow radix2 (-137) * Rpower (QV a) (QV n).
Proof. intros lm dbg a n C N P H Nn. exact (q_powf_ok lm dbg a n C (norms_geoS a N) P H (norms_geoS n Nn)). Qed.
Print Assumptions C100_quad_powf.
(** 7^3 = 343 *)
Definition w_pow3 : Quad := mkQ (fofZ 3) f0 f0 f0.
Example C100_cube : forall lm dbg, exists r, q_powf (with_tight lm) dbg w_seven w_pow3 = Val r /\ Rabs (QV r - 343) <= 343 * bpow radix2 (-128).
Proof.
  intros. destruct w_seven_ok as [N E]. assert (B := ln7). destruct ln2_lo as (_ & _ & _ & _ & _ & B2). destruct (fofZ_exact 3 ltac:(lia)) as [F3 V3].
  assert (E3 : QV w_pow3 = 3) by (unfold QV, w_pow3; cbn [q0 q1 q2 q3]; rewrite V3, V_0; ring).
  assert (N3 : QNorm w_pow3) by (apply qnormx_ok; vm_compute; reflexivity).
  assert (A3 : Rabs (3 * ln 7) = 3 * ln 7) by (apply Rabs_pos_eq; lra).
  destruct (C100_quad_powf (with_tight lm) dbg w_seven w_pow3 (C98_contract lm) (or_introl N)) as (r & K1 & _ & K2); rewrite ?E, ?E3 in *; [lra|apply plain7|now left|lra| | |].
  - rewrite A3. apply Rle_trans with (bpow radix2 0); [apply bpow_le; lia|cbn; lra].
  - intros k _. rewrite A3. change (bpow radix2 (-27)) with (/ 134217728). assert (K := ln2_gap (3 * ln 7) 8 (4 / 10) ltac:(lra) ltac:(lra) k). lra.
  - exists r. split; [exact K1|]. assert (P3 : Rpower 7 3 = 343) by (replace 3 with (INR 3) by (cbn; ring); rewrite Rpower_pow by lra; cbn; ring). rewrite P3, A3, (Rabs_pos_eq 3) in K2 by lra.
    apply Rle_trans with (1 := K2). rewrite (Rmult_comm 343). apply Rmult_le_compat_r; [lra|]. change (-128)%Z with (-137 + 9)%Z. rewrite bpow_plus, (Rmult_comm (bpow radix2 (-137))). apply Rmult_le_compat_r; [apply bpow_ge_0|]. change (bpow radix2 9) with 512. lra.
Qed.
