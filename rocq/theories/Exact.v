(** * Deciding statements about the values of concrete f64s with integers:
    every finite f64 is an integer multiple of 2^-1074 *)
From Coq Require Import ZArith Reals Lra Lia Bool.
From Flocq Require Import Core IEEE754.BinarySingleNaN.
From Verif Require Import RN F64 Prim DoubleM QuadM Spec F64Facts.
Local Open Scope R_scope.

Definition zv (a : f64) : Z :=
  match a with
  | B754_finite s m e _ => (if s then Z.neg m else Z.pos m) * 2 ^ (e + 1074)
  | _ => 0
  end%Z.
Lemma zv_ok a : V a = IZR (zv a) * bp (-1074).
Proof.
  destruct a as [s|s| |s m e h]; try (unfold V; cbn; lra).
  assert (E : (-1074 <= e)%Z).
  { unfold SpecFloat.bounded, SpecFloat.canonical_mantissa, SpecFloat.fexp, SpecFloat.emin in h. apply andb_prop in h. destruct h as [h _].
    apply Zeq_bool_eq in h. lia. }
  unfold V, zv. cbn [B2R]. unfold F2R. cbn [Fnum Fexp].
  replace e with (e + 1074 + -1074)%Z at 1 by ring. rewrite bpow_plus, <- Rmult_assoc. f_equal.
  rewrite mult_IZR. rewrite <- IZR_Zpower by lia. now destruct s.
Qed.
Definition zd (x : Double) : Z := (zv (d0 x) + zv (d1 x))%Z.
Definition zq (x : Quad) : Z := (zv (q0 x) + zv (q1 x) + zv (q2 x) + zv (q3 x))%Z.
Lemma zd_ok x : DV x = IZR (zd x) * bp (-1074).
Proof. unfold DV, zd. rewrite !zv_ok, plus_IZR. ring. Qed.
Lemma zq_ok x : QV x = IZR (zq x) * bp (-1074).
Proof. unfold QV, zq. rewrite !zv_ok, !plus_IZR. ring. Qed.

Definition rnz (z : Z) : f64 := f2pow z (-1074).
Lemma rnz_ok z : is_finite (rnz z) = true -> RN (IZR z * bp (-1074)) = V (rnz z).
Proof.
  intros F. unfold rnz, f2pow in *.
  assert (K := binary_normalize_correct prec emax _ _ mode_NE z (-1074) false).
  unfold F2R in K. cbn [Fnum Fexp] in K.
  change (round radix2 _ _ _) with (RN (IZR z * bp (-1074))) in K.
  destruct (Rlt_bool_spec (Rabs (RN (IZR z * bp (-1074)))) (bp 1024)) as [H|H].
  - symmetry. apply K.
  - exfalso. destruct (binary_normalize prec emax Hprec Hmax mode_NE z (-1074) false); try easy; cbn in K;
    destruct (Rlt_bool _ _); discriminate.
Qed.
(** is [a] the f64 nearest to z * 2^-1074? *)
Definition rnis (z : Z) (a : f64) : bool := is_finite (rnz z) && Z.eqb (zv (rnz z)) (zv a).
Lemma rnis_ok z a : rnis z a = true <-> (is_finite (rnz z) = true /\ V a = RN (IZR z * bp (-1074))).
Proof.
  unfold rnis. rewrite andb_true_iff, Z.eqb_eq. split; intros [F E]; split; auto.
  - rewrite rnz_ok by easy. rewrite !zv_ok, E. easy.
  - rewrite rnz_ok in E by easy. rewrite !zv_ok in E. apply Rmult_eq_reg_r in E; [|apply Rgt_not_eq, bpow_gt_0].
    apply eq_IZR. now rewrite E.
Qed.
Definition dnormx (x : Double) : bool := is_finite (d0 x) && is_finite (d1 x) && rnis (zd x) (d0 x).
Lemma dnormx_ok x : dnormx x = true -> DNorm x.
Proof.
  unfold dnormx. rewrite !andb_true_iff, rnis_ok. intros [[F0 F1] [_ E]]. split; [now split|]. now rewrite zd_ok.
Qed.
Definition qnormx (x : Quad) : bool :=
  is_finite (q0 x) && is_finite (q1 x) && is_finite (q2 x) && is_finite (q3 x) &&
  rnis (zq x) (q0 x) && rnis (zv (q1 x) + zv (q2 x) + zv (q3 x)) (q1 x) && rnis (zv (q2 x) + zv (q3 x)) (q2 x).
Lemma qnormx_ok x : qnormx x = true -> QNorm x.
Proof.
  unfold qnormx. rewrite !andb_true_iff, !rnis_ok.
  intros [[[[[[F0 F1] F2] F3] [_ E0]] [_ E1]] [_ E2]]. split; [now repeat split|].
  refine (conj _ (conj _ _)); [now rewrite zq_ok|..].
  - rewrite E1 at 1. rewrite !plus_IZR, (zv_ok (q1 x)), (zv_ok (q2 x)), (zv_ok (q3 x)). f_equal. ring.
  - rewrite E2 at 1. rewrite !plus_IZR, (zv_ok (q2 x)), (zv_ok (q3 x)). f_equal. ring.
Qed.
Definition qnormwx (x : Quad) : bool :=
  is_finite (q0 x) && is_finite (q1 x) && is_finite (q2 x) && is_finite (q3 x) &&
  rnis (zv (q0 x) + zv (q1 x)) (q0 x) && rnis (zv (q1 x) + zv (q2 x)) (q1 x) && rnis (zv (q2 x) + zv (q3 x)) (q2 x).
Lemma qnormwx_ok x : qnormwx x = true -> QNormW x.
Proof.
  unfold qnormwx. rewrite !andb_true_iff, !rnis_ok.
  intros [[[[[[F0 F1] F2] F3] [_ E0]] [_ E1]] [_ E2]]. split; [now repeat split|].
  refine (conj _ (conj _ _)).
  - rewrite E0 at 1. rewrite plus_IZR, (zv_ok (q0 x)), (zv_ok (q1 x)). f_equal. ring.
  - rewrite E1 at 1. rewrite plus_IZR, (zv_ok (q1 x)), (zv_ok (q2 x)). f_equal. ring.
  - rewrite E2 at 1. rewrite plus_IZR, (zv_ok (q2 x)), (zv_ok (q3 x)). f_equal. ring.
Qed.
(** refuting normality *)
Lemma dnormx_no x : is_finite (rnz (zd x)) = true -> dnormx x = false -> ~ DNorm x.
Proof.
  intros F H [[F0 F1] E]. assert (K : dnormx x = true); [|congruence].
  unfold dnormx. rewrite !andb_true_iff, rnis_ok. rewrite zd_ok in E. auto.
Qed.
Lemma qnormx_no x : is_finite (rnz (zq x)) = true -> is_finite (rnz (zv (q1 x) + zv (q2 x) + zv (q3 x))) = true ->
  is_finite (rnz (zv (q2 x) + zv (q3 x))) = true -> qnormx x = false -> ~ QNorm x.
Proof.
  intros G0 G1 G2 H [[F0 [F1 [F2 F3]]] [E0 [E1 E2]]]. assert (K : qnormx x = true); [|congruence].
  unfold qnormx. rewrite !andb_true_iff, !rnis_ok. rewrite zq_ok in E0.
  assert (K1 : IZR (zv (q1 x) + zv (q2 x) + zv (q3 x)) * bp (-1074) = V (q1 x) + V (q2 x) + V (q3 x))
    by (rewrite !plus_IZR, (zv_ok (q1 x)), (zv_ok (q2 x)), (zv_ok (q3 x)); ring).
  assert (K2 : IZR (zv (q2 x) + zv (q3 x)) * bp (-1074) = V (q2 x) + V (q3 x))
    by (rewrite !plus_IZR, (zv_ok (q2 x)), (zv_ok (q3 x)); ring).
  rewrite K1, K2. unfold Fin in *. tauto.
Qed.

(** comparing values *)
Lemma bp1074 : 0 < bp (-1074). Proof. apply bpow_gt_0. Qed.
Lemma dlt_z x y : (zd x <? zd y)%Z = true -> DV x < DV y.
Proof. intros H. apply Z.ltb_lt in H. rewrite !zd_ok. apply Rmult_lt_compat_r. apply bp1074. now apply IZR_lt. Qed.
Lemma qlt_z x y : (zq x <? zq y)%Z = true -> QV x < QV y.
Proof. intros H. apply Z.ltb_lt in H. rewrite !zq_ok. apply Rmult_lt_compat_r. apply bp1074. now apply IZR_lt. Qed.
(** relative error larger than 2^-k: for a sum and for a quotient *)
Lemma bp_neg_pow k : (0 <= k)%Z -> bp (-k) * IZR (2 ^ k) = 1.
Proof. intros H. change 2%Z with (radix_val radix2). rewrite IZR_Zpower by easy. rewrite <- bpow_plus. replace (- k + k)%Z with 0%Z by ring. reflexivity. Qed.
Lemma sum_err_z x y r k : (0 <= k)%Z -> (Z.abs (zq x + zq y) <? 2 ^ k * Z.abs (zq r - (zq x + zq y)))%Z = true ->
  Rabs (QV r - (QV x + QV y)) > bp (- k) * Rabs (QV x + QV y).
Proof.
  intros Hk H. apply Z.ltb_lt, IZR_lt in H. rewrite mult_IZR, !abs_IZR, minus_IZR, plus_IZR in H.
  rewrite !zq_ok. replace (IZR (zq r) * bp (-1074) - (IZR (zq x) * bp (-1074) + IZR (zq y) * bp (-1074)))
    with ((IZR (zq r) - (IZR (zq x) + IZR (zq y))) * bp (-1074)) by ring.
  rewrite <- Rmult_plus_distr_r, !Rabs_mult, (Rabs_pos_eq (bp _)) by apply Rlt_le, bp1074. rewrite <- Rmult_assoc.
  apply Rmult_lt_compat_r; [apply bp1074|].
  set (A := Rabs (IZR (zq x) + IZR (zq y))) in *. set (B := Rabs (IZR (zq r) - (IZR (zq x) + IZR (zq y)))) in *.
  replace B with (bp (- k) * (IZR (2 ^ k) * B)) by (rewrite <- Rmult_assoc, bp_neg_pow by easy; ring).
  apply Rmult_lt_compat_l; auto. apply bpow_gt_0.
Qed.
(** |r - x/y| > 2^-k |x/y|  <=>  |r y - x| > 2^-k |x| *)
Lemma quot_err_z x y r k : (0 <= k)%Z -> zq y <> 0%Z ->
  (Z.abs (zq x) * 2 ^ 1074 <? 2 ^ k * Z.abs (zq r * zq y - zq x * 2 ^ 1074))%Z = true ->
  Rabs (QV r - QV x / QV y) > bp (- k) * Rabs (QV x / QV y).
Proof.
  intros Hk NY H. apply Z.ltb_lt, IZR_lt in H. rewrite !mult_IZR, !abs_IZR, minus_IZR, !mult_IZR in H.
  rewrite !zq_ok. assert (NY' : IZR (zq y) <> 0) by (contradict NY; now apply eq_IZR).
  set (X := IZR (zq x)) in *. set (Y := IZR (zq y)) in *. set (Rr := IZR (zq r)) in *.
  assert (T : bp (-1074) * IZR (2 ^ 1074) = 1) by (exact (bp_neg_pow 1074 ltac:(lia))).
  set (T2 := IZR (2 ^ 1074)) in *. set (b := bp (-1074)) in *.
  assert (Pb : 0 < b) by apply bp1074.
  assert (PT : 0 < T2) by (apply (IZR_lt 0); reflexivity).
  assert (E1 : X * b / (Y * b) = X * T2 / (Y * T2)) by (field; lra).
  assert (E2 : Rr * b - X * b / (Y * b) = (Rr * Y - X * T2) / (Y * T2)).
  { rewrite E1. replace (Rr * b) with (Rr * (b * T2) / T2) by (field; lra). rewrite T. field. lra. }
  rewrite E2, E1. unfold Rdiv. rewrite !(Rabs_mult _ (/ _)), <- Rmult_assoc. apply Rmult_lt_compat_r.
  { apply Rabs_pos_lt. apply Rinv_neq_0_compat. apply Rmult_integral_contrapositive. lra. }
  rewrite Rabs_mult, (Rabs_pos_eq T2) by lra.
  set (B := Rabs (Rr * Y - X * T2)) in *.
  replace B with (bp (- k) * (IZR (2 ^ k) * B)) by (rewrite <- Rmult_assoc, bp_neg_pow by easy; ring).
  apply Rmult_lt_compat_l; auto. apply bpow_gt_0.
Qed.
