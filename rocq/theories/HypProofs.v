(** * Accuracy of the Double hyperbolic functions *)
From Coq Require Import ZArith Reals Lra Lia Psatz Bool.
From Flocq Require Import Core IEEE754.BinarySingleNaN.
From Verif Require Import RN F64 Prim DoubleM Spec F64Facts EFT DWAdd DAddProofs DMulProofs DDivProofs MulAny OrderProofs LawProofs ExactProofs IntProofs AbsOps ParseM AlgM ConstM BaseConst ConstProofs FromProofs SqrtProofs TransM TransProofs PowProofs ExpProofs ExpThms LnThms SinLoop SinSeries TableQuad RelOps.
Local Open Scope R_scope.

(** ** the series *)
Definition sterm (X : R) (k : nat) : R := X ^ (2 * k + 1) / INR (fact (2 * k + 1)).
Definition ssum (X : R) (k : nat) : R := (esum (2 * k + 1) X - esum (2 * k + 1) (- X)) / 2.
Lemma neg_pow_even X n : (- X) ^ (2 * n) = X ^ (2 * n).
Proof. rewrite !pow_mult. f_equal. ring. Qed.
Lemma neg_pow_odd X n : (- X) ^ (2 * n + 1) = - X ^ (2 * n + 1).
Proof. rewrite !pow_add, neg_pow_even. ring. Qed.
Lemma esum_even X k : esum (2 * k + 2) X - esum (2 * k + 2) (- X) = 2 * ssum X k.
Proof.
  unfold ssum. replace (2 * k + 2)%nat with (S (2 * k + 1)) by lia. cbn [esum]. replace (S (2 * k + 1)) with (2 * (k + 1))%nat by lia. rewrite neg_pow_even. field.
  apply INR_fact_neq_0.
Qed.
Lemma ssum_S X k : ssum X (S k) = ssum X k + sterm X (S k).
Proof.
  unfold ssum at 1. replace (2 * S k + 1)%nat with (S (2 * k + 2)) by lia. cbn [esum].
  assert (E := esum_even X k). replace (S (2 * k + 2)) with (2 * S k + 1)%nat by lia. rewrite neg_pow_odd. unfold sterm. set (w := X ^ (2 * S k + 1)) in *. set (f := INR (fact (2 * S k + 1))).
  replace ((esum (2 * k + 2) X + w / f - (esum (2 * k + 2) (- X) + - w / f)) / 2) with ((esum (2 * k + 2) X - esum (2 * k + 2) (- X)) / 2 + w / f).
  - rewrite E. lra.
  - unfold f. field. apply INR_fact_neq_0.
Qed.
Lemma ssum_0 X : ssum X 0 = X.
Proof. unfold ssum. cbn. field. Qed.
Lemma sterm_0 X : sterm X 0 = X.
Proof. unfold sterm. cbn. field. Qed.
Lemma sterm_S X k : sterm X (S k) = sterm X k * (X * X) / IZR (Z.of_nat ((2 * k + 2) * (2 * k + 3))).
Proof.
  unfold sterm. replace (2 * S k + 1)%nat with (S (S (2 * k + 1))) by lia. rewrite !fact_simpl, !mult_INR, <- INR_IZR_INZ, mult_INR.
  replace (S (S (2 * k + 1))) with (2 * k + 3)%nat by lia. replace (S (2 * k + 1)) with (2 * k + 2)%nat by lia.
  replace (2 * k + 3)%nat with (2 * k + 1 + 2)%nat at 1 by lia. rewrite pow_add. cbn [pow]. field. split; [apply INR_fact_neq_0|]. split; apply not_0_INR; lia.
Qed.
Lemma sinh_rem X k : Rabs X <= 51 / 1000 -> Rabs (sinh X - ssum X k) <= / 250 * Rabs (sterm X k).
Proof.
  intros H. unfold sinh. assert (P := Rabs_pos X). assert (K1 := exp_tail0 (2 * k + 2) X ltac:(lra)). assert (K2 := exp_tail0 (2 * k + 2) (- X)). rewrite Rabs_Ropp in K2. specialize (K2 ltac:(lra)).
  assert (E := esum_even X k).
  replace ((exp X - exp (- X)) / 2 - ssum X k) with (((exp X - esum (2 * k + 2) X) - (exp (- X) - esum (2 * k + 2) (- X))) / 2) by lra.
  assert (B : 3 * (Rabs X ^ S (2 * k + 2) / INR (fact (2 * k + 2))) <= / 250 * Rabs (sterm X k)).
  { unfold sterm, Rdiv. rewrite Rabs_mult, <- RPow_abs. rewrite (Rabs_pos_eq (/ INR (fact (2 * k + 1)))) by (left; apply Rinv_0_lt_compat, INR_fact_lt_0).
    replace (S (2 * k + 2)) with (2 * k + 1 + 2)%nat by lia. rewrite pow_add. replace (2 * k + 2)%nat with (S (2 * k + 1)) by lia. rewrite fact_simpl, mult_INR, Rinv_mult.
    set (w := Rabs X ^ (2 * k + 1)). set (f := / INR (fact (2 * k + 1))). assert (W0 : 0 <= w) by (apply pow_le, P). assert (F0 : 0 < f) by (apply Rinv_0_lt_compat, INR_fact_lt_0).
    assert (WF : 0 <= w * f) by (apply Rmult_le_pos; lra).
    assert (I : 0 < / INR (S (2 * k + 1)) <= / 2). { split; [apply Rinv_0_lt_compat, lt_0_INR; lia|]. apply Rinv_le_contravar; [lra|]. change 2 with (INR 2). apply le_INR. lia. }
    assert (X2 : 0 <= Rabs X ^ 2 <= 2601 / 1000000). { split; [apply pow_le, P|]. cbn [pow]. rewrite Rmult_1_r. replace (2601 / 1000000) with (51 / 1000 * (51 / 1000)) by lra. apply Rmult_le_compat; lra. }
    replace (3 * (w * Rabs X ^ 2 * (/ INR (S (2 * k + 1)) * f))) with (3 * (Rabs X ^ 2 * / INR (S (2 * k + 1))) * (w * f)) by ring. apply Rmult_le_compat_r; [exact WF|].
    assert (Rabs X ^ 2 * / INR (S (2 * k + 1)) <= 2601 / 1000000 * / 2) by (apply Rmult_le_compat; lra). lra. }
  unfold Rdiv. rewrite Rabs_mult, (Rabs_pos_eq (/ 2)) by lra. unfold Rminus at 1.
  assert (T := Rabs_triang (exp X - esum (2 * k + 2) X) (- (exp (- X) - esum (2 * k + 2) (- X)))). rewrite Rabs_Ropp in T. lra.
Qed.
Lemma sterm_next X k : Rabs X <= 51 / 1000 -> Rabs (sterm X (S k)) <= / 2300 * Rabs (sterm X k).
Proof.
  intros H. assert (P := Rabs_pos X). rewrite sterm_S. unfold Rdiv. rewrite !Rabs_mult. assert (Pk := Rabs_pos (sterm X k)).
  assert (N : 6 <= IZR (Z.of_nat ((2 * k + 2) * (2 * k + 3)))) by (apply IZR_le; nia).
  assert (I : 0 < / IZR (Z.of_nat ((2 * k + 2) * (2 * k + 3))) <= / 6) by (split; [apply Rinv_0_lt_compat; lra|apply Rinv_le_contravar; lra]).
  rewrite (Rabs_pos_eq (/ _)) by lra. rewrite Rmult_assoc, (Rmult_comm (/ 2300)). apply Rmult_le_compat_l; [exact Pk|].
  assert (X2 : 0 <= Rabs X * Rabs X <= 2601 / 1000000). { split; [now apply Rmult_le_pos|]. replace (2601 / 1000000) with (51 / 1000 * (51 / 1000)) by lra. apply Rmult_le_compat; lra. }
  apply Rle_trans with (2601 / 1000000 * / 6); [apply Rmult_le_compat; lra|lra].
Qed.
Lemma sterm_pow X k : Rabs X <= 51 / 1000 -> Rabs (sterm X k) <= (/ 2300) ^ k * Rabs X.
Proof.
  intros H. induction k as [|k IH]; [rewrite sterm_0; cbn; lra|]. apply Rle_trans with (1 := sterm_next X k H). cbn [pow]. rewrite Rmult_assoc. apply Rmult_le_compat_l; lra.
Qed.

(** ** products of approximations *)
Lemma rel_mul e f x y P Q : rel e x P -> rel f y Q -> 0 <= e <= / 1000 -> 0 <= f <= / 1000 -> Rabs P <= bp 99 -> Rabs Q <= bp 99 -> bp (-770) <= Rabs (P * Q) ->
  rel (1001 / 1000 * (e + f) + 101 / 10 * vv) (d_mul x y) (P * Q).
Proof.
  intros Rx Ry He Hf BP BQ L. assert (Vx := rel_val _ _ _ Rx He). assert (Vy := rel_val _ _ _ Ry Hf). destruct Rx as [Nx Ex]. destruct Ry as [Ny Ey].
  assert (B : bp 100 = 2 * bp 99) by exact (bp_split 99 1 ltac:(lia)). assert (B9 := bpow_gt_0 radix2 99). assert (PP := Rabs_pos P). assert (PQ := Rabs_pos Q).
  destruct (mul_abs x y Nx Ny ltac:(lra) ltac:(lra)) as [N M]. split; [exact N|].
  assert (K := rel_prod _ _ _ _ _ _ Ex Ey). set (W := Rabs (P * Q)) in *.
  assert (WE : Rabs P * Rabs Q = W) by (unfold W; rewrite Rabs_mult; reflexivity).
  replace (e * Rabs P * Rabs Q + Rabs P * (f * Rabs Q) + e * Rabs P * (f * Rabs Q)) with ((e + f + e * f) * W) in K by (rewrite <- WE; ring).
  assert (EF : e * f <= / 1000 * f) by (apply Rmult_le_compat_r; lra). assert (W0 : 0 < W) by (assert (G := bpow_gt_0 radix2 (-770)); lra).
  assert (K' : (e + f + e * f) * W <= 1001 / 1000 * (e + f) * W) by (apply Rmult_le_compat_r; lra).
  assert (KB : 1001 / 1000 * (e + f) * W <= 2002 / 1000000 * W) by (apply Rmult_le_compat_r; lra).
  assert (T := tri _ _ _ _ K (Rle_refl _)). fold W in T.
  assert (TN : tiny <= / 1000 * vv * W). { apply Rle_trans with (bp (-10) * vv * bp (-770)).
    - rewrite <- vv_bp, <- !bpow_plus. apply bpow_le. lia.
    - apply Rmult_le_compat; [apply Rmult_le_pos; [apply bpow_ge_0|lra]|apply bpow_ge_0| |exact L]. apply Rmult_le_compat_r; [lra|]. change (bp (-10)) with (/ 1024). lra. }
  replace (DV (d_mul x y) - P * Q) with ((DV (d_mul x y) - DV x * DV y) + (DV x * DV y - P * Q)) by ring. eapply Rle_trans; [apply Rabs_triang|]. lra.
Qed.
Lemma rel_sqr x : DNorm x -> bp (-350) <= Rabs (DV x) -> Rabs (DV x) <= bp 99 -> rel (91 / 10 * vv) (d_sqr x) (DV x * DV x).
Proof.
  intros N L U. assert (B : bp 99 <= bp 100) by (apply bpow_le; lia). destruct (sqr_abs x N ltac:(lra)) as [N2 E]. split; [exact N2|].
  assert (Q : DV x * DV x = Rabs (DV x) * Rabs (DV x)) by (rewrite <- Rabs_mult; symmetry; apply Rabs_pos_eq; apply Rle_0_sqr).
  assert (P3 := bpow_gt_0 radix2 (-350)). assert (LQ : bp (-700) <= DV x * DV x). { rewrite Q. replace (bp (-700)) with (bp (-350) * bp (-350)) by (rewrite <- bpow_plus; reflexivity). apply Rmult_le_compat; lra. }
  assert (P7 := bpow_gt_0 radix2 (-700)). rewrite (Rabs_pos_eq (DV x * DV x)) by lra.
  assert (TN : tiny <= / 1000 * vv * (DV x * DV x)). { apply Rle_trans with (bp (-10) * vv * bp (-700)).
    - rewrite <- vv_bp, <- !bpow_plus. apply bpow_le. lia.
    - apply Rmult_le_compat; [apply Rmult_le_pos; [apply bpow_ge_0|lra]|apply bpow_ge_0| |exact LQ]. apply Rmult_le_compat_r; [lra|]. change (bp (-10)) with (/ 1024). lra. }
  lra.
Qed.

(** ** the loop *)
Section Loop.
Variables (lm : libm) (dbg : bool) (r thr : Double) (X : R).
Hypothesis HX : bp (-200) <= Rabs X <= 51 / 1000.
Hypothesis Hr : rel (91 / 10 * vv) r (X * X).
Hypothesis Nthr : DNorm thr.
Hypothesis Bthr : 39 / 10 * vv * Rabs X <= DV thr <= 41 / 10 * vv * Rabs X.

Lemma d_le_abs_iff t : DNorm t -> (d_le (d_abs t) thr = true -> Rabs (DV t) <= DV thr) /\ (d_le (d_abs t) thr = false -> DV thr <= Rabs (DV t)).
Proof.
  intros Nt. assert (F : fis_nan (d0 t) = false) by (apply Fin_nan; apply Nt).
  destruct (d_abs_ok t F) as (_ & _ & _ & K). destruct (K Nt) as [Na Va]. rewrite <- Va. assert (O := proj1 (proj2 (proj2 (proj2 (d_ord_ok _ _ Na Nthr))))).
  split; [apply O|]. intros E. destruct (Rle_or_lt (DV thr) (DV (d_abs t))) as [G|G]; [exact G|]. apply Rlt_le in G. apply (proj2 O) in G. congruence.
Qed.
Lemma small_ok z : (1 <= z <= 1000)%Z -> rel 0 (d_from_small z) (IZR z).
Proof.
  intros Hz. unfold d_from_small. destruct (fofZ_exact z ltac:(lia)) as [F E]. destruct (d_single_norm (fofZ z) F) as [N EV]. rewrite E in EV. rewrite <- EV. now apply rel_self.
Qed.
Lemma sinh_loop_ok n : forall k fuel s t, (k + n = 10)%nat -> (n < fuel)%nat -> DNorm s -> Rabs (DV s - ssum X k) <= INR k * (63 / 10) * vv * Rabs X ->
  rel (37 * INR k * vv) t (sterm X k) -> (k = 0%nat \/ 38 / 10 * vv * Rabs X <= Rabs (sterm X k)) ->
  exists v, d_sinh_loop fuel lm dbg (2 * Z.of_nat k + 1) r thr s t = Val v /\ DNorm v /\ Rabs (DV v - sinh X) <= 64 * vv * Rabs X.
Proof.
  assert (P2 := bpow_gt_0 radix2 (-200)). destruct HX as [LX UX].
  induction n as [|n IH]; intros k fuel s t Hk Hf Ns Es Ht Lt.
  { exfalso. destruct Lt as [E|E]; [lia|]. replace k with 10%nat in E by lia. assert (K := sterm_pow X 10 UX). cbn [pow] in K. lra. }
  destruct fuel as [|fuel]; [lia|]. cbn [d_sinh_loop].
  assert (KB : 0 <= INR k <= 9). { split; [apply pos_INR|]. replace 9 with (INR 9) by (cbn; lra). apply le_INR. lia. }
  rewrite i32_chk_ok by lia. cbn [obind]. set (mm := ((2 * Z.of_nat k + 1 + 2 - 1) * (2 * Z.of_nat k + 1 + 2))%Z).
  assert (MM : mm = Z.of_nat ((2 * k + 2) * (2 * k + 3))) by (unfold mm; lia). assert (MB : (6 <= mm <= 1000)%Z) by (rewrite MM; nia).
  rewrite (i32_chk_ok dbg mm) by lia. cbn [obind].
  assert (MR : 6 <= IZR mm <= 1000) by (split; apply IZR_le; lia).
  assert (TB : Rabs (sterm X k) <= Rabs X). { apply Rle_trans with (1 := sterm_pow X k UX). rewrite <- (Rmult_1_l (Rabs X)) at 2. apply Rmult_le_compat_r; [apply Rabs_pos|]. replace 1 with (1 ^ k) by apply pow1. apply pow_incr. lra. }
  assert (TL : 38 / 10 * vv * Rabs X <= Rabs (sterm X k)). { destruct Lt as [->|E]; [rewrite sterm_0; lra|exact E]. }
  assert (AX : Rabs (X * X) = Rabs X * Rabs X) by apply Rabs_mult.
  assert (X2L : bp (-400) <= Rabs (X * X)). { rewrite AX. replace (bp (-400)) with (bp (-200) * bp (-200)) by (rewrite <- bpow_plus; reflexivity). apply Rmult_le_compat; lra. }
  assert (X2U : Rabs (X * X) <= 1). { rewrite AX. replace 1 with (1 * 1) by ring. apply Rmult_le_compat; lra. }
  assert (B99 : 1 <= bp 99) by (change 1 with (bp 0); apply bpow_le; lia).
  assert (PL : bp (-720) <= Rabs (sterm X k * (X * X))).
  { rewrite Rabs_mult. apply Rle_trans with (bp (-306) * bp (-400)); [rewrite <- bpow_plus; apply bpow_le; lia|]. apply Rmult_le_compat; try apply bpow_ge_0; [|exact X2L].
    apply Rle_trans with (2 := TL). apply Rle_trans with (vv * bp (-200)); [rewrite <- vv_bp, <- bpow_plus; apply bpow_le; lia|]. apply Rmult_le_compat; lra. }
  assert (P72 := bpow_gt_0 radix2 (-720)).
  assert (M1 := rel_mul _ _ t r _ _ Ht Hr ltac:(lra) ltac:(lra) ltac:(lra) ltac:(lra) ltac:(apply Rle_trans with (2 := PL); apply bpow_le; lia)).
  set (tm := d_mul t r) in *.
  assert (MU : Rabs (sterm X k * (X * X)) <= 1). { rewrite Rabs_mult. replace 1 with (1 * 1) by ring. apply Rmult_le_compat; try apply Rabs_pos; lra. }
  assert (B1000 : 1 <= bp 1000) by (change 1 with (bp 0); apply bpow_le; lia).
  assert (DQ : Rabs (sterm X k * (X * X) / IZR mm) = Rabs (sterm X k * (X * X)) * / IZR mm) by (unfold Rdiv; rewrite Rabs_mult, (Rabs_pos_eq (/ IZR mm)); [reflexivity|left; apply Rinv_0_lt_compat; lra]).
  assert (IM : / 1000 <= / IZR mm <= / 6) by (split; apply Rinv_le_contravar; lra).
  assert (DL : bp (-890) <= Rabs (sterm X k * (X * X) / IZR mm) <= bp 1000).
  { rewrite DQ. split.
    - apply Rle_trans with (bp (-720) * / 1000); [|apply Rmult_le_compat; lra]. assert (B := bp_100 (-740)). assert (B2 := bp_100 (-733)). change (-740 + 7)%Z with (-733)%Z in B. change (-733 + 7)%Z with (-726)%Z in B2.
      assert (B3 : bp (-726) <= bp (-720)) by (apply bpow_le; lia). assert (B4 : bp (-890) <= bp (-740)) by (apply bpow_le; lia). lra.
    - apply Rle_trans with (1 * / 6); [apply Rmult_le_compat; try lra; apply Rabs_pos|lra]. }
  assert (MZ : IZR mm <> 0) by (apply Rgt_not_eq; lra).
  assert (PL9 : bp (-890) <= Rabs (sterm X k * (X * X)) <= bp 1000) by (split; [apply Rle_trans with (2 := PL); apply bpow_le; lia|lra]).
  assert (E0 : 0 <= 0 <= / 1000) by lra.
  assert (E1 : 0 <= 1001 / 1000 * (37 * INR k * vv + 91 / 10 * vv) + 101 / 10 * vv <= / 1000) by (clear - KB; lra).
  assert (D1 := rel_div _ _ tm (d_from_small mm) _ _ M1 (small_ok mm ltac:(lia)) E1 E0 PL9 MZ DL).
  rewrite MM in D1 at 2. rewrite <- sterm_S in D1. set (t' := d_div tm (d_from_small mm)) in *.
  assert (Ht' : rel (37 * INR (S k) * vv) t' (sterm X (S k))). { apply rel_le with (1 := D1). rewrite S_INR. lra. }
  assert (KS : INR (S k) = INR k + 1) by apply S_INR. assert (VT := rel_val _ _ _ Ht' ltac:(rewrite KS; lra)).
  assert (TN := sterm_next X k UX). assert (PX := Rabs_pos X).
  destruct Ht' as [Nt' Et'].
  assert (SU : Rabs (ssum X k) <= 101 / 100 * Rabs X).
  { assert (R0 := sinh_rem X k UX). assert (R1 := sinh_rem X 0 UX). rewrite ssum_0, sterm_0 in R1.
    replace (ssum X k) with (- (sinh X - ssum X k) + (sinh X - X) + X) by ring. eapply Rle_trans; [apply Rabs_triang|]. eapply Rle_trans; [apply Rplus_le_compat_r, Rabs_triang|]. rewrite Rabs_Ropp. lra. }
  assert (KV : INR k * (63 / 10) * vv * Rabs X <= 60 * vv * Rabs X) by (apply Rmult_le_compat_r; lra).
  assert (SB := tri _ _ _ _ Es (Rle_refl _)).
  destruct (sum_near s t' (ssum X k) (sterm X (S k)) _ _ Ns Nt' Es Et' ltac:(lra) ltac:(lra)) as [[Ns' Es'] _]. set (s' := d_add s t') in *.
  assert (ET36 : 37 * INR (S k) * vv * Rabs (sterm X (S k)) <= 370 * vv * Rabs (sterm X (S k))) by (apply Rmult_le_compat_r; [apply Rabs_pos|rewrite KS; lra]).
  assert (AB : Rabs (ssum X k + sterm X (S k)) <= 1011 / 1000 * Rabs X). { eapply Rle_trans; [apply Rabs_triang|]. lra. }
  assert (ES2 : Rabs (DV s' - ssum X (S k)) <= INR (S k) * (63 / 10) * vv * Rabs X).
  { rewrite ssum_S, KS. apply Rle_trans with (1 := Es'). set (kv := INR k * (63 / 10) * vv * Rabs X) in *. replace ((INR k + 1) * (63 / 10) * vv * Rabs X) with (kv + 63 / 10 * vv * Rabs X) by (unfold kv; ring). lra. }
  destruct (d_le_abs_iff t' Nt') as [LE GT]. destruct (d_le (d_abs t') thr) eqn:CMP.
  - specialize (LE eq_refl). exists s'. split; [reflexivity|]. split; [exact Ns'|].
    assert (R0 := sinh_rem X (S k) UX). assert (INR (S k) * (63 / 10) * vv * Rabs X <= 63 * vv * Rabs X) by (apply Rmult_le_compat_r; [exact PX|rewrite KS; lra]).
    replace (DV s' - sinh X) with ((DV s' - ssum X (S k)) - (sinh X - ssum X (S k))) by ring. unfold Rminus at 1. eapply Rle_trans; [apply Rabs_triang|]. rewrite Rabs_Ropp. lra.
  - specialize (GT eq_refl). assert (2 * Z.of_nat k + 1 + 2 = 2 * Z.of_nat (S k) + 1)%Z as -> by lia.
    apply (IH (S k) fuel s' t'); [lia|lia|exact Ns'|exact ES2|split; [exact Nt'|exact Et']|right; lra].
Qed.
End Loop.
