(** * Double sin and cos by Taylor series, for small arguments *)
From Coq Require Import ZArith Reals Lra Lia Psatz List Bool.
From Flocq Require Import Core IEEE754.BinarySingleNaN.
From Verif Require Import RN F64 Prim DoubleM Spec F64Facts EFT DAddProofs DMulProofs DDivProofs MulAny LdexpProofs Sim LawProofs OrderProofs AbsOps Exact ConstM BaseConst ConstProofs TableProofs AlgM TransM ExpProofs ExpThms SinLoop.
Local Open Scope R_scope.

(** ** the series of the standard library *)
Lemma pow_m1 n : Rabs ((-1) ^ n) = 1. Proof. rewrite <- RPow_abs. rewrite Rabs_left by lra. replace (- -1) with 1 by ring. apply pow1. Qed.
Lemma Xpow A j : (- (A * A)) ^ j = (-1) ^ j * A ^ (2 * j).
Proof. rewrite pow_mult. replace (A ^ 2) with (A * A) by ring. rewrite <- Rpow_mult_distr. f_equal. ring. Qed.
Lemma sin_term_X A j : sin_term A j = A * (- (A * A)) ^ j / INR (fact (2 * j + 1)).
Proof. unfold sin_term. rewrite Xpow. rewrite pow_add, pow_1. unfold Rdiv. ring. Qed.
Lemma cos_term_X A j : cos_term A j = (- (A * A)) ^ j / INR (fact (2 * j)).
Proof. unfold cos_term. rewrite Xpow. unfold Rdiv. ring. Qed.
Lemma tsum_sin A m : forall j, sin_approx A j + tsum m (2 * j) (- (A * A)) (A * (- (A * A)) ^ j) = sin_approx A (j + m).
Proof.
  induction m as [|m IH]; intros j; [cbn [tsum]; rewrite Nat.add_0_r; ring|].
  replace (j + S m)%nat with (S j + m)%nat by lia. rewrite <- IH. unfold sin_approx. cbn [sum_f_R0]. rewrite sin_term_X.
  cbn [tsum]. replace (2 * S j)%nat with (S (S (2 * j))) by lia. replace (S (S (2 * j)) + 1)%nat with (2 * j + 3)%nat by lia.
  replace (A * (- (A * A)) ^ S j) with (A * (- (A * A)) ^ j * - (A * A)) by (cbn [pow]; ring). ring.
Qed.
Lemma tsum_cos A m : forall j, cos_approx A (S j) + tsum m (2 * j + 1) (- (A * A)) ((- (A * A)) ^ S j) = cos_approx A (S j + m).
Proof.
  induction m as [|m IH]; intros j; [cbn [tsum]; rewrite Nat.add_0_r; ring|].
  replace (S j + S m)%nat with (S (S j) + m)%nat by lia. rewrite <- IH. unfold cos_approx. cbn [sum_f_R0]. rewrite (cos_term_X A (S (S j))).
  cbn [tsum]. replace (2 * S (S j))%nat with (2 * j + 1 + 3)%nat by lia. replace (2 * S j + 1)%nat with (S (S (2 * j + 1))) by lia.
  replace ((- (A * A)) ^ S (S j)) with ((- (A * A)) ^ S j * - (A * A)) by (cbn [pow]; ring). ring.
Qed.
Lemma tlast_sin A m : forall j, tlast (S m) (2 * j) (- (A * A)) (A * (- (A * A)) ^ j) = sin_term A (j + S m).
Proof.
  induction m as [|m IH]; intros j.
  - rewrite sin_term_X. cbn [tlast]. replace (2 * (j + 1) + 1)%nat with (2 * j + 3)%nat by lia. replace (j + 1)%nat with (S j) by lia. cbn [pow]. unfold Rdiv. ring.
  - change (tlast (S (S m)) (2 * j) (- (A * A)) (A * (- (A * A)) ^ j)) with (tlast (S m) (S (S (2 * j))) (- (A * A)) (A * (- (A * A)) ^ j * - (A * A))).
    replace (j + S (S m))%nat with (S j + S m)%nat by lia. rewrite <- IH. replace (2 * S j)%nat with (S (S (2 * j))) by lia. f_equal. cbn [pow]. ring.
Qed.
Lemma tlast_cos A m : forall j, tlast (S m) (2 * j + 1) (- (A * A)) ((- (A * A)) ^ S j) = cos_term A (S j + S m).
Proof.
  induction m as [|m IH]; intros j.
  - rewrite cos_term_X. cbn [tlast]. replace (2 * (S j + 1))%nat with (2 * j + 1 + 3)%nat by lia. replace (S j + 1)%nat with (S (S j)) by lia. cbn [pow]. unfold Rdiv. ring.
  - change (tlast (S (S m)) (2 * j + 1) (- (A * A)) ((- (A * A)) ^ S j)) with (tlast (S m) (S (S (2 * j + 1))) (- (A * A)) ((- (A * A)) ^ S j * - (A * A))).
    replace (S j + S (S m))%nat with (S (S j) + S m)%nat by lia. rewrite <- IH. replace (2 * S j + 1)%nat with (S (S (2 * j + 1))) by lia. f_equal. cbn [pow]. ring.
Qed.
(** the remainder is at most the next term *)
Lemma sin_rem_pos a n : 0 <= a <= 1 -> Rabs (sin a - sin_approx a (S n)) <= Rabs (sin_term a (S (S n))).
Proof.
  intros H. destruct (Nat.Even_or_Odd n) as [[k E]|[k E]].
  - (* n = 2k: S n = 2k+1 *)
    destruct (pre_sin_bound a k ltac:(lra) ltac:(lra)) as [L U]. replace (2 * (k + 1))%nat with (S (S n)) in U by lia. replace (2 * k + 1)%nat with (S n) in L by lia.
    unfold sin_approx in U at 1. cbn [sum_f_R0] in U. change (sum_f_R0 (sin_term a) n + sin_term a (S n)) with (sin_approx a (S n)) in U.
    assert (K := Rle_abs (sin_term a (S (S n)))). unfold Rabs at 1. destruct (Rcase_abs _); lra.
  - destruct (pre_sin_bound a k ltac:(lra) ltac:(lra)) as [_ U]. destruct (pre_sin_bound a (S k) ltac:(lra) ltac:(lra)) as [L _].
    replace (2 * (k + 1))%nat with (S n) in U by lia. replace (2 * S k + 1)%nat with (S (S n)) in L by lia.
    unfold sin_approx in L at 1. cbn [sum_f_R0] in L. change (sum_f_R0 (sin_term a) n + sin_term a (S n)) with (sin_approx a (S n)) in L.
    assert (K := Rle_abs (- sin_term a (S (S n)))). rewrite Rabs_Ropp in K. unfold Rabs at 1. destruct (Rcase_abs _); lra.
Qed.
Lemma sin_approx_opp a n : sin_approx (- a) n = - sin_approx a n.
Proof.
  unfold sin_approx. induction n as [|n IH]; cbn [sum_f_R0]; [unfold sin_term; cbn; field|]. rewrite IH, !sin_term_X. replace (- a * - a) with (a * a) by ring. unfold Rdiv. ring.
Qed.
Lemma sin_rem a n : Rabs a <= 1 -> Rabs (sin a - sin_approx a (S n)) <= Rabs (sin_term a (S (S n))).
Proof.
  intros H. destruct (Rle_or_lt 0 a) as [P|P].
  - apply sin_rem_pos. rewrite Rabs_pos_eq in H by lra. lra.
  - rewrite Rabs_left in H by lra. assert (K := sin_rem_pos (- a) n ltac:(lra)). rewrite sin_neg, sin_approx_opp in K.
    replace (- sin a - - sin_approx a (S n)) with (- (sin a - sin_approx a (S n))) in K by ring. rewrite Rabs_Ropp in K.
    replace (sin_term (- a) (S (S n))) with (- sin_term a (S (S n))) in K by (rewrite !sin_term_X; replace (- a * - a) with (a * a) by ring; unfold Rdiv; ring).
    now rewrite Rabs_Ropp in K.
Qed.
Lemma cos_rem a n : Rabs a <= 1 -> Rabs (cos a - cos_approx a (S n)) <= Rabs (cos_term a (S (S n))).
Proof.
  intros H. apply Rabs_def2' in H. destruct (Nat.Even_or_Odd n) as [[k E]|[k E]].
  - destruct (pre_cos_bound a k ltac:(lra) ltac:(lra)) as [L U]. replace (2 * (k + 1))%nat with (S (S n)) in U by lia. replace (2 * k + 1)%nat with (S n) in L by lia.
    unfold cos_approx in U at 1. cbn [sum_f_R0] in U. change (sum_f_R0 (cos_term a) n + cos_term a (S n)) with (cos_approx a (S n)) in U.
    assert (K := Rle_abs (cos_term a (S (S n)))). unfold Rabs at 1. destruct (Rcase_abs _); lra.
  - destruct (pre_cos_bound a k ltac:(lra) ltac:(lra)) as [_ U]. destruct (pre_cos_bound a (S k) ltac:(lra) ltac:(lra)) as [L _].
    replace (2 * (k + 1))%nat with (S n) in U by lia. replace (2 * S k + 1)%nat with (S (S n)) in L by lia.
    unfold cos_approx in L at 1. cbn [sum_f_R0] in L. change (sum_f_R0 (cos_term a) n + cos_term a (S n)) with (cos_approx a (S n)) in L.
    assert (K := Rle_abs (- cos_term a (S (S n)))). rewrite Rabs_Ropp in K. unfold Rabs at 1. destruct (Rcase_abs _); lra.
Qed.
Lemma fact_up k : 0 < / INR (fact (S (S k))) <= / 2 * / INR (fact k).
Proof.
  assert (P := INR_fact_lt_0 k). split; [apply Rinv_0_lt_compat, INR_fact_lt_0|]. rewrite <- Rinv_mult. apply Rinv_le_contravar; [lra|].
  change 2 with (INR 2). rewrite <- mult_INR. apply le_INR. cbn [fact]. assert (0 < fact k)%nat by apply lt_O_fact. nia.
Qed.
(** each term is at most a two-hundredth of the one before *)
Lemma sin_term_next A j : Rabs A <= / 10 -> Rabs (sin_term A (S j)) <= / 200 * Rabs (sin_term A j).
Proof.
  intros H. rewrite !sin_term_X. replace (2 * S j + 1)%nat with (S (S (2 * j + 1))) by lia. assert (F := fact_up (2 * j + 1)).
  set (F1 := / INR (fact (S (S (2 * j + 1))))) in *. set (F0 := / INR (fact (2 * j + 1))) in *. unfold Rdiv. fold F0 F1.
  replace (A * (- (A * A)) ^ S j * F1) with ((A * (- (A * A)) ^ j) * (- (A * A) * F1)) by (cbn [pow]; ring).
  rewrite Rabs_mult, (Rabs_mult _ F0), (Rabs_pos_eq F0) by lra. assert (P := Rabs_pos (A * (- (A * A)) ^ j)).
  assert (Q : Rabs (- (A * A) * F1) <= / 200 * F0).
  { rewrite Rabs_mult, Rabs_Ropp, Rabs_mult, (Rabs_pos_eq F1) by lra. assert (PA := Rabs_pos A). assert (0 <= Rabs A * Rabs A <= / 100) by nra.
    replace (/ 200 * F0) with (/ 100 * (/ 2 * F0)) by field. apply Rmult_le_compat; lra. }
  replace (/ 200 * (Rabs (A * (- (A * A)) ^ j) * F0)) with (Rabs (A * (- (A * A)) ^ j) * (/ 200 * F0)) by ring. apply Rmult_le_compat_l; lra.
Qed.
Lemma cos_term_next A j : Rabs A <= / 10 -> Rabs (cos_term A (S j)) <= / 200 * Rabs (cos_term A j).
Proof.
  intros H. rewrite !cos_term_X. replace (2 * S j)%nat with (S (S (2 * j))) by lia. assert (F := fact_up (2 * j)).
  set (F1 := / INR (fact (S (S (2 * j))))) in *. set (F0 := / INR (fact (2 * j))) in *. unfold Rdiv. fold F0 F1.
  replace ((- (A * A)) ^ S j * F1) with (((- (A * A)) ^ j) * (- (A * A) * F1)) by (cbn [pow]; ring).
  rewrite Rabs_mult, (Rabs_mult _ F0), (Rabs_pos_eq F0) by lra. assert (P := Rabs_pos ((- (A * A)) ^ j)).
  assert (Q : Rabs (- (A * A) * F1) <= / 200 * F0).
  { rewrite Rabs_mult, Rabs_Ropp, Rabs_mult, (Rabs_pos_eq F1) by lra. assert (PA := Rabs_pos A). assert (0 <= Rabs A * Rabs A <= / 100) by nra.
    replace (/ 200 * F0) with (/ 100 * (/ 2 * F0)) by field. apply Rmult_le_compat; lra. }
  replace (/ 200 * (Rabs ((- (A * A)) ^ j) * F0)) with (Rabs ((- (A * A)) ^ j) * (/ 200 * F0)) by ring. apply Rmult_le_compat_l; lra.
Qed.
Lemma pow100 A j : Rabs A <= / 10 -> Rabs ((- (A * A)) ^ j) <= (/ 100) ^ j.
Proof.
  intros H. rewrite <- RPow_abs. apply pow_incr. split; [apply Rabs_pos|]. rewrite Rabs_Ropp, Rabs_mult. assert (P := Rabs_pos A). nra.
Qed.
Lemma sin_term_9 A : Rabs A <= / 10 -> Rabs (sin_term A 9) <= / 100 * vv * Rabs A.
Proof.
  intros H. rewrite sin_term_X. unfold Rdiv. rewrite !Rabs_mult. assert (P := pow100 A 9 H). assert (PF := INR_fact_lt_0 (2 * 9 + 1)).
  rewrite (Rabs_pos_eq (/ _)) by (left; now apply Rinv_0_lt_compat). assert (PA := Rabs_pos A).
  assert (F : / INR (fact (2 * 9 + 1)) <= / 100000000000000000).
  { apply Rinv_le_contravar; [lra|]. rewrite fact_z. apply IZR_le. apply Z.leb_le. vm_compute. reflexivity. }
  assert (F0 : 0 < / INR (fact (2 * 9 + 1))) by now apply Rinv_0_lt_compat.
  rewrite Rmult_assoc, Rmult_comm. apply Rmult_le_compat_r; [lra|].
  apply Rle_trans with ((/ 100) ^ 9 * / 100000000000000000); [apply Rmult_le_compat; auto using Rabs_pos; lra|lra].
Qed.
Lemma cos_term_9 A : Rabs A <= / 10 -> Rabs (cos_term A 9) <= / 50 * vv.
Proof.
  intros H. rewrite cos_term_X. unfold Rdiv. rewrite !Rabs_mult. assert (P := pow100 A 9 H). assert (PF := INR_fact_lt_0 (2 * 9)).
  rewrite (Rabs_pos_eq (/ _)) by (left; now apply Rinv_0_lt_compat).
  assert (F : / INR (fact (2 * 9)) <= / 6000000000000000).
  { apply Rinv_le_contravar; [lra|]. rewrite fact_z. apply IZR_le. apply Z.leb_le. vm_compute. reflexivity. }
  assert (F0 : 0 < / INR (fact (2 * 9))) by now apply Rinv_0_lt_compat.
  apply Rle_trans with ((/ 100) ^ 9 * / 6000000000000000); [apply Rmult_le_compat; auto using Rabs_pos; lra|lra].
Qed.

(** ** the series of the code *)
Lemma neg_abs_sqr a : DNorm a -> Rabs (DV a) <= / 10 ->
  DNorm (d_neg (d_sqr a)) /\ Rabs (DV (d_neg (d_sqr a)) - - (DV a * DV a)) <= 9 * vv * Rabs (- (DV a * DV a)) + tiny /\ Rabs (- (DV a * DV a)) <= / 100.
Proof.
  intros N H. destruct (sqr_abs a N ltac:(apply b100; lra)) as [N1 E1]. destruct (d_neg_val (d_sqr a)) as [VN NN]. rewrite VN.
  split; [now apply NN|]. assert (P := Rabs_pos (DV a)). assert (SQ : Rabs (DV a * DV a) = DV a * DV a) by (apply Rabs_pos_eq; nra).
  rewrite Rabs_Ropp, SQ. split.
  - replace (- DV (d_sqr a) - - (DV a * DV a)) with (- (DV (d_sqr a) - DV a * DV a)) by ring. rewrite Rabs_Ropp. lra.
  - rewrite <- SQ, Rabs_mult. nra.
Qed.
Lemma DNorm_zero0 : DNorm D_ZERO /\ DV D_ZERO = 0.
Proof.
  assert (V0 : DV D_ZERO = 0) by (unfold DV, D_ZERO; cbn [d0 d1]; rewrite V_0; ring).
  split; [|exact V0]. split; [split; reflexivity|]. rewrite V0. unfold RN. change (d0 D_ZERO) with f0. now rewrite rn_0, V_0.
Qed.
Lemma d_is_zero_DV a : DNorm a -> d_is_zero a = true -> DV a = 0.
Proof.
  intros N H. unfold d_is_zero in H. assert (F := proj1 (proj1 N)).
  assert (Z : V (d0 a) = 0) by (apply (feqb_V _ f0 F eq_refl) in H; exact H).
  assert (Z1 := DNorm_zero a Z N). unfold DV. rewrite Z, Z1. ring.
Qed.
Lemma half_le h : Fin h -> 0 <= V h -> Fin (fmul h fhalf) /\ V (fmul h fhalf) <= V h.
Proof.
  intros F P. destruct fhalf_V' as [Fh Vh]. assert (M : rn (V h * / 2) <= V h).
  { rewrite <- (rn_id (V h) (V_fmt h)) at 2. apply rn_le. lra. }
  assert (M0 : 0 <= rn (V h * / 2)). { rewrite <- rn_0. apply rn_le. lra. }
  destruct (fmul_ok h fhalf F Fh) as [Fa [Va _]].
  - rewrite Vh. rewrite Rabs_pos_eq by lra. apply Rle_lt_trans with (1 := M). assert (K := V_lt_1024 h). rewrite Rabs_pos_eq in K by exact P. exact K.
  - split; [exact Fa|]. rewrite Va, Vh. exact M.
Qed.
Lemma eps_ok : DNorm D_EPSILON /\ 0 < DV D_EPSILON <= 401 / 100 * vv.
Proof.
  split; [apply dnormx_ok; vm_compute; reflexivity|]. rewrite zd_ok.
  assert (K : (zd D_EPSILON * 100 <=? 401 * 2 ^ 968)%Z = true) by (vm_compute; reflexivity). apply Z.leb_le in K. apply IZR_le in K. rewrite !mult_IZR in K.
  change (2 ^ 968)%Z with (radix2 ^ 968)%Z in K. rewrite IZR_Zpower in K by lia.
  assert (E : bp 968 * bp (-1074) = vv) by (rewrite <- bpow_plus; apply vv_bp).
  assert (P := bpow_gt_0 radix2 (-1074)). split.
  - apply Rmult_lt_0_compat; [|exact P]. apply IZR_lt. vm_compute. reflexivity.
  - rewrite <- E. set (z := IZR (zd D_EPSILON)) in *. clearbody z. set (b := bp 968) in *. clearbody b. nra.
Qed.
(** the high word of a nonnegative value *)
Lemma hi_nonneg x : DNorm x -> 0 <= DV x -> 0 <= V (d0 x).
Proof.
  intros N H. destruct (Rle_or_lt 0 (V (d0 x))) as [G|G]; [exact G|]. exfalso. assert (Lo := DNorm_lo _ N).
  rewrite (Rabs_left (V (d0 x))) in Lo by exact G. unfold DV in H. apply Rabs_def2' in Lo. lra.
Qed.
Lemma sin_taylor_ok a : DNorm a -> Rabs (DV a) <= / 10 ->
  DNorm (d_sin_taylor a) /\ Rabs (DV (d_sin_taylor a) - sin (DV a)) <= 51 * vv * Rabs (DV a) + 30 * tiny.
Proof.
  intros N H. destruct tiny_le as [T0 T1]. unfold d_sin_taylor. destruct (d_is_zero a) eqn:Z.
  { apply d_is_zero_DV in Z; auto. rewrite Z, sin_0. destruct DNorm_zero0 as [N0 V0]. split; [exact N0|]. rewrite V0, Rminus_0_r, Rabs_R0. lra. }
  cbv zeta. destruct (neg_abs_sqr a N H) as (Nx & Ex & Bx). set (x := d_neg (d_sqr a)) in *. set (A := DV a) in *. assert (PA := Rabs_pos A).
  (* the threshold *)
  assert (F : fis_nan (d0 a) = false) by (apply Fin_nan; apply N).
  destruct (d_abs_ok a F) as (_ & _ & _ & K). destruct (K N) as [Na Va]. fold A in Va. destruct eps_ok as [Ne Be].
  destruct (mul_abs (d_abs a) D_EPSILON Na Ne) as [Nm Em]; [apply b100; rewrite Va, Rabs_Rabsolu; lra|apply b100; rewrite Rabs_pos_eq; lra|].
  rewrite Va in Em.
  assert (HM : Rabs (DV (d_mul (d_abs a) D_EPSILON)) <= 41 / 10 * vv * Rabs A + tiny).
  { assert (P : 0 <= Rabs A * DV D_EPSILON <= Rabs A * (401 / 100 * vv)) by (split; [apply Rmult_le_pos; lra|apply Rmult_le_compat_l; lra]).
    rewrite (Rabs_pos_eq (Rabs A * DV D_EPSILON)) in Em by lra. apply Rabs_def2' in Em. apply Rabs_le. assert (0 <= vv * Rabs A) by (apply Rmult_le_pos; lra). lra. }
  assert (TH : exists TH, Fin (d0 (d_mul_pwr2 (d_mul (d_abs a) D_EPSILON) fhalf)) /\ V (d0 (d_mul_pwr2 (d_mul (d_abs a) D_EPSILON) fhalf)) <= TH /\ TH <= 5 * vv * Rabs A + 2 * tiny).
  { set (m := d_mul (d_abs a) D_EPSILON) in *. cbn [d_mul_pwr2 d0].
    assert (HH := DNorm_hi_rel m Nm). assert (K2 : Rabs (V (d0 m)) <= 5 * vv * Rabs A + 2 * tiny) by (assert (0 <= vv * Rabs A) by (apply Rmult_le_pos; lra); lra).
    exists (Rabs (V (d0 m))). destruct (Rle_or_lt 0 (V (d0 m))) as [G|G].
    - destruct (half_le (d0 m) (proj1 (proj1 Nm)) G) as [U1 U2]. rewrite Rabs_pos_eq by exact G. split; [exact U1|]. split; [exact U2|]. rewrite Rabs_pos_eq in K2; lra.
    - destruct fhalf_V' as [Fh Vh]. destruct (fmul_ok (d0 m) fhalf (proj1 (proj1 Nm)) Fh) as [U1 [U2 _]].
      + rewrite Vh. apply Rle_lt_trans with (Rabs (V (d0 m))); [|apply V_lt_1024]. apply rn_abs_le; [apply fmt_abs, V_fmt|]. rewrite Rabs_mult, (Rabs_pos_eq (/ 2)) by lra. assert (K3 := Rabs_pos (V (d0 m))). lra.
      + split; [exact U1|]. split; [|exact K2]. rewrite U2. apply Rle_trans with (rn 0); [apply rn_le; rewrite Vh; lra|rewrite rn_0; apply Rabs_pos]. }
  destruct TH as (TH & F1 & F2 & F3). set (thr := d_mul_pwr2 (d_mul (d_abs a) D_EPSILON) fhalf) in *. clearbody thr.
  set (B := 101 / 100 * Rabs A + 100000 * tiny).
  destruct (loop_ok x thr (- (A * A)) B TH Nx F1 F2 Bx Ex) with (n := 8%nat) (i := 0%nat) (c := 0) (e := 0) (W := A) (U := A) (r := a) (s := a) as (m & M1 & M2 & M3 & M4 & M5); unfold B; cbn [INR]; try lra; try lia; try assumption.
  { rewrite Rminus_diag_eq, Rabs_R0 by reflexivity. lra. }
  { rewrite Rminus_diag_eq, Rabs_R0 by reflexivity. lra. }
  fold B in M4, M5. split; [exact M3|]. set (res := d_taylor_loop 8 0 x thr a a) in *. clearbody res.
  assert (IM : INR m <= 8) by (replace 8 with (INR 8) by (cbn; lra); apply le_INR; exact M1).
  assert (VA : 0 <= vv * Rabs A) by (apply Rmult_le_pos; lra). assert (VT : vv * tiny <= / 1000000000 * tiny) by (apply Rmult_le_compat_r; lra).
  assert (M4' : Rabs (DV res - (A + tsum m 0 (- (A * A)) A)) <= 50911 / 1000 * vv * Rabs A + 25 * tiny).
  { eapply Rle_trans; [exact M4|]. rewrite Rplus_0_l. apply Rle_trans with (8 * (63 / 10 * vv * B + 3 * tiny)); [|unfold B; lra].
    apply Rmult_le_compat_r; [|exact IM]. unfold B. lra. }
  assert (SE : A + tsum m 0 (- (A * A)) A = sin_approx A m).
  { assert (K2 := tsum_sin A m 0). rewrite Nat.add_0_l in K2. rewrite <- K2. unfold sin_approx at 1. cbn [sum_f_R0]. unfold sin_term. cbn [Nat.mul Nat.add fact pow]. rewrite Rmult_1_r. change (INR 1) with 1. field. }
  rewrite SE in M4'.
  assert (TR : Rabs (sin A - sin_approx A m) <= 8 / 100 * vv * Rabs A + 4 * tiny).
  { destruct M2 as [M2|M2]; [discriminate|]. destruct m as [|m]; [lia|].
    assert (R1 := sin_rem A m ltac:(lra)). eapply Rle_trans; [exact R1|]. destruct M5 as [M5|M5].
    - rewrite M5. eapply Rle_trans; [apply sin_term_9; exact H|]. lra.
    - assert (K2 := tlast_sin A m 0). rewrite Nat.add_0_l, Nat.mul_0_r in K2. cbn [pow] in K2. rewrite Rmult_1_r in K2. rewrite K2 in M5.
      eapply Rle_trans; [apply sin_term_next; exact H|]. unfold B in M5. lra. }
  replace (DV res - sin A) with ((DV res - sin_approx A m) + - (sin A - sin_approx A m)) by ring.
  eapply Rle_trans; [apply Rabs_triang|]. rewrite Rabs_Ropp. lra.
Qed.
Lemma DRel_val x y : DRel false x y -> DNorm x -> DNorm y /\ DV y = DV x.
Proof.
  intros [R0 R1] [[F0 F1] N]. unfold Rel, esg in R0, R1.
  assert (G : forall a b, to_ext b = to_ext a -> Fin a -> Fin b /\ V b = V a).
  { intros a b E F. rewrite (to_ext_fin a F) in E. assert (Fb : Fin b) by (destruct b as [s|[]| |s m e h]; cbn [to_ext] in E; try discriminate; reflexivity). split; [exact Fb|]. rewrite (to_ext_fin b Fb) in E. now injection E. }
  destruct (G _ _ R0 F0) as [G0 W0]. destruct (G _ _ R1 F1) as [G1 W1].
  assert (E : DV y = DV x) by (unfold DV; now rewrite W0, W1). split; [|exact E]. split; [now split|]. rewrite E, W0. exact N.
Qed.
Lemma one_half x : DNorm x -> Rabs (DV x) <= / 50 ->
  DNorm (d_add D_ONE (d_mul_pwr2 x fhalf)) /\ Rabs (DV (d_add D_ONE (d_mul_pwr2 x fhalf)) - (1 + DV x / 2)) <= 61 / 10 * vv.
Proof.
  intros N H. destruct tiny_le as [T0 T1]. destruct one_ok as [N1 V1]. assert (HH := DNorm_hi_rel x N).
  destruct (Rle_or_lt tiny (Rabs (V (d0 x)))) as [L|L].
  - destruct (half_any x N L) as (K1 & K2 & K3).
    { apply Rle_trans with 1; [lra|]. change 1 with (bp 0). apply bpow_le. lia. }
    assert (B75 : bp (-1075) <= tiny) by (apply bpow_le; lia).
    assert (Bh : Rabs (DV (d_mul_pwr2 x fhalf)) <= / 90).
    { replace (DV (d_mul_pwr2 x fhalf)) with (DV (d_mul_pwr2 x fhalf) - DV x / 2 + DV x / 2) by ring. eapply Rle_trans; [apply Rabs_triang|].
      unfold Rdiv at 2. rewrite (Rabs_mult (DV x)), (Rabs_pos_eq (/ 2)) by lra. lra. }
    destruct (add_abs D_ONE (d_mul_pwr2 x fhalf) N1 K1) as [A1 A2]; [apply b100; rewrite V1, Rabs_R1; lra|apply b100; lra|].
    split; [exact A1|]. rewrite V1 in A2.
    assert (S : Rabs (1 + DV (d_mul_pwr2 x fhalf)) <= 1 + / 90) by (eapply Rle_trans; [apply Rabs_triang|]; rewrite Rabs_R1; lra).
    set (h := DV (d_mul_pwr2 x fhalf)) in *. set (r := DV (d_add _ _)) in *. clearbody h r.
    replace (r - (1 + DV x / 2)) with ((r - (1 + h)) + (h - DV x / 2)) by ring. eapply Rle_trans; [apply Rabs_triang|]. lra.
  - assert (Lo := DNorm_lo x N).
    assert (T : TD (-890) (d_mul_pwr2 x fhalf)).
    { apply TD_pwr2; [lia| |].
      - split; (split; [apply N|]); [lra|]. assert (P := Rabs_pos (V (d0 x))). lra.
      - split; [reflexivity|]. rewrite (proj2 fhalf_V'), Rabs_pos_eq by lra. cbn. lra. }
    destruct (TD_one (-890) _ ltac:(lia) T) as [A1 A2].
    assert (C : DRel false (d_add (d_mul_pwr2 x fhalf) D_ONE) (d_add D_ONE (d_mul_pwr2 x fhalf))).
    { apply d_add_comm.
      - apply (Bd_up (-890) 1018); [lia|apply T]. - apply (Bd_up (-890) 1018); [lia|apply T].
      - split; [reflexivity|]. cbn [D_ONE d0]. rewrite V_1, Rabs_R1. change 1 with (bp 0). apply bpow_le. lia.
      - split; [reflexivity|]. cbn [D_ONE d1]. rewrite V_0, Rabs_R0. apply bpow_ge_0. }
    destruct (DRel_val _ _ C A1) as [A3 A4]. split; [exact A3|]. rewrite A4.
    assert (XV := DNorm_val_rel x N).
    assert (BX : Rabs (DV x) <= 2 * tiny). { replace (DV x) with (DV x - V (d0 x) + V (d0 x)) by ring. eapply Rle_trans; [apply Rabs_triang|]. lra. }
    set (r := DV (d_add _ D_ONE)) in *. clearbody r.
    assert (B86 : bp (-890 + 4) = 16 * tiny) by exact (bp_split (-890) 4 ltac:(lia)). rewrite B86 in A2.
    replace (r - (1 + DV x / 2)) with ((r - 1) + - (DV x / 2)) by ring. eapply Rle_trans; [apply Rabs_triang|].
    rewrite Rabs_Ropp. unfold Rdiv. rewrite Rabs_mult, (Rabs_pos_eq (/ 2)) by lra. lra.
Qed.
Lemma cos_taylor_ok a : DNorm a -> Rabs (DV a) <= / 10 ->
  DNorm (d_cos_taylor a) /\ Rabs (DV (d_cos_taylor a) - cos (DV a)) <= 51 * vv.
Proof.
  intros N H. destruct tiny_le as [T0 T1]. unfold d_cos_taylor. destruct (d_is_zero a) eqn:Z.
  { apply d_is_zero_DV in Z; auto. rewrite Z, cos_0. destruct one_ok as [N1 V1]. split; [exact N1|]. rewrite V1, Rminus_diag_eq, Rabs_R0 by reflexivity. lra. }
  cbv zeta. destruct (neg_abs_sqr a N H) as (Nx & Ex & Bx). set (x := d_neg (d_sqr a)) in *. set (A := DV a) in *. assert (PA := Rabs_pos A).
  destruct eps_ok as [Ne Be].
  assert (TH : Fin (d0 (d_mul_pwr2 D_EPSILON fhalf)) /\ V (d0 (d_mul_pwr2 D_EPSILON fhalf)) <= 5 * vv).
  { cbn [d_mul_pwr2 d0]. assert (P := hi_nonneg _ Ne ltac:(lra)). destruct (half_le _ (proj1 (proj1 Ne)) P) as [U1 U2]. split; [exact U1|].
    assert (HH := DNorm_hi_rel _ Ne). rewrite (Rabs_pos_eq (V _)), (Rabs_pos_eq (DV _)) in HH by lra. lra. }
  destruct TH as (F1 & F2). set (thr := d_mul_pwr2 D_EPSILON fhalf) in *. clearbody thr.
  set (X := - (A * A)) in *. assert (PX := Rabs_pos X).
  assert (Bx' : Rabs (DV x) <= / 50). { replace (DV x) with (DV x - X + X) by ring. eapply Rle_trans; [apply Rabs_triang|]. lra. }
  destruct (one_half x Nx Bx') as [Ns Es]. set (s0 := d_add D_ONE (d_mul_pwr2 x fhalf)) in *. clearbody s0.
  assert (Es' : Rabs (DV s0 - (1 + X / 2)) <= 62 / 10 * vv).
  { replace (DV s0 - (1 + X / 2)) with (DV s0 - (1 + DV x / 2) + (DV x - X) * / 2) by field. eapply Rle_trans; [apply Rabs_triang|].
    rewrite (Rabs_mult (DV x - X)), (Rabs_pos_eq (/ 2)) by lra. lra. }
  assert (BS : Rabs (1 + X / 2) <= 1 + / 200).
  { eapply Rle_trans; [apply Rabs_triang|]. unfold Rdiv. rewrite Rabs_R1, Rabs_mult, (Rabs_pos_eq (/ 2)) by lra. lra. }
  destruct (loop_ok x thr X (101 / 100) (5 * vv) Nx F1 F2 Bx Ex) with (n := 7%nat) (i := 1%nat) (c := 9) (e := 62 / 10 * vv) (W := X) (U := 1 + X / 2) (r := x) (s := s0) as (m & M1 & M2 & M3 & M4 & M5); cbn [INR]; try lra; try lia; try assumption.
  split; [exact M3|]. set (res := d_taylor_loop 7 1 x thr s0 x) in *. clearbody res.
  assert (IM : INR m <= 7) by (replace 7 with (INR 7) by (cbn; lra); apply le_INR; exact M1).
  assert (M4' : Rabs (DV res - (1 + X / 2 + tsum m 1 X X)) <= 508 / 10 * vv).
  { eapply Rle_trans; [exact M4|]. apply Rle_trans with (62 / 10 * vv + 7 * (63 / 10 * vv * (101 / 100) + 3 * tiny)); [|lra].
    apply Rplus_le_compat_l. apply Rmult_le_compat_r; [|exact IM]. lra. }
  assert (SE : 1 + X / 2 + tsum m 1 X X = cos_approx A (S m)).
  { assert (K2 := tsum_cos A m 0). cbn [Nat.mul Nat.add] in K2. replace ((- (A * A)) ^ 1) with X in K2 by (unfold X; ring). fold X in K2. rewrite <- K2. f_equal.
    unfold cos_approx. cbn [sum_f_R0]. rewrite !cos_term_X. fold X. replace (INR (fact (2 * 1))) with 2 by (cbn; lra). replace (INR (fact (2 * 0))) with 1 by (cbn; lra). field. }
  rewrite SE in M4'.
  assert (TR : Rabs (cos A - cos_approx A (S m)) <= 15 / 100 * vv).
  { destruct M2 as [M2|M2]; [discriminate|]. assert (R1 := cos_rem A m ltac:(lra)). eapply Rle_trans; [exact R1|]. destruct M5 as [M5|M5].
    - rewrite M5. eapply Rle_trans; [apply cos_term_9; exact H|]. lra.
    - destruct m as [|m]; [lia|]. assert (K2 := tlast_cos A m 0). cbn [Nat.mul Nat.add] in K2. replace ((- (A * A)) ^ 1) with X in K2 by (unfold X; ring). fold X in K2. rewrite K2 in M5.
      eapply Rle_trans; [apply cos_term_next; exact H|]. lra. }
  replace (DV res - cos A) with ((DV res - cos_approx A (S m)) + - (cos A - cos_approx A (S m))) by ring.
  eapply Rle_trans; [apply Rabs_triang|]. rewrite Rabs_Ropp. lra.
Qed.
