(** * Quad sin and cos of small angles by their Taylor series *)
From Coq Require Import ZArith Reals List Bool Lia Lra Psatz.
From Flocq Require Import Core IEEE754.BinarySingleNaN.
From Verif Require Import F64 F64Facts Prim DoubleM QuadM AlgM RN Spec EFT SpecialProofs ExactProofs QExactProofs LawProofs QuadSpec QAddAcc QAddThms QMulAcc QMulThms QGeoAcc QGeoMul QSqrAcc QLoose QLDiv QLOps
  DDivProofs DAddProofs DMulProofs AbsOps Exact ConstM BaseConst ConstProofs TableProofs TransM ExpProofs QExpProofs SinLoop SinSeries SinReduce SinThms QLogThms QParse QLSq SqrtProofs TransProofs QSinhThms QTrigOps QTrigLoop LdexpProofs ParseM FromProofs AlgM.
Import ListNotations.
Local Open Scope R_scope.
Local Notation uu := (u * u).

Lemma sin_term_next2 A j : Rabs A <= / 640 -> Rabs (sin_term A (S j)) <= / 819200 * Rabs (sin_term A j).
Proof.
  intros H. rewrite !sin_term_X. replace (2 * S j + 1)%nat with (S (S (2 * j + 1))) by lia. assert (F := fact_up (2 * j + 1)).
  set (F1 := / INR (fact (S (S (2 * j + 1))))) in *. set (F0 := / INR (fact (2 * j + 1))) in *. unfold Rdiv. fold F0 F1.
  replace (A * (- (A * A)) ^ S j * F1) with ((A * (- (A * A)) ^ j) * (- (A * A) * F1)) by (cbn [pow]; ring).
  rewrite Rabs_mult, (Rabs_mult _ F0), (Rabs_pos_eq F0) by lra. assert (P := Rabs_pos (A * (- (A * A)) ^ j)).
  assert (Q : Rabs (- (A * A) * F1) <= / 819200 * F0).
  { rewrite Rabs_mult, Rabs_Ropp, (Rabs_pos_eq F1) by lra. assert (K := prod_le _ _ _ _ H H). assert (P2 := Rabs_pos (A * A)).
    replace (/ 819200 * F0) with (/ 409600 * (/ 2 * F0)) by field. apply Rmult_le_compat; lra. }
  replace (/ 819200 * (Rabs (A * (- (A * A)) ^ j) * F0)) with (Rabs (A * (- (A * A)) ^ j) * (/ 819200 * F0)) by ring. apply Rmult_le_compat_l; lra.
Qed.
Lemma cos_term_next2 A j : Rabs A <= / 640 -> Rabs (cos_term A (S j)) <= / 819200 * Rabs (cos_term A j).
Proof.
  intros H. rewrite !cos_term_X. replace (2 * S j)%nat with (S (S (2 * j))) by lia. assert (F := fact_up (2 * j)).
  set (F1 := / INR (fact (S (S (2 * j))))) in *. set (F0 := / INR (fact (2 * j))) in *. unfold Rdiv. fold F0 F1.
  replace ((- (A * A)) ^ S j * F1) with ((- (A * A)) ^ j * (- (A * A) * F1)) by (cbn [pow]; ring).
  rewrite Rabs_mult, (Rabs_mult _ F0), (Rabs_pos_eq F0) by lra. assert (P := Rabs_pos ((- (A * A)) ^ j)).
  assert (Q : Rabs (- (A * A) * F1) <= / 819200 * F0).
  { rewrite Rabs_mult, Rabs_Ropp, (Rabs_pos_eq F1) by lra. assert (K := prod_le _ _ _ _ H H). assert (P2 := Rabs_pos (A * A)).
    replace (/ 819200 * F0) with (/ 409600 * (/ 2 * F0)) by field. apply Rmult_le_compat; lra. }
  replace (/ 819200 * (Rabs ((- (A * A)) ^ j) * F0)) with (Rabs ((- (A * A)) ^ j) * (/ 819200 * F0)) by ring. apply Rmult_le_compat_l; lra.
Qed.

Lemma vv_uu : / 81129638414606681695789005144064 = uu. Proof. field. Qed.
Lemma half_c c : Fin c -> Fin (fmul c fhalf) /\ Rabs (V (fmul c fhalf)) <= Rabs (V c) /\ Rabs (V (fmul c fhalf) - V c / 2) <= bp (-1000).
Proof.
  intros F. destruct fhalf_V' as [Fh Vh]. assert (P := Rabs_pos (V c)).
  assert (AH : Rabs (V c / 2) = Rabs (V c) / 2) by (unfold Rdiv; rewrite Rabs_mult, (Rabs_pos_eq (/ 2)) by lra; reflexivity).
  assert (K : Rabs (rn (V c * / 2)) <= Rabs (V c)). { apply rn_abs_le; [apply fmt_abs, V_fmt|]. change (V c * / 2) with (V c / 2). rewrite AH. lra. }
  destruct (fmul_ok c fhalf F Fh) as [F2 [V2 _]]; [rewrite Vh; apply Rle_lt_trans with (1 := K); apply V_lt_1024|].
  rewrite Vh in V2. rewrite V2. split; [exact F2|]. split; [exact K|]. change (V c * / 2) with (V c / 2).
  assert (B3 : bp (-1021) = 2 * bp (-1022)) by exact (bp_split (-1022) 1 ltac:(lia)).
  destruct (Rle_or_lt (bp (-1021)) (Rabs (V c))) as [G|G].
  - rewrite <- bm1'. rewrite rn_scale; [|lra|rewrite bm1', AH; lra]. rewrite (rn_id _ (V_fmt _)), Rminus_diag_eq, Rabs_R0 by reflexivity. apply bpow_ge_0.
  - assert (K2 := rn_err (V c / 2)). assert (B4 : bp (-1075) <= bp (-1010)) by (apply bpow_le; lia). assert (B5 : bp (-1021) <= bp (-1010)) by (apply bpow_le; lia).
    assert (B6 : bp (-1000) = 1024 * bp (-1010)) by exact (bp_split (-1010) 10 ltac:(lia)). assert (P6 := bpow_gt_0 radix2 (-1010)). rewrite AH in K2. lra.
Qed.
Lemma half_QB a d x : QB a d x -> QB a d (q_mul_pwr2 x fhalf) /\ Rabs (QV (q_mul_pwr2 x fhalf) - QV x / 2) <= uu.
Proof.
  intros ([F0 A] & [F1 B] & [F2 C] & [F3 D]). destruct (half_c _ F0) as (G0 & H0 & K0). destruct (half_c _ F1) as (G1 & H1 & K1). destruct (half_c _ F2) as (G2 & H2 & K2). destruct (half_c _ F3) as (G3 & H3 & K3).
  split; [unfold QB, fb, q_mul_pwr2; cbn [q0 q1 q2 q3]; repeat split; try assumption; lra|].
  assert (E : 4 * bp (-1000) <= uu). { replace (4 * bp (-1000)) with (bp (-998)) by exact (bp_split (-1000) 2 ltac:(lia)). rewrite <- u_bp, <- bpow_plus. apply bpow_le. lia. }
  unfold QV, q_mul_pwr2. cbn [q0 q1 q2 q3]. apply Rabs_le_inv in K0, K1, K2, K3. apply Rabs_le. lra.
Qed.
Lemma QB_qabs a d x : QB a d x -> QB a d (q_abs x).
Proof. intros H. unfold q_abs. destruct (q_is_sign_negative x); [apply QB_neg, H|exact H]. Qed.
Lemma eps_QB : QB (bp (-200)) uu Q_EPSILON /\ V (q0 Q_EPSILON) <> 0 /\ bp (-200) <= uu.
Proof.
  destruct eps_geo as [L E]. assert (A := QL_abs (4 * u) _ ltac:(lra) ltac:(lra) L). assert (P := bpow_gt_0 radix2 (-209)). rewrite (Rabs_pos_eq (QV Q_EPSILON)) in A by lra.
  assert (B : bp (-200) = 512 * bp (-209)) by exact (bp_split (-209) 9 ltac:(lia)). assert (C : bp (-200) <= uu) by (rewrite <- u_bp, <- bpow_plus; apply bpow_le; lia).
  split; [|split; [|exact C]].
  - apply QB_mono with (bp (-200)) (4 * u * bp (-200)); [lra|lra|]. apply QL_QB; [exact L|lra|lra].
  - intros Z. rewrite Z, Rabs_R0 in A. lra.
Qed.

Section Small.
Variable t : Quad.
Hypothesis Bt : QB (/ 635) (14 * u) t.
Hypothesis At : Rabs (QV t) <= / 640.
Hypothesis Zt : V (q0 t) = 0 -> QV t = 0.
Let A := QV t.
Lemma is_zero_t : q_is_zero t = true -> A = 0.
Proof. intros H. apply Zt. unfold q_is_zero in H. apply feqb_V in H; [|apply Bt|apply Fin_0]. rewrite H. reflexivity. Qed.
Lemma x_ok : QB (/ 400000) (/ 100000 * u) (q_neg (q_sqr t)) /\ Rabs (QV (q_neg (q_sqr t)) - - (A * A)) <= 13000 * uu /\ Rabs (- (A * A)) <= / 400000 /\
  (V (q0 (q_neg (q_sqr t))) = 0 -> Rabs (QV (q_neg (q_sqr t)) * QV (q_neg (q_sqr t))) <= uu).
Proof.
  assert (B4 : 1 <= bp 400) by (change 1 with (bp 0); apply bpow_le; lia).
  destruct (bsqr (/ 635) (14 * u) t) as [E B]; [lra|exact Bt|lra..|]. destruct (QB_neg _ _ _ B) as (B1 & E1 & Z1). set (x := q_neg (q_sqr t)) in *.
  assert (AA : Rabs (A * A) <= / 409600) by (eapply Rle_trans; [apply prod_le; exact At|lra]).
  assert (EX : Rabs (QV x - - (A * A)) <= 13000 * uu). { rewrite E1. replace (- QV (q_sqr t) - - (A * A)) with (- (QV (q_sqr t) - A * A)) by ring. rewrite Rabs_Ropp. unfold A. lra. }
  assert (VX : Rabs (QV x) <= / 409000). { rewrite <- Rabs_Ropp in AA. assert (K := tri _ _ _ _ EX AA). lra. }
  assert (B2 : QB (/ 100000) (6 / 1000000 * u) x) by (eapply QB_mono; [| |exact B1]; lra).
  assert (BX : QB (/ 400000) (/ 100000 * u) x) by (eapply QB_mono; [| |eapply QB_sharp; [exact B2|exact VX]]; lra).
  split; [exact BX|]. split; [exact EX|]. split; [rewrite Rabs_Ropp; lra|]. intros Z. assert (K := QB_val _ _ _ BX). rewrite Z, Rminus_0_r in K.
  eapply Rle_trans; [apply prod_le; exact K|]. lra.
Qed.
Lemma thr_sin : Fin (q0 (q_mul_pwr2 (q_mul Q_EPSILON (q_abs t)) fhalf)) /\ V (q0 (q_mul_pwr2 (q_mul Q_EPSILON (q_abs t)) fhalf)) <= / 1000000000 * u.
Proof.
  destruct eps_QB as (Be & Ne & Le). assert (Ba := QB_qabs _ _ _ Bt). assert (P2 := bpow_gt_0 radix2 (-200)).
  assert (B4 : 1 <= bp 400) by (change 1 with (bp 0); apply bpow_le; lia). assert (B9 : 1 <= bp 900) by (change 1 with (bp 0); apply bpow_le; lia).
  destruct (bmul (bp (-200)) uu (/ 635) (14 * u) Q_EPSILON (q_abs t) uu uu Be Ba) with (N0 := 1000 * uu) as (_ & G & _); try lra; try exact Ne.
  destruct (half_QB _ _ _ G) as [K _]. destruct K as [[K1 K2] _]. split; [exact K1|]. assert (K3 := Rle_abs (V (q0 (q_mul_pwr2 (q_mul Q_EPSILON (q_abs t)) fhalf)))). lra.
Qed.
Lemma thr_cos : Fin (q0 (q_mul_pwr2 Q_EPSILON fhalf)) /\ V (q0 (q_mul_pwr2 Q_EPSILON fhalf)) <= / 1000000000 * u.
Proof.
  destruct eps_QB as (Be & Ne & Le). destruct (half_QB _ _ _ Be) as [K _]. destruct K as [[K1 K2] _]. split; [exact K1|]. assert (K3 := Rle_abs (V (q0 (q_mul_pwr2 Q_EPSILON fhalf)))). lra.
Qed.
Definition okq (q : Quad) (T e : R) : Prop := QB (103 / 100) (18 * u) q /\ Rabs (QV q - T) <= e /\ (V (q0 q) = 0 -> QV q = 0).
Lemma ok_zero : okq Q_ZERO 0 uu.
Proof.
  assert (E : QV Q_ZERO = 0) by (unfold QV, Q_ZERO; cbn [q0 q1 q2 q3]; change (V f0) with 0; ring).
  split; [|rewrite E, Rminus_0_r, Rabs_R0; split; [lra|auto]].
  unfold QB, fb, Q_ZERO; cbn [q0 q1 q2 q3]; change (V f0) with 0; rewrite Rabs_R0; repeat split; try reflexivity; lra.
Qed.
Lemma ok_one : okq Q_ONE 1 uu.
Proof.
  destruct QL_ONE as (L & E0 & E). split; [|rewrite E, Rminus_diag_eq, Rabs_R0 by reflexivity; split; [lra|rewrite E0; lra]].
  apply QB_mono with 1 (4 * u * 1); [lra|lra|]. apply QL_QB; [exact L|rewrite E0, Rabs_R1; lra|lra].
Qed.
Lemma A10 : Rabs A <= / 10. Proof. unfold A. lra. Qed.
Lemma q_sin_small : okq (q_sin_taylor t) (sin A) (100000 * uu).
Proof.
  unfold q_sin_taylor. destruct (q_is_zero t) eqn:Z.
  { rewrite (is_zero_t Z), sin_0. destruct ok_zero as (G1 & G2 & G3). split; [exact G1|]. split; [lra|exact G3]. }
  cbv zeta. destruct x_ok as (X1 & X2 & X3 & X4). destruct thr_sin as [T1 T2]. set (x := q_neg (q_sqr t)) in *. set (thr := q_mul_pwr2 _ _) in *. clearbody thr x.
  destruct (loop_okQ x thr (- (A * A)) X1 T1 T2 X3 X2 8 0 t t A A 0) as (m & M1 & M2 & M3 & M4 & M5 & M6 & M7).
  { lia. } { eapply QB_mono; [| |exact Bt]; lra. } { cbn [INR]. lra. } { fold A. rewrite Rminus_diag_eq, Rabs_R0 by reflexivity. lra. } { eapply QB_mono; [| |exact Bt]; lra. }
  { fold A. rewrite Rminus_diag_eq, Rabs_R0 by reflexivity. lra. } { unfold A. lra. } { intros K. rewrite (Zt K), Rmult_0_l, Rabs_R0. lra. } { exact Zt. }
  set (res := q_taylor_loop 8 0 x thr t t) in *. clearbody res. split; [exact M3|]. split; [|exact M5].
  assert (IM : INR m <= 8) by (replace 8 with (INR 8) by (cbn; lra); apply le_INR; exact M1).
  assert (SE : A + tsum m 0 (- (A * A)) A = sin_approx A m).
  { assert (K2 := tsum_sin A m 0). rewrite Nat.add_0_l in K2. rewrite <- K2. unfold sin_approx at 1. cbn [sum_f_R0]. unfold sin_term. cbn [Nat.mul Nat.add fact pow]. rewrite Rmult_1_r. change (INR 1) with 1. field. }
  rewrite SE in M6. assert (M6' : INR m * (12200 * uu) <= 8 * (12200 * uu)) by (apply Rmult_le_compat_r; lra).
  assert (TR : Rabs (sin A - sin_approx A m) <= 2300 * uu).
  { destruct M2 as [M2|M2].
    - subst m. assert (R1 := sin_rem A 7 ltac:(unfold A; lra)). eapply Rle_trans; [exact R1|]. eapply Rle_trans; [apply sin_term_9, A10|]. assert (Q := A10). rewrite vv_uu. assert (/ 100 * uu * Rabs A <= / 100 * uu * / 10) by (apply Rmult_le_compat_l; lra). lra.
    - destruct m as [|m]; [lia|]. assert (R1 := sin_rem A m ltac:(unfold A; lra)). eapply Rle_trans; [exact R1|]. destruct M7 as [M7|M7].
      + rewrite M7. eapply Rle_trans; [apply sin_term_9, A10|]. assert (Q := A10). rewrite vv_uu. assert (/ 100 * uu * Rabs A <= / 100 * uu * / 10) by (apply Rmult_le_compat_l; lra). lra.
      + assert (K2 := tlast_sin A m 0). rewrite Nat.add_0_l, Nat.mul_0_r in K2. cbn [pow] in K2. rewrite Rmult_1_r in K2. rewrite K2 in M7.
        eapply Rle_trans; [apply sin_term_next2; exact At|]. apply Rle_trans with (/ 819200 * (/ 5000000 * u)); [apply Rmult_le_compat_l; lra|]. lra. }
  replace (QV res - sin A) with ((QV res - sin_approx A m) + - (sin A - sin_approx A m)) by ring. eapply Rle_trans; [apply Rabs_triang|]. rewrite Rabs_Ropp. lra.
Qed.
Lemma q_cos_small : okq (q_cos_taylor t) (cos A) (107000 * uu).
Proof.
  unfold q_cos_taylor. destruct (q_is_zero t) eqn:Z.
  { rewrite (is_zero_t Z), cos_0. destruct ok_one as (G1 & G2 & G3). split; [exact G1|]. split; [lra|exact G3]. }
  cbv zeta. destruct x_ok as (X1 & X2 & X3 & X4). destruct thr_cos as [T1 T2]. set (x := q_neg (q_sqr t)) in *. set (thr := q_mul_pwr2 Q_EPSILON fhalf) in *. clearbody thr x.
  destruct (half_QB _ _ _ X1) as [H1 H2]. set (h := q_mul_pwr2 x fhalf) in *. clearbody h. destruct ok_one as (O1 & O2 & O3). destruct QL_ONE as (_ & _ & VO).
  assert (B9 : 1000 <= bp 1000) by (apply Rle_trans with (bp 10); [cbn; lra|apply bpow_le; lia]).
  destruct (badd (103 / 100) (18 * u) Q_ONE h) as (A1 & A2 & A3); try lra; [exact O1|eapply QB_mono; [| |exact H1]; lra|]. rewrite VO in A1.
  set (s := q_add Q_ONE h) in *. clearbody s.
  assert (E1 : Rabs (QV s - (1 + - (A * A) / 2)) <= 18600 * uu).
  { set (X := - (A * A)) in *. clearbody X. apply Rabs_le_inv in A1, H2, X2. apply Rabs_le. lra. }
  assert (AP : 0 <= A * A) by apply Rle_0_sqr. rewrite Rabs_Ropp, (Rabs_pos_eq _ AP) in X3.
  assert (S1 : Rabs (QV s) <= 1001 / 1000). { assert (K := Rabs_le_inv _ _ E1). apply Rabs_le. lra. }
  rewrite <- (Rabs_pos_eq _ AP), <- Rabs_Ropp in X3.
  destruct (loop_okQ x thr (- (A * A)) X1 T1 T2 X3 X2 7 1 s x (1 + - (A * A) / 2) (- (A * A)) (18600 * uu)) as (m & M1 & M2 & M3 & M4 & M5 & M6 & M7).
  { lia. } { eapply QB_mono; [| |eapply QB_sharp; [exact A2|exact S1]]; lra. } { cbn [INR]. lra. } { exact E1. } { eapply QB_mono; [| |exact X1]; lra. }
  { exact X2. } { lra. } { exact X4. } { exact A3. }
  set (res := q_taylor_loop 7 1 x thr s x) in *. clearbody res. split; [exact M3|]. split; [|exact M5].
  assert (IM : INR m <= 7) by (replace 7 with (INR 7) by (cbn; lra); apply le_INR; exact M1).
  assert (SE : 1 + - (A * A) / 2 + tsum m 1 (- (A * A)) (- (A * A)) = cos_approx A (1 + m)).
  { assert (K2 := tsum_cos A m 0). cbn [Nat.mul Nat.add] in K2. change (1 + m)%nat with (S m). rewrite <- K2. rewrite pow_1. unfold cos_approx. cbn [sum_f_R0]. rewrite !cos_term_X. cbn [Nat.mul Nat.add fact pow INR]. field. }
  rewrite SE in M6. change (1 + m)%nat with (S m) in M6. assert (M6' : INR m * (12200 * uu) <= 7 * (12200 * uu)) by (apply Rmult_le_compat_r; lra).
  assert (TR : Rabs (cos A - cos_approx A (S m)) <= 2300 * uu).
  { assert (R1 := cos_rem A m ltac:(unfold A; lra)). eapply Rle_trans; [exact R1|].
    assert (G9 : m = 7%nat -> Rabs (cos_term A (S (S m))) <= 2300 * uu). { intros ->. eapply Rle_trans; [apply cos_term_9, A10|]. rewrite vv_uu. lra. }
    destruct M2 as [M2|M2]; [auto|]. destruct M7 as [M7|M7]; [auto|]. destruct m as [|m]; [lia|].
    assert (K2 := tlast_cos A m 0). cbn [Nat.mul Nat.add] in K2. rewrite pow_1 in K2. change (1 + S m)%nat with (S (S m)) in K2. rewrite K2 in M7.
    eapply Rle_trans; [apply cos_term_next2; exact At|]. apply Rle_trans with (/ 819200 * (/ 5000000 * u)); [apply Rmult_le_compat_l; lra|]. lra. }
  replace (QV res - cos A) with ((QV res - cos_approx A (S m)) + - (cos A - cos_approx A (S m))) by ring. eapply Rle_trans; [apply Rabs_triang|]. rewrite Rabs_Ropp. lra.
Qed.
Lemma q_sincos_small lm dbg : printer lm -> exists s c, q_sincos_taylor lm dbg t = Val (s, c) /\ okq s (sin A) (100000 * uu) /\ okq c (cos A) (150000 * uu).
Proof.
  intros PR. unfold q_sincos_taylor. destruct (q_is_zero t) eqn:Z.
  { rewrite (is_zero_t Z), sin_0, cos_0. exists Q_ZERO, Q_ONE. split; [reflexivity|]. destruct ok_zero as (G1 & G2 & G3). destruct ok_one as (K1 & K2 & K3).
    split; (split; [assumption|split; [lra|assumption]]). }
  cbv zeta. assert (OS := q_sin_small). set (s := q_sin_taylor t) in *. clearbody s. destruct OS as (S1 & S2 & S3).
  assert (SS : Rabs (sin A) <= / 640) by (eapply Rle_trans; [apply sin_small|exact At]).
  assert (VS := tri _ _ _ _ S2 SS). assert (BS : QB (/ 635) (18 * u) s). { eapply QB_mono; [| |eapply QB_sharp; [exact S1|exact VS]]; lra. }
  assert (B4 : 1 <= bp 400) by (change 1 with (bp 0); apply bpow_le; lia). destruct (bsqr (/ 635) (18 * u) s) as [E B]; [lra|exact BS|lra..|]. set (q := q_sqr s) in *. clearbody q.
  destruct ok_one as (O1 & O2 & O3). destruct QL_ONE as (_ & _ & VO). assert (B9 : 1000 <= bp 1000) by (apply Rle_trans with (bp 10); [cbn; lra|apply bpow_le; lia]).
  destruct (bsub (103 / 100) (18 * u) Q_ONE q) as (A1 & A2 & A3); try lra; [exact O1|eapply QB_mono; [| |exact B]; lra|]. rewrite VO in A1. set (d := q_sub Q_ONE q) in *. clearbody d.
  assert (ED : Rabs (QV d - (1 - sin A * sin A)) <= 34000 * uu).
  { assert (K := rel_prod _ _ _ _ _ _ S2 S2). assert (K1 : 100000 * uu * Rabs (sin A) <= 100000 * uu * / 640) by (apply Rmult_le_compat_l; lra).
    assert (K2 : Rabs (QV s * QV s - sin A * sin A) <= 320 * uu) by lra. set (w := QV s * QV s) in *. clearbody w. set (S' := sin A * sin A) in *. clearbody S'.
    clear K. apply Rabs_le_inv in A1, E, K2. apply Rabs_le. lra. }
  assert (C1 := cos_near1 A A10). assert (SC : 1 - sin A * sin A = cos A * cos A). { assert (K := sin2_cos2 A). unfold Rsqr in K. lra. }
  rewrite SC in ED. set (c := cos A) in *. assert (ED' := Rabs_le_inv _ _ ED). assert (BD : 98 / 100 <= QV d <= 10001 / 10000) by nra.
  assert (BD' : Rabs (QV d) <= 10001 / 10000) by (rewrite Rabs_pos_eq; lra).
  assert (BQ : QB (103 / 100) (18 * u) d). { eapply QB_mono; [| |eapply QB_sharp; [exact A2|exact BD']]; lra. }
  assert (VD := QB_val _ _ _ BQ). apply Rabs_le_inv in VD.
  assert (LD : QL (32 * u) d). { assert (FQ := QB_fin _ _ _ BQ). destruct BQ as (_ & [_ D1] & [_ D2] & [_ D3]). split; [exact FQ|]. rewrite (Rabs_pos_eq (V (q0 d))) by lra. lra. }
  destruct (q_sqrt_L lm dbg d PR LD) as (r & Er & Lr & Vr); [lra|split; [apply Rle_trans with (bp (-1)); [apply bpow_le; lia|cbn; lra]|apply Rle_trans with (bp 1); [cbn; lra|apply bpow_le; lia]]|].
  exists s, r. rewrite Er. split; [reflexivity|]. split; [split; [exact S1|split; assumption]|].
  set (p := sqrt (QV d)) in *. assert (P0 : 0 <= p) by apply sqrt_pos. assert (PP : p * p = QV d) by (apply sqrt_sqrt; lra).
  assert (E89 : bp (-89) = 131072 * uu). { change (bp (-89)) with (/ 618970019642690137449562112). field. }
  assert (PC : Rabs (p - c) <= 17500 * uu).
  { assert (K : Rabs (p - c) * Rabs (p + c) <= 34000 * uu) by (rewrite <- Rabs_mult; replace ((p - c) * (p + c)) with (QV d - c * c) by (rewrite <- PP; ring); exact ED).
    rewrite (Rabs_pos_eq (p + c)) in K by lra. assert (K3 : 195 / 100 <= p + c). { assert (96 / 100 <= p); [|lra]. apply Rnot_lt_le. intros L. nra. }
    assert (K4 := Rabs_pos (p - c)). assert (Rabs (p - c) * (195 / 100) <= Rabs (p - c) * (p + c)) by (apply Rmult_le_compat_l; lra). lra. }
  rewrite E89 in Vr. assert (PL : p <= 1001 / 1000) by (apply Rabs_def2' in PC; lra).
  assert (PL2 : 131072 * uu * p <= 131072 * uu * (1001 / 1000)) by (apply Rmult_le_compat_l; lra).
  assert (ER : Rabs (QV r - c) <= 150000 * uu). { replace (QV r - c) with ((QV r - p) + (p - c)) by ring. eapply Rle_trans; [apply Rabs_triang|]. lra. }
  assert (VR : Rabs (QV r) <= 1001 / 1000) by (apply Rabs_le_inv in ER; apply Rabs_le; lra). assert (HR := QL_abs (4 * u) r ltac:(lra) ltac:(lra) Lr).
  split; [|split; [exact ER|]].
  - apply QB_mono with (102 / 100) (4 * u * (102 / 100)); [lra|lra|]. apply QL_QB; [exact Lr|lra|lra].
  - intros K. rewrite K, Rabs_R0 in HR. apply Rabs_le_inv in ER. assert (Rabs (QV r) <= 0) by lra. assert (K2 := Rle_abs (QV r)). lra.
Qed.
End Small.
