(** * The extreme constants: MAX, MIN, MIN_POSITIVE, EPSILON *)
From Coq Require Import Reals ZArith List Lra Lia Bool.
From Flocq Require Import Core IEEE754.BinarySingleNaN.
From Verif Require Import F64 F64Facts Prim DoubleM QuadM RN Spec EFT Exact QuadSpec QMulFine DAddProofs ConstM.
Local Open Scope R_scope.

Ltac pw2 := match goal with |- context [IZR (2 ^ ?k)] => change (IZR (2 ^ k)) with (IZR (radix_val radix2 ^ k)); rewrite (IZR_Zpower radix2 k ltac:(easy)); rewrite <- ?bpow_plus; reflexivity end.

Definition Ak (k : Z) : R := bp k - bp (k - 53).

Lemma Ak_grid k : Ak k = IZR (2 ^ 53 - 1) * bp (k - 53).
Proof. unfold Ak. replace (bp k) with (IZR (2 ^ 53) * bp (k - 53)). - rewrite minus_IZR. ring.
  - change (IZR (2 ^ 53)) with (bp 53). rewrite <- bpow_plus. f_equal. lia. Qed.

Lemma fmt_top k a : fmt a -> (-1000 <= k)%Z -> a < bp k -> a = Ak k \/ a <= Ak k - bp (k - 53).
Proof.
  intros F Hk H.
  assert (P := bpow_gt_0 radix2 (k - 53)).
  assert (E1 : bp k = IZR (2 ^ 53) * bp (k - 53)) by (change (IZR (2 ^ 53)) with (bp 53); rewrite <- bpow_plus; f_equal; lia).
  assert (E2 : bp (k - 1) = IZR (2 ^ 52) * bp (k - 53)) by (change (IZR (2 ^ 52)) with (bp 52); rewrite <- bpow_plus; f_equal; lia).
  destruct (Rle_lt_dec (bp (k - 1)) a) as [L|L].
  - destruct (mag_grid a (k - 53) F) as [n En]; [lia| |].
    { replace (k - 53 + 52)%Z with (k - 1)%Z by lia. rewrite Rabs_pos_eq; [exact L|]. assert (0 < bp (k - 1)) by apply bpow_gt_0. lra. }
    rewrite En, E1 in H. apply Rmult_lt_reg_r in H; [|exact P]. apply lt_IZR in H.
    rewrite Ak_grid. destruct (Z.eq_dec n (2 ^ 53 - 1)) as [->|N]; [left; exact En|right].
    rewrite En. assert (n <= 2 ^ 53 - 2)%Z by lia. apply IZR_le in H0. rewrite minus_IZR in *.
    replace ((IZR (2 ^ 53) - 1) * bp (k - 53) - bp (k - 53)) with ((IZR (2 ^ 53) - 2) * bp (k - 53)) by ring.
    apply Rmult_le_compat_r; lra.
  - right. rewrite Ak_grid. change (2 ^ 52)%Z with 4503599627370496%Z in *. change (2 ^ 53 - 1)%Z with 9007199254740991%Z. lra.
Qed.

(** halfway between the largest f64 below 2^k and 2^k: ties go to even, that is up *)
Lemma tie_up k : (-1000 <= k)%Z -> rn (bp k - bp (k - 54)) = bp k.
Proof.
  intros Hk.
  assert (P := bpow_gt_0 radix2 (k - 53)).
  assert (E1 : bp k = IZR (2 ^ 53) * bp (k - 53)) by (change (IZR (2 ^ 53)) with (bp 53); rewrite <- bpow_plus; f_equal; lia).
  assert (E3 : bp (k - 54) = / 2 * bp (k - 53)) by (change (/ 2) with (bp (-1)); rewrite <- bpow_plus; f_equal; lia).
  set (z := bp k - bp (k - 54)).
  assert (Ez : z = (IZR (2 ^ 53) - / 2) * bp (k - 53)) by (unfold z; rewrite E1, E3; ring).
  assert (C : cexp radix2 fexp64 z = (k - 53)%Z).
  { rewrite cexp64. assert (M : (mag radix2 z = k :> Z)).
    { apply mag_unique_pos. split.
      - replace (bp (k - 1)) with (/ 2 * bp k) by (change (/ 2) with (bp (-1)); rewrite <- bpow_plus; f_equal; lia).
        rewrite Ez, E1. change (IZR (2 ^ 53)) with 9007199254740992. lra.
      - unfold z. assert (0 < bp (k - 54)) by apply bpow_gt_0. lra. }
    rewrite M. lia. }
  unfold rn, round. rewrite C. unfold scaled_mantissa. rewrite C.
  assert (ES : z * bp (- (k - 53)) = IZR (2 ^ 53) - / 2).
  { rewrite Ez, Rmult_assoc, <- bpow_plus. replace (k - 53 + - (k - 53))%Z with 0%Z by ring. cbn [bpow]. ring. }
  rewrite ES. unfold F2R. cbn [Fnum Fexp]. rewrite E1. f_equal. f_equal.
  unfold ZnearestE, Znearest.
  assert (FL : Zfloor (IZR (2 ^ 53) - / 2) = (2 ^ 53 - 1)%Z).
  { apply Zfloor_imp. rewrite plus_IZR, minus_IZR. change (IZR (2 ^ 53)) with 9007199254740992. lra. }
  rewrite FL. rewrite Rcompare_Eq by (rewrite minus_IZR; lra).
  assert (EV : negb (Z.even (2 ^ 53 - 1)) = true) by reflexivity. rewrite EV.
  apply Zceil_imp. rewrite minus_IZR. change (IZR (2 ^ 53)) with 9007199254740992. lra.
Qed.

Lemma Ak_next k a b : (-1000 <= k)%Z -> a = Ak k -> a = rn (a + b) -> b < bp (k - 54).
Proof.
  intros Hk -> E. destruct (Rlt_le_dec b (bp (k - 54))) as [H|H]; [exact H|exfalso].
  assert (K : bp k <= rn (Ak k + b)).
  { rewrite <- (tie_up k Hk). apply rn_le. unfold Ak.
    assert (bp (k - 53) = 2 * bp (k - 54)) by (change 2 with (bp 1); rewrite <- bpow_plus; f_equal; lia). lra. }
  rewrite <- E in K. unfold Ak in K. assert (0 < bp (k - 53)) by apply bpow_gt_0. lra.
Qed.

Lemma V_le_Ak a : Fin a -> V a = Ak 1024 \/ V a <= Ak 1024 - bp 971.
Proof.
  intros F. apply (fmt_top 1024); [auto with fmt|lia|]. eapply Rle_lt_trans; [apply Rle_abs|apply V_lt_1024].
Qed.

Lemma fmt_Ak k : (-1000 <= k)%Z -> fmt (Ak k).
Proof.
  intros Hk. apply (fmt_mult2 (k - 53)); [lia|rewrite Ak_grid; now eexists|].
  replace (k - 53 + 53)%Z with k by lia. assert (P := bpow_gt_0 radix2 (k - 53)).
  assert (bp (k - 53) <= bp k) by (apply bpow_le; lia). unfold Ak. rewrite Rabs_pos_eq; lra.
Qed.

(** if [a] is below the top value, what follows does not catch up *)
Lemma below k a b : a = rn (a + b) -> a <= Ak k - bp (k - 53) -> (-1000 <= k)%Z -> a + b <= Ak k - bp (k - 54).
Proof.
  intros E H Hk.
  assert (N : Rabs (rn (a + b) - (a + b)) <= Rabs (Ak k - (a + b))).
  { apply (round_N_pt radix2 fexp64 (fun x => negb (Z.even x)) (a + b)). apply fmt_Ak, Hk. }
  rewrite <- E in N. replace (a - (a + b)) with (- b) in N by ring. rewrite Rabs_Ropp in N.
  assert (E53 : bp (k - 53) = 2 * bp (k - 54)) by (change 2 with (bp 1); rewrite <- bpow_plus; f_equal; lia).
  assert (P := bpow_gt_0 radix2 (k - 54)).
  unfold Rabs in N. destruct (Rcase_abs b), (Rcase_abs (Ak k - (a + b))); lra.
Qed.

Lemma D_MAX_V : DV D_MAX = Ak 1024 + Ak 970.
Proof.
  rewrite zd_ok, !Ak_grid.
  replace (bp (1024 - 53)) with (IZR (2 ^ 2045) * bp (-1074)) by pw2.
  replace (bp (970 - 53)) with (IZR (2 ^ 1991) * bp (-1074)) by pw2.
  rewrite <- !Rmult_assoc, <- !mult_IZR, <- Rmult_plus_distr_r, <- plus_IZR. apply (f_equal2 Rmult); [|reflexivity]. apply (f_equal IZR). vm_compute. reflexivity.
Qed.

Lemma d_min_neg : D_MIN = d_neg D_MAX.
Proof. unfold D_MIN, d_neg, D_MAX. cbn [d0 d1]. f_equal; apply B2SF_inj; vm_compute; reflexivity. Qed.
Lemma q_min_neg : Q_MIN = q_neg Q_MAX.
Proof. unfold Q_MIN, q_neg, Q_MAX. cbn [q0 q1 q2 q3]. f_equal; apply B2SF_inj; vm_compute; reflexivity. Qed.

Lemma d_max_ok : DNorm D_MAX /\ D_MIN = d_neg D_MAX /\ forall x, DNorm x -> DV D_MIN <= DV x <= DV D_MAX.
Proof.
  split; [apply dnormx_ok; vm_compute; reflexivity|].
  split; [exact d_min_neg|].
  assert (U : forall a b, Fin a -> Fin b -> V a = rn (V a + V b) -> V a + V b <= Ak 1024 + Ak 970).
  { intros a b Fa Fb E. assert (P := bpow_gt_0 radix2 970). assert (Q := bpow_gt_0 radix2 (970 - 53)).
    assert (bp (970 - 53) <= bp 970) by (apply bpow_le; lia).
    destruct (V_le_Ak a Fa) as [Ea|La].
    - assert (B := Ak_next 1024 _ _ ltac:(lia) Ea E). change (1024 - 54)%Z with 970%Z in B.
      destruct (fmt_top 970 (V b)) as [Eb|Lb]; [auto with fmt|lia|exact B|..]; lra.
    - assert (B := below 1024 _ _ E La ltac:(lia)). change (1024 - 54)%Z with 970%Z in B. unfold Ak at 2. lra. }
  intros x [[F0 F1] E]. unfold DV in E. change (V (d0 x) = rn (V (d0 x) + V (d1 x))) in E.
  split.
  - assert (ND := d_min_neg).
    destruct (fneg_ok _ F0) as [G0 N0]. destruct (fneg_ok _ F1) as [G1 N1].
    assert (K : V (fneg (d0 x)) + V (fneg (d1 x)) <= Ak 1024 + Ak 970).
    { apply U; auto. rewrite N0, N1, <- Ropp_plus_distr, rn_opp. now f_equal. }
    rewrite ND. assert (EN : DV (d_neg D_MAX) = - DV D_MAX).
    { unfold DV, d_neg. cbn [d0 d1]. rewrite !(fun a F => proj2 (fneg_ok a F)) by (vm_compute; reflexivity). ring. }
    rewrite EN, D_MAX_V. unfold DV. lra.
  - rewrite D_MAX_V. now apply U.
Qed.

Lemma Q_MAX_V : QV Q_MAX = Ak 1024 + Ak 970 + Ak 916 + Ak 862.
Proof.
  rewrite zq_ok, !Ak_grid.
  replace (bp (1024 - 53)) with (IZR (2 ^ 2045) * bp (-1074)) by pw2.
  replace (bp (970 - 53)) with (IZR (2 ^ 1991) * bp (-1074)) by pw2.
  replace (bp (916 - 53)) with (IZR (2 ^ 1937) * bp (-1074)) by pw2.
  replace (bp (862 - 53)) with (IZR (2 ^ 1883) * bp (-1074)) by pw2.
  rewrite <- !Rmult_assoc, <- !mult_IZR, <- !Rmult_plus_distr_r, <- !plus_IZR. apply (f_equal2 Rmult); [|reflexivity]. apply (f_equal IZR). vm_compute. reflexivity.
Qed.

Lemma q_max_ok : QNormW Q_MAX /\ Q_MIN = q_neg Q_MAX /\ forall x, QNormW x -> QV Q_MIN <= QV x <= QV Q_MAX.
Proof.
  split; [apply qnormwx_ok; vm_compute; reflexivity|].
  split; [exact q_min_neg|].
  assert (U : forall a b c d, Fin a -> Fin b -> Fin c -> Fin d -> V a = rn (V a + V b) -> V b = rn (V b + V c) -> V c = rn (V c + V d) ->
    V a + V b + V c + V d <= Ak 1024 + Ak 970 + Ak 916 + Ak 862).
  { intros a b c d Fa Fb Fc Fd E1 E2 E3.
    assert (L1 : Rabs (V b) <= u * Rabs (V a)) by (apply norm_lo; auto with fmt).
    assert (L2 : Rabs (V c) <= u * Rabs (V b)) by (apply norm_lo; auto with fmt).
    assert (L3 : Rabs (V d) <= u * Rabs (V c)) by (apply norm_lo; auto with fmt).
    assert (L0 := Rlt_le _ _ (V_lt_1024 a)).
    assert (X1 : bp 1024 = IZR (2 ^ 162) * bp 862) by (change (IZR (2 ^ 162)) with (bp 162); rewrite <- bpow_plus; reflexivity).
    assert (X2 : bp 970 = IZR (2 ^ 108) * bp 862) by (change (IZR (2 ^ 108)) with (bp 108); rewrite <- bpow_plus; reflexivity).
    assert (X3 : bp 916 = IZR (2 ^ 54) * bp 862) by (change (IZR (2 ^ 54)) with (bp 54); rewrite <- bpow_plus; reflexivity).
    assert (X4 : bp 971 = IZR (2 ^ 109) * bp 862) by (change (IZR (2 ^ 109)) with (bp 109); rewrite <- bpow_plus; reflexivity).
    assert (X5 : bp 917 = IZR (2 ^ 55) * bp 862) by (change (IZR (2 ^ 55)) with (bp 55); rewrite <- bpow_plus; reflexivity).
    assert (X6 : bp 863 = 2 * bp 862) by (change 2 with (bp 1); rewrite <- bpow_plus; reflexivity).
    assert (X7 : bp 862 = 9007199254740992 * bp 809) by (change 9007199254740992 with (bp 53); rewrite <- bpow_plus; reflexivity).
    assert (P := bpow_gt_0 radix2 862). assert (P7 := bpow_gt_0 radix2 809).
    cbv [Z.pow Z.pow_pos Pos.iter Z.mul Pos.mul] in X1, X2, X3, X4, X5.
    assert (Bc := Rle_abs (V c)). assert (Bd' := Rle_abs (V d)).
    assert (GA : Ak 1024 = bp 1024 - bp 971) by reflexivity. assert (GB : Ak 970 = bp 970 - bp 917) by reflexivity.
    assert (GC : Ak 916 = bp 916 - bp 863) by reflexivity. assert (GD : Ak 862 = bp 862 - bp 809) by reflexivity.
    destruct (V_le_Ak a Fa) as [Ea|La].
    - assert (B := Ak_next 1024 _ _ ltac:(lia) Ea E1). change (1024 - 54)%Z with 970%Z in B.
      destruct (fmt_top 970 (V b)) as [Eb|Lb]; [auto with fmt|lia|exact B|..].
      + assert (B' := Ak_next 970 _ _ ltac:(lia) Eb E2). change (970 - 54)%Z with 916%Z in B'.
        destruct (fmt_top 916 (V c)) as [Ec|Lc]; [auto with fmt|lia|exact B'|..].
        * assert (B'' := Ak_next 916 _ _ ltac:(lia) Ec E3). change (916 - 54)%Z with 862%Z in B''.
          destruct (fmt_top 862 (V d)) as [Ed|Ld]; [auto with fmt|lia|exact B''|lra|].
          assert (0 < bp (862 - 53)) by apply bpow_gt_0. lra.
        * assert (K := below 916 _ _ E3 Lc ltac:(lia)). change (916 - 54)%Z with 862%Z in K. lra.
      + assert (K := below 970 _ _ E2 Lb ltac:(lia)). change (970 - 54)%Z with 916%Z in K. lra.
    - assert (K := below 1024 _ _ E1 La ltac:(lia)). change (1024 - 54)%Z with 970%Z in K. lra. }
  intros x [(F0 & F1 & F2 & F3) (E1 & E2 & E3)].
  change (V (q0 x) = rn (V (q0 x) + V (q1 x))) in E1. change (V (q1 x) = rn (V (q1 x) + V (q2 x))) in E2. change (V (q2 x) = rn (V (q2 x) + V (q3 x))) in E3.
  split.
  - assert (ND := q_min_neg).
    destruct (fneg_ok _ F0) as [G0 N0]. destruct (fneg_ok _ F1) as [G1 N1]. destruct (fneg_ok _ F2) as [G2 N2]. destruct (fneg_ok _ F3) as [G3 N3].
    assert (K : V (fneg (q0 x)) + V (fneg (q1 x)) + V (fneg (q2 x)) + V (fneg (q3 x)) <= Ak 1024 + Ak 970 + Ak 916 + Ak 862).
    { apply U; auto; rewrite ?N0, ?N1, ?N2, ?N3, <- Ropp_plus_distr, rn_opp; now f_equal. }
    rewrite ND. assert (EN : QV (q_neg Q_MAX) = - QV Q_MAX).
    { unfold QV, q_neg. cbn [q0 q1 q2 q3]. rewrite !(fun a F => proj2 (fneg_ok a F)) by (vm_compute; reflexivity). ring. }
    rewrite EN, Q_MAX_V. unfold QV. lra.
  - rewrite Q_MAX_V. now apply U.
Qed.

(** MIN_POSITIVE and EPSILON *)
Lemma min_positive_ok : DV D_MIN_POSITIVE = bp (-1022) /\ QV Q_MIN_POSITIVE = bp (-863).
Proof.
  split.
  - rewrite zd_ok. replace (bp (-1022)) with (IZR (2 ^ 52) * bp (-1074)) by (change (IZR (2 ^ 52)) with (bp 52); rewrite <- bpow_plus; reflexivity).
    apply (f_equal2 Rmult); [|reflexivity]. apply (f_equal IZR). vm_compute. reflexivity.
  - rewrite zq_ok. replace (bp (-863)) with (IZR (2 ^ 211) * bp (-1074)) by (change (IZR (2 ^ 211)) with (bp 211); rewrite <- bpow_plus; reflexivity).
    apply (f_equal2 Rmult); [|reflexivity]. apply (f_equal IZR). vm_compute. reflexivity.
Qed.
Lemma neq_z z w : (z =? w)%Z = false -> IZR z * bp (-1074) <> IZR w * bp (-1074).
Proof. intros H E. apply Rmult_eq_reg_r in E; [|apply Rgt_not_eq, bpow_gt_0]. apply eq_IZR in E. apply Z.eqb_neq in H. easy. Qed.
(** the documented values 2^-104 (comment in the source) and the literal differ *)
Lemma d_epsilon_refuted : DV D_EPSILON <> bp (-104) /\ Rabs (DV D_EPSILON - bp (-104)) <= bp (-49) * bp (-104).
Proof.
  assert (E : bp (-104) = IZR (2 ^ 970) * bp (-1074)) by pw2.
  split.
  - rewrite zd_ok, E. apply neq_z. vm_compute. reflexivity.
  - rewrite zd_ok. replace (bp (-49) * bp (-104)) with (IZR (2 ^ 921) * bp (-1074)) by (change 2%Z with (radix_val radix2); rewrite IZR_Zpower by lia; rewrite <- !bpow_plus; reflexivity).
    rewrite E, <- Rmult_minus_distr_r, <- minus_IZR, Rabs_mult, (Rabs_pos_eq (bp _)), <- abs_IZR by apply bpow_ge_0.
    apply Rmult_le_compat_r; [apply bpow_ge_0|]. apply IZR_le. apply Z.leb_le. vm_compute. reflexivity.
Qed.
Lemma q_epsilon_ok : QNorm Q_EPSILON /\ Rabs (QV Q_EPSILON - bp (-209)) <= bp (-217) * bp (-209).
Proof.
  assert (E : bp (-209) = IZR (2 ^ 865) * bp (-1074)) by pw2.
  split; [apply qnormx_ok; vm_compute; reflexivity|].
  - rewrite zq_ok. replace (bp (-217) * bp (-209)) with (IZR (2 ^ 648) * bp (-1074)) by (change 2%Z with (radix_val radix2); rewrite IZR_Zpower by lia; rewrite <- !bpow_plus; reflexivity).
    rewrite E, <- Rmult_minus_distr_r, <- minus_IZR, Rabs_mult, (Rabs_pos_eq (bp _)), <- abs_IZR by apply bpow_ge_0.
    apply Rmult_le_compat_r; [apply bpow_ge_0|]. apply IZR_le. apply Z.leb_le. vm_compute. reflexivity.
Qed.
