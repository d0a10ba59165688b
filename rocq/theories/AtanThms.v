(** * Accuracy of the Double inverse tangent of a point *)
From Coq Require Import ZArith Reals Lra Lia Psatz Bool.
From Flocq Require Import Core IEEE754.BinarySingleNaN.
From Verif Require Import RN F64 Prim DoubleM Spec F64Facts EFT DWAdd DAddProofs DMulProofs DDivProofs MulAny OrderProofs LawProofs ExactProofs IntProofs AbsOps ParseM AlgM ConstM BaseConst ConstProofs Exact FromProofs SqrtProofs TransM TransProofs PowProofs ExpProofs ExpThms LnThms SinLoop SinSeries SinReduce SinThms RelOps DivTiny AtanReal.
Local Open Scope R_scope.

Lemma sin_cos_small lm dbg a : printer lm -> DNorm a -> bp (-700) <= Rabs (DV a) <= 98 / 1000 ->
  exists s c, d_sin_cos lm dbg a = Val (s, c) /\ DNorm s /\ DNorm c /\ Rabs (DV s - sin (DV a)) <= 693 / 10 * vv * Rabs (DV a) /\ Rabs (DV c - cos (DV a)) <= 39 * vv.
Proof.
  intros PR N [L U]. assert (U40 : Rabs (DV a) <= bp 40). { apply Rle_trans with (1 := U). apply Rle_trans with 1; [lra|]. change 1 with (bp 0). apply bpow_le. lia. }
  destruct (pre_none a N (nz_of a L)) as [Z F]. destruct (reduce_ok a N (conj L U40)) as (z & j & k & t & RD & Nt & Bt & _ & _ & _ & SM).
  destruct (SM U) as (-> & -> & -> & ET). assert (PA := Rabs_pos (DV a)).
  unfold d_sin_cos, d_pre_sin_cos. rewrite Z, F. cbn [negb]. rewrite RD.
  assert (TZ : d_is_zero t = false).
  { destruct (d_is_zero t) eqn:TZ; [|reflexivity]. apply d_is_zero_DV in TZ; auto. rewrite TZ, Rminus_0_l, Rabs_Ropp in ET. assert (P := bpow_gt_0 radix2 (-700)). lra. }
  destruct (sincos_ok lm dbg t PR Nt Bt) as (s & c & E2 & Ns & Nc & _ & Ec). rewrite E2. cbn [obind Z.eqb].
  assert (SE : s = d_sin_taylor t). { unfold d_sincos_taylor in E2. rewrite TZ in E2. cbv zeta in E2. destruct (d_sqrt lm dbg (d_sub D_ONE (d_sqr (d_sin_taylor t)))); cbn [obind] in E2; [|discriminate]. congruence. }
  exists s, c. split; [reflexivity|]. split; [exact Ns|]. split; [exact Nc|].
  assert (Es := sin_rel_small t (DV a) Nt (conj L U) ET). rewrite <- SE in Es. split; [exact Es|].
  assert (K := cos_lip (DV t) (DV a)). replace (DV c - cos (DV a)) with ((DV c - cos (DV t)) + (cos (DV t) - cos (DV a))) by ring. eapply Rle_trans; [apply Rabs_triang|]. lra.
Qed.

(** ** the Newton step on the reals *)
Lemma one_cos d : 0 <= 1 - cos d <= d * d / 2.
Proof.
  replace (1 - cos d) with (2 * (sin (d / 2) * sin (d / 2))).
  2: { replace d with (2 * (d / 2)) at 3 by lra. rewrite cos_2a_sin. ring. }
  assert (K := sin_small (d / 2)). assert (P := Rabs_pos (sin (d / 2))). assert (E := Rsqr_abs (sin (d / 2))). assert (E2 := Rsqr_abs (d / 2)). unfold Rsqr in E, E2. split.
  - rewrite E. apply Rmult_le_pos; [lra|]. apply Rmult_le_pos; lra.
  - apply Rle_trans with (2 * (d / 2 * (d / 2))); [|lra]. rewrite E, E2. apply Rmult_le_compat_l; [lra|]. apply Rmult_le_compat; lra.
Qed.
Lemma d_sin_d d : Rabs (d - sin d) <= Rabs d * (d * d / 2).
Proof.
  assert (G : forall d, 0 < d -> Rabs (d - sin d) <= Rabs d * (d * d / 2)).
  { intros e P. destruct (MVT_cor2 (fun x => x - sin x) (fun x => 1 - cos x) 0 e P) as (c & E & C).
    - intros x _. apply derivable_pt_lim_minus; [apply derivable_pt_lim_id|apply derivable_pt_lim_sin].
    - cbv beta in E. rewrite sin_0, !Rminus_0_r in E. rewrite E, Rabs_mult, (Rmult_comm (Rabs (1 - _))). apply Rmult_le_compat_l; [apply Rabs_pos|].
      destruct (one_cos c) as [A B]. rewrite Rabs_pos_eq by exact A. apply Rle_trans with (1 := B). nra. }
  destruct (Rlt_or_le 0 d) as [P|P]; [apply G, P|]. destruct (Req_dec d 0) as [->|N]; [rewrite sin_0, Rminus_0_r, Rabs_R0; lra|].
  assert (K := G (- d) ltac:(lra)). rewrite sin_neg in K. replace (- d - - sin d) with (- (d - sin d)) in K by ring. rewrite !Rabs_Ropp in K. replace (- d * - d) with (d * d) in K by ring. exact K.
Qed.
Lemma newton_core d T C S : Rabs d <= / 1000 -> 68 / 100 <= Rabs C -> Rabs S <= 1 -> T - S = (S * cos d - C * sin d) - S -> Rabs ((T - S) / C + d) <= 3 / 4 * (d * d).
Proof.
  intros Hd HC HS E. rewrite E. assert (CZ : C <> 0) by (intros ->; rewrite Rabs_R0 in HC; lra).
  replace ((S * cos d - C * sin d - S) / C + d) with ((d - sin d) + - (S / C * (1 - cos d))) by (field; exact CZ).
  eapply Rle_trans; [apply Rabs_triang|]. rewrite Rabs_Ropp, Rabs_mult. destruct (one_cos d) as [A B]. rewrite (Rabs_pos_eq (1 - cos d)) by exact A.
  assert (K := d_sin_d d). assert (P := Rle_0_sqr d). unfold Rsqr in P.
  assert (Q : Rabs (S / C) <= 148 / 100).
  { unfold Rdiv. rewrite Rabs_mult, Rabs_inv by exact CZ. apply Rle_trans with (1 * (100 / 68)); [|lra]. apply Rmult_le_compat; [apply Rabs_pos|left; apply Rinv_0_lt_compat; lra|exact HS|].
    replace (100 / 68) with (/ (68 / 100)) by lra. apply Rinv_le_contravar; lra. }
  assert (K1 : Rabs d * (d * d / 2) <= / 1000 * (d * d / 2)) by (apply Rmult_le_compat_r; lra).
  assert (K2 : Rabs (S / C) * (1 - cos d) <= 148 / 100 * (d * d / 2)) by (apply Rmult_le_compat; try lra; apply Rabs_pos). lra.
Qed.

(** ** the rounded step *)
Lemma div_any x y : DNorm x -> DNorm y -> / 2 <= Rabs (DV y) <= 2 -> Rabs (DV x) <= 2 ->
  DNorm (d_div x y) /\ Rabs (DV (d_div x y) - DV x / DV y) <= 16 * vv * Rabs (DV x / DV y) + bp (-860).
Proof.
  intros Nx Ny HY HX. assert (Kx := DNorm_hi_rel x Nx). assert (Ky := DNorm_hi_rel y Ny). assert (Ly := DNorm_val_rel y Ny). assert (Lx := DNorm_val_rel x Nx).
  assert (Hy : 4 / 10 <= Rabs (V (d0 y)) <= 3). { assert (K := tri2 _ _ _ _ Ly (Rle_refl _)). assert (Q := tri _ _ _ _ Ly (Rle_refl _)). assert (P := Rabs_pos (V (d0 y))). lra. }
  assert (NZ : V (d0 y) <> 0) by (intros Z; rewrite Z, Rabs_R0 in Hy; lra). assert (P8 := bpow_gt_0 radix2 (-880)).
  assert (YZ : DV y <> 0) by (intros Z; rewrite Z, Rabs_R0 in HY; lra).
  assert (AQ : Rabs (DV x / DV y) = Rabs (DV x) * / Rabs (DV y)) by (unfold Rdiv; rewrite Rabs_mult, Rabs_inv by exact YZ; reflexivity).
  assert (IY : 0 < / Rabs (DV y) <= 2). { split; [apply Rinv_0_lt_compat; lra|]. replace 2 with (/ / 2) by lra. apply Rinv_le_contravar; lra. }
  assert (PX := Rabs_pos (DV x)).
  destruct (Rle_or_lt (Rabs (V (d0 x))) (bp (-880))) as [T|T].
  - destruct (d_div_tiny x y Nx Ny ltac:(lra) T) as [N E]. split; [exact N|].
    assert (B : bp (-860) = 1048576 * bp (-880)) by exact (bp_split (-880) 20 ltac:(lia)). assert (B2 : bp (-1028) <= bp (-880)) by (apply bpow_le; lia).
    unfold Rminus. eapply Rle_trans; [apply Rabs_triang|]. rewrite Rabs_Ropp.
    assert (HXD : Rabs (DV x) <= 2 * bp (-880)). { assert (K := tri _ _ _ _ Lx (Rle_refl _)). lra. }
    assert (Rabs (DV x) * / Rabs (DV y) <= 2 * bp (-880) * 2) by (apply Rmult_le_compat; lra).
    assert (0 <= Rabs (DV x) * / Rabs (DV y)) by (apply Rmult_le_pos; lra). rewrite AQ. lra.
  - destruct (d_div_ok x y Nx Ny NZ) as [N E].
    + right. assert (B1 : bp 10 <= bp 1010) by (apply bpow_le; lia). change (bp 10) with 1024 in B1. assert (B2 : bp (-900) <= bp (-880)) by (apply bpow_le; lia).
      split; [lra|]. unfold Rdiv. rewrite Rabs_mult, Rabs_inv by exact NZ.
      assert (I : / 3 <= / Rabs (V (d0 y)) <= 3). { split; [apply Rinv_le_contravar; lra|]. replace 3 with (/ / 3) by lra. apply Rinv_le_contravar; lra. }
      assert (PV := Rabs_pos (V (d0 x))). split.
      * assert (B3 : bp (-880) = 1048576 * bp (-900)) by exact (bp_split (-900) 20 ltac:(lia)). apply Rle_trans with (bp (-880) * / 3); [assert (P9 := bpow_gt_0 radix2 (-900)); lra|]. apply Rmult_le_compat; lra.
      * apply Rle_trans with (3 * 3); [apply Rmult_le_compat; lra|lra].
    + split; [exact N|]. unfold approx in E. rewrite vv_bp in E. assert (P6 := bpow_gt_0 radix2 (-860)). lra.
Qed.
Lemma corr_ok y s c T Sg Cg e1 e2 ec dl : DNorm y -> DNorm s -> DNorm c -> Rabs (DV y - T) <= e1 -> Rabs (DV s - Sg) <= e2 -> Rabs (DV c - Cg) <= ec ->
  vv <= ec <= / 1000 -> Rabs (T - Sg) <= dl -> 0 <= dl <= / 1000 -> e1 + e2 <= / 1000 -> Rabs T <= 1 -> Rabs Sg <= 1 -> 68 / 100 <= Rabs Cg <= 1 ->
  DNorm (d_div (d_sub y s) c) /\ Rabs (DV (d_div (d_sub y s) c) - (T - Sg) / Cg) <= 3 / 2 * (e1 + e2) + 50 * ec * dl + bp (-860).
Proof.
  intros Ny Ns Nc E1 E2 Ec Hec Hd Hdl He HT HS HC.
  assert (Py := tri _ _ _ _ E1 HT). assert (Ps := tri _ _ _ _ E2 HS). assert (P1 : 0 <= e1) by (eapply Rle_trans; [apply Rabs_pos|exact E1]). assert (P2 : 0 <= e2) by (eapply Rle_trans; [apply Rabs_pos|exact E2]).
  assert (B2 : 2 <= bp 1000) by (change 2 with (bp 1); apply bpow_le; lia).
  destruct (sum_near y s T Sg e1 e2 Ny Ns E1 E2 ltac:(lra) ltac:(lra)) as [_ [Nn En]]. set (n := d_sub y s) in *.
  assert (V0 : 0 < vv) by lra. assert (V1 : vv <= / 1000) by lra.
  assert (PT := Rabs_pos (T - Sg)).
  assert (En' : Rabs (DV n - (T - Sg)) <= 6 * vv * dl + 1001 / 1000 * (e1 + e2)) by lra.
  assert (Vd : vv * dl <= / 1000 * dl) by (apply Rmult_le_compat_r; lra).
  assert (Bn := tri _ _ _ _ En' Hd).
  assert (Lc := tri2 _ _ _ _ Ec (Rle_refl _)). assert (Uc := tri _ _ _ _ Ec (Rle_refl _)).
  destruct (div_any n c Nn Nc ltac:(lra) ltac:(lra)) as [Nq Eq]. split; [exact Nq|].
  assert (CZ : DV c <> 0) by (intros Z; rewrite Z, Rabs_R0 in Lc; lra). assert (GZ : Cg <> 0) by (intros Z; rewrite Z, Rabs_R0 in HC; lra).
  assert (Ic : 0 < / Rabs (DV c) <= 1475 / 1000). { split; [apply Rinv_0_lt_compat; lra|]. replace (1475 / 1000) with (/ (1000 / 1475)) by lra. apply Rinv_le_contravar; lra. }
  assert (Ig : 0 < / Rabs Cg <= 1475 / 1000). { split; [apply Rinv_0_lt_compat; lra|]. replace (1475 / 1000) with (/ (1000 / 1475)) by lra. apply Rinv_le_contravar; lra. }
  assert (NQ : Rabs (DV n / DV c) <= 1475 / 1000 * (1001 / 1000 * dl + 1001 / 1000 * (e1 + e2))).
  { unfold Rdiv at 1. rewrite Rabs_mult, Rabs_inv by exact CZ. rewrite Rmult_comm. apply Rmult_le_compat; [lra|apply Rabs_pos|lra|lra]. }
  assert (D : Rabs (DV n / DV c - (T - Sg) / Cg) <= 1475 / 1000 * (6 * vv * dl + 1001 / 1000 * (e1 + e2)) + 22 / 10 * ec * dl).
  { replace (DV n / DV c - (T - Sg) / Cg) with ((DV n - (T - Sg)) * / DV c + - ((T - Sg) * (DV c - Cg) * (/ DV c * / Cg))) by (field; auto).
    eapply Rle_trans; [apply Rabs_triang|]. rewrite Rabs_Ropp, !Rabs_mult, !Rabs_inv by auto. apply Rplus_le_compat.
    - rewrite Rmult_comm. apply Rmult_le_compat; [lra|apply Rabs_pos|lra|lra].
    - apply Rle_trans with (dl * ec * (1475 / 1000 * (1475 / 1000))); [|assert (0 <= dl * ec) by (apply Rmult_le_pos; lra); lra].
      apply Rmult_le_compat; [apply Rmult_le_pos; apply Rabs_pos|apply Rmult_le_pos; lra|apply Rmult_le_compat; auto using Rabs_pos|apply Rmult_le_compat; lra]. }
  replace (DV (d_div n c) - (T - Sg) / Cg) with ((DV (d_div n c) - DV n / DV c) + (DV n / DV c - (T - Sg) / Cg)) by ring. eapply Rle_trans; [apply Rabs_triang|].
  assert (Q1 : 16 * vv * Rabs (DV n / DV c) <= 16 * vv * (1475 / 1000 * (1001 / 1000 * dl + 1001 / 1000 * (e1 + e2)))) by (apply Rmult_le_compat_l; lra).
  assert (Q2 : vv * dl <= ec * dl) by (apply Rmult_le_compat_r; lra). assert (Q3 : vv * (e1 + e2) <= / 1000 * (e1 + e2)) by (apply Rmult_le_compat_r; lra).
  assert (Q4 : 0 <= ec * dl) by (apply Rmult_le_pos; lra).
  lra.
Qed.

Lemma fin_ok z q th N e dl : DNorm z -> DNorm q -> Rabs (DV z - th) <= dl -> 0 <= dl <= / 1000 -> Rabs th <= 4 -> Rabs (DV q - N) <= e -> 0 <= e <= / 100 -> Rabs (N + (DV z - th)) <= 3 / 4 * (dl * dl) ->
  (DNorm (d_add z q) /\ Rabs (DV (d_add z q) - th) <= 6 * vv * Rabs th + 1001 / 1000 * e + 76 / 100 * (dl * dl)) /\
  (forall N', N' = - N -> forall q', DNorm q' -> Rabs (DV q' - N') <= e -> DNorm (d_sub z q') /\ Rabs (DV (d_sub z q') - th) <= 6 * vv * Rabs th + 1001 / 1000 * e + 76 / 100 * (dl * dl)).
Proof.
  intros Nz Nq Hz Hd Ht Hq He HN.
  assert (Bz := tri _ _ _ _ Hz Ht). assert (DD : dl * dl <= / 1000 * dl) by (apply Rmult_le_compat_r; lra). assert (D0 : 0 <= dl * dl) by (apply Rmult_le_pos; lra).
  assert (BN : Rabs N <= 1). { replace N with ((N + (DV z - th)) + - (DV z - th)) by ring. eapply Rle_trans; [apply Rabs_triang|]. rewrite Rabs_Ropp. lra. }
  assert (BB : 16 <= bp 1000) by (change 16 with (bp 4); apply bpow_le; lia).
  assert (Z0 : Rabs (DV z - DV z) <= 0) by (rewrite Rminus_diag_eq, Rabs_R0 by reflexivity; lra).
  assert (TH : Rabs (DV z + N) <= Rabs th + 3 / 4 * (dl * dl)).
  { replace (DV z + N) with (th + (N + (DV z - th))) by ring. eapply Rle_trans; [apply Rabs_triang|]. lra. }
  split.
  - assert (Bq := tri _ _ _ _ Hq BN). destruct (sum_near z q (DV z) N 0 e Nz Nq Z0 Hq ltac:(lra) ltac:(lra)) as [[K1 K2] _]. split; [exact K1|].
    replace (DV (d_add z q) - th) with ((DV (d_add z q) - (DV z + N)) + (N + (DV z - th))) by ring. eapply Rle_trans; [apply Rabs_triang|]. lra.
  - intros N' EN q' Nq' Hq'. assert (BN' : Rabs N' <= 1) by (rewrite EN, Rabs_Ropp; exact BN). assert (Bq := tri _ _ _ _ Hq' BN').
    destruct (sum_near z q' (DV z) N' 0 e Nz Nq' Z0 Hq' ltac:(lra) ltac:(lra)) as [_ [K1 K2]]. split; [exact K1|].
    replace (DV z - N') with (DV z + N) in K2 by (rewrite EN; ring).
    replace (DV (d_sub z q') - th) with ((DV (d_sub z q') - (DV z + N)) + (N + (DV z - th))) by ring. eapply Rle_trans; [apply Rabs_triang|]. lra.
Qed.

(** both branches of the correction *)
Lemma step_ok y x z s c th e1 es ec dl lm dbg : d_sin_cos lm dbg z = Val (s, c) -> DNorm y -> DNorm x -> DNorm z -> DNorm s -> DNorm c ->
  Rabs (DV y - sin th) <= e1 * Rabs (sin th) -> Rabs (DV x - cos th) <= e1 * Rabs (cos th) -> 0 <= e1 <= / 10000 ->
  Rabs (DV s - sin (DV z)) <= es -> Rabs (DV c - cos (DV z)) <= ec -> vv <= es <= / 10000 -> vv <= ec <= / 10000 ->
  Rabs (DV z - th) <= dl -> 0 <= dl <= / 10000 -> Rabs th <= 4 ->
  (exists r, d_atan2_step lm dbg y x z = Val r /\ DNorm r /\
    Rabs (DV r - th) <= 6 * vv * Rabs th + 151 / 100 * (e1 * Rabs (sin th) + es) + 51 * ec * dl + 76 / 100 * (dl * dl) + bp (-859)) \/
    (exists r, d_atan2_step lm dbg y x z = Val r /\ DNorm r /\ 9 / 10 * Rabs (cos th) <= Rabs (sin th) /\
    Rabs (DV r - th) <= 6 * vv * Rabs th + 151 / 100 * (e1 + ec) + 51 * es * dl + 76 / 100 * (dl * dl) + bp (-859)).
Proof.
  intros ESC Ny Nx Nz Ns Nc Hy Hx He1 Hs Hc Hes Hec Hz Hdl Hth.
  destruct (sc1 th) as [S1 C1]. destruct (sc1 (DV z)) as [S2 C2]. set (Z := DV z) in *.
  assert (Ry : rel e1 y (sin th)) by now split. assert (Rx : rel e1 x (cos th)) by now split.
  assert (Vy := rel_hi _ _ _ Ry ltac:(lra)). assert (Vx := rel_hi _ _ _ Rx ltac:(lra)).
  assert (LS := sin_lip Z th). assert (LC := cos_lip Z th).
  assert (U := sin2_cos2 th). rewrite (Rsqr_abs (sin th)), (Rsqr_abs (cos th)) in U. unfold Rsqr in U.
  assert (PS := Rabs_pos (sin th)). assert (PC := Rabs_pos (cos th)).
  assert (EX1 : e1 * Rabs (sin th) <= / 10000 * 1) by (apply Rmult_le_compat; lra). assert (EX2 : e1 * Rabs (cos th) <= e1 * 1) by (apply Rmult_le_compat_l; lra).
  assert (EX0 : 0 <= e1 * Rabs (sin th)) by (apply Rmult_le_pos; lra).  assert (EX3 : 0 <= e1 * Rabs (cos th)) by (apply Rmult_le_pos; lra).
  assert (Fx := proj1 (proj1 Nx)). assert (Fy := proj1 (proj1 Ny)).
  assert (DD : Rabs (Z - th) * Rabs (Z - th) <= dl * dl) by (apply Rmult_le_compat; auto using Rabs_pos). assert (DQ : (Z - th) * (Z - th) = Rabs (Z - th) * Rabs (Z - th)) by (rewrite <- Rabs_mult; symmetry; apply Rabs_pos_eq; apply Rle_0_sqr).
  assert (B59 : bp (-859) = 2 * bp (-860)) by exact (bp_split (-860) 1 ltac:(lia)). assert (P60 := bpow_gt_0 radix2 (-860)).
  assert (B60 : bp (-860) <= / 1024) by (change (/ 1024) with (bp (-10)); apply bpow_le; lia).
  assert (QC : 0 <= ec * dl <= / 10000 * / 10000) by (split; [apply Rmult_le_pos; lra|apply Rmult_le_compat; lra]).
  assert (QS : 0 <= es * dl <= / 10000 * / 10000) by (split; [apply Rmult_le_pos; lra|apply Rmult_le_compat; lra]).
  unfold d_atan2_step. rewrite ESC. cbn [obind].
  change (fgtb (fabs (d0 x)) (fabs (d0 y))) with (fltb (fabs (d0 y)) (fabs (d0 x))).
  destruct (fabs_ok (d0 x) Fx) as [Fax Vax]. destruct (fabs_ok (d0 y) Fy) as [Fay Vay]. rewrite (fltb_ok _ _ Fay Fax), Vax, Vay.
  destruct (Rlt_bool_spec (Rabs (V (d0 y))) (Rabs (V (d0 x)))) as [LT|LT].
  - left. assert (CB : 69 / 100 <= Rabs (cos th)).
    { destruct (Rle_or_lt (69 / 100) (Rabs (cos th))) as [Q|Q]; [exact Q|]. exfalso. assert (K : Rabs (sin th) <= 102 / 99 * (69 / 100)) by lra.
      assert (Rabs (sin th) * Rabs (sin th) <= 102 / 99 * (69 / 100) * (102 / 99 * (69 / 100))) by (apply Rmult_le_compat; lra).
      assert (Rabs (cos th) * Rabs (cos th) <= 69 / 100 * (69 / 100)) by (apply Rmult_le_compat; lra). lra. }
    assert (LC' : Rabs (cos Z - cos th) <= dl) by lra. assert (CZ := tri2 _ _ _ _ LC' (Rle_refl _)).
    assert (TS : Rabs (sin th - sin Z) <= dl) by (rewrite Rabs_minus_sym; lra).
    destruct (corr_ok y s c (sin th) (sin Z) (cos Z) (e1 * Rabs (sin th)) es ec dl Ny Ns Nc Hy Hs Hc ltac:(lra) TS ltac:(lra) ltac:(lra) S1 S2 ltac:(lra)) as [Nq Eq].
    assert (NW := newton_core (Z - th) (sin th) (cos Z) (sin Z) ltac:(lra) ltac:(lra) S2).
    rewrite <- (sin_minus Z (Z - th)) in NW. replace (Z - (Z - th)) with th in NW by ring. specialize (NW eq_refl). rewrite DQ in NW.
    destruct (fin_ok z _ th _ _ dl Nz Nq Hz ltac:(lra) Hth Eq) as [[K1 K2] _]; [lra|fold Z; lra|].
    eexists. split; [reflexivity|]. split; [exact K1|]. lra.
  - assert (SB : 69 / 100 <= Rabs (sin th)).
    { destruct (Rle_or_lt (69 / 100) (Rabs (sin th))) as [Q|Q]; [exact Q|]. exfalso. assert (K : Rabs (cos th) <= 102 / 99 * (69 / 100)) by lra.
      assert (Rabs (cos th) * Rabs (cos th) <= 102 / 99 * (69 / 100) * (102 / 99 * (69 / 100))) by (apply Rmult_le_compat; lra).
      assert (Rabs (sin th) * Rabs (sin th) <= 69 / 100 * (69 / 100)) by (apply Rmult_le_compat; lra). lra. }
    assert (LS' : Rabs (sin Z - sin th) <= dl) by lra. assert (SZ := tri2 _ _ _ _ LS' (Rle_refl _)).
    assert (TC : Rabs (cos th - cos Z) <= dl) by (rewrite Rabs_minus_sym; lra).
    destruct (corr_ok x c s (cos th) (cos Z) (sin Z) (e1 * Rabs (cos th)) ec es dl Nx Nc Ns Hx Hc Hs ltac:(lra) TC ltac:(lra) ltac:(lra) C1 C2 ltac:(lra)) as [Nq Eq].
    assert (NW := newton_core (Z - th) (cos th) (- sin Z) (cos Z) ltac:(lra) ltac:(rewrite Rabs_Ropp; lra) C2).
    replace (cos Z * cos (Z - th) - - sin Z * sin (Z - th)) with (cos (Z - (Z - th))) in NW by (rewrite cos_minus; ring). replace (Z - (Z - th)) with th in NW by ring. specialize (NW eq_refl). rewrite DQ in NW.
    assert (SZ0 : sin Z <> 0) by (intros Q; rewrite Q, Rabs_R0 in SZ; lra).
    set (N := (cos th - cos Z) / - sin Z) in *. assert (EN : (cos th - cos Z) / sin Z = - N) by (unfold N; field; exact SZ0).
    destruct (neg_ok _ _ _ Nq Eq) as [Nq' Eq']. rewrite EN, Ropp_involutive in Eq'.
    destruct (fin_ok z _ th N _ dl Nz Nq' Hz ltac:(lra) Hth Eq') as [_ K]; [lra|fold Z; lra|].
    destruct (K _ EN _ Nq Eq) as [K1 K2].
    right. eexists. split; [reflexivity|]. split; [exact K1|]. split; [lra|]. lra.
Qed.
