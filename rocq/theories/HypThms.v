(** * Accuracy of the Double hyperbolic functions: the functions themselves *)
From Coq Require Import ZArith Reals Lra Lia Psatz Bool.
From Flocq Require Import Core IEEE754.BinarySingleNaN.
From Verif Require Import RN F64 Prim DoubleM Spec F64Facts EFT DWAdd DAddProofs DMulProofs DDivProofs MulAny OrderProofs LawProofs ExactProofs IntProofs AbsOps ParseM AlgM ConstM BaseConst ConstProofs Exact FromProofs SqrtProofs TransM TransProofs PowProofs ExpProofs ExpThms LnThms SinLoop SinSeries TableQuad RelOps HypProofs.
Local Open Scope R_scope.

Lemma tw_V : Fin (dec 5 (-2)) /\ 499 / 10000 <= V (dec 5 (-2)) <= 501 / 10000.
Proof.
  split; [vm_compute; reflexivity|]. rewrite (dec_rn 5 (-2)) by (try lia; rewrite Rabs_pos_eq; change (10 ^ (- -2))%Z with 100%Z; lra). change (10 ^ (- -2))%Z with 100%Z.
  assert (K := rn_rel (5 / 100)). rewrite (Rabs_pos_eq (5 / 100)) in K by lra.
  assert (B : bp (-1022) <= 5 / 100) by (apply Rle_trans with (bp (-5)); [apply bpow_le; lia|change (bp (-5)) with (/ 32); lra]).
  specialize (K B). apply Rabs_def2' in K. lra.
Qed.
Lemma nz_pre x : DNorm x -> DV x <> 0 -> d_is_nan x = false /\ d_is_zero x = false /\ d_is_infinite x = false.
Proof.
  intros N H. assert (F : Fin (d0 x)) by apply N. split; [now apply Fin_nan|]. split.
  - destruct (d_is_zero x) eqn:Z; [|reflexivity]. exfalso. apply H. now apply d_is_zero_DV.
  - unfold d_is_infinite. destruct (d0 x); try discriminate; reflexivity.
Qed.
Lemma abs_hi x : DNorm x -> DNorm (d_abs x) /\ (1 - 2 * u) * Rabs (DV x) <= V (d0 (d_abs x)) <= (1 + 2 * u) * Rabs (DV x).
Proof.
  intros N. assert (F : fis_nan (d0 x) = false) by (apply Fin_nan; apply N). destruct (d_abs_ok x F) as (_ & _ & _ & K). destruct (K N) as [Na Va]. split; [exact Na|].
  assert (H0 := hi_nonneg _ Na ltac:(rewrite Va; apply Rabs_pos)). assert (K1 := DNorm_hi_rel _ Na). assert (K2 := DNorm_val_rel _ Na). rewrite Va in K1, K2.
  rewrite (Rabs_pos_eq (V _)) in K1, K2 by exact H0. rewrite (Rabs_pos_eq (Rabs _)) in K1 by apply Rabs_pos. apply Rabs_def2' in K2. assert (P := Rabs_pos (DV x)). lra.
Qed.
(** the two branches *)
Lemma branch x : DNorm x -> (fgtb (d0 (d_abs x)) (dec 5 (-2)) = true /\ fleb (d0 (d_abs x)) (dec 5 (-2)) = false /\ 498 / 10000 <= Rabs (DV x)) \/
  (fgtb (d0 (d_abs x)) (dec 5 (-2)) = false /\ fleb (d0 (d_abs x)) (dec 5 (-2)) = true /\ Rabs (DV x) <= 502 / 10000).
Proof.
  intros N. destruct tw_V as [Ft Bt]. destruct (abs_hi x N) as [Na Ba]. assert (P := Rabs_pos (DV x)). change (fgtb (d0 (d_abs x)) (dec 5 (-2))) with (fltb (dec 5 (-2)) (d0 (d_abs x))).
  assert (Fa : Fin (d0 (d_abs x))) by apply Na. rewrite (fltb_ok _ _ Ft Fa), (fleb_ok _ _ Fa Ft).
  destruct (Rlt_bool_spec (V (dec 5 (-2))) (V (d0 (d_abs x)))); destruct (Rle_bool_spec (V (d0 (d_abs x))) (V (dec 5 (-2)))); lra.
Qed.

(** ** exp and its reciprocal *)
Lemma exp_range x : -600 <= x <= 600 -> bp (-890) <= exp x <= bp 890.
Proof.
  intros H. assert (L : 69 / 100 < ln 2) by consts. rewrite !bpow_exp. change (IZR radix2) with 2.
  assert (G : forall p q, p <= q -> exp p <= exp q). { intros p q [Q|Q]; [left; now apply exp_increasing|rewrite Q; lra]. }
  split; apply G; lra.
Qed.
Definition ee (X : R) : R := (15 * Rabs X + 480) * vv.
Lemma exp_pm x : DNorm x -> Rabs (DV x) <= 600 -> rel (ee (DV x)) (d_exp x) (exp (DV x)) /\ rel (1003 / 1000 * ee (DV x) + 161 / 10 * vv) (d_recip (d_exp x)) (exp (- DV x)) /\
  bp (-890) <= exp (DV x) <= bp 890 /\ bp (-890) <= exp (- DV x) <= bp 890 /\ 0 <= ee (DV x) <= 9480 * vv.
Proof.
  intros N H. assert (H' := Rabs_def2' _ _ H). destruct (d_exp_okv x N ltac:(lra)) as [N1 E1]. assert (P := exp_pos (DV x)). assert (PA := Rabs_pos (DV x)).
  assert (EB : 0 <= ee (DV x) <= 9480 * vv) by (unfold ee; lra). assert (R1 := exp_range (DV x) ltac:(lra)). assert (R2 := exp_range (- DV x) ltac:(lra)).
  assert (RE : rel (ee (DV x)) (d_exp x) (exp (DV x))). { split; [exact N1|]. rewrite (Rabs_pos_eq (exp _)) by lra. exact E1. }
  split; [exact RE|]. split; [|auto]. rewrite exp_Ropp. apply rel_recip; [exact RE|lra|]. rewrite Rabs_pos_eq by lra. exact R1.
Qed.
Lemma cosh_ge x : 1 <= cosh x /\ (1 + Rabs x) / 2 <= cosh x /\ Rabs (sinh x) <= cosh x.
Proof.
  unfold cosh, sinh. assert (G : forall y, 1 + y <= exp y). { intros y. destruct (Req_dec y 0) as [->|Z]; [rewrite exp_0; lra|]. left. now apply exp_ineq1. }
  assert (K1 := G x). assert (K2 := G (- x)). assert (P1 := exp_pos x). assert (P2 := exp_pos (- x)). split; [lra|]. split.
  - unfold Rabs. destruct (Rcase_abs x); lra.
  - apply Rabs_le. lra.
Qed.
Lemma exp_pm_le x : exp x <= 2 * cosh x /\ exp (- x) <= 2 * cosh x.
Proof. unfold cosh. assert (P1 := exp_pos x). assert (P2 := exp_pos (- x)). lra. Qed.
Lemma bp_small k : (k <= -200)%Z -> bp k <= / 1000 * vv.
Proof. intros H. apply Rle_trans with (bp (-116)); [apply bpow_le; lia|]. rewrite <- vv_bp. assert (K : bp (-106) = 1024 * bp (-116)) by exact (bp_split (-116) 10 ltac:(lia)). assert (P := bpow_gt_0 radix2 (-116)). lra. Qed.

Lemma pm_sums x : DNorm x -> Rabs (DV x) <= 600 -> let X := DV x in
  let s := d_add (d_exp x) (d_recip (d_exp x)) in let d := d_sub (d_exp x) (d_recip (d_exp x)) in
  (DNorm s /\ Rabs (DV s - 2 * cosh X) <= (1004 / 1000 * ee X + 222 / 10 * vv) * (2 * cosh X)) /\
  (DNorm d /\ Rabs (DV d - 2 * sinh X) <= (1004 / 1000 * ee X + 222 / 10 * vv) * (2 * cosh X)).
Proof.
  intros N H X s d. destruct (exp_pm x N H) as (R1 & R2 & B1 & B2 & EB). fold X in R1, R2, B1, B2, EB. assert (V1 := rel_val _ _ _ R1 ltac:(lra)). assert (V2 := rel_val _ _ _ R2 ltac:(lra)).
  destruct R1 as [N1 E1]. destruct R2 as [N2 E2]. assert (P1 := exp_pos X). assert (P2 := exp_pos (- X)). rewrite (Rabs_pos_eq (exp X)) in V1, E1 by lra. rewrite (Rabs_pos_eq (exp (- X))) in V2, E2 by lra.
  assert (B9 := bp_100 890). assert (B10 : bp (890 + 7) <= bp 1000) by (apply bpow_le; lia). assert (B90 := bpow_gt_0 radix2 890).
  destruct (sum_near _ _ _ _ _ _ N1 N2 E1 E2 ltac:(lra) ltac:(lra)) as [[NS ES] [ND ED]]. fold s d in NS, ES, ND, ED.
  assert (SB : Rabs (exp X + exp (- X)) = 2 * cosh X) by (rewrite Rabs_pos_eq by lra; unfold cosh; field).
  assert (DB : Rabs (exp X - exp (- X)) <= 2 * cosh X). { replace (exp X - exp (- X)) with (2 * sinh X) by (unfold sinh; field). rewrite Rabs_mult, (Rabs_pos_eq 2) by lra. assert (K := cosh_ge X). lra. }
  rewrite SB in ES. replace (exp X + exp (- X)) with (2 * cosh X) in ES by (unfold cosh; field). replace (exp X - exp (- X)) with (2 * sinh X) in ED, DB by (unfold sinh; field).
  assert (W : ee X * exp X + (1003 / 1000 * ee X + 161 / 10 * vv) * exp (- X) <= (1003 / 1000 * ee X + 161 / 10 * vv) * (2 * cosh X)).
  { replace (2 * cosh X) with (exp X + exp (- X)) by (unfold cosh; field). rewrite Rmult_plus_distr_l. apply Rplus_le_compat_r. apply Rmult_le_compat_r; lra. }
  set (C := 2 * cosh X) in *. assert (C0 : 0 < C) by (unfold C; assert (K := cosh_ge X); lra).
  assert (WC : 0 <= (1003 / 1000 * ee X + 161 / 10 * vv) * C) by (apply Rmult_le_pos; lra). assert (EC : 0 <= ee X * C) by (apply Rmult_le_pos; lra).
  split; (split; [assumption|]); [apply Rle_trans with (1 := ES)|apply Rle_trans with (1 := ED)]; lra.
Qed.
Lemma half_near s T E : DNorm s -> Rabs (DV s - 2 * T) <= 2 * E -> bp (-700) <= Rabs (DV s) <= bp 1000 ->
  DNorm (d_mul_pwr2 s fhalf) /\ Rabs (DV (d_mul_pwr2 s fhalf) - T) <= E + bp (-1075).
Proof.
  intros N H B. assert (K1 := DNorm_hi_rel s N). assert (K2 := DNorm_val_rel s N).
  assert (K3 : Rabs (DV s) <= Rabs (DV s - V (d0 s)) + Rabs (V (d0 s))) by (replace (DV s) with (DV s - V (d0 s) + V (d0 s)) at 1 by ring; apply Rabs_triang).
  assert (B1 := bp_100 1000). assert (B2 : bp (1000 + 7) <= bp 1015) by (apply bpow_le; lia). assert (B3 := bp_100 (-890)). assert (B4 : bp (-890 + 7) <= bp (-700)) by (apply bpow_le; lia).
  assert (P1 := Rabs_pos (V (d0 s))). assert (P2 := bpow_gt_0 radix2 1000). assert (P3 := bpow_gt_0 radix2 (-700)).
  destruct (half_any s N ltac:(lra) ltac:(lra)) as (N1 & _ & E1). split; [exact N1|].
  replace (DV (d_mul_pwr2 s fhalf) - T) with ((DV (d_mul_pwr2 s fhalf) - DV s / 2) + (DV s - 2 * T) * / 2) by field. eapply Rle_trans; [apply Rabs_triang|]. rewrite (Rabs_mult _ (/ 2)), (Rabs_pos_eq (/ 2)) by lra. lra.
Qed.
Definition hb (X : R) : R := (151 / 10 * Rabs X + 505) * vv.
Lemma hb_ge X : 1004 / 1000 * ee X + 222 / 10 * vv + / 10 * vv <= hb X /\ 0 <= ee X.
Proof. unfold hb, ee. assert (P := Rabs_pos X). lra. Qed.
Lemma cosh_le x : Rabs x <= 600 -> cosh x <= bp 890.
Proof. intros H. assert (H' := Rabs_def2' _ _ H). unfold cosh. assert (R1 := exp_range x ltac:(lra)). assert (R2 := exp_range (- x) ltac:(lra)). lra. Qed.

Lemma d_cosh_ok x : DNorm x -> DV x <> 0 -> Rabs (DV x) <= 600 -> rel (hb (DV x)) (d_cosh x) (cosh (DV x)).
Proof.
  intros N NZ H. destruct (nz_pre x N NZ) as (E1 & E2 & E3). unfold d_cosh, d_pre_cosh. rewrite E1, E2, E3. cbn [from_pre].
  destruct (pm_sums x N H) as [[NS ES] _]. destruct (cosh_ge (DV x)) as (C1 & _ & _). assert (CL := cosh_le (DV x) H). destruct (hb_ge (DV x)) as [HB E0].
  assert (EB : ee (DV x) <= 9480 * vv) by (unfold ee; lra). set (C := cosh (DV x)) in *. set (q := 1004 / 1000 * ee (DV x) + 222 / 10 * vv) in *.
  assert (QB : 0 <= q <= / 1000) by (unfold q; lra). assert (QC : q * (2 * C) <= / 1000 * (2 * C)) by (apply Rmult_le_compat_r; lra). assert (QC0 : 0 <= q * (2 * C)) by (apply Rmult_le_pos; lra).
  assert (ES' := Rabs_def2' _ _ ES). assert (S0 : bp (-700) <= 1) by (change 1 with (bp 0); apply bpow_le; lia). assert (B9 := bp_100 890). assert (B10 : bp (890 + 7) <= bp 1000) by (apply bpow_le; lia). assert (B90 := bpow_gt_0 radix2 890).
  destruct (half_near _ C (q * C) NS) as [N1 K1]; [lra|rewrite Rabs_pos_eq by lra; lra|]. split; [exact N1|]. rewrite (Rabs_pos_eq C) by lra.
  assert (T := bp_small (-1075) ltac:(lia)). assert (M : (q + / 10 * vv) * C <= hb (DV x) * C) by (apply Rmult_le_compat_r; lra). lra.
Qed.

(** ** sinh *)
Lemma sinh_big x : DNorm x -> 498 / 10000 <= Rabs (DV x) <= 600 ->
  let s := d_mul_pwr2 (d_sub (d_exp x) (d_recip (d_exp x))) fhalf in DNorm s /\ Rabs (DV s - sinh (DV x)) <= hb (DV x) * cosh (DV x).
Proof.
  intros N [L H] s. destruct (pm_sums x N H) as [_ [NS ES]]. destruct (cosh_ge (DV x)) as (C1 & _ & SC). assert (CL := cosh_le (DV x) H). destruct (hb_ge (DV x)) as [HB E0].
  assert (EB : ee (DV x) <= 9480 * vv) by (unfold ee; lra). set (X := DV x) in *.
  assert (SL : / 100 <= Rabs (sinh X)).
  { assert (G : forall y, 498 / 10000 <= y -> / 100 <= sinh y).
    { intros y Hy. unfold sinh. assert (K1 := exp_ineq1 y ltac:(lra)). assert (exp (- y) < 1) by (rewrite <- exp_0; apply exp_increasing; lra). lra. }
    unfold Rabs in L. destruct (Rcase_abs X) as [Q|Q].
    - assert (K := G (- X) L). replace (sinh (- X)) with (- sinh X) in K by (unfold sinh; rewrite Ropp_involutive; lra). rewrite <- Rabs_Ropp, Rabs_pos_eq; lra.
    - assert (K := G X L). rewrite Rabs_pos_eq; lra. }
  set (C := cosh X) in *. set (q := 1004 / 1000 * ee X + 222 / 10 * vv) in *.
  assert (QB : 0 <= q <= 10000 * vv) by (unfold q; lra). assert (QC0 : 0 <= q * (2 * C)) by (apply Rmult_le_pos; lra).
  assert (SR : C <= 100 * Rabs (sinh X) + 1). { assert (Q : cosh X * cosh X - sinh X * sinh X = 1). { unfold cosh, sinh. rewrite exp_Ropp. field. apply Rgt_not_eq, exp_pos. }
    destruct (Rle_or_lt (cosh X) (Rabs (sinh X) + 1)) as [G|G]; [unfold C; lra|]. exfalso. assert (A2 : sinh X * sinh X = Rabs (sinh X) * Rabs (sinh X)) by (rewrite <- Rabs_mult; symmetry; apply Rabs_pos_eq; apply Rle_0_sqr). rewrite A2 in Q. nra. }
  assert (QC : q * (2 * C) <= 10000 * vv * (2 * C)) by (apply Rmult_le_compat_r; lra).
  assert (T1 := tri _ _ _ _ ES (Rle_refl _)). assert (T2 := tri2 _ _ _ _ ES (Rle_refl _)). rewrite (Rabs_mult 2), (Rabs_pos_eq 2) in T1, T2 by lra.
  assert (S0 : 1000 * bp (-700) <= 1). { assert (K : bp (-690) = 1024 * bp (-700)) by exact (bp_split (-700) 10 ltac:(lia)). assert (K2 : bp (-690) <= bp 0) by (apply bpow_le; lia). change (bp 0) with 1 in K2. assert (P7 := bpow_gt_0 radix2 (-700)). lra. }
  assert (B9 := bp_100 890). assert (B10 : bp (890 + 7) <= bp 1000) by (apply bpow_le; lia). assert (B90 := bpow_gt_0 radix2 890).
  destruct (half_near _ (sinh X) (q * C) NS) as [N1 K1]; [lra|lra|]. split; [exact N1|]. apply Rle_trans with (1 := K1).
  assert (T := bp_small (-1075) ltac:(lia)). assert (M : (q + / 10 * vv) * C <= hb X * C) by (apply Rmult_le_compat_r; lra). lra.
Qed.
Lemma eps_lo : 399 / 100 * vv <= DV D_EPSILON.
Proof.
  rewrite zd_ok. assert (K : (399 * 2 ^ 968 <=? zd D_EPSILON * 100)%Z = true) by (vm_compute; reflexivity). apply Z.leb_le in K. apply IZR_le in K. rewrite !mult_IZR in K.
  change (2 ^ 968)%Z with (radix2 ^ 968)%Z in K. rewrite IZR_Zpower in K by lia.
  assert (E : bp 968 * bp (-1074) = vv) by (rewrite <- bpow_plus; apply vv_bp). rewrite <- E.
  assert (P := bpow_gt_0 radix2 (-1074)). set (z := IZR (zd D_EPSILON)) in *. clearbody z. set (b := bp 968) in *. clearbody b.
  apply Rmult_le_compat_r with (r := bp (-1074)) in K; lra.
Qed.
Lemma d_sinh_small lm dbg x : DNorm x -> bp (-200) <= Rabs (DV x) <= 502 / 10000 -> fgtb (d0 (d_abs x)) (dec 5 (-2)) = false ->
  exists r, d_sinh lm dbg x = Val r /\ DNorm r /\ Rabs (DV r - sinh (DV x)) <= 64 * vv * Rabs (DV x).
Proof.
  intros N [L U] BR. assert (P2 := bpow_gt_0 radix2 (-200)). assert (NZ : DV x <> 0) by (intros Z; rewrite Z, Rabs_R0 in L; lra).
  destruct (nz_pre x N NZ) as (E1 & E2 & E3). unfold d_sinh, d_pre_sinh. rewrite E1, E2, E3, BR.
  assert (B99 : 1 <= bp 99) by (change 1 with (bp 0); apply bpow_le; lia).
  assert (Hr : rel (91 / 10 * vv) (d_sqr x) (DV x * DV x)). { apply rel_sqr; [exact N|apply Rle_trans with (2 := L); apply bpow_le; lia|lra]. }
  destruct eps_ok as [Ne Be]. assert (Le := eps_lo).
  assert (RM := rel_mul 0 0 x D_EPSILON (DV x) (DV D_EPSILON) (rel_self _ N) (rel_self _ Ne) ltac:(lra) ltac:(lra) ltac:(lra) ltac:(rewrite Rabs_pos_eq; lra)).
  assert (LL : bp (-770) <= Rabs (DV x * DV D_EPSILON)).
  { rewrite Rabs_mult, (Rabs_pos_eq (DV D_EPSILON)) by lra. apply Rle_trans with (bp (-200) * vv); [rewrite <- vv_bp, <- bpow_plus; apply bpow_le; lia|]. apply Rmult_le_compat; lra. }
  specialize (RM LL). set (th := d_mul x D_EPSILON) in *. assert (VT := rel_val _ _ _ RM ltac:(lra)). destruct RM as [Nth _]. rewrite Rabs_mult, (Rabs_pos_eq (DV D_EPSILON)) in VT by lra.
  assert (F : fis_nan (d0 th) = false) by (apply Fin_nan; apply Nth). destruct (d_abs_ok th F) as (_ & _ & _ & K). destruct (K Nth) as [Na Va].
  assert (BT : 39 / 10 * vv * Rabs (DV x) <= DV (d_abs th) <= 41 / 10 * vv * Rabs (DV x)).
  { rewrite Va. assert (Rabs (DV x) * (399 / 100 * vv) <= Rabs (DV x) * DV D_EPSILON) by (apply Rmult_le_compat_l; lra). assert (Rabs (DV x) * DV D_EPSILON <= Rabs (DV x) * (401 / 100 * vv)) by (apply Rmult_le_compat_l; lra).
    assert (0 < vv * Rabs (DV x)) by (apply Rmult_lt_0_compat; lra). lra. }
  assert (HX : bp (-200) <= Rabs (DV x) <= 51 / 1000) by lra. assert (FU : (10 < sinh_fuel_d)%nat) by (unfold sinh_fuel_d; lia).
  apply (sinh_loop_ok lm dbg (d_sqr x) (d_abs th) (DV x) HX Hr Na BT 10 0 sinh_fuel_d x x); [reflexivity|exact FU|exact N| | |left; reflexivity].
  - rewrite ssum_0, Rminus_diag_eq, Rabs_R0 by reflexivity. cbn [INR]. lra.
  - rewrite sterm_0. split; [exact N|]. rewrite Rminus_diag_eq, Rabs_R0 by reflexivity. cbn [INR]. lra.
Qed.
Lemma sinh_lower X : Rabs X <= 51 / 1000 -> 996 / 1000 * Rabs X <= Rabs (sinh X) <= 1004 / 1000 * Rabs X.
Proof. intros H. assert (K := sinh_rem X 0 H). rewrite ssum_0, sterm_0 in K. assert (T1 := tri _ _ _ _ K (Rle_refl _)). assert (T2 := tri2 _ _ _ _ K (Rle_refl _)). lra. Qed.
Lemma d_sinh_ok lm dbg x : DNorm x -> bp (-200) <= Rabs (DV x) <= 600 ->
  exists r, d_sinh lm dbg x = Val r /\ DNorm r /\ Rabs (DV r - sinh (DV x)) <= hb (DV x) * cosh (DV x).
Proof.
  intros N [L U]. destruct (branch x N) as [(B1 & B2 & B3)|(B1 & B2 & B3)].
  - assert (P2 := bpow_gt_0 radix2 (-200)). assert (NZ : DV x <> 0) by (intros Z; rewrite Z, Rabs_R0 in L; lra).
    destruct (nz_pre x N NZ) as (E1 & E2 & E3). unfold d_sinh, d_pre_sinh. rewrite E1, E2, E3, B1. destruct (sinh_big x N (conj B3 U)) as [K1 K2]. eexists. split; [reflexivity|]. split; assumption.
  - destruct (d_sinh_small lm dbg x N (conj L B3) B1) as (r & K1 & K2 & K3). exists r. split; [exact K1|]. split; [exact K2|]. apply Rle_trans with (1 := K3).
    destruct (cosh_ge (DV x)) as (C1 & _ & _). assert (P := Rabs_pos (DV x)). apply Rle_trans with (hb (DV x) * 1); [unfold hb; lra|]. apply Rmult_le_compat_l; [unfold hb; lra|exact C1].
Qed.
Lemma d_sinh_small_ok lm dbg x : DNorm x -> bp (-200) <= Rabs (DV x) <= 49 / 1000 ->
  exists r, d_sinh lm dbg x = Val r /\ DNorm r /\ Rabs (DV r - sinh (DV x)) <= 65 * vv * Rabs (sinh (DV x)).
Proof.
  intros N [L U]. destruct (branch x N) as [(B1 & B2 & B3)|(B1 & B2 & B3)]; [lra|]. destruct (d_sinh_small lm dbg x N (conj L B3) B1) as (r & K1 & K2 & K3). exists r. split; [exact K1|]. split; [exact K2|].
  assert (K := sinh_lower (DV x) ltac:(lra)). assert (P := Rabs_pos (DV x)). lra.
Qed.
