(** * The Double atan2, atan, asin and acos: special cases and assembly *)
From Coq Require Import ZArith Reals Lra Lia Psatz Bool.
From Flocq Require Import Core IEEE754.BinarySingleNaN.
From Verif Require Import RN F64 Prim DoubleM Spec F64Facts EFT DWAdd DAddProofs DMulProofs DDivProofs MulAny OrderProofs LawProofs ExactProofs IntProofs AbsOps ParseM AlgM ConstM BaseConst ConstProofs Exact FromProofs SqrtProofs Printer TransM TransProofs PowProofs ExpProofs ExpThms LnThms LogLib SinLoop SinSeries SinReduce SinThms RelOps HypThms DivTiny AtanReal AtanThms AtanMain SymProofs.
From Verif Require DisplayMore.
Local Open Scope R_scope.

Lemma sgn_pos y : DNorm y -> DV y <> 0 -> (d_is_sign_positive y = true /\ 0 < DV y) \/ (d_is_sign_positive y = false /\ DV y < 0).
Proof.
  intros N Z. assert (K := DisplayMore.sign_value y N Z). assert (P : 0 < Rabs (DV y)) by now apply Rabs_pos_lt.
  assert (E : d_is_sign_positive y = negb (d_is_sign_negative y)) by (unfold d_is_sign_positive, d_is_sign_negative, fsign_pos, fsign_neg; destruct (d0 y); reflexivity || now rewrite ?negb_involutive).
  rewrite E. destruct (d_is_sign_negative y); [right|left]; (split; [reflexivity|lra]).
Qed.
Lemma abs_le x e : - e <= x <= e -> Rabs x <= e.
Proof. intros H. apply Rabs_le. exact H. Qed.

Lemma sin_08 t : 0 <= t <= PI / 2 -> sin t <= 8 / 100 -> t <= 9 / 100.
Proof.
  intros H S. destruct (Rle_or_lt t (9 / 100)) as [L|L]; [exact L|exfalso]. assert (PIB : 3 < PI) by consts.
  assert (K := sin_increasing_1 (9 / 100) t ltac:(lra) ltac:(lra) ltac:(lra) ltac:(lra) L). assert (K2 := sin_lower (9 / 100) ltac:(rewrite Rabs_pos_eq; lra)).
  rewrite (Rabs_pos_eq (9 / 100)), Rabs_pos_eq in K2; try lra. apply sin_ge_0; lra.
Qed.
Lemma sin_08_abs t : Rabs t <= PI / 2 -> Rabs (sin t) <= 8 / 100 -> Rabs t <= 9 / 100.
Proof.
  intros H S. destruct (Rle_or_lt 0 t) as [P|P].
  - rewrite (Rabs_pos_eq t) in * by lra. apply sin_08; [lra|]. apply Rle_trans with (2 := S), Rle_abs.
  - rewrite (Rabs_left t) in * by lra. apply sin_08; [lra|]. rewrite sin_neg. apply Rle_trans with (2 := S). rewrite <- Rabs_Ropp. apply Rle_abs.
Qed.
Lemma atan_small x : Rabs x <= 8 / 100 -> Rabs (atan x) <= 9 / 100.
Proof.
  intros H. assert (B := atan_bound x). apply sin_08_abs; [apply Rabs_le; lra|]. rewrite sin_atan. unfold Rdiv. rewrite Rabs_mult.
  assert (Q : 1 <= sqrt (1 + Rsqr x)) by (apply Rle_trans with (sqrt 1); [rewrite sqrt_1; lra|]; apply sqrt_le_1_alt; assert (K := Rle_0_sqr x); lra).
  rewrite Rabs_inv, (Rabs_pos_eq (sqrt (1 + Rsqr x))) by lra. assert (I : 0 < / sqrt (1 + Rsqr x) <= 1) by (split; [apply Rinv_0_lt_compat; lra|apply Rle_trans with (/ 1); [apply Rinv_le_contravar; lra|lra]]).
  apply Rle_trans with (Rabs x * 1); [apply Rmult_le_compat_l; [apply Rabs_pos|lra]|lra].
Qed.
Lemma asin_small x : Rabs x <= 8 / 100 -> Rabs (asin x) <= 9 / 100.
Proof.
  intros H. assert (B := asin_bound x). apply sin_08_abs; [apply Rabs_le; lra|]. apply Rabs_def2' in H. rewrite sin_asin by lra. apply Rabs_le. lra.
Qed.
Lemma asin_polar x : -1 < x < 1 -> polar x (sqrt (1 - x * x)) (asin x).
Proof.
  intros H. assert (B := asin_bound x). assert (P := PI_RGT_0). split; [lra|]. exists 1. split; [lra|]. rewrite sin_asin, cos_asin by lra. unfold Rsqr. split; ring.
Qed.
Lemma acos_polar x : -1 < x < 1 -> polar (sqrt (1 - x * x)) x (acos x).
Proof.
  intros H. assert (B := acos_bound x). assert (P := PI_RGT_0). split; [lra|]. exists 1. split; [lra|]. rewrite sin_acos, cos_acos by lra. unfold Rsqr. split; ring.
Qed.

Section A.
Context (lm : libm) (dbg : bool) (PR : printer lm) (AC : atan2_close lm).

Lemma d_atan2_polar y x th : DNorm y -> DNorm x -> bp (-200) <= Rabs (DV y) <= bp 200 -> bp (-200) <= Rabs (DV x) <= bp 200 -> polar (DV y) (DV x) th ->
  exists r, d_atan2 lm dbg y x = Val r /\ DNorm r /\ Rabs (DV r - th) <= 1400 * vv /\ (Rabs th <= 9 / 100 -> Rabs (DV r - th) <= 215 * vv * Rabs th).
Proof.
  intros Ny Nx Hy Hx HP. destruct (win y Ny Hy) as [_ Zy]. destruct (win x Nx Hx) as [_ Zx].
  destruct (nz_pre y Ny Zy) as (Y1 & Y2 & Y3). destruct (nz_pre x Nx Zx) as (X1 & X2 & X3).
  unfold d_atan2, d_pre_atan2. rewrite X2, Y2, Y3, X3, Y1, X1. cbn [orb].
  destruct (d_ord_ok y x Ny Nx) as (_ & OE & _). destruct (d_neg_val x) as [VN NN]. specialize (NN Nx). destruct (d_ord_ok y (d_neg x) Ny NN) as (_ & OF & _). rewrite VN in OF.
  assert (PIB : 31415 / 10000 < PI < 31416 / 10000) by (split; consts). assert (P0 := PI_RGT_0).
  assert (CST : forall c k, DNorm c -> approx (DV c) (k * PI) 1 (-104) -> / 4 <= k <= 1 -> Rabs (DV c - k * PI) <= 1400 * vv).
  { intros c k _ A Hk. unfold approx in A. assert (B : bp (-104) = 4 * vv) by (rewrite <- vv_bp; exact (bp_split (-106) 2 ltac:(lia))). rewrite B in A.
    assert (k * PI <= 1 * PI) by (apply Rmult_le_compat_r; lra). assert (0 <= k * PI) by (apply Rmult_le_pos; lra). rewrite (Rabs_pos_eq (k * PI)) in A by lra. lra. }
  destruct d_FRAC_PI_4_ok as [N1 A1]. replace (PI / 4) with (/ 4 * PI) in A1 by field. assert (K1 := CST _ _ N1 A1 ltac:(lra)).
  destruct d_FRAC_3_PI_4_ok as [N3 A3]. replace (3 * PI / 4) with (3 / 4 * PI) in A3 by field. assert (K3 := CST _ _ N3 A3 ltac:(lra)).
  assert (S4 : sin (/ 4 * PI) = / sqrt 2 /\ cos (/ 4 * PI) = / sqrt 2). { replace (/ 4 * PI) with (PI / 4) by field. rewrite sin_PI4, cos_PI4. split; field; apply Rgt_not_eq, sqrt_lt_R0; lra. }
  assert (S3 : sin (3 / 4 * PI) = / sqrt 2 /\ cos (3 / 4 * PI) = - / sqrt 2). { replace (3 / 4 * PI) with (PI - / 4 * PI) by field. rewrite Rtrigo_facts.sin_pi_minus, Rtrigo_facts.cos_pi_minus. destruct S4 as [-> ->]. auto. }
  assert (Q2 : 0 < / sqrt 2) by (apply Rinv_0_lt_compat, sqrt_lt_R0; lra).
  assert (FIN : forall c t0, DNorm c -> Rabs (DV c - t0) <= 1400 * vv -> polar (DV y) (DV x) t0 -> 7 / 10 <= Rabs t0 -> exists r, Val c = Val r /\ DNorm r /\ Rabs (DV r - th) <= 1400 * vv /\ (Rabs th <= 9 / 100 -> Rabs (DV r - th) <= 215 * vv * Rabs th)).
  { intros c t0 Nc Kc Pc L. assert (E := polar_unique _ _ _ _ HP Pc Zy). subst t0. exists c. split; [reflexivity|]. split; [exact Nc|]. split; [exact Kc|]. intros Q. lra. }
  assert (MK : forall t0 k, - PI < t0 <= PI -> 0 < k -> DV y = k * sin t0 -> DV x = k * cos t0 -> polar (DV y) (DV x) t0) by (intros t0 k B Pk E1 E2; split; [exact B|]; exists k; auto).
  assert (KI : forall a, a = a * sqrt 2 * / sqrt 2) by (intros a; field; apply Rgt_not_eq, sqrt_lt_R0; lra).
  assert (SQ2 : 0 < sqrt 2) by (apply sqrt_lt_R0; lra).
  destruct (d_eq y x) eqn:EQ.
  { assert (E := proj1 OE eq_refl). destruct (sgn_pos y Ny Zy) as [[-> PY]|[-> PY]].
    - apply (FIN _ (/ 4 * PI)); [exact N1|exact K1| |rewrite Rabs_pos_eq; lra]. apply (MK _ (DV y * sqrt 2)); [lra|now apply Rmult_lt_0_compat| |].
      + rewrite (proj1 S4). apply KI.
      + rewrite (proj2 S4), <- E. apply KI.
    - destruct (neg_ok _ _ _ N3 K3) as [N3' K3']. apply (FIN _ (- (3 / 4 * PI))); [exact N3'|exact K3'| |rewrite Rabs_Ropp, Rabs_pos_eq; lra].
      apply (MK _ (- DV y * sqrt 2)); [lra|apply Rmult_lt_0_compat; lra| |].
      + rewrite sin_neg, (proj1 S3). rewrite (KI (DV y)) at 1. ring.
      + rewrite cos_neg, (proj2 S3), <- E. rewrite (KI (DV y)) at 1. ring. }
  destruct (d_eq y (d_neg x)) eqn:EN.
  { assert (E := proj1 OF eq_refl). assert (E' : DV x = - DV y) by lra. destruct (sgn_pos y Ny Zy) as [[-> PY]|[-> PY]].
    - apply (FIN _ (3 / 4 * PI)); [exact N3|exact K3| |rewrite Rabs_pos_eq; lra]. apply (MK _ (DV y * sqrt 2)); [lra|now apply Rmult_lt_0_compat| |].
      + rewrite (proj1 S3). apply KI.
      + rewrite (proj2 S3), E'. rewrite (KI (DV y)) at 1. ring.
    - destruct (neg_ok _ _ _ N1 K1) as [N1' K1']. apply (FIN _ (- (/ 4 * PI))); [exact N1'|exact K1'| |rewrite Rabs_Ropp, Rabs_pos_eq; lra].
      apply (MK _ (- DV y * sqrt 2)); [lra|apply Rmult_lt_0_compat; lra| |].
      + rewrite sin_neg, (proj1 S4). rewrite (KI (DV y)) at 1. ring.
      + rewrite cos_neg, (proj2 S4), E'. rewrite (KI (DV y)) at 1. ring. }
  exact (main_ok lm dbg PR AC y x th Ny Nx Hy Hx HP).
Qed.
Lemma d_atan2_ok y x : DNorm y -> DNorm x -> bp (-200) <= Rabs (DV y) <= bp 200 -> bp (-200) <= Rabs (DV x) <= bp 200 ->
  exists r, d_atan2 lm dbg y x = Val r /\ DNorm r /\ Rabs (DV r - ratan2 (DV y) (DV x)) <= 1400 * vv /\
    (Rabs (ratan2 (DV y) (DV x)) <= 9 / 100 -> Rabs (DV r - ratan2 (DV y) (DV x)) <= 215 * vv * Rabs (ratan2 (DV y) (DV x))).
Proof. intros Ny Nx Hy Hx. apply d_atan2_polar; auto. apply ratan2_polar. left. now apply win. Qed.
Lemma d_atan_ok x : DNorm x -> bp (-200) <= Rabs (DV x) <= bp 200 ->
  exists r, d_atan lm dbg x = Val r /\ DNorm r /\ Rabs (DV r - atan (DV x)) <= 1400 * vv /\
    (Rabs (DV x) <= 8 / 100 -> Rabs (DV r - atan (DV x)) <= 215 * vv * Rabs (atan (DV x))).
Proof.
  intros N H. destruct one_ok as [N1 V1]. assert (E : ratan2 (DV x) (DV D_ONE) = atan (DV x)) by (rewrite V1; unfold ratan2; destruct (Rlt_dec 0 1); [f_equal; field|lra]).
  destruct (d_atan2_ok x D_ONE N N1 H) as (r & K1 & K2 & K3 & K4).
  - rewrite V1, Rabs_R1. change 1 with (bp 0). split; apply bpow_le; lia.
  - rewrite E in K3, K4. exists r. split; [exact K1|]. split; [exact K2|]. split; [exact K3|]. intros L. apply K4. now apply atan_small.
Qed.
(** the other side of the triangle *)
Lemma leg_ok x : DNorm x -> bp (-200) <= Rabs (DV x) -> bp (-80) <= 1 - DV x * DV x ->
  Rabs (DV x) < 1 /\ exists c, d_sqrt lm dbg (d_sub D_ONE (d_sqr x)) = Val c /\ DNorm c /\
   Rabs (DV c - sqrt (1 - DV x * DV x)) <= (46 / 10 * / (1 - DV x * DV x) + 352 / 10) * vv * sqrt (1 - DV x * DV x) /\ bp (-200) <= Rabs (DV c) <= bp 200.
Proof.
  intros N L H. set (X := DV x) in *. set (A := 1 - X * X) in *. assert (P8 := bpow_gt_0 radix2 (-80)). assert (SX := Rle_0_sqr X). unfold Rsqr in SX.
  assert (LT : Rabs X < 1). { apply Rabs_def1; unfold A in H; nra. }
  split; [exact LT|]. assert (B2 : 2 <= bp 200) by (change 2 with (bp 1); apply bpow_le; lia).
  destruct (sqr_rel x N) as [N2 E2]; [fold X; lra|]. fold X in E2. rewrite (Rabs_pos_eq (X * X)) in E2 by lra.
  destruct one_ok as [N1 V1]. assert (B0 : Rabs (DV D_ONE - 1) <= 0) by (rewrite V1, Rminus_diag_eq, Rabs_R0 by reflexivity; lra).
  assert (BT : 2 <= bp 1000) by (change 2 with (bp 1); apply bpow_le; lia).
  assert (Q1 : Rabs (DV D_ONE) <= bp 1000) by (rewrite V1, Rabs_R1; lra).
  assert (XX : X * X <= 1) by (unfold A in H; lra).
  assert (Q2 : Rabs (DV (d_sqr x)) <= bp 1000). { assert (T := tri _ _ _ _ E2 (Rle_refl _)). rewrite (Rabs_pos_eq (X * X)) in T by lra. lra. }
  destruct (sum_near _ _ _ _ _ _ N1 N2 B0 E2 Q1 Q2) as [_ [Ns Es]]. fold A in Es. rewrite (Rabs_pos_eq A) in Es by lra.
  set (e := (9001 / 1000 * / A + 6 * 1) * vv). assert (IA : 0 < / A) by (apply Rinv_0_lt_compat; lra).
  assert (IA2 : / A <= bp 80) by (change 80%Z with (- (-80))%Z; rewrite (bpow_opp radix2 (-80)); apply Rinv_le_contravar; lra).
  assert (E0 : 0 <= e <= / 1000). { unfold e. change (bp 80) with 1208925819614629174706176 in IA2. split; lra. }
  assert (EA : e * A = (9001 / 1000 + 6 * A) * vv) by (unfold e; field; lra).
  assert (Ra : rel e (d_sub D_ONE (d_sqr x)) A). { split; [exact Ns|]. rewrite (Rabs_pos_eq A) by lra. rewrite EA. lra. }
  assert (W1 : bp (-790) <= bp (-80)) by (apply bpow_le; lia). assert (W2 : 2 <= bp 790) by (change 2 with (bp 1); apply bpow_le; lia).
  assert (A1 : A <= 1) by (unfold A; lra).
  destruct (rel_sqrt lm dbg e _ A PR Ra E0 ltac:(lra)) as (c & K1 & K2). exists c. split; [exact K1|].
  assert (K3 := rel_val _ _ _ K2). split; [apply K2|].
  assert (S1 : sqrt A <= 1) by (rewrite <- sqrt_1; apply sqrt_le_1_alt; lra).
  assert (S2 : bp (-40) <= sqrt A) by (rewrite <- (sqrt_square (bp (-40))) by apply bpow_ge_0; apply sqrt_le_1_alt; rewrite <- bpow_plus; exact H).
  assert (P4 := bpow_gt_0 radix2 (-40)). destruct K2 as [_ K2]. rewrite (Rabs_pos_eq (sqrt A)) in K2 by lra.
  split.
  - apply Rle_trans with (1 := K2). apply Rmult_le_compat_r; [lra|]. unfold e. lra.
  - assert (SM : (51 / 100 * e + 321 / 10 * vv) * sqrt A <= / 1000 * sqrt A) by (apply Rmult_le_compat_r; lra).
    assert (T := tri _ _ _ _ K2 (Rle_refl _)). assert (T2 := tri2 _ _ _ _ K2 (Rle_refl _)). rewrite (Rabs_pos_eq (sqrt A)) in T, T2 by lra.
    assert (B3 : bp (-40) = 2 * bp (-41)) by exact (bp_split (-41) 1 ltac:(lia)). assert (B4 : bp (-200) <= bp (-41)) by (apply bpow_le; lia). lra.
Qed.
Lemma asin_pre x : DNorm x -> Rabs (DV x) < 1 -> d_pre_asin x = None /\ d_pre_acos x = None.
Proof.
  intros N H. destruct one_ok as [N1 V1]. destruct (d_abs_ok x ltac:(apply Fin_nan, N)) as (_ & _ & _ & AB). destruct (AB N) as [NA VA].
  assert (N1' : DNorm D_NEG_ONE /\ DV D_NEG_ONE = -1). { destruct (d_single_norm fn1 Fin_n1) as [A B]. rewrite V_n1 in B. split; [exact A|exact B]. }
  destruct N1' as [N2 V2]. destruct (d_ord_ok (d_abs x) D_ONE NA N1) as (_ & _ & _ & _ & G & _). destruct (d_ord_ok x D_ONE N N1) as (_ & E1 & _). destruct (d_ord_ok x D_NEG_ONE N N2) as (_ & E2 & _).
  rewrite VA, V1 in G. rewrite V1 in E1. rewrite V2 in E2. apply Rabs_def2 in H.
  unfold d_pre_asin, d_pre_acos. destruct (d_gt (d_abs x) D_ONE); [exfalso; assert (K := proj1 G eq_refl); clear - H K; apply Rgt_lt in K; apply Rlt_not_le in K; apply K, Rabs_le; lra|].
  destruct (d_eq x D_ONE); [exfalso; assert (K := proj1 E1 eq_refl); lra|]. destruct (d_eq x D_NEG_ONE); [exfalso; assert (K := proj1 E2 eq_refl); lra|]. auto.
Qed.
Lemma sc_small S K e : 0 <= S <= 1 -> 0 < K <= 1 -> 0 <= e -> (46 / 10 * / (K * K) + e) * (S * K) <= 46 / 10 * / K + e * S.
Proof.
  intros HS HK He. assert (I : 0 < / K) by (apply Rinv_0_lt_compat; lra). replace ((46 / 10 * / (K * K) + e) * (S * K)) with (46 / 10 * / K * S + e * S * K) by (field; lra).
  assert (46 / 10 * / K * S <= 46 / 10 * / K * 1) by (apply Rmult_le_compat_l; lra). assert (e * S * K <= e * S * 1) by (apply Rmult_le_compat_l; [apply Rmult_le_pos; lra|lra]). lra.
Qed.

Lemma sqrt_leg X : -1 < X < 1 -> 0 < sqrt (1 - X * X) <= 1 /\ sqrt (1 - X * X) * sqrt (1 - X * X) = 1 - X * X.
Proof.
  intros H. assert (P : 0 < 1 - X * X) by nra. assert (Q := Rle_0_sqr X). unfold Rsqr in Q. split; [split; [now apply sqrt_lt_R0|]|apply sqrt_sqrt; lra].
  apply Rle_trans with (sqrt 1); [apply sqrt_le_1_alt; lra|rewrite sqrt_1; lra].
Qed.
Lemma leg_near x c : -1 < DV x < 1 -> bp (-80) <= 1 - DV x * DV x -> Rabs (DV c - sqrt (1 - DV x * DV x)) <= (46 / 10 * / (1 - DV x * DV x) + 352 / 10) * vv * sqrt (1 - DV x * DV x) ->
  let e := (46 / 10 * / (1 - DV x * DV x) + 352 / 10) * vv in 0 <= e <= / 100 /\ e * (Rabs (DV x) * sqrt (1 - DV x * DV x)) <= (46 / 10 * / sqrt (1 - DV x * DV x) + 352 / 10 * Rabs (DV x)) * vv.
Proof.
  intros HX H K e. destruct (sqrt_leg _ HX) as [S1 S2]. assert (P8 := bpow_gt_0 radix2 (-80)). set (A := 1 - DV x * DV x) in *.
  assert (IA : 0 < / A) by (apply Rinv_0_lt_compat; lra).
  assert (IA2 : / A <= bp 80) by (change 80%Z with (- (-80))%Z; rewrite (bpow_opp radix2 (-80)); apply Rinv_le_contravar; lra). change (bp 80) with 1208925819614629174706176 in IA2.
  split; [unfold e; lra|]. assert (XB : 0 <= Rabs (DV x) <= 1) by (split; [apply Rabs_pos|left; apply Rabs_def1; lra]).
  assert (G := sc_small (Rabs (DV x)) (sqrt A) (352 / 10) XB S1 ltac:(lra)). rewrite S2 in G. unfold e. lra.
Qed.
Lemma d_asin_ok x : DNorm x -> bp (-200) <= Rabs (DV x) -> bp (-80) <= 1 - DV x * DV x ->
  exists r, d_asin lm dbg x = Val r /\ DNorm r /\ Rabs (DV r - asin (DV x)) <= (1472 + 94 / 10 * / sqrt (1 - DV x * DV x)) * vv /\
    (Rabs (DV x) <= 79 / 1000 -> Rabs (DV r - asin (DV x)) <= 300 * vv * Rabs (asin (DV x))).
Proof.
  intros N L H. destruct (leg_ok x N L H) as (LT & c & K1 & Nc & Kc & Bc). assert (LT' := Rabs_def2 _ _ LT). assert (LT2 : -1 < DV x < 1) by lra.
  assert (ZX : DV x <> 0) by (intros Q; rewrite Q, Rabs_R0 in L; assert (P := bpow_gt_0 radix2 (-200)); lra).
  unfold d_asin. rewrite (proj1 (asin_pre x N LT)), K1. cbn [obind].
  assert (HP := asin_polar (DV x) LT2). assert (B2 : 2 <= bp 200) by (change 2 with (bp 1); apply bpow_le; lia).
  destruct (d_atan2_ok x c N Nc ltac:(lra) Bc) as (r & G1 & G2 & G3 & G4). exists r. split; [exact G1|]. split; [exact G2|].
  destruct (leg_near x c LT2 H Kc) as [E1 E2]. set (e := (46 / 10 * / (1 - DV x * DV x) + 352 / 10) * vv) in *. set (t' := ratan2 (DV x) (DV c)) in *.
  destruct (sqrt_leg _ LT2) as [S1 S2].
  assert (HP' : polar (DV x) (DV c) t') by (apply ratan2_polar; right; exact ZX).
  assert (D := polar_near _ _ _ _ _ _ e HP HP' ZX E1 ltac:(rewrite Rminus_diag_eq, Rabs_R0 by reflexivity; apply Rmult_le_pos; [lra|apply Rabs_pos]) ltac:(rewrite (Rabs_pos_eq (sqrt _)) by lra; exact Kc)).
  rewrite sin_asin, cos_asin in D by lra. unfold Rsqr in D. rewrite (Rabs_pos_eq (sqrt _)) in D by lra.
  set (K := sqrt (1 - DV x * DV x)) in *. assert (IK : 0 < / K) by (apply Rinv_0_lt_compat; lra).
  assert (D2 : Rabs (t' - asin (DV x)) <= 203 / 100 * ((46 / 10 * / K + 352 / 10 * Rabs (DV x)) * vv)) by (apply Rle_trans with (1 := D); rewrite Rmult_assoc; apply Rmult_le_compat_l; lra).
  assert (XP := Rabs_pos (DV x)).
  split.
  - replace (DV r - asin (DV x)) with ((DV r - t') + (t' - asin (DV x))) by ring. eapply Rle_trans; [apply Rabs_triang|]. lra.
  - intros SX. assert (SA : Rabs (DV x) <= Rabs (asin (DV x))) by (rewrite <- (sin_asin (DV x)) at 1 by lra; apply sin_small).
    assert (A9 := asin_small (DV x) ltac:(lra)).
    assert (XX : DV x * DV x <= 79 / 1000 * (79 / 1000)) by (replace (DV x * DV x) with (Rabs (DV x) * Rabs (DV x)) by (rewrite <- Rabs_mult; apply Rabs_pos_eq, Rle_0_sqr); apply Rmult_le_compat; lra).
    assert (KL : 99 / 100 <= K). { unfold K. rewrite <- (sqrt_square (99 / 100)) by lra. apply sqrt_le_1_alt. lra. }
    assert (EB : e <= (46 / 10 * (101 / 100) + 352 / 10) * vv). { unfold e. assert (/ (1 - DV x * DV x) <= / (100 / 101)) by (apply Rinv_le_contravar; lra). lra. }
    assert (D3 : Rabs (t' - asin (DV x)) <= 82 * vv * Rabs (asin (DV x))).
    { apply Rle_trans with (1 := D). assert (Q1 : Rabs (DV x) * K <= Rabs (asin (DV x)) * 1) by (apply Rmult_le_compat; lra).
      assert (Q0 : 0 <= Rabs (DV x) * K) by (apply Rmult_le_pos; lra).
      apply Rle_trans with (203 / 100 * ((46 / 10 * (101 / 100) + 352 / 10) * vv) * (Rabs (asin (DV x)) * 1)); [apply Rmult_le_compat; lra|lra]. }
    assert (A8 : Rabs (asin (DV x)) <= 81 / 1000). { assert (Q := sin_lower (asin (DV x)) ltac:(lra)). rewrite sin_asin in Q by lra. lra. }
    assert (T := tri _ _ _ _ D3 (Rle_refl _)). assert (G5 := G4 ltac:(lra)).
    replace (DV r - asin (DV x)) with ((DV r - t') + (t' - asin (DV x))) by ring. eapply Rle_trans; [apply Rabs_triang|]. lra.
Qed.
Lemma d_acos_ok x : DNorm x -> bp (-200) <= Rabs (DV x) -> bp (-80) <= 1 - DV x * DV x ->
  exists r, d_acos lm dbg x = Val r /\ DNorm r /\ Rabs (DV r - acos (DV x)) <= (1472 + 94 / 10 * / sqrt (1 - DV x * DV x)) * vv.
Proof.
  intros N L H. destruct (leg_ok x N L H) as (LT & c & K1 & Nc & Kc & Bc). assert (LT' := Rabs_def2 _ _ LT). assert (LT2 : -1 < DV x < 1) by lra.
  assert (ZX : DV x <> 0) by (intros Q; rewrite Q, Rabs_R0 in L; assert (P := bpow_gt_0 radix2 (-200)); lra).
  unfold d_acos. rewrite (proj2 (asin_pre x N LT)), K1. cbn [obind].
  assert (HP := acos_polar (DV x) LT2). assert (B2 : 2 <= bp 200) by (change 2 with (bp 1); apply bpow_le; lia).
  destruct (d_atan2_ok c x Nc N Bc ltac:(lra)) as (r & G1 & G2 & G3 & _). exists r. split; [exact G1|]. split; [exact G2|].
  destruct (leg_near x c LT2 H Kc) as [E1 E2]. set (e := (46 / 10 * / (1 - DV x * DV x) + 352 / 10) * vv) in *. set (t' := ratan2 (DV c) (DV x)) in *.
  destruct (sqrt_leg _ LT2) as [S1 S2].
  assert (HP' : polar (DV c) (DV x) t') by (apply ratan2_polar; left; exact ZX).
  assert (D := polar_near _ _ _ _ _ _ e HP HP' ltac:(lra) E1 ltac:(rewrite (Rabs_pos_eq (sqrt _)) by lra; exact Kc) ltac:(rewrite Rminus_diag_eq, Rabs_R0 by reflexivity; apply Rmult_le_pos; [lra|apply Rabs_pos])).
  rewrite sin_acos, cos_acos in D by lra. unfold Rsqr in D. rewrite (Rabs_pos_eq (sqrt _)), (Rmult_comm (sqrt _)) in D by lra.
  set (K := sqrt (1 - DV x * DV x)) in *. assert (IK : 0 < / K) by (apply Rinv_0_lt_compat; lra).
  assert (D2 : Rabs (t' - acos (DV x)) <= 203 / 100 * ((46 / 10 * / K + 352 / 10 * Rabs (DV x)) * vv)) by (apply Rle_trans with (1 := D); rewrite Rmult_assoc; apply Rmult_le_compat_l; lra).
  assert (XP := Rabs_pos (DV x)).
  replace (DV r - acos (DV x)) with ((DV r - t') + (t' - acos (DV x))) by ring. eapply Rle_trans; [apply Rabs_triang|]. lra.
Qed.
End A.
