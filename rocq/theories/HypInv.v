(** * Accuracy of the Double asinh, acosh and atanh *)
From Coq Require Import ZArith Reals Lra Lia Psatz Bool.
From Flocq Require Import Core IEEE754.BinarySingleNaN.
From Verif Require Import RN F64 Prim DoubleM Spec F64Facts EFT DWAdd DAddProofs DMulProofs DDivProofs MulAny OrderProofs LawProofs AbsOps ParseM AlgM ConstM BaseConst ConstProofs FromProofs SqrtProofs TransM ExpProofs ExpThms LnThms SinLoop RelOps HypProofs HypThms HypMore.
Local Open Scope R_scope.

Lemma abs0 x : Rabs (DV x - DV x) <= 0.
Proof. rewrite Rminus_diag_eq, Rabs_R0 by reflexivity. lra. Qed.
Lemma ln_pow2 k : ln (bp k) = IZR k * ln 2.
Proof. rewrite bpow_exp, ln_exp. reflexivity. Qed.
Lemma ln_range A a b : (a <= b)%Z -> bp a <= A <= bp b -> IZR a * ln 2 <= ln A <= IZR b * ln 2.
Proof.
  intros _ [L U]. assert (P := bpow_gt_0 radix2 a). rewrite <- !ln_pow2. assert (G : forall p q, 0 < p -> p <= q -> ln p <= ln q). { intros p q P' [Q|Q]; [left; now apply ln_increasing|rewrite Q; lra]. }
  split; apply G; lra.
Qed.

Section Lib.
Variables (lm : libm) (dbg : bool).
Hypothesis PR : printer lm.
Hypothesis LC : log_close lm.

(** ** asinh *)
Lemma asinh_sqrt x : DNorm x -> Rabs (DV x) <= bp 99 ->
  exists s, d_sqrt lm dbg (d_add (d_sqr x) D_ONE) = Val s /\ rel (40 * vv) s (sqrt (DV x * DV x + 1)).
Proof.
  intros N H. assert (B : bp 99 <= bp 100) by (apply bpow_le; lia). destruct (sqr_abs x N ltac:(lra)) as [N2 E2]. destruct one_ok as [N1 E1]. set (X := DV x) in *.
  assert (XX : 0 <= X * X) by apply Rle_0_sqr. assert (XU : X * X <= bp 198). { rewrite sq_abs. replace (bp 198) with (bp 99 * bp 99) by (rewrite <- bpow_plus; reflexivity). apply Rmult_le_compat; try apply Rabs_pos; exact H. }
  assert (T := bp_small (-890) ltac:(lia)). assert (D4 := tri _ _ _ _ E2 (Rle_refl _)). rewrite (Rabs_pos_eq (X * X)) in D4 by exact XX.
  assert (B2 : 4 <= bp 198) by (change 4 with (bp 2); apply bpow_le; lia). assert (B3 := bp_100 198). assert (B4 : bp (198 + 7) <= bp 1000) by (apply bpow_le; lia).
  destruct (sum_near (d_sqr x) D_ONE (X * X) 1 _ 0 N2 N1 E2) as [[NA EA] _]; [rewrite E1, Rminus_diag_eq, Rabs_R0 by reflexivity; lra|lra|rewrite E1, Rabs_R1; lra|].
  rewrite (Rabs_pos_eq (X * X + 1)) in EA by lra.
  assert (RA : rel (152 / 10 * vv) (d_add (d_sqr x) D_ONE) (X * X + 1)). { split; [exact NA|]. rewrite (Rabs_pos_eq (X * X + 1)) by lra. lra. }
  assert (S1 : bp (-790) <= 1) by (change 1 with (bp 0); apply bpow_le; lia). assert (S2 : bp (198 + 7) <= bp 790) by (apply bpow_le; lia).
  destruct (rel_sqrt lm dbg _ _ _ PR RA ltac:(lra) ltac:(lra)) as (c & K1 & K2). exists c. split; [exact K1|]. apply rel_le with (1 := K2). lra.
Qed.
Lemma d_asinh_core x e : DNorm x -> DV x <> 0 -> Rabs (DV x) <= bp 99 -> 0 <= e <= / 2000 ->
  40 * vv * sqrt (DV x * DV x + 1) <= e * (DV x + sqrt (DV x * DV x + 1)) -> -707 <= arcsinh (DV x) <= 599 ->
  exists r, d_asinh lm dbg x = Val r /\ DNorm r /\ Rabs (DV r - arcsinh (DV x)) <= (272 / 10 * Rabs (arcsinh (DV x)) + 507) * vv + 101 / 100 * e.
Proof.
  intros N NZ H He HE HL. destruct (nz_pre x N NZ) as (E1 & E2 & E3). unfold d_asinh, d_pre_asinh. rewrite E2, E3.
  destruct (asinh_sqrt x N H) as (s & K1 & [NS ES]). rewrite K1. cbn [obind]. set (X := DV x) in *. set (W := sqrt (X * X + 1)) in *. assert (W0 : 0 <= W) by apply sqrt_pos. rewrite (Rabs_pos_eq W) in ES by exact W0.
  assert (AS : arcsinh X = ln (X + W)) by (unfold arcsinh, W; repeat f_equal; ring). rewrite AS in *.
  assert (XW : 0 < X + W).
  { unfold W. assert (Q : Rabs X < sqrt (X * X + 1)). { rewrite <- (sqrt_square (Rabs X)) by apply Rabs_pos. apply sqrt_lt_1_alt. rewrite <- sq_abs. assert (0 <= X * X) by apply Rle_0_sqr. lra. } unfold Rabs in Q. destruct (Rcase_abs X); lra. }
  assert (WU : W <= 2 * bp 99). { unfold W. rewrite <- (sqrt_square (2 * bp 99)) by (assert (P := bpow_gt_0 radix2 99); lra). apply sqrt_le_1_alt. rewrite sq_abs. assert (B1 : 1 <= bp 99) by (change 1 with (bp 0); apply bpow_le; lia). assert (PX := Rabs_pos X).
    assert (Rabs X * Rabs X <= bp 99 * bp 99) by (apply Rmult_le_compat; lra). assert (1 * 1 <= bp 99 * bp 99) by (apply Rmult_le_compat; lra). lra. }
  assert (B3 := bp_100 99). assert (B4 : bp (99 + 7) <= bp 1000) by (apply bpow_le; lia). assert (B9 := bpow_gt_0 radix2 99). assert (D4 := tri _ _ _ _ ES (Rle_refl _)). rewrite (Rabs_pos_eq W) in D4 by exact W0.
  destruct (sum_near x s X W 0 _ N NS (abs0 x) ES ltac:(fold X; lra) ltac:(lra)) as [[NA EA] _]. rewrite (Rabs_pos_eq (X + W)) in EA by lra.
  assert (RA : rel (6 * vv + (1 + 6 * vv) * e) (d_add x s) (X + W)). { split; [exact NA|]. rewrite (Rabs_pos_eq (X + W)) by lra. lra. }
  destruct (rel_ln lm dbg _ _ _ LC RA XW ltac:(lra) HL) as (r & K2 & K3 & K4). exists r. split; [exact K2|]. split; [exact K3|]. lra.
Qed.
Lemma asinh_bounds X : Rabs X <= bp 99 -> -600 <= arcsinh X <= 599.
Proof.
  intros H. assert (L2 : 69 / 100 < ln 2 < 70 / 100) by (split; consts).
  assert (G : forall z, 0 <= z <= bp 99 -> 0 <= arcsinh z <= 599).
  { intros z [Z0 Z1]. split; [destruct Z0 as [Q|Q]; [rewrite <- arcsinh_0; left; now apply arcsinh_lt|rewrite <- Q, arcsinh_0; lra]|].
    unfold arcsinh. assert (B1 : 1 <= bp 99) by (change 1 with (bp 0); apply bpow_le; lia). assert (S0 := sqrt_pos (z ^ 2 + 1)). assert (S1 : 1 <= sqrt (z ^ 2 + 1)). { rewrite <- sqrt_1 at 1. apply sqrt_le_1_alt. assert (0 <= z ^ 2) by (apply pow_le; lra). lra. }
    assert (SU : sqrt (z ^ 2 + 1) <= 2 * bp 99). { rewrite <- (sqrt_square (2 * bp 99)) by lra. apply sqrt_le_1_alt. assert (z * z <= bp 99 * bp 99) by (apply Rmult_le_compat; lra). assert (1 * 1 <= bp 99 * bp 99) by (apply Rmult_le_compat; lra). cbn [pow]. lra. }
    assert (B3 := bp_100 99). change (99 + 7)%Z with 106%Z in B3. destruct (ln_range (z + sqrt (z ^ 2 + 1)) 0 106 ltac:(lia)) as [_ K]; [change (bp 0) with 1; lra|lra]. }
  unfold Rabs in H. destruct (Rcase_abs X) as [Q|Q].
  - assert (K := G (- X) ltac:(lra)). assert (O : arcsinh (- X) = - arcsinh X). { rewrite <- (sinh_arcsinh X) at 1. replace (- sinh (arcsinh X)) with (sinh (- arcsinh X)) by (unfold sinh; rewrite Ropp_involutive; field). apply arcsinh_sinh. } lra.
  - assert (K := G X ltac:(lra)). lra.
Qed.
Lemma sqrt_ge1 X : 1 <= sqrt (X * X + 1) /\ Rabs X <= sqrt (X * X + 1).
Proof.
  assert (Q : 0 <= X * X) by apply Rle_0_sqr. split; [rewrite <- sqrt_1 at 1; apply sqrt_le_1_alt; lra|]. rewrite <- (sqrt_square (Rabs X)) by apply Rabs_pos. apply sqrt_le_1_alt. rewrite <- sq_abs. lra.
Qed.
Lemma d_asinh_pos x : DNorm x -> 0 < DV x <= bp 99 ->
  exists r, d_asinh lm dbg x = Val r /\ DNorm r /\ Rabs (DV r - arcsinh (DV x)) <= (272 / 10 * Rabs (arcsinh (DV x)) + 548) * vv.
Proof.
  intros N H. assert (HA : Rabs (DV x) <= bp 99) by (rewrite Rabs_pos_eq; lra). destruct (sqrt_ge1 (DV x)) as [S1 S2]. assert (AB := asinh_bounds (DV x) HA).
  destruct (d_asinh_core x (40 * vv) N ltac:(apply Rgt_not_eq; lra) HA ltac:(lra) ltac:(apply Rmult_le_compat_l; lra) ltac:(lra)) as (r & K1 & K2 & K3). exists r. split; [exact K1|]. split; [exact K2|]. lra.
Qed.
Lemma d_asinh_neg x : DNorm x -> - bp 40 <= DV x < 0 ->
  exists r, d_asinh lm dbg x = Val r /\ DNorm r /\ Rabs (DV r - arcsinh (DV x)) <= (272 / 10 * Rabs (arcsinh (DV x)) + 507 + 81 * (1 + DV x * DV x)) * vv.
Proof.
  intros N H. assert (B : bp 40 <= bp 99) by (apply bpow_le; lia). assert (HA : Rabs (DV x) <= bp 99) by (rewrite Rabs_left1; lra). destruct (sqrt_ge1 (DV x)) as [S1 S2]. assert (AB := asinh_bounds (DV x) HA).
  set (X := DV x) in *. assert (XX : 0 <= X * X) by apply Rle_0_sqr. assert (QS := sqrt_sqrt (X * X + 1) ltac:(lra)). set (W := sqrt (X * X + 1)) in *. rewrite Rabs_left1 in S2 by lra.
  assert (XU : X * X <= bp 80). { replace (X * X) with ((- X) * (- X)) by ring. replace (bp 80) with (bp 40 * bp 40) by (rewrite <- bpow_plus; reflexivity). apply Rmult_le_compat; lra. }
  assert (VB : vv * bp 80 = bp (-26)) by (rewrite <- vv_bp, <- bpow_plus; reflexivity). change (bp (-26)) with (/ 67108864) in VB.
  destruct (d_asinh_core x (80 * vv * (1 + X * X)) N ltac:(apply Rlt_not_eq; unfold X in H; lra) HA) as (r & K1 & K2 & K3).
  - split; [apply Rmult_le_pos; lra|]. lra.
  - fold X W. assert (ID : (W - X) * (X + W) = 1) by lra. assert (WM : W * (W - X) <= 2 * (1 + X * X)). { assert (W * (- X) <= W * W) by (apply Rmult_le_compat_l; lra). lra. }
    replace (40 * vv * W) with (40 * vv * (W * (W - X)) * (X + W)) by (replace (40 * vv * (W * (W - X)) * (X + W)) with (40 * vv * W * ((W - X) * (X + W))) by ring; rewrite ID; ring).
    apply Rmult_le_compat_r; [lra|]. lra.
  - fold X. lra.
  - exists r. split; [exact K1|]. split; [exact K2|]. fold X in K3. lra.
Qed.

(** ** acosh *)
Lemma acosh_ln y : 0 <= y -> ln (cosh y + sqrt (cosh y * cosh y - 1)) = y /\ sqrt (cosh y * cosh y - 1) = sinh y.
Proof.
  intros H. assert (S0 : 0 <= sinh y). { destruct H as [H| <-]; [|rewrite sinh_0; lra]. left. rewrite <- sinh_0. now apply sinh_lt. }
  assert (E : sqrt (cosh y * cosh y - 1) = sinh y). { rewrite cosh_sq. replace (1 + sinh y * sinh y - 1) with (sinh y * sinh y) by ring. now apply sqrt_square. }
  split; [|exact E]. rewrite E. replace (cosh y + sinh y) with (exp y) by (unfold cosh, sinh; field). apply ln_exp.
Qed.
Lemma d_acosh_ok x y : DNorm x -> 1 + bp (-80) <= DV x <= bp 99 -> 0 <= y -> cosh y = DV x ->
  exists r, d_acosh lm dbg x = Val r /\ DNorm r /\ Rabs (DV r - y) <= (272 / 10 * y + 525 + 5 * (cosh y / sinh y)) * vv.
Proof.
  intros N [L U] Hy HC. destruct (acosh_ln y Hy) as [AL AS]. rewrite HC in *. set (X := DV x) in *. set (W := sqrt (X * X - 1)) in *. rewrite <- AS. clear AS.
  assert (P8 := bpow_gt_0 radix2 (-80)). assert (X1 : 1 < X) by lra.
  destruct one_ok as [N1 V1]. unfold d_acosh, d_pre_acosh. destruct (d_ord_ok x D_ONE N N1) as (_ & OE & OL & _). rewrite V1 in OE, OL. fold X in OE, OL.
  assert (F1 : d_lt x D_ONE = false) by (destruct (d_lt x D_ONE); [exfalso; assert (X < 1) by (apply OL; reflexivity); lra|reflexivity]).
  assert (F2 : d_eq x D_ONE = false) by (destruct (d_eq x D_ONE); [exfalso; assert (X = 1) by (apply OE; reflexivity); lra|reflexivity]).
  destruct (nz_pre x N ltac:(fold X; apply Rgt_not_eq; lra)) as (_ & _ & F3). rewrite F1, F2, F3.
  assert (RS := rel_sqr x N). fold X in RS. rewrite (Rabs_pos_eq X) in RS by lra. assert (B35 : bp (-350) <= 1) by (change 1 with (bp 0); apply bpow_le; lia). destruct (RS ltac:(lra) U) as [NQ EQ].
  assert (XX : 1 < X * X) by (replace 1 with (1 * 1) by ring; apply Rmult_gt_0_lt_compat; lra). rewrite (Rabs_pos_eq (X * X)) in EQ by lra.
  assert (XU : X * X <= bp 198). { replace (bp 198) with (bp 99 * bp 99) by (rewrite <- bpow_plus; reflexivity). apply Rmult_le_compat; lra. }
  assert (B3 := bp_100 198). assert (B4 : bp (198 + 7) <= bp 1000) by (apply bpow_le; lia). assert (B4' : bp (198 + 7) <= bp 790) by (apply bpow_le; lia). assert (B5 : 4 <= bp 198) by (change 4 with (bp 2); apply bpow_le; lia).
  assert (D4 := tri _ _ _ _ EQ (Rle_refl _)). rewrite (Rabs_pos_eq (X * X)) in D4 by lra.
  destruct (sum_near (d_sqr x) D_ONE (X * X) 1 _ 0 NQ N1 EQ) as [_ [NA EA]]; [rewrite V1, Rminus_diag_eq, Rabs_R0 by reflexivity; lra|lra|rewrite V1, Rabs_R1; lra|].
  set (Z := X * X - 1) in *. assert (ZX : X * X = Z + 1) by (unfold Z; ring). assert (Z0 : (X - 1) * X <= Z). { unfold Z. assert (0 <= X - 1) by lra. replace (X * X - 1) with ((X - 1) * X + (X - 1)) by ring. lra. }
  assert (ZP : bp (-80) <= Z) by (apply Rle_trans with (2 := Z0); rewrite <- (Rmult_1_r (bp (-80))); apply Rmult_le_compat; lra).
  rewrite (Rabs_pos_eq Z) in EA by lra.
  set (k := X * X / Z). assert (KZ : k * Z = X * X) by (unfold k; field; lra). assert (K0 : 0 <= k) by (unfold k, Rdiv; apply Rmult_le_pos; [lra|left; apply Rinv_0_lt_compat; lra]).
  assert (VB : vv * bp 80 = bp (-26)) by (rewrite <- vv_bp, <- bpow_plus; reflexivity). change (bp (-26)) with (/ 67108864) in VB. assert (BI : bp 80 * bp (-80) = 1) by (rewrite <- bpow_plus; reflexivity).
  assert (KU : k <= 2 * bp 80).
  { apply Rmult_le_reg_r with Z; [lra|]. rewrite KZ, ZX. assert (bp 80 * bp (-80) <= bp 80 * Z) by (apply Rmult_le_compat_l; [apply bpow_ge_0|exact ZP]). assert (B8 : 1 <= bp 80) by (change 1 with (bp 0); apply bpow_le; lia). assert (1 * Z <= bp 80 * Z) by (apply Rmult_le_compat_r; lra). lra. }
  assert (RA : rel ((6 + 92 / 10 * k) * vv) (d_sub (d_sqr x) D_ONE) Z).
  { split; [exact NA|]. rewrite (Rabs_pos_eq Z) by lra. replace ((6 + 92 / 10 * k) * vv * Z) with (6 * vv * Z + 92 / 10 * vv * (k * Z)) by ring. rewrite KZ. lra. }
  assert (KV : 0 <= k * vv <= / 1000000) by (split; [apply Rmult_le_pos; lra|lra]).
  assert (B79 : bp (-790) <= bp (-80)) by (apply bpow_le; lia).
  destruct (rel_sqrt lm dbg _ _ _ PR RA ltac:(lra) ltac:(lra)) as (s & K1 & [NS ES]). rewrite K1. cbn [obind]. fold W in ES.
  assert (QW : W * W = Z) by (apply sqrt_sqrt; lra). assert (W0 : 0 < W) by (apply sqrt_lt_R0; lra). rewrite (Rabs_pos_eq W) in ES by lra.
  assert (WX : W <= X). { unfold W. rewrite <- (sqrt_square X) by lra. apply sqrt_le_1_alt. unfold Z. lra. }
  set (e := 51 / 100 * ((6 + 92 / 10 * k) * vv) + 321 / 10 * vv) in *. assert (EB : 0 <= e <= / 1000) by (unfold e; lra). assert (EW : e * W <= / 1000 * W) by (apply Rmult_le_compat_r; lra).
  assert (B6 := bp_100 99). assert (B7 : bp (99 + 7) <= bp 1000) by (apply bpow_le; lia). assert (D5 := tri _ _ _ _ ES (Rle_refl _)). rewrite (Rabs_pos_eq W) in D5 by lra.
  destruct (sum_near x s X W 0 _ N NS (abs0 x) ES ltac:(fold X; rewrite Rabs_pos_eq; lra) ltac:(lra)) as [[ND ED] _]. rewrite (Rabs_pos_eq (X + W)) in ED by lra.
  set (m := X / W). assert (MW : m * W = X) by (unfold m; field; lra). assert (M1 : 1 <= m) by (apply Rmult_le_reg_r with W; lra).
  assert (KW : k * W = X * m). { apply Rmult_eq_reg_r with W; [|lra]. replace (k * W * W) with (k * (W * W)) by ring. rewrite QW, KZ. replace (X * m * W) with (X * (m * W)) by ring. rewrite MW. reflexivity. }
  assert (EWB : e * W <= (177 / 10 + 47 / 10 * m) * vv * (X + W)).
  { unfold e. replace ((51 / 100 * ((6 + 92 / 10 * k) * vv) + 321 / 10 * vv) * W) with (vv * (3516 / 100 * W + 4692 / 1000 * (k * W))) by field. rewrite KW.
    replace ((177 / 10 + 47 / 10 * m) * vv * (X + W)) with (vv * (177 / 10 * (X + W) + 47 / 10 * (m * X) + 47 / 10 * (m * W))) by field.
    apply Rmult_le_compat_l; [lra|]. assert (0 <= m * X) by (apply Rmult_le_pos; lra). assert (0 <= m * W) by (apply Rmult_le_pos; lra). lra. }
  assert (MV : m <= k). { apply Rmult_le_reg_r with W; [exact W0|]. rewrite MW, KW. rewrite <- (Rmult_1_r X) at 1. apply Rmult_le_compat_l; lra. }
  assert (MV2 : m * vv <= k * vv) by (apply Rmult_le_compat_r; lra).
  assert (RL : rel ((238 / 10 + 471 / 100 * m) * vv) (d_add x s) (X + W)). { split; [exact ND|]. rewrite (Rabs_pos_eq (X + W)) by lra. apply Rle_trans with (1 := ED).
    set (g := (177 / 10 + 47 / 10 * m) * vv * (X + W)) in *. assert (0 <= vv * (X + W)) by (apply Rmult_le_pos; lra). assert (0 <= vv * (X + W) * m) by (apply Rmult_le_pos; lra).
    assert (G6 : (1 + 6 * vv) * (0 + e * W) <= (1 + 6 * vv) * g) by (apply Rmult_le_compat_l; lra).
    replace g with (177 / 10 * (vv * (X + W)) + 47 / 10 * (vv * (X + W) * m)) in G6 by (unfold g; ring).
    replace ((238 / 10 + 471 / 100 * m) * vv * (X + W)) with (238 / 10 * (vv * (X + W)) + 471 / 100 * (vv * (X + W) * m)) by ring. lra. }
  assert (YB : 0 <= y <= 599).
  { split; [exact Hy|]. rewrite <- AL. assert (L2 : 69 / 100 < ln 2 < 70 / 100) by (split; consts). change (99 + 7)%Z with 106%Z in B6. destruct (ln_range (X + W) 0 106 ltac:(lia)) as [_ K]; [change (bp 0) with 1; lra|lra]. }
  destruct (rel_ln lm dbg _ _ _ LC RL ltac:(lra) ltac:(lra) ltac:(rewrite AL; lra)) as (r & K2 & K3 & K4). exists r. split; [exact K2|]. split; [exact K3|]. rewrite AL, (Rabs_pos_eq y) in K4 by lra. fold m. lra.
Qed.

(** ** atanh *)
Lemma atanh_ln y X : tanh y = X -> (1 + X) / (1 - X) = exp (2 * y) /\ -1 < X < 1.
Proof.
  intros <-. assert (C := exp_pos y). assert (D := exp_pos (- y)). assert (CD : exp y * exp (- y) = 1) by (rewrite <- exp_plus, Rplus_opp_r; apply exp_0).
  assert (T : tanh y = (exp y - exp (- y)) / (exp y + exp (- y))) by (unfold tanh, sinh, cosh; field; lra). rewrite T. set (E := exp y) in *. set (F := exp (- y)) in *.
  assert (A1 : 1 + (E - F) / (E + F) = 2 * E / (E + F)) by (field; lra). assert (A2 : 1 - (E - F) / (E + F) = 2 * F / (E + F)) by (field; lra).
  assert (I : 0 < / (E + F)) by (apply Rinv_0_lt_compat; lra). assert (Q1 : 0 < 2 * E / (E + F)) by (apply Rmult_lt_0_compat; lra). assert (Q2 : 0 < 2 * F / (E + F)) by (apply Rmult_lt_0_compat; lra).
  split; [|lra]. rewrite A1, A2. replace (2 * y) with (y + y) by ring. rewrite exp_plus. fold E. replace E with (E * (E * F)) at 1 by (rewrite CD; ring). field. lra.
Qed.
Lemma ln_le1 z : -1 < z -> ln (1 + z) <= z.
Proof. intros Hy. rewrite <- (ln_exp z) at 2. destruct (Req_dec z 0) as [->|NZ]; [rewrite exp_0, Rplus_0_r; lra|]. left. apply ln_increasing; [lra|]. apply exp_ineq1. exact NZ. Qed.
Lemma tanh_abs y : Rabs (tanh y) <= 2 * Rabs y.
Proof.
  assert (G : forall z, 0 <= z -> tanh z <= 2 * z).
  { intros z Hz. destruct (atanh_ln z (tanh z) eq_refl) as [E R]. destruct (Rle_or_lt (tanh z) 0) as [Q|Q]; [lra|].
    assert (L : ln ((1 + tanh z) * / (1 - tanh z)) = 2 * z) by (fold (Rdiv (1 + tanh z) (1 - tanh z)); rewrite E; apply ln_exp). rewrite ln_mult, ln_Rinv in L; try lra; [|apply Rinv_0_lt_compat; lra].
    assert (K1 := ln_le1 (- tanh z) ltac:(lra)). assert (K2 : 0 <= ln (1 + tanh z)) by (rewrite <- ln_1; left; apply ln_increasing; lra). replace (1 + - tanh z) with (1 - tanh z) in K1 by ring. lra. }
  assert (O : forall z, tanh (- z) = - tanh z) by (intros z; unfold tanh, sinh, cosh; rewrite Ropp_involutive; field; assert (P1 := exp_pos z); assert (P2 := exp_pos (- z)); lra).
  assert (S0 : forall z, 0 <= z -> 0 <= tanh z). { intros z Hz. unfold tanh, Rdiv. destruct (cosh_ge z) as (C & _). apply Rmult_le_pos; [|left; apply Rinv_0_lt_compat; lra]. destruct Hz as [Hz| <-]; [|rewrite sinh_0; lra]. left. rewrite <- sinh_0. now apply sinh_lt. }
  unfold Rabs at 2. destruct (Rcase_abs y) as [Q|Q].
  - assert (K := G (- y) ltac:(lra)). assert (K2 := S0 (- y) ltac:(lra)). rewrite <- Rabs_Ropp, <- O, Rabs_pos_eq by exact K2. exact K.
  - rewrite Rabs_pos_eq; [apply G; lra|apply S0; lra].
Qed.
Lemma d_atanh_ok x y : DNorm x -> bp (-90) <= Rabs (DV x) -> bp (-800) <= 1 - Rabs (DV x) -> tanh y = DV x ->
  exists r, d_atanh lm dbg x = Val r /\ DNorm r /\ Rabs (DV r - y) <= (272 / 10 * Rabs y + 265) * vv.
Proof.
  intros N L U HT. destruct (atanh_ln y _ HT) as [EX R1]. destruct one_ok as [N1 V1]. set (X := DV x) in *. assert (P9 := bpow_gt_0 radix2 (-90)). assert (P8 := bpow_gt_0 radix2 (-800)).
  unfold d_atanh, d_pre_atanh. assert (F : fis_nan (d0 x) = false) by (apply Fin_nan; apply N). destruct (d_abs_ok x F) as (_ & _ & _ & K). destruct (K N) as [Na Va].
  destruct (d_ord_ok (d_abs x) D_ONE Na N1) as (_ & _ & _ & _ & _ & OG). rewrite V1, Va in OG. fold X in OG.
  assert (F1 : d_ge (d_abs x) D_ONE = false) by (destruct (d_ge (d_abs x) D_ONE); [exfalso; assert (Rabs X >= 1) by (apply OG; reflexivity); lra|reflexivity]). rewrite F1.
  assert (B1 : 2 <= bp 1000) by (change 2 with (bp 1); apply bpow_le; lia). assert (AX : Rabs X <= 1) by lra. assert (AX' := Rabs_def2' _ _ AX).
  assert (LX : bp (-800) <= 1 + X /\ bp (-800) <= 1 - X) by (unfold Rabs in U; destruct (Rcase_abs X); lra).
  destruct (sum_near D_ONE x 1 X 0 0 N1 N ltac:(rewrite V1, Rminus_diag_eq, Rabs_R0 by reflexivity; lra) (abs0 x) ltac:(rewrite V1, Rabs_R1; lra) ltac:(fold X; lra)) as [[NP EP] [NM EM]].
  assert (RP : rel (6 * vv) (d_add D_ONE x) (1 + X)) by (split; [exact NP|lra]). assert (RM : rel (6 * vv) (d_sub D_ONE x) (1 - X)) by (split; [exact NM|lra]).
  assert (B8 : bp (-890) <= bp (-800)) by (apply bpow_le; lia).
  assert (PE := exp_pos (2 * y)). assert (L2 : 69 / 100 < ln 2 < 70 / 100) by (split; consts).
  assert (RG : bp (-801) <= (1 + X) / (1 - X) <= bp 801).
  { assert (I1 : / 2 <= / (1 - X)) by (apply Rinv_le_contravar; lra). assert (I2 : / (1 - X) <= bp 800). { replace (bp 800) with (/ bp (-800)) by (rewrite <- bpow_opp; reflexivity). apply Rinv_le_contravar; lra. }
    assert (B81 : bp (-800) = 2 * bp (-801)) by exact (bp_split (-801) 1 ltac:(lia)). assert (B82 : bp 801 = 2 * bp 800) by exact (bp_split 800 1 ltac:(lia)). unfold Rdiv. split.
    - apply Rle_trans with (bp (-800) * / 2); [lra|apply Rmult_le_compat; lra].
    - rewrite B82. apply Rmult_le_compat; lra. }
  assert (B9 : bp (-890) <= bp (-801)) by (apply bpow_le; lia). assert (B10 : bp 801 <= bp 1000) by (apply bpow_le; lia).
  assert (RQ := rel_div _ _ _ _ _ _ RP RM ltac:(lra) ltac:(lra) ltac:(rewrite Rabs_pos_eq; lra) ltac:(apply Rgt_not_eq; lra) ltac:(rewrite (Rabs_pos_eq ((1 + X) / (1 - X))); [lra|rewrite EX; lra])).
  assert (LG := ln_range _ (-801) 801 ltac:(lia) RG). rewrite EX, ln_exp in LG. rewrite EX in RQ.
  destruct (rel_ln lm dbg _ _ _ LC RQ PE ltac:(lra) ltac:(rewrite ln_exp; lra)) as (r & K2 & K3 & K4). rewrite ln_exp in K4. rewrite K2. cbn [obind].
  rewrite (Rabs_mult 2), (Rabs_pos_eq 2) in K4 by lra. assert (PY := Rabs_pos y).
  assert (YL : bp (-91) <= Rabs y). { assert (K5 := tanh_abs y). rewrite HT in K5. assert (B91 : bp (-90) = 2 * bp (-91)) by exact (bp_split (-91) 1 ltac:(lia)). lra. }
  assert (YU : Rabs y <= 561) by (apply Rabs_le; lra).
  assert (E1 : Rabs (DV r - 2 * y) <= 2 * ((272 / 10 * Rabs y + 2643 / 10) * vv)) by lra.
  assert (T1 := tri _ _ _ _ E1 (Rle_refl _)). assert (T2 := tri2 _ _ _ _ E1 (Rle_refl _)). rewrite (Rabs_mult 2), (Rabs_pos_eq 2) in T1, T2 by lra.
  assert (B91 : bp (-91) = 32768 * vv) by (rewrite <- vv_bp; exact (bp_split (-106) 15 ltac:(lia))).
  assert (B70 : bp (-700) <= vv) by (rewrite <- vv_bp; apply bpow_le; lia). assert (B11 : 2048 <= bp 1000) by (change 2048 with (bp 11); apply bpow_le; lia).
  destruct (half_near r y _ K3 E1 ltac:(lra)) as [N5 E5]. eexists. split; [reflexivity|]. split; [exact N5|]. assert (T := bp_small (-1075) ltac:(lia)). lra.
Qed.
End Lib.
