(** * sinh_cosh, tanh and the inverse hyperbolic functions *)
From Coq Require Import ZArith Reals Lra Lia Psatz Bool.
From Flocq Require Import Core IEEE754.BinarySingleNaN.
From Verif Require Import RN F64 Prim DoubleM Spec F64Facts EFT DWAdd DAddProofs DMulProofs DDivProofs MulAny OrderProofs LawProofs AbsOps ParseM AlgM ConstM BaseConst ConstProofs FromProofs SqrtProofs TransM ExpProofs ExpThms LnThms SinLoop RelOps HypProofs HypThms.
Local Open Scope R_scope.

Lemma sq_abs y : y * y = Rabs y * Rabs y.
Proof. rewrite <- Rabs_mult. symmetry. apply Rabs_pos_eq. apply Rle_0_sqr. Qed.
Lemma cosh_sq X : cosh X * cosh X = 1 + sinh X * sinh X.
Proof. unfold cosh, sinh. rewrite exp_Ropp. field. apply Rgt_not_eq, exp_pos. Qed.
Lemma cosh_sqrt X : sqrt (1 + sinh X * sinh X) = cosh X.
Proof. rewrite <- cosh_sq. apply sqrt_square. destruct (cosh_ge X). lra. Qed.
Lemma small_cosh lm dbg s T : printer lm -> DNorm s -> Rabs (DV s - T) <= 65 * vv * Rabs T -> bp (-201) <= Rabs T <= 6 / 100 ->
  exists c, d_sqrt lm dbg (d_add D_ONE (d_sqr s)) = Val c /\ rel (36 * vv) c (sqrt (1 + T * T)).
Proof.
  intros PR N E [L U]. assert (P := Rabs_pos T). assert (T1 := tri _ _ _ _ E (Rle_refl _)). assert (T2 := tri2 _ _ _ _ E (Rle_refl _)).
  assert (B99 : 1 <= bp 99) by (change 1 with (bp 0); apply bpow_le; lia). assert (B1000 : 4 <= bp 1000) by (change 4 with (bp 2); apply bpow_le; lia).
  assert (B2 : 2 * bp (-202) = bp (-201)) by (symmetry; exact (bp_split (-202) 1 ltac:(lia))). assert (B3 : bp (-350) <= bp (-202)) by (apply bpow_le; lia). assert (P2 := bpow_gt_0 radix2 (-202)).
  destruct (rel_sqr s N ltac:(lra) ltac:(lra)) as [N2 E2]. rewrite (Rabs_mult (DV s)) in E2.
  assert (D2 : Rabs (DV s * DV s - T * T) <= 131 * vv * (Rabs T * Rabs T)).
  { replace (DV s * DV s - T * T) with ((DV s - T) * (DV s + T)) by ring. rewrite Rabs_mult. replace (131 * vv * (Rabs T * Rabs T)) with (65 * vv * Rabs T * (131 / 65 * Rabs T)) by field.
    apply Rmult_le_compat; try apply Rabs_pos; [exact E|]. eapply Rle_trans; [apply Rabs_triang|]. lra. }
  assert (TT : 0 <= Rabs T * Rabs T <= 36 / 10000). { split; [now apply Rmult_le_pos|]. replace (36 / 10000) with (6 / 100 * (6 / 100)) by lra. apply Rmult_le_compat; lra. }
  assert (SS : Rabs (DV s) * Rabs (DV s) <= 101 / 100 * (Rabs T * Rabs T)).
  { replace (101 / 100 * (Rabs T * Rabs T)) with (101 / 100 * Rabs T * Rabs T) by ring. apply Rle_trans with (1001 / 1000 * Rabs T * (1001 / 1000 * Rabs T)); [apply Rmult_le_compat; try apply Rabs_pos; lra|lra]. }
  assert (D3 : Rabs (DV (d_sqr s) - T * T) <= 6 / 10 * vv).
  { replace (DV (d_sqr s) - T * T) with ((DV (d_sqr s) - DV s * DV s) + (DV s * DV s - T * T)) by ring. eapply Rle_trans; [apply Rabs_triang|]. lra. }
  destruct one_ok as [N1 E1]. assert (D4 := tri _ _ _ _ D3 (Rle_refl _)). rewrite <- (sq_abs T) in TT. rewrite (Rabs_pos_eq (T * T)) in D4 by lra.
  destruct (sum_near D_ONE (d_sqr s) 1 (T * T) 0 (6 / 10 * vv) N1 N2) as [[NA EA] _]; [rewrite E1, Rminus_diag_eq, Rabs_R0 by reflexivity; lra|exact D3|rewrite E1, Rabs_R1; lra|lra|].
  rewrite (Rabs_pos_eq (1 + T * T)) in EA by lra.
  assert (RA : rel (67 / 10 * vv) (d_add D_ONE (d_sqr s)) (1 + T * T)). { split; [exact NA|]. rewrite (Rabs_pos_eq (1 + T * T)) by lra. lra. }
  assert (S1 : bp (-790) <= 1) by (change 1 with (bp 0); apply bpow_le; lia). assert (S2 : 2 <= bp 790) by (change 2 with (bp 1); apply bpow_le; lia).
  destruct (rel_sqrt lm dbg _ _ _ PR RA ltac:(lra) ltac:(lra)) as (c & K1 & K2). exists c. split; [exact K1|]. apply rel_le with (1 := K2). lra.
Qed.
Lemma nzb x : bp (-200) <= Rabs (DV x) -> DV x <> 0.
Proof. intros L Z. rewrite Z, Rabs_R0 in L. assert (P := bpow_gt_0 radix2 (-200)). lra. Qed.
Lemma d_sinh_cosh_small lm dbg x : printer lm -> DNorm x -> bp (-200) <= Rabs (DV x) <= 502 / 10000 -> fleb (d0 (d_abs x)) (dec 5 (-2)) = true -> fgtb (d0 (d_abs x)) (dec 5 (-2)) = false ->
  exists s c, d_sinh_cosh lm dbg x = Val (s, c) /\ rel (65 * vv) s (sinh (DV x)) /\ rel (36 * vv) c (cosh (DV x)).
Proof.
  intros PR N H B1 B2. destruct (nz_pre x N (nzb x (proj1 H))) as (E1 & E2 & E3). unfold d_sinh_cosh, d_pre_sinh_cosh. rewrite E1, E2, B1.
  destruct (d_sinh_small lm dbg x N H B2) as (s & K1 & K2 & K3). rewrite K1. cbn [obind]. assert (SL := sinh_lower (DV x) ltac:(lra)). assert (P := Rabs_pos (DV x)).
  assert (K4 : Rabs (DV s - sinh (DV x)) <= 65 * vv * Rabs (sinh (DV x))) by lra.
  assert (B : 2 * bp (-201) = bp (-200)) by (symmetry; exact (bp_split (-201) 1 ltac:(lia))). assert (P2 := bpow_gt_0 radix2 (-201)).
  destruct (small_cosh lm dbg s (sinh (DV x)) PR K2 K4 ltac:(lra)) as (c & K5 & K6). rewrite K5. cbn [obind]. rewrite cosh_sqrt in K6. exists s, c. split; [reflexivity|]. split; [split; assumption|exact K6].
Qed.
Lemma d_sinh_cosh_ok lm dbg x : printer lm -> DNorm x -> bp (-200) <= Rabs (DV x) <= 600 ->
  exists s c, d_sinh_cosh lm dbg x = Val (s, c) /\ DNorm s /\ DNorm c /\ Rabs (DV s - sinh (DV x)) <= hb (DV x) * cosh (DV x) /\ Rabs (DV c - cosh (DV x)) <= hb (DV x) * cosh (DV x).
Proof.
  intros PR N [L U]. assert (NZ := nzb x L). destruct (branch x N) as [(B1 & B2 & B3)|(B1 & B2 & B3)].
  - destruct (nz_pre x N NZ) as (E1 & E2 & E3). unfold d_sinh_cosh, d_pre_sinh_cosh. rewrite E1, E2, B2. destruct (sinh_big x N (conj B3 U)) as [K1 K2].
    assert (K := d_cosh_ok x N NZ U). unfold d_cosh, d_pre_cosh in K. rewrite E1, E2, E3 in K. cbn [from_pre] in K. destruct K as [K3 K4]. destruct (cosh_ge (DV x)) as (C1 & _ & _). rewrite (Rabs_pos_eq (cosh _)) in K4 by lra.
    eexists. eexists. split; [reflexivity|]. split; [exact K1|]. split; [exact K3|]. split; assumption.
  - destruct (d_sinh_cosh_small lm dbg x PR N (conj L B3) B2 B1) as (s & c & K1 & [K2 K3] & [K4 K5]). exists s, c. split; [exact K1|]. split; [exact K2|]. split; [exact K4|].
    destruct (cosh_ge (DV x)) as (C1 & _ & SC). rewrite (Rabs_pos_eq (cosh _)) in K5 by lra. assert (P := Rabs_pos (DV x)).
    assert (M : 505 * vv * cosh (DV x) <= hb (DV x) * cosh (DV x)) by (apply Rmult_le_compat_r; [lra|unfold hb; lra]). split; lra.
Qed.

(** ** tanh *)
Lemma tanh_sub a b : tanh a - tanh b = sinh (a - b) / (cosh a * cosh b).
Proof.
  unfold tanh. assert (K : sinh (a - b) = sinh a * cosh b - cosh a * sinh b).
  { unfold sinh, cosh. replace (- (a - b)) with (- a + b) by ring. replace (a - b) with (a + - b) by ring. rewrite !exp_plus. field. }
  destruct (cosh_ge a). destruct (cosh_ge b). rewrite K. field. lra.
Qed.
Lemma tanh_le a : Rabs (tanh a) <= 1.
Proof.
  destruct (cosh_ge a) as (C & _ & K). unfold tanh, Rdiv. rewrite Rabs_mult, Rabs_inv, (Rabs_pos_eq (cosh a)) by lra. apply Rmult_le_reg_r with (cosh a); [lra|].
  rewrite Rmult_assoc, Rinv_l by lra. lra.
Qed.
Lemma sinh_big_ge y : 49 / 1000 <= Rabs y -> 47 / 1000 <= Rabs (sinh y) /\ cosh y <= 22 * Rabs (sinh y).
Proof.
  assert (G : forall y, 49 / 1000 <= y -> 47 / 1000 <= sinh y /\ cosh y <= 22 * sinh y).
  { intros z Hz. unfold sinh, cosh. assert (K1 := exp_ineq1 z ltac:(lra)). assert (K2 := exp_ineq1 (z + z) ltac:(lra)). rewrite exp_plus in K2.
    assert (PE := exp_pos z). assert (EI : exp z * exp (- z) = 1) by (rewrite <- exp_plus, Rplus_opp_r; apply exp_0). set (E := exp z) in *. set (F := exp (- z)) in *. clearbody E F.
    assert (F0 : 0 < F) by nra. assert (FE : F <= E * (1000 / 1098)). { apply Rmult_le_reg_l with E; [exact PE|]. rewrite EI. nra. }
    split; [|lra].
    assert (M : E * F = 1) by exact EI. assert (FB : F <= 1 / (1 + 49 / 1000)). { apply Rmult_le_reg_l with (1 + 49 / 1000); [lra|]. replace ((1 + 49 / 1000) * (1 / (1 + 49 / 1000))) with 1 by field. rewrite <- M. apply Rmult_le_compat_r; lra. }
    lra. }
  intros H. unfold Rabs in H. destruct (Rcase_abs y) as [Q|Q].
  - destruct (G (- y) H) as [K1 K2]. replace (sinh (- y)) with (- sinh y) in K1, K2 by (unfold sinh; rewrite Ropp_involutive; lra). replace (cosh (- y)) with (cosh y) in K2 by (unfold cosh; rewrite Ropp_involutive; lra).
    rewrite <- (Rabs_Ropp (sinh y)), Rabs_pos_eq by lra. split; assumption.
  - destruct (G y H) as [K1 K2]. rewrite Rabs_pos_eq by lra. split; assumption.
Qed.

(** the quotient (a - 1/a) / (a + 1/a), against tanh (ln a) *)
Lemma tanh_quot a y : DNorm a -> DV a = exp y -> 49 / 1000 <= Rabs y <= 601 ->
  let q := d_div (d_sub a (d_recip a)) (d_add a (d_recip a)) in DNorm q /\ Rabs (DV q - tanh y) <= 62 * vv.
Proof.
  intros N E [L U] q. assert (U' := Rabs_def2' _ _ U). assert (P1 := exp_pos y). assert (P2 := exp_pos (- y)).
  assert (G : forall p, -601 <= p <= 601 -> bp (-890) <= exp p <= bp 890).
  { intros p Hp. assert (L2 : 69 / 100 < ln 2) by consts. rewrite !bpow_exp. change (IZR radix2) with 2.
    assert (G : forall p q, p <= q -> exp p <= exp q). { intros p' q' [Q|Q]; [left; now apply exp_increasing|rewrite Q; lra]. } split; apply G; lra. }
  assert (R1 := G y ltac:(lra)). assert (R2 := G (- y) ltac:(lra)).
  assert (RA := rel_self a N). rewrite E in RA.
  assert (RI := rel_recip 0 a (exp y) RA ltac:(lra) ltac:(rewrite Rabs_pos_eq by lra; exact R1)). rewrite <- exp_Ropp in RI.
  assert (VI := rel_val _ _ _ RI ltac:(lra)). destruct RI as [NI EI]. rewrite (Rabs_pos_eq (exp (- y))) in VI, EI by lra.
  assert (B9 := bp_100 890). assert (B10 : bp (890 + 7) <= bp 1000) by (apply bpow_le; lia). assert (B90 := bpow_gt_0 radix2 890).
  assert (EA : Rabs (DV a - exp y) <= 0) by (rewrite E, Rminus_diag_eq, Rabs_R0 by reflexivity; lra).
  destruct (sum_near a (d_recip a) (exp y) (exp (- y)) _ _ N NI EA EI ltac:(rewrite E, Rabs_pos_eq; lra) ltac:(lra)) as [[NS ES] [ND ED]].
  replace (exp y + exp (- y)) with (2 * cosh y) in ES by (unfold cosh; field). replace (exp y - exp (- y)) with (2 * sinh y) in ED by (unfold sinh; field).
  destruct (exp_pm_le y) as [_ IC]. destruct (cosh_ge y) as (C1 & _ & SC). destruct (sinh_big_ge y L) as [S1 S2].
  rewrite !Rabs_mult, (Rabs_pos_eq 2) in ES, ED by lra. rewrite (Rabs_pos_eq (cosh y)) in ES by lra.
  set (C := cosh y) in *. set (D := Rabs (sinh y)) in *.
  assert (CB : C <= bp 890) by (unfold C, cosh; lra).
  set (k := C / D). assert (K1 : k * D = C) by (unfold k; field; lra).
  assert (K2 : 0 <= k <= 22). { split; [unfold k, Rdiv; apply Rmult_le_pos; [lra|left; apply Rinv_0_lt_compat; lra]|]. apply Rmult_le_reg_r with D; lra. }
  assert (RD : rel ((61 / 10 + 163 / 10 * k) * vv) (d_sub a (d_recip a)) (2 * sinh y)).
  { split; [exact ND|]. rewrite Rabs_mult, (Rabs_pos_eq 2) by lra. fold D. replace ((61 / 10 + 163 / 10 * k) * vv * (2 * D)) with ((61 / 10 * D + 163 / 10 * C) * vv * 2) by (rewrite <- K1; ring). lra. }
  assert (RS : rel (224 / 10 * vv) (d_add a (d_recip a)) (2 * C)).
  { split; [exact NS|]. rewrite Rabs_mult, (Rabs_pos_eq 2), (Rabs_pos_eq C) by lra. lra. }
  assert (TQ : 2 * sinh y / (2 * C) = tanh y) by (unfold tanh; fold C; field; lra). assert (TA : Rabs (tanh y) = D / C).
  { unfold tanh, Rdiv. rewrite Rabs_mult, Rabs_inv, (Rabs_pos_eq (cosh y)); [reflexivity|fold C; lra]. }
  assert (TL := tanh_le y).
  assert (TG : / 22 <= Rabs (tanh y)). { rewrite TA. apply Rmult_le_reg_r with (22 * C); [lra|]. unfold Rdiv. replace (D * / C * (22 * C)) with (22 * D) by (field; lra). lra. }
  assert (S0 : 1000 * bp (-890) <= 1). { assert (K : bp (-880) = 1024 * bp (-890)) by exact (bp_split (-890) 10 ltac:(lia)). assert (K3 : bp (-880) <= bp 0) by (apply bpow_le; lia). change (bp 0) with 1 in K3. assert (P7 := bpow_gt_0 radix2 (-890)). lra. }
  assert (B1 : 1 <= bp 1000) by (change 1 with (bp 0); apply bpow_le; lia).
  assert (CZ : 2 * C <> 0) by (apply Rgt_not_eq; lra).
  assert (Q := rel_div _ _ _ _ _ _ RD RS ltac:(lra) ltac:(lra) ltac:(rewrite Rabs_mult, (Rabs_pos_eq 2) by lra; fold D; lra) CZ ltac:(rewrite TQ; lra)). rewrite TQ in Q. destruct Q as [NQ EQ].
  split; [exact NQ|]. apply Rle_trans with (1 := EQ).
  assert (KT : k * Rabs (tanh y) = 1) by (rewrite TA; unfold k; field; lra).
  replace ((1003 / 1000 * ((61 / 10 + 163 / 10 * k) * vv + 224 / 10 * vv) + 161 / 10 * vv) * Rabs (tanh y)) with
    (vv * (1003 / 1000 * (285 / 10 * Rabs (tanh y) + 163 / 10 * (k * Rabs (tanh y))) + 161 / 10 * Rabs (tanh y))) by field. rewrite KT. lra.
Qed.
Lemma sinh_small_le d : Rabs d <= 51 / 1000 -> Rabs (sinh d) <= 1004 / 1000 * Rabs d.
Proof. intros H. apply (sinh_lower d H). Qed.
Lemma d_tanh_ok lm dbg x : printer lm -> DNorm x -> bp (-200) <= Rabs (DV x) <= 600 ->
  exists r, d_tanh lm dbg x = Val r /\ DNorm r /\ Rabs (DV r - tanh (DV x)) <= 600 * vv /\ (Rabs (DV x) <= 49 / 1000 -> Rabs (DV r - tanh (DV x)) <= 118 * vv * Rabs (tanh (DV x))).
Proof.
  intros PR N [L U]. assert (NZ := nzb x L). destruct (nz_pre x N NZ) as (E1 & E2 & E3). unfold d_tanh, d_pre_tanh. rewrite E1, E2, E3. assert (TL := tanh_le (DV x)).
  destruct (cosh_ge (DV x)) as (C1 & CL & SC).
  destruct (branch x N) as [(B1 & B2 & B3)|(B1 & B2 & B3)].
  - rewrite B1. destruct (exp_pm x N U) as ([NE EE] & _ & BE & _ & EB). set (X := DV x) in *. assert (PE := exp_pos X). rewrite (Rabs_pos_eq (exp X)) in EE by lra.
    destruct (ln_near (exp X) (DV (d_exp x)) (ee X) PE ltac:(lra) EE) as [PA LN]. rewrite ln_exp in LN. set (y := ln (DV (d_exp x))) in *.
    assert (Ey : DV (d_exp x) = exp y) by (unfold y; rewrite exp_ln; auto). assert (T1 := tri _ _ _ _ LN (Rle_refl _)). assert (T2 := tri2 _ _ _ _ LN (Rle_refl _)).
    destruct (tanh_quot (d_exp x) y NE Ey ltac:(lra)) as [NQ EQ]. eexists. split; [reflexivity|]. split; [exact NQ|]. split; [|intros; lra].
    assert (TD : Rabs (tanh y - tanh X) <= 530 * vv).
    { rewrite tanh_sub. assert (SD := sinh_small_le (y - X) ltac:(lra)). destruct (cosh_ge y) as (Cy & _ & _). unfold Rdiv. rewrite Rabs_mult, Rabs_inv, (Rabs_pos_eq (cosh y * cosh X)) by (apply Rmult_le_pos; lra).
      apply Rmult_le_reg_r with (cosh y * cosh X); [apply Rmult_lt_0_compat; lra|]. rewrite Rmult_assoc, Rinv_l, Rmult_1_r by (apply Rgt_not_eq, Rmult_lt_0_compat; lra).
      apply Rle_trans with (530 * vv * (1 * cosh X)); [|apply Rmult_le_compat_l; [lra|]; apply Rmult_le_compat_r; lra]. apply Rle_trans with (1 := SD). unfold ee in LN. lra. }
    replace (DV (d_div _ _) - tanh X) with ((DV (d_div (d_sub (d_exp x) (d_recip (d_exp x))) (d_add (d_exp x) (d_recip (d_exp x)))) - tanh y) + (tanh y - tanh X)) by ring.
    eapply Rle_trans; [apply Rabs_triang|]. lra.
  - rewrite B1. destruct (d_sinh_cosh_small lm dbg x PR N (conj L B3) B2 B1) as (s & c & K1 & RS & RC). rewrite K1. cbn [obind]. eexists. split; [reflexivity|].
    assert (SL := sinh_lower (DV x) ltac:(lra)). assert (CU : cosh (DV x) <= 2). { assert (Q := cosh_sq (DV x)). rewrite (sq_abs (sinh _)) in Q. assert (Rabs (sinh (DV x)) * Rabs (sinh (DV x)) <= 1 * 1) by (apply Rmult_le_compat; try apply Rabs_pos; lra). nra. }
    assert (B : 2 * bp (-201) = bp (-200)) by (symmetry; exact (bp_split (-201) 1 ltac:(lia))). assert (P2 := bpow_gt_0 radix2 (-201)). assert (B8 := bp_100 (-890)). assert (B81 : bp (-890 + 7) <= bp (-201)) by (apply bpow_le; lia).
    assert (B1000 : 1 <= bp 1000) by (change 1 with (bp 0); apply bpow_le; lia).
    assert (TA : Rabs (sinh (DV x) / cosh (DV x)) = Rabs (sinh (DV x)) * / cosh (DV x)) by (unfold Rdiv; rewrite Rabs_mult, Rabs_inv, (Rabs_pos_eq (cosh _)); [reflexivity|lra]).
    assert (IC : / 2 <= / cosh (DV x)) by (apply Rinv_le_contravar; lra).
    assert (TG : bp (-890) <= Rabs (sinh (DV x) / cosh (DV x))). { rewrite TA. apply Rle_trans with (Rabs (sinh (DV x)) * / 2); [|apply Rmult_le_compat_l; [apply Rabs_pos|lra]]. lra. }
    assert (G1 : bp (-890) <= Rabs (sinh (DV x)) <= bp 1000) by lra. assert (G2 : cosh (DV x) <> 0) by (apply Rgt_not_eq; lra).
    assert (G3 : Rabs (sinh (DV x) / cosh (DV x)) <= bp 1000) by (unfold tanh in TL; lra).
    assert (Q := rel_div _ _ _ _ _ _ RS RC ltac:(lra) ltac:(lra) G1 G2 (conj TG G3)).
    change (sinh (DV x) / cosh (DV x)) with (tanh (DV x)) in Q. destruct Q as [NQ EQ]. split; [exact NQ|]. assert (PT := Rabs_pos (tanh (DV x))).
    split; [|intros _]; lra.
Qed.
