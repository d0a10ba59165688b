(** * Accuracy of Quad cosh, sinh and tanh away from zero *)
From Coq Require Import ZArith Reals List Bool Lia Lra Psatz.
From Flocq Require Import Core IEEE754.BinarySingleNaN.
From Verif Require Import RN F64 F64Facts Prim DoubleM QuadM Spec EFT SpecialProofs DAddProofs DMulProofs ExactProofs QExactProofs LawProofs OrderProofs QuadSpec QAddAcc QAddThms QMulAcc QMulThms QGeoAcc QGeoMul
  DDivProofs LdexpProofs Exact BaseConst ConstM ConstSpec ConstProofs AlgM TransM TransProofs SqrtProofs AbsOps ExpProofs ExpThms HypThms QLoose QLDiv QLOps QLSq QExprSpec QExprProofs QParse QExpProofs QExpThms QLogThms.
Import ListNotations.
Local Open Scope R_scope.

(** ** a sum that loses at most a factor c to cancellation *)
Lemma q_add_Lc d c x y : 4 * u <= d -> d <= / 1099511627776 -> QL d x -> QL d y -> 1 <= c <= 200 ->
  Rabs (V (q0 x)) <= bp 900 -> Rabs (V (q0 y)) <= bp 900 -> 0 < Rabs (QV x) -> Rabs (QV x) <= c * Rabs (QV x + QV y) -> Rabs (QV y) <= c * Rabs (QV x + QV y) -> d <= 100 * u ->
  QL (19 * c * u) (q_add x y) /\
  Rabs (QV (q_add x y) - (QV x + QV y)) <= 680 * c * (u * d) * Rabs (QV x + QV y).
Proof.
  intros Hd1 Hd2 Lx Ly Hc XH YH NZ CX CY Hd3. assert (Pd : 0 <= d) by lra.
  assert (AX := QL_abs d x Pd Hd2 Lx). assert (AY := QL_abs d y Pd Hd2 Ly).
  destruct Lx as (Fx & X1 & X2 & X3). destruct Ly as (Fy & Y1 & Y2 & Y3).
  assert (G9 : bp 900 <= bp 1000) by (apply bpow_le; lia).
  set (X := Rabs (V (q0 x))) in *. set (Y := Rabs (V (q0 y))) in *.
  assert (PX : 0 <= X) by apply Rabs_pos. assert (PY : 0 <= Y) by apply Rabs_pos.
  set (M := Rmax X Y).
  assert (MX : X <= M) by apply Rmax_l. assert (MY : Y <= M) by apply Rmax_r.
  assert (PM : 0 < M) by lra.
  assert (SL : (1 - / 100000) * M <= c * Rabs (QV x + QV y)).
  { unfold M, Rmax. destruct (Rle_dec X Y); lra. }
  assert (MB : M <= bp 900) by (unfold M, Rmax; destruct (Rle_dec X Y); lra).
  set (m := d * M).
  assert (m1 : 4 * (u * M) <= m). { unfold m. replace (4 * (u * M)) with (4 * u * M) by ring. apply Rmult_le_compat_r; lra. }
  assert (m2 : m <= / 1099511627776 * M) by (apply Rmult_le_compat_r; lra).
  assert (dX : d * X <= m) by (apply Rmult_le_compat_l; lra). assert (dY : d * Y <= m) by (apply Rmult_le_compat_l; lra).
  rewrite q_add_fin by assumption.
  destruct (q_add_core_L M m x y) as [L E].
  { repeat split; lra. }
  { destruct Fx as (? & ? & ? & ?). unfold QB, fb. fold X. repeat split; first [assumption|lra]. }
  { destruct Fy as (? & ? & ? & ?). unfold QB, fb. fold Y. repeat split; first [assumption|lra]. }
  assert (m3 : m <= 100 * u * M) by (unfold m; apply Rmult_le_compat_r; lra).
  set (z := QV x + QV y) in *. clearbody z. set (q := q_add_core x y) in *. clearbody q.
  assert (FQ := lbQ_fin _ _ _ _ _ L). destruct L as (_ & [_ C1] & [_ C2] & [_ C3]).
  assert (Pz : 0 < Rabs z). { destruct (Rle_or_lt (Rabs z) 0) as [H|H]; [|exact H]. assert (c * Rabs z <= c * 0) by (apply Rmult_le_compat_l; lra). lra. }
  set (w := Rabs z) in *. assert (cw : c * w <= 200 * w) by (apply Rmult_le_compat_r; lra). assert (cw1 : 1 * w <= c * w) by (apply Rmult_le_compat_r; lra).
  split.
  - apply QL_mono with ((1 + / 1000) * ((18 * c) * u)); [lra|].
    apply (QL_intro ((18 * c) * u) q z w Pz); [lra|lra|exact FQ|fold w; lra|lra|..]; replace (18 * c * u * w) with (18 * u * (c * w)) by ring; lra.
  - eapply Rle_trans; [exact E|]. assert (PU : 0 <= u * d) by (apply Rmult_le_pos; lra).
    apply Rle_trans with (680 * (u * d) * ((1 - / 100000) * M)).
    + unfold m. replace (672 * (u * (d * M))) with (672 * (u * d) * M) by ring.
      replace (680 * (u * d) * ((1 - / 100000) * M)) with (680 * (u * d) * (1 - / 100000) * M) by ring. apply Rmult_le_compat_r; lra.
    + replace (680 * c * (u * d) * w) with (680 * (u * d) * (c * w)) by ring. apply Rmult_le_compat_l; [lra|exact SL].
Qed.
(** halving *)
Lemma q_half_Ld d a : 4 * u <= d -> d <= / 1099511627776 -> QL d a -> bp (-600) <= Rabs (V (q0 a)) -> Rabs (V (q0 a)) <= bp 1000 ->
  QL (101 / 100 * d) (q_mul_pwr2 a fhalf) /\ Rabs (QV (q_mul_pwr2 a fhalf) - QV a / 2) <= bp (-400) * Rabs (QV a).
Proof.
  intros D1 D2 LA L U. assert (AB := QL_abs d a ltac:(lra) D2 LA). destruct LA as (F & A1 & A2 & A3). destruct fhalf_V as [Fh Vh]. unfold q_mul_pwr2. destruct F as (F0 & F1 & F2 & F3).
  assert (AH : forall x, Rabs (x / 2) = Rabs x / 2) by (intros x; unfold Rdiv; rewrite Rabs_mult, (Rabs_pos_eq (/ 2)) by lra; reflexivity).
  assert (B2 : bp (-1021) = 2 * bp (-1022)) by exact (bp_split (-1022) 1 ltac:(lia)).
  assert (B24 : bp 1000 < bp 1024) by (apply bpow_lt; lia). assert (P22 := bpow_gt_0 radix2 (-1022)). assert (P75 := bpow_gt_0 radix2 (-1075)).
  assert (HX : forall x, fmt x -> Rabs (rn (x / 2) - x / 2) <= bp (-1075)).
  { intros x Fx. destruct (Rle_or_lt (bp (-1021)) (Rabs x)) as [G|G].
    - rewrite <- bm1. rewrite rn_scale; [|lra|rewrite bm1, AH; lra]. rewrite (rn_id _ Fx), Rminus_diag_eq, Rabs_R0 by reflexivity. apply bpow_ge_0.
    - apply sub_err. rewrite AH. lra. }
  assert (P0 := Rabs_pos (V (q0 a))). set (X := Rabs (V (q0 a))) in *.
  assert (S75 : bp (-1075) <= / 1000000 * (u * X) /\ bp (-1075) <= / 1000 * (bp (-400) * X)).
  { assert (K : bp (-1075) = bp (-475) * bp (-600)) by (rewrite <- bpow_plus; reflexivity). rewrite K. assert (Q := bpow_gt_0 radix2 (-600)). assert (Q2 := bpow_gt_0 radix2 (-475)). assert (Q3 := bpow_gt_0 radix2 (-400)).
    split.
    - replace (/ 1000000 * (u * X)) with (/ 1000000 * u * X) by ring. apply Rmult_le_compat; [lra|lra| |lra]. apply Rle_trans with (bp (-100)); [apply bpow_le; lia|]. change (bp (-100)) with (/ 1267650600228229401496703205376). lra.
    - replace (/ 1000 * (bp (-400) * X)) with (/ 1000 * bp (-400) * X) by ring. apply Rmult_le_compat; [lra|lra| |lra].
      apply Rle_trans with (bp (-75) * bp (-400)); [rewrite <- bpow_plus; apply bpow_le; lia|]. apply Rmult_le_compat_r; [lra|]. apply Rle_trans with (bp (-10)); [apply bpow_le; lia|]. change (bp (-10)) with (/ 1024). lra. }
  destruct S75 as [S1 S2].
  assert (uX : u * X <= / 4 * (d * X)) by (replace (/ 4 * (d * X)) with (/ 4 * d * X) by ring; apply Rmult_le_compat_r; lra). assert (dX : d * X <= 1 * X) by (apply Rmult_le_compat_r; lra).
  assert (FM : forall c, Fin c -> Rabs (V c) <= X -> Fin (fmul c fhalf) /\ Rabs (V (fmul c fhalf) - V c / 2) <= bp (-1075)).
  { intros c Fc HB. assert (K := HX (V c) (V_fmt c)). assert (K2 := tri _ _ _ _ K (Rle_refl _)). rewrite AH in K2. assert (B0 : bp (-1075) <= bp 999) by (apply bpow_le; lia). assert (B1 : bp 1000 = 2 * bp 999) by exact (bp_split 999 1 ltac:(lia)).
    destruct (fmul_ok c fhalf Fc Fh) as [Fa [Va _]]; [rewrite Vh; change (V c * / 2) with (V c / 2); lra|].
    rewrite Vh in Va. change (V c * / 2) with (V c / 2) in Va. rewrite Va. auto. }
  destruct (FM (q0 a) F0 (Rle_refl _)) as [G0 E0]. destruct (FM (q1 a) F1 ltac:(lra)) as [G1 E1]. destruct (FM (q2 a) F2 ltac:(lra)) as [G2 E2]. destruct (FM (q3 a) F3 ltac:(lra)) as [G3 E3].
  assert (H0 := tri2 _ _ _ _ E0 (Rle_refl _)). rewrite AH in H0. fold X in H0.
  assert (HC : forall c, Fin c -> Rabs (V c) <= d * X -> Rabs (V (fmul c fhalf) - V c / 2) <= bp (-1075) -> Rabs (V (fmul c fhalf)) <= 101 / 100 * d * Rabs (V (fmul (q0 a) fhalf))).
  { intros c Fc HB K. assert (K2 := tri _ _ _ _ K (Rle_refl _)). rewrite AH in K2. apply Rle_trans with (101 / 100 * d * (4999 / 10000 * X)); [|apply Rmult_le_compat_l; [lra|lra]].
    replace (101 / 100 * d * (4999 / 10000 * X)) with (101 / 100 * (4999 / 10000) * (d * X)) by ring. lra. }
  split.
  - split; [unfold QFin; cbn [q0 q1 q2 q3]; auto|]. cbn [q0 q1 q2 q3]. auto.
  - unfold QV at 1. cbn [q0 q1 q2 q3]. replace (V (fmul (q0 a) fhalf) + V (fmul (q1 a) fhalf) + V (fmul (q2 a) fhalf) + V (fmul (q3 a) fhalf) - QV a / 2)
      with ((V (fmul (q0 a) fhalf) - V (q0 a) / 2) + (V (fmul (q1 a) fhalf) - V (q1 a) / 2) + (V (fmul (q2 a) fhalf) - V (q2 a) / 2) + (V (fmul (q3 a) fhalf) - V (q3 a) / 2)) by (unfold QV; field).
    eapply Rle_trans; [apply Rabs_triang|]. eapply Rle_trans; [apply Rplus_le_compat_r, Rabs_triang|]. eapply Rle_trans; [apply Rplus_le_compat_r, Rplus_le_compat_r, Rabs_triang|].
    assert (bp (-400) * X <= bp (-400) * (2 * Rabs (QV a))) by (apply Rmult_le_compat_l; [apply bpow_ge_0|lra]). assert (0 <= bp (-400) * Rabs (QV a)) by (apply Rmult_le_pos; [apply bpow_ge_0|apply Rabs_pos]). lra.
Qed.

(** ** e^x and its reciprocal *)
Definition exp_dom (x : R) : Prop :=
  bp (-80) <= Rabs x /\ forall k : Z, k <> 0%Z -> bp (-28) * Rabs x <= Rabs (x - IZR k * ln 2).
Lemma exp_pair x : QGeoS x -> Rabs (QV x) <= 200 -> exp_dom (QV x) ->
  QL (4 * u) (q_exp x) /\ Rabs (QV (q_exp x) - exp (QV x)) <= bp (-120) * exp (QV x) /\
  QL (4 * u) (q_recip (q_exp x)) /\ Rabs (QV (q_recip (q_exp x)) - exp (- QV x)) <= (bp (-91) + 2 * bp (-120)) * exp (- QV x).
Proof.
  intros G H [D1 D2]. assert (H2 := Rabs_def2' _ _ H). destruct (q_exp_ok x G ltac:(lra) D1 D2) as [GA EA]. destruct dl_mu as (Pm & Ed & Sm). fold dl in EA.
  set (X := QV x) in *. assert (PE := exp_pos X). assert (PM := exp_pos (- X)). assert (EE : exp X * exp (- X) = 1) by (rewrite <- exp_plus, Rplus_opp_r; apply exp_0).
  assert (B120 : 0 < bp (-120) <= / 1000000000) by (split; [apply bpow_gt_0|]; apply Rle_trans with (bp (-30)); [apply bpow_le; lia|change (bp (-30)) with (/ 1073741824); lra]).
  assert (EA2 : Rabs (QV (q_exp x) - exp X) <= bp (-120) * exp X).
  { apply Rle_trans with (1 := EA). apply Rmult_le_compat_r; [lra|]. apply Rle_trans with (bp 17 * bp (-137)); [|rewrite <- bpow_plus; right; reflexivity]. fold dl. apply Rmult_le_compat_r; [lra|]. change (bp 17) with 131072. lra. }
  assert (LA := QL_geoS _ GA). split; [exact LA|]. split; [exact EA2|]. set (a := q_exp x) in *.
  assert (AB : bp (-120) * exp X <= / 1000000000 * exp X) by (apply Rmult_le_compat_r; lra). assert (BA := Rabs_def2' _ _ EA2).
  assert (PA : 0 < QV a) by lra.
  assert (XB : bp (-298) <= exp X <= bp 298).
  { destruct ln2_lo as (_ & _ & _ & _ & _ & B2). rewrite !bpow_exp. change (IZR radix2) with 2. split; left; apply exp_increasing; lra. }
  assert (E8 : bp 299 = 2 * bp 298) by exact (bp_split 298 1 ltac:(lia)). assert (E9 : bp (-298) = 2 * bp (-299)) by exact (bp_split (-299) 1 ltac:(lia)). assert (P9 := bpow_gt_0 radix2 (-299)).
  destruct (q_recip_ok a LA) as [LI EI]; [rewrite Rabs_pos_eq by lra; lra|]. split; [exact LI|].
  assert (IA : 0 < / QV a) by (now apply Rinv_0_lt_compat). rewrite (Rabs_pos_eq (/ QV a)) in EI by lra.
  assert (II : Rabs (/ QV a - exp (- X)) <= 1001 / 1000 * bp (-120) * exp (- X)).
  { replace (/ QV a - exp (- X)) with (- ((QV a - exp X) * (exp (- X) * / QV a))).
    2: { replace (- ((QV a - exp X) * (exp (- X) * / QV a))) with (/ QV a * (exp X * exp (- X)) - exp (- X) * (QV a * / QV a)) by ring. rewrite EE, Rinv_r by lra. ring. }
    rewrite Rabs_Ropp, Rabs_mult, (Rabs_pos_eq (exp (- X) * / QV a)) by (apply Rmult_le_pos; lra).
    apply Rle_trans with (bp (-120) * exp X * (exp (- X) * / QV a)); [apply Rmult_le_compat_r; [apply Rmult_le_pos; lra|exact EA2]|].
    replace (bp (-120) * exp X * (exp (- X) * / QV a)) with (bp (-120) * exp (- X) * (exp X * / QV a)) by ring. replace (1001 / 1000 * bp (-120) * exp (- X)) with (bp (-120) * exp (- X) * (1001 / 1000)) by ring.
    apply Rmult_le_compat_l; [apply Rmult_le_pos; lra|]. apply Rmult_le_reg_r with (QV a); [lra|]. rewrite Rmult_assoc, Rinv_l by lra. lra. }
  assert (B91 : 0 < bp (-91) <= / 1000) by (split; [apply bpow_gt_0|]; apply Rle_trans with (bp (-30)); [apply bpow_le; lia|change (bp (-30)) with (/ 1073741824); lra]).
  assert (II2 := Rabs_def2' _ _ II). replace (1001 / 1000 * bp (-120) * exp (- X)) with (1001 / 1000 * (bp (-120) * exp (- X))) in * by ring.
  assert (K : bp (-91) * / QV a <= bp (-91) * (exp (- X) + 1001 / 1000 * (bp (-120) * exp (- X)))) by (apply Rmult_le_compat_l; lra).
  assert (K2 : bp (-91) * (bp (-120) * exp (- X)) <= / 1000 * (bp (-120) * exp (- X))) by (apply Rmult_le_compat_r; [apply Rmult_le_pos; lra|lra]). assert (0 <= bp (-120) * exp (- X)) by (apply Rmult_le_pos; lra).
  replace (QV (q_recip a) - exp (- X)) with ((QV (q_recip a) - / QV a) + (/ QV a - exp (- X))) by ring. eapply Rle_trans; [apply Rabs_triang|]. lra.
Qed.
(** numbers as multiples of u^2 *)
Lemma bp_uu : bp (-91) = 32768 * (u * u) /\ bp (-120) <= / 10000 * (u * u) /\ bp (-400) <= / 10000 * (u * u) /\ bp (-90) = 65536 * (u * u) /\ bp (-84) = 4194304 * (u * u) /\ bp (-82) = 16777216 * (u * u).
Proof.
  assert (E : bp (-106) = u * u) by (rewrite <- u_bp, <- bpow_plus; reflexivity). assert (P := bpow_gt_0 radix2 (-106)).
  assert (B : bp (-120) <= / 10000 * (u * u)). { rewrite <- E. assert (K : bp (-106) = 16384 * bp (-120)) by exact (bp_split (-120) 14 ltac:(lia)). assert (Q := bpow_gt_0 radix2 (-120)). lra. }
  assert (B4 : bp (-400) <= bp (-120)) by (apply bpow_le; lia).
  rewrite <- E in *. split; [exact (bp_split (-106) 15 ltac:(lia))|]. split; [exact B|]. split; [lra|]. split; [exact (bp_split (-106) 16 ltac:(lia))|]. split; [exact (bp_split (-106) 22 ltac:(lia))|exact (bp_split (-106) 24 ltac:(lia))].
Qed.
Lemma exp200 X : Rabs X <= 200 -> exp X <= bp 298.
Proof.
  intros H. apply Rabs_def2' in H. destruct ln2_lo as (_ & _ & _ & _ & _ & B2). rewrite !bpow_exp. change (IZR radix2) with 2. left; apply exp_increasing; lra.
Qed.
(** sum and difference of the pair *)
Lemma pair_sum x : QGeoS x -> Rabs (QV x) <= 200 -> exp_dom (QV x) -> let a := q_exp x in
  QL (19 * u) (q_add a (q_recip a)) /\ Rabs (QV (q_add a (q_recip a)) - 2 * cosh (QV x)) <= bp (-90) * (2 * cosh (QV x)) /\
  (498 / 10000 <= Rabs (QV x) -> QL (456 * u) (q_sub a (q_recip a)) /\ Rabs (QV (q_sub a (q_recip a)) - 2 * sinh (QV x)) <= 24 * bp (-90) * Rabs (2 * sinh (QV x))).
Proof.
  intros G H D a. destruct (exp_pair x G H D) as (LA & EA & LI & EI). fold a in LA, EA, LI, EI. set (i := q_recip a) in *. set (X := QV x) in *.
  destruct bp_uu as (U1 & U2 & _ & U4 & _ & _). rewrite U1 in EI. rewrite U4.
  assert (PE := exp_pos X). assert (PM := exp_pos (- X)). set (e := exp X) in *. set (f := exp (- X)) in *.
  assert (Eu : bp (-120) * e <= / 10000 * (u * u * e)) by (replace (/ 10000 * (u * u * e)) with (/ 10000 * (u * u) * e) by ring; apply Rmult_le_compat_r; lra).
  assert (Fu : bp (-120) * f <= / 10000 * (u * u * f)) by (replace (/ 10000 * (u * u * f)) with (/ 10000 * (u * u) * f) by ring; apply Rmult_le_compat_r; lra).
  assert (EA1 : Rabs (QV a - e) <= u * u * e) by (assert (0 <= u * u * e) by (apply Rmult_le_pos; lra); lra).
  assert (EI1 : Rabs (QV i - f) <= 32769 * (u * u * f)) by (assert (0 <= u * u * f) by (apply Rmult_le_pos; lra); lra). clear EA EI Eu Fu.
  assert (BA := Rabs_def2' _ _ EA1). assert (BI := Rabs_def2' _ _ EI1).
  assert (UE : u * u * e <= / 1000000000000 * e) by (apply Rmult_le_compat_r; lra). assert (UF : u * u * f <= / 100000000000000000 * f) by (apply Rmult_le_compat_r; lra).
  assert (PA : 0 < QV a) by lra. assert (PI : 0 < QV i) by lra.
  assert (XE : e <= bp 298) by now apply exp200. assert (XF : f <= bp 298) by (apply exp200; now rewrite Rabs_Ropp). assert (B9 : 2 * bp 298 <= bp 900) by (replace (2 * bp 298) with (bp 299) by exact (bp_split 298 1 ltac:(lia)); apply bpow_le; lia).
  assert (AA := QL_abs (4 * u) a ltac:(lra) ltac:(lra) LA). assert (AI := QL_abs (4 * u) i ltac:(lra) ltac:(lra) LI). rewrite (Rabs_pos_eq (QV a)) in AA by lra. rewrite (Rabs_pos_eq (QV i)) in AI by lra.
  assert (C2 : 2 * cosh X = e + f) by (unfold cosh, e, f; field). assert (S2 : 2 * sinh X = e - f) by (unfold sinh, e, f; field).
  assert (ue : 0 <= u * u * e) by (apply Rmult_le_pos; lra). assert (uf : 0 <= u * u * f) by (apply Rmult_le_pos; lra).
  split; [|split].
  - destruct (q_add_L (4 * u) a i ltac:(lra) ltac:(lra) LA LI ltac:(lra) ltac:(lra) ltac:(now apply Rmult_lt_0_compat)) as [LS _]. apply QL_mono with (18 * u); [lra|exact LS].
  - destruct (q_add_L (4 * u) a i ltac:(lra) ltac:(lra) LA LI ltac:(lra) ltac:(lra) ltac:(now apply Rmult_lt_0_compat)) as [_ ES]. rewrite C2. rewrite (Rabs_pos_eq (QV a + QV i)) in ES by lra.
    assert (K : 680 * (u * (4 * u)) * (QV a + QV i) <= 680 * (u * (4 * u)) * (2 * (e + f))) by (apply Rmult_le_compat_l; lra).
    apply Rabs_def2' in ES. apply Rabs_le. lra.
  - intros HL. rewrite S2. unfold q_sub. destruct (QL_neg (4 * u) i LI) as [LN VN].
    assert (CH : e + f <= 21 * Rabs (e - f)).
    { assert (EF : e * f = 1) by (unfold e, f; rewrite <- exp_plus, Rplus_opp_r; apply exp_0).
      assert (K1 := exp_ge1). assert (GX : 1 + X <= e) by apply exp_ineq1_le. assert (GF : 1 + - X <= f) by apply exp_ineq1_le.
      unfold Rabs. destruct (Rcase_abs (e - f)) as [S|S].
      - assert (XN : X < 0) by (destruct (Rle_or_lt 0 X) as [Q|Q]; [exfalso; assert (1 <= e) by lra; assert (f <= 1) by (apply Rmult_le_reg_l with e; lra); lra|exact Q]). rewrite Rabs_left in HL by exact XN.
        assert (F2 : 10498 / 10000 <= f) by lra. assert (E2 : e <= 10000 / 10498) by (apply Rmult_le_reg_r with f; [lra|]; rewrite EF; lra). lra.
      - assert (XP : 0 <= X) by (destruct (Rle_or_lt 0 X) as [Q|Q]; [exact Q|exfalso; assert (1 < f) by lra; assert (e < 1) by (apply Rmult_lt_reg_r with f; lra); lra]). rewrite Rabs_pos_eq in HL by exact XP.
        assert (F2 : 10498 / 10000 <= e) by lra. assert (E2 : f <= 10000 / 10498) by (apply Rmult_le_reg_l with e; [lra|]; rewrite EF; lra). lra. }
    assert (DF : Rabs ((QV a - QV i) - (e - f)) <= u * u * e + 32769 * (u * u * f)) by (apply Rabs_le; lra).
    set (z := QV a - QV i) in *. assert (T1 := tri2 _ _ _ _ DF (Rle_refl _)). assert (T2 := tri _ _ _ _ DF (Rle_refl _)).
    assert (VZ : QV a + QV (q_neg i) = z) by (rewrite VN; reflexivity).
    assert (NI : Rabs (V (q0 (q_neg i))) <= bp 900) by (assert (K := QL_abs (4 * u) _ ltac:(lra) ltac:(lra) LN); rewrite VN, Rabs_Ropp, (Rabs_pos_eq (QV i)) in K by lra; lra).
    destruct (q_add_Lc (4 * u) 24 a (q_neg i) ltac:(lra) ltac:(lra) LA LN ltac:(lra) ltac:(lra) NI) as [LS ES].
    { rewrite Rabs_pos_eq; lra. }
    { rewrite VZ, (Rabs_pos_eq (QV a)) by lra. lra. }
    { rewrite VZ, VN, Rabs_Ropp, (Rabs_pos_eq (QV i)) by lra. lra. }
    { lra. }
    rewrite VZ in ES. split; [apply QL_mono with (19 * 24 * u); [lra|exact LS]|].
    set (w := Rabs (e - f)) in *. assert (Pw : 0 <= w) by apply Rabs_pos.
    assert (K : 680 * 24 * (u * (4 * u)) * Rabs z <= 680 * 24 * (u * (4 * u)) * (2 * w)) by (apply Rmult_le_compat_l; lra).
    assert (K2 : u * u * (e + f) <= u * u * (21 * w)) by (apply Rmult_le_compat_l; lra).
    replace (QV (q_add a (q_neg i)) - (e - f)) with ((QV (q_add a (q_neg i)) - z) + (z - (e - f))) by ring. eapply Rle_trans; [apply Rabs_triang|].
    assert (0 <= u * u * w) by (apply Rmult_le_pos; lra). lra.
Qed.

(** ** the three functions *)
Lemma nz_preQ x : QGeoS x -> QV x <> 0 -> q_is_nan x = false /\ q_is_zero x = false /\ q_is_infinite x = false.
Proof.
  intros G H. assert (F : Fin (q0 x)) by apply G. split; [now apply Fin_nan|]. split.
  - unfold q_is_zero. destruct (feqb (q0 x) f0) eqn:Z; [|reflexivity]. exfalso. apply H. apply feqb_V in Z; auto using Fin_0. rewrite V_0 in Z.
    assert (K := geo_close x G). rewrite Z, Rabs_R0 in K. apply Rabs_def2' in K. lra.
  - unfold q_is_infinite. destruct (q0 x); try discriminate; reflexivity.
Qed.
Lemma dom_nz x : exp_dom x -> x <> 0.
Proof. intros [H _] E. rewrite E, Rabs_R0 in H. assert (P := bpow_gt_0 radix2 (-80)). lra. Qed.
Lemma branchQ x : QGeoS x -> (fgtb (q0 (q_abs x)) (dec 5 (-2)) = true /\ fleb (q0 (q_abs x)) (dec 5 (-2)) = false /\ 498 / 10000 <= Rabs (QV x)) \/
  (fgtb (q0 (q_abs x)) (dec 5 (-2)) = false /\ fleb (q0 (q_abs x)) (dec 5 (-2)) = true /\ Rabs (QV x) <= 502 / 10000).
Proof.
  intros G. destruct tw_V as [Ft Bt]. destruct (q_abs_hi x (proj1 (proj1 G))) as [Fa Va]. change (fgtb (q0 (q_abs x)) (dec 5 (-2))) with (fltb (dec 5 (-2)) (q0 (q_abs x))).
  rewrite (fltb_ok _ _ Ft Fa), (fleb_ok _ _ Fa Ft), Va. assert (K := geo_close x G). assert (T := tri _ _ _ _ K (Rle_refl _)). assert (T2 := tri2 _ _ _ _ K (Rle_refl _)). assert (P := Rabs_pos (V (q0 x))).
  destruct (Rlt_bool_spec (V (dec 5 (-2))) (Rabs (V (q0 x)))); destruct (Rle_bool_spec (Rabs (V (q0 x))) (V (dec 5 (-2)))); lra.
Qed.
Lemma big_cosh X : 1 <= cosh X /\ (Rabs X <= 200 -> 2 * cosh X <= bp 299) /\ (Rabs X <= 60 -> 2 * cosh X <= bp 88).
Proof.
  destruct (cosh_ge X) as (C & _). split; [exact C|]. unfold cosh. replace (2 * ((exp X + exp (- X)) / 2)) with (exp X + exp (- X)) by field. split; intros H.
  - assert (K1 := exp200 X H). assert (K2 := exp200 (- X) ltac:(now rewrite Rabs_Ropp)). assert (bp 299 = 2 * bp 298) by exact (bp_split 298 1 ltac:(lia)). lra.
  - assert (E : forall t, Rabs t <= 60 -> exp t <= bp 87). { intros t Ht. apply Rabs_def2' in Ht. destruct ln2_lo as (_ & _ & _ & _ & _ & B2). rewrite !bpow_exp. change (IZR radix2) with 2. left; apply exp_increasing; lra. }
    assert (K1 := E X H). assert (K2 := E (- X) ltac:(now rewrite Rabs_Ropp)). assert (bp 88 = 2 * bp 87) by exact (bp_split 87 1 ltac:(lia)). lra.
Qed.
Lemma sinh_low X : 498 / 10000 <= Rabs X -> 996 / 10000 <= Rabs (2 * sinh X).
Proof.
  intros H. unfold sinh. replace (2 * ((exp X - exp (- X)) / 2)) with (exp X - exp (- X)) by field.
  assert (EF : exp X * exp (- X) = 1) by (rewrite <- exp_plus, Rplus_opp_r; apply exp_0). assert (PE := exp_pos X). assert (PM := exp_pos (- X)).
  assert (POS : forall t, 0 <= t -> 2 * t <= exp t - exp (- t)).
  { intros t Ht. assert (D : forall c, derivable_pt_lim (fun c => exp c - exp (- c)) c (exp c + exp (- c))).
    { intros c. replace (exp c + exp (- c)) with (exp c - (exp (- c) * -1)) by ring. apply derivable_pt_lim_minus; [apply derivable_pt_lim_exp|].
      apply (derivable_pt_lim_comp (fun c => - c) exp c (-1) (exp (- c))); [|apply derivable_pt_lim_exp]. replace (-1) with (- (1)) by ring. apply (derivable_pt_lim_opp id), derivable_pt_lim_id. }
    destruct (Rle_lt_or_eq_dec 0 t Ht) as [L|E]; [|subst t; rewrite Ropp_0; lra].
    destruct (MVT_cor2 (fun c => exp c - exp (- c)) (fun c => exp c + exp (- c)) 0 t L (fun c _ => D c)) as (c & E & _).
    rewrite Ropp_0, exp_0 in E. assert (K := proj1 (cosh_ge c)). unfold cosh in K. assert (2 * (t - 0) <= (exp c + exp (- c)) * (t - 0)) by (apply Rmult_le_compat_r; lra). lra. }
  unfold Rabs in H. destruct (Rcase_abs X) as [N|N].
  - assert (K := POS (- X) ltac:(lra)). rewrite Ropp_involutive in K. rewrite Rabs_left; lra.
  - assert (K := POS X ltac:(lra)). rewrite Rabs_pos_eq; lra.
Qed.
Lemma q_cosh_ok x : QGeoS x -> Rabs (QV x) <= 200 -> exp_dom (QV x) -> QTame (q_cosh x) /\ Rabs (QV (q_cosh x) - cosh (QV x)) <= bp (-89) * cosh (QV x).
Proof.
  intros G H D. destruct (nz_preQ x G (dom_nz _ D)) as (N1 & N2 & N3). unfold q_cosh, q_pre_cosh. rewrite N1, N2. cbn [from_pre]. cbv zeta.
  destruct (pair_sum x G H D) as (LS & ES & _). set (s := q_add (q_exp x) (q_recip (q_exp x))) in *. destruct (big_cosh (QV x)) as (C1 & C2 & _). specialize (C2 H). set (C := 2 * cosh (QV x)) in *. replace (cosh (QV x)) with (C / 2) by (unfold C; field).
  destruct bp_uu as (_ & _ & U3 & U4 & _ & _). assert (E89 : bp (-89) = 2 * bp (-90)) by exact (bp_split (-90) 1 ltac:(lia)). rewrite E89, U4 in *.
  assert (UC : 65536 * (u * u) * C <= / 1000000000 * C) by (apply Rmult_le_compat_r; [unfold C|]; lra). assert (CP : 2 <= C) by (unfold C; lra). assert (B := Rabs_def2' _ _ ES).
  assert (AS := QL_abs (19 * u) s ltac:(lra) ltac:(lra) LS). rewrite (Rabs_pos_eq (QV s)) in AS by lra.
  destruct (q_half_Ld (19 * u) s ltac:(lra) ltac:(lra) LS) as [LH EH].
  { apply Rle_trans with (bp 0); [apply bpow_le; lia|change (bp 0) with 1; lra]. }
  { assert (K : 2 * bp 299 <= bp 1000) by (replace (2 * bp 299) with (bp 300) by exact (bp_split 299 1 ltac:(lia)); apply bpow_le; lia). lra. }
  split; [apply L_tame with (2 := LH); lra|]. rewrite (Rabs_pos_eq (QV s)) in EH by lra.
  assert (K : bp (-400) * QV s <= / 10000 * (u * u) * (2 * C)) by (apply Rmult_le_compat; [apply bpow_ge_0|lra|lra|lra]). assert (0 <= u * u * C) by (apply Rmult_le_pos; lra).
  apply Rabs_def2' in EH. apply Rabs_le. lra.
Qed.
Lemma q_sinh_ok lm dbg x : QGeoS x -> fgtb (q0 (q_abs x)) (dec 5 (-2)) = true -> 498 / 10000 <= Rabs (QV x) <= 200 -> exp_dom (QV x) ->
  exists r, q_sinh lm dbg x = Val r /\ QL (500 * u) r /\ Rabs (QV r - sinh (QV x)) <= bp (-85) * Rabs (sinh (QV x)).
Proof.
  intros G BR [H0 H] D. destruct (nz_preQ x G (dom_nz _ D)) as (N1 & N2 & N3). unfold q_sinh, q_pre_sinh. rewrite N1, N2, BR. cbv zeta.
  destruct (pair_sum x G H D) as (_ & _ & K). destruct (K ltac:(lra)) as [LS ES]. clear K. set (s := q_sub (q_exp x) (q_recip (q_exp x))) in *.
  eexists. split; [reflexivity|]. destruct (big_cosh (QV x)) as (C1 & C2 & _). specialize (C2 H). assert (SL := sinh_low (QV x) ltac:(lra)).
  destruct (cosh_ge (QV x)) as (_ & _ & SC). assert (A2 : Rabs (2 * sinh (QV x)) = 2 * Rabs (sinh (QV x))) by (rewrite Rabs_mult, (Rabs_pos_eq 2) by lra; reflexivity).
  set (Z := 2 * sinh (QV x)) in *. replace (sinh (QV x)) with (Z / 2) by (unfold Z; field).
  assert (AZ : Rabs (Z / 2) = Rabs Z / 2) by (unfold Rdiv; rewrite Rabs_mult, (Rabs_pos_eq (/ 2)) by lra; reflexivity). rewrite AZ.
  destruct bp_uu as (_ & _ & U3 & U4 & _ & _). assert (E85 : bp (-85) = 32 * bp (-90)) by exact (bp_split (-90) 5 ltac:(lia)). rewrite E85, U4 in *.
  assert (T1 := tri _ _ _ _ ES (Rle_refl _)). assert (T2 := tri2 _ _ _ _ ES (Rle_refl _)). assert (UC : 24 * (65536 * (u * u)) * Rabs Z <= / 1000000000 * Rabs Z) by (apply Rmult_le_compat_r; lra).
  assert (AS := QL_abs (456 * u) s ltac:(lra) ltac:(lra) LS).
  destruct (q_half_Ld (456 * u) s ltac:(lra) ltac:(lra) LS) as [LH EH].
  { apply Rle_trans with (bp (-5)); [apply bpow_le; lia|change (bp (-5)) with (/ 32); lra]. }
  { assert (K : 2 * bp 299 <= bp 1000) by (replace (2 * bp 299) with (bp 300) by exact (bp_split 299 1 ltac:(lia)); apply bpow_le; lia). lra. }
  split; [apply QL_mono with (2 := LH); lra|].
  assert (K : bp (-400) * Rabs (QV s) <= / 10000 * (u * u) * (2 * Rabs Z)) by (apply Rmult_le_compat; [apply bpow_ge_0|apply Rabs_pos|lra|lra]). assert (0 <= u * u * Rabs Z) by (apply Rmult_le_pos; lra).
  apply Rabs_def2' in EH, ES. apply Rabs_le. lra.
Qed.
Lemma q_tanh_ok lm dbg x : QGeoS x -> fgtb (q0 (q_abs x)) (dec 5 (-2)) = true -> 498 / 10000 <= Rabs (QV x) <= 60 -> exp_dom (QV x) ->
  exists r, q_tanh lm dbg x = Val r /\ QTame r /\ Rabs (QV r - tanh (QV x)) <= bp (-84) * Rabs (tanh (QV x)).
Proof.
  intros G BR [H0 H] D. destruct (nz_preQ x G (dom_nz _ D)) as (N1 & N2 & N3). unfold q_tanh, q_pre_tanh. rewrite N1, N2, N3, BR. cbv zeta.
  destruct (pair_sum x G ltac:(lra) D) as (LC & EC & K). destruct (K ltac:(lra)) as [LS ES]. clear K.
  set (s := q_sub (q_exp x) (q_recip (q_exp x))) in *. set (c := q_add (q_exp x) (q_recip (q_exp x))) in *.
  eexists. split; [reflexivity|]. destruct (big_cosh (QV x)) as (C1 & _ & C2). specialize (C2 H). assert (SL := sinh_low (QV x) ltac:(lra)).
  destruct (cosh_ge (QV x)) as (_ & _ & SC). assert (A2 : Rabs (2 * sinh (QV x)) = 2 * Rabs (sinh (QV x))) by (rewrite Rabs_mult, (Rabs_pos_eq 2) by lra; reflexivity).
  set (Z := 2 * sinh (QV x)) in *. set (C := 2 * cosh (QV x)) in *. replace (tanh (QV x)) with (Z / C) by (unfold Z, C, tanh; field; lra).
  destruct bp_uu as (_ & _ & _ & U4 & U5 & _). rewrite U4, U5 in *. assert (CP : 2 <= C) by (unfold C; lra). assert (ZC : Rabs Z <= C) by (unfold C; lra).
  assert (T1 := tri _ _ _ _ ES (Rle_refl _)). assert (T2 := tri2 _ _ _ _ ES (Rle_refl _)). assert (UZ : 24 * (65536 * (u * u)) * Rabs Z <= / 1000000000 * Rabs Z) by (apply Rmult_le_compat_r; lra).
  assert (UC : 65536 * (u * u) * C <= / 1000000000 * C) by (apply Rmult_le_compat_r; lra). assert (BC := Rabs_def2' _ _ EC).
  assert (AS := QL_abs (456 * u) s ltac:(lra) ltac:(lra) LS). assert (LC2 : QL (456 * u) c) by (apply QL_mono with (2 := LC); lra). assert (AC := QL_abs (456 * u) c ltac:(lra) ltac:(lra) LC2). rewrite (Rabs_pos_eq (QV c)) in AC by lra.
  assert (B5 : bp (-300) <= / 32) by (change (/ 32) with (bp (-5)); apply bpow_le; lia). assert (B90 : bp 90 = 4 * bp 88) by exact (bp_split 88 2 ltac:(lia)). assert (B30 : bp 90 <= bp 300) by (apply bpow_le; lia).
  destruct (q_div_L (456 * u) s c ltac:(lra) ltac:(lra) LS LC2 ltac:(lra) ltac:(lra) ltac:(lra) ltac:(lra)) as [LQ EQ].
  split; [apply L_tame with (2 := LQ); lra|]. set (Q := QV (q_div s c)) in *. set (S' := QV s) in *. set (Y := QV c) in *.
  assert (PY : 0 < Y) by lra. assert (PC : 0 < C) by lra.
  assert (DD : Rabs (S' / Y - Z / C) <= 1700000 * (u * u) * Rabs (Z / C)).
  { replace (S' / Y - Z / C) with (((S' - Z) - Z * (Y - C) / C) * / Y) by (field; lra). rewrite Rabs_mult, (Rabs_pos_eq (/ Y)) by (left; now apply Rinv_0_lt_compat).
    apply Rle_trans with ((24 * (65536 * (u * u)) * Rabs Z + 65536 * (u * u) * Rabs Z) * / Y).
    - apply Rmult_le_compat_r; [left; now apply Rinv_0_lt_compat|]. eapply Rle_trans; [apply Rabs_triang|]. rewrite Rabs_Ropp. apply Rplus_le_compat; [exact ES|].
      unfold Rdiv. rewrite !Rabs_mult, (Rabs_pos_eq (/ C)) by (left; now apply Rinv_0_lt_compat). apply Rle_trans with (Rabs Z * (65536 * (u * u) * C) * / C); [|right; field; lra].
      apply Rmult_le_compat_r; [left; now apply Rinv_0_lt_compat|]. apply Rmult_le_compat_l; [apply Rabs_pos|exact EC].
    - unfold Rdiv. rewrite Rabs_mult, (Rabs_pos_eq (/ C)) by (left; now apply Rinv_0_lt_compat). replace ((24 * (65536 * (u * u)) * Rabs Z + 65536 * (u * u) * Rabs Z) * / Y) with (u * u * Rabs Z * (1638400 * / Y)) by ring.
      replace (1700000 * (u * u) * (Rabs Z * / C)) with (u * u * Rabs Z * (1700000 * / C)) by ring. apply Rmult_le_compat_l; [apply Rmult_le_pos; [lra|apply Rabs_pos]|].
      apply Rmult_le_reg_r with (Y * C); [now apply Rmult_lt_0_compat|].
      replace (1638400 * / Y * (Y * C)) with (1638400 * C) by (field; lra). replace (1700000 * / C * (Y * C)) with (1700000 * Y) by (field; lra). lra. }
  set (z := Z / C) in *. assert (Pz := Rabs_pos z). assert (T5 := tri _ _ _ _ DD (Rle_refl _)).
  replace (Q - z) with ((Q - S' / Y) + (S' / Y - z)) by ring. eapply Rle_trans; [apply Rabs_triang|].
  set (a := Rabs (S' / Y)) in *. set (t := Rabs z) in *. clearbody a t.
  assert (U2 : u * u * a <= u * u * (101 / 100 * t)). { apply Rmult_le_compat_l; [lra|]. assert (1700000 * (u * u) * t <= / 1000 * t) by (apply Rmult_le_compat_r; lra). lra. }
  replace ((1024 * (u * (456 * u)) + 13000 * (u * u)) * a) with (479944 * (u * u * a)) in EQ by ring. assert (0 <= u * u * t) by (apply Rmult_le_pos; lra). lra.
Qed.
