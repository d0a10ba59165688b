(** * Quad square root: conversion of the starting value, halving, accuracy *)
From Coq Require Import ZArith Reals List Bool Lia Lra.
From Flocq Require Import Core IEEE754.BinarySingleNaN.
From Verif Require Import F64 F64Facts Prim DoubleM QuadM AlgM RN Spec EFT SpecialProofs ExactProofs QExactProofs LawProofs QuadSpec QAddAcc QAddThms QMulAcc QMulThms QGeoAcc QGeoMul QSqrAcc QLoose QLDiv QLOps
  QPowProofs FoldThms ExprProofs ParseM ParseSpec ParseProofs ParseThms ParseNum DDivProofs DAddProofs DMulProofs FromProofs QExprSpec QParse SqrtProofs OrderProofs QLSqrt QLRoot LdexpProofs TransProofs.
Import ListNotations.
Local Open Scope R_scope.

(** halving: exact on the leading component, within the subnormal grain on the others *)
Lemma q_half_L a : QL (32 * u) a -> bp (-600) <= Rabs (V (q0 a)) -> Rabs (V (q0 a)) <= bp 1000 ->
  QL (32 * u) (q_mul_pwr2 a fhalf) /\ Rabs (QV (q_mul_pwr2 a fhalf) - QV a / 2) <= 3 * bp (-1075).
Proof.
  intros (F & A1 & A2 & A3) L U. destruct fhalf_V as [Fh Vh]. unfold q_mul_pwr2. destruct F as (F0 & F1 & F2 & F3).
  assert (P6 := bpow_gt_0 radix2 (-600)).
  assert (AH : forall x, Rabs (x / 2) = Rabs x / 2) by (intros x; unfold Rdiv; rewrite Rabs_mult, (Rabs_pos_eq (/ 2)) by lra; reflexivity).
  assert (B2 : bp (-1021) = 2 * bp (-1022)) by exact (bp_split (-1022) 1 ltac:(lia)).
  assert (B3 : bp (-1021) <= bp (-600)) by (apply bpow_le; lia). assert (B24 : bp 1000 < bp 1024) by (apply bpow_lt; lia).
  assert (P22 := bpow_gt_0 radix2 (-1022)).
  assert (H0 : rn (V (q0 a) / 2) = V (q0 a) / 2).
  { rewrite <- bm1. rewrite rn_scale; [now rewrite (rn_id _ (V_fmt _))|lra|]. rewrite bm1, AH. lra. }
  assert (HX : forall x, fmt x -> Rabs (rn (x / 2) - x / 2) <= bp (-1075)).
  { intros x Fx. destruct (Rle_or_lt (bp (-1021)) (Rabs x)) as [G|G].
    - rewrite <- bm1. rewrite rn_scale; [|lra|rewrite bm1, AH; lra]. rewrite (rn_id _ Fx), Rminus_diag_eq, Rabs_R0 by reflexivity. apply bpow_ge_0.
    - apply sub_err. rewrite AH. lra. }
  assert (FM : forall c B, Fin c -> fmt (B / 2) -> Rabs (V c) <= B -> B <= bp 1000 -> Fin (fmul c fhalf) /\ V (fmul c fhalf) = rn (V c / 2) /\ Rabs (V (fmul c fhalf)) <= B / 2).
  { intros c B Fc FB HB HB2. assert (K : Rabs (rn (V c / 2)) <= B / 2) by (apply rn_abs_le; [exact FB|rewrite AH; lra]).
    assert (Pc := Rabs_pos (V c)).
    destruct (fmul_ok c fhalf Fc Fh) as [Fa [Va _]]; [rewrite Vh; change (V c * / 2) with (V c / 2); lra|].
    rewrite Vh in Va. change (V c * / 2) with (V c / 2) in Va. rewrite Va. auto. }
  assert (FB0 : fmt (Rabs (V (q0 a)) / 2)).
  { rewrite <- AH. unfold Rabs. destruct Rcase_abs; [apply fmt_opp|]; rewrite <- H0; apply rn_fmt. }
  assert (P0 := Rabs_pos (V (q0 a))).
  assert (FB1 : fmt (32 * u * Rabs (V (q0 a)) / 2)).
  { assert (E : 32 * u * Rabs (V (q0 a)) / 2 = Rabs (V (q0 a)) * bp (-49)).
    { change (bp (-49)) with (/ 562949953421312). field. }
    rewrite E. rewrite <- (rn_id (Rabs (V (q0 a)))) by (unfold Rabs; destruct Rcase_abs; [apply fmt_opp|]; apply V_fmt).
    assert (B22 : bp (-1022) <= bp (-649)) by (apply bpow_le; lia). assert (B64 : bp (-600) * bp (-49) = bp (-649)) by (rewrite <- bpow_plus; reflexivity).
    assert (P49 := bpow_gt_0 radix2 (-49)).
    rewrite <- rn_scale; [apply rn_fmt|rewrite Rabs_Rabsolu; lra|]. rewrite Rabs_mult, Rabs_Rabsolu, (Rabs_pos_eq (bp (-49))) by lra.
    apply Rle_trans with (bp (-600) * bp (-49)); [lra|]. apply Rmult_le_compat_r; lra. }
  destruct (FM (q0 a) _ F0 FB0 (Rle_refl _) U) as (G0 & W0 & _). rewrite H0 in W0.
  destruct (FM (q1 a) _ F1 FB1 A1 ltac:(lra)) as (G1 & W1 & K1).
  destruct (FM (q2 a) _ F2 FB1 A2 ltac:(lra)) as (G2 & W2 & K2).
  destruct (FM (q3 a) _ F3 FB1 A3 ltac:(lra)) as (G3 & W3 & K3).
  split.
  - split; [unfold QFin; cbn [q0 q1 q2 q3]; auto|]. cbn [q0 q1 q2 q3]. rewrite W0, AH. lra.
  - unfold QV. cbn [q0 q1 q2 q3]. rewrite W0, W1, W2, W3.
    assert (E1 := HX _ (V_fmt (q1 a))). assert (E2 := HX _ (V_fmt (q2 a))). assert (E3 := HX _ (V_fmt (q3 a))).
    apply Rabs_le_inv in E1, E2, E3. apply Rabs_le. lra.
Qed.

Lemma dec_val_ge l : Forall (fun d => (0 <= d <= 9)%Z) l -> sig_digits l <> 0%nat -> (10 ^ (Z.of_nat (sig_digits l) - 1) <= dec_val l)%Z.
Proof.
  induction 1 as [|c t Hc Ht IH]; [intros G; now elim G|]. cbn [sig_digits]. destruct (Z.eqb_spec c 0) as [->|N].
  - rewrite QParse.dec_val_cons. intros G. specialize (IH G). lia.
  - intros _. rewrite QParse.dec_val_cons. assert (B := dec_val_lt t Ht). cbn [length].
    replace (Z.of_nat (S (length t)) - 1)%Z with (Z.of_nat (length t)) by lia.
    assert (1 * 10 ^ Z.of_nat (length t) <= c * 10 ^ Z.of_nat (length t))%Z by (apply Z.mul_le_mono_nonneg_r; lia). lia.
Qed.

(** a finite f64 of ordinary size converts without panicking, to within its own half-ulp *)
Lemma q_from_f64_ok lm dbg a : printer lm -> Fin a -> bp (-100) <= Rabs (V a) ->
  exists r, q_from_f64 lm dbg a = Val r /\ QL (4 * u) r /\ Rabs (QV r - V a) <= 2 * u * Rabs (V a).
Proof.
  intros PO F LA. assert (P500 := bpow_gt_0 radix2 (-100)).
  assert (NZ : V a <> 0) by (intros E; rewrite E, Rabs_R0 in LA; lra).
  unfold q_from_f64.
  replace (feqb a f0) with false by (symmetry; rewrite feqb_ok by easy; apply Req_bool_false; exact NZ).
  replace (fis_nan a) with false by (symmetry; now apply fin_not_nan).
  replace (fis_infinite a) with false by (symmetry; now destruct a).
  destruct (is_dyadic_val lm a PO F) as [b [-> Hb]]. cbn [obind]. destruct b.
  { exists (mkQ a f0 f0 f0). split; [reflexivity|]. destruct (single_geo a F) as [N E]. split; [apply QL_geo, N|].
    rewrite E, Rminus_diag_eq, Rabs_R0 by reflexivity. assert (K := Rabs_pos (V a)). lra. }
  destruct (PO a F) as [(m & Nu & Sh & D17 & E) _]. { intros z Ez. discriminate (Hb (ex_intro _ z Ez)). } fold (sgn_of m) in E.
  assert (D0 : (0 <= dec_val (digs m))%Z) by apply dec_digs_nonneg.
  assert (F0 : (0 <= frac m)%Z) by (unfold frac; lia).
  assert (PT : (0 < 10 ^ frac m)%Z) by (apply Z.pow_pos_nonneg; lia). assert (PT' := IZR_lt _ _ PT).
  set (X := IZR (sgn_of m * dec_val (digs m)) / IZR (10 ^ frac m)) in *.
  assert (AX : Rabs X = IZR (dec_val (digs m)) / IZR (10 ^ frac m)).
  { unfold X, Rdiv. rewrite Rabs_mult, (Rabs_pos_eq (/ _)) by (left; now apply Rinv_0_lt_compat). f_equal.
    rewrite <- abs_IZR, Z.abs_mul. replace (Z.abs (sgn_of m)) with 1%Z by (unfold sgn_of; now destruct (negative m)). f_equal. lia. }
  assert (LX : bp (-101) < Rabs X).
  { apply Rnot_le_lt. intros G. change (RN X) with (rn X) in E.
    assert (K : Rabs (rn X) <= bp (-101)) by (apply rn_abs_le; [apply fmt_bpow; lia|exact G]). rewrite E in K.
    assert (bp (-101) < bp (-100)) by (apply bpow_lt; lia). lra. }
  assert (FR : (frac m <= 48)%Z).
  { apply Z.le_ngt. intros G. 
    assert (T : (10 ^ 17 * 2 ^ 101 <= 10 ^ frac m)%Z).
    { apply Z.le_trans with (10 ^ 48)%Z; [vm_compute; discriminate|]. apply Z.pow_le_mono_r; lia. }
    apply IZR_le in T. rewrite mult_IZR in T. apply IZR_le in D17.
    assert (B5 : IZR (2 ^ 101) * bp (-101) = 1).
    { change (2 ^ 101)%Z with (radix2 ^ 101)%Z. rewrite IZR_Zpower, <- bpow_plus by lia. reflexivity. }
    assert (P5 := bpow_gt_0 radix2 (-101)). rewrite AX in LX.
    assert (LX2 : bp (-101) * IZR (10 ^ frac m) < IZR (dec_val (digs m))).
    { replace (IZR (dec_val (digs m))) with (IZR (dec_val (digs m)) / IZR (10 ^ frac m) * IZR (10 ^ frac m)) by (field; lra). apply Rmult_lt_compat_r; lra. }
    assert (bp (-101) * (IZR (10 ^ 17) * IZR (2 ^ 101)) <= bp (-101) * IZR (10 ^ frac m)) by (apply Rmult_le_compat_l; lra).
    replace (bp (-101) * (IZR (10 ^ 17) * IZR (2 ^ 101))) with (IZR (10 ^ 17) * (IZR (2 ^ 101) * bp (-101))) in H by ring. rewrite B5 in H. lra. }
  assert (SD : (sig_digits (digs m) <= 18)%nat).
  { destruct (Nat.eq_dec (sig_digits (digs m)) 0) as [->|N]; [lia|]. assert (K := dec_val_ge (digs m) (digs_nonneg m) N).
    destruct (Nat.le_gt_cases (sig_digits (digs m)) 18) as [G|G]; [exact G|exfalso].
    assert (10 ^ 18 <= 10 ^ (Z.of_nat (sig_digits (digs m)) - 1))%Z by (apply Z.pow_le_mono_r; lia). lia. }
  assert (EX : q_lit m 0 = X). { unfold q_lit. rewrite p10_neg by exact F0. reflexivity. }
  assert (PX := Rabs_pos X).
  assert (K : exists r, from_str q_ops dbg (lm_to_string lm a) = Val (POk r) /\ QL (4 * u) r /\ Rabs (QV r - X) <= / 1000 * u * Rabs X).
  { destruct (Z.eq_dec (frac m) 0) as [Z|NZ0].
    - destruct (q_parse_pos dbg (lm_to_string lm a) m 0 Sh Nu ltac:(lia) ltac:(lia)) as (r & K1 & K2 & K3).
      exists r. split; [exact K1|]. split; [apply QL_geo, K2|]. rewrite EX in K3. eapply Rle_trans; [exact K3|]. apply Rmult_le_compat_r; [exact PX|].
      assert (INR (2 * sig_digits (digs m) + 2) <= INR 38) by (apply le_INR; lia). assert (J : INR 38 = 38) by (rewrite INR_IZR_INZ; reflexivity).
      change (bp (-137)) with (/ 174224571863520493293247799005065324265472). lra.
    - destruct (q_parse_neg dbg (lm_to_string lm a) m 0 Sh Nu ltac:(lia) ltac:(lia)) as (r & K1 & K2 & K3).
      exists r. split; [exact K1|]. split; [exact K2|]. rewrite EX in K3. eapply Rle_trans; [exact K3|]. apply Rmult_le_compat_r; [exact PX|].
      change (bp (-87)) with (/ 154742504910672534362390528). lra. }
  destruct K as (r & K1 & K2 & K4). rewrite K1. cbn [obind unwrap]. exists r. split; [reflexivity|]. split; [exact K2|].
  assert (K5 : Rabs (rn X - X) <= u * Rabs X).
  { apply rn_rel. apply Rle_trans with (bp (-101)); [apply bpow_le; lia|lra]. }
  change (rn X) with (RN X) in K5. rewrite E in K5.
  assert (XA : Rabs X <= (1 + 2 * u) * Rabs (V a)).
  { assert (K := Rabs_triang_inv X (V a)). rewrite (Rabs_minus_sym X) in K. lra. }
  replace (QV r - V a) with ((QV r - X) - (V a - X)) by ring.
  eapply Rle_trans; [apply Rabs_triang|]. rewrite Rabs_Ropp. lra.
Qed.

Lemma q_pre_sqrt_none a : Fin (q0 a) -> 0 < V (q0 a) -> q_pre_sqrt a = None.
Proof.
  intros F P. assert (K := d_pre_sqrt_none (mkD (q0 a) f0) F P). unfold d_pre_sqrt, d_is_zero, d_is_sign_negative, d_is_infinite in K. cbn [d0 d1] in K.
  unfold q_pre_sqrt, q_is_zero, q_is_sign_negative, q_is_infinite.
  destruct (feqb (q0 a) f0); [discriminate K|]. destruct (fsign_neg (q0 a)); [discriminate K|]. destruct (fis_infinite (q0 a)); [discriminate K|reflexivity].
Qed.

Lemma q_sqrt_L lm dbg a : printer lm -> QL (32 * u) a -> 0 < QV a -> bp (-91) <= QV a <= bp 91 ->
  exists r, q_sqrt lm dbg a = Val r /\ QL (4 * u) r /\ Rabs (QV r - sqrt (QV a)) <= bp (-89) * sqrt (QV a).
Proof.
  intros PR La PA BA. assert (Aa := QL_abs (32 * u) a ltac:(lra) ltac:(lra) La). assert (Va := QL_val (32 * u) a ltac:(lra) La).
  set (A := QV a) in *. set (a0 := V (q0 a)) in *. rewrite (Rabs_pos_eq A) in Aa by lra.
  assert (P0 : 0 < a0).
  { assert (K := Rabs_pos a0). apply Rabs_le_inv in Va. destruct (Rle_or_lt a0 0) as [G|G]; [|exact G]. exfalso.
    assert (Rabs a0 = - a0) by (apply Rabs_left1; exact G). lra. }
  rewrite (Rabs_pos_eq a0) in Aa, Va by lra.
  assert (Fa := proj1 (proj1 La)). unfold q_sqrt. rewrite q_pre_sqrt_none by assumption.
  destruct (fsqrt_ok (q0 a) Fa ltac:(fold a0; lra)) as [Ft Vt]. fold a0 in Vt.
  set (rho := sqrt A). assert (Pr : 0 < rho) by now apply sqrt_lt_R0. assert (EA : A = rho * rho) by (symmetry; apply sqrt_sqrt; lra).
  set (s := sqrt a0) in *. assert (Ps : 0 < s) by now apply sqrt_lt_R0. assert (Es : s * s = a0) by (apply sqrt_sqrt; lra).
  assert (C1 : Rabs (a0 - A) <= 97 * u * A). { apply Rabs_le_inv in Va. apply Rabs_le. lra. }
  assert (C2 : Rabs (s - rho) <= 49 * u * rho).
  { apply Rabs_le_inv in C1. apply Rabs_le. split; apply Rnot_lt_le; intros K.
    - assert (s * s < ((1 - 49 * u) * rho) * ((1 - 49 * u) * rho)) by (apply Rmult_le_0_lt_compat; lra).
      replace ((1 - 49 * u) * rho * ((1 - 49 * u) * rho)) with ((1 - 98 * u + 2401 * u * u) * A) in H by (rewrite EA; ring).
      assert ((1 - 98 * u + 2401 * u * u) * A <= (1 - 97 * u) * A) by (apply Rmult_le_compat_r; lra). lra.
    - assert (((1 + 49 * u) * rho) * ((1 + 49 * u) * rho) < s * s) by (apply Rmult_le_0_lt_compat; lra).
      replace ((1 + 49 * u) * rho * ((1 + 49 * u) * rho)) with ((1 + 98 * u + 2401 * u * u) * A) in H by (rewrite EA; ring).
      assert ((1 + 97 * u) * A <= (1 + 98 * u + 2401 * u * u) * A) by (apply Rmult_le_compat_r; lra). lra. }
  assert (RB : bp (-46) <= rho <= bp 46).
  { assert (G1 : bp (-92) <= bp (-91)) by (apply bpow_le; lia). assert (G2 : bp 91 <= bp 92) by (apply bpow_le; lia).
    split; apply Rnot_lt_le; intros K.
    - assert (rho * rho < bp (-46) * bp (-46)) by (apply Rmult_le_0_lt_compat; lra). rewrite <- bpow_plus in H. change (-46 + -46)%Z with (-92)%Z in H. lra.
    - assert (P := bpow_gt_0 radix2 46). assert (bp 46 * bp 46 < rho * rho) by (apply Rmult_le_0_lt_compat; lra). rewrite <- bpow_plus in H. change (46 + 46)%Z with 92%Z in H. lra. }
  assert (G0 : bp (-46) = 2 * bp (-47)) by exact (bp_split (-47) 1 ltac:(lia)). assert (P47 := bpow_gt_0 radix2 (-47)).
  assert (G0' : bp (-47) = 2 * bp (-48)) by exact (bp_split (-48) 1 ltac:(lia)). assert (P48 := bpow_gt_0 radix2 (-48)).
  assert (C3 : Rabs (rn s - s) <= u * s).
  { assert (Q := rn_rel s). rewrite (Rabs_pos_eq s) in Q by lra. apply Q. apply Rle_trans with (bp (-47)); [apply bpow_le; lia|]. apply Rabs_le_inv in C2. lra. }
  set (t := fsqrt (q0 a)) in *. rewrite <- Vt in C3.
  assert (C4 : Rabs (V t - rho) <= 5001 / 100 * u * rho). { apply Rabs_le_inv in C2, C3. apply Rabs_le. lra. }
  assert (Pt : bp (-47) <= V t) by (apply Rabs_le_inv in C4; lra).
  destruct (q_from_f64_ok lm dbg t PR Ft) as (y & Ky & Ly & Ey).
  { rewrite Rabs_pos_eq by lra. apply Rle_trans with (bp (-47)); [apply bpow_le; lia|exact Pt]. }
  rewrite Ky. cbn [obind]. rewrite (Rabs_pos_eq (V t)) in Ey by lra.
  assert (C5 : Rabs (QV y - rho) <= 53 * u * rho). { apply Rabs_le_inv in C4, Ey. apply Rabs_le. lra. }
  assert (Py : bp (-48) <= QV y). { apply Rabs_le_inv in C5. lra. }
  destruct (q_recip_ok y Ly) as [Lr Er].
  { rewrite Rabs_pos_eq by lra. split; [apply Rle_trans with (bp (-48)); [apply bpow_le; lia|exact Py]|].
    apply Rle_trans with (2 * bp 46); [apply Rabs_le_inv in C5; lra|]. change 2 with (bp 1). rewrite <- bpow_plus. apply bpow_le; lia. }
  change (q_div Q_ONE y) with (q_recip y). set (r := q_recip y) in *. clearbody r.
  assert (E1 : Rabs (QV r * QV y - 1) <= bp (-91)).
  { replace (QV r * QV y - 1) with ((QV r - / QV y) * QV y) by (field; lra). rewrite Rabs_mult.
    apply Rle_trans with (bp (-91) * Rabs (/ QV y) * Rabs (QV y)); [apply Rmult_le_compat_r; [apply Rabs_pos|exact Er]|].
    rewrite Rmult_assoc, <- Rabs_mult, Rinv_l, Rabs_R1 by lra. lra. }
  change (bp (-91)) with (/ 2475880078570760549798248448) in E1.
  assert (PRr : 0 < QV r).
  { destruct (Rle_or_lt (QV r) 0) as [G|G]; [|exact G]. exfalso. assert (QV r * QV y <= 0 * QV y) by (apply Rmult_le_compat_r; lra). apply Rabs_le_inv in E1. lra. }
  assert (E2 : Rabs (QV r * rho - 1) <= 64 * u).
  { set (g := QV r * rho) in *. assert (Pg : 0 < g) by (apply Rmult_lt_0_compat; assumption).
    assert (J : Rabs (QV r * QV y - g) <= 53 * u * g).
    { replace (QV r * QV y - g) with (QV r * (QV y - rho)) by (unfold g; ring). rewrite Rabs_mult, (Rabs_pos_eq (QV r)) by lra.
      apply Rle_trans with (QV r * (53 * u * rho)); [apply Rmult_le_compat_l; lra|]. unfold g. lra. }
    apply Rabs_le_inv in J, E1. apply Rabs_le. lra. }
  assert (A0B : bp (-600) <= Rabs a0 /\ Rabs a0 <= bp 490).
  { rewrite Rabs_pos_eq by lra. assert (J1 : bp (-91) = 2 * bp (-92)) by exact (bp_split (-92) 1 ltac:(lia)). assert (J2 : bp 92 = 2 * bp 91) by exact (bp_split 91 1 ltac:(lia)).
    assert (bp (-600) <= bp (-92)) by (apply bpow_le; lia). assert (bp 92 <= bp 490) by (apply bpow_le; lia). assert (K := bpow_gt_0 radix2 (-92)). lra. }
  assert (B490 : bp 490 <= bp 1000) by (apply bpow_le; lia).
  destruct (q_half_L a La) as [Lh Eh]; [fold a0; lra|fold a0; lra|]. fold A in Eh.
  set (h := q_mul_pwr2 a fhalf) in *. clearbody h.
  assert (Eh' : Rabs (QV h - A / 2) <= u * u * A).
  { eapply Rle_trans; [exact Eh|]. apply Rle_trans with (u * u * bp (-91)).
    - apply Rle_trans with (bp 2 * bp (-1075)); [change (bp 2) with 4; assert (K := bpow_gt_0 radix2 (-1075)); lra|]. rewrite <- !u_bp, <- !bpow_plus. apply bpow_le; lia.
    - apply Rmult_le_compat_l; lra. }
  assert (BA' : bp (-92) <= A <= bp 92). { assert (G1 : bp (-92) <= bp (-91)) by (apply bpow_le; lia). assert (G2 : bp 91 <= bp 92) by (apply bpow_le; lia). lra. }
  destruct (q_sqrt_step_ok h r A rho Lh Pr EA BA' Eh' (QL_mono (4 * u) (18 * u) r ltac:(lra) Lr) E2) as [L1 S1].
  set (r1 := q_sqrt_step h (mkQ fhalf f0 f0 f0) r) in *. clearbody r1.
  destruct (q_sqrt_step_ok h r1 A rho Lh Pr EA BA' Eh' L1 ltac:(lra)) as [L2 S2].
  set (r2 := q_sqrt_step h (mkQ fhalf f0 f0 f0) r1) in *. clearbody r2.
  destruct (q_sqrt_step_ok h r2 A rho Lh Pr EA BA' Eh' L2 ltac:(lra)) as [L3 S3].
  set (r3 := q_sqrt_step h (mkQ fhalf f0 f0 f0) r2) in *. clearbody r3.
  assert (A3 := QL_abs (18 * u) r3 ltac:(lra) ltac:(lra) L3).
  assert (E3 := Rabs_le_inv _ _ S3).
  assert (PR3 : 0 < QV r3). { apply Rmult_lt_reg_r with rho; lra. }
  rewrite (Rabs_pos_eq (QV r3)) in A3 by lra.
  assert (R3H : QV r3 <= bp 47).
  { assert (K : QV r3 * bp (-46) <= 2) by (apply Rle_trans with (QV r3 * rho); [apply Rmult_le_compat_l; lra|lra]).
    assert (K2 : bp 47 * bp (-46) = 2) by (rewrite <- bpow_plus; reflexivity). apply Rmult_le_reg_r with (bp (-46)); [apply bpow_gt_0|lra]. }
  assert (R3L : bp (-47) <= QV r3).
  { assert (P46 := bpow_gt_0 radix2 46). assert (K : / 2 <= QV r3 * bp 46) by (apply Rle_trans with (QV r3 * rho); [lra|apply Rmult_le_compat_l; lra]).
    assert (K2 : bp (-47) * bp 46 = / 2) by (rewrite <- bpow_plus; reflexivity). apply Rmult_le_reg_r with (bp 46); [exact P46|lra]. }
  destruct (q_mul_L (32 * u) r3 a) as [Lm Em]; [lra|lra|apply QL_mono with (18 * u); [lra|exact L3]|exact La| |fold a0; lra| |].
  { assert (bp 48 = 2 * bp 47) by exact (bp_split 47 1 ltac:(lia)). assert (bp 48 <= bp 490) by (apply bpow_le; lia). assert (K := bpow_gt_0 radix2 47). lra. }
  { apply Rle_trans with (bp (-48) * bp (-92)); [rewrite <- bpow_plus; apply bpow_le; lia|]. fold a0. rewrite (Rabs_pos_eq a0) by lra.
    assert (J1 : bp (-91) = 2 * bp (-92)) by exact (bp_split (-92) 1 ltac:(lia)). assert (K := bpow_gt_0 radix2 (-92)).
    apply Rmult_le_compat; lra. }
  fold A in Em. exists (q_mul r3 a). split; [reflexivity|]. split; [exact Lm|].
  set (p := QV r3 * A) in *.
  assert (J : Rabs (p - rho) <= 80000 * (u * u) * rho).
  { replace (p - rho) with ((QV r3 * rho - 1) * rho) by (unfold p; rewrite EA; ring). rewrite Rabs_mult, (Rabs_pos_eq rho) by lra. apply Rmult_le_compat_r; lra. }
  assert (J2 : Rabs p <= (1 + / 1000000) * rho). { apply Rabs_le_inv in J. apply Rabs_le. lra. }
  replace (1280 * (u * (32 * u)) + 5 * (32 * u * (32 * u))) with (46080 * (u * u)) in Em by ring.
  assert (J3 : 46080 * (u * u) * Rabs p <= 46080 * (u * u) * ((1 + / 1000000) * rho)) by (apply Rmult_le_compat_l; lra).
  change (bp (-89)) with (/ 618970019642690137449562112). apply Rabs_le_inv in J. assert (Em2 : Rabs (QV (q_mul r3 a) - p) <= 46080 * (u * u) * ((1 + / 1000000) * rho)) by lra.
  apply Rabs_le_inv in Em2. apply Rabs_le. lra.
Qed.
