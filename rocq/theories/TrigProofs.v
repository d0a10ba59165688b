(** * Special values of trigonometric and hyperbolic functions *)
From Coq Require Import ZArith Reals Lra Lia List Bool.
From Flocq Require Import Core IEEE754.BinarySingleNaN.
From Verif Require Import RN F64 Prim DoubleM QuadM Spec F64Facts SpecialProofs OrderProofs DMulProofs Sim SymProofs LawProofs ParseM AlgM ConstM TransM TransProofs.
Import ListNotations.
Local Open Scope R_scope.

Lemma nonfin_cases (a : f64) : is_finite a = false -> feqb a f0 = false.
Proof. now destruct a as [|[]| |]. Qed.
Lemma d_trig_special lm dbg :
  (forall x, d_is_finite x = false ->
     d_sin lm dbg x = Val D_NAN /\ d_cos lm dbg x = Val D_NAN /\ d_tan lm dbg x = Val D_NAN /\
     d_sin_cos lm dbg x = Val (D_NAN, D_NAN)) /\
  (forall s l, d_sin lm dbg (mkD (B754_zero s) l) = Val (mkD (B754_zero s) l) /\
     d_cos lm dbg (mkD (B754_zero s) l) = Val D_ONE /\
     d_tan lm dbg (mkD (B754_zero s) l) = Val (d_div D_ZERO D_ONE) /\
     d_sin_cos lm dbg (mkD (B754_zero s) l) = Val (D_ZERO, D_ONE)).
Proof.
  split.
  - intros x H. assert (Z' : d_is_zero x = false) by (apply nonfin_cases, H).
    unfold d_tan, d_sin, d_pre_sin, d_cos, d_pre_cos, d_sin_cos, d_pre_sin_cos. rewrite Z', H. cbn [negb].
    split; [reflexivity|]. split; [reflexivity|]. split; [vm_compute; reflexivity|reflexivity].
  - intros [] l; repeat split; reflexivity.
Qed.
Lemma q_trig_special lm dbg :
  (forall x, q_is_finite x = false ->
     q_sin lm dbg x = Val Q_NAN /\ q_cos lm dbg x = Val Q_NAN /\ q_tan lm dbg x = Val Q_NAN /\
     q_sin_cos lm dbg x = Val (Q_NAN, Q_NAN)) /\
  (forall s b c d, q_sin lm dbg (mkQ (B754_zero s) b c d) = Val Q_ZERO /\
     q_cos lm dbg (mkQ (B754_zero s) b c d) = Val Q_ONE /\
     q_tan lm dbg (mkQ (B754_zero s) b c d) = Val (q_div Q_ZERO Q_ONE) /\
     q_sin_cos lm dbg (mkQ (B754_zero s) b c d) = Val (Q_ZERO, Q_ONE)).
Proof.
  split.
  - intros x H. assert (Z' : q_is_zero x = false) by (apply nonfin_cases, H).
    unfold q_tan, q_sin, q_pre_sin, q_cos, q_pre_cos, q_sin_cos, q_pre_sin_cos. rewrite Z', H. cbn [negb].
    split; [reflexivity|]. split; [reflexivity|]. split; [vm_compute; reflexivity|reflexivity].
  - intros [] b c d; repeat split; reflexivity.
Qed.

(** ** atan2 *)
Definition D_sgn_pi2 (s : bool) : Double := if s then d_neg D_FRAC_PI_2 else D_FRAC_PI_2.
Lemma d_atan2_pre lm dbg y x r : d_pre_atan2 y x = Some r -> d_atan2 lm dbg y x = Val r.
Proof. unfold d_atan2. now intros ->. Qed.
Lemma q_atan2_pre lm dbg y x r : q_pre_atan2 y x = Some r -> q_atan2 lm dbg y x = Val r.
Proof. unfold q_atan2. now intros ->. Qed.
Lemma feqb_fneg_diff (a : f64) : is_finite a = true -> feqb a f0 = false -> feqb a (fneg a) = false.
Proof.
  intros F H. destruct a as [s|s| |s m e h]; try easy.
  destruct (fneg_ok (B754_finite s m e h) F) as [F' E].
  rewrite feqb_ok by auto. rewrite E. assert (V (B754_finite s m e h) <> 0).
  { unfold V, B2R. intros K. apply eq_0_F2R in K. now destruct s. }
  unfold Req_bool. destruct (Rcompare_spec (V (B754_finite s m e h)) (- V (B754_finite s m e h))); auto; lra.
Qed.

Lemma d_atan2_special lm dbg :
  (* on the vertical axis: +-pi/2; at the origin NaN *)
  (forall s l y, d_atan2 lm dbg y (mkD (B754_zero s) l) =
     Val (if d_is_zero y then D_NAN else if d_is_sign_negative y then d_neg D_FRAC_PI_2 else D_FRAC_PI_2)) /\
  (* on the horizontal axis: 0 or pi *)
  (forall s l x, d_is_zero x = false -> d_atan2 lm dbg (mkD (B754_zero s) l) x =
     Val (if d_is_sign_negative x then D_PI else D_ZERO)) /\
  (* infinite ordinate, finite abscissa: +-pi/2 *)
  (forall s l x, d_is_zero x = false -> d_is_infinite x = false ->
     d_atan2 lm dbg (mkD (B754_infinity s) l) x = Val (if s then d_neg D_FRAC_PI_2 else D_FRAC_PI_2)) /\
  (* both infinite: NaN *)
  (forall s s' l l', d_atan2 lm dbg (mkD (B754_infinity s) l) (mkD (B754_infinity s') l') = Val D_NAN) /\
  (* finite ordinate, infinite abscissa *)
  (forall s l y, d_is_zero y = false -> d_is_infinite y = false -> d_atan2 lm dbg y (mkD (B754_infinity s) l) = Val D_ZERO) /\
  (* diagonals *)
  (forall x, d_is_finite x = true -> d_is_zero x = false -> d_eq x x = true ->
     d_atan2 lm dbg x x = Val (if d_is_sign_negative x then d_neg D_FRAC_3_PI_4 else D_FRAC_PI_4) /\
     d_atan2 lm dbg x (d_neg x) = Val (if d_is_sign_negative x then d_neg D_FRAC_PI_4 else D_FRAC_3_PI_4)).
Proof.
  split; [|split; [|split; [|split; [|split]]]].
  - intros s l y. apply d_atan2_pre. unfold d_pre_atan2. replace (d_is_zero (mkD (B754_zero s) l)) with true by now destruct s.
    unfold d_is_sign_positive, fsign_pos, d_is_sign_negative, fsign_neg. now destruct (d_is_zero y), (Bsign (d0 y)).
  - intros s l x H. apply d_atan2_pre. unfold d_pre_atan2. rewrite H. replace (d_is_zero (mkD (B754_zero s) l)) with true by now destruct s.
    unfold d_is_sign_positive, fsign_pos, d_is_sign_negative, fsign_neg. now destruct (Bsign (d0 x)).
  - intros s l x H I. apply d_atan2_pre. unfold d_pre_atan2. rewrite H, I. now destruct s.
  - intros [] [] l l'; reflexivity.
  - intros s l y H I. apply d_atan2_pre. unfold d_pre_atan2. rewrite H, I. now destruct s.
  - intros x F Z' E.
    assert (I : d_is_infinite x = false) by (unfold d_is_infinite, d_is_finite in *; now destruct (d0 x)).
    assert (N : d_is_nan x = false) by (unfold d_is_nan, d_is_finite in *; now destruct (d0 x)).
    assert (ZN : d_is_zero (d_neg x) = false) by (unfold d_is_zero, d_neg in *; cbn [d0]; destruct (d0 x) as [[]|[]| |[]]; easy).
    assert (IN : d_is_infinite (d_neg x) = false) by (unfold d_is_infinite, d_is_finite in *; cbn [d_neg d0]; now destruct (d0 x)).
    assert (NN : d_is_nan (d_neg x) = false) by (unfold d_is_nan, d_is_finite in *; cbn [d_neg d0]; now destruct (d0 x)).
    assert (NE : d_eq x (d_neg x) = false).
    { unfold d_eq. cbn [d_neg d0 d1]. rewrite feqb_fneg_diff; auto. }
    assert (NNE : d_eq x (d_neg (d_neg x)) = true).
    { replace (d_neg (d_neg x)) with x; auto. destruct x as [a b]. unfold d_neg; cbn. now rewrite !Bopp_involutive || (f_equal; destruct a, b; cbn; rewrite ?negb_involutive; reflexivity). }
    split; apply d_atan2_pre; unfold d_pre_atan2.
    + rewrite Z', I, N, E. cbn [orb]. unfold d_is_sign_positive, fsign_pos, d_is_sign_negative, fsign_neg. now destruct (Bsign (d0 x)).
    + rewrite ZN, Z', I, IN, N, NN, NE, NNE. cbn [orb]. unfold d_is_sign_positive, fsign_pos, d_is_sign_negative, fsign_neg. now destruct (Bsign (d0 x)).
Qed.
Lemma q_atan2_special lm dbg :
  (forall s b c d y, q_atan2 lm dbg y (mkQ (B754_zero s) b c d) =
     Val (if q_is_zero y then Q_NAN else if q_is_sign_negative y then q_neg Q_FRAC_PI_2 else Q_FRAC_PI_2)) /\
  (forall s b c d x, q_is_zero x = false -> q_atan2 lm dbg (mkQ (B754_zero s) b c d) x =
     Val (if q_is_sign_negative x then Q_PI else Q_ZERO)) /\
  (forall s b c d x, q_is_zero x = false -> q_is_infinite x = false ->
     q_atan2 lm dbg (mkQ (B754_infinity s) b c d) x = Val (if s then q_neg Q_FRAC_PI_2 else Q_FRAC_PI_2)) /\
  (forall s s' b c d b' c' d', q_atan2 lm dbg (mkQ (B754_infinity s) b c d) (mkQ (B754_infinity s') b' c' d') = Val Q_NAN) /\
  (forall s b c d y, q_is_zero y = false -> q_is_infinite y = false -> q_atan2 lm dbg y (mkQ (B754_infinity s) b c d) = Val Q_ZERO) /\
  (forall x, q_is_finite x = true -> q_is_zero x = false -> q_eq x x = true ->
     q_atan2 lm dbg x x = Val (if q_is_sign_negative x then q_neg Q_FRAC_3_PI_4 else Q_FRAC_PI_4) /\
     q_atan2 lm dbg x (q_neg x) = Val (if q_is_sign_negative x then q_neg Q_FRAC_PI_4 else Q_FRAC_3_PI_4)).
Proof.
  split; [|split; [|split; [|split; [|split]]]].
  - intros s b c d y. apply q_atan2_pre. unfold q_pre_atan2. replace (q_is_zero (mkQ (B754_zero s) b c d)) with true by now destruct s.
    unfold q_is_sign_positive, fsign_pos, q_is_sign_negative, fsign_neg. now destruct (q_is_zero y), (Bsign (q0 y)).
  - intros s b c d x H. apply q_atan2_pre. unfold q_pre_atan2. rewrite H. replace (q_is_zero (mkQ (B754_zero s) b c d)) with true by now destruct s.
    unfold q_is_sign_positive, fsign_pos, q_is_sign_negative, fsign_neg. now destruct (Bsign (q0 x)).
  - intros s b c d x H I. apply q_atan2_pre. unfold q_pre_atan2. rewrite H, I. now destruct s.
  - intros [] [] b c d b' c' d'; reflexivity.
  - intros s b c d y H I. apply q_atan2_pre. unfold q_pre_atan2. rewrite H, I. now destruct s.
  - intros x F Z' E.
    assert (I : q_is_infinite x = false) by (unfold q_is_infinite, q_is_finite in *; now destruct (q0 x)).
    assert (N : q_is_nan x = false) by (unfold q_is_nan, q_is_finite in *; now destruct (q0 x)).
    assert (ZN : q_is_zero (q_neg x) = false) by (unfold q_is_zero, q_neg in *; cbn [q0]; destruct (q0 x) as [[]|[]| |[]]; easy).
    assert (IN : q_is_infinite (q_neg x) = false) by (unfold q_is_infinite, q_is_finite in *; cbn [q_neg q0]; now destruct (q0 x)).
    assert (NN : q_is_nan (q_neg x) = false) by (unfold q_is_nan, q_is_finite in *; cbn [q_neg q0]; now destruct (q0 x)).
    assert (NE : q_eq x (q_neg x) = false).
    { unfold q_eq. cbn [q_neg q0 q1 q2 q3]. rewrite feqb_fneg_diff; auto. }
    assert (NNE : q_eq x (q_neg (q_neg x)) = true).
    { replace (q_neg (q_neg x)) with x; auto. destruct x as [a b c d]. unfold q_neg, fneg; cbn. now rewrite !Bopp_involutive. }
    split; apply q_atan2_pre; unfold q_pre_atan2.
    + rewrite Z', I, N, E. cbn [orb]. unfold q_is_sign_positive, fsign_pos, q_is_sign_negative, fsign_neg. now destruct (Bsign (q0 x)).
    + rewrite ZN, Z', I, IN, N, NN, NE, NNE. cbn [orb]. unfold q_is_sign_positive, fsign_pos, q_is_sign_negative, fsign_neg. now destruct (Bsign (q0 x)).
Qed.

(** ** inverse functions: domains *)
Lemma DNorm_one : DNorm D_ONE. Proof. split; [split; [apply Fin_1|reflexivity]|]. unfold DV, D_ONE; cbn [d0 d1]. rewrite V_0, Rplus_0_r. symmetry. apply (rn_id _ (V_fmt f1)). Qed.
Lemma DV_one : DV D_ONE = 1. Proof. unfold DV, D_ONE; cbn [d0 d1]. rewrite V_0, V_1. ring. Qed.
Lemma QNorm_one : QNorm Q_ONE.
Proof.
  assert (Z0 : RN 0 = 0) by apply round_0, valid_rnd_N.
  assert (O1 : RN 1 = 1) by (rewrite <- V_1 at 1; rewrite <- V_1; apply (rn_id _ (V_fmt f1))).
  unfold QNorm, QFin, QV, Q_ONE; cbn [q0 q1 q2 q3]. rewrite !V_0, V_1, !Rplus_0_r, Z0, O1. repeat split.
Qed.
Lemma QV_one : QV Q_ONE = 1. Proof. unfold QV, Q_ONE; cbn [q0 q1 q2 q3]. rewrite !V_0, V_1. ring. Qed.
Lemma d_abs_gt x : DNorm x -> d_gt (d_abs x) D_ONE = Rlt_bool 1 (Rabs (DV x)) /\ d_ge (d_abs x) D_ONE = Rle_bool 1 (Rabs (DV x)).
Proof.
  intros N. assert (NN : fis_nan (d0 x) = false) by (apply fin_not_nan, N).
  destruct (d_abs_ok x NN) as [_ [_ [_ A]]]. destruct (A N) as [NA VA].
  destruct (d_ord_ok (d_abs x) D_ONE NA DNorm_one) as [_ [_ [_ [_ [G E]]]]]. rewrite VA, DV_one in *. split.
  - destruct (d_gt (d_abs x) D_ONE), (Rlt_bool_spec 1 (Rabs (DV x))); auto; exfalso.
    + assert (Rabs (DV x) > 1) by now apply G. lra.
    + assert (false = true) by (apply G; lra). discriminate.
  - destruct (d_ge (d_abs x) D_ONE), (Rle_bool_spec 1 (Rabs (DV x))); auto; exfalso.
    + assert (Rabs (DV x) >= 1) by now apply E. lra.
    + assert (false = true) by (apply E; lra). discriminate.
Qed.
Lemma q_abs_gt x : QNorm x -> q_gt (q_abs x) Q_ONE = Rlt_bool 1 (Rabs (QV x)) /\ q_ge (q_abs x) Q_ONE = Rle_bool 1 (Rabs (QV x)).
Proof.
  intros N. assert (NN : fis_nan (q0 x) = false) by (apply fin_not_nan, N).
  destruct (q_abs_ok x NN) as [_ [_ [_ A]]]. destruct (A N) as [NA VA].
  destruct (q_ord_ok (q_abs x) Q_ONE NA QNorm_one) as [_ [_ [_ [_ [G E]]]]]. rewrite VA, QV_one in *. split.
  - destruct (q_gt (q_abs x) Q_ONE), (Rlt_bool_spec 1 (Rabs (QV x))); auto; exfalso.
    + assert (Rabs (QV x) > 1) by now apply G. lra.
    + assert (false = true) by (apply G; lra). discriminate.
  - destruct (q_ge (q_abs x) Q_ONE), (Rle_bool_spec 1 (Rabs (QV x))); auto; exfalso.
    + assert (Rabs (QV x) >= 1) by now apply E. lra.
    + assert (false = true) by (apply E; lra). discriminate.
Qed.

Lemma d_inv_domain lm dbg :
  (forall x, DNorm x -> 1 < Rabs (DV x) -> d_asin lm dbg x = Val D_NAN /\ d_acos lm dbg x = Val D_NAN) /\
  (forall s l, d_asin lm dbg (mkD (B754_infinity s) l) = Val D_NAN /\ d_acos lm dbg (mkD (B754_infinity s) l) = Val D_NAN /\
     d_atanh lm dbg (mkD (B754_infinity s) l) = Val D_NAN) /\
  d_asin lm dbg D_ONE = Val D_FRAC_PI_2 /\ d_asin lm dbg D_NEG_ONE = Val (d_neg D_FRAC_PI_2) /\
  d_acos lm dbg D_ONE = Val D_ZERO /\ d_acos lm dbg D_NEG_ONE = Val D_PI /\
  (forall x, DNorm x -> DV x < 1 -> d_acosh lm dbg x = Val D_NAN) /\ d_acosh lm dbg D_ONE = Val D_ZERO /\
  (forall l, d_acosh lm dbg (mkD finf l) = Val D_INFINITY) /\ (forall l, d_acosh lm dbg (mkD fninf l) = Val D_NAN) /\
  (forall x, DNorm x -> 1 <= Rabs (DV x) -> d_atanh lm dbg x = Val D_NAN).
Proof.
  split; [|split; [|split; [|split; [|split; [|split; [|split; [|split; [|split; [|split]]]]]]]]].
  - intros x N H. destruct (d_abs_gt x N) as [G _]. unfold d_asin, d_acos, d_pre_asin, d_pre_acos.
    rewrite G, Rlt_bool_true by auto. split; reflexivity.
  - intros [] l; repeat split; reflexivity.
  - unfold d_asin. replace (d_pre_asin D_ONE) with (Some D_FRAC_PI_2); [reflexivity|]. unfold d_pre_asin. symmetry. bools.
  - unfold d_asin. replace (d_pre_asin D_NEG_ONE) with (Some (d_neg D_FRAC_PI_2)); [reflexivity|]. unfold d_pre_asin. symmetry. bools.
  - unfold d_acos. replace (d_pre_acos D_ONE) with (Some D_ZERO); [reflexivity|]. unfold d_pre_acos. symmetry. bools.
  - unfold d_acos. replace (d_pre_acos D_NEG_ONE) with (Some D_PI); [reflexivity|]. unfold d_pre_acos. symmetry. bools.
  - intros x N H. destruct (d_ord_ok x D_ONE N DNorm_one) as [_ [_ [L _]]]. rewrite DV_one in L.
    unfold d_acosh, d_pre_acosh. now rewrite (proj2 L H).
  - reflexivity.
  - reflexivity.
  - reflexivity.
  - intros x N H. destruct (d_abs_gt x N) as [_ G]. unfold d_atanh, d_pre_atanh. now rewrite G, Rle_bool_true.
Qed.
Lemma q_inv_domain lm dbg :
  (forall x, QNorm x -> 1 < Rabs (QV x) -> q_asin lm dbg x = Val Q_NAN /\ q_acos lm dbg x = Val Q_NAN) /\
  (forall s b c d, q_asin lm dbg (mkQ (B754_infinity s) b c d) = Val Q_NAN /\ q_acos lm dbg (mkQ (B754_infinity s) b c d) = Val Q_NAN /\
     q_atanh lm dbg (mkQ (B754_infinity s) b c d) = Val Q_NAN) /\
  q_asin lm dbg Q_ONE = Val Q_FRAC_PI_2 /\ q_asin lm dbg Q_NEG_ONE = Val (q_neg Q_FRAC_PI_2) /\
  q_acos lm dbg Q_ONE = Val Q_ZERO /\ q_acos lm dbg Q_NEG_ONE = Val Q_PI /\
  (forall x, QNorm x -> QV x < 1 -> q_acosh lm dbg x = Val Q_NAN) /\ q_acosh lm dbg Q_ONE = Val Q_ZERO /\
  (forall b c d, q_acosh lm dbg (mkQ finf b c d) = Val Q_INFINITY) /\ (forall b c d, q_acosh lm dbg (mkQ fninf b c d) = Val Q_NAN) /\
  (forall x, QNorm x -> 1 <= Rabs (QV x) -> q_atanh lm dbg x = Val Q_NAN).
Proof.
  split; [|split; [|split; [|split; [|split; [|split; [|split; [|split; [|split; [|split]]]]]]]]].
  - intros x N H. destruct (q_abs_gt x N) as [G _]. unfold q_asin, q_acos, q_pre_asin, q_pre_acos.
    rewrite G, Rlt_bool_true by auto. split; reflexivity.
  - intros [] b c d; repeat split; reflexivity.
  - unfold q_asin. replace (q_pre_asin Q_ONE) with (Some Q_FRAC_PI_2); [reflexivity|]. unfold q_pre_asin. symmetry. bools.
  - unfold q_asin. replace (q_pre_asin Q_NEG_ONE) with (Some (q_neg Q_FRAC_PI_2)); [reflexivity|]. unfold q_pre_asin. symmetry. bools.
  - unfold q_acos. replace (q_pre_acos Q_ONE) with (Some Q_ZERO); [reflexivity|]. unfold q_pre_acos. symmetry. bools.
  - unfold q_acos. replace (q_pre_acos Q_NEG_ONE) with (Some Q_PI); [reflexivity|]. unfold q_pre_acos. symmetry. bools.
  - intros x N H. destruct (q_ord_ok x Q_ONE N QNorm_one) as [_ [_ [L _]]]. rewrite QV_one in L.
    unfold q_acosh, q_pre_acosh. now rewrite (proj2 L H).
  - vm_compute; reflexivity.
  - reflexivity.
  - reflexivity.
  - intros x N H. destruct (q_abs_gt x N) as [_ G]. unfold q_atanh, q_pre_atanh. now rewrite G, Rle_bool_true.
Qed.

(** ** hyperbolic functions *)
Lemma d_hyper_special lm dbg :
  (forall l, d_sinh lm dbg (mkD fnan l) = Val D_NAN /\ d_cosh (mkD fnan l) = D_NAN /\ d_tanh lm dbg (mkD fnan l) = Val D_NAN /\
     d_sinh_cosh lm dbg (mkD fnan l) = Val (D_NAN, D_NAN)) /\
  (forall s l, d_sinh lm dbg (mkD (B754_zero s) l) = Val (mkD (B754_zero s) l) /\ d_cosh (mkD (B754_zero s) l) = D_ONE /\
     d_tanh lm dbg (mkD (B754_zero s) l) = Val D_ZERO /\ d_asinh lm dbg (mkD (B754_zero s) l) = Val (mkD (B754_zero s) l) /\
     d_sinh_cosh lm dbg (mkD (B754_zero s) l) = Val (D_ZERO, D_ONE)) /\
  (forall s l, d_sinh lm dbg (mkD (B754_infinity s) l) = Val (mkD (B754_infinity s) l) /\ d_cosh (mkD (B754_infinity s) l) = D_INFINITY /\
     d_tanh lm dbg (mkD (B754_infinity s) l) = Val (if s then D_NEG_ONE else D_ONE) /\
     d_asinh lm dbg (mkD (B754_infinity s) l) = Val (mkD (B754_infinity s) f0)).
Proof.
  split; [|split].
  - intros l; repeat split; reflexivity.
  - intros [] l; repeat split; reflexivity.
  - intros [] l; repeat split; reflexivity.
Qed.
Lemma q_hyper_special lm dbg :
  (forall b c d, q_sinh lm dbg (mkQ fnan b c d) = Val Q_NAN /\ q_cosh (mkQ fnan b c d) = Q_NAN /\ q_tanh lm dbg (mkQ fnan b c d) = Val Q_NAN /\
     q_sinh_cosh lm dbg (mkQ fnan b c d) = Val (Q_NAN, Q_NAN)) /\
  (forall s b c d, q_sinh lm dbg (mkQ (B754_zero s) b c d) = Val Q_ZERO /\ q_cosh (mkQ (B754_zero s) b c d) = Q_ONE /\
     q_tanh lm dbg (mkQ (B754_zero s) b c d) = Val Q_ZERO /\
     q_sinh_cosh lm dbg (mkQ (B754_zero s) b c d) = Val (Q_ZERO, Q_ONE)) /\
  (forall s b c d, q_sinh lm dbg (mkQ (B754_infinity s) b c d) = Val (mkQ (B754_infinity s) f0 f0 f0) /\ q_cosh (mkQ (B754_infinity s) b c d) = Q_INFINITY /\
     q_tanh lm dbg (mkQ (B754_infinity s) b c d) = Val (if s then Q_NEG_ONE else Q_ONE) /\
     q_asinh lm dbg (mkQ (B754_infinity s) b c d) = Val (mkQ (B754_infinity s) f0 f0 f0)).
Proof.
  destruct q_exp_special as [_ [_ [EP [EN _]]]].
  split; [|split].
  - intros b c d; repeat split; reflexivity.
  - intros [] b c d; repeat split; reflexivity.
  - assert (G : forall s b c d, fgtb (q0 (q_abs (mkQ (B754_infinity s) b c d))) (dec 5 (-2)) = true) by (intros [] b c d; vm_compute; reflexivity).
    intros s b c d. split; [|split; [|split]].
    + unfold q_sinh. replace (q_pre_sinh _) with (@None Quad) by now destruct s. cbv iota. rewrite G.
      destruct s; [rewrite EN|rewrite EP]; vm_compute; reflexivity.
    + unfold q_cosh. replace (q_pre_cosh _) with (@None Quad) by now destruct s. cbn [from_pre].
      destruct s; [rewrite EN|rewrite EP]; vm_compute; reflexivity.
    + now destruct s.
    + now destruct s.
Qed.

(** ** NaN in, NaN out *)
Lemma d_sqr_nan l : exists e, d_sqr (mkD fnan l) = mkD fnan e.
Proof. eexists. unfold d_sqr. cbn. reflexivity. Qed.
Lemma d_sub_nan_r x e : d_sub x (mkD fnan e) = D_NAN.
Proof. unfold d_sub, d_pre_sub. change (d_is_nan (mkD fnan e)) with true. now rewrite orb_true_r. Qed.
Lemma d_add_nan_r x e : d_add x (mkD fnan e) = D_NAN.
Proof. unfold d_add, d_pre_add. change (d_is_nan (mkD fnan e)) with true. now rewrite orb_true_r. Qed.
Lemma d_sub_nan_l x e : d_sub (mkD fnan e) x = D_NAN. Proof. reflexivity. Qed.
Lemma d_add_nan_l x e : d_add (mkD fnan e) x = D_NAN. Proof. reflexivity. Qed.
Lemma d_sqrt_nan lm dbg e : d_sqrt lm dbg (mkD fnan e) = Val D_NAN.
Proof.
  unfold d_sqrt. change (d_pre_sqrt (mkD fnan e)) with (@None Double). cbv iota.
  change (d_from_f64 lm dbg (fdiv f1 (fsqrt (d0 (mkD fnan e))))) with (@Val Double D_NAN). cbn [obind].
  reflexivity.
Qed.
Lemma d_atan2_nan lm dbg y x : d_is_nan y || d_is_nan x = true -> d_is_zero x = false -> d_is_zero y = false ->
  d_is_infinite y = false -> d_is_infinite x = false -> d_atan2 lm dbg y x = Val D_NAN.
Proof. intros N Zx Zy Iy Ix. apply d_atan2_pre. unfold d_pre_atan2. now rewrite Zx, Zy, Iy, Ix, N. Qed.
Lemma d_nan_out lm dbg l :
  d_sqrt lm dbg (mkD fnan l) = Val D_NAN /\ d_exp (mkD fnan l) = D_NAN /\ d_ln lm dbg (mkD fnan l) = Val D_NAN /\
  d_log10 lm dbg (mkD fnan l) = Val D_NAN /\ d_log2 lm dbg (mkD fnan l) = Val D_NAN /\
  d_sin lm dbg (mkD fnan l) = Val D_NAN /\ d_cos lm dbg (mkD fnan l) = Val D_NAN /\ d_tan lm dbg (mkD fnan l) = Val D_NAN /\
  d_asin lm dbg (mkD fnan l) = Val D_NAN /\ d_acos lm dbg (mkD fnan l) = Val D_NAN /\ d_atan lm dbg (mkD fnan l) = Val D_NAN /\
  d_sinh lm dbg (mkD fnan l) = Val D_NAN /\ d_cosh (mkD fnan l) = D_NAN /\ d_tanh lm dbg (mkD fnan l) = Val D_NAN /\
  d_asinh lm dbg (mkD fnan l) = Val D_NAN /\ d_acosh lm dbg (mkD fnan l) = Val D_NAN /\ d_atanh lm dbg (mkD fnan l) = Val D_NAN.
Proof.
  destruct (d_sqr_nan l) as [e Sq].
  assert (T := proj1 (d_trig_special lm dbg) (mkD fnan l) eq_refl). destruct T as [T1 [T2 [T3 _]]].
  destruct (proj1 (d_hyper_special lm dbg) l) as [H1 [H2 [H3 _]]].
  destruct (proj1 (proj2 (d_log_special lm dbg)) l) as [L1 L2].
  split; [apply d_sqrt_nan|]. split; [apply d_exp_special|]. split; [apply (proj1 (d_ln_special lm dbg))|].
  split; [exact L1|]. split; [exact L2|]. split; [exact T1|]. split; [exact T2|]. split; [exact T3|].
  split; [|split; [|split; [|split; [exact H1|split; [exact H2|split; [exact H3|split; [|split]]]]]]].
  - unfold d_asin. change (d_pre_asin (mkD fnan l)) with (@None Double). cbv iota. rewrite Sq, d_sub_nan_r.
    unfold D_NAN at 1. rewrite d_sqrt_nan. cbn [obind]. now apply d_atan2_nan.
  - unfold d_acos. change (d_pre_acos (mkD fnan l)) with (@None Double). cbv iota. rewrite Sq, d_sub_nan_r.
    unfold D_NAN at 1. rewrite d_sqrt_nan. cbn [obind]. now apply d_atan2_nan.
  - unfold d_atan. now apply d_atan2_nan.
  - unfold d_asinh. change (d_pre_asinh (mkD fnan l)) with (@None Double). cbv iota. rewrite Sq, d_add_nan_l.
    unfold D_NAN at 1. rewrite d_sqrt_nan. cbn [obind]. change (d_add (mkD fnan l) D_NAN) with D_NAN. reflexivity.
  - unfold d_acosh. change (d_pre_acosh (mkD fnan l)) with (@None Double). cbv iota. rewrite Sq, d_sub_nan_l.
    unfold D_NAN at 1. rewrite d_sqrt_nan. cbn [obind]. change (d_add (mkD fnan l) D_NAN) with D_NAN. reflexivity.
  - unfold d_atanh. change (d_pre_atanh (mkD fnan l)) with (@None Double). cbv iota. rewrite d_add_nan_r, d_sub_nan_r.
    vm_compute; reflexivity.
Qed.
(** atan2 and powf do not propagate NaN *)
Lemma d_nan_lost lm dbg l :
  d_atan2 lm dbg (mkD fnan l) D_ZERO = Val D_FRAC_PI_2 /\ d_atan2 lm dbg D_ZERO (mkD fnan l) = Val D_ZERO /\
  d_atan2 lm dbg (mkD fnan l) D_NEG_INFINITY = Val D_ZERO /\
  d_powf lm dbg D_ZERO (mkD fnan l) = Val D_ZERO /\ d_powf lm dbg (mkD fnan l) D_INFINITY = Val D_INFINITY.
Proof. repeat split; reflexivity. Qed.
