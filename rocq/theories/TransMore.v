(** * More special values: the huge-argument panic of sin/cos, Quad powf and NaN *)
From Coq Require Import ZArith Reals Lra Lia List Bool.
From Flocq Require Import Core IEEE754.BinarySingleNaN.
From Verif Require Import RN F64 Prim DoubleM QuadM Spec F64Facts SpecialProofs OrderProofs DMulProofs Sim SymProofs LawProofs ParseM AlgM ConstM TransM TransProofs TrigProofs.
Import ListNotations.
Local Open Scope R_scope.

(** ** arguments whose reduction does not reduce *)
Definition D_HUGE : Double := mkD (f2pow 4504587281683481 150) f0.
Definition Q_HUGE : Quad := mkQ (f2pow 6004799503160661 250) f0 f0 f0.
Definition kof {A B C} (p : A * B * C) : B := let '(_, k, _) := p in k.
Lemma d_reduce_huge : kof (d_reduce D_HUGE) = (- 2147483648)%Z. Proof. vm_compute; reflexivity. Qed.
Lemma q_reduce_huge : kof (q_reduce Q_HUGE) = (- 2147483648)%Z. Proof. vm_compute; reflexivity. Qed.
Lemma d_sin_cos_panic lm dbg : d_sin lm dbg D_HUGE = Panicked /\ d_cos lm dbg D_HUGE = Panicked /\ d_sin_cos lm dbg D_HUGE = Panicked /\ d_tan lm dbg D_HUGE = Panicked.
Proof.
  assert (P : d_sin_cos lm dbg D_HUGE = Panicked).
  { unfold d_sin_cos. replace (d_pre_sin_cos D_HUGE) with (@None (Double * Double)) by (symmetry; unfold d_pre_sin_cos; bools).
    pose proof d_reduce_huge as K. destruct (d_reduce D_HUGE) as [[j k] t]. cbn in K. subst k.
    destruct (d_sincos_taylor lm dbg t) as [[s c]|]; [|reflexivity]. reflexivity. }
  split; [|split; [|split; [exact P|unfold d_tan; now rewrite P]]].
  - unfold d_sin. replace (d_pre_sin D_HUGE) with (@None Double) by (symmetry; unfold d_pre_sin; bools).
    pose proof d_reduce_huge as K. destruct (d_reduce D_HUGE) as [[j k] t]. cbn in K. subst k. reflexivity.
  - unfold d_cos. replace (d_pre_cos D_HUGE) with (@None Double) by (symmetry; unfold d_pre_cos; bools).
    pose proof d_reduce_huge as K. destruct (d_reduce D_HUGE) as [[j k] t]. cbn in K. subst k. reflexivity.
Qed.
Lemma q_sin_cos_panic lm dbg : q_sin lm dbg Q_HUGE = Panicked /\ q_cos lm dbg Q_HUGE = Panicked /\ q_sin_cos lm dbg Q_HUGE = Panicked /\ q_tan lm dbg Q_HUGE = Panicked.
Proof.
  assert (P : q_sin_cos lm dbg Q_HUGE = Panicked).
  { unfold q_sin_cos. replace (q_pre_sin_cos Q_HUGE) with (@None (Quad * Quad)) by (symmetry; unfold q_pre_sin_cos; bools).
    pose proof q_reduce_huge as K. destruct (q_reduce Q_HUGE) as [[j k] t]. cbn in K. subst k.
    destruct (q_sincos_taylor lm dbg t) as [[s c]|]; [|reflexivity]. reflexivity. }
  split; [|split; [|split; [exact P|unfold q_tan; now rewrite P]]].
  - unfold q_sin. replace (q_pre_sin Q_HUGE) with (@None Quad) by (symmetry; unfold q_pre_sin; bools).
    pose proof q_reduce_huge as K. destruct (q_reduce Q_HUGE) as [[j k] t]. cbn in K. subst k. reflexivity.
  - unfold q_cos. replace (q_pre_cos Q_HUGE) with (@None Quad) by (symmetry; unfold q_pre_cos; bools).
    pose proof q_reduce_huge as K. destruct (q_reduce Q_HUGE) as [[j k] t]. cbn in K. subst k. reflexivity.
Qed.
(** every panic-free reduction is one with |k| at most 4 (Quad: 256), whatever else happens *)
Lemma q_powf_special lm dbg :
  (forall s s' b c d b' c' d', q_powf lm dbg (mkQ (B754_zero s) b c d) (mkQ (B754_zero s') b' c' d') = Val Q_NAN) /\
  (forall s b c d n, q_is_zero n = false -> q_powf lm dbg (mkQ (B754_zero s) b c d) n =
     Val (if q_is_sign_negative n then Q_INFINITY else Q_ZERO)) /\
  (forall x, q_is_zero x = false -> q_is_sign_negative x = true -> forall n, q_is_infinite n = false -> q_powf lm dbg x n = Val Q_NAN) /\
  (forall b c d n, q_is_infinite n = false -> q_powf lm dbg (mkQ fnan b c d) n = Val Q_NAN) /\
  (forall s b c d, q_powf lm dbg Q_ONE (mkQ (B754_infinity s) b c d) = Val Q_NAN) /\
  (forall x, q_is_zero x = false -> q_eq x Q_ONE = false -> forall s b c d, q_powf lm dbg x (mkQ (B754_infinity s) b c d) = Val (if s then Q_ZERO else Q_INFINITY)).
Proof.
  destruct (q_ln_special lm dbg) as [LN [LS [LO [LI L1]]]].
  assert (NM : forall n, q_exp (q_mul n Q_NAN) = Q_NAN).
  { intros n. rewrite q_mul_special.
    - replace (fmul (q0 n) (q0 Q_NAN)) with fnan by now destruct (q0 n) as [[]|[]| |[]]. apply q_exp_special.
    - left. now rewrite andb_false_r. }
  split; [|split; [|split; [|split; [|split]]]].
  - intros [] [] b c d b' c' d'; reflexivity.
  - intros s b c d n H. unfold q_powf, q_pre_powf. replace (q_is_zero _) with true by now destruct s.
    rewrite H. unfold q_is_sign_positive, fsign_pos, q_is_sign_negative, fsign_neg. now destruct (Bsign (q0 n)).
  - intros x Z' S n I. unfold q_powf, q_pre_powf. rewrite Z', I, (LS x S). cbn [obind]. now rewrite NM.
  - intros b c d n I. unfold q_powf, q_pre_powf. rewrite I. change (q_is_zero (mkQ fnan b c d)) with false. cbv iota. rewrite LN. cbn [obind]. now rewrite NM.
  - intros [] b c d; reflexivity.
  - intros x Z' E s b c d. unfold q_powf, q_pre_powf. rewrite Z', E. now destruct s.
Qed.
Lemma q_atan2_nan lm dbg y x : q_is_nan y || q_is_nan x = true -> q_is_zero x = false -> q_is_zero y = false ->
  q_is_infinite y = false -> q_is_infinite x = false -> q_atan2 lm dbg y x = Val Q_NAN.
Proof. intros N Zx Zy Iy Ix. apply q_atan2_pre. unfold q_pre_atan2. now rewrite Zx, Zy, Iy, Ix, N. Qed.
Lemma q_nan_lost lm dbg b c d :
  q_atan2 lm dbg (mkQ fnan b c d) Q_ZERO = Val Q_FRAC_PI_2 /\ q_atan2 lm dbg Q_ZERO (mkQ fnan b c d) = Val Q_ZERO /\
  q_atan2 lm dbg (mkQ fnan b c d) Q_NEG_INFINITY = Val Q_ZERO /\
  q_powf lm dbg Q_ZERO (mkQ fnan b c d) = Val Q_ZERO /\ q_powf lm dbg (mkQ fnan b c d) Q_INFINITY = Val Q_INFINITY.
Proof. repeat split; reflexivity. Qed.
Definition Q_NANS : Quad := mkQ fnan fnan fnan fnan.
Lemma q_sqr_nan b c d : q_sqr (mkQ fnan b c d) = Q_NANS.
Proof. destruct b, c, d; vm_compute; reflexivity. Qed.
Lemma q_sub_nan_r x b c d : q_sub x (mkQ fnan b c d) = Q_NAN.
Proof. unfold q_sub. unfold q_add, q_pre_add. change (q_is_nan (q_neg (mkQ fnan b c d))) with true. now rewrite orb_true_r. Qed.
Lemma q_add_nan_r x b c d : q_add x (mkQ fnan b c d) = Q_NAN.
Proof. unfold q_add, q_pre_add. change (q_is_nan (mkQ fnan b c d)) with true. now rewrite orb_true_r. Qed.
Lemma q_sqrt_nan lm dbg : q_sqrt lm dbg Q_NAN = Val Q_NAN.
Proof.
  unfold q_sqrt. change (q_pre_sqrt Q_NAN) with (@None Quad). cbv iota.
  change (q_from_f64 lm dbg (fsqrt (q0 Q_NAN))) with (@Val Quad Q_NAN). cbn [obind]. vm_compute; reflexivity.
Qed.
Lemma q_nan_out lm dbg b c d : let x := mkQ fnan b c d in
  q_exp x = Q_NAN /\ q_ln lm dbg x = Val Q_NAN /\ q_log10 lm dbg x = Val Q_NAN /\ q_log2 lm dbg x = Val Q_NAN /\
  q_sin lm dbg x = Val Q_NAN /\ q_cos lm dbg x = Val Q_NAN /\ q_tan lm dbg x = Val Q_NAN /\
  q_asin lm dbg x = Val Q_NAN /\ q_acos lm dbg x = Val Q_NAN /\ q_atan lm dbg x = Val Q_NAN /\
  q_sinh lm dbg x = Val Q_NAN /\ q_cosh x = Q_NAN /\ q_tanh lm dbg x = Val Q_NAN /\
  q_asinh lm dbg x = Val Q_NAN /\ q_acosh lm dbg x = Val Q_NAN /\ q_atanh lm dbg x = Val Q_NAN.
Proof.
  intros x.
  assert (T := proj1 (q_trig_special lm dbg) x eq_refl). destruct T as [T1 [T2 [T3 _]]].
  destruct (proj1 (q_hyper_special lm dbg) b c d) as [H1 [H2 [H3 _]]].
  destruct (proj1 (proj2 (q_log_special lm dbg)) b c d) as [L1 L2].
  split; [apply q_exp_special|]. split; [apply (proj1 (q_ln_special lm dbg))|].
  split; [exact L1|]. split; [exact L2|]. split; [exact T1|]. split; [exact T2|]. split; [exact T3|].
  split; [|split; [|split; [|split; [exact H1|split; [exact H2|split; [exact H3|split; [|split]]]]]]].
  - unfold q_asin. change (q_pre_asin x) with (@None Quad). cbv iota. unfold x; rewrite q_sqr_nan; fold x; change (q_sub Q_ONE Q_NANS) with Q_NAN.
    rewrite q_sqrt_nan. cbn [obind]. now apply q_atan2_nan.
  - unfold q_acos. change (q_pre_acos x) with (@None Quad). cbv iota. unfold x; rewrite q_sqr_nan; fold x; change (q_sub Q_ONE Q_NANS) with Q_NAN.
    rewrite q_sqrt_nan. cbn [obind]. now apply q_atan2_nan.
  - unfold q_atan. now apply q_atan2_nan.
  - unfold q_asinh. change (q_pre_asinh x) with (@None Quad). cbv iota. unfold x; rewrite q_sqr_nan; fold x; change (q_add Q_NANS Q_ONE) with Q_NAN.
    rewrite q_sqrt_nan. cbn [obind]. change (q_add x Q_NAN) with Q_NAN. reflexivity.
  - unfold q_acosh. change (q_pre_acosh x) with (@None Quad). cbv iota. unfold x; rewrite q_sqr_nan; fold x; change (q_sub Q_NANS Q_ONE) with Q_NAN.
    rewrite q_sqrt_nan. cbn [obind]. change (q_add x Q_NAN) with Q_NAN. reflexivity.
  - unfold q_atanh. change (q_pre_atanh x) with (@None Quad). cbv iota. unfold x. rewrite q_add_nan_r, q_sub_nan_r.
    vm_compute; reflexivity.
Qed.
