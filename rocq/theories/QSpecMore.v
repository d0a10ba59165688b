(** * Quad: square root of a NaN, one to a finite power *)
From Coq Require Import ZArith Reals Lra Lia List Bool.
From Flocq Require Import Core IEEE754.BinarySingleNaN.
From Verif Require Import RN F64 Prim DoubleM QuadM Spec F64Facts SpecialProofs ParseM AlgM ConstM TransM.
Local Open Scope R_scope.

Lemma q_sqrt_nan_any lm dbg b c d : q_sqrt lm dbg (mkQ fnan b c d) = Val Q_NAN.
Proof.
  unfold q_sqrt. change (q_pre_sqrt (mkQ fnan b c d)) with (@None Quad). cbv iota.
  change (q_from_f64 lm dbg (fsqrt (q0 (mkQ fnan b c d)))) with (@Val Quad Q_NAN). cbn [obind].
  assert (E : q_div Q_ONE Q_NAN = Q_NAN) by reflexivity. rewrite E. clear E.
  set (h := q_mul_pwr2 (mkQ fnan b c d) fhalf).
  assert (N : q_is_nan h = true) by reflexivity.
  assert (M : forall x y, q_is_nan x = true -> q_mul x y = Q_NAN).
  { intros x y H. unfold q_mul, q_pre_mul. rewrite H. reflexivity. }
  assert (A : forall y, q_add Q_NAN y = Q_NAN) by (intros y; unfold q_add, q_pre_add; reflexivity).
  assert (St : forall k, q_sqrt_step h k Q_NAN = Q_NAN) by (intros k; apply A).
  rewrite !St. rewrite M by reflexivity. reflexivity.
Qed.

Definition isz (a : f64) : Prop := exists s, a = B754_zero s.
Lemma isz_add a b : isz a -> isz b -> isz (fadd a b).
Proof. intros [s ->] [t ->]. destruct s, t; [exists true|exists false|exists false|exists false]; reflexivity. Qed.
Lemma isz_sub a b : isz a -> isz b -> isz (fsub a b).
Proof. intros [s ->] [t ->]. destruct s, t; [exists false|exists true|exists false|exists false]; reflexivity. Qed.
Lemma isz_mul_r a b : Fin a -> isz b -> isz (fmul a b).
Proof. intros F [t ->]. destruct a as [s| | |s m e P]; try discriminate F; exists (xorb s t); reflexivity. Qed.

Lemma isz_fma a b c : Fin a -> isz b -> isz c -> isz (fma a b c).
Proof.
  intros F [t ->] [r ->]. unfold isz. destruct a as [s| | |s m e P]; try discriminate F; destruct s, t, r;
    solve [exists true; reflexivity|exists false; reflexivity].
Qed.
Lemma isz_neg a : isz a -> isz (fneg a).
Proof. intros [s ->]. exists (negb s). reflexivity. Qed.
Definition isz2 (p : f64 * f64) : Prop := isz (fst p) /\ isz (snd p).
Definition isz3 (p : f64 * f64 * f64) : Prop := isz2 (fst p) /\ isz (snd p).
Local Hint Resolve isz_add isz_sub isz_mul_r isz_neg isz_fma : isz.
Lemma z_two_sum a b : isz a -> isz b -> isz2 (two_sum a b).
Proof. intros. unfold two_sum. split; cbn [fst snd]; auto 8 with isz. Qed.
Lemma z_quick a b : isz a -> isz b -> isz2 (quick_two_sum a b).
Proof. intros. unfold quick_two_sum. split; cbn [fst snd]; auto 8 with isz. Qed.
Lemma z_two_prod a b : Fin a -> isz b -> isz2 (two_prod a b).
Proof. intros. unfold two_prod. split; cbn [fst snd]; auto 8 with isz. Qed.
Lemma isz_fne0 a : isz a -> fne0 a = false.
Proof. intros [s ->]. destruct s; reflexivity. Qed.
Ltac zt := match goal with
  | |- context [two_sum ?a ?b] => let H := fresh in assert (H := z_two_sum a b ltac:(auto with isz) ltac:(auto with isz)); destruct (two_sum a b); destruct H; cbn [fst snd] in *
  | |- context [quick_two_sum ?a ?b] => let H := fresh in assert (H := z_quick a b ltac:(auto with isz) ltac:(auto with isz)); destruct (quick_two_sum a b); destruct H; cbn [fst snd] in *
  end.
Lemma z_33 a b c : isz a -> isz b -> isz c -> isz3 (three_three_sum a b c).
Proof. intros. unfold three_three_sum. repeat zt. split; [split|]; cbn [fst snd]; auto with isz. Qed.
Lemma z_63 a b c d e f : isz a -> isz b -> isz c -> isz d -> isz e -> isz f -> isz3 (six_three_sum a b c d e f).
Proof.
  intros A B C D E F. unfold six_three_sum. destruct (z_33 a b c A B C) as [[P1 P2] P3]. destruct (z_33 d e f D E F) as [[Q1 Q2] Q3].
  destruct (three_three_sum a b c) as [[p0 p1] p2], (three_three_sum d e f) as [[r0 r1] r2]. cbn [fst snd] in *.
  repeat zt. split; [split|]; cbn [fst snd]; auto 8 with isz.
Qed.
Lemma z_42 a b c d : isz a -> isz b -> isz c -> isz d -> isz2 (four_two_sum a b c d).
Proof. intros. unfold four_two_sum. repeat zt. split; cbn [fst snd]; auto 8 with isz. Qed.
Lemma z_92 a b c d e f g h i : isz a -> isz b -> isz c -> isz d -> isz e -> isz f -> isz g -> isz h -> isz i -> isz2 (nine_two_sum a b c d e f g h i).
Proof.
  intros. unfold nine_two_sum. do 4 zt.
  repeat match goal with |- context [four_two_sum ?a ?b ?c ?d] => let H := fresh in assert (H := z_42 a b c d ltac:(auto with isz) ltac:(auto with isz) ltac:(auto with isz) ltac:(auto with isz)); destruct (four_two_sum a b c d); destruct H; cbn [fst snd] in * end.
  repeat zt. split; cbn [fst snd]; auto 8 with isz.
Qed.
Lemma z_renorm5 a b c d e : isz a -> isz b -> isz c -> isz d -> isz e -> isz (fst (fst (fst (renorm5 a b c d e)))).
Proof.
  intros. unfold renorm5. repeat zt.
  repeat match goal with |- context [fne0 ?x] => rewrite (isz_fne0 x) by auto with isz; repeat zt end.
  cbn [fst snd]. auto with isz.
Qed.
Lemma q_mul_core_zero n : QFin n -> isz (q0 (q_mul_core n Q_ZERO)).
Proof.
  intros (F0 & F1 & F2 & F3). assert (Z : isz f0) by (exists false; reflexivity).
  unfold q_mul_core. cbn [Q_ZERO q0 q1 q2 q3].
  repeat match goal with |- context [two_prod ?a ?b] => let H := fresh in assert (H := z_two_prod a b ltac:(assumption) ltac:(assumption)); destruct (two_prod a b); destruct H; cbn [fst snd] in * end.
  repeat match goal with |- context [three_three_sum ?a ?b ?c] => let H := fresh in assert (H := z_33 a b c ltac:(auto with isz) ltac:(auto with isz) ltac:(auto with isz)); destruct (three_three_sum a b c) as [[? ?] ?]; destruct H as [[? ?] ?]; cbn [fst snd] in * end.
  match goal with |- context [six_three_sum ?a ?b ?c ?d ?e ?f] => let H := fresh in assert (H : isz3 (six_three_sum a b c d e f)) by (apply z_63; auto with isz); destruct (six_three_sum a b c d e f) as [[? ?] ?]; destruct H as [[? ?] ?]; cbn [fst snd] in * end.
  match goal with |- context [nine_two_sum ?a ?b ?c ?d ?e ?f ?g ?h ?i] => let H := fresh in assert (H : isz2 (nine_two_sum a b c d e f g h i)) by (apply z_92; auto with isz); destruct (nine_two_sum a b c d e f g h i) as [? ?]; destruct H as [? ?]; cbn [fst snd] in * end.
  match goal with |- context [renorm5 ?a ?b ?c ?d ?e] => let H := fresh in assert (H : isz (fst (fst (fst (renorm5 a b c d e))))) by (apply z_renorm5; auto 20 with isz); destruct (renorm5 a b c d e) as [[[? ?] ?] ?]; cbn [fst snd] in * end.
  unfold mkQ4. cbn [q0]. assumption.
Qed.
Lemma q_exp_zero z : isz (q0 z) -> q_exp z = Q_ONE.
Proof.
  intros [s E]. unfold q_exp. replace (q_pre_exp z) with (Some Q_ONE); [reflexivity|].
  unfold q_pre_exp, q_is_nan, q_is_zero. rewrite E. destruct s; reflexivity.
Qed.
Lemma q_powf_one lm dbg n : QFin n -> q_powf lm dbg Q_ONE n = Val Q_ONE.
Proof.
  intros F. unfold q_powf, q_pre_powf. change (q_is_zero Q_ONE) with false. cbv iota.
  assert (I : q_is_infinite n = false). { destruct F as [F _]. unfold q_is_infinite. now destruct (q0 n). }
  assert (NN : q_is_nan n = false). { destruct F as [F _]. unfold q_is_nan. now destruct (q0 n). }
  rewrite I. change (q_ln lm dbg Q_ONE) with (@Val Quad Q_ZERO). cbn [obind]. f_equal. apply q_exp_zero.
  unfold q_mul, q_pre_mul. rewrite NN, I. change (q_is_nan Q_ZERO) with false. change (q_is_infinite Q_ZERO) with false. cbn [orb]. cbv iota.
  destruct (q_is_zero n); [|cbn [from_pre]; now apply q_mul_core_zero].
  destruct (Bool.eqb _ _); [exists false|exists true]; reflexivity.
Qed.
