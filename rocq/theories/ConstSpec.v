(** * Specification: the real number each published constant stands for
    (documentation comments of src/double/aconsts.rs:63-142 and src/quad/aconsts.rs) *)
From Coq Require Import Reals List.
From Verif Require Import F64 DoubleM QuadM ConstM.
Import ListNotations.
Local Open Scope R_scope.

Definition double_consts : list (Double * R) :=
  [ (D_PI, PI);
    (D_TAU, 2 * PI);
    (D_FRAC_PI_2, PI / 2);
    (D_FRAC_PI_3, PI / 3);
    (D_FRAC_PI_4, PI / 4);
    (D_FRAC_PI_6, PI / 6);
    (D_FRAC_PI_8, PI / 8);
    (D_FRAC_PI_16, PI / 16);
    (D_FRAC_3_PI_2, 3 * PI / 2);
    (D_FRAC_3_PI_4, 3 * PI / 4);
    (D_FRAC_5_PI_4, 5 * PI / 4);
    (D_FRAC_7_PI_4, 7 * PI / 4);
    (D_FRAC_1_PI, 1 / PI);
    (D_FRAC_2_PI, 2 / PI);
    (D_FRAC_2_SQRT_PI, 2 / sqrt PI);
    (D_SQRT_2, sqrt 2);
    (D_FRAC_1_SQRT_2, 1 / sqrt 2);
    (D_E, exp 1);
    (D_LOG2_10, ln 10 / ln 2);
    (D_LOG2_E, 1 / ln 2);
    (D_LOG10_2, ln 2 / ln 10);
    (D_LOG10_E, 1 / ln 10);
    (D_LN_2, ln 2);
    (D_LN_10, ln 10) ].
Definition quad_consts : list (Quad * R) :=
  [ (Q_PI, PI);
    (Q_TAU, 2 * PI);
    (Q_FRAC_PI_2, PI / 2);
    (Q_FRAC_PI_3, PI / 3);
    (Q_FRAC_PI_4, PI / 4);
    (Q_FRAC_PI_6, PI / 6);
    (Q_FRAC_PI_8, PI / 8);
    (Q_FRAC_PI_16, PI / 16);
    (Q_FRAC_3_PI_2, 3 * PI / 2);
    (Q_FRAC_3_PI_4, 3 * PI / 4);
    (Q_FRAC_5_PI_4, 5 * PI / 4);
    (Q_FRAC_7_PI_4, 7 * PI / 4);
    (Q_FRAC_1_PI, 1 / PI);
    (Q_FRAC_2_PI, 2 / PI);
    (Q_FRAC_2_SQRT_PI, 2 / sqrt PI);
    (Q_SQRT_2, sqrt 2);
    (Q_FRAC_1_SQRT_2, 1 / sqrt 2);
    (Q_E, exp 1);
    (Q_LOG2_10, ln 10 / ln 2);
    (Q_LOG2_E, 1 / ln 2);
    (Q_LOG10_2, ln 2 / ln 10);
    (Q_LOG10_E, 1 / ln 10);
    (Q_LN_2, ln 2);
    (Q_LN_10, ln 10) ].
