(** * Division, squaring and integer powers *)
From Coq Require Import ZArith Reals Lra Bool.
From Flocq Require Import Core IEEE754.BinarySingleNaN.
From Verif Require Import RN F64 Prim DoubleM QuadM Spec F64Facts DAddProofs DMulProofs Check DDivProofs PowProofs PowThms.
Local Open Scope R_scope.

(** C04 *)
Theorem C04_div_accurate : forall x y, DNorm x -> DNorm y -> V (d0 y) <> 0 ->
  (V (d0 x) = 0 \/
   (bpow radix2 (-900) <= Rabs (V (d0 x)) <= bpow radix2 1010 /\
    bpow radix2 (-900) <= Rabs (V (d0 x) / V (d0 y)) <= bpow radix2 1010)) ->
  DNorm (d_div x y) /\ approx (DV (d_div x y)) (DV x / DV y) 16 (-106).
Proof. exact d_div_ok. Qed.
Print Assumptions C04_div_accurate.
(** 1/3 to 32 digits: hypotheses hold, and the division is not exact *)
Definition ex_three := mkD (fofZ 3) f0.
Example C04_ex : DNorm D_ONE /\ DNorm ex_three /\ V (d0 ex_three) <> 0 /\
  div_window (V (d0 D_ONE)) (V (d0 ex_three)) /\ d_eq (d_mul (d_div D_ONE ex_three) ex_three) D_ONE = true /\
  feqb (d1 (d_div D_ONE ex_three)) f0 = false.
Proof. exact C04_example. Qed.

(** C27 *)
Theorem C27_sqr_accurate : forall x, DNorm x ->
  (V (d0 x) * V (d0 x) = 0 \/ bpow radix2 (-900) <= V (d0 x) * V (d0 x) <= bpow radix2 1014) ->
  DNorm (d_sqr x) /\ approx (DV (d_sqr x)) (DV x * DV x) 9 (-106) /\ 0 <= DV (d_sqr x).
Proof. exact sqr_accurate. Qed.
Print Assumptions C27_sqr_accurate.
(** infinite or NaN operand: the leading component is the IEEE square, and an
    infinity of either sign gives exactly +infinity *)
Theorem C27_sqr_special : forall x y,
  (is_finite (d0 x) = false -> d0 (d_sqr x) = fmul (d0 x) (d0 x) /\ (is_nan (d0 x) = false -> d_sqr x = D_INFINITY)) /\
  (is_finite (q0 y) = false -> q0 (q_sqr y) = fmul (q0 y) (q0 y) /\ (is_nan (q0 y) = false -> q_sqr y = Q_INFINITY)).
Proof. intros x y. exact (conj (d_sqr_special x) (q_sqr_special y)). Qed.
Print Assumptions C27_sqr_special.
Example C27_ex : DNorm sqr_x /\ sqr_window (V (d0 sqr_x)) /\ d_eq (d_sqr sqr_x) (mkD (f2pow 9 0) (f2pow 6 (-60))) = true.
Proof. exact C27_example. Qed.

(** C24: zero exponent, NaN, zeros, infinities, for every exponent and both
    build profiles *)
Theorem C24_powi_special : forall dbg x y n s,
  d_powi dbg x 0 = Val D_ONE /\ q_powi dbg y 0 = Val Q_ONE /\
  (n <> 0%Z ->
   (d0 x = B754_nan -> d_powi dbg x n = Val D_NAN) /\
   (d0 x = B754_zero s -> d_powi dbg x n =
      Val (if (n >? 0)%Z then (if s && Z.odd n then D_NEG_ZERO else D_ZERO)
           else (if s && Z.odd n then D_NEG_INFINITY else D_INFINITY))) /\
   (d0 x = B754_infinity s -> d_powi dbg x n =
      Val (if (n >? 0)%Z then (if s && Z.odd n then D_NEG_INFINITY else D_INFINITY)
           else (if s && Z.odd n then D_NEG_ZERO else D_ZERO))) /\
   (q0 y = B754_nan -> q_powi dbg y n = Val Q_NAN) /\
   (q0 y = B754_zero s -> q_powi dbg y n =
      Val (if (n >? 0)%Z then (if s && Z.odd n then Q_NEG_ZERO else Q_ZERO)
           else (if s && Z.odd n then Q_NEG_INFINITY else Q_INFINITY))) /\
   (q0 y = B754_infinity s -> q_powi dbg y n =
      Val (if (n >? 0)%Z then (if s && Z.odd n then Q_NEG_INFINITY else Q_INFINITY)
           else (if s && Z.odd n then Q_NEG_ZERO else Q_ZERO)))).
Proof. exact powi_special. Qed.
Print Assumptions C24_powi_special.
(** no exponent but i32::MIN panics *)
Theorem C24_powi_total_partial : forall dbg x y n, (-2147483648 < n <= 2147483647)%Z ->
  (exists r, d_powi dbg x n = Val r) /\ (exists r, q_powi dbg y n = Val r).
Proof. exact powi_total. Qed.
Print Assumptions C24_powi_total_partial.
(** i32::MIN: panic in a debug build, the reciprocal instead of the power in a
    release build, for every finite nonzero base *)
Theorem C24_powi_min_refuted : forall x y,
  (is_finite (d0 x) = true -> V (d0 x) <> 0 ->
     d_powi true x (-2147483648) = Panicked /\ d_powi false x (-2147483648) = Val (d_div D_ONE x)) /\
  (is_finite (q0 y) = true -> V (q0 y) <> 0 ->
     q_powi true y (-2147483648) = Panicked /\ q_powi false y (-2147483648) = Val (q_div Q_ONE y)).
Proof. intros x y. exact (conj (powi_min x) (q_powi_min y)). Qed.
Print Assumptions C24_powi_min_refuted.

(** C25 *)
Theorem C25_powi_positive : forall dbg x n, DNorm x -> (1 <= n <= 2147483647)%Z ->
  bpow radix2 (-890) <= Rabs (DV x) ^ Z.to_nat n <= bpow radix2 1010 ->
  exists r, d_powi dbg x n = Val r /\ DNorm r /\ approx (DV r) (DV x ^ Z.to_nat n) (10 * n) (-106).
Proof. exact powi_pos_ok. Qed.
Print Assumptions C25_powi_positive.
Theorem C25_powi_negative : forall dbg x n, DNorm x -> (1 <= n <= 2147483647)%Z ->
  bpow radix2 (-890) <= Rabs (DV x) ^ Z.to_nat n <= bpow radix2 890 ->
  exists r, d_powi dbg x (- n) = Val r /\ DNorm r /\
    approx (DV r) (/ DV x ^ Z.to_nat n) (10 * n + 17) (-106).
Proof. exact powi_neg_ok. Qed.
Print Assumptions C25_powi_negative.
Example C25_ex : DNorm sqr_x /\ bpow radix2 (-890) <= Rabs (DV sqr_x) ^ Z.to_nat 5 <= bpow radix2 890.
Proof. exact C25_example. Qed.
