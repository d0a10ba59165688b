(** * Algebraic laws: exactness on single f64s, commutativity, negation, abs, identities, sign symmetry *)
From Coq Require Import ZArith Reals Lra Bool.
From Flocq Require Import Core IEEE754.BinarySingleNaN.
From Verif Require Import RN F64 Prim DoubleM QuadM Spec F64Facts EFT OrderProofs Sim SymProofs ExactProofs LawProofs SingleProofs NoFma Witness Exact LawThms.
Local Open Scope R_scope.

(** C05: hi and lo of a + b, for all finite f64 a, b up to 2^1018 *)
Theorem C05_add_exact : forall a b, Fin a -> Fin b ->
  Rabs (V a) <= bpow radix2 1018 -> Rabs (V b) <= bpow radix2 1018 ->
  let r := d_add (d_new a f0) (d_new b f0) in
  DNorm r /\ DV r = V a + V b /\ V (d0 r) = RN (V a + V b).
Proof. exact d_add_single_ok. Qed.
Print Assumptions C05_add_exact.
Theorem C05_sub_exact : forall a b, Fin a -> Fin b ->
  Rabs (V a) <= bpow radix2 1018 -> Rabs (V b) <= bpow radix2 1018 ->
  let r := d_sub (d_new a f0) (d_new b f0) in
  DNorm r /\ DV r = V a - V b /\ V (d0 r) = RN (V a - V b).
Proof. exact d_sub_single_ok. Qed.
Print Assumptions C05_sub_exact.

(** C06 *)
Theorem C06_mul_exact : forall a b, Fin a -> Fin b ->
  (V a * V b = 0 \/ bpow radix2 (-969) <= Rabs (V a * V b) <= bpow radix2 1015) ->
  let r := d_mul (d_new a f0) (d_new b f0) in
  DNorm r /\ DV r = V a * V b /\ V (d0 r) = RN (V a * V b).
Proof. exact d_mul_single_ok. Qed.
Print Assumptions C06_mul_exact.
Theorem C06_mul_exact_no_fma : forall k l a b,
  (-1070 <= k <= 1022)%Z -> (-1070 <= l <= 1022)%Z -> (-960 <= k + l <= 1015)%Z ->
  Fin a -> Fin b -> Rabs (V a) <= bpow radix2 k -> Rabs (V b) <= bpow radix2 l ->
  (V a * V b = 0 \/ bpow radix2 (-969) <= Rabs (V a * V b)) ->
  let r := d_mul_nofma (d_new a f0) (d_new b f0) in
  DNorm r /\ DV r = V a * V b /\ V (d0 r) = RN (V a * V b).
Proof. exact d_mul_nofma_any. Qed.
Print Assumptions C06_mul_exact_no_fma.
(** the no-FMA theorem covers both branches of the splitting step: a = (2^53 - 1) * 2^957 lies above the
    2^996 threshold; with b = 2^53 - 3 the product is not an f64 *)
Example C06_scaled_branch : fgtb (f2pow 9007199254740991 957) split_threshold = true /\
  Fin (f2pow 9007199254740991 957) /\ Fin (f2pow 9007199254740989 (-53)) /\
  feqb (d1 (d_mul_nofma (d_new (f2pow 9007199254740991 957) f0) (d_new (f2pow 9007199254740989 (-53)) f0))) f0 = false.
Proof. repeat split; vm_compute; reflexivity. Qed.

(** C58 *)
Theorem C58_quad_add_exact : forall a b, Fin a -> Fin b ->
  Rabs (V a) <= bpow radix2 1018 -> Rabs (V b) <= bpow radix2 1018 ->
  let r := q_add (q_new a f0 f0 f0) (q_new b f0 f0 f0) in
  QNorm r /\ QV r = V a + V b /\ V (q0 r) = RN (V a + V b).
Proof. exact q_add_single_ok. Qed.
Print Assumptions C58_quad_add_exact.

(** hypotheses met: 1 and 2^-53 + 2^-80 *)
Example single_case : let a := f1 in let b := f2pow (2 ^ 27 + 1) (-80) in
  Fin a /\ Fin b /\ Rabs (V a) <= bpow radix2 1018 /\ Rabs (V b) <= bpow radix2 1018 /\
  bpow radix2 (-969) <= Rabs (V a * V b) <= bpow radix2 1015 /\
  d_eq (d_add (d_new a f0) (d_new b f0)) (mkD (f2pow (2 ^ 52 + 1) (-52)) (f2pow (1 - 2 ^ 27) (-80))) = true.
Proof. exact single_case_ok. Qed.

(** C13: Double addition commutes on all finite operands up to 2^1018, and the
    special cases (NaN, infinities) commute as well *)
Theorem C13_add_comm : forall x y, DFin x -> DFin y ->
  Rabs (V (d0 x)) <= bpow radix2 1018 -> Rabs (V (d1 x)) <= bpow radix2 1018 ->
  Rabs (V (d0 y)) <= bpow radix2 1018 -> Rabs (V (d1 y)) <= bpow radix2 1018 ->
  dsame (d_add x y) (d_add y x).
Proof. exact d_add_comm_ok. Qed.
Print Assumptions C13_add_comm.
(** multiplication commutes when one factor is a single f64 *)
Theorem C13_mul_comm_f64_partial : forall x b, DNorm x -> Fin b ->
  dsame (d_mul x (d_new b f0)) (d_mul (d_new b f0) x).
Proof. exact d_mul_comm_f64'. Qed.
Print Assumptions C13_mul_comm_f64_partial.
(** ... but not in general, and neither do Quad + and * *)
Theorem C13_mul_comm_refuted : exists x y, DNorm x /\ DNorm y /\ d_eq (d_mul x y) (d_mul y x) = false.
Proof. exact d_mul_comm_refuted. Qed.
Print Assumptions C13_mul_comm_refuted.
Theorem C13_quad_add_comm_refuted : exists x y, QNorm x /\ QNorm y /\ q_eq (q_add x y) (q_add y x) = false.
Proof. exact q_add_comm_refuted. Qed.
Print Assumptions C13_quad_add_comm_refuted.
Theorem C13_quad_mul_comm_refuted : exists x y, QNorm x /\ QNorm y /\ q_eq (q_mul x y) (q_mul y x) = false.
Proof. exact q_mul_comm_refuted. Qed.
Print Assumptions C13_quad_mul_comm_refuted.

(** C14 (no hypothesis on the operands except where a value is named) *)
Theorem C14_double_neg : forall x y,
  d_neg (d_neg x) = x /\ DV (d_neg x) = - DV x /\ (DNorm x -> DNorm (d_neg x)) /\
  dsame (d_sub x y) (d_add x (d_neg y)) /\
  dsame (d_add (d_neg x) (d_neg y)) (d_neg (d_add x y)) /\
  dsame (d_sub (d_neg x) (d_neg y)) (d_neg (d_sub x y)) /\
  (DNorm x -> d_eq (d_sub x x) D_ZERO = true /\ d_eq (d_add x (d_neg x)) D_ZERO = true).
Proof. exact d_neg_laws. Qed.
Print Assumptions C14_double_neg.
Theorem C14_quad_neg : forall x y,
  q_neg (q_neg x) = x /\ QV (q_neg x) = - QV x /\ (QNorm x -> QNorm (q_neg x)) /\
  qsame (q_sub x y) (q_add x (q_neg y)) /\
  qsame (q_add (q_neg x) (q_neg y)) (q_neg (q_add x y)) /\
  qsame (q_sub (q_neg x) (q_neg y)) (q_neg (q_sub x y)) /\
  (QNormW x -> q_eq (q_sub x x) Q_ZERO = true /\ q_eq (q_add x (q_neg x)) Q_ZERO = true).
Proof. exact q_neg_laws. Qed.
Print Assumptions C14_quad_neg.

(** C15 *)
Theorem C15_double_abs : forall x, fis_nan (d0 x) = false ->
  d_is_sign_negative (d_abs x) = false /\ d_abs (d_abs x) = d_abs x /\ d_abs (d_neg x) = d_abs x /\
  (DNorm x -> DNorm (d_abs x) /\ DV (d_abs x) = Rabs (DV x)).
Proof. exact d_abs_ok. Qed.
Print Assumptions C15_double_abs.
Theorem C15_quad_abs : forall x, fis_nan (q0 x) = false ->
  q_is_sign_negative (q_abs x) = false /\ q_abs (q_abs x) = q_abs x /\ q_abs (q_neg x) = q_abs x /\
  (QNorm x -> QNorm (q_abs x) /\ QV (q_abs x) = Rabs (QV x)).
Proof. exact q_abs_ok. Qed.
Print Assumptions C15_quad_abs.
Theorem C15_double_signum : forall x,
  (fis_nan (d0 x) = true -> fis_nan (d0 (d_signum x)) = true) /\
  (fis_nan (d0 x) = false -> d_signum x = if fsign_neg (d0 x) then D_NEG_ONE else D_ONE) /\
  (DNorm x -> d_eq (d_mul (d_signum x) (d_abs x)) x = true).
Proof. exact d_signum_laws. Qed.
Print Assumptions C15_double_signum.
Theorem C15_quad_signum : forall x,
  (fis_nan (q0 x) = true -> fis_nan (q0 (q_signum x)) = true) /\
  (fis_nan (q0 x) = false -> q_signum x = if fsign_neg (q0 x) then Q_NEG_ONE else Q_ONE) /\
  (QNormW x -> q_eq (q_mul (q_signum x) (q_abs x)) x = true).
Proof. exact q_signum_laws. Qed.
Print Assumptions C15_quad_signum.

(** C26 *)
Theorem C26_double_identities : forall x, DNorm x ->
  d_eq (d_add x D_ZERO) x = true /\ d_eq (d_add D_ZERO x) x = true /\ d_eq (d_sub x D_ZERO) x = true /\
  d_eq (d_mul x D_ONE) x = true /\ d_eq (d_mul D_ONE x) x = true /\ d_eq (d_div x D_ONE) x = true /\
  (d_is_zero x = false -> d_eq (d_div x x) D_ONE = true) /\
  d_eq (d_sub x x) D_ZERO = true /\ d_eq (d_add x (d_neg x)) D_ZERO = true.
Proof. exact d_identities. Qed.
Print Assumptions C26_double_identities.
Theorem C26_quad_identities : forall x, QNormW x ->
  q_eq (q_add x Q_ZERO) x = true /\ q_eq (q_add Q_ZERO x) x = true /\ q_eq (q_sub x Q_ZERO) x = true /\
  q_eq (q_mul x Q_ONE) x = true /\ q_eq (q_mul Q_ONE x) x = true /\ q_eq (q_div x Q_ONE) x = true /\
  (q_is_zero x = false -> q_eq (q_div x x) Q_ONE = true) /\
  q_eq (q_sub x x) Q_ZERO = true /\ q_eq (q_add x (q_neg x)) Q_ZERO = true.
Proof. exact q_identities. Qed.
Print Assumptions C26_quad_identities.
(** a normalised Double and Quad with nonzero low components *)
Example laws_case : DNorm w_dm_x /\ QNorm w_qa_x /\ QNormW w_qa_x /\ d_is_zero w_dm_x = false /\ q_is_zero w_qa_x = false /\
  DFin w_dm_y /\ Rabs (V (d0 w_dm_y)) <= bpow radix2 1018.
Proof. exact laws_case_ok. Qed.

(** C60: sign symmetry of multiplication, division and squaring, for every operand
    (zeros, infinities and NaN included; signs of zero results are not compared) *)
Theorem C60_double_sign : forall x y,
  dsame (d_mul (d_neg x) y) (d_neg (d_mul x y)) /\
  dsame (d_mul x (d_neg y)) (d_neg (d_mul x y)) /\
  dsame (d_mul (d_neg x) (d_neg y)) (d_mul x y) /\
  dsame (d_div (d_neg x) y) (d_neg (d_div x y)) /\
  dsame (d_div x (d_neg y)) (d_neg (d_div x y)) /\
  dsame (d_div (d_neg x) (d_neg y)) (d_div x y) /\
  dsame (d_sqr (d_neg x)) (d_sqr x).
Proof. exact d_sign_laws. Qed.
Print Assumptions C60_double_sign.
Theorem C60_quad_sign : forall x y,
  qsame (q_mul (q_neg x) y) (q_neg (q_mul x y)) /\
  qsame (q_mul x (q_neg y)) (q_neg (q_mul x y)) /\
  qsame (q_mul (q_neg x) (q_neg y)) (q_mul x y).
Proof. exact q_sign_laws. Qed.
Print Assumptions C60_quad_sign.
(** Quad division is not sign-symmetric *)
Theorem C60_quad_div_sign_refuted : exists x y, QNorm x /\ QNorm y /\
  q_eq (q_div (q_neg x) y) (q_neg (q_div x y)) = false.
Proof. exact q_div_sign_refuted. Qed.
Print Assumptions C60_quad_div_sign_refuted.
