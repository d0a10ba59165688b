(** * Conversions from integers *)
From Coq Require Import ZArith Reals Lia Bool.
From Flocq Require Import Core IEEE754.BinarySingleNaN.
From Verif Require Import F64 Prim DoubleM QuadM Spec Exact IntProofs IntOrder.
Local Open Scope R_scope.

(** C16: u64; i64; i8, u8, i16, u16, i32, u32 (which share one implementation) *)
Theorem C16_double_from_int_exact :
  (forall a, (0 <= a < 2 ^ 64)%Z -> DNorm (d_from_u64 a) /\ DV (d_from_u64 a) = IZR a) /\
  (forall a, (- 2 ^ 63 <= a < 2 ^ 63)%Z -> DNorm (d_from_i64 a) /\ DV (d_from_i64 a) = IZR a) /\
  (forall a, (- 2 ^ 31 <= a < 2 ^ 32)%Z -> DNorm (d_from_small a) /\ DV (d_from_small a) = IZR a).
Proof. exact d_ints_ok. Qed.
Print Assumptions C16_double_from_int_exact.

(** C17: exact for every width; normalised up to 64 bits *)
Theorem C17_quad_from_int_exact :
  (forall a, (0 <= a < 2 ^ 64)%Z -> QNorm (q_from_u64 a) /\ QV (q_from_u64 a) = IZR a) /\
  (forall a, (- 2 ^ 63 <= a < 2 ^ 63)%Z -> QNorm (q_from_i64 a) /\ QV (q_from_i64 a) = IZR a) /\
  (forall a, (- 2 ^ 31 <= a < 2 ^ 32)%Z -> QNorm (q_from_small a) /\ QV (q_from_small a) = IZR a) /\
  (forall a, (0 <= a < 2 ^ 128)%Z -> QFin (q_from_u128 a) /\ QV (q_from_u128 a) = IZR a) /\
  (forall a, (- 2 ^ 127 <= a < 2 ^ 127)%Z -> QFin (q_from_i128 a) /\ QV (q_from_i128 a) = IZR a).
Proof. exact q_ints_ok. Qed.
Print Assumptions C17_quad_from_int_exact.
(** the 128-bit conversions do not always return a normalised Quad: the claim's
    second half is false of the code for u128 and i128 *)
Theorem C17_normal_refuted :
  (exists a, (0 <= a < 2 ^ 128)%Z /\ ~ QNorm (q_from_u128 a)) /\
  (exists a, (0 <= a < 2 ^ 127)%Z /\ ~ QNorm (q_from_i128 a)) /\
  (exists a, (0 <= a < 2 ^ 128)%Z /\ ~ QNormW (q_from_u128 a)).
Proof. exact q_u128_norm_refuted. Qed.
Print Assumptions C17_normal_refuted.

(** C18: comparing the converted values gives the comparison of the integers *)
Theorem C18_double_order_embedding :
  (forall a b, (0 <= a < 2 ^ 64)%Z -> (0 <= b < 2 ^ 64)%Z -> d_partial_cmp (d_from_u64 a) (d_from_u64 b) = Some (Z.compare a b)) /\
  (forall a b, (- 2 ^ 63 <= a < 2 ^ 63)%Z -> (- 2 ^ 63 <= b < 2 ^ 63)%Z -> d_partial_cmp (d_from_i64 a) (d_from_i64 b) = Some (Z.compare a b)) /\
  (forall a b, (- 2 ^ 31 <= a < 2 ^ 32)%Z -> (- 2 ^ 31 <= b < 2 ^ 32)%Z -> d_partial_cmp (d_from_small a) (d_from_small b) = Some (Z.compare a b)).
Proof. exact d_int_order_ok. Qed.
Print Assumptions C18_double_order_embedding.
(** also for 128 bits, where the values are not normalised *)
Theorem C18_quad_order_embedding :
  (forall a b, (0 <= a < 2 ^ 64)%Z -> (0 <= b < 2 ^ 64)%Z -> q_partial_cmp (q_from_u64 a) (q_from_u64 b) = Some (Z.compare a b)) /\
  (forall a b, (- 2 ^ 63 <= a < 2 ^ 63)%Z -> (- 2 ^ 63 <= b < 2 ^ 63)%Z -> q_partial_cmp (q_from_i64 a) (q_from_i64 b) = Some (Z.compare a b)) /\
  (forall a b, (- 2 ^ 31 <= a < 2 ^ 32)%Z -> (- 2 ^ 31 <= b < 2 ^ 32)%Z -> q_partial_cmp (q_from_small a) (q_from_small b) = Some (Z.compare a b)) /\
  (forall a b, (0 <= a < 2 ^ 128)%Z -> (0 <= b < 2 ^ 128)%Z -> q_partial_cmp (q_from_u128 a) (q_from_u128 b) = Some (Z.compare a b)) /\
  (forall a b, (- 2 ^ 127 <= a < 2 ^ 127)%Z -> (- 2 ^ 127 <= b < 2 ^ 127)%Z -> q_partial_cmp (q_from_i128 a) (q_from_i128 b) = Some (Z.compare a b)).
Proof. exact q_int_order_ok. Qed.
Print Assumptions C18_quad_order_embedding.

(** concrete values: 2^64 - 1 needs two components, i64::MIN, u128::MAX *)
Example ints_ex :
  zd (d_from_u64 (2 ^ 64 - 1)) = ((2 ^ 64 - 1) * 2 ^ 1074)%Z /\ fne0 (d1 (d_from_u64 (2 ^ 64 - 1))) = true /\
  zd (d_from_i64 (- 2 ^ 63)) = (- 2 ^ 63 * 2 ^ 1074)%Z /\
  zq (q_from_u128 (2 ^ 128 - 1)) = ((2 ^ 128 - 1) * 2 ^ 1074)%Z /\
  q_lt (q_from_i128 (- 2 ^ 127)) (q_from_i128 (1 - 2 ^ 127)) = true.
Proof. repeat split; vm_compute; reflexivity. Qed.
