(** * The specification, independent of how the crate computes

    Only these definitions (and Flocq's [round], [B2R]) are needed to read the
    theorems: the real number a value denotes, what "normalised" means, and
    error relative to an exact real result. *)
From Coq Require Import ZArith Reals List.
From Flocq Require Import Core IEEE754.BinarySingleNaN.
From Verif Require Import F64 DoubleM QuadM.
Local Open Scope R_scope.

(** nearest f64 (ties to even), ignoring overflow *)
Definition RN (x : R) : R := round radix2 (FLT_exp (-1074) 53) ZnearestE x.

(** the real number denoted by a finite f64 *)
Definition V (a : f64) : R := B2R a.
Definition Fin (a : f64) : Prop := is_finite a = true.

(** the real number denoted by a Double *)
Definition DV (x : Double) : R := V (d0 x) + V (d1 x).
Definition DFin (x : Double) : Prop := Fin (d0 x) /\ Fin (d1 x).
(** normalised: finite, and the leading component is the f64 nearest to the value *)
Definition DNorm (x : Double) : Prop := DFin x /\ V (d0 x) = RN (DV x).

(** the real number denoted by a Quad; finite; normalised: every component is
    the f64 nearest to the sum of itself and all components after it *)
Definition QV (x : Quad) : R := V (q0 x) + V (q1 x) + V (q2 x) + V (q3 x).
Definition QFin (x : Quad) : Prop := Fin (q0 x) /\ Fin (q1 x) /\ Fin (q2 x) /\ Fin (q3 x).
Definition QNorm (x : Quad) : Prop :=
  QFin x /\
  V (q0 x) = RN (QV x) /\
  V (q1 x) = RN (V (q1 x) + V (q2 x) + V (q3 x)) /\
  V (q2 x) = RN (V (q2 x) + V (q3 x)).
(** weaker: neighbouring components do not overlap *)
Definition QNormW (x : Quad) : Prop :=
  QFin x /\
  V (q0 x) = RN (V (q0 x) + V (q1 x)) /\
  V (q1 x) = RN (V (q1 x) + V (q2 x)) /\
  V (q2 x) = RN (V (q2 x) + V (q3 x)).

(** [approx r exact n k]: r is within n * 2^k of [exact], relatively *)
Definition approx (r exact : R) (n k : Z) : Prop :=
  Rabs (r - exact) <= IZR n * bpow radix2 k * Rabs exact.

(** bit-level equality is Coq's [=]; numeric [==] of two values that denote
    the same finite components is [feqb]. *)

(** integer part functions on reals *)
Definition Rfloor (x : R) : Z := Zfloor x.
Definition Rceil (x : R) : Z := Zceil x.
(** nearest integer, halves away from zero *)
Definition Rround_away (x : R) : Z :=
  if Rle_dec 0 x then Zfloor (x + / 2) else Zceil (x - / 2).

(** same number: numerically equal (so +0 and -0 agree), or both NaN *)
Definition fsame (a b : f64) : Prop := feqb a b = true \/ (fis_nan a = true /\ fis_nan b = true).
Definition dsame (x y : Double) : Prop := fsame (d0 x) (d0 y) /\ fsame (d1 x) (d1 y).
Definition qsame (x y : Quad) : Prop :=
  fsame (q0 x) (q0 y) /\ fsame (q1 x) (q1 y) /\ fsame (q2 x) (q2 y) /\ fsame (q3 x) (q3 y).
