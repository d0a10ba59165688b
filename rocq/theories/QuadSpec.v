(** * Specification vocabulary for the Quad accuracy theorems *)
From Coq Require Import ZArith Reals List.
Import ListNotations.
From Flocq Require Import Core.
From Verif Require Import F64 QuadM Spec.
Local Open Scope R_scope.

(** finite, and every component is at most 2^-k times the one before it.
    [QNorm] and [QNormW] both imply [QDec 53] (QAddThms.v). *)
Definition QDec (k : Z) (x : Quad) : Prop :=
  QFin x /\
  Rabs (V (q1 x)) <= bpow radix2 (- k) * Rabs (V (q0 x)) /\
  Rabs (V (q2 x)) <= bpow radix2 (- k) * Rabs (V (q1 x)) /\
  Rabs (V (q3 x)) <= bpow radix2 (- k) * Rabs (V (q2 x)).

(** the components of a Quad, and: no component of [x] has the absolute value of a component of [y] *)
Definition comps (x : Quad) : list f64 := [q0 x; q1 x; q2 x; q3 x].
Definition qapart (x y : Quad) : Prop := forall a b, In a (comps x) -> In b (comps y) -> Rabs (V a) <> Rabs (V b).

(** finite, and the components fall off: the [i]-th one is at most 2^-(ik) times the
    leading one, and the third is also small against the second (up to a tiny
    fraction of the leading one).  Weaker than [QDec k]; every [QNorm] or
    [QNormW] Quad satisfies [QFall 52], and so does every product. *)
Definition QFall (k : Z) (x : Quad) : Prop :=
  QFin x /\
  Rabs (V (q1 x)) <= bpow radix2 (- k) * Rabs (V (q0 x)) /\
  Rabs (V (q2 x)) <= bpow radix2 (- 2 * k) * Rabs (V (q0 x)) /\
  Rabs (V (q3 x)) <= bpow radix2 (- 3 * k) * Rabs (V (q0 x)) /\
  Rabs (V (q2 x)) <= bpow radix2 (2 - k) * Rabs (V (q1 x)) + bpow radix2 (- 3 * k) * Rabs (V (q0 x)).

(** finite, and the components fall off against the leading one; the third may exceed the
    second, by a factor of at most 32 (up to a tiny fraction of the leading one).  Every
    [QNorm] or [QNormW] Quad satisfies it, and so does every computed product of two such
    Quads, and every computed sum of two that do not almost cancel. *)
Definition QGeo (x : Quad) : Prop :=
  QFin x /\
  Rabs (V (q1 x)) <= 2 * bpow radix2 (-53) * Rabs (V (q0 x)) /\
  Rabs (V (q2 x)) <= 8 * bpow radix2 (-53) * bpow radix2 (-53) * Rabs (V (q0 x)) /\
  Rabs (V (q3 x)) <= 48 * bpow radix2 (-53) * bpow radix2 (-53) * bpow radix2 (-53) * Rabs (V (q0 x)) /\
  Rabs (V (q2 x)) <= 32 * Rabs (V (q1 x)) + 16 * bpow radix2 (-53) * bpow radix2 (-53) * bpow radix2 (-53) * Rabs (V (q0 x)).
