(** * What the Quad logarithm theorems assume of f64's own ln and log2 (specification) *)
From Coq Require Import ZArith Reals.
From Flocq Require Import Core.
From Verif Require Import F64 Spec.
Local Open Scope R_scope.

(** f64::ln is finite and within 2^-51 |ln a| + 2^-60 of the real logarithm (about four units in
    the last place), and f64::log2 of an argument up to 1024 is not above 10 *)
Definition log_tight (lm : libm) : Prop :=
  (forall a, Fin a -> 0 < V a ->
     Fin (lm_ln lm a) /\ Rabs (V (lm_ln lm a) - ln (V a)) <= bpow radix2 (-51) * Rabs (ln (V a)) + bpow radix2 (-60)) /\
  (forall a, Fin a -> 0 <= V a <= 1024 -> fgtb (lm_log2 lm a) (fofZ 10) = false).

(** a logarithm l at which Quad ln does not lose its accuracy to cancellation: l is not tiny (the argument
    is not close to 1), not close to -1, and not close to a nonzero multiple of ln 2 (the argument is not
    close to another power of two) *)
Definition plain_log (l : R) : Prop :=
  Rabs l <= 340 /\ bpow radix2 (-16) <= Rabs l /\ bpow radix2 (-20) <= Rabs (l + 1) /\
  (forall k : Z, k <> 0%Z -> bpow radix2 (-27) * Rabs l <= Rabs (l - IZR k * ln 2)).
