(** * Exact sums and products of a list of reals (specification) *)
From Coq Require Import Reals List.
Local Open Scope R_scope.

(** the exact sum x1 + ... + xn (0 for the empty list) and product x1 * ... * xn (1 for the empty list) *)
Definition rsum (l : list R) : R := fold_right Rplus 0 l.
Definition rprod (l : list R) : R := fold_right Rmult 1 l.

(** the partial sums never almost cancel: each is at least [c] times the sum of the
    absolute values so far.  A list of numbers of the same sign is [Steady 1]. *)
Definition Steady (c : R) (l : list R) : Prop :=
  forall l1 l2, l = l1 ++ l2 -> c * rsum (map Rabs l1) <= Rabs (rsum l1).
