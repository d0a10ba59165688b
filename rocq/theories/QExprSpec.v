(** * Quad literals, quotients, roots and whole expressions (specification) *)
From Coq Require Import ZArith Reals List.
From Flocq Require Import Core.
From Verif Require Import F64 Prim DoubleM QuadM AlgM Spec ParseM ParseSpec.
Import ListNotations.
Local Open Scope R_scope.

(** number of significant digits: leading zeros do not count *)
Fixpoint sig_digits (l : list Z) : nat :=
  match l with [] => 0%nat | d :: t => if (d =? 0)%Z then sig_digits t else length l end.
(** the real number written by mantissa [m] and exponent [e] (see [number] in ParseSpec) *)
Definition q_lit (m : text) (e : Z) : R :=
  IZR ((if negative m then -1 else 1) * dec_val (digs m)) * powerRZ 10 (e - frac m).

(** the low components of a Quad are at most 2^-48 of its leading one.  Every canonical Quad
    is like this, and so is every result of the operations below. *)
Definition QTame (x : Quad) : Prop :=
  QFin x /\
  Rabs (V (q1 x)) <= bpow radix2 (-48) * Rabs (V (q0 x)) /\
  Rabs (V (q2 x)) <= bpow radix2 (-48) * Rabs (V (q0 x)) /\
  Rabs (V (q3 x)) <= bpow radix2 (-48) * Rabs (V (q0 x)).

(** an expression as a user writes it: constants, decimal literals, and the operators *)
Inductive xexpr : Type :=
| XLeaf (a : Quad)
| XLit (s m : text) (e : Z)
| XNeg (e : xexpr)
| XPlus (e1 e2 : xexpr)
| XMinus (e1 e2 : xexpr)
| XTimes (e1 e2 : xexpr)
| XQuot (e1 e2 : xexpr)
| XRoot (e : xexpr).

(** what the program computes for it (operators of src/quad/{add,sub,mul,div,neg}.rs, sqrt of
    src/quad/alg.rs, from_str of src/quad/from.rs with unwrap) *)
Fixpoint x_run (lm : libm) (dbg : bool) (e : xexpr) : outcome Quad :=
  match e with
  | XLeaf a => Val a
  | XLit s _ _ => obind (from_str q_ops dbg s) unwrap
  | XNeg e => obind (x_run lm dbg e) (fun x => Val (q_neg x))
  | XPlus e1 e2 => obind (x_run lm dbg e1) (fun x => obind (x_run lm dbg e2) (fun y => Val (q_add x y)))
  | XMinus e1 e2 => obind (x_run lm dbg e1) (fun x => obind (x_run lm dbg e2) (fun y => Val (q_sub x y)))
  | XTimes e1 e2 => obind (x_run lm dbg e1) (fun x => obind (x_run lm dbg e2) (fun y => Val (q_mul x y)))
  | XQuot e1 e2 => obind (x_run lm dbg e1) (fun x => obind (x_run lm dbg e2) (fun y => Val (q_div x y)))
  | XRoot e => obind (x_run lm dbg e) (fun x => q_sqrt lm dbg x)
  end.

(** its exact value as a real number *)
Fixpoint x_real (e : xexpr) : R :=
  match e with
  | XLeaf a => QV a
  | XLit _ m e => q_lit m e
  | XNeg e => - x_real e
  | XPlus e1 e2 => x_real e1 + x_real e2
  | XMinus e1 e2 => x_real e1 - x_real e2
  | XTimes e1 e2 => x_real e1 * x_real e2
  | XQuot e1 e2 => x_real e1 / x_real e2
  | XRoot e => sqrt (x_real e)
  end.

(** how many roundings its value depends on; a literal counts four, a divisor twice *)
Fixpoint x_cost (e : xexpr) : nat :=
  match e with
  | XLeaf _ => 0
  | XLit _ _ _ => 4
  | XNeg e => x_cost e
  | XPlus e1 e2 | XMinus e1 e2 => Nat.max (x_cost e1) (x_cost e2) + 1
  | XTimes e1 e2 => x_cost e1 + x_cost e2 + 1
  | XQuot e1 e2 => x_cost e1 + 2 * x_cost e2 + 1
  | XRoot e => x_cost e + 1
  end.

(** the expression does not cancel and stays in range: a condition on exact values only.
    A literal [s] is, after trimming and lowercasing, the mantissa [m] with exponent [e], has
    at most 130 significant digits and a net decimal exponent in [-87, 140]. *)
Fixpoint x_benign (e : xexpr) : Prop :=
  bpow radix2 (-85) <= Rabs (x_real e) <= bpow radix2 85 /\
  match e with
  | XLeaf a => QTame a
  | XLit s m e => short (normal_text s) /\ number (normal_text s) m e /\ (sig_digits (digs m) <= 130)%nat /\ (-87 <= e - frac m <= 140)%Z
  | XNeg e => x_benign e
  | XPlus e1 e2 => x_benign e1 /\ x_benign e2 /\ 0 < x_real e1 * x_real e2
  | XMinus e1 e2 => x_benign e1 /\ x_benign e2 /\ x_real e1 * x_real e2 < 0
  | XTimes e1 e2 => x_benign e1 /\ x_benign e2
  | XQuot e1 e2 => x_benign e1 /\ x_benign e2
  | XRoot e => x_benign e /\ 0 < x_real e
  end.
