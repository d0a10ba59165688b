(** * Arithmetic expressions over Double and Quad (specification) *)
From Coq Require Import ZArith Reals List.
From Flocq Require Import Core.
From Verif Require Import F64 Prim DoubleM QuadM AlgM Spec QuadSpec.
Local Open Scope R_scope.

(** an expression as a user writes it in Rust: constants combined with the operators *)
Inductive dexpr : Type :=
| DLeaf (a : Double)
| DNeg (e : dexpr)
| DPlus (e1 e2 : dexpr)
| DMinus (e1 e2 : dexpr)
| DTimes (e1 e2 : dexpr)
| DQuot (e1 e2 : dexpr)
| DRoot (e : dexpr).

(** what the program computes for it: every operator is the crate's operator
    (operators of src/double/{add,sub,mul,div,neg}.rs and sqrt of src/double/alg.rs) *)
Fixpoint d_run (lm : libm) (dbg : bool) (e : dexpr) : outcome Double :=
  match e with
  | DLeaf a => Val a
  | DNeg e => obind (d_run lm dbg e) (fun x => Val (d_neg x))
  | DPlus e1 e2 => obind (d_run lm dbg e1) (fun x => obind (d_run lm dbg e2) (fun y => Val (d_add x y)))
  | DMinus e1 e2 => obind (d_run lm dbg e1) (fun x => obind (d_run lm dbg e2) (fun y => Val (d_sub x y)))
  | DTimes e1 e2 => obind (d_run lm dbg e1) (fun x => obind (d_run lm dbg e2) (fun y => Val (d_mul x y)))
  | DQuot e1 e2 => obind (d_run lm dbg e1) (fun x => obind (d_run lm dbg e2) (fun y => Val (d_div x y)))
  | DRoot e => obind (d_run lm dbg e) (fun x => d_sqrt lm dbg x)
  end.

(** its exact value as a real number *)
Fixpoint d_real (e : dexpr) : R :=
  match e with
  | DLeaf a => DV a
  | DNeg e => - d_real e
  | DPlus e1 e2 => d_real e1 + d_real e2
  | DMinus e1 e2 => d_real e1 - d_real e2
  | DTimes e1 e2 => d_real e1 * d_real e2
  | DQuot e1 e2 => d_real e1 / d_real e2
  | DRoot e => sqrt (d_real e)
  end.

(** how many roundings its value depends on *)
Fixpoint d_cost (e : dexpr) : nat :=
  match e with
  | DLeaf _ => 0
  | DNeg e => d_cost e
  | DPlus e1 e2 | DMinus e1 e2 => Nat.max (d_cost e1) (d_cost e2) + 1
  | DTimes e1 e2 => d_cost e1 + d_cost e2 + 1
  | DQuot e1 e2 => d_cost e1 + 2 * d_cost e2 + 1
  | DRoot e => d_cost e + 1
  end.

(** the expression does not cancel and stays in range: constants are canonical, terms of a
    sum have the same sign (of a difference, opposite signs), the argument of a root is
    positive, and the exact value of every subexpression is within [2^-790, 2^790] in
    magnitude.  It is a condition on the exact values only. *)
Fixpoint d_benign (e : dexpr) : Prop :=
  bpow radix2 (-790) <= Rabs (d_real e) <= bpow radix2 790 /\
  match e with
  | DLeaf a => DNorm a
  | DNeg e => d_benign e
  | DPlus e1 e2 => d_benign e1 /\ d_benign e2 /\ 0 < d_real e1 * d_real e2
  | DMinus e1 e2 => d_benign e1 /\ d_benign e2 /\ d_real e1 * d_real e2 < 0
  | DTimes e1 e2 => d_benign e1 /\ d_benign e2
  | DQuot e1 e2 => d_benign e1 /\ d_benign e2
  | DRoot e => d_benign e /\ 0 < d_real e
  end.

(** the same for Quad, without quotients and roots *)
Inductive qexpr : Type :=
| QLeaf (a : Quad)
| QNeg (e : qexpr)
| QPlus (e1 e2 : qexpr)
| QMinus (e1 e2 : qexpr)
| QTimes (e1 e2 : qexpr).
Fixpoint q_run (e : qexpr) : Quad :=
  match e with
  | QLeaf a => a
  | QNeg e => q_neg (q_run e)
  | QPlus e1 e2 => q_add (q_run e1) (q_run e2)
  | QMinus e1 e2 => q_sub (q_run e1) (q_run e2)
  | QTimes e1 e2 => q_mul (q_run e1) (q_run e2)
  end.
Fixpoint q_real (e : qexpr) : R :=
  match e with
  | QLeaf a => QV a
  | QNeg e => - q_real e
  | QPlus e1 e2 => q_real e1 + q_real e2
  | QMinus e1 e2 => q_real e1 - q_real e2
  | QTimes e1 e2 => q_real e1 * q_real e2
  end.
Fixpoint q_cost (e : qexpr) : nat :=
  match e with
  | QLeaf _ => 0
  | QNeg e => q_cost e
  | QPlus e1 e2 | QMinus e1 e2 => Nat.max (q_cost e1) (q_cost e2) + 1
  | QTimes e1 e2 => q_cost e1 + q_cost e2 + 1
  end.
Fixpoint q_benign (e : qexpr) : Prop :=
  bpow radix2 (-490) <= Rabs (q_real e) <= bpow radix2 490 /\
  match e with
  | QLeaf a => QNorm a \/ QNormW a
  | QNeg e => q_benign e
  | QPlus e1 e2 => q_benign e1 /\ q_benign e2 /\ 0 < q_real e1 * q_real e2
  | QMinus e1 e2 => q_benign e1 /\ q_benign e2 /\ q_real e1 * q_real e2 < 0
  | QTimes e1 e2 => q_benign e1 /\ q_benign e2
  end.
