(** * Rust's [f64]

    Model of the IEEE-754 binary64 type that every file of /repo/src computes
    with (Rust standard library, not part of /repo), on top of Flocq.
    Simplification: there is one NaN, whose sign reads as positive. *)
From Coq Require Import ZArith List Bool.
From Flocq Require Import IEEE754.BinarySingleNaN Core.
Import ListNotations.
Local Open Scope Z_scope.

(** Result of code that may panic; models Rust's unwinding [panic!]. *)
Inductive outcome (A : Type) : Type := Val (a : A) | Panicked.
Arguments Val {A} a.
Arguments Panicked {A}.

Definition obind {A B} (o : outcome A) (f : A -> outcome B) : outcome B :=
  match o with Val a => f a | Panicked => Panicked end.
Definition omap {A B} (f : A -> B) (o : outcome A) : outcome B :=
  match o with Val a => Val (f a) | Panicked => Panicked end.
Notation "'let*' x ':=' o 'in' k" := (obind o (fun x => k))
  (at level 200, x pattern, right associativity).

Notation prec := 53%Z.
Notation emax := 1024%Z.

#[global] Instance Hprec : Prec_gt_0 prec := eq_refl.
#[global] Instance Hmax : Prec_lt_emax prec emax := eq_refl.

(** The type [f64]. *)
Definition f64 : Set := binary_float prec emax.

(** [f64]'s [+ - * /] (round to nearest, ties to even). *)
Definition fadd (a b : f64) : f64 := Bplus mode_NE a b.
Definition fsub (a b : f64) : f64 := Bminus mode_NE a b.
Definition fmul (a b : f64) : f64 := Bmult mode_NE a b.
Definition fdiv (a b : f64) : f64 := Bdiv mode_NE a b.
(** [f64::mul_add]: a*b+c with one rounding. *)
Definition fma (a b c : f64) : f64 := Bfma mode_NE a b c.
(** unary minus, [f64::abs], [f64::sqrt]. *)
Definition fneg (a : f64) : f64 := Bopp a.
Definition fabs (a : f64) : f64 := Babs a.
Definition fsqrt (a : f64) : f64 := Bsqrt mode_NE a.
(** [f64::floor], [ceil], [trunc], [round] (half away from zero). *)
Definition ffloor (a : f64) : f64 := Bnearbyint mode_DN a.
Definition fceil (a : f64) : f64 := Bnearbyint mode_UP a.
Definition ftrunc (a : f64) : f64 := Bnearbyint mode_ZR a.
Definition fround (a : f64) : f64 := Bnearbyint mode_NA a.
(** [f64::fract]: [self - self.trunc()]. *)
Definition ffract (a : f64) : f64 := fsub a (ftrunc a).

(** [==], [<], [<=], [>], [>=], [partial_cmp]. *)
Definition feqb (a b : f64) : bool := Beqb a b.
Definition fltb (a b : f64) : bool := Bltb a b.
Definition fleb (a b : f64) : bool := Bleb a b.
Definition fgtb (a b : f64) : bool := Bltb b a.
Definition fgeb (a b : f64) : bool := Bleb b a.
Definition fcmp (a b : f64) : option comparison := Bcompare a b.

(** [is_nan], [is_infinite], [is_finite], [is_sign_negative], [is_sign_positive].
    Simplification: NaN's sign is positive. *)
Definition fis_nan (a : f64) : bool := is_nan a.
Definition fis_finite (a : f64) : bool := is_finite a.
Definition fis_infinite (a : f64) : bool :=
  match a with B754_infinity _ => true | _ => false end.
Definition fsign_neg (a : f64) : bool := Bsign a.
Definition fsign_pos (a : f64) : bool := negb (Bsign a).

(** [f64::NAN], [INFINITY], [NEG_INFINITY], [0.0], [-0.0]. *)
Definition fnan : f64 := B754_nan.
Definition finf : f64 := B754_infinity false.
Definition fninf : f64 := B754_infinity true.
Definition f0 : f64 := B754_zero false.
Definition fn0 : f64 := B754_zero true.

(** The [f64] nearest to the integer [m] times 2^[e] ([as f64], exact literals). *)
Definition f2pow (m e : Z) : f64 := binary_normalize prec emax _ _ mode_NE m e false.
(** integer [as f64] / [.into()]. *)
Definition fofZ (n : Z) : f64 := f2pow n 0.

(** The decimal literal [m * 10^e] rounded to nearest (Rust's literals are
    correctly rounded).  Negative exponents divide by [10^-e] with a single
    rounding, using Flocq's division core on unbounded mantissas. *)
Definition dec_pos (m : positive) (e : Z) : f64 :=
  match e with
  | Zneg p =>
      SF2B _ (proj1 (Bdiv_correct_aux prec emax Hprec Hmax mode_NE false m 0 false (Pos.pow 10 p) 0))
  | _ => f2pow (Zpos m * Z.pow 10 e) 0
  end.
Definition dec (m e : Z) : f64 :=
  match m with
  | Z0 => f0
  | Zpos p => dec_pos p e
  | Zneg p => fneg (dec_pos p e)
  end.

Definition f1 : f64 := fofZ 1.
Definition fn1 : f64 := fofZ (-1).
Definition f2 : f64 := fofZ 2.
Definition f10 : f64 := fofZ 10.
Definition fhalf : f64 := f2pow 1 (-1).
(** [f64::EPSILON] = 2^-52. *)
Definition feps : f64 := f2pow 1 (-52).

(** [std::num::FpCategory] and [f64::classify]. *)
Inductive fpcat := FpNan | FpInfinite | FpZero | FpSubnormal | FpNormal.
Definition fclassify (a : f64) : fpcat :=
  match a with
  | B754_nan => FpNan
  | B754_infinity _ => FpInfinite
  | B754_zero _ => FpZero
  | B754_finite _ m _ _ =>
      (* fewer than 53 significant bits stored <=> subnormal *)
      if Zlt_bool (Zpos m) (2 ^ 52) then FpSubnormal else FpNormal
  end.
Definition fpcat_eqb (a b : fpcat) : bool :=
  match a, b with
  | FpNan, FpNan | FpInfinite, FpInfinite | FpZero, FpZero
  | FpSubnormal, FpSubnormal | FpNormal, FpNormal => true
  | _, _ => false
  end.

(** Saturating float-to-integer casts ([as i32], [as u8], ...): NaN gives 0. *)
Definition sat (lo hi : Z) (a : f64) : Z :=
  match a with
  | B754_nan => 0
  | B754_infinity s => if s then lo else hi
  | _ => Z.max lo (Z.min hi (Btrunc a))
  end.
Definition as_i32 (a : f64) : Z := sat (-2147483648) 2147483647 a.
Definition as_u8 (a : f64) : Z := sat 0 255 a.

(** [%] on [f64] (C fmod, exact, sign of the dividend). *)
Definition fmodf (x y : f64) : f64 :=
  match x, y with
  | B754_finite sx mx ex _, B754_finite _ my ey _ =>
      let e := Z.min ex ey in
      let r := Z.rem (Zpos mx * 2 ^ (ex - e)) (Zpos my * 2 ^ (ey - e)) in
      if Z.eqb r 0 then B754_zero sx
      else f2pow (if sx then - r else r) e
  | B754_zero s, B754_finite _ _ _ _ => x
  | B754_zero s, B754_infinity _ => x
  | B754_finite _ _ _ _, B754_infinity _ => x
  | _, _ => B754_nan
  end.

(** [f64::powi] as compiler-rt's [__powidf2] (what LLVM emits): square and
    multiply on |n|, one reciprocal at the end for a negative exponent. *)
Fixpoint powi_loop (r a : f64) (p : positive) : f64 :=
  match p with
  | xH => fmul r a
  | xO p' => powi_loop r (fmul a a) p'
  | xI p' => powi_loop (fmul r a) (fmul a a) p'
  end.
Definition fpowi (a : f64) (n : Z) : f64 :=
  match n with
  | Z0 => f1
  | Zpos p => powi_loop f1 a p
  | Zneg p => fdiv f1 (powi_loop f1 a p)
  end.

(** i32 arithmetic.  [dbg] = overflow checks on (debug profile, panics) or off
    (release profile, wraps). *)
Definition i32_min : Z := -2147483648.
Definition i32_max : Z := 2147483647.
Definition wrap32 (z : Z) : Z := (z + 2147483648) mod 4294967296 - 2147483648.
Definition i32_chk (dbg : bool) (z : Z) : outcome Z :=
  if (i32_min <=? z) && (z <=? i32_max) then Val z
  else if dbg then Panicked else Val (wrap32 z).

(** The parts of the platform the crate calls but does not define (libm, and
    the standard library's shortest decimal printing of [f64]).  Theorems
    quantify over every such record.  Text is a list of Unicode code points. *)
Record libm := {
  lm_ln : f64 -> f64;        (* f64::ln *)
  lm_exp : f64 -> f64;       (* f64::exp *)
  lm_log10 : f64 -> f64;     (* f64::log10 *)
  lm_log2 : f64 -> f64;      (* f64::log2 *)
  lm_atan2 : f64 -> f64 -> f64;  (* f64::atan2 *)
  lm_to_string : f64 -> list Z   (* f64::to_string *)
}.
