(** * Model of src/double/*.rs: arithmetic, comparison, misc, alg, integers

    [match self.pre_xxx() { Some(r) => r, None => ... }] becomes [from_pre]. *)
From Coq Require Import ZArith List Bool.
From Verif Require Import F64 Prim.
Import ListNotations.
Local Open Scope Z_scope.

(** src/double.rs:94-95 [pub struct Double(f64, f64)]; src/double.rs:116-118 [new] *)
Record Double := mkD { d0 : f64; d1 : f64 }.
Definition d_new (a b : f64) : Double := mkD a b.

Definition from_pre {A} (o : option A) (k : A) : A := match o with Some r => r | None => k end.

(** src/double/aconsts.rs:50-69 *)
Definition D_NAN := mkD fnan f0.
Definition D_INFINITY := mkD finf f0.
Definition D_NEG_INFINITY := mkD fninf f0.
Definition D_ZERO := mkD f0 f0.
Definition D_NEG_ZERO := mkD fn0 f0.
Definition D_ONE := mkD f1 f0.
Definition D_NEG_ONE := mkD fn1 f0.

(** src/double/misc.rs:200-202, 224-226, 238-240, 255-257, 272-274, 288-290,
    303-305, 318-320, 338-340 *)
Definition d_classify (x : Double) : fpcat := fclassify (d0 x).
Definition d_is_normal (x : Double) : bool := fpcat_eqb (d_classify x) FpNormal.
Definition d_is_zero (x : Double) : bool := feqb (d0 x) f0.
Definition d_is_sign_negative (x : Double) : bool := fsign_neg (d0 x).
Definition d_is_sign_positive (x : Double) : bool := fsign_pos (d0 x).
Definition d_is_nan (x : Double) : bool := fis_nan (d0 x).
Definition d_is_infinite (x : Double) : bool := fis_infinite (d0 x).
Definition d_is_finite (x : Double) : bool := fis_finite (d0 x).
Definition d_is_subnormal (x : Double) : bool := fpcat_eqb (d_classify x) FpSubnormal.

(** src/double/neg.rs:26-28 and 48-50 *)
Definition d_neg (x : Double) : Double := mkD (fneg (d0 x)) (fneg (d1 x)).
Definition d_neg_ref (x : Double) : Double := mkD (fneg (d0 x)) (fneg (d1 x)).

(** src/double/add.rs:168-198 *)
Definition d_pre_add (x y : Double) : option Double :=
  if d_is_nan x || d_is_nan y then Some D_NAN
  else if d_is_infinite x then
    if d_is_infinite y then
      if d_is_sign_positive x then
        if d_is_sign_positive y then Some D_INFINITY else Some D_NAN
      else if d_is_sign_negative y then Some D_NEG_INFINITY else Some D_NAN
    else if d_is_sign_positive x then Some D_INFINITY else Some D_NEG_INFINITY
  else if d_is_infinite y then
    if d_is_sign_positive y then Some D_INFINITY else Some D_NEG_INFINITY
  else None.

(** src/double/add.rs:28-39 *)
Definition d_add (x y : Double) : Double :=
  from_pre (d_pre_add x y)
    (let '(s0, e0) := two_sum (d0 x) (d0 y) in
     let '(s1, e1) := two_sum (d1 x) (d1 y) in
     let '(s2, e2) := quick_two_sum s0 (fadd s1 e0) in
     let '(a, b) := renorm2 s2 (fadd e1 e2) in
     mkD a b).

(** src/double/sub.rs:171-201 *)
Definition d_pre_sub (x y : Double) : option Double :=
  if d_is_nan x || d_is_nan y then Some D_NAN
  else if d_is_infinite x then
    if d_is_infinite y then
      if d_is_sign_positive x then
        if d_is_sign_positive y then Some D_NAN else Some D_INFINITY
      else if d_is_sign_negative y then Some D_NAN else Some D_NEG_INFINITY
    else if d_is_sign_positive x then Some D_INFINITY else Some D_NEG_INFINITY
  else if d_is_infinite y then
    if d_is_sign_positive y then Some D_NEG_INFINITY else Some D_INFINITY
  else None.

(** src/double/sub.rs:28-39 *)
Definition d_sub (x y : Double) : Double :=
  from_pre (d_pre_sub x y)
    (let '(s0, e0) := two_diff (d0 x) (d0 y) in
     let '(s1, e1) := two_diff (d1 x) (d1 y) in
     let '(s2, e2) := quick_two_sum s0 (fadd s1 e0) in
     let '(a, b) := renorm2 s2 (fadd e1 e2) in
     mkD a b).

(** src/double/mul.rs:167-195 *)
Definition d_pre_mul (x y : Double) : option Double :=
  if d_is_nan x || d_is_nan y then Some D_NAN
  else if d_is_zero x then
    if d_is_infinite y then Some D_NAN
    else if Bool.eqb (d_is_sign_positive x) (d_is_sign_positive y) then Some D_ZERO
    else Some D_NEG_ZERO
  else if d_is_infinite x then
    if d_is_zero y then Some D_NAN
    else if Bool.eqb (d_is_sign_positive x) (d_is_sign_positive y) then Some D_INFINITY
    else Some D_NEG_INFINITY
  else if d_is_infinite y then
    if Bool.eqb (d_is_sign_positive x) (d_is_sign_positive y) then Some D_INFINITY
    else Some D_NEG_INFINITY
  else None.

(** src/double/mul.rs:28-37 *)
Definition d_mul (x y : Double) : Double :=
  from_pre (d_pre_mul x y)
    (let '(p, e) := two_prod (d0 x) (d0 y) in
     let '(a, b) := renorm2 p (fadd (fadd e (fmul (d0 x) (d1 y))) (fmul (d1 x) (d0 y))) in
     mkD a b).

(** src/double/mul.rs:28-37 with the [cfg(no_fma)] two_prod *)
Definition d_mul_nofma (x y : Double) : Double :=
  from_pre (d_pre_mul x y)
    (let '(p, e) := two_prod_nofma (d0 x) (d0 y) in
     let '(a, b) := renorm2 p (fadd (fadd e (fmul (d0 x) (d1 y))) (fmul (d1 x) (d0 y))) in
     mkD a b).

(** src/double/div.rs:15-19 *)
Definition d_mul_f64 (a : Double) (b : f64) : Double :=
  let '(p, e) := two_prod (d0 a) b in
  let '(r0, r1) := renorm2 p (fadd e (fmul (d1 a) b)) in
  mkD r0 r1.

(** src/double/div.rs:182-210 *)
Definition d_pre_div (x y : Double) : option Double :=
  if d_is_nan x || d_is_nan y then Some D_NAN
  else if d_is_zero y then
    if d_is_zero x then Some D_NAN
    else if Bool.eqb (d_is_sign_negative x) (d_is_sign_positive y) then Some D_NEG_INFINITY
    else Some D_INFINITY
  else if d_is_infinite x then
    if d_is_infinite y then Some D_NAN
    else if Bool.eqb (d_is_sign_positive x) (d_is_sign_positive y) then Some D_INFINITY
    else Some D_NEG_INFINITY
  else if d_is_infinite y then
    if Bool.eqb (d_is_sign_positive x) (d_is_sign_positive y) then Some D_ZERO
    else Some D_NEG_ZERO
  else None.

(** src/double/div.rs:38-54 *)
Definition d_div (x y : Double) : Double :=
  from_pre (d_pre_div x y)
    (let q1 := fdiv (d0 x) (d0 y) in
     let r := d_sub x (d_mul_f64 y q1) in
     let q2 := fdiv (d0 r) (d0 y) in
     let r := d_sub r (d_mul_f64 y q2) in
     let q3 := fdiv (d0 r) (d0 y) in
     let '(a, b) := renorm3 q1 q2 q3 in
     mkD a b).

(** src/double/comp.rs:33-35 *)
Definition d_eq (x y : Double) : bool := feqb (d0 x) (d0 y) && feqb (d1 x) (d1 y).
(** src/double/comp.rs:56-61 *)
Definition d_partial_cmp (x y : Double) : option comparison :=
  match fcmp (d0 x) (d0 y) with
  | Some Eq => fcmp (d1 x) (d1 y)
  | c => c
  end.
(** [<], [<=], [>], [>=]: the default methods of Rust's [PartialOrd], defined
    from [partial_cmp]. *)
Definition d_lt x y := match d_partial_cmp x y with Some Lt => true | _ => false end.
Definition d_le x y := match d_partial_cmp x y with Some Lt | Some Eq => true | _ => false end.
Definition d_gt x y := match d_partial_cmp x y with Some Gt => true | _ => false end.
Definition d_ge x y := match d_partial_cmp x y with Some Gt | Some Eq => true | _ => false end.

(** src/double/misc.rs:21-27 *)
Definition d_abs (x : Double) : Double := if d_is_sign_negative x then d_neg x else x.

(** src/double/misc.rs:43-52 *)
Definition d_floor (x : Double) : Double :=
  let hi := ffloor (d0 x) in
  if fltb (fabs (fsub hi (d0 x))) feps then
    let '(a, b) := renorm2 hi (ffloor (d1 x)) in mkD a b
  else mkD hi f0.

(** src/double/misc.rs:68-77 *)
Definition d_ceil (x : Double) : Double :=
  let hi := fceil (d0 x) in
  if fltb (fabs (fsub hi (d0 x))) feps then
    let '(a, b) := renorm2 hi (fceil (d1 x)) in mkD a b
  else mkD hi f0.

(** src/double/misc.rs:94-106 *)
Definition d_round (x : Double) : Double :=
  let hi := fround (d0 x) in
  if fltb (fabs (fsub hi (d0 x))) feps then
    let lo := fround (d1 x) in
    let '(a, b) := renorm2 hi lo in mkD a b
  else if fltb (fabs (fsub (fabs (fsub hi (d0 x))) fhalf)) feps && fltb (d1 x) f0 then
    mkD (fsub hi f1) f0
  else mkD hi f0.

(** src/double/misc.rs:120-126 *)
Definition d_trunc (x : Double) : Double :=
  if fgeb (d0 x) f0 then d_floor x else d_ceil x.

(** src/double/misc.rs:143-145 *)
Definition d_fract (x : Double) : Double := d_sub x (d_trunc x).

(** src/double/misc.rs:165-173 *)
Definition d_signum (x : Double) : Double :=
  if d_is_nan x then D_NAN
  else if d_is_sign_negative x then D_NEG_ONE
  else D_ONE.

(** src/double/rem.rs:33-36; the reference forms 63-66, 93-96, 123-126 *)
Definition d_rem (x y : Double) : Double := d_sub x (d_mul y (d_floor (d_div x y))).
Definition d_rem_rr (x y : Double) : Double :=
  let n := d_floor (d_div x y) in d_sub x (d_mul y n).
Definition d_rem_vr (x y : Double) : Double :=
  let n := d_floor (d_div x y) in d_sub x (d_mul y n).
Definition d_rem_rv (x y : Double) : Double :=
  let n := d_floor (d_div x y) in d_sub x (d_mul y n).

(** Reference forms of the operators.
    src/double/add.rs:59-61, 82-84, 105-107; sub.rs:60-62, 84-86, 108-110;
    mul.rs:58-60, 81-83, 104-106; div.rs:73-75, 96-98, 119-121 *)
Definition d_add_rr x y := d_add x y.
Definition d_add_vr x y := d_add x y.
Definition d_add_rv x y := d_add x y.
Definition d_sub_rr x y := d_sub x y.
Definition d_sub_vr x y := d_sub x y.
Definition d_sub_rv x y := d_sub x y.
Definition d_mul_rr x y := d_mul x y.
Definition d_mul_vr x y := d_mul x y.
Definition d_mul_rv x y := d_mul x y.
Definition d_div_rr x y := d_div x y.
Definition d_div_vr x y := d_div x y.
Definition d_div_rv x y := d_div x y.

(** Assignment forms: compute, then overwrite both fields.
    src/double/add.rs:126-130, 150-154; sub.rs:129-133, 153-157;
    mul.rs:125-129, 149-153; div.rs:140-144, 164-168; rem.rs:153-157, 184-188 *)
Definition d_assign (self r : Double) : Double :=
  let self := mkD (d0 r) (d1 self) in
  mkD (d0 self) (d1 r).
Definition d_add_assign self y := d_assign self (d_add self y).
Definition d_sub_assign self y := d_assign self (d_sub self y).
Definition d_mul_assign self y := d_assign self (d_mul self y).
Definition d_div_assign self y := d_assign self (d_div self y).
Definition d_rem_assign self y := d_assign self (d_rem self y).

(** src/double/iter.rs:26-31, 46-51, 66-71, 86-91; an iterator is the list of
    the items it yields *)
Definition d_sum (l : list Double) : Double := fold_left d_add l D_ZERO.
Definition d_product (l : list Double) : Double := fold_left d_mul l D_ONE.

(** src/double/common.rs:11-13 *)
Definition d_mul_pwr2 (a : Double) (b : f64) : Double := mkD (fmul (d0 a) b) (fmul (d1 a) b).

(** src/double/alg.rs:28-31 *)
Definition d_ldexp (x : Double) (n : Z) : Double :=
  let factor := fpowi f2 n in
  mkD (fmul (d0 x) factor) (fmul (d1 x) factor).

(** src/double/alg.rs:251-257 and 46-55 *)
Definition d_pre_sqr (x : Double) : option Double :=
  if d_is_infinite x then Some D_INFINITY else None.
Definition d_sqr (x : Double) : Double :=
  from_pre (d_pre_sqr x)
    (let '(p, e) := two_sqr (d0 x) in
     let '(a, b) := renorm2 p
        (fadd (fadd e (fmul (fmul f2 (d0 x)) (d1 x))) (fmul (d1 x) (d1 x))) in
     mkD a b).

(** src/double/alg.rs:237-239 *)
Definition d_recip (x : Double) : Double := d_div D_ONE x.

(** src/double/alg.rs:314-346.  [n % 2 == 0] on i32 is evenness. *)
Definition d_pre_powi (x : Double) (n : Z) : option Double :=
  if n =? 0 then Some D_ONE
  else if d_is_nan x then Some D_NAN
  else if d_is_zero x then
    if Z.even n || d_is_sign_positive x then
      if n >? 0 then Some D_ZERO else Some D_INFINITY
    else if n >? 0 then Some D_NEG_ZERO else Some D_NEG_INFINITY
  else if d_is_infinite x then
    if Z.even n || d_is_sign_positive x then
      if n >? 0 then Some D_INFINITY else Some D_ZERO
    else if n >? 0 then Some D_NEG_INFINITY else Some D_NEG_ZERO
  else None.

(** src/double/alg.rs:170-178, the loop [while i > 0] on a positive [i]: an odd
    [i] multiplies, [i /= 2], and a nonzero [i] squares. *)
Fixpoint d_powi_loop (s r : Double) (i : positive) : Double :=
  match i with
  | xH => d_mul s r
  | xO i' => d_powi_loop s (d_sqr r) i'
  | xI i' => d_powi_loop (d_mul s r) (d_sqr r) i'
  end.

(** src/double/alg.rs:161-190.  [n.abs()] overflows for i32::MIN: panic with
    overflow checks, wrap to i32::MIN without. *)
Definition d_powi (dbg : bool) (x : Double) (n : Z) : outcome Double :=
  match d_pre_powi x n with
  | Some r => Val r
  | None =>
      let* i := i32_chk dbg (Z.abs n) in
      let s := if i >? 1 then d_powi_loop D_ONE x (Z.to_pos i) else x in
      Val (if n <? 0 then d_recip s else s)
  end.

(** src/double/from.rs:11-15, 17-21, 23-39 ([as u32] keeps the low 32 bits) *)
Definition split_u64 (a : Z) : Z * Z := (a / 2 ^ 32, a mod 2 ^ 32).
Definition d_from_u64 (a : Z) : Double :=
  let '(x, y) := split_u64 a in
  let '(a, b) := renorm2 (fmul (fofZ x) (fpowi f2 32)) (fofZ y) in
  mkD a b.
Definition i64_min : Z := -9223372036854775808.
Definition i64_max : Z := 9223372036854775807.
Definition d_from_i64 (a : Z) : Double :=
  let sign := Z.sgn a in
  let a := if a =? i64_min then i64_max + 1 else Z.abs a in
  let '(x, y) := split_u64 a in
  let '(a, b) := renorm2 (fmul (fofZ x) (fpowi f2 32)) (fofZ y) in
  if sign =? -1 then mkD (fneg a) (fneg b) else mkD a b.
(** src/double/from.rs:59-61: i8, u8, i16, u16, i32, u32 *)
Definition d_from_small (a : Z) : Double := mkD (fofZ a) f0.

(** src/double/from.rs:287-289, 344-346, 366-368 *)
Definition d_from_tuple (t : f64 * f64) : Double := mkD (fst t) (snd t).
Definition d_to_f64 (x : Double) : f64 := d0 x.
Definition d_to_tuple (x : Double) : f64 * f64 := (d0 x, d1 x).

(** src/double.rs:146-155; [idx] is a usize *)
Definition d_index (x : Double) (idx : Z) : outcome f64 :=
  match idx with
  | 0 => Val (d0 x)
  | 1 => Val (d1 x)
  | _ => Panicked
  end.
