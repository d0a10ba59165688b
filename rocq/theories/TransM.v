(** * Model of the transcendental functions

    src/double/trans.rs, trig.rs, hyper.rs, the end of alg.rs, and the same
    files of src/quad.  A function returns [outcome] when some argument can make
    it panic (table index, i32 overflow, [From<f64>]).  The two halves differ
    only where the sources differ.  Generated from one template. *)
From Coq Require Import ZArith List Bool.
From Verif Require Import F64 Prim DoubleM QuadM ParseM AlgM ConstM.
Import ListNotations.
Local Open Scope Z_scope.

(** ** Double *)

(** src/double/trans.rs:271-285 *)
Definition d_pre_exp (x : Double) : option Double :=
  if fltb (d0 x) (fofZ (-600)) then Some D_ZERO
  else if fgtb (d0 x) (fofZ 708) then Some D_INFINITY
  else if d_is_nan x then Some D_NAN
  else if d_is_zero x then Some D_ONE
  else if d_eq x D_ONE then Some D_E
  else None.
(** src/double/trans.rs:85-93: the Taylor loop.  [n] counts the iterations left
    before [i >= 5]: i = 5 - n on entry.  Result: r and the last term t. *)
Fixpoint d_exp_loop (n : nat) (i : nat) (x eps r p t : Double) : Double * Double :=
  match n with
  | O => (r, t)
  | S n' =>
      let r := d_add r t in
      let p := d_mul p x in
      let i := S i in
      let t := d_mul p (nth i D_INV_FACTS D_ZERO) in
      if d_le (d_abs t) eps then (r, t) else d_exp_loop n' i x eps r p t
  end.
(** src/double/trans.rs:100-108: r := 2r + r^2, repeated *)
Fixpoint d_exp_square (n : nat) (r : Double) : Double :=
  match n with
  | O => r
  | S n' => d_exp_square n' (d_add (d_mul_pwr2 r f2) (d_sqr r))
  end.
(** src/double/trans.rs:68-74: m and the reduced argument *)
Definition d_exp_m (a : Double) : f64 := ffloor (fadd (fdiv (d0 a) (d0 D_LN_2)) fhalf).
Definition d_exp_x (a : Double) : Double :=
  d_mul (d_sub a (d_mul D_LN_2 (mkD (d_exp_m a) f0))) D_INV_K.
(** src/double/trans.rs:77-97: exp(x) - 1 for the reduced x *)
Definition d_exp_small (x : Double) : Double :=
  let eps := d_mul_pwr2 D_EPSILON (d0 D_INV_K) in
  let p := d_sqr x in
  let r := d_add x (d_mul_pwr2 p fhalf) in
  let p := d_mul p x in
  let t := d_mul p (nth 0 D_INV_FACTS D_ZERO) in
  let '(r, t) := d_exp_loop 5 0 x eps r p t in
  d_add r t.
(** src/double/trans.rs:36-117 *)
Definition d_exp (a : Double) : Double :=
  from_pre (d_pre_exp a)
    (let r := d_exp_square 9 (d_exp_small (d_exp_x a)) in
     let r := d_add r D_ONE in
     d_ldexp r (as_i32 (d_exp_m a))).

(** src/double/trans.rs:288-302 *)
Definition d_pre_ln (x : Double) : option Double :=
  if d_is_nan x then Some D_NAN
  else if d_is_sign_negative x then Some D_NAN
  else if d_is_zero x then Some D_NEG_INFINITY
  else if d_is_infinite x then Some D_INFINITY
  else if d_eq x D_ONE then Some D_ZERO
  else None.
(** src/double/trans.rs:171-179: the loop stops at the latest when i > 5; [n] = 6 - i *)
Fixpoint d_ln_loop (n : nat) (a eps x : Double) : Double :=
  let r := d_sub (d_add x (d_mul a (d_exp (d_neg x)))) D_ONE in
  if d_lt (d_abs (d_sub x r)) eps then r
  else match n with O => r | S n' => d_ln_loop n' a eps r end.
(** src/double/trans.rs:144-182 *)
Definition d_ln (lm : libm) (dbg : bool) (a : Double) : outcome Double :=
  match d_pre_ln a with
  | Some r => Val r
  | None =>
      let x := mkD (lm_ln lm (d0 a)) f0 in
      let k := as_i32 (ffloor (lm_log2 lm (fabs (d0 x)))) in
      let* k2 := i32_chk dbg (k + 2) in
      let eps := d_mul_pwr2 D_EPSILON (fpowi f2 k2) in
      Val (d_ln_loop 6 a eps x)
  end.
(** src/double/trans.rs:204-206, 227-229, 305-313, 254-259 *)
Definition d_log10 (lm : libm) (dbg : bool) (x : Double) : outcome Double :=
  let* l := d_ln lm dbg x in Val (d_div l D_LN_10).
Definition d_log2 (lm : libm) (dbg : bool) (x : Double) : outcome Double :=
  let* l := d_ln lm dbg x in Val (d_div l D_LN_2).
Definition d_pre_log (x b : Double) : option Double :=
  if d_is_nan x then Some D_NAN
  else if d_is_sign_negative b || d_is_zero b then Some D_NAN
  else None.
Definition d_log (lm : libm) (dbg : bool) (x b : Double) : outcome Double :=
  match d_pre_log x b with
  | Some r => Val r
  | None =>
      let* l := d_ln lm dbg x in
      let* m := d_ln lm dbg b in
      Val (d_div l m)
  end.

(** src/double/alg.rs:349-369 and 218-223 *)
Definition d_pre_powf (x n : Double) : option Double :=
  if d_is_zero x then
    if d_is_zero n then Some D_NAN
    else if d_is_sign_positive n then Some D_ZERO else Some D_INFINITY
  else if d_is_infinite n then
    if d_eq x D_ONE then Some D_NAN
    else if d_is_sign_positive n then Some D_INFINITY else Some D_ZERO
  else None.
Definition d_powf (lm : libm) (dbg : bool) (x n : Double) : outcome Double :=
  match d_pre_powf x n with
  | Some r => Val r
  | None => let* l := d_ln lm dbg x in Val (d_exp (d_mul n l))
  end.

(** src/double/trig.rs:455-476: [n] bounds the iterations: i reaches the table's
    length after (15 - i)/2 rounded up steps *)
Fixpoint d_taylor_loop (n i : nat) (x threshold s r : Double) : Double :=
  match n with
  | O => s
  | S n' =>
      let r := d_mul r x in
      let t := d_mul r (nth i D_INV_FACTS D_ZERO) in
      let s := d_add s t in
      let i := S (S i) in
      if d_le (d_abs t) threshold then s else d_taylor_loop n' i x threshold s r
  end.
Definition d_sin_taylor (a : Double) : Double :=
  if d_is_zero a then D_ZERO
  else
    let threshold := d_mul_pwr2 (d_mul (d_abs a) D_EPSILON) fhalf in
    d_taylor_loop 8 0 (d_neg (d_sqr a)) threshold a a.
(** src/double/trig.rs:480-501 *)
Definition d_cos_taylor (a : Double) : Double :=
  if d_is_zero a then D_ONE
  else
    let threshold := d_mul_pwr2 D_EPSILON fhalf in
    let x := d_neg (d_sqr a) in
    d_taylor_loop 7 1 x threshold (d_add D_ONE (d_mul_pwr2 x fhalf)) x.
(** src/double/trig.rs:506-513 *)
Definition d_sincos_taylor (lm : libm) (dbg : bool) (a : Double) : outcome (Double * Double) :=
  if d_is_zero a then Val (D_ZERO, D_ONE)
  else
    let sin_a := d_sin_taylor a in
    let* c := d_sqrt lm dbg (d_sub D_ONE (d_sqr sin_a)) in
    Val (sin_a, c).
(** src/double/trig.rs:521-537 *)
Definition d_reduce (a : Double) : Z * Z * Double :=
  let z := d_round (d_div a D_TAU) in
  let r := d_sub a (d_mul z D_TAU) in
  let q := ffloor (fadd (fdiv (d0 r) (d0 D_FRAC_PI_2)) fhalf) in
  let t := d_sub r (d_mul (mkD q f0) D_FRAC_PI_2) in
  let j := as_i32 q in
  let q := ffloor (fadd (fdiv (d0 t) (d0 D_FRAC_PI_16)) fhalf) in
  let t := d_sub t (d_mul (mkD q f0) D_FRAC_PI_16) in
  let k := as_i32 q in
  (j, k, t).
(** [COSINES[abs_k - 1]] and [SINES[abs_k - 1]] for k <> 0, with
    [abs_k = k.abs() as usize].  Out of range indices panic; so does [k.abs()]
    on i32::MIN in a debug build, and in a release build it wraps to a huge
    usize, which is out of range too. *)
Definition d_cos_sin_entry (k : Z) : outcome (Double * Double) :=
  if Z.abs k <=? 4 then
    Val (nth (Z.to_nat (Z.abs k - 1)) D_COSINES D_ZERO, nth (Z.to_nat (Z.abs k - 1)) D_SINES D_ZERO)
  else Panicked.

(** src/double/trig.rs:349-379 *)
Definition d_pre_sin_cos (x : Double) : option (Double * Double) :=
  if d_is_zero x then Some (D_ZERO, D_ONE)
  else if negb (d_is_finite x) then Some (D_NAN, D_NAN)
  else None.
Definition d_pre_sin (x : Double) : option Double :=
  if d_is_zero x then Some x
  else if negb (d_is_finite x) then Some D_NAN
  else None.
Definition d_pre_cos (x : Double) : option Double :=
  if d_is_zero x then Some D_ONE
  else if negb (d_is_finite x) then Some D_NAN
  else None.
(** src/double/trig.rs:30-59 *)
Definition d_sin_cos (lm : libm) (dbg : bool) (a : Double) : outcome (Double * Double) :=
  match d_pre_sin_cos a with
  | Some r => Val r
  | None =>
      let '(j, k, t) := d_reduce a in
      let* (sin_t, cos_t) := d_sincos_taylor lm dbg t in
      let* (s, c) :=
        (if k =? 0 then Val (sin_t, cos_t)
         else
           let* (u, v) := d_cos_sin_entry k in
           Val (if k >? 0
                then (d_add (d_mul u sin_t) (d_mul v cos_t), d_sub (d_mul u cos_t) (d_mul v sin_t))
                else (d_sub (d_mul u sin_t) (d_mul v cos_t), d_add (d_mul u cos_t) (d_mul v sin_t)))) in
      Val (if j =? 0 then (s, c)
           else if j =? 1 then (c, d_neg s)
           else if j =? -1 then (d_neg c, s)
           else (d_neg s, d_neg c))
  end.
(** src/double/trig.rs:75-121 *)
Definition d_sin (lm : libm) (dbg : bool) (a : Double) : outcome Double :=
  match d_pre_sin a with
  | Some r => Val r
  | None =>
      let '(j, k, t) := d_reduce a in
      if k =? 0 then
        Val (if j =? 0 then d_sin_taylor t
             else if j =? 1 then d_cos_taylor t
             else if j =? -1 then d_neg (d_cos_taylor t)
             else d_neg (d_sin_taylor t))
      else
        let* (u, v) := d_cos_sin_entry k in
        let* (sin_t, cos_t) := d_sincos_taylor lm dbg t in
        Val (if k >? 0 then
               if j =? 0 then d_add (d_mul u sin_t) (d_mul v cos_t)
               else if j =? 1 then d_sub (d_mul u cos_t) (d_mul v sin_t)
               else if j =? -1 then d_add (d_mul (d_neg u) cos_t) (d_mul v sin_t)
               else d_sub (d_mul (d_neg u) sin_t) (d_mul v cos_t)
             else
               if j =? 0 then d_sub (d_mul u sin_t) (d_mul v cos_t)
               else if j =? 1 then d_add (d_mul u cos_t) (d_mul v sin_t)
               else if j =? -1 then d_sub (d_mul (d_neg u) cos_t) (d_mul v sin_t)
               else d_add (d_mul (d_neg u) sin_t) (d_mul v cos_t))
  end.
(** src/double/trig.rs:137-174 *)
Definition d_cos (lm : libm) (dbg : bool) (a : Double) : outcome Double :=
  match d_pre_cos a with
  | Some r => Val r
  | None =>
      let '(j, k, t) := d_reduce a in
      if k =? 0 then
        Val (if j =? 0 then d_cos_taylor t
             else if j =? 1 then d_neg (d_sin_taylor t)
             else if j =? -1 then d_sin_taylor t
             else d_neg (d_cos_taylor t))
      else
        let* (u, v) := d_cos_sin_entry k in
        let* (sin_t, cos_t) := d_sincos_taylor lm dbg t in
        Val (if k >? 0 then
               if j =? 0 then d_sub (d_mul u cos_t) (d_mul v sin_t)
               else if j =? 1 then d_sub (d_mul (d_neg u) sin_t) (d_mul v cos_t)
               else if j =? -1 then d_add (d_mul u sin_t) (d_mul v cos_t)
               else d_add (d_mul (d_neg u) cos_t) (d_mul v sin_t)
             else
               if j =? 0 then d_add (d_mul u cos_t) (d_mul v sin_t)
               else if j =? 1 then d_sub (d_mul v cos_t) (d_mul u sin_t)
               else if j =? -1 then d_sub (d_mul u sin_t) (d_mul v cos_t)
               else d_sub (d_mul (d_neg u) cos_t) (d_mul v sin_t))
  end.
(** src/double/trig.rs:189-192 *)
Definition d_tan (lm : libm) (dbg : bool) (a : Double) : outcome Double :=
  let* (s, c) := d_sin_cos lm dbg a in Val (d_div s c).

(** src/double/trig.rs:382-424; x is [other], y is [self] *)
Definition d_pre_atan2 (y x : Double) : option Double :=
  if d_is_zero x then
    if d_is_zero y then Some D_NAN
    else if d_is_sign_positive y then Some D_FRAC_PI_2
    else Some (d_neg D_FRAC_PI_2)
  else if d_is_zero y then
    if d_is_sign_positive x then Some D_ZERO else Some D_PI
  else if d_is_infinite y then
    if d_is_infinite x then Some D_NAN
    else if d_is_sign_positive y then Some D_FRAC_PI_2
    else Some (d_neg D_FRAC_PI_2)
  else if d_is_infinite x then Some D_ZERO
  else if d_is_nan y || d_is_nan x then Some D_NAN
  else if d_eq y x then
    if d_is_sign_positive y then Some D_FRAC_PI_4 else Some (d_neg D_FRAC_3_PI_4)
  else if d_eq y (d_neg x) then
    if d_is_sign_positive y then Some D_FRAC_3_PI_4 else Some (d_neg D_FRAC_PI_4)
  else None.
(** src/double/trig.rs:265-273: one correction of z *)
Definition d_atan2_step (lm : libm) (dbg : bool) (y x z : Double) : outcome Double :=
  let* (sin_z, cos_z) := d_sin_cos lm dbg z in
  Val (if fgtb (fabs (d0 x)) (fabs (d0 y))
       then d_add z (d_div (d_sub y sin_z) cos_z)
       else d_sub z (d_div (d_sub x cos_z) sin_z)).
(** src/double/trig.rs:239-277 *)
Definition d_atan2 (lm : libm) (dbg : bool) (y x : Double) : outcome Double :=
  match d_pre_atan2 y x with
  | Some r => Val r
  | None =>
      let* r := d_sqrt lm dbg (d_add (d_sqr y) (d_sqr x)) in
      let x' := d_div x r in
      let y' := d_div y r in
      let* z := d_from_f64 lm dbg (lm_atan2 lm (d0 y) (d0 x)) in
      d_atan2_step lm dbg y' x' z
  end.
(** src/double/trig.rs:427-450 *)
Definition d_pre_asin (x : Double) : option Double :=
  if d_gt (d_abs x) D_ONE then Some D_NAN
  else if d_eq x D_ONE then Some D_FRAC_PI_2
  else if d_eq x D_NEG_ONE then Some (d_neg D_FRAC_PI_2)
  else None.
Definition d_pre_acos (x : Double) : option Double :=
  if d_gt (d_abs x) D_ONE then Some D_NAN
  else if d_eq x D_ONE then Some D_ZERO
  else if d_eq x D_NEG_ONE then Some D_PI
  else None.
(** src/double/trig.rs:294-337 *)
Definition d_asin (lm : libm) (dbg : bool) (x : Double) : outcome Double :=
  match d_pre_asin x with
  | Some r => Val r
  | None => let* c := d_sqrt lm dbg (d_sub D_ONE (d_sqr x)) in d_atan2 lm dbg x c
  end.
Definition d_acos (lm : libm) (dbg : bool) (x : Double) : outcome Double :=
  match d_pre_acos x with
  | Some r => Val r
  | None => let* s := d_sqrt lm dbg (d_sub D_ONE (d_sqr x)) in d_atan2 lm dbg s x
  end.
Definition d_atan (lm : libm) (dbg : bool) (x : Double) : outcome Double := d_atan2 lm dbg x D_ONE.

(** src/double/hyper.rs:234-242, 245-255, 258-268, 271-309 *)
Definition d_pre_sinh_cosh (x : Double) : option (Double * Double) :=
  if d_is_nan x then Some (D_NAN, D_NAN)
  else if d_is_zero x then Some (D_ZERO, D_ONE)
  else None.
Definition d_pre_sinh (x : Double) : option Double :=
  if d_is_nan x then Some D_NAN
  else if d_is_zero x then Some x
  else if d_is_infinite x then Some x
  else None.
Definition d_pre_cosh (x : Double) : option Double :=
  if d_is_nan x then Some D_NAN
  else if d_is_zero x then Some D_ONE
  else if d_is_infinite x then Some D_INFINITY
  else None.
Definition d_pre_tanh (x : Double) : option Double :=
  if d_is_nan x then Some D_NAN
  else if d_is_zero x then Some D_ZERO
  else if d_is_infinite x then Some (d_signum x)
  else None.
Definition d_pre_asinh (x : Double) : option Double :=
  if d_is_zero x then Some x
  else if d_is_infinite x then
    if d_is_sign_positive x then Some D_INFINITY else Some D_NEG_INFINITY
  else None.
Definition d_pre_acosh (x : Double) : option Double :=
  if d_lt x D_ONE then Some D_NAN
  else if d_eq x D_ONE then Some D_ZERO
  else if d_is_infinite x then Some D_INFINITY
  else None.
(** src/double/hyper.rs:91-99: the loop [m += 2; t *= r; t /= (m-1)m; s += t] until
    |t| <= threshold.  [fuel] bounds the number of iterations the model follows;
    running out of it is reported as [Panicked].  m is an i32: [(m - 1) * m] overflows from m = 46343 on, so in a debug build the fuel of 23200 is never what stops the loop. *)
Fixpoint d_sinh_loop (fuel : nat) (lm : libm) (dbg : bool) (m : Z) (r threshold s t : Double) : outcome Double :=
  match fuel with
  | O => Panicked
  | S fuel' =>
      let* m := i32_chk dbg (m + 2) in
      let t := d_mul t r in
      let* mm := i32_chk dbg ((m - 1) * m) in
      let t := d_div t (d_from_small mm) in
      let s := d_add s t in
      if d_le (d_abs t) threshold then Val s
      else d_sinh_loop fuel' lm dbg m r threshold s t
  end.
Definition sinh_fuel_d : nat := Z.to_nat 23200.
(** src/double/hyper.rs:75-104 *)
Definition d_sinh (lm : libm) (dbg : bool) (x : Double) : outcome Double :=
  match d_pre_sinh x with
  | Some r => Val r
  | None =>
      if fgtb (d0 (d_abs x)) (dec 5 (-2)) then
        let a := d_exp x in
        Val (d_mul_pwr2 (d_sub a (d_recip a)) fhalf)
      else
        d_sinh_loop sinh_fuel_d lm dbg 1 (d_sqr x) (d_abs (d_mul x D_EPSILON)) x x
  end.
(** src/double/hyper.rs:119-127 *)
Definition d_cosh (x : Double) : Double :=
  from_pre (d_pre_cosh x) (let a := d_exp x in d_mul_pwr2 (d_add a (d_recip a)) fhalf).
(** src/double/hyper.rs:41-58 *)
Definition d_sinh_cosh (lm : libm) (dbg : bool) (x : Double) : outcome (Double * Double) :=
  match d_pre_sinh_cosh x with
  | Some r => Val r
  | None =>
      if fleb (d0 (d_abs x)) (dec 5 (-2)) then
        let* s := d_sinh lm dbg x in
        let* c := d_sqrt lm dbg (d_add D_ONE (d_sqr s)) in
        Val (s, c)
      else
        let a := d_exp x in
        let inv_a := d_recip a in
        Val (d_mul_pwr2 (d_sub a inv_a) fhalf, d_mul_pwr2 (d_add a inv_a) fhalf)
  end.
(** src/double/hyper.rs:142-156 *)
Definition d_tanh (lm : libm) (dbg : bool) (x : Double) : outcome Double :=
  match d_pre_tanh x with
  | Some r => Val r
  | None =>
      if fgtb (d0 (d_abs x)) (dec 5 (-2)) then
        let a := d_exp x in
        let inv_a := d_recip a in
        Val (d_div (d_sub a inv_a) (d_add a inv_a))
      else
        let* (s, c) := d_sinh_cosh lm dbg x in Val (d_div s c)
  end.
(** src/double/hyper.rs:171-176 *)
Definition d_asinh (lm : libm) (dbg : bool) (x : Double) : outcome Double :=
  match d_pre_asinh x with
  | Some r => Val r
  | None =>
      let* s := d_sqrt lm dbg (d_add (d_sqr x) D_ONE) in
      d_ln lm dbg (d_add x s)
  end.
(** src/double/hyper.rs:194-199 *)
Definition d_acosh (lm : libm) (dbg : bool) (x : Double) : outcome Double :=
  match d_pre_acosh x with
  | Some r => Val r
  | None =>
      let* s := d_sqrt lm dbg (d_sub (d_sqr x) D_ONE) in
      d_ln lm dbg (d_add x s)
  end.
(** src/double/hyper.rs:217-222, 312-318 *)
Definition d_pre_atanh (x : Double) : option Double :=
  if d_ge (d_abs x) D_ONE then Some D_NAN else None.
Definition d_atanh (lm : libm) (dbg : bool) (x : Double) : outcome Double :=
  match d_pre_atanh x with
  | Some r => Val r
  | None =>
      let* l := d_ln lm dbg (d_div (d_add D_ONE x) (d_sub D_ONE x)) in
      Val (d_mul_pwr2 l fhalf)
  end.

(** ** Quad *)

(** src/quad/trans.rs:279-293 *)
Definition q_pre_exp (x : Quad) : option Quad :=
  if fltb (q0 x) (fofZ (-470)) then Some Q_ZERO
  else if fgeb (q0 x) (fofZ 709) then Some Q_INFINITY
  else if q_is_nan x then Some Q_NAN
  else if q_is_zero x then Some Q_ONE
  else if q_eq x Q_ONE then Some Q_E
  else None.
(** src/quad/trans.rs:86-94: the Taylor loop.  [n] counts the iterations left
    before [i >= 9]: i = 9 - n on entry.  Result: r and the last term t. *)
Fixpoint q_exp_loop (n : nat) (i : nat) (x eps r p t : Quad) : Quad * Quad :=
  match n with
  | O => (r, t)
  | S n' =>
      let r := q_add r t in
      let p := q_mul p x in
      let i := S i in
      let t := q_mul p (nth i Q_INV_FACTS Q_ZERO) in
      if q_le (q_abs t) eps then (r, t) else q_exp_loop n' i x eps r p t
  end.
(** src/quad/trans.rs:101-116: r := 2r + r^2, repeated *)
Fixpoint q_exp_square (n : nat) (r : Quad) : Quad :=
  match n with
  | O => r
  | S n' => q_exp_square n' (q_add (q_mul_pwr2 r f2) (q_sqr r))
  end.
(** src/quad/trans.rs:69-75: m and the reduced argument *)
Definition q_exp_m (a : Quad) : f64 := ffloor (fadd (fdiv (q0 a) (q0 Q_LN_2)) fhalf).
Definition q_exp_x (a : Quad) : Quad :=
  q_mul (q_sub a (q_mul Q_LN_2 (mkQ (q_exp_m a) f0 f0 f0))) Q_INV_K.
(** src/quad/trans.rs:78-98: exp(x) - 1 for the reduced x *)
Definition q_exp_small (x : Quad) : Quad :=
  let eps := q_mul_pwr2 Q_EPSILON (q0 Q_INV_K) in
  let p := q_sqr x in
  let r := q_add x (q_mul_pwr2 p fhalf) in
  let p := q_mul p x in
  let t := q_mul p (nth 0 Q_INV_FACTS Q_ZERO) in
  let '(r, t) := q_exp_loop 9 0 x eps r p t in
  q_add r t.
(** src/quad/trans.rs:37-125 *)
Definition q_exp (a : Quad) : Quad :=
  from_pre (q_pre_exp a)
    (let r := q_exp_square 16 (q_exp_small (q_exp_x a)) in
     let r := q_add r Q_ONE in
     q_ldexp r (as_i32 (q_exp_m a))).

(** src/quad/trans.rs:296-310 *)
Definition q_pre_ln (x : Quad) : option Quad :=
  if q_is_nan x then Some Q_NAN
  else if q_is_sign_negative x then Some Q_NAN
  else if q_is_zero x then Some Q_NEG_INFINITY
  else if q_is_infinite x then Some Q_INFINITY
  else if q_eq x Q_ONE then Some Q_ZERO
  else None.
(** src/quad/trans.rs:179-187: the loop stops at the latest when i > 5; [n] = 6 - i *)
Fixpoint q_ln_loop (n : nat) (a eps x : Quad) : Quad :=
  let r := q_sub (q_add x (q_mul a (q_exp (q_neg x)))) Q_ONE in
  if q_lt (q_abs (q_sub x r)) eps then r
  else match n with O => r | S n' => q_ln_loop n' a eps r end.
(** src/quad/trans.rs:152-190 *)
Definition q_ln (lm : libm) (dbg : bool) (a : Quad) : outcome Quad :=
  match q_pre_ln a with
  | Some r => Val r
  | None =>
      let x := mkQ (lm_ln lm (q0 a)) f0 f0 f0 in
      let k := as_i32 (ffloor (lm_log2 lm (fabs (q0 x)))) in
      let* k2 := i32_chk dbg (k + 2) in
      let eps := q_mul_pwr2 Q_EPSILON (fpowi f2 k2) in
      Val (q_ln_loop 6 a eps x)
  end.
(** src/quad/trans.rs:212-214, 235-237, 313-321, 262-267 *)
Definition q_log10 (lm : libm) (dbg : bool) (x : Quad) : outcome Quad :=
  let* l := q_ln lm dbg x in Val (q_div l Q_LN_10).
Definition q_log2 (lm : libm) (dbg : bool) (x : Quad) : outcome Quad :=
  let* l := q_ln lm dbg x in Val (q_div l Q_LN_2).
Definition q_pre_log (x b : Quad) : option Quad :=
  if q_is_nan x then Some Q_NAN
  else if q_is_sign_negative b || q_is_zero b then Some Q_NAN
  else None.
Definition q_log (lm : libm) (dbg : bool) (x b : Quad) : outcome Quad :=
  match q_pre_log x b with
  | Some r => Val r
  | None =>
      let* l := q_ln lm dbg x in
      let* m := q_ln lm dbg b in
      Val (q_div l m)
  end.

(** src/quad/alg.rs:405-425 and 274-279 *)
Definition q_pre_powf (x n : Quad) : option Quad :=
  if q_is_zero x then
    if q_is_zero n then Some Q_NAN
    else if q_is_sign_positive n then Some Q_ZERO else Some Q_INFINITY
  else if q_is_infinite n then
    if q_eq x Q_ONE then Some Q_NAN
    else if q_is_sign_positive n then Some Q_INFINITY else Some Q_ZERO
  else None.
Definition q_powf (lm : libm) (dbg : bool) (x n : Quad) : outcome Quad :=
  match q_pre_powf x n with
  | Some r => Val r
  | None => let* l := q_ln lm dbg x in Val (q_exp (q_mul n l))
  end.

(** src/quad/trig.rs:470-491: [n] bounds the iterations: i reaches the table's
    length after (15 - i)/2 rounded up steps *)
Fixpoint q_taylor_loop (n i : nat) (x threshold s r : Quad) : Quad :=
  match n with
  | O => s
  | S n' =>
      let r := q_mul r x in
      let t := q_mul r (nth i Q_INV_FACTS Q_ZERO) in
      let s := q_add s t in
      let i := S (S i) in
      if q_le (q_abs t) threshold then s else q_taylor_loop n' i x threshold s r
  end.
Definition q_sin_taylor (a : Quad) : Quad :=
  if q_is_zero a then Q_ZERO
  else
    let threshold := q_mul_pwr2 (q_mul Q_EPSILON (q_abs a)) fhalf in
    q_taylor_loop 8 0 (q_neg (q_sqr a)) threshold a a.
(** src/quad/trig.rs:495-516 *)
Definition q_cos_taylor (a : Quad) : Quad :=
  if q_is_zero a then Q_ONE
  else
    let threshold := q_mul_pwr2 Q_EPSILON fhalf in
    let x := q_neg (q_sqr a) in
    q_taylor_loop 7 1 x threshold (q_add Q_ONE (q_mul_pwr2 x fhalf)) x.
(** src/quad/trig.rs:521-528 *)
Definition q_sincos_taylor (lm : libm) (dbg : bool) (a : Quad) : outcome (Quad * Quad) :=
  if q_is_zero a then Val (Q_ZERO, Q_ONE)
  else
    let sin_a := q_sin_taylor a in
    let* c := q_sqrt lm dbg (q_sub Q_ONE (q_sqr sin_a)) in
    Val (sin_a, c).
(** src/quad/trig.rs:536-552 *)
Definition q_reduce (a : Quad) : Z * Z * Quad :=
  let z := q_round (q_div a Q_TAU) in
  let r := q_sub a (q_mul z Q_TAU) in
  let q := ffloor (fadd (fdiv (q0 r) (q0 Q_FRAC_PI_2)) fhalf) in
  let t := q_sub r (q_mul (mkQ q f0 f0 f0) Q_FRAC_PI_2) in
  let j := as_i32 q in
  let q := ffloor (fadd (fdiv (q0 t) (q0 Q_FRAC_PI_1024)) fhalf) in
  let t := q_sub t (q_mul (mkQ q f0 f0 f0) Q_FRAC_PI_1024) in
  let k := as_i32 q in
  (j, k, t).
(** [COSINES[abs_k - 1]] and [SINES[abs_k - 1]] for k <> 0, with
    [abs_k = k.abs() as usize].  Out of range indices panic; so does [k.abs()]
    on i32::MIN in a debug build, and in a release build it wraps to a huge
    usize, which is out of range too. *)
Definition q_cos_sin_entry (k : Z) : outcome (Quad * Quad) :=
  if Z.abs k <=? 256 then
    Val (nth (Z.to_nat (Z.abs k - 1)) Q_COSINES Q_ZERO, nth (Z.to_nat (Z.abs k - 1)) Q_SINES Q_ZERO)
  else Panicked.

(** src/quad/trig.rs:357-387 *)
Definition q_pre_sin_cos (x : Quad) : option (Quad * Quad) :=
  if q_is_zero x then Some (Q_ZERO, Q_ONE)
  else if negb (q_is_finite x) then Some (Q_NAN, Q_NAN)
  else None.
Definition q_pre_sin (x : Quad) : option Quad :=
  if q_is_zero x then Some Q_ZERO
  else if negb (q_is_finite x) then Some Q_NAN
  else None.
Definition q_pre_cos (x : Quad) : option Quad :=
  if q_is_zero x then Some Q_ONE
  else if negb (q_is_finite x) then Some Q_NAN
  else None.
(** src/quad/trig.rs:30-60 *)
Definition q_sin_cos (lm : libm) (dbg : bool) (a : Quad) : outcome (Quad * Quad) :=
  match q_pre_sin_cos a with
  | Some r => Val r
  | None =>
      let '(j, k, t) := q_reduce a in
      let* (sin_t, cos_t) := q_sincos_taylor lm dbg t in
      let* (s, c) :=
        (if k =? 0 then Val (sin_t, cos_t)
         else
           let* (u, v) := q_cos_sin_entry k in
           Val (if k >? 0
                then (q_add (q_mul u sin_t) (q_mul v cos_t), q_sub (q_mul u cos_t) (q_mul v sin_t))
                else (q_sub (q_mul u sin_t) (q_mul v cos_t), q_add (q_mul u cos_t) (q_mul v sin_t)))) in
      Val (if j =? 0 then (s, c)
           else if j =? 1 then (c, q_neg s)
           else if j =? -1 then (q_neg c, s)
           else (q_neg s, q_neg c))
  end.
(** src/quad/trig.rs:75-122 *)
Definition q_sin (lm : libm) (dbg : bool) (a : Quad) : outcome Quad :=
  match q_pre_sin a with
  | Some r => Val r
  | None =>
      let '(j, k, t) := q_reduce a in
      if k =? 0 then
        Val (if j =? 0 then q_sin_taylor t
             else if j =? 1 then q_cos_taylor t
             else if j =? -1 then q_neg (q_cos_taylor t)
             else q_neg (q_sin_taylor t))
      else
        let* (u, v) := q_cos_sin_entry k in
        let* (sin_t, cos_t) := q_sincos_taylor lm dbg t in
        Val (if k >? 0 then
               if j =? 0 then q_add (q_mul u sin_t) (q_mul v cos_t)
               else if j =? 1 then q_sub (q_mul u cos_t) (q_mul v sin_t)
               else if j =? -1 then q_add (q_mul (q_neg u) cos_t) (q_mul v sin_t)
               else q_sub (q_mul (q_neg u) sin_t) (q_mul v cos_t)
             else
               if j =? 0 then q_sub (q_mul u sin_t) (q_mul v cos_t)
               else if j =? 1 then q_add (q_mul u cos_t) (q_mul v sin_t)
               else if j =? -1 then q_sub (q_mul (q_neg u) cos_t) (q_mul v sin_t)
               else q_add (q_mul (q_neg u) sin_t) (q_mul v cos_t))
  end.
(** src/quad/trig.rs:137-174 *)
Definition q_cos (lm : libm) (dbg : bool) (a : Quad) : outcome Quad :=
  match q_pre_cos a with
  | Some r => Val r
  | None =>
      let '(j, k, t) := q_reduce a in
      if k =? 0 then
        Val (if j =? 0 then q_cos_taylor t
             else if j =? 1 then q_neg (q_sin_taylor t)
             else if j =? -1 then q_sin_taylor t
             else q_neg (q_cos_taylor t))
      else
        let* (u, v) := q_cos_sin_entry k in
        let* (sin_t, cos_t) := q_sincos_taylor lm dbg t in
        Val (if k >? 0 then
               if j =? 0 then q_sub (q_mul u cos_t) (q_mul v sin_t)
               else if j =? 1 then q_sub (q_mul (q_neg u) sin_t) (q_mul v cos_t)
               else if j =? -1 then q_add (q_mul u sin_t) (q_mul v cos_t)
               else q_add (q_mul (q_neg u) cos_t) (q_mul v sin_t)
             else
               if j =? 0 then q_add (q_mul u cos_t) (q_mul v sin_t)
               else if j =? 1 then q_sub (q_mul v cos_t) (q_mul u sin_t)
               else if j =? -1 then q_sub (q_mul u sin_t) (q_mul v cos_t)
               else q_sub (q_mul (q_neg u) cos_t) (q_mul v sin_t))
  end.
(** src/quad/trig.rs:189-192 *)
Definition q_tan (lm : libm) (dbg : bool) (a : Quad) : outcome Quad :=
  let* (s, c) := q_sin_cos lm dbg a in Val (q_div s c).

(** src/quad/trig.rs:390-432; x is [other], y is [self] *)
Definition q_pre_atan2 (y x : Quad) : option Quad :=
  if q_is_zero x then
    if q_is_zero y then Some Q_NAN
    else if q_is_sign_positive y then Some Q_FRAC_PI_2
    else Some (q_neg Q_FRAC_PI_2)
  else if q_is_zero y then
    if q_is_sign_positive x then Some Q_ZERO else Some Q_PI
  else if q_is_infinite y then
    if q_is_infinite x then Some Q_NAN
    else if q_is_sign_positive y then Some Q_FRAC_PI_2
    else Some (q_neg Q_FRAC_PI_2)
  else if q_is_infinite x then Some Q_ZERO
  else if q_is_nan y || q_is_nan x then Some Q_NAN
  else if q_eq y x then
    if q_is_sign_positive y then Some Q_FRAC_PI_4 else Some (q_neg Q_FRAC_3_PI_4)
  else if q_eq y (q_neg x) then
    if q_is_sign_positive y then Some Q_FRAC_3_PI_4 else Some (q_neg Q_FRAC_PI_4)
  else None.
(** src/quad/trig.rs:267-280: one correction of z *)
Definition q_atan2_step (lm : libm) (dbg : bool) (y x z : Quad) : outcome Quad :=
  let* (sin_z, cos_z) := q_sin_cos lm dbg z in
  Val (if fgtb (fabs (q0 x)) (fabs (q0 y))
       then q_add z (q_div (q_sub y sin_z) cos_z)
       else q_sub z (q_div (q_sub x cos_z) sin_z)).
(** src/quad/trig.rs:238-285 *)
Definition q_atan2 (lm : libm) (dbg : bool) (y x : Quad) : outcome Quad :=
  match q_pre_atan2 y x with
  | Some r => Val r
  | None =>
      let* r := q_sqrt lm dbg (q_add (q_sqr y) (q_sqr x)) in
      let x' := q_div x r in
      let y' := q_div y r in
      let* z := q_from_f64 lm dbg (lm_atan2 lm (q0 y) (q0 x)) in
      let* z := q_atan2_step lm dbg y' x' z in
      let* z := q_atan2_step lm dbg y' x' z in
      q_atan2_step lm dbg y' x' z
  end.
(** src/quad/trig.rs:435-458 *)
Definition q_pre_asin (x : Quad) : option Quad :=
  if q_gt (q_abs x) Q_ONE then Some Q_NAN
  else if q_eq x Q_ONE then Some Q_FRAC_PI_2
  else if q_eq x Q_NEG_ONE then Some (q_neg Q_FRAC_PI_2)
  else None.
Definition q_pre_acos (x : Quad) : option Quad :=
  if q_gt (q_abs x) Q_ONE then Some Q_NAN
  else if q_eq x Q_ONE then Some Q_ZERO
  else if q_eq x Q_NEG_ONE then Some Q_PI
  else None.
(** src/quad/trig.rs:302-345 *)
Definition q_asin (lm : libm) (dbg : bool) (x : Quad) : outcome Quad :=
  match q_pre_asin x with
  | Some r => Val r
  | None => let* c := q_sqrt lm dbg (q_sub Q_ONE (q_sqr x)) in q_atan2 lm dbg x c
  end.
Definition q_acos (lm : libm) (dbg : bool) (x : Quad) : outcome Quad :=
  match q_pre_acos x with
  | Some r => Val r
  | None => let* s := q_sqrt lm dbg (q_sub Q_ONE (q_sqr x)) in q_atan2 lm dbg s x
  end.
Definition q_atan (lm : libm) (dbg : bool) (x : Quad) : outcome Quad := q_atan2 lm dbg x Q_ONE.

(** src/quad/hyper.rs:227-235, 238-246, 249-257, 260-294 *)
Definition q_pre_sinh_cosh (x : Quad) : option (Quad * Quad) :=
  if q_is_nan x then Some (Q_NAN, Q_NAN)
  else if q_is_zero x then Some (Q_ZERO, Q_ONE)
  else None.
Definition q_pre_sinh (x : Quad) : option Quad :=
  if q_is_nan x then Some Q_NAN
  else if q_is_zero x then Some Q_ZERO
  else None.
Definition q_pre_cosh (x : Quad) : option Quad :=
  if q_is_nan x then Some Q_NAN
  else if q_is_zero x then Some Q_ONE
  else None.
Definition q_pre_tanh (x : Quad) : option Quad :=
  if q_is_nan x then Some Q_NAN
  else if q_is_zero x then Some Q_ZERO
  else if q_is_infinite x then Some (q_signum x)
  else None.
Definition q_pre_asinh (x : Quad) : option Quad :=
  if q_is_infinite x then
    if q_is_sign_positive x then Some Q_INFINITY else Some Q_NEG_INFINITY
  else None.
Definition q_pre_acosh (x : Quad) : option Quad :=
  if q_lt x Q_ONE then Some Q_NAN
  else if q_is_infinite x then Some Q_INFINITY
  else None.
(** src/quad/hyper.rs:84-92: the loop [m += 2; t *= r; t /= (m-1)m; s += t] until
    |t| <= threshold.  [fuel] bounds the number of iterations the model follows;
    running out of it is reported as [Panicked].  m is an f64, and [Quad::from] converts (m-1)m. *)
Fixpoint q_sinh_loop (fuel : nat) (lm : libm) (dbg : bool) (m : f64) (r threshold s t : Quad) : outcome Quad :=
  match fuel with
  | O => Panicked
  | S fuel' =>
      let m := fadd m f2 in
      let t := q_mul t r in
      let* mm := q_from_f64 lm dbg (fmul (fsub m f1) m) in
      let t := q_div t mm in
      let s := q_add s t in
      if q_le (q_abs t) threshold then Val s
      else q_sinh_loop fuel' lm dbg m r threshold s t
  end.
Definition sinh_fuel_q : nat := Z.to_nat 23200.
(** src/quad/hyper.rs:68-97 *)
Definition q_sinh (lm : libm) (dbg : bool) (x : Quad) : outcome Quad :=
  match q_pre_sinh x with
  | Some r => Val r
  | None =>
      if fgtb (q0 (q_abs x)) (dec 5 (-2)) then
        let a := q_exp x in
        Val (q_mul_pwr2 (q_sub a (q_recip a)) fhalf)
      else
        q_sinh_loop sinh_fuel_q lm dbg f1 (q_sqr x) (q_abs (q_mul x Q_EPSILON)) x x
  end.
(** src/quad/hyper.rs:112-120 *)
Definition q_cosh (x : Quad) : Quad :=
  from_pre (q_pre_cosh x) (let a := q_exp x in q_mul_pwr2 (q_add a (q_recip a)) fhalf).
(** src/quad/hyper.rs:36-53 *)
Definition q_sinh_cosh (lm : libm) (dbg : bool) (x : Quad) : outcome (Quad * Quad) :=
  match q_pre_sinh_cosh x with
  | Some r => Val r
  | None =>
      if fleb (q0 (q_abs x)) (dec 5 (-2)) then
        let* s := q_sinh lm dbg x in
        let* c := q_sqrt lm dbg (q_add Q_ONE (q_sqr s)) in
        Val (s, c)
      else
        let a := q_exp x in
        let inv_a := q_recip a in
        Val (q_mul_pwr2 (q_sub a inv_a) fhalf, q_mul_pwr2 (q_add a inv_a) fhalf)
  end.
(** src/quad/hyper.rs:135-149 *)
Definition q_tanh (lm : libm) (dbg : bool) (x : Quad) : outcome Quad :=
  match q_pre_tanh x with
  | Some r => Val r
  | None =>
      if fgtb (q0 (q_abs x)) (dec 5 (-2)) then
        let a := q_exp x in
        let inv_a := q_recip a in
        Val (q_div (q_sub a inv_a) (q_add a inv_a))
      else
        let* (s, c) := q_sinh_cosh lm dbg x in Val (q_div s c)
  end.
(** src/quad/hyper.rs:164-169 *)
Definition q_asinh (lm : libm) (dbg : bool) (x : Quad) : outcome Quad :=
  match q_pre_asinh x with
  | Some r => Val r
  | None =>
      let* s := q_sqrt lm dbg (q_add (q_sqr x) Q_ONE) in
      q_ln lm dbg (q_add x s)
  end.
(** src/quad/hyper.rs:187-192 *)
Definition q_acosh (lm : libm) (dbg : bool) (x : Quad) : outcome Quad :=
  match q_pre_acosh x with
  | Some r => Val r
  | None =>
      let* s := q_sqrt lm dbg (q_sub (q_sqr x) Q_ONE) in
      q_ln lm dbg (q_add x s)
  end.
(** src/quad/hyper.rs:210-215, 297-303 *)
Definition q_pre_atanh (x : Quad) : option Quad :=
  if q_ge (q_abs x) Q_ONE then Some Q_NAN else None.
Definition q_atanh (lm : libm) (dbg : bool) (x : Quad) : outcome Quad :=
  match q_pre_atanh x with
  | Some r => Val r
  | None =>
      let* l := q_ln lm dbg (q_div (q_add Q_ONE x) (q_sub Q_ONE x)) in
      Val (q_mul_pwr2 l fhalf)
  end.
