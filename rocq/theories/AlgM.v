(** * Model of the roots in src/double/alg.rs and src/quad/alg.rs

    [f64::sqrt] is Flocq's correctly rounded square root; [f64::ln], [f64::exp]
    and [f64::to_string] (inside [From<f64>]) come from the platform record. *)
From Coq Require Import ZArith List Bool.
From Verif Require Import F64 Prim DoubleM QuadM ParseM.
Local Open Scope Z_scope.

(** src/double/alg.rs:260-270 *)
Definition d_pre_sqrt (x : Double) : option Double :=
  if d_is_zero x then Some x
  else if d_is_sign_negative x then Some D_NAN
  else if d_is_infinite x then Some D_INFINITY
  else None.
(** src/double/alg.rs:66-85 *)
Definition d_sqrt (lm : libm) (dbg : bool) (a : Double) : outcome Double :=
  match d_pre_sqrt a with
  | Some r => Val r
  | None =>
      let* x := d_from_f64 lm dbg (fdiv f1 (fsqrt (d0 a))) in
      let ax := d_mul a x in
      Val (d_add ax (d_mul (d_sub a (d_sqr ax)) (d_mul_pwr2 x fhalf)))
  end.

(** src/double/alg.rs:273-311; [Some (self.sqrt())] keeps sqrt's outcome *)
Definition d_pre_nroot (lm : libm) (dbg : bool) (x : Double) (n : Z) : option (outcome Double) :=
  if n =? 0 then Some (Val D_NAN)
  else if n =? 1 then Some (Val x)
  else if d_is_zero x then
    if (Z.rem n 2 =? 0) || d_is_sign_positive x then
      if n >? 0 then Some (Val D_ZERO) else Some (Val D_INFINITY)
    else if n >? 0 then Some (Val D_NEG_ZERO) else Some (Val D_NEG_INFINITY)
  else if d_is_infinite x then
    if d_is_sign_positive x then
      if n >? 0 then Some (Val D_INFINITY) else Some (Val D_ZERO)
    else if Z.rem n 2 =? 0 then Some (Val D_NAN)
    else if n >? 0 then Some (Val D_NEG_INFINITY) else Some (Val D_NEG_ZERO)
  else if d_is_sign_negative x && (Z.rem n 2 =? 0) then Some (Val D_NAN)
  else if n =? 2 then Some (d_sqrt lm dbg x)
  else None.
(** src/double/alg.rs:98-126 *)
Definition d_nroot (lm : libm) (dbg : bool) (self : Double) (n : Z) : outcome Double :=
  match d_pre_nroot lm dbg self n with
  | Some r => r
  | None =>
      let r := d_abs self in
      let* x := d_from_f64 lm dbg (lm_exp lm (fdiv (fneg (lm_ln lm (d0 r))) (fofZ n))) in
      let* p := d_powi dbg x n in
      let x := d_add x (d_div (d_mul x (d_sub D_ONE (d_mul r p))) (mkD (fofZ n) f0)) in
      let x := if d_is_sign_negative self then d_neg x else x in
      Val (d_recip x)
  end.
(** src/double/alg.rs:140-142 *)
Definition d_cbrt (lm : libm) (dbg : bool) (x : Double) : outcome Double := d_nroot lm dbg x 3.

(** src/quad/alg.rs:316-326 *)
Definition q_pre_sqrt (x : Quad) : option Quad :=
  if q_is_zero x then Some Q_ZERO
  else if q_is_sign_negative x then Some Q_NAN
  else if q_is_infinite x then Some Q_INFINITY
  else None.
(** src/quad/alg.rs:131-133: one Newton step *)
Definition q_sqrt_step (h k r : Quad) : Quad := q_add r (q_mul (q_sub k (q_mul h (q_sqr r))) r).
(** src/quad/alg.rs:113-139 *)
Definition q_sqrt (lm : libm) (dbg : bool) (a : Quad) : outcome Quad :=
  match q_pre_sqrt a with
  | Some r => Val r
  | None =>
      let* y := q_from_f64 lm dbg (fsqrt (q0 a)) in
      let r := q_div Q_ONE y in
      let h := q_mul_pwr2 a fhalf in
      let k := mkQ fhalf f0 f0 f0 in
      let r := q_sqrt_step h k r in
      let r := q_sqrt_step h k r in
      let r := q_sqrt_step h k r in
      Val (q_mul r a)
  end.

(** src/quad/alg.rs:329-367 *)
Definition q_pre_nroot (lm : libm) (dbg : bool) (x : Quad) (n : Z) : option (outcome Quad) :=
  if n =? 0 then Some (Val Q_NAN)
  else if n =? 1 then Some (Val x)
  else if q_is_zero x then
    if (Z.rem n 2 =? 0) || q_is_sign_positive x then
      if n >? 0 then Some (Val Q_ZERO) else Some (Val Q_INFINITY)
    else if n >? 0 then Some (Val Q_NEG_ZERO) else Some (Val Q_NEG_INFINITY)
  else if q_is_infinite x then
    if q_is_sign_positive x then
      if n >? 0 then Some (Val Q_INFINITY) else Some (Val Q_ZERO)
    else if Z.rem n 2 =? 0 then Some (Val Q_NAN)
    else if n >? 0 then Some (Val Q_NEG_INFINITY) else Some (Val Q_NEG_ZERO)
  else if q_is_sign_negative x && (Z.rem n 2 =? 0) then Some (Val Q_NAN)
  else if n =? 2 then Some (q_sqrt lm dbg x)
  else None.
(** src/quad/alg.rs:174-176: one Newton step *)
Definition q_nroot_step (dbg : bool) (r qn : Quad) (n : Z) (x : Quad) : outcome Quad :=
  let* p := q_powi dbg x n in
  Val (q_add x (q_div (q_mul x (q_sub Q_ONE (q_mul r p))) qn)).
(** src/quad/alg.rs:152-183 *)
Definition q_nroot (lm : libm) (dbg : bool) (self : Quad) (n : Z) : outcome Quad :=
  match q_pre_nroot lm dbg self n with
  | Some r => r
  | None =>
      let r := q_abs self in
      let* x := q_from_f64 lm dbg (lm_exp lm (fdiv (fneg (lm_ln lm (q0 r))) (fofZ n))) in
      let qn := mkQ (fofZ n) f0 f0 f0 in
      let* x := q_nroot_step dbg r qn n x in
      let* x := q_nroot_step dbg r qn n x in
      let* x := q_nroot_step dbg r qn n x in
      let x := if fltb (q0 self) f0 then q_neg x else x in
      Val (q_recip x)
  end.
(** src/quad/alg.rs:196-198 *)
Definition q_cbrt (lm : libm) (dbg : bool) (x : Quad) : outcome Quad := q_nroot lm dbg x 3.
