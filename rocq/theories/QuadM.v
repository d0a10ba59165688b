(** * Model of src/quad/*.rs: arithmetic, comparison, misc, alg, integers *)
From Coq Require Import ZArith List Bool.
From Verif Require Import F64 Prim DoubleM.
Import ListNotations.
Local Open Scope Z_scope.

(** src/quad.rs:95, 116-118 [pub struct Quad(f64, f64, f64, f64)], [new] *)
Record Quad := mkQ { q0 : f64; q1 : f64; q2 : f64; q3 : f64 }.
Definition q_new (a b c d : f64) : Quad := mkQ a b c d.
Definition mkQ4 (t : f64 * f64 * f64 * f64) : Quad := let '(a, b, c, d) := t in mkQ a b c d.

(** src/quad/aconsts.rs: NAN, INFINITY, NEG_INFINITY, ZERO, NEG_ZERO, ONE, NEG_ONE *)
Definition Q_NAN := mkQ fnan f0 f0 f0.
Definition Q_INFINITY := mkQ finf f0 f0 f0.
Definition Q_NEG_INFINITY := mkQ fninf f0 f0 f0.
Definition Q_ZERO := mkQ f0 f0 f0 f0.
Definition Q_NEG_ZERO := mkQ fn0 f0 f0 f0.
Definition Q_ONE := mkQ f1 f0 f0 f0.
Definition Q_NEG_ONE := mkQ fn1 f0 f0 f0.

(** src/quad/misc.rs:227-229, 251-253, 265-267, 282-284, 299-301, 315-317,
    330-332, 345-347, 365-367 *)
Definition q_classify (x : Quad) : fpcat := fclassify (q0 x).
Definition q_is_normal (x : Quad) : bool := fpcat_eqb (q_classify x) FpNormal.
Definition q_is_zero (x : Quad) : bool := feqb (q0 x) f0.
Definition q_is_sign_negative (x : Quad) : bool := fsign_neg (q0 x).
Definition q_is_sign_positive (x : Quad) : bool := fsign_pos (q0 x).
Definition q_is_nan (x : Quad) : bool := fis_nan (q0 x).
Definition q_is_infinite (x : Quad) : bool := fis_infinite (q0 x).
Definition q_is_finite (x : Quad) : bool := fis_finite (q0 x).
Definition q_is_subnormal (x : Quad) : bool := fpcat_eqb (q_classify x) FpSubnormal.

(** src/quad/neg.rs:26-28, 48-50 *)
Definition q_neg (x : Quad) : Quad := mkQ (fneg (q0 x)) (fneg (q1 x)) (fneg (q2 x)) (fneg (q3 x)).
Definition q_neg_ref (x : Quad) : Quad := mkQ (fneg (q0 x)) (fneg (q1 x)) (fneg (q2 x)) (fneg (q3 x)).

(** src/quad/add.rs:236-266 *)
Definition q_pre_add (x y : Quad) : option Quad :=
  if q_is_nan x || q_is_nan y then Some Q_NAN
  else if q_is_infinite x then
    if q_is_infinite y then
      if q_is_sign_positive x then
        if q_is_sign_positive y then Some Q_INFINITY else Some Q_NAN
      else if q_is_sign_negative y then Some Q_NEG_INFINITY else Some Q_NAN
    else if q_is_sign_positive x then Some Q_INFINITY else Some Q_NEG_INFINITY
  else if q_is_infinite y then
    if q_is_sign_positive y then Some Q_INFINITY else Some Q_NEG_INFINITY
  else None.

(** src/quad/add.rs:54, 59, 78: [self[i].abs() > other[j].abs()] *)
Definition abs_gt (a b : f64) : bool := fgtb (fabs a) (fabs b).

(** src/quad/add.rs:84-91: one [accumulate], then [if s != 0.0 { x[k] = s; k += 1 }].
    [out] is the list x[0..k]. *)
Definition qa_push (s : f64) (out : list f64) : list f64 := if fne0 s then out ++ [s] else out.

(** src/quad/add.rs:66-92.  The indices [i], [j] are represented by the lists
    of components not yet read ([self[i..]], [other[j..]]); [k] is the length
    of [out].  Returns the array written so far and the unread components. *)
Fixpoint qa_loop (rx : list f64) : list f64 -> f64 -> f64 -> list f64 -> list f64 * list f64 * list f64 :=
  fix inner (ry : list f64) (u v : f64) (out : list f64) :=
    if (Nat.ltb (length out) 4) then
      match rx, ry with
      | [], [] => (if Nat.ltb (length out) 3 then out ++ [u; v] else out ++ [u], [], [])
      | [], t :: ry' =>
          let '(s, y, z) := accumulate u v t in inner ry' y z (qa_push s out)
      | t :: rx', [] =>
          let '(s, y, z) := accumulate u v t in qa_loop rx' [] y z (qa_push s out)
      | a :: rx', b :: ry' =>
          if abs_gt a b then
            let '(s, y, z) := accumulate u v a in qa_loop rx' ry y z (qa_push s out)
          else
            let '(s, y, z) := accumulate u v b in inner ry' y z (qa_push s out)
      end
    else (out, rx, ry).

(** src/quad/add.rs:54-63: read the larger of the two heads *)
Definition qa_take (rx ry : list f64) : f64 * list f64 * list f64 :=
  match rx, ry with
  | a :: rx', b :: ry' => if abs_gt a b then (a, rx', ry) else (b, rx, ry')
  | a :: rx', [] => (a, rx', [])
  | [], b :: ry' => (b, [], ry')
  | [], [] => (f0, [], [])  (* never: four components each, two reads *)
  end.

Definition q_list (x : Quad) : list f64 := [q0 x; q1 x; q2 x; q3 x].

(** src/quad/add.rs:94-101 ([x] starts as [0.0; 4]) *)
Definition qa_finish (out rx ry : list f64) : Quad :=
  let x0 := nth 0 out f0 in
  let x1 := nth 1 out f0 in
  let x2 := nth 2 out f0 in
  let x3 := nth 3 out f0 in
  let x3 := fold_left fadd rx x3 in
  let x3 := fold_left fadd ry x3 in
  mkQ4 (renorm4 x0 x1 x2 x3).

(** src/quad/add.rs:44-101 *)
Definition q_add_core (x y : Quad) : Quad :=
  let '(u, rx, ry) := qa_take (q_list x) (q_list y) in
  let '(v, rx, ry) := qa_take rx ry in
  let '(u, v) := renorm2 u v in
  let '(out, rx, ry) := qa_loop rx ry u v [] in
  qa_finish out rx ry.

(** src/quad/add.rs:40-104 *)
Definition q_add (x y : Quad) : Quad := from_pre (q_pre_add x y) (q_add_core x y).

(** src/quad/sub.rs:26-28 *)
Definition q_sub (x y : Quad) : Quad := q_add x (q_neg y).

(** src/quad/mul.rs:235-263 *)
Definition q_pre_mul (x y : Quad) : option Quad :=
  if q_is_nan x || q_is_nan y then Some Q_NAN
  else if q_is_zero x then
    if q_is_infinite y then Some Q_NAN
    else if Bool.eqb (q_is_sign_positive x) (q_is_sign_positive y) then Some Q_ZERO
    else Some Q_NEG_ZERO
  else if q_is_infinite x then
    if q_is_zero y then Some Q_NAN
    else if Bool.eqb (q_is_sign_positive x) (q_is_sign_positive y) then Some Q_INFINITY
    else Some Q_NEG_INFINITY
  else if q_is_infinite y then
    if Bool.eqb (q_is_sign_positive x) (q_is_sign_positive y) then Some Q_INFINITY
    else Some Q_NEG_INFINITY
  else None.

(** src/quad/mul.rs:59-98 *)
Definition q_mul_core (x y : Quad) : Quad :=
  let '(h0, l0) := two_prod (q0 x) (q0 y) in
  let '(h1, l1) := two_prod (q0 x) (q1 y) in
  let '(h2, l2) := two_prod (q1 x) (q0 y) in
  let '(h3, l3) := two_prod (q0 x) (q2 y) in
  let '(h4, l4) := two_prod (q1 x) (q1 y) in
  let '(h5, l5) := two_prod (q2 x) (q0 y) in
  let '(h6, l6) := two_prod (q0 x) (q3 y) in
  let '(h7, l7) := two_prod (q1 x) (q2 y) in
  let '(h8, l8) := two_prod (q2 x) (q1 y) in
  let '(h9, l9) := two_prod (q3 x) (q0 y) in
  let ha := fmul (q1 x) (q3 y) in
  let hb := fmul (q2 x) (q2 y) in
  let hc := fmul (q3 x) (q1 y) in
  let r0 := h0 in
  let '(r1, t0, t1) := three_three_sum h1 h2 l0 in
  let '(r2, t2, t3) := six_three_sum t0 h3 h4 h5 l1 l2 in
  let '(r3, t4) := nine_two_sum t1 t2 h6 h7 h8 h9 l3 l4 l5 in
  let r4 := fadd (fadd (fadd (fadd (fadd (fadd (fadd (fadd t3 t4) ha) hb) hc) l6) l7) l8) l9 in
  mkQ4 (renorm5 r0 r1 r2 r3 r4).

(** src/quad/mul.rs:54-101 *)
Definition q_mul (x y : Quad) : Quad := from_pre (q_pre_mul x y) (q_mul_core x y).

(** src/quad/div.rs:20-34 (note [t2 * t3] on line 30) *)
Definition q_mul_f64 (a : Quad) (b : f64) : Quad :=
  let '(h0, l0) := two_prod (q0 a) b in
  let '(h1, l1) := two_prod (q1 a) b in
  let '(h2, l2) := two_prod (q2 a) b in
  let h3 := fmul (q3 a) b in
  let s0 := h0 in
  let '(s1, t0) := two_sum h1 l0 in
  let '(s2, t1, t2) := three_three_sum t0 h2 l1 in
  let '(s3, t3) := three_two_sum t1 h3 l2 in
  let s4 := fmul t2 t3 in
  mkQ4 (renorm5 s0 s1 s2 s3 s4).

(** src/quad/div.rs:214-242 *)
Definition q_pre_div (x y : Quad) : option Quad :=
  if q_is_nan x || q_is_nan y then Some Q_NAN
  else if q_is_zero y then
    if q_is_zero x then Some Q_NAN
    else if Bool.eqb (q_is_sign_negative x) (q_is_sign_positive y) then Some Q_NEG_INFINITY
    else Some Q_INFINITY
  else if q_is_infinite x then
    if q_is_infinite y then Some Q_NAN
    else if Bool.eqb (q_is_sign_positive x) (q_is_sign_positive y) then Some Q_INFINITY
    else Some Q_NEG_INFINITY
  else if q_is_infinite y then
    if Bool.eqb (q_is_sign_positive x) (q_is_sign_positive y) then Some Q_ZERO
    else Some Q_NEG_ZERO
  else None.

(** src/quad/div.rs:53-82 ([r -= s] is [r.add(-s)], sub.rs:118-124) *)
Definition q_div (x y : Quad) : Quad :=
  from_pre (q_pre_div x y)
    (let a0 := fdiv (q0 x) (q0 y) in
     let r := q_sub x (q_mul_f64 y a0) in
     let a1 := fdiv (q0 r) (q0 y) in
     let r := q_sub r (q_mul_f64 y a1) in
     let a2 := fdiv (q0 r) (q0 y) in
     let r := q_sub r (q_mul_f64 y a2) in
     let a3 := fdiv (q0 r) (q0 y) in
     let r := q_sub r (q_mul_f64 y a3) in
     let a4 := fdiv (q0 r) (q0 y) in
     mkQ4 (renorm5 a0 a1 a2 a3 a4)).

(** src/quad/comp.rs:28-30 *)
Definition q_eq (x y : Quad) : bool :=
  feqb (q0 x) (q0 y) && feqb (q1 x) (q1 y) && feqb (q2 x) (q2 y) && feqb (q3 x) (q3 y).
(** src/quad/comp.rs:49-60 *)
Definition q_partial_cmp (x y : Quad) : option comparison :=
  match fcmp (q0 x) (q0 y) with
  | Some Eq =>
      match fcmp (q1 x) (q1 y) with
      | Some Eq =>
          match fcmp (q2 x) (q2 y) with
          | Some Eq => fcmp (q3 x) (q3 y)
          | c => c
          end
      | c => c
      end
  | c => c
  end.
(** default methods of [PartialOrd] *)
Definition q_lt x y := match q_partial_cmp x y with Some Lt => true | _ => false end.
Definition q_le x y := match q_partial_cmp x y with Some Lt | Some Eq => true | _ => false end.
Definition q_gt x y := match q_partial_cmp x y with Some Gt => true | _ => false end.
Definition q_ge x y := match q_partial_cmp x y with Some Gt | Some Eq => true | _ => false end.

(** src/quad/misc.rs:21-27 *)
Definition q_abs (x : Quad) : Quad := if q_is_sign_negative x then q_neg x else x.

(** [(a - x).abs() < f64::EPSILON] *)
Definition near_eps (a x : f64) : bool := fltb (fabs (fsub a x)) feps.

(** src/quad/misc.rs:41-60 and 74-93, with [f] = floor resp. ceil *)
Definition q_floor_like (f : f64 -> f64) (x : Quad) : Quad :=
  let a := f (q0 x) in
  if near_eps a (q0 x) then
    let b := f (q1 x) in
    let '(c, d) :=
      if near_eps b (q1 x) then
        let c := f (q2 x) in
        (c, if near_eps c (q2 x) then f (q3 x) else f0)
      else (f0, f0) in
    mkQ4 (renorm4 a b c d)
  else mkQ a f0 f0 f0.
Definition q_floor (x : Quad) : Quad := q_floor_like ffloor x.
Definition q_ceil (x : Quad) : Quad := q_floor_like fceil x.

(** [((a - x).abs() - 0.5).abs() < f64::EPSILON && next < 0.0] *)
Definition near_half (a x next : f64) : bool :=
  fltb (fabs (fsub (fabs (fsub a x)) fhalf)) feps && fltb next f0.

(** src/quad/misc.rs:108-133 *)
Definition q_round (x : Quad) : Quad :=
  let a := fround (q0 x) in
  if near_eps a (q0 x) then
    let b := fround (q1 x) in
    if near_eps b (q1 x) then
      let c := fround (q2 x) in
      if near_eps c (q2 x) then mkQ4 (renorm4 a b c (fround (q3 x)))
      else if near_half c (q2 x) (q3 x) then mkQ a b (fsub c f1) f0
      else mkQ a b c f0
    else if near_half b (q1 x) (q2 x) then mkQ a (fsub b f1) f0 f0
    else mkQ a b f0 f0
  else if near_half a (q0 x) (q1 x) then mkQ (fsub a f1) f0 f0 f0
  else mkQ a f0 f0 f0.

(** src/quad/misc.rs:147-153, 170-172, 192-200 *)
Definition q_trunc (x : Quad) : Quad := if fgeb (q0 x) f0 then q_floor x else q_ceil x.
Definition q_fract (x : Quad) : Quad := q_sub x (q_trunc x).
Definition q_signum (x : Quad) : Quad :=
  if q_is_nan x then Q_NAN else if q_is_sign_negative x then Q_NEG_ONE else Q_ONE.

(** src/quad/rem.rs:33-36 *)
Definition q_rem (x y : Quad) : Quad :=
  let n := q_floor (q_div x y) in q_sub x (q_mul y n).

(** reference forms: src/quad/add.rs:124-126, 146-148, 169-171;
    sub.rs:49-51, 73-75, 97-99; mul.rs:122-124, 145-147, 168-170;
    div.rs:102-104, 124-126, 147-149; rem.rs:63-65, 92-94, 121-123 *)
Definition q_add_rr x y := q_add x y.
Definition q_add_vr x y := q_add x y.
Definition q_add_rv x y := q_add x y.
Definition q_sub_rr x y := q_add x (q_neg y).
Definition q_sub_vr x y := q_add x (q_neg y).
Definition q_sub_rv x y := q_add x (q_neg y).
Definition q_mul_rr x y := q_mul x y.
Definition q_mul_vr x y := q_mul x y.
Definition q_mul_rv x y := q_mul x y.
Definition q_div_rr x y := q_div x y.
Definition q_div_vr x y := q_div x y.
Definition q_div_rv x y := q_div x y.
Definition q_rem_rr x y := q_rem x y.
Definition q_rem_vr x y := q_rem x y.
Definition q_rem_rv x y := q_rem x y.

(** assignment forms: src/quad/add.rs:190-196, 216-222; sub.rs:118-124,
    144-150; mul.rs:189-195, 215-221; div.rs:168-174, 194-200; rem.rs:150-156,
    183-189: the four fields are overwritten one by one *)
Definition q_assign (self r : Quad) : Quad :=
  let self := mkQ (q0 r) (q1 self) (q2 self) (q3 self) in
  let self := mkQ (q0 self) (q1 r) (q2 self) (q3 self) in
  let self := mkQ (q0 self) (q1 self) (q2 r) (q3 self) in
  mkQ (q0 self) (q1 self) (q2 self) (q3 r).
Definition q_add_assign self y := q_assign self (q_add self y).
Definition q_sub_assign self y := q_assign self (q_add self (q_neg y)).
Definition q_mul_assign self y := q_assign self (q_mul self y).
Definition q_div_assign self y := q_assign self (q_div self y).
Definition q_rem_assign self y := q_assign self (q_rem self y).

(** src/quad/iter.rs:21-26, 41-46, 61-66, 81-86 *)
Definition q_sum (l : list Quad) : Quad := fold_left q_add l Q_ZERO.
Definition q_product (l : list Quad) : Quad := fold_left q_mul l Q_ONE.

(** src/quad/common.rs:9-11 *)
Definition q_mul_pwr2 (a : Quad) (n : f64) : Quad :=
  mkQ (fmul (q0 a) n) (fmul (q1 a) n) (fmul (q2 a) n) (fmul (q3 a) n).

(** src/quad/alg.rs:28-36 *)
Definition q_ldexp (x : Quad) (n : Z) : Quad :=
  let factor := fpowi f2 n in
  mkQ (fmul (q0 x) factor) (fmul (q1 x) factor) (fmul (q2 x) factor) (fmul (q3 x) factor).

(** src/quad/alg.rs:307-313 and 51-100 *)
Definition q_pre_sqr (x : Quad) : option Quad :=
  if q_is_infinite x then Some Q_INFINITY else None.
Definition q_sqr_core (x : Quad) : Quad :=
  let '(h0, l0) := two_sqr (q0 x) in
  let '(h1, l1) := two_prod (fmul f2 (q0 x)) (q1 x) in
  let '(h2, l2) := two_prod (fmul f2 (q0 x)) (q2 x) in
  let '(h3, l3) := two_sqr (q1 x) in
  let h4 := fmul (fmul f2 (q0 x)) (q3 x) in
  let h5 := fmul (fmul f2 (q1 x)) (q2 x) in
  let r0 := h0 in
  let '(r1, a1) := two_sum h1 l0 in
  let '(b0, b1) := two_sum a1 l1 in
  let '(c0, c1) := two_sum h2 h3 in
  let '(d0, d1) := two_sum b0 c0 in
  let '(e0, e1) := two_sum b1 c1 in
  let '(g0, g1) := two_sum d1 e0 in
  let '(i0, i1) := quick_two_sum g0 (fadd e1 g1) in
  let '(r2, j1) := quick_two_sum d0 i0 in
  let '(k0, k1) := quick_two_sum i1 j1 in
  let '(m0, m1) := two_sum h4 h5 in
  let '(n0, n1) := two_sum l2 l3 in
  let '(o0, o1) := two_sum m0 n0 in
  let '(r3, z1) := two_sum k0 o0 in
  let r4 := fadd (fadd (fadd (fadd m1 n1) o1) k1) z1 in
  mkQ4 (renorm5 r0 r1 r2 r3 r4).
Definition q_sqr (x : Quad) : Quad := from_pre (q_pre_sqr x) (q_sqr_core x).

(** src/quad/alg.rs:293-295 *)
Definition q_recip (x : Quad) : Quad := q_div Q_ONE x.

(** src/quad/alg.rs:370-402 *)
Definition q_pre_powi (x : Quad) (n : Z) : option Quad :=
  if n =? 0 then Some Q_ONE
  else if q_is_nan x then Some Q_NAN
  else if q_is_zero x then
    if Z.even n || q_is_sign_positive x then
      if n >? 0 then Some Q_ZERO else Some Q_INFINITY
    else if n >? 0 then Some Q_NEG_ZERO else Some Q_NEG_INFINITY
  else if q_is_infinite x then
    if Z.even n || q_is_sign_positive x then
      if n >? 0 then Some Q_INFINITY else Some Q_ZERO
    else if n >? 0 then Some Q_NEG_INFINITY else Some Q_NEG_ZERO
  else None.

(** src/quad/alg.rs:226-234, the loop on a positive [k] *)
Fixpoint q_powi_loop (s r : Quad) (i : positive) : Quad :=
  match i with
  | xH => q_mul s r
  | xO i' => q_powi_loop s (q_sqr r) i'
  | xI i' => q_powi_loop (q_mul s r) (q_sqr r) i'
  end.

(** src/quad/alg.rs:217-246 *)
Definition q_powi (dbg : bool) (x : Quad) (n : Z) : outcome Quad :=
  match q_pre_powi x n with
  | Some r => Val r
  | None =>
      let* i := i32_chk dbg (Z.abs n) in
      let s := if i >? 1 then q_powi_loop Q_ONE x (Z.to_pos i) else x in
      Val (if n <? 0 then q_recip s else s)
  end.

(** src/quad/from.rs:20-26 *)
Definition split_u128 (a : Z) : Z * Z * Z * Z :=
  (a / 2 ^ 96 mod 2 ^ 32, a / 2 ^ 64 mod 2 ^ 32, a / 2 ^ 32 mod 2 ^ 32, a mod 2 ^ 32).
(** src/quad/from.rs:28-32 *)
Definition q_from_u64 (a : Z) : Quad :=
  let '(x, y) := split_u64 a in
  mkQ4 (renorm4 (fmul (fofZ x) (fpowi f2 32)) (fofZ y) f0 f0).
(** src/quad/from.rs:34-50 *)
Definition q_from_i64 (a : Z) : Quad :=
  let sign := Z.sgn a in
  let a := if a =? i64_min then i64_max + 1 else Z.abs a in
  let '(x, y) := split_u64 a in
  let r := mkQ4 (renorm4 (fmul (fofZ x) (fpowi f2 32)) (fofZ y) f0 f0) in
  if sign =? -1 then q_neg r else r.
(** src/quad/from.rs:53-62 *)
Definition q_from_u128 (a : Z) : Quad :=
  let '(w, x, y, z) := split_u128 a in
  mkQ4 (renorm4 (fmul (fofZ w) (fpowi f2 96)) (fmul (fofZ x) (fpowi f2 64))
                (fmul (fofZ y) (fpowi f2 32)) (fofZ z)).
(** src/quad/from.rs:65-86 *)
Definition i128_min : Z := - 2 ^ 127.
Definition i128_max : Z := 2 ^ 127 - 1.
Definition q_from_i128 (a : Z) : Quad :=
  let sign := Z.sgn a in
  let a := if a =? i128_min then i128_max + 1 else Z.abs a in
  let '(w, x, y, z) := split_u128 a in
  let r := mkQ4 (renorm4 (fmul (fofZ w) (fpowi f2 96)) (fmul (fofZ x) (fpowi f2 64))
                (fmul (fofZ y) (fpowi f2 32)) (fofZ z)) in
  if sign =? -1 then q_neg r else r.
(** src/quad/from.rs:105-107: i8, u8, i16, u16, i32, u32 *)
Definition q_from_small (a : Z) : Quad := mkQ (fofZ a) f0 f0 f0.

(** src/quad/from.rs:364-366, 394-396, 426-428, 505-507, 527-529, 550-552, 574-576 *)
Definition q_from_tuple2 (t : f64 * f64) : Quad := mkQ (fst t) (snd t) f0 f0.
Definition q_from_tuple3 (t : f64 * f64 * f64) : Quad := let '(a, b, c) := t in mkQ a b c f0.
Definition q_from_tuple4 (t : f64 * f64 * f64 * f64) : Quad := let '(a, b, c, d) := t in mkQ a b c d.
Definition q_to_f64 (x : Quad) : f64 := q0 x.
Definition q_to_tuple2 (x : Quad) := (q0 x, q1 x).
Definition q_to_tuple3 (x : Quad) := (q0 x, q1 x, q2 x).
Definition q_to_tuple4 (x : Quad) := (q0 x, q1 x, q2 x, q3 x).

(** src/quad.rs:147-159 *)
Definition q_index (x : Quad) (idx : Z) : outcome f64 :=
  match idx with
  | 0 => Val (q0 x)
  | 1 => Val (q1 x)
  | 2 => Val (q2 x)
  | 3 => Val (q3 x)
  | _ => Panicked
  end.
