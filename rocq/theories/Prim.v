(** * Model of src/common/primitive.rs and src/common/utils.rs *)
From Coq Require Import ZArith List Bool.
From Verif Require Import F64.
Local Open Scope Z_scope.

(** src/common/primitive.rs:57-61 *)
Definition quick_two_sum (a b : f64) : f64 * f64 :=
  let s := fadd a b in
  let e := fsub b (fsub s a) in
  (s, e).

(** src/common/primitive.rs:75-80 *)
Definition two_sum (a b : f64) : f64 * f64 :=
  let s := fadd a b in
  let v := fsub s a in
  let e := fadd (fsub a (fsub s v)) (fsub b v) in
  (s, e).

(** src/common/primitive.rs:85-90 *)
Definition two_diff (a b : f64) : f64 * f64 :=
  let s := fsub a b in
  let v := fsub s a in
  let e := fsub (fsub a (fsub s v)) (fadd b v) in
  (s, e).

(** src/common/primitive.rs:24-49: SPLIT_FACTOR, SPLIT_THRESHOLD,
    SPLIT_SHIFT_DOWN, SPLIT_SHIFT_UP ([cfg(no_fma)]) *)
Definition split_factor : f64 := fofZ 134217729.
Definition split_threshold : f64 := dec 669692879491417 285. (* 6.69692879491417e+299 *)
Definition split_shift_down : f64 := dec 37252902984619140625 (-28). (* 3.7252902984619140625e-9 *)
Definition split_shift_up : f64 := fofZ 268435456.

(** src/common/primitive.rs:99-114 ([cfg(no_fma)]) *)
Definition split (a : f64) : f64 * f64 :=
  if fgtb a split_threshold || fltb a (fneg split_threshold) then
    let s := fmul a split_shift_down in
    let t := fmul split_factor s in
    let hi := fsub t (fsub t s) in
    let lo := fsub s hi in
    (fmul hi split_shift_up, fmul lo split_shift_up)
  else
    let t := fmul split_factor a in
    let hi := fsub t (fsub t a) in
    let lo := fsub a hi in
    (hi, lo).

(** src/common/primitive.rs:121-127 (default build, fused multiply-add) *)
Definition two_prod (a b : f64) : f64 * f64 :=
  let p := fmul a b in
  let e := fma a b (fneg p) in
  (p, e).

(** src/common/primitive.rs:134-142 ([cfg(no_fma)]) *)
Definition two_prod_nofma (a b : f64) : f64 * f64 :=
  let p := fmul a b in
  let '(ahi, alo) := split a in
  let '(bhi, blo) := split b in
  let e := fadd (fadd (fadd (fsub (fmul ahi bhi) p) (fmul ahi blo)) (fmul alo bhi)) (fmul alo blo) in
  (p, e).

(** src/common/primitive.rs:149-155 (default build) *)
Definition two_sqr (a : f64) : f64 * f64 :=
  let p := fmul a a in
  let e := fma a a (fneg p) in
  (p, e).

(** src/common/primitive.rs:163-170 ([cfg(no_fma)]) *)
Definition two_sqr_nofma (a : f64) : f64 * f64 :=
  let p := fmul a a in
  let '(hi, lo) := split a in
  let e := fadd (fadd (fsub (fmul hi hi) p) (fmul (fmul f2 hi) lo)) (fmul lo lo) in
  (p, e).

(** src/common/utils.rs:10-14 *)
Definition three_two_sum (a b c : f64) : f64 * f64 :=
  let '(u, v) := two_sum a b in
  let '(s, w) := two_sum c u in
  (s, fadd v w).

(** src/common/utils.rs:18-23 *)
Definition three_three_sum (a b c : f64) : f64 * f64 * f64 :=
  let '(u, v) := two_sum a b in
  let '(s, w) := two_sum c u in
  let '(e1, e2) := two_sum v w in
  (s, e1, e2).

(** src/common/utils.rs:27-30 *)
Definition four_two_sum (a b c d : f64) : f64 * f64 :=
  let '(s0, s1) := two_sum a c in
  (s0, fadd (fadd s1 b) d).

(** src/common/utils.rs:34-42 *)
Definition six_three_sum (a b c d e f : f64) : f64 * f64 * f64 :=
  let '(p0, p1, p2) := three_three_sum a b c in
  let '(q0, q1, q2) := three_three_sum d e f in
  let '(r0, r1) := two_sum p0 q0 in
  let '(s0, s1) := two_sum p1 q1 in
  let '(t0, t1) := two_sum s0 r1 in
  let u0 := fadd (fadd (fadd p2 q2) s1) t1 in
  (r0, t0, u0).

(** src/common/utils.rs:47-67 *)
Definition nine_two_sum (a b c d e f g h i : f64) : f64 * f64 :=
  let '(p0, p1) := two_sum a b in
  let '(q0, q1) := two_sum c d in
  let '(r0, r1) := two_sum e f in
  let '(s0, s1) := two_sum g h in
  let '(t0, t1) := four_two_sum p0 p1 q0 q1 in
  let '(u0, u1) := four_two_sum r0 r1 s0 s1 in
  let '(v0, v1) := four_two_sum t0 t1 u0 u1 in
  let '(w0, w1) := two_sum v0 i in
  (w0, fadd w1 v1).

(** src/common/utils.rs:75-87 *)
Definition accumulate (a b c : f64) : f64 * f64 * f64 :=
  let '(s, b) := two_sum b c in
  let '(s, a) := two_sum a s in
  let za := feqb a f0 in
  let zb := feqb b f0 in
  if negb (za || zb) then (s, a, b)
  else (f0, s, if zb then a else b).

(** src/common/utils.rs:95-97 *)
Definition renorm2 (a b : f64) : f64 * f64 := quick_two_sum a b.

(** src/common/utils.rs:105-109 *)
Definition renorm3 (a b c : f64) : f64 * f64 :=
  let '(u, v) := quick_two_sum a b in
  let '(s, w) := quick_two_sum c u in
  quick_two_sum s (fadd v w).

(** [x != 0.0] *)
Definition fne0 (x : f64) : bool := negb (feqb x f0).

(** src/common/utils.rs:117-141 *)
Definition renorm4 (a b c d : f64) : f64 * f64 * f64 * f64 :=
  let '(x, s3) := quick_two_sum c d in
  let '(x, s2) := quick_two_sum b x in
  let '(s0, s1) := quick_two_sum a x in
  if fne0 s1 then
    let '(s1, s2) := quick_two_sum s1 s2 in
    if fne0 s2 then
      let '(s2, s3) := quick_two_sum s2 s3 in
      (s0, s1, s2, s3)
    else
      let '(s1, s2) := quick_two_sum s1 s3 in
      (s0, s1, s2, f0)
  else
    let '(s0, s1) := quick_two_sum s0 s2 in
    if fne0 s1 then
      let '(s1, s2) := quick_two_sum s1 s3 in
      (s0, s1, s2, f0)
    else
      let '(s0, s1) := quick_two_sum s0 s3 in
      (s0, s1, f0, f0).

(** src/common/utils.rs:149-197 *)
Definition renorm5 (a b c d e : f64) : f64 * f64 * f64 * f64 :=
  let '(x, s4) := quick_two_sum d e in
  let '(x, s3) := quick_two_sum c x in
  let '(x, s2) := quick_two_sum b x in
  let '(s0, s1) := quick_two_sum a x in
  if fne0 s1 then
    let '(s1, s2) := quick_two_sum s1 s2 in
    if fne0 s2 then
      let '(s2, s3) := quick_two_sum s2 s3 in
      if fne0 s3 then (s0, s1, s2, fadd s3 s4)
      else
        let '(s2, s3) := quick_two_sum s2 s4 in
        (s0, s1, s2, s3)
    else
      let '(s1, s2) := quick_two_sum s1 s3 in
      if fne0 s2 then
        let '(s2, s3) := quick_two_sum s2 s4 in
        (s0, s1, s2, s3)
      else
        let '(s1, s2) := quick_two_sum s1 s4 in
        (s0, s1, s2, f0)
  else
    let '(s0, s1) := quick_two_sum s0 s2 in
    if fne0 s1 then
      let '(s1, s2) := quick_two_sum s1 s3 in
      if fne0 s2 then
        let '(s2, s3) := quick_two_sum s2 s4 in
        (s0, s1, s2, s3)
      else
        let '(s1, s2) := quick_two_sum s1 s4 in
        (s0, s1, s2, f0)
    else
      let '(s0, s1) := quick_two_sum s0 s3 in
      if fne0 s1 then
        let '(s1, s2) := quick_two_sum s1 s4 in
        (s0, s1, s2, f0)
      else
        let '(s0, s1) := quick_two_sum s0 s4 in
        (s0, s1, f0, f0).

(** [-(x)] on i32 in [2f64.powi(-(len as i32))] cannot overflow for a text
    length, so [fpowi] is applied to the plain negation.
    src/common/utils.rs:204-213.  [f.to_string().len() - 2] on usize panics on
    underflow in debug builds and wraps in release; [is_dyadic] is only
    meaningful when the text has at least two characters, so the model panics
    if it does not (Rust prints a nonintegral value with at least "0."). The
    text is ASCII, so byte length = number of characters. *)
Definition is_dyadic (lm : libm) (n : f64) : outcome bool :=
  let f := ffract n in
  if feqb f f0 then Val true
  else
    let l := Z.of_nat (length (lm_to_string lm f)) in
    if l <? 2 then Panicked
    else
      let base := fpowi f2 (- (l - 2)) in
      Val (feqb (fmodf f base) f0).
