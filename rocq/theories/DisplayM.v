(** * Model of src/common/display.rs, src/double/display.rs, src/quad/display.rs *)
From Coq Require Import ZArith List Bool.
From Flocq Require Import IEEE754.BinarySingleNaN.
From Verif Require Import F64 Prim DoubleM QuadM ParseM.
Import ListNotations.
Local Open Scope Z_scope.

(** [std::fmt::Alignment] and the options of a [std::fmt::Formatter] that the
    code reads.  Precision and width are usize; they are unbounded here (memory
    exhaustion is not modelled). *)
Inductive alignment := ALeft | ARight | ACenter.
Record fmt := mkF {
  f_prec : option nat;      (* Formatter::precision *)
  f_width : option nat;     (* Formatter::width *)
  f_fill : Z;               (* Formatter::fill *)
  f_align : option alignment; (* Formatter::align *)
  f_plus : bool;            (* Formatter::sign_plus *)
  f_zero : bool;            (* Formatter::sign_aware_zero_pad *)
  f_alt : bool              (* Formatter::alternate *)
}.
(** the empty specifier ["{}"], which [to_string] uses *)
Definition f_default : fmt := mkF None None 32 None false false false.

Definition c_zero : Z := 48.
Definition c_one : Z := 49.
Definition c_E : Z := 69.

(** [Vec::insert(i, c)] (std): panics if i > len *)
Definition insert_at (s : text) (i : nat) (c : Z) : outcome text :=
  if (i <=? length s)%nat then Val (firstn i s ++ c :: skipn i s) else Panicked.
(** [v[i] = a] *)
Fixpoint set_nth (l : list Z) (i : nat) (a : Z) : list Z :=
  match l, i with
  | [], _ => []
  | _ :: l', O => a :: l'
  | b :: l', S i' => b :: set_nth l' i' a
  end.
(** [v[i]] (panics out of range) *)
Definition get (l : list Z) (i : nat) : outcome Z :=
  match nth_error l i with Some d => Val d | None => Panicked end.
(** [v[i] += 1] on u8: overflow panics with overflow checks and wraps without *)
Definition incr_at (dbg : bool) (l : list Z) (i : nat) : outcome (list Z) :=
  let* d := get l i in
  if d =? 255 then (if dbg then Panicked else Val (set_nth l i 0))
  else Val (set_nth l i (d + 1)).

(** src/common/display.rs:10-12, 15-17 *)
Definition t_NaN : text := [78; 97; 78].
Definition push_nan (chars : text) : text := chars ++ t_NaN.
Definition push_inf (chars : text) : text := chars ++ t_inf.
(** src/common/display.rs:21-31 *)
Definition push_zero (chars : text) (f : fmt) : text :=
  let chars := chars ++ [c_zero] in
  match f_prec f with
  | Some p => if (0 <? p)%nat then (chars ++ [c_dot]) ++ repeat c_zero p else chars
  | None => chars
  end.
(** [i32::to_string] (std): a minus sign if negative, then the decimal digits
    without leading zeros.  Ten digits are enough for an i32. *)
Fixpoint nat_text (fuel : nat) (n : Z) : text :=
  match fuel with
  | O => []
  | S fuel' => if n <? 10 then [c_zero + n] else nat_text fuel' (n / 10) ++ [c_zero + n mod 10]
  end.
Definition i32_text (n : Z) : text := (if n <? 0 then [c_minus] else []) ++ nat_text 10 (Z.abs n).
(** src/common/display.rs:34-37 *)
Definition push_exp (chars : text) (marker : Z) (exp : Z) : text := (chars ++ [marker]) ++ i32_text exp.

(** src/common/display.rs:48-52: the carry loop, [p] is [len - i] *)
Fixpoint carry (dbg : bool) (digits : list Z) (p : nat) : outcome (list Z) :=
  let* d := get digits p in
  if d =? 10 then
    match p with
    | O => Val digits
    | S p' =>
        let* digits := incr_at dbg (set_nth digits p 0) p' in
        carry dbg digits p'
    end
  else Val digits.
(** src/common/display.rs:41-55.  [len] is a usize obtained from a possibly
    negative i32 ([as usize]), which is then out of range. *)
Definition round_and_trunc (dbg : bool) (digits : list Z) (len : Z) : outcome (list Z) :=
  if len <? 0 then Panicked
  else
    let n := Z.to_nat len in
    let* d := get digits n in
    let* digits :=
      (if 5 <=? d then
         match n with
         | O => Panicked (* digits[len - 1] with len = 0 *)
         | S p => let* digits := incr_at dbg digits p in carry dbg digits p
         end
       else Val digits) in
    Val (firstn n digits).

(** src/common/display.rs:74-76: new_len *)
Fixpoint zeros_len (digits : list Z) (exp1 : Z) (n : nat) : outcome nat :=
  match n with
  | O => Panicked (* digits[new_len - 1] with new_len = 0 *)
  | S n' =>
      let* d := get digits n' in
      if (d =? 0) && (1 <? n)%nat && (exp1 <? Z.of_nat n) then zeros_len digits exp1 n' else Val n
  end.
(** src/common/display.rs:65-90.  [exp.abs() as usize]: for i32::MIN it panics
    with overflow checks; without, it is a usize for which [vec!] panics with
    "capacity overflow". [digits.len() as i32] is the length (it is at most 62). *)
Definition adjust_zeros (dbg : bool) (digits : list Z) (exp : Z) : outcome (list Z) :=
  let* absexp := i32_chk dbg (Z.abs exp) in
  let accuracy := Z.of_nat (length digits) in
  let* exp1 := i32_chk dbg (exp + 1) in
  let* digits :=
    (if exp1 <? Z.of_nat (length digits) then
       let* n := zeros_len digits exp1 (length digits) in Val (firstn n digits)
     else Val digits) in
  if exp <? 0 then
    if absexp <? 0 then Panicked else Val (repeat 0 (Z.to_nat absexp) ++ digits)
  else
    let zero_length := Z.max 0 (absexp - accuracy + 1) in
    Val (digits ++ repeat 0 (Z.to_nat zero_length)).

(** src/common/display.rs:104-117 *)
Definition adjust_prec (dbg : bool) (digits : list Z) (exp : Z) (prec : option nat) : outcome (list Z) :=
  match prec with
  | None => Val digits
  | Some p =>
      let desired := if exp <? 0 then (p + 1)%nat else (Z.to_nat exp + p + 1)%nat in
      if (length digits <? desired)%nat then Val (digits ++ repeat 0 (desired - length digits))
      else if (desired <? length digits)%nat then round_and_trunc dbg digits (Z.of_nat desired)
      else Val digits
  end.

(** src/common/display.rs:133-143 *)
Fixpoint digit_chars (digits : list Z) : outcome text :=
  match digits with
  | [] => Val []
  | d :: ds =>
      let* c := (if d =? 10 then Val [c_one; c_zero]
                 else if (0 <=? d) && (d <? 10) then Val [c_zero + d]
                 else Panicked (* char::from_digit(..).unwrap() *)) in
      let* r := digit_chars ds in
      Val (c ++ r)
  end.
(** src/common/display.rs:129-153 *)
Definition place_decimal (digits : list Z) (exp : Z) : outcome text :=
  let* d := get digits 0 in
  let offset := if d =? 10 then 1%nat else 0%nat in
  let* result := digit_chars digits in
  let position := (Z.to_nat (Z.max 0 exp) + offset + 1)%nat in
  if (position <? length result)%nat then insert_at result position c_dot else Val result.

(** src/common/display.rs:162-205: [for _ in 0..n { chars.push(c) }] and
    [for _ in 0..n { chars.insert(i, c) }] *)
Fixpoint push_n (n : nat) (s : text) (c : Z) : text :=
  match n with O => s | S n' => push_n n' (s ++ [c]) c end.
Fixpoint insert_n (n : nat) (s : text) (i : nat) (c : Z) : outcome text :=
  match n with O => Val s | S n' => let* s := insert_at s i c in insert_n n' s i c end.
Definition align_and_fill (chars : text) (signed : bool) (f : fmt) : outcome text :=
  match f_width f with
  | None => Val chars
  | Some width =>
      let len := length chars in
      if (len <? width)%nat then
        let delta := (width - len)%nat in
        let fill := f_fill f in
        match f_align f with
        | Some ALeft => Val (push_n delta chars fill)
        | Some ARight => insert_n delta chars 0 fill
        | Some ACenter =>
            let left := Nat.div2 delta in
            let right := (delta - left)%nat in
            let* chars := insert_n left chars 0 fill in
            Val (push_n right chars fill)
        | None =>
            if f_zero f then insert_n delta chars (if signed then 1 else 0) c_zero
            else insert_n delta chars 0 fill
        end
      else Val chars
  end.

(** The two display modules are the same text over two number types. *)
Record dispops (T : Type) := {
  s_abs : T -> T; s_hi : T -> f64;
  s_nan : T -> bool; s_infinite : T -> bool; s_zero : T -> bool; s_finite : T -> bool; s_neg : T -> bool;
  s_ten : T;                          (* TEN, double/display.rs:11, quad/display.rs:11 *)
  s_single : f64 -> T;                (* Double(digit, 0.0), double/display.rs:243; quad/display.rs:259 *)
  s_div : T -> T -> T; s_sub_assign : T -> T -> T; s_mul_assign : T -> T -> T;
  s_powi : bool -> T -> Z -> outcome T;
  s_acc : nat                         (* MAX_ACCURACY, double/display.rs:12, quad/display.rs:12 *)
}.
Arguments s_abs {T}. Arguments s_hi {T}. Arguments s_nan {T}. Arguments s_infinite {T}. Arguments s_zero {T}.
Arguments s_finite {T}. Arguments s_neg {T}. Arguments s_ten {T}. Arguments s_single {T}. Arguments s_div {T}.
Arguments s_sub_assign {T}. Arguments s_mul_assign {T}. Arguments s_powi {T}. Arguments s_acc {T}.
Definition d_disp : dispops Double := {|
  s_abs := d_abs; s_hi := d0; s_nan := d_is_nan; s_infinite := d_is_infinite; s_zero := d_is_zero;
  s_finite := d_is_finite; s_neg := d_is_sign_negative; s_ten := mkD (fofZ 10) f0; s_single := fun a => mkD a f0;
  s_div := d_div; s_sub_assign := d_sub_assign; s_mul_assign := d_mul_assign; s_powi := d_powi; s_acc := 31 |}.
Definition q_disp : dispops Quad := {|
  s_abs := q_abs; s_hi := q0; s_nan := q_is_nan; s_infinite := q_is_infinite; s_zero := q_is_zero;
  s_finite := q_is_finite; s_neg := q_is_sign_negative; s_ten := mkQ (fofZ 10) f0 f0 f0; s_single := fun a => mkQ a f0 f0 f0;
  s_div := q_div; s_sub_assign := q_sub_assign; s_mul_assign := q_mul_assign; s_powi := q_powi; s_acc := 62 |}.

Section Display.
Context {T : Type} (N : dispops T) (lm : libm) (dbg : bool).

(** double/display.rs:188-198; quad/display.rs:204-214 *)
Definition push_sign (chars : text) (value : T) (f : fmt) : text * bool :=
  if s_neg N value then (chars ++ [c_minus], true)
  else if f_plus f then (chars ++ [c_plus], true)
  else (chars, false).
(** double/display.rs:240-247; quad/display.rs:256-263 *)
Fixpoint extract_loop (n : nat) (value : T) : list Z :=
  match n with
  | O => []
  | S n' =>
      let digit := ftrunc (s_hi N value) in
      let value := s_sub_assign N value (s_single N digit) in
      let value := s_mul_assign N value (s_ten N) in
      as_u8 digit :: extract_loop n' value
  end.
(** double/display.rs:229-261; quad/display.rs:245-277 *)
Definition extract_digits (value : T) (exp : Z) : outcome (list Z) :=
  let* divisor := s_powi N dbg (s_ten N) exp in
  let value := s_div N value divisor in
  let digits := extract_loop (s_acc N + 1) value in
  let* len := i32_chk dbg (324 + exp) in
  round_and_trunc dbg digits (Z.min len (Z.of_nat (s_acc N))).
(** [value.0.log10().floor() as i32], double/display.rs:119, 152, 202, 214 *)
Definition dec_exp (a : f64) : Z := as_i32 (ffloor (lm_log10 lm a)).
(** double/display.rs:200-210; quad/display.rs:216-226 *)
Definition push_digits_fixed (chars : text) (value : T) (f : fmt) : outcome text :=
  let value := s_abs N value in
  let exp := dec_exp (s_hi N value) in
  let prec := f_prec f in
  let* digits := extract_digits value exp in
  let* digits := adjust_zeros dbg digits exp in
  let* digits := adjust_prec dbg digits exp prec in
  let* t := place_decimal digits exp in
  Val (chars ++ t).
(** double/display.rs:212-222; quad/display.rs:228-238 *)
Definition push_digits_exp (chars : text) (value : T) (f : fmt) : outcome text :=
  let value := s_abs N value in
  let exp := dec_exp (s_hi N value) in
  let prec := f_prec f in
  let* digits := extract_digits value exp in
  let* digits := adjust_zeros dbg digits 0 in
  let* digits := adjust_prec dbg digits 0 prec in
  let* t := place_decimal digits 0 in
  Val (chars ++ t).

(** double/display.rs:78-94; quad/display.rs:82-98 *)
Definition display (x : T) (f : fmt) : outcome text :=
  let '(result, signed) := push_sign [] x f in
  let* result :=
    (if s_nan N x then Val (push_nan result)
     else if s_infinite N x then Val (push_inf result)
     else if s_zero N x then Val (push_zero result f)
     else push_digits_fixed result x f) in
  align_and_fill result signed f.
(** double/display.rs:101-127 (marker 'e'), 134-160 (marker 'E'); quad/display.rs:105-131, 138-164 *)
Definition display_exp (marker : Z) (x : T) (f : fmt) : outcome text :=
  let '(result, signed) := push_sign [] x f in
  let* result :=
    (if s_nan N x then Val (push_nan result)
     else if s_infinite N x then Val (push_inf result)
     else if s_zero N x then Val (push_zero result f)
     else push_digits_exp result x f) in
  let result :=
    if s_finite N x then
      push_exp result marker (if s_zero N x then 0 else dec_exp (fabs (s_hi N x)))
    else result in
  align_and_fill result signed f.
End Display.

Definition d_display := display d_disp.
Definition q_display := display q_disp.
Definition d_lower_exp lm dbg x f := display_exp d_disp lm dbg c_e x f.
Definition d_upper_exp lm dbg x f := display_exp d_disp lm dbg c_E x f.
Definition q_lower_exp lm dbg x f := display_exp q_disp lm dbg c_e x f.
Definition q_upper_exp lm dbg x f := display_exp q_disp lm dbg c_E x f.

(** Debug: double/display.rs:167-185, quad/display.rs:171-201.  [lower_e] is
    std's [format!("{:e}", _)] on f64, an argument here. *)
Definition t_Double : text := [68; 111; 117; 98; 108; 101; 40].
Definition t_Quad : text := [81; 117; 97; 100; 40].
Definition t_nl4 : text := [10; 32; 32; 32; 32].
Definition d_debug (lower_e : f64 -> text) (x : Double) (f : fmt) : text :=
  let alt := f_alt f in
  let str := t_Double in
  let str := if alt then str ++ t_nl4 else str in
  let str := str ++ (lower_e (d0 x) ++ [44]) in
  let str := if alt then str ++ t_nl4 else str ++ [32] in
  let str := str ++ lower_e (d1 x) in
  let str := if alt then str ++ [10] else str in
  str ++ [41].
Definition q_debug (lower_e : f64 -> text) (x : Quad) (f : fmt) : text :=
  let alt := f_alt f in
  let str := t_Quad in
  let str := if alt then str ++ t_nl4 else str in
  let str := str ++ (lower_e (q0 x) ++ [44]) in
  let str := if alt then str ++ t_nl4 else str ++ [32] in
  let str := str ++ (lower_e (q1 x) ++ [44]) in
  let str := if alt then str ++ t_nl4 else str ++ [32] in
  let str := str ++ (lower_e (q2 x) ++ [44]) in
  let str := if alt then str ++ t_nl4 else str ++ [32] in
  let str := str ++ lower_e (q3 x) in
  let str := if alt then str ++ [10] else str in
  str ++ [41].

(** src/quad/from.rs:448-450: [From<Double> for Quad] is [a.to_string().parse().unwrap()] *)
Definition q_from_double (lm : libm) (dbg : bool) (a : Double) : outcome Quad :=
  let* s := d_display lm dbg a f_default in
  let* r := from_str q_ops dbg s in
  unwrap r.
