(** * Model of src/double/from_str.rs and src/quad/from_str.rs *)
From Coq Require Import ZArith List Bool.
From Verif Require Import F64 Prim DoubleM QuadM.
Import ListNotations.
Local Open Scope Z_scope.

(** Text ([&str], [String]) is the list of its Unicode scalar values; byte
    positions are computed from the UTF-8 length of each. *)
Definition text := list Z.

Definition c_dot : Z := 46.
Definition c_minus : Z := 45.
Definition c_plus : Z := 43.
Definition c_e : Z := 101.
Definition c_under : Z := 95.

(** [char::is_whitespace] (std: Unicode White_Space), used by [str::trim] *)
Definition is_ws (c : Z) : bool :=
  ((9 <=? c) && (c <=? 13)) || (c =? 32) || (c =? 133) || (c =? 160) || (c =? 5760) ||
  ((8192 <=? c) && (c <=? 8202)) || (c =? 8232) || (c =? 8233) || (c =? 8239) || (c =? 8287) || (c =? 12288).
(** [str::trim] (std) *)
Fixpoint drop_ws (s : text) : text :=
  match s with
  | [] => []
  | c :: s' => if is_ws c then drop_ws s' else s
  end.
Definition trim (s : text) : text := rev (drop_ws (rev (drop_ws s))).
(** [str::to_ascii_lowercase] (std) *)
Definition lower (c : Z) : Z := if (65 <=? c) && (c <=? 90) then c + 32 else c.
Definition lowercase (s : text) : text := map lower s.

(** [char::to_digit(10)] (std) *)
Definition to_digit (c : Z) : option Z := if (48 <=? c) && (c <=? 57) then Some (c - 48) else None.

(** UTF-8 length of a scalar value (std) *)
Definition utf8_len (c : Z) : Z := if c <? 128 then 1 else if c <? 2048 then 2 else if c <? 65536 then 3 else 4.
(** [&s[n..]] (std): panics unless [n] is a character boundary *)
Fixpoint byte_suffix (s : text) (n : Z) : outcome text :=
  if n =? 0 then Val s
  else match s with
       | [] => Panicked
       | c :: s' => if n <? utf8_len c then Panicked else byte_suffix s' (n - utf8_len c)
       end.

(** [str::parse::<i32>] (std): optional sign, at least one digit, value in
    range.  std accumulates with checked arithmetic digit by digit; the partial
    values are monotone, so this fails exactly when the final value is out of
    range, which is what is tested here. *)
Fixpoint digits_val (s : text) (acc : Z) : option Z :=
  match s with
  | [] => Some acc
  | c :: s' => match to_digit c with Some d => digits_val s' (acc * 10 + d) | None => None end
  end.
Definition parse_i32 (s : text) : option Z :=
  let '(neg, ds) :=
    match s with
    | c :: s' => if c =? c_minus then (true, s') else if c =? c_plus then (false, s') else (false, s)
    | [] => (false, [])
    end in
  match ds with
  | [] => None
  | _ => match digits_val ds 0 with
         | Some v => let v := if neg then - v else v in
                     if (i32_min <=? v) && (v <=? i32_max) then Some v else None
         | None => None
         end
  end.

(** src/error.rs:30-36 *)
Inductive error_kind := EEmpty | EInvalid.
Inductive presult (T : Type) := POk (t : T) | PErr (e : error_kind).
Arguments POk {T}. Arguments PErr {T}.

(** The two from_str.rs files are the same program over two number types: the
    operations they use. *)
Record numops (T : Type) := {
  n_zero : T; n_nan : T; n_inf : T; n_ninf : T;
  n_ten : T;                  (* TEN, double/from_str.rs:10, quad/from_str.rs:10 *)
  n_digit : Z -> T;           (* Double(d as f64, 0.0), double/from_str.rs:63; quad/from_str.rs:67 *)
  n_mul : T -> T -> T;
  n_add : T -> T -> T;
  n_neg : T -> T;
  n_powi : bool -> T -> Z -> outcome T
}.
Arguments n_zero {T}. Arguments n_nan {T}. Arguments n_inf {T}. Arguments n_ninf {T}. Arguments n_ten {T}.
Arguments n_digit {T}. Arguments n_mul {T}. Arguments n_add {T}. Arguments n_neg {T}. Arguments n_powi {T}.

Definition d_ops : numops Double := {|
  n_zero := D_ZERO; n_nan := D_NAN; n_inf := D_INFINITY; n_ninf := D_NEG_INFINITY;
  n_ten := mkD (fofZ 10) f0; n_digit := fun d => mkD (fofZ d) f0;
  n_mul := d_mul_assign; n_add := d_add_assign; n_neg := d_neg; n_powi := d_powi |}.
Definition q_ops : numops Quad := {|
  n_zero := Q_ZERO; n_nan := Q_NAN; n_inf := Q_INFINITY; n_ninf := Q_NEG_INFINITY;
  n_ten := mkQ (fofZ 10) f0 f0 f0; n_digit := fun d => mkQ (fofZ d) f0 f0 f0;
  n_mul := q_mul_assign; n_add := q_add_assign; n_neg := q_neg; n_powi := q_powi |}.

Section Parse.
Context {T : Type} (N : numops T) (dbg : bool).

(** the loop variables; src/double/from_str.rs:48-52, src/quad/from_str.rs:52-56 *)
Record pst := mkP { p_res : T; p_digits : Z; p_point : Z; p_sign : Z; p_exp : Z }.

(** src/double/from_str.rs:59-115, src/quad/from_str.rs:63-119: [rest] are the
    characters not yet read, [idx] the index of the first; [None] is the early
    [return Err(Invalid)].  The i32 counter [digits] is checked/wrapping. *)
Fixpoint parse_loop (s : text) (idx : Z) (rest : text) (st : pst) : outcome (option pst) :=
  match rest with
  | [] => Val (Some st)
  | ch :: rest' =>
      match to_digit ch with
      | Some d =>
          let r := n_mul N (p_res st) (n_ten N) in
          let r := n_add N r (n_digit N d) in
          let* digits := i32_chk dbg (p_digits st + 1) in
          parse_loop s (idx + 1) rest' (mkP r digits (p_point st) (p_sign st) (p_exp st))
      | None =>
          if ch =? c_dot then
            if p_point st >=? 0 then Val None
            else parse_loop s (idx + 1) rest' (mkP (p_res st) (p_digits st) (p_digits st) (p_sign st) (p_exp st))
          else if ch =? c_minus then
            if negb (p_sign st =? 0) || (p_digits st >? 0) then Val None
            else parse_loop s (idx + 1) rest' (mkP (p_res st) (p_digits st) (p_point st) (-1) (p_exp st))
          else if ch =? c_plus then
            if negb (p_sign st =? 0) || (p_digits st >? 0) then Val None
            else parse_loop s (idx + 1) rest' (mkP (p_res st) (p_digits st) (p_point st) 1 (p_exp st))
          else if ch =? c_e then
            let* end_ := byte_suffix s (idx + 1) in
            match parse_i32 end_ with
            | Some e => Val (Some (mkP (p_res st) (p_digits st) (p_point st) (p_sign st) e))
            | None => Val None
            end
          else if ch =? c_under then parse_loop s (idx + 1) rest' st
          else Val None
      end
  end.

(** src/double/from_str.rs:117-135, src/quad/from_str.rs:121-139 *)
Definition parse_finish (st : pst) : outcome T :=
  let* exp :=
    if p_point st >=? 0 then
      let* k := i32_chk dbg (p_digits st - p_point st) in i32_chk dbg (p_exp st - k)
    else Val (p_exp st) in
  let result := p_res st in
  let* result :=
    if negb (exp =? 0) then
      let* re :=
        if exp <? -307 then
          let* adjust := i32_chk dbg (exp + 307) in
          let* p := n_powi N dbg (n_ten N) adjust in
          let* exp := i32_chk dbg (exp - adjust) in
          Val (n_mul N result p, exp)
        else Val (result, exp) in
      let '(result, exp) := re in
      let* p := n_powi N dbg (n_ten N) exp in
      Val (n_mul N result p)
    else Val result in
  Val (if p_sign st =? -1 then n_neg N result else result).

Definition t_nan : text := [110; 97; 110].
Definition t_inf : text := [105; 110; 102].
Definition t_infinity : text := [105; 110; 102; 105; 110; 105; 116; 121].

Fixpoint text_eqb (a b : text) : bool :=
  match a, b with
  | [], [] => true
  | x :: a', y :: b' => (x =? y) && text_eqb a' b'
  | _, _ => false
  end.

(** src/double/from_str.rs:142-156, src/quad/from_str.rs:146-160 *)
Definition pre_from_str (s : text) : option (presult T) :=
  match s with
  | [] => Some (PErr EEmpty)
  | _ =>
    if text_eqb s t_nan then Some (POk (n_nan N))
    else if text_eqb s t_inf || text_eqb s t_infinity then Some (POk (n_inf N))
    else if text_eqb s (c_minus :: t_inf) || text_eqb s (c_minus :: t_infinity) then Some (POk (n_ninf N))
    else None
  end.

(** src/double/from_str.rs:47-138, src/quad/from_str.rs:51-142 *)
Definition from_str (s0 : text) : outcome (presult T) :=
  let s := lowercase (trim s0) in
  match pre_from_str s with
  | Some r => Val r
  | None =>
      let* o := parse_loop s 0 s (mkP (n_zero N) 0 (-1) 0 0) in
      match o with
      | None => Val (PErr EInvalid)
      | Some st => let* r := parse_finish st in Val (POk r)
      end
  end.
End Parse.

(** src/double/from.rs:318-320: [From<&str>] *)
Definition d_from_text (dbg : bool) (s : text) : outcome Double :=
  let* r := from_str d_ops dbg s in
  Val (match r with POk x => x | PErr _ => D_NAN end).
(** src/quad/from.rs: [From<&str>] *)
Definition q_from_text (dbg : bool) (s : text) : outcome Quad :=
  let* r := from_str q_ops dbg s in
  Val (match r with POk x => x | PErr _ => Q_NAN end).

(** [.parse().unwrap()] *)
Definition unwrap {T} (r : presult T) : outcome T := match r with POk x => Val x | PErr _ => Panicked end.

(** src/double/from.rs:180-205, for f64 ([a.into()], [a as f64] are the identity).
    [f64::to_string] is the libm record's field. *)
Definition d_from_f64 (lm : libm) (dbg : bool) (a : f64) : outcome Double :=
  if feqb a f0 then Val (if fsign_neg a then D_NEG_ZERO else D_ZERO)
  else if fis_nan a then Val D_NAN
  else if fis_infinite a then Val (if fsign_neg a then D_NEG_INFINITY else D_INFINITY)
  else
    let* dy := is_dyadic lm a in
    if (dy : bool) then Val (mkD a f0)
    else let* r := from_str d_ops dbg (lm_to_string lm a) in unwrap r.
(** src/quad/from.rs:254-279 *)
Definition q_from_f64 (lm : libm) (dbg : bool) (a : f64) : outcome Quad :=
  if feqb a f0 then Val (if fsign_neg a then Q_NEG_ZERO else Q_ZERO)
  else if fis_nan a then Val Q_NAN
  else if fis_infinite a then Val (if fsign_neg a then Q_NEG_INFINITY else Q_INFINITY)
  else
    let* dy := is_dyadic lm a in
    if (dy : bool) then Val (mkQ a f0 f0 f0)
    else let* r := from_str q_ops dbg (lm_to_string lm a) in unwrap r.
