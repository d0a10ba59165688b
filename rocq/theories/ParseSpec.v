(** * What the parser is supposed to accept, independently of its loop *)
From Coq Require String Ascii.
From Coq Require Import ZArith List Bool.
From Verif Require Import F64 ParseM.
Import ListNotations.
Local Open Scope Z_scope.

Definition is_dig (c : Z) : bool := (48 <=? c) && (c <=? 57).
Definition is_sgn (c : Z) : bool := (c =? c_plus) || (c =? c_minus).
Definition is_dot (c : Z) : bool := c =? c_dot.
(** digits, point, underscore, signs *)
Definition is_mant (c : Z) : bool := is_dig c || is_dot c || is_sgn c || (c =? c_under).

(** the decimal digits of a text, in order, as numbers 0..9 *)
Definition digs (m : text) : list Z := map (fun c => c - 48) (filter is_dig m).
(** their value read in base ten *)
Definition dec_val (l : list Z) : Z := fold_left (fun a d => 10 * a + d) l 0.

Definition count (p : Z -> bool) (m : text) : nat := length (filter p m).

(** a mantissa as the parser accepts it: only mantissa characters, at most one
    point, at most one sign, and the sign comes before the first digit *)
Definition mant_ok (m : text) : Prop :=
  forallb is_mant m = true /\ (count is_dot m <= 1)%nat /\ (count is_sgn m <= 1)%nat /\
  (forall a c b, m = a ++ c :: b -> is_sgn c = true -> filter is_dig a = []).

(** number of digits after the point *)
Fixpoint after_dot (m : text) : text :=
  match m with [] => [] | c :: m' => if is_dot c then m' else after_dot m' end.
Definition frac (m : text) : Z := Z.of_nat (length (digs (after_dot m))).
Definition negative (m : text) : bool := existsb (fun c => c =? c_minus) m.

(** an i32 literal: optional sign, at least one digit, value in range *)
Inductive i32_lit : text -> Z -> Prop :=
| lit_plain ds : ds <> [] -> forallb is_dig ds = true -> dec_val (digs ds) <= i32_max ->
    i32_lit ds (dec_val (digs ds))
| lit_plus ds : ds <> [] -> forallb is_dig ds = true -> dec_val (digs ds) <= i32_max ->
    i32_lit (c_plus :: ds) (dec_val (digs ds))
| lit_minus ds : ds <> [] -> forallb is_dig ds = true -> i32_min <= - dec_val (digs ds) ->
    i32_lit (c_minus :: ds) (- dec_val (digs ds)).

(** optional exponent part *)
Inductive exp_part : text -> Z -> Prop :=
| exp_none : exp_part [] 0
| exp_some x e : i32_lit x e -> exp_part (c_e :: x) e.

(** [number t m e]: t is mantissa m followed by an exponent part of value e *)
Definition number (t m : text) (e : Z) : Prop :=
  exists x, t = m ++ x /\ t <> [] /\ mant_ok m /\ exp_part x e.

Definition keyword (t : text) : Prop :=
  t = t_nan \/ t = t_inf \/ t = t_infinity \/ t = c_minus :: t_inf \/ t = c_minus :: t_infinity.

(** the usual reading of the documentation: the sign, if any, comes first and
    there is at least one digit *)
Definition documented_mant (m : text) : Prop :=
  exists sg body, m = sg ++ body /\ (sg = [] \/ sg = [c_plus] \/ sg = [c_minus]) /\
    forallb (fun c => is_dig c || is_dot c || (c =? c_under)) body = true /\
    (count is_dot body <= 1)%nat /\ filter is_dig body <> [].

(** the number accumulated from a digit list: ((0*10 + d1)*10 + d2)... *)
Definition accumulate_digits {T} (N : numops T) (l : list Z) : T :=
  fold_left (fun r d => n_add N (n_mul N r (n_ten N)) (n_digit N d)) l (n_zero N).

(** multiply by ten to the [e], in two stages below -307 *)
Definition apply_exp {T} (N : numops T) (dbg : bool) (r : T) (e : Z) : outcome T :=
  if e =? 0 then Val r
  else if e <? -307 then
    let* p := n_powi N dbg (n_ten N) (e + 307) in
    let* q := n_powi N dbg (n_ten N) (-307) in
    Val (n_mul N (n_mul N r p) q)
  else let* p := n_powi N dbg (n_ten N) e in Val (n_mul N r p).

(** the value of an accepted number: the digits as one integer, times ten to
    the (written exponent minus number of fraction digits), negated if a minus
    sign is present *)
Definition number_value {T} (N : numops T) (dbg : bool) (m : text) (e : Z) : outcome T :=
  let* r := apply_exp N dbg (accumulate_digits N (digs m)) (e - frac m) in
  Val (if negative m then n_neg N r else r).
Definition keyword_value {T} (N : numops T) (t : text) : T :=
  if text_eqb t t_nan then n_nan N
  else if existsb (fun c => c =? c_minus) t then n_ninf N else n_inf N.
(** what [from_str] looks at *)
Definition normal_text (s : text) : text := lowercase (trim s).
(** fewer than 2^31 decimal digits *)
Definition short (t : text) : Prop := Z.of_nat (length (digs t)) <= i32_max.

(** ASCII string literals as texts, for examples *)
Fixpoint txt (s : Coq.Strings.String.string) : text :=
  match s with
  | Coq.Strings.String.EmptyString => []
  | Coq.Strings.String.String a s' => Z.of_N (Coq.Strings.Ascii.N_of_ascii a) :: txt s'
  end.
