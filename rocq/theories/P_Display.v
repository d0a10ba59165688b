(** * Formatting: C37-C42, C55, C64 *)
From Coq Require Import ZArith Reals Lra Lia List Bool String.
From Flocq Require Import Core IEEE754.BinarySingleNaN.
From Verif Require Import RN F64 Prim DoubleM QuadM Spec Exact ParseM ParseSpec DisplayM DisplaySpec DisplayProofs DisplayText DisplayThms DisplayDigits DisplayNum DisplayMore DisplayLog DisplayWit DisplayCases.
Import ListNotations.
Local Open Scope Z_scope.
Local Open Scope string_scope.

(** ** C37: width, fill, alignment, zero padding.  [padded] (DisplaySpec) says
    where the padding goes; [no_width f] is f without its width.  A number whose
    unpadded form panics panics. *)
Theorem C37_padding : forall lm dbg f,
  (forall x, d_display lm dbg x f = omap (padded f (d_is_sign_negative x || f_plus f)) (d_display lm dbg x (no_width f)) /\
     d_lower_exp lm dbg x f = omap (padded f (d_is_sign_negative x || f_plus f)) (d_lower_exp lm dbg x (no_width f)) /\
     d_upper_exp lm dbg x f = omap (padded f (d_is_sign_negative x || f_plus f)) (d_upper_exp lm dbg x (no_width f))) /\
  (forall x, q_display lm dbg x f = omap (padded f (q_is_sign_negative x || f_plus f)) (q_display lm dbg x (no_width f)) /\
     q_lower_exp lm dbg x f = omap (padded f (q_is_sign_negative x || f_plus f)) (q_lower_exp lm dbg x (no_width f)) /\
     q_upper_exp lm dbg x f = omap (padded f (q_is_sign_negative x || f_plus f)) (q_upper_exp lm dbg x (no_width f))).
Proof.
  intros lm dbg f. split; intros x; (split; [|split]).
  - exact (display_pads d_disp lm dbg x f).
  - exact (display_exp_pads d_disp lm dbg c_e x f).
  - exact (display_exp_pads d_disp lm dbg c_E x f).
  - exact (display_pads q_disp lm dbg x f).
  - exact (display_exp_pads q_disp lm dbg c_e x f).
  - exact (display_exp_pads q_disp lm dbg c_E x f).
Qed.
Print Assumptions C37_padding.
Theorem C37_padded_length : forall f signed s,
  List.length (padded f signed s) = match f_width f with Some w => Nat.max w (List.length s) | None => List.length s end.
Proof. exact padded_length. Qed.
Print Assumptions C37_padded_length.
(** a text that is long enough is left alone; a padded one contains it, whole or (sign-aware zeros) split after its sign *)
Theorem C37_padded_keeps : forall f signed s,
  (forall w, f_width f = Some w -> (w <= List.length s)%nat -> padded f signed s = s) /\
  ((exists a b, padded f signed s = (a ++ s ++ b)%list) \/
   (signed = true /\ exists c r k, s = c :: r /\ padded f signed s = c :: (repeat 48 k ++ r)%list)).
Proof. exact padded_keeps. Qed.
Print Assumptions C37_padded_keeps.
Example C37_case : forall lm dbg,
  d_display lm dbg D_NEG_INFINITY (mkF None (Some 8%nat) 42 (Some ACenter) false false false) = Val (txt "**-inf**") /\
  d_display lm dbg (mkD (fneg f0) f0) (mkF (Some 2%nat) (Some 8%nat) 32 None false true false) = Val (txt "-0000.00") /\
  d_display lm dbg D_ZERO (mkF None (Some 4%nat) 32 None true true false) = Val (txt "+000").
Proof. intros lm []; vm_compute; repeat split; reflexivity. Qed.

(** ** C39: cutting digits rounds half up *)
Theorem C39_rounding : forall dbg l n, decimals l -> (0 < n < List.length l)%nat ->
  exists r, round_and_trunc dbg l (Z.of_nat n) = Val r /\ List.length r = n /\
    (decimals r \/ r = 10 :: repeat 0 (n - 1)) /\
    dec_val r = (dec_val l + 5 * 10 ^ Z.of_nat (List.length l - n - 1)) / 10 ^ Z.of_nat (List.length l - n).
Proof. exact round_ok. Qed.
Print Assumptions C39_rounding.
(** the digits after the extraction: leading zeros, trailing zeros, precision,
    point.  The carry out of the top digit appears as one more integer digit. *)
Theorem C39_digits_to_text : forall dbg ds e prec, decimals ds -> hd 0 ds <> 0 -> i32_min < e < i32_max ->
  exists ip fp,
    (let* d := adjust_zeros dbg ds e in let* d := adjust_prec dbg d e prec in place_decimal d e) = Val (fixed_text ip fp) /\
    decimals ip /\ decimals fp /\
    (Z.of_nat (List.length ip) = Z.max 0 e + 1 \/ (prec <> None /\ Z.of_nat (List.length ip) = Z.max 0 e + 2)) /\
    (hd 0 ip <> 0 \/ ip = [0]) /\
    match prec with
    | None => fixed_val ip fp = digits_val ds e /\ (fp <> [] -> last fp 0 <> 0)
    | Some p => List.length fp = p /\ fixed_val ip fp = half_up p (digits_val ds e)
    end.
Proof. exact fix_chain_ok. Qed.
Print Assumptions C39_digits_to_text.
Example C39_case : decimals [9; 9; 9; 9; 6] /\ round_and_trunc true [9; 9; 9; 9; 6] 4 = Val [10; 0; 0; 0] /\
  (let* d := adjust_zeros true [9; 9; 9; 6] 1 in let* d := adjust_prec true d 1 (Some 1%nat) in place_decimal d 1) = Val (txt "100.0").
Proof. split; [repeat constructor; lia|]. split; vm_compute; reflexivity. Qed.

(** ** C38: precision.  Zero, and every finite nonzero value whose extracted
    digits are decimal digits starting with a nonzero one. *)
Theorem C38_zero : forall lm dbg f p, f_prec f = Some p -> f_width f = None ->
  (forall x, d_is_zero x = true -> d_display lm dbg x f = Val (sign_text (d_is_sign_negative x) f ++ fixed_text [0] (repeat 0 p))%list) /\
  (forall x, q_is_zero x = true -> q_display lm dbg x f = Val (sign_text (q_is_sign_negative x) f ++ fixed_text [0] (repeat 0 p))%list).
Proof. exact zero_prec. Qed.
Print Assumptions C38_zero.
Theorem C38_precision_partial : forall lm dbg f p, f_prec f = Some p -> f_width f = None ->
  (forall x ds, d_is_nan x = false -> d_is_infinite x = false -> d_is_zero x = false ->
    let e := dec_exp lm (d0 (d_abs x)) in
    extract_digits d_disp dbg (d_abs x) e = Val ds -> decimals ds -> hd 0 ds <> 0 -> i32_min < e < i32_max ->
    (exists ip fp, d_display lm dbg x f = Val (sign_text (d_is_sign_negative x) f ++ fixed_text ip fp)%list /\
      decimals ip /\ decimals fp /\ List.length fp = p /\ fixed_val ip fp = half_up p (digits_val ds e)) /\
    (exists ip fp et, d_lower_exp lm dbg x f = Val (sign_text (d_is_sign_negative x) f ++ fixed_text ip fp ++ 101 :: et)%list /\ int_text e et /\
      decimals ip /\ decimals fp /\ List.length fp = p /\ fixed_val ip fp = half_up p (digits_val ds 0))) /\
  (forall x ds, q_is_nan x = false -> q_is_infinite x = false -> q_is_zero x = false ->
    let e := dec_exp lm (q0 (q_abs x)) in
    extract_digits q_disp dbg (q_abs x) e = Val ds -> decimals ds -> hd 0 ds <> 0 -> i32_min < e < i32_max ->
    (exists ip fp, q_display lm dbg x f = Val (sign_text (q_is_sign_negative x) f ++ fixed_text ip fp)%list /\
      decimals ip /\ decimals fp /\ List.length fp = p /\ fixed_val ip fp = half_up p (digits_val ds e)) /\
    (exists ip fp et, q_lower_exp lm dbg x f = Val (sign_text (q_is_sign_negative x) f ++ fixed_text ip fp ++ 101 :: et)%list /\ int_text e et /\
      decimals ip /\ decimals fp /\ List.length fp = p /\ fixed_val ip fp = half_up p (digits_val ds 0))).
Proof. exact prec_both. Qed.
Print Assumptions C38_precision_partial.
(** precision 5, six digits after the point: 1.0999999999999999928 (floor(log10 1.1) = 0) *)
Theorem C38_precision_refuted : exists x, DNorm x /\ forall lm dbg, dec_exp lm (fabs (d0 x)) = 0 ->
  d_display lm dbg x (with_prec 5) = Val (txt "1.010000").
Proof. exact (ex_intro _ w_11 (conj w_11_norm w_11_text5)). Qed.
Print Assumptions C38_precision_refuted.
Example C38_case : exists ds, extract_digits d_disp true (d_abs (mkD (f2pow 1001 (-3)) f0)) 2 = Val ds /\ forallb (fun d => (0 <=? d) && (d <=? 9))%Z ds = true /\ hd 0 ds = 1 /\
  d_display (lmx 2) true (mkD (f2pow 1001 (-3)) f0) (with_prec 2) = Val (txt "125.13") /\ d_lower_exp (lmx 2) true (mkD (f2pow 1001 (-3)) f0) (with_prec 2) = Val (txt "1.25e2").
Proof. eexists. split; [vm_compute; reflexivity|]. repeat split; vm_compute; reflexivity. Qed.

(** ** C40: what is printed is close to x.  [e] is the decimal exponent the
    platform's log10 gives, [decade] that it is right up to one part in 2^40.
    The digits are within 2^-45 units of the first digit in any case; if none of
    them came out as ten, the text denotes exactly them, and they are within
    (210|e|+900) 2^-106 unless x is just below a short decimal. *)
Theorem C40_value_partial : forall lm dbg x, DNorm x -> DV x <> 0%R -> let e := dec_exp lm (fabs (d0 x)) in
  Z.abs e <= 260 -> decade e (Rabs (DV x)) -> (powerRZ 10 e <= Rabs (DV x))%R ->
  exists ds, extract_digits d_disp dbg (d_abs x) e = Val ds /\ List.length ds = 31%nat /\
  (Rabs (digits_val ds e - Rabs (DV x)) <= bpow radix2 (-45) * powerRZ 10 e)%R /\
  (decimals ds -> clear_of_carry (Rabs (DV x)) e ->
     (Rabs (digits_val ds e - Rabs (DV x)) <= (210 * IZR (Z.abs e) + 900) * bpow radix2 (-106) * powerRZ 10 e)%R) /\
  (decimals ds -> exists ip fp,
     d_display lm dbg x f_default = Val (sign_text (d_is_sign_negative x) f_default ++ fixed_text ip fp)%list /\
     decimals ip /\ decimals fp /\ fixed_val ip fp = digits_val ds e /\
     (hd 0 ip <> 0 \/ ip = [0]) /\ (fp <> [] -> last fp 0 <> 0)).
Proof. exact value_default. Qed.
Print Assumptions C40_value_partial.
(** the platform assumption in terms of log10 itself *)
Theorem C40_log10_partial : forall lm x, log10_close lm -> DNorm x -> (powerRZ 10 (-259) <= Rabs (DV x) <= powerRZ 10 259)%R ->
  let e := dec_exp lm (fabs (d0 x)) in Z.abs e <= 260 /\ decade e (Rabs (DV x)).
Proof. exact log10_decade. Qed.
Print Assumptions C40_log10_partial.
(** false in general: 1.0999999999999999928 prints "1.010"; 1000 - 2^-44 prints
    "0100.0"; 2^-1030 prints zeros only *)
Theorem C40_value_refuted :
  (exists x, DNorm x /\ (109 / 100 < DV x)%R /\ forall lm dbg, dec_exp lm (fabs (d0 x)) = 0 -> d_display lm dbg x f_default = Val (txt "1.010")) /\
  (exists x, DNorm x /\ (999 < DV x)%R /\ forall lm dbg, dec_exp lm (fabs (d0 x)) = 3 -> d_display lm dbg x f_default = Val (txt "0100.0")) /\
  (exists x, DNorm x /\ (0 < DV x)%R /\ forall lm dbg, dec_exp lm (fabs (d0 x)) = -311 ->
     exists t, d_display lm dbg x f_default = Val t /\ forallb (fun c => (c =? 48) || (c =? 46))%Z t = true).
Proof. exact value_wrong. Qed.
Print Assumptions C40_value_refuted.
Example C40_case : DNorm (mkD (f2pow 1001 (-3)) f0) /\ decade 2 (Rabs (DV (mkD (f2pow 1001 (-3)) f0))) /\ (powerRZ 10 2 <= Rabs (DV (mkD (f2pow 1001 (-3)) f0)))%R /\
  clear_of_carry (Rabs (DV (mkD (f2pow 1001 (-3)) f0))) 2.
Proof. exact case_1001. Qed.

(** ** C41: no panics.  NaN, infinities and zero always; other normalized Doubles
    whenever the platform's log10 finds the decimal exponent, 1e-259..1e259 *)
Theorem C41_no_panic_partial : forall lm dbg x f,
  (d_is_nan x = true \/ d_is_infinite x = true \/ d_is_zero x = true \/
   (DNorm x /\ log10_close lm /\ (powerRZ 10 (-259) <= Rabs (DV x) <= powerRZ 10 259)%R)) ->
  (exists t, d_display lm dbg x f = Val t) /\ (exists t, d_lower_exp lm dbg x f = Val t) /\ (exists t, d_upper_exp lm dbg x f = Val t).
Proof. exact no_panic. Qed.
Print Assumptions C41_no_panic_partial.
Theorem C41_special_quad_partial : forall lm dbg x f, q_is_nan x = true \/ q_is_infinite x = true \/ q_is_zero x = true ->
  (exists t, q_display lm dbg x f = Val t) /\ (exists t, q_lower_exp lm dbg x f = Val t) /\ (exists t, q_upper_exp lm dbg x f = Val t).
Proof. exact no_panic_quad. Qed.
Print Assumptions C41_special_quad_partial.
(** false of the smallest subnormal: log10(2^-1074) = -323.3 *)
Theorem C41_panic_refuted : exists x, DNorm x /\ (0 < DV x)%R /\ forall lm dbg f, dec_exp lm (fabs (d0 x)) = -324 -> d_display lm dbg x f = Panicked.
Proof. exact min_panics. Qed.
Print Assumptions C41_panic_refuted.

(** ** C42: exponential notation *)
Theorem C42_exp_partial : forall lm dbg f, f_width f = None ->
  (forall x ds, d_is_nan x = false -> d_is_infinite x = false -> d_is_zero x = false ->
    let e := dec_exp lm (d0 (d_abs x)) in
    extract_digits d_disp dbg (d_abs x) e = Val ds -> decimals ds -> hd 0 ds <> 0 -> i32_min < e < i32_max ->
    exists ip fp et, d_lower_exp lm dbg x f = Val (sign_text (d_is_sign_negative x) f ++ fixed_text ip fp ++ 101 :: et)%list /\
      d_upper_exp lm dbg x f = Val (sign_text (d_is_sign_negative x) f ++ fixed_text ip fp ++ 69 :: et)%list /\
      int_text e et /\ decimals ip /\ decimals fp /\ hd 0 ip <> 0 /\ (List.length ip = 1%nat \/ (f_prec f <> None /\ List.length ip = 2%nat))) /\
  (forall x ds, q_is_nan x = false -> q_is_infinite x = false -> q_is_zero x = false ->
    let e := dec_exp lm (q0 (q_abs x)) in
    extract_digits q_disp dbg (q_abs x) e = Val ds -> decimals ds -> hd 0 ds <> 0 -> i32_min < e < i32_max ->
    exists ip fp et, q_lower_exp lm dbg x f = Val (sign_text (q_is_sign_negative x) f ++ fixed_text ip fp ++ 101 :: et)%list /\
      q_upper_exp lm dbg x f = Val (sign_text (q_is_sign_negative x) f ++ fixed_text ip fp ++ 69 :: et)%list /\
      int_text e et /\ decimals ip /\ decimals fp /\ hd 0 ip <> 0 /\ (List.length ip = 1%nat \/ (f_prec f <> None /\ List.length ip = 2%nat))).
Proof. exact exp_both. Qed.
Print Assumptions C42_exp_partial.
(** two integer digits: {:.1e} of 9.96875 *)
Theorem C42_exp_refuted : exists x, DNorm x /\ forall lm dbg, dec_exp lm (fabs (d0 x)) = 0 -> d_lower_exp lm dbg x (with_prec 1) = Val (txt "10.0e0").
Proof. exact (ex_intro _ w_9968 (conj w_9968_norm w_9968_text)). Qed.
Print Assumptions C42_exp_refuted.

(** ** C55: Quad::from(Double) goes through the text *)
Theorem C55_from_double_total_partial : forall lm dbg x,
  (d_is_nan x = true \/ d_is_infinite x = true \/ d_is_zero x = true \/
   (DNorm x /\ log10_close lm /\ (powerRZ 10 (-259) <= Rabs (DV x) <= powerRZ 10 259)%R)) ->
  exists q, q_from_double lm dbg x = Val q.
Proof. exact from_double_no_panic. Qed.
Print Assumptions C55_from_double_total_partial.
Theorem C55_from_double_special : forall lm dbg x,
  (d_is_nan x = true -> q_from_double lm dbg x = Val Q_NAN) /\
  (d_is_infinite x = true -> q_from_double lm dbg x = Val (if d_is_sign_negative x then Q_NEG_INFINITY else Q_INFINITY)) /\
  (d_is_zero x = true -> exists q, q_from_double lm dbg x = Val q /\ q_is_zero q = true /\ q_is_sign_negative q = d_is_sign_negative x).
Proof. exact from_double_special. Qed.
Print Assumptions C55_from_double_special.
(** the value is not preserved, and the smallest subnormal panics *)
Theorem C55_from_double_refuted :
  (exists x, DNorm x /\ (999 < DV x)%R /\ forall lm dbg, dec_exp lm (fabs (d0 x)) = 3 -> exists q, q_from_double lm dbg x = Val q /\ V (q0 q) = 100%R) /\
  (exists x, DNorm x /\ forall lm dbg, dec_exp lm (fabs (d0 x)) = -324 -> q_from_double lm dbg x = Panicked).
Proof. exact from_double_wrong. Qed.
Print Assumptions C55_from_double_refuted.

(** ** C64: text and back *)
Theorem C64_round_trip_partial : forall lm dbg x, DNorm x -> DV x <> 0%R -> let e := dec_exp lm (fabs (d0 x)) in
  -230 <= e <= 30 -> decade e (Rabs (DV x)) -> (powerRZ 10 e <= Rabs (DV x))%R ->
  exists ds, extract_digits d_disp dbg (d_abs x) e = Val ds /\ (decimals ds ->
  exists t r, d_display lm dbg x f_default = Val t /\ from_str d_ops dbg t = Val (POk r) /\ DNorm r /\
    (Rabs (DV r - DV x) <= bpow radix2 (-44) * Rabs (DV x))%R /\
    (clear_of_carry (Rabs (DV x)) e -> (Rabs (DV r - DV x) <= bpow radix2 (-90) * Rabs (DV x))%R)).
Proof. exact round_trip. Qed.
Print Assumptions C64_round_trip_partial.
Theorem C64_round_trip_refuted : exists x, DNorm x /\ (999 < DV x)%R /\ forall lm dbg, dec_exp lm (fabs (d0 x)) = 3 ->
  exists t r, d_display lm dbg x f_default = Val t /\ from_str d_ops dbg t = Val (POk r) /\ V (d0 r) = 100%R.
Proof. exact round_trip_wrong. Qed.
Print Assumptions C64_round_trip_refuted.
