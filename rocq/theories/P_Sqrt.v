(** * C28, C67: accuracy of the square root, and conversion of an f64

    The square root converts f64 values with [Double::from(f64)], which prints
    the f64 in decimal and parses the text; [printer lm] says what is used of
    f64's own printing (nonintegral values: plain notation, at most 17
    significant digits, reading back to the same f64).  Rust's to_string
    promises that (the shortest text that reads back, never an exponent). *)
From Coq Require Import ZArith Reals Lra Lia List Bool.
From Flocq Require Import Core IEEE754.BinarySingleNaN.
From Verif Require Import RN F64 Prim DoubleM Spec F64Facts PowProofs LdexpProofs ParseM IntProofs AlgM TransProofs FromProofs SqrtProofs Printer Check.
Import ListNotations.
Local Open Scope R_scope.

(** the real square root to 32 * 2^-106 = 2^-101, for every canonical x with a
    high word between 2^-800 and 2^800 *)
Theorem C28_double_accuracy : forall lm dbg x,
  printer lm -> DNorm x -> bpow radix2 (-800) <= V (d0 x) <= bpow radix2 800 ->
  exists r, d_sqrt lm dbg x = Val r /\ DNorm r /\ Rabs (DV r - sqrt (DV x)) <= 32 * bpow radix2 (-106) * Rabs (sqrt (DV x)).
Proof. exact d_sqrt_ok. Qed.
Print Assumptions C28_double_accuracy.

(** some printer meets the premise, and the premise holds for 2 *)
Theorem C28_printer_exists : forall lm, printer (with_printer lm).
Proof. exact with_printer_ok. Qed.
Example C28_two : forall lm dbg, exists r, d_sqrt (with_printer lm) dbg (mkD (fofZ 2) f0) = Val r /\ Rabs (DV r - sqrt 2) <= / bpow radix2 100.
Proof.
  intros. destruct (fofZ_exact 2 ltac:(lia)) as [F E].
  destruct (d_single_norm (fofZ 2) F) as [N EV].
  destruct (C28_double_accuracy (with_printer lm) dbg (mkD (fofZ 2) f0) (with_printer_ok lm) N) as (r & K1 & _ & K2).
  - cbn [d0]. rewrite E. split; [apply Rle_trans with (bpow radix2 0); [apply bpow_le; lia|cbn; lra]|].
    change 2 with (bpow radix2 1). apply bpow_le. lia.
  - exists r. split; [exact K1|]. rewrite EV, E in K2. apply Rle_trans with (1 := K2).
    assert (S2 : 0 <= sqrt 2 <= 2).
    { split; [apply sqrt_pos|]. rewrite <- (sqrt_square 2) at 2 by lra. apply sqrt_le_1_alt. lra. }
    rewrite Rabs_pos_eq by apply S2. change (bpow radix2 (-106)) with (/ 81129638414606681695789005144064). change (bpow radix2 100) with (IZR (2 ^ 100)).
    change (2 ^ 100)%Z with 1267650600228229401496703205376%Z. lra.
Qed.

(** Double::from(f64) of a value that is not tiny never panics and is canonical,
    within 2^-52.8 of the argument (it is the decimal text that is converted, so
    it is not exact) *)
Theorem C67_from_f64 : forall lm dbg a,
  printer lm -> Fin a -> bpow radix2 (-500) <= Rabs (V a) ->
  exists r, d_from_f64 lm dbg a = Val r /\ DNorm r /\ Rabs (DV r - V a) <= 9 * bpow radix2 (-56) * Rabs (V a).
Proof. exact d_from_f64_ok. Qed.
Print Assumptions C67_from_f64.
