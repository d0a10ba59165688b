(** * C63: accuracy of the Double exponential *)
From Coq Require Import ZArith Reals Lra Lia List Bool.
From Flocq Require Import Core IEEE754.BinarySingleNaN.
From Verif Require Import RN F64 Prim DoubleM Spec F64Facts DDivProofs SqrtProofs AlgM TransM ExpThms Check.
Local Open Scope R_scope.

(** for every canonical x in [-600, 708] the result is canonical and within
    (15|x| + 480) 2^-106 of the real exponential, relatively *)
Theorem C63_exp_accuracy : forall x,
  DNorm x -> -600 <= DV x <= 708 ->
  DNorm (d_exp x) /\ Rabs (DV (d_exp x) - exp (DV x)) <= (15 * Rabs (DV x) + 480) * bpow radix2 (-106) * exp (DV x).
Proof.
  intros x N H. apply d_exp_ok; [exact N|]. destruct N as [F E]. rewrite E. change RN with rn.
  assert (F6 : fmt 600). { assert (K := V_fmt (fofZ 600)). rewrite (proj2 (fofZ_exact 600 ltac:(lia))) in K. exact K. }
  assert (F7 : fmt 708). { assert (K := V_fmt (fofZ 708)). rewrite (proj2 (fofZ_exact 708 ltac:(lia))) in K. exact K. }
  assert (K1 := rn_le _ _ (proj1 H)). assert (K2 := rn_le _ _ (proj2 H)). rewrite (rn_id 708 F7) in K2.
  change (-600) with (- (600)) in K1. rewrite rn_opp, (rn_id 600 F6) in K1. lra.
Qed.
Print Assumptions C63_exp_accuracy.

(** hence below 2^-92 over the whole range, and always positive *)
Theorem C63_exp_92 : forall x,
  DNorm x -> -600 <= DV x <= 708 ->
  Rabs (DV (d_exp x) - exp (DV x)) <= bpow radix2 (-92) * exp (DV x) /\ 0 < DV (d_exp x).
Proof.
  intros x N H. destruct (C63_exp_accuracy x N H) as [_ E].
  assert (A : Rabs (DV x) <= 708) by (apply Rabs_le; lra). assert (P := exp_pos (DV x)).
  assert (K : Rabs (DV (d_exp x) - exp (DV x)) <= bpow radix2 (-92) * exp (DV x)).
  { apply Rle_trans with (1 := E). apply Rmult_le_compat_r; [lra|].
    change (bpow radix2 (-92)) with (/ 4951760157141521099596496896). change (bpow radix2 (-106)) with (/ 81129638414606681695789005144064). lra. }
  split; [exact K|]. change (bpow radix2 (-92)) with (/ 4951760157141521099596496896) in K. unfold Rabs in K. destruct (Rcase_abs _); lra.
Qed.
Print Assumptions C63_exp_92.

(** the premise holds for 3, and the conclusion says something there *)
Example C63_case : DNorm (mkD (fofZ 3) f0) /\ -600 <= DV (mkD (fofZ 3) f0) <= 708 /\
  Rabs (DV (d_exp (mkD (fofZ 3) f0)) - exp 3) <= 525 * bpow radix2 (-106) * exp 3.
Proof.
  destruct (fofZ_exact 3 ltac:(lia)) as [F E]. destruct (d_single_norm (fofZ 3) F) as [N EV]. rewrite E in EV.
  split; [exact N|]. split; [rewrite EV; lra|]. destruct (C63_exp_accuracy _ N ltac:(rewrite EV; lra)) as [_ K]. rewrite EV in K.
  rewrite (Rabs_pos_eq 3) in K by lra. replace (15 * 3 + 480) with 525 in K by ring. exact K.
Qed.
