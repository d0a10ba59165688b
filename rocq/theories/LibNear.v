(** * A float near a given real, for the library contracts *)
From Coq Require Import ZArith Reals Lra Lia List Bool.
From Flocq Require Import Core IEEE754.BinarySingleNaN.
From Verif Require Import RN F64 Prim Spec F64Facts ParseM DAddProofs AbsOps ConstProofs Printer LogLib NrootProofs TransM AlgM.
Local Open Scope R_scope.

Definition float_near (x : R) : f64 := f2pow (ZnearestE (x * bpow radix2 (52 - mag radix2 x))) (mag radix2 x - 52).
Lemma float_near_ok x : bp (-500) <= Rabs x <= bp 500 -> Fin (float_near x) /\ Rabs (V (float_near x) - x) <= bp (-52) * Rabs x.
Proof.
  intros H. unfold float_near. assert (P5 := bpow_gt_0 radix2 (-500)). assert (NZ : x <> 0) by (intros Q; rewrite Q, Rabs_R0 in H; lra).
  assert (M1 := bpow_mag_le radix2 x NZ). assert (M2 := bpow_mag_gt radix2 x). set (m := mag radix2 x : Z) in *.
  assert (B1 : (-500 < m)%Z) by (apply (lt_bpow radix2); lra). assert (B2 : (m - 1 <= 500)%Z) by (apply (le_bpow radix2); lra).
  set (y := x * bp (52 - m)). assert (P := bpow_gt_0 radix2 (52 - m)). assert (Pm := bpow_gt_0 radix2 (m - 52)).
  assert (By : Rabs y <= bp 52). { unfold y. rewrite Rabs_mult, (Rabs_pos_eq (bp (52 - m))) by lra. apply Rle_trans with (bp m * bp (52 - m)); [apply Rmult_le_compat_r; lra|]. rewrite <- bpow_plus. right. f_equal. lia. }
  assert (NN := Znearest_half (fun z => negb (Z.even z)) y). set (n := ZnearestE y) in *.
  assert (Bm : (Z.abs n <= 2 ^ 53)%Z).
  { apply le_IZR. rewrite abs_IZR. change (IZR (2 ^ 53)) with 9007199254740992. change (bp 52) with 4503599627370496 in By.
    apply Rabs_def2' in NN. apply Rabs_def2' in By. apply Rabs_le. lra. }
  destruct (f2pow_exact n (m - 52) ltac:(lia) ltac:(lia) Bm) as [F E]. split; [exact F|]. rewrite E.
  assert (EX : x = y * bp (m - 52)). { unfold y. rewrite Rmult_assoc, <- bpow_plus. replace (52 - m + (m - 52))%Z with 0%Z by lia. change (bp 0) with 1. ring. }
  assert (K : Rabs (IZR n * bp (m - 52) - x) <= / 2 * bp (m - 52)).
  { rewrite EX at 1. replace (IZR n * bp (m - 52) - y * bp (m - 52)) with (- (y - IZR n) * bp (m - 52)) by ring. rewrite Rabs_mult, Rabs_Ropp, (Rabs_pos_eq (bp (m - 52))) by lra. apply Rmult_le_compat_r; lra. }
  apply Rle_trans with (1 := K). apply Rle_trans with (bp (-52) * bp (m - 1)); [|apply Rmult_le_compat_l; [apply bpow_ge_0|exact M1]].
  rewrite <- bpow_plus. replace (-52 + (m - 1))%Z with (m - 53)%Z by lia. assert (K2 : bp (m - 53 + 1) = 2 * bp (m - 53)) by exact (bp_split (m - 53) 1 ltac:(lia)). replace (m - 53 + 1)%Z with (m - 52)%Z in K2 by lia. lra.
Qed.
Lemma float_near_51 x : bp (-500) <= Rabs x <= 4 -> Fin (float_near x) /\ Rabs (V (float_near x) - x) <= bp (-51) * Rabs x.
Proof.
  intros H. assert (B : 4 <= bp 500) by (change 4 with (bp 2); apply bpow_le; lia). destruct (float_near_ok x ltac:(lra)) as [F E]. split; [exact F|].
  apply Rle_trans with (1 := E). apply Rmult_le_compat_r; [apply Rabs_pos|apply bpow_le; lia].
Qed.
Lemma ln_away a : 0 < a -> a <> 1 -> RN.fmt a -> bp (-54) <= Rabs (ln a).
Proof.
  intros P N F. assert (G := gap 1 a ltac:(change 1 with (bp 0); apply fmt_bpow; lia) F ltac:(lra) ltac:(lra)). rewrite Rmult_1_r in G.
  assert (B : bp (-53) = 2 * bp (-54)) by exact (bp_split (-54) 1 ltac:(lia)). assert (P54 := bpow_gt_0 radix2 (-54)). assert (S54 : bp (-54) <= / 4) by (change (/ 4) with (bp (-2)); apply bpow_le; lia).
  assert (LN : forall x, 0 < x -> ln x <= x - 1). { intros x Px. assert (K := exp_ineq1_le (ln x)). rewrite exp_ln in K by exact Px. lra. }
  destruct (Rle_or_lt a 1) as [L|L].
  - rewrite (Rabs_left (a - 1)) in G by lra. assert (K := LN a P). rewrite Rabs_left by lra. lra.
  - rewrite (Rabs_pos_eq (a - 1)) in G by lra. assert (IA : 0 < / a) by (apply Rinv_0_lt_compat; lra). assert (K := LN (/ a) IA). rewrite ln_Rinv in K by lra.
    assert (Q : bp (-54) <= 1 - / a).
    { destruct (Rle_or_lt a 2) as [M|M].
      - assert (/ 2 <= / a) by (apply Rinv_le_contravar; lra). replace (1 - / a) with ((a - 1) * / a) by (field; lra). apply Rle_trans with (bp (-53) * / 2); [lra|]. apply Rmult_le_compat; lra.
      - assert (/ a <= / 2) by (apply Rinv_le_contravar; lra). lra. }
    rewrite Rabs_pos_eq by lra. lra.
Qed.
Definition with_roots (lm : libm) : libm :=
  {| lm_ln := fun a => if Req_EM_T (V a) 1 then f0 else float_near (ln (V a)); lm_exp := fun a => float_near (exp (V a)); lm_log10 := lm_log10 lm; lm_log2 := lm_log2 lm;
     lm_atan2 := lm_atan2 lm; lm_to_string := lm_to_string lm |}.
Lemma with_roots_ok lm : root_close (with_roots lm).
Proof.
  split; intros a F H; cbn [with_roots lm_ln lm_exp].
  - destruct (Req_EM_T (V a) 1) as [E|E].
    + rewrite E, ln_1, V_0, Rminus_0_r, Rabs_R0. split; [apply Fin_0|lra].
    + apply float_near_ok. split; [apply Rle_trans with (bp (-54)); [apply bpow_le; lia|apply ln_away; auto; apply V_fmt]|].
      assert (K := ln_range a F H). apply Rle_trans with (bp 10); [change (bp 10) with 1024; apply Rabs_le; lra|apply bpow_le; lia].
  - assert (P := exp_pos (V a)). destruct (float_near_ok (exp (V a))) as [G1 G2].
    + rewrite Rabs_pos_eq by lra. apply Rabs_def2' in H. assert (K2 : 6931 / 10000 <= ln 2) by consts. rewrite !bpow_exp. split; apply Raux.exp_le; cbn -[ln]; lra.
    + split; [exact G1|]. rewrite (Rabs_pos_eq (exp (V a))) in G2 by lra. exact G2.
Qed.
