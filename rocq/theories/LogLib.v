(** * Some library meets the contracts on f64::ln, log2, log10 used by the accuracy theorems

    Rounding the real logarithms to a fixed grid. *)
From Coq Require Import ZArith Reals Lra Lia List Bool.
From Flocq Require Import Core IEEE754.BinarySingleNaN.
From Verif Require Import RN F64 Spec F64Facts ExactProofs TransProofs BaseConst ConstProofs AbsOps ExpThms LnThms.
From Verif Require DisplayLog.
Local Open Scope R_scope.

Definition grid (k : Z) (x : R) : f64 := f2pow (ZnearestE (x * bpow radix2 k)) (- k).
Lemma grid_ok k x : (0 <= k <= 60)%Z -> Rabs x <= bp (52 - k) -> Fin (grid k x) /\ Rabs (V (grid k x) - x) <= bp (- k).
Proof.
  intros Hk Hx. unfold grid. set (y := x * bpow radix2 k). assert (P := bpow_gt_0 radix2 k). assert (Pm := bpow_gt_0 radix2 (- k)).
  assert (By : Rabs y <= bp 52).
  { unfold y. rewrite Rabs_mult, (Rabs_pos_eq (bp k)) by lra. apply Rle_trans with (bp (52 - k) * bp k); [apply Rmult_le_compat_r; lra|]. rewrite <- bpow_plus. right. f_equal. lia. }
  assert (N := Znearest_half (fun z => negb (Z.even z)) y). set (m := ZnearestE y) in *.
  assert (Bm : (Z.abs m <= 2 ^ 53)%Z).
  { apply le_IZR. rewrite abs_IZR. change (IZR (2 ^ 53)) with 9007199254740992. change (bp 52) with 4503599627370496 in By.
    apply Rabs_def2' in N. apply Rabs_def2' in By. apply Rabs_le. lra. }
  destruct (f2pow_exact m (- k) ltac:(lia) ltac:(lia) Bm) as [F E]. split; [exact F|]. rewrite E.
  assert (EX : x = y * bp (- k)). { unfold y. rewrite Rmult_assoc, <- bpow_plus. replace (k + - k)%Z with 0%Z by lia. change (bp 0) with 1. ring. }
  replace (IZR m * bpow radix2 (- k) - x) with (- (y - IZR m) * bp (- k)) by (clearbody y; subst x; ring).
  rewrite Rabs_mult, Rabs_Ropp, (Rabs_pos_eq (bp (- k))) by lra. apply Rle_trans with (/ 2 * bp (- k)); [apply Rmult_le_compat_r; lra|lra].
Qed.
Definition pos_only (a r : f64) : f64 := if fltb f0 a then r else B754_infinity true.
Definition with_logs (lm : libm) : libm :=
  {| lm_ln := fun a => grid 42 (ln (V a)); lm_exp := lm_exp lm; lm_log10 := fun a => grid 43 (ln (V a) / ln 10);
     lm_log2 := fun a => pos_only a (f2pow (Zfloor (ln (V a) / ln 2 * bpow radix2 40)) (-40)); lm_atan2 := lm_atan2 lm; lm_to_string := lm_to_string lm |}.
Lemma ln_range a : Fin a -> 0 < V a -> -745 <= ln (V a) <= 710.
Proof.
  intros F P. assert (U := V_lt_1024 a). rewrite Rabs_pos_eq in U by lra.
  assert (L : bp (-1074) <= V a).
  { assert (M := mult2_emin _ (V_fmt a)). destruct M as [z Ez]. assert (Q := bpow_gt_0 radix2 (-1074)). rewrite Ez in *.
    assert (Hz : (1 <= z)%Z). { assert (0 < IZR z) by (destruct (Rle_or_lt (IZR z) 0); [nra|auto]). apply lt_IZR in H. lia. }
    apply IZR_le in Hz. nra. }
  assert (K2 : 6931 / 10000 <= ln 2 <= 6932 / 10000) by (split; consts).
  assert (LB : forall e, ln (bp e) = IZR e * ln 2) by (intros e; rewrite bpow_exp, ln_exp; reflexivity).
  split.
  - apply Rle_trans with (ln (bp (-1074))); [rewrite LB; lra|]. destruct L as [L|L]; [left; apply ln_increasing; [apply bpow_gt_0|exact L]|rewrite L; lra].
  - apply Rle_trans with (ln (bp 1024)); [left; apply ln_increasing; assumption|rewrite LB; lra].
Qed.
Lemma with_logs_ok lm : log_close (with_logs lm) /\ DisplayLog.log10_close (with_logs lm).
Proof.
  split; [split|].
  - intros a F P. assert (R := ln_range a F P). destruct (grid_ok 42 (ln (V a)) ltac:(lia)) as [G1 G2].
    + change (52 - 42)%Z with 10%Z. change (bp 10) with 1024. apply Rabs_le. lra.
    + split; [exact G1|]. apply Rle_trans with (1 := G2). apply bpow_le. lia.
  - intros a F H. cbn [with_logs lm_log2]. unfold pos_only. rewrite (fltb_ok f0 a Fin_0 F), V_0. destruct (Rlt_bool_spec 0 (V a)) as [P|P]; [|vm_compute; reflexivity].
    assert (R := ln_range a F P). assert (K2 : 6931 / 10000 <= ln 2 <= 6932 / 10000) by (split; consts).
    assert (I2 : 0 < / ln 2 <= 15 / 10). { split; [apply Rinv_0_lt_compat; lra|]. replace (15 / 10) with (/ (10 / 15)) by lra. apply Rinv_le_contravar; lra. }
    assert (U : ln (V a) / ln 2 <= 10).
    { apply Rmult_le_reg_r with (ln 2); [lra|]. unfold Rdiv. rewrite Rmult_assoc, Rinv_l, Rmult_1_r by lra. replace (10 * ln 2) with (ln (bp 10)) by (rewrite bpow_exp, ln_exp; reflexivity).
      change (bp 10) with 1024. destruct (Rle_lt_or_eq_dec _ _ (proj2 H)) as [L|L]; [left; apply ln_increasing; assumption|rewrite L; lra]. }
    assert (Lo : -1200 <= ln (V a) / ln 2).
    { unfold Rdiv. destruct (Rle_or_lt 0 (ln (V a))) as [S|S]; [apply Rle_trans with 0; [lra|apply Rmult_le_pos; lra]|]. nra. }
    set (y := ln (V a) / ln 2 * bpow radix2 40). change (bpow radix2 40) with 1099511627776 in y.
    assert (Z1 := Zfloor_lb y). assert (Z2 := Zfloor_ub y). set (m := Zfloor y) in *. change (Zfloor _) with m.
    assert (Bm : (Z.abs m <= 2 ^ 53)%Z).
    { apply le_IZR. rewrite abs_IZR. change (IZR (2 ^ 53)) with 9007199254740992. apply Rabs_le. unfold y in *. lra. }
    destruct (f2pow_exact m (-40) ltac:(lia) ltac:(lia) Bm) as [G1 G2]. apply fgt_c'; [lia|exact G1|]. rewrite G2.
    change (bpow radix2 (-40)) with (/ 1099511627776). unfold y in *. lra.
  - intros a F P. assert (R := ln_range a F P). assert (K1 : 23 / 10 <= ln 10 <= 24 / 10) by (split; consts). cbn [with_logs lm_log10].
    assert (I2 : 0 < / ln 10 <= 10 / 23). { split; [apply Rinv_0_lt_compat; lra|]. replace (10 / 23) with (/ (23 / 10)) by lra. apply Rinv_le_contravar; lra. }
    apply (grid_ok 43); [lia|]. change (52 - 43)%Z with 9%Z. change (bp 9) with 512. unfold Rdiv. rewrite Rabs_mult, (Rabs_pos_eq (/ _)) by lra.
    apply Rle_trans with (745 * (10 / 23)); [|lra]. apply Rmult_le_compat; auto using Rabs_pos; try lra. apply Rabs_le. lra.
Qed.
