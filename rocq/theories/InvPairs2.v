(** More function pairs for C103: tanh after atanh, cosh after acosh. *)
From Coq Require Import ZArith Reals Lra Lia List Bool.
From Flocq Require Import Core IEEE754.BinarySingleNaN.
From Verif Require Import RN F64 Prim DoubleM QuadM ParseM FromProofs Spec F64Facts SqrtProofs Printer AlgM TransM ExpThms ExpProofs LnThms LogLib SinReduce HypThms HypMore HypInv P_Hyper InvPairs.
Local Open Scope R_scope.
Notation bp := (bpow radix2).

Lemma tanh_lip a b : Rabs (a - b) <= 51 / 1000 -> Rabs (tanh a - tanh b) <= 1004 / 1000 * Rabs (a - b).
Proof.
  intros H. rewrite tanh_sub. destruct (cosh_ge a) as [A _]. destruct (cosh_ge b) as [B _]. assert (K := sinh_small_le _ H).
  assert (P : 1 <= cosh a * cosh b) by (rewrite <- (Rmult_1_l 1); apply Rmult_le_compat; lra).
  unfold Rdiv. rewrite Rabs_mult, (Rabs_pos_eq (/ _)) by (apply Rlt_le, Rinv_0_lt_compat; lra).
  assert (I : / (cosh a * cosh b) <= 1) by (rewrite <- Rinv_1; apply Rinv_le_contravar; lra). assert (I0 : 0 < / (cosh a * cosh b)) by (apply Rinv_0_lt_compat; lra).
  apply Rle_trans with (Rabs (sinh (a - b)) * 1); [apply Rmult_le_compat_l; [apply Rabs_pos|exact I]|lra].
Qed.
Lemma d_tanh_atanh lm dbg x y : printer lm -> log_close lm -> DNorm x -> bp (-90) <= Rabs (DV x) -> bp (-800) <= 1 - Rabs (DV x) ->
  tanh y = DV x -> Rabs y <= 599 ->
  exists r t, d_atanh lm dbg x = Val r /\ d_tanh lm dbg r = Val t /\ DNorm t /\ Rabs (DV t - DV x) <= (28 * Rabs y + 867) * bp (-106).
Proof.
  intros PR C N H1 H2 Y HY. destruct (C78_atanh_accuracy lm dbg x y C N H1 H2 Y) as (r & R1 & R2 & R3). exists r. destruct B106 as [Q0 Q1]. assert (P := Rabs_pos y).
  assert (D : (272 / 10 * Rabs y + 265) * bp (-106) <= 20000 * bp (-106)) by (apply Rmult_le_compat_r; lra).
  assert (L : Rabs (DV r) <= 600). { replace (DV r) with ((DV r - y) + y) by ring. eapply Rle_trans; [apply Rabs_triang|]. lra. }
  destruct (C77_tanh_accuracy lm dbg r PR R2 L) as (t & T1 & T2 & T3 & _). exists t. repeat (split; [assumption|]).
  assert (K := tanh_lip (DV r) y ltac:(lra)). rewrite Y in K.
  assert (K' : 1004 / 1000 * Rabs (DV r - y) <= 1004 / 1000 * (272 / 10 * Rabs y + 265) * bp (-106)) by lra.
  replace (DV t - DV x) with ((DV t - tanh (DV r)) + (tanh (DV r) - DV x)) by ring. eapply Rle_trans; [apply Rabs_triang|].
  assert (T : 600 * bp (-106) + 1004 / 1000 * (272 / 10 * Rabs y + 265) * bp (-106) <= (28 * Rabs y + 867) * bp (-106)) by (rewrite <- Rmult_plus_distr_r; apply Rmult_le_compat_r; lra). lra.
Qed.

Lemma cosh_of_abs r l d : 0 <= d <= / 4096 -> Rabs (r - l) <= d -> Rabs (cosh r - cosh l) <= 1001 / 1000 * d * cosh l.
Proof.
  intros Hd H. assert (E1 := exp_of_abs r l d Hd H).
  assert (E2 := exp_of_abs (- r) (- l) d Hd ltac:(replace (- r - - l) with (- (r - l)) by ring; now rewrite Rabs_Ropp)).
  apply Rabs_le_inv in E1. apply Rabs_le_inv in E2. unfold cosh.
  apply Rabs_le. replace (1001 / 1000 * d * ((exp l + exp (- l)) / 2)) with ((1001 / 1000 * d * exp l + 1001 / 1000 * d * exp (- l)) / 2) by field. lra.
Qed.
Lemma d_cosh_acosh lm dbg x y : printer lm -> log_close lm -> DNorm x -> 1 + bp (-80) <= DV x <= bp 99 -> 0 <= y -> cosh y = DV x ->
  exists r, d_acosh lm dbg x = Val r /\ DNorm (d_cosh r) /\ Rabs (DV (d_cosh r) - DV x) <= (43 * y + 1033 + 6 * (cosh y / sinh y)) * bp (-106) * DV x.
Proof.
  intros PR C N H Y0 Y. destruct (C78_acosh_accuracy lm dbg x y PR C N H Y0 Y) as (r & R1 & R2 & R3). exists r. destruct B106 as [Q0 Q1]. split; [exact R1|]. clear R1.
  assert (B40 : bp (-80) = / 1099511627776 * / 1099511627776) by (change (-80)%Z with (-40 + -40)%Z; rewrite bpow_plus; reflexivity).
  assert (CS := cosh_sq y). destruct (cosh_ge y) as (_ & _ & SC).
  assert (S0 : 0 <= sinh y). { destruct Y0 as [Y0|Y0]; [|rewrite <- Y0, sinh_0; lra]. rewrite <- sinh_0. apply Rlt_le, sinh_lt; exact Y0. }
  assert (S1 : / 1099511627776 <= sinh y). { destruct (Rle_or_lt (/ 1099511627776) (sinh y)) as [W|W]; [exact W|exfalso]. assert (K : sinh y * sinh y <= / 1099511627776 * / 1099511627776) by (apply Rmult_le_compat; lra). nra. }
  assert (Y1 : / 2199023255552 <= y). { destruct (Rle_or_lt (51 / 1000) y) as [W|W]; [lra|]. assert (K := sinh_small_le y ltac:(rewrite Rabs_pos_eq; lra)). rewrite !Rabs_pos_eq in K by lra. lra. }
  assert (Y2 : y <= 101). { rewrite <- (arcsinh_sinh y). apply arcsinh_range. rewrite (Rabs_pos_eq (sinh y)) in SC by lra. lra. }
  assert (CT : 0 <= cosh y / sinh y <= 2000000000000).
  { assert (C1 : cosh y <= 1 + sinh y) by nra. assert (I : 0 < / sinh y) by (apply Rinv_0_lt_compat; lra). split; [apply Rmult_le_pos; lra|].
    apply Rmult_le_reg_r with (sinh y); [lra|]. unfold Rdiv. rewrite Rmult_assoc, Rinv_l by lra. lra. }
  set (c := cosh y / sinh y) in *. clearbody c. set (e := (272 / 10 * y + 525 + 5 * c) * bp (-106)) in *.
  assert (D : e <= 20000000000000 * bp (-106)) by (apply Rmult_le_compat_r; lra). assert (D0 : 0 <= e) by (apply Rmult_le_pos; lra). assert (R' := Rabs_le_inv _ _ R3).
  assert (RA : Rabs (DV r) = DV r) by (apply Rabs_pos_eq; lra).
  assert (F1 := cosh_of_abs _ _ _ (conj D0 (Rle_trans _ _ (/ 4096) D ltac:(lra))) R3).
  destruct (C75_cosh_accuracy r R2) as [T1 T2]; [lra|lra|]. split; [exact T1|].
  assert (F2 : cosh (DV r) <= 1001 / 1000 * cosh y). { assert (F := Rabs_le_inv _ _ F1). assert (K : 1001 / 1000 * e * cosh y <= / 1000 * cosh y) by (apply Rmult_le_compat_r; lra). lra. }
  rewrite RA, Y in *. destruct (cosh_ge (DV r)) as (G & _ & _). set (q := bp (-106)) in *.
  assert (E2 : (151 / 10 * DV r + 505) * q * cosh (DV r) <= (151 / 10 * (y + / 1000) + 505) * q * (1001 / 1000 * DV x)).
  { apply Rmult_le_compat; [apply Rmult_le_pos; lra|lra|apply Rmult_le_compat_r; lra|exact F2]. }
  replace (DV (d_cosh r) - DV x) with ((DV (d_cosh r) - cosh (DV r)) + (cosh (DV r) - DV x)) by ring. eapply Rle_trans; [apply Rabs_triang|].
  assert (T : (151 / 10 * (y + / 1000) + 505) * q * (1001 / 1000 * DV x) + 1001 / 1000 * e * DV x <= (43 * y + 1033 + 6 * c) * q * DV x).
  { unfold e. replace (_ + _) with (1001 / 1000 * (151 / 10 * (y + / 1000) + 505 + (272 / 10 * y + 525 + 5 * c)) * q * DV x) by ring. assert (0 < bp (-80)) by apply bpow_gt_0. apply Rmult_le_compat_r; [lra|]. apply Rmult_le_compat_r; lra. }
  lra.
Qed.
