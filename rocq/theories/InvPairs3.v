(** Square and square root undo each other (C103). *)
From Coq Require Import ZArith Reals Lra Lia List Bool.
From Flocq Require Import Core IEEE754.BinarySingleNaN.
From Verif Require Import RN F64 Prim DoubleM ParseM FromProofs Spec F64Facts SqrtProofs Printer AlgM ExprProofs QSinhThms P_Pow P_Sqrt InvPairs.
Local Open Scope R_scope.
Notation bp := (bpow radix2).

Lemma d_sqr_sqrt lm dbg x : printer lm -> DNorm x -> bp (-700) <= DV x <= bp 700 ->
  exists r, d_sqrt lm dbg x = Val r /\ DNorm (d_sqr r) /\ Rabs (DV (d_sqr r) - DV x) <= 74 * bp (-106) * DV x.
Proof.
  intros PR N H. assert (P7 := bpow_gt_0 radix2 (-700)). assert (DX := dhi_bounds x N). assert (SX := dhi_sign x N ltac:(lra)). rewrite !Rabs_pos_eq in DX by lra.
  assert (A1 : bp (-800) <= / 2 * bp (-700)) by (apply Rle_trans with (bp (-701)); [apply bpow_le; lia|right; change (-701)%Z with (-1 + -700)%Z; now rewrite bpow_plus]).
  assert (A2 : 2 * bp 700 <= bp 800) by (apply Rle_trans with (bp 701); [right; change 701%Z with (1 + 700)%Z; now rewrite bpow_plus|apply bpow_le; lia]).
  destruct (C28_double_accuracy lm dbg x PR N ltac:(lra)) as (r & R1 & R2 & R3). exists r. split; [exact R1|]. destruct B106 as [Q0 Q1].
  assert (S0 : 0 < sqrt (DV x)) by (apply sqrt_lt_R0; lra). assert (SS : sqrt (DV x) * sqrt (DV x) = DV x) by (apply sqrt_sqrt; lra).
  assert (DR := dhi_bounds r R2). assert (R3' := R3). rewrite (Rabs_pos_eq (sqrt _)) in R3' by lra.
  assert (K : 32 * bp (-106) * sqrt (DV x) <= / 1000 * sqrt (DV x)) by (apply Rmult_le_compat_r; lra). apply Rabs_le_inv in R3'.
  rewrite (Rabs_pos_eq (DV r)) in DR by lra. set (v := Rabs (V (d0 r))) in *. set (s := sqrt (DV x)) in *.
  assert (VV : V (d0 r) * V (d0 r) = v * v) by (unfold v; rewrite <- Rabs_mult; symmetry; apply Rabs_pos_eq; apply Rle_0_sqr).
  assert (V1 : / 9 * DV x <= v * v <= 9 * DV x).
  { rewrite <- SS. split; [apply Rle_trans with ((/ 3 * s) * (/ 3 * s)); [lra|apply Rmult_le_compat; lra]|apply Rle_trans with ((3 * s) * (3 * s)); [apply Rmult_le_compat; lra|lra]]. }
  assert (A3 : bp (-900) <= / 16 * bp (-700)) by (apply Rle_trans with (bp (-704)); [apply bpow_le; lia|right; change (-704)%Z with (-4 + -700)%Z; now rewrite bpow_plus]).
  assert (A4 : 16 * bp 700 <= bp 1014) by (apply Rle_trans with (bp 704); [right; change 704%Z with (4 + 700)%Z; now rewrite bpow_plus|apply bpow_le; lia]).
  destruct (C27_sqr_accurate r R2) as (B1 & B2 & _); [right; rewrite VV; lra|]. split; [exact B1|].
  unfold approx in B2. assert (P := prod_err _ _ s s _ _ R3 R3 ltac:(lra) ltac:(lra)). rewrite SS in P.
  assert (F := chain_err _ _ _ _ _ B2 P ltac:(lra) ltac:(lra)). rewrite (Rabs_pos_eq (DV x)) in F by lra. apply Rle_trans with (1 := F). apply Rmult_le_compat_r; lra.
Qed.
Lemma d_sqrt_sqr lm dbg x : printer lm -> DNorm x -> bp (-350) <= Rabs (DV x) <= bp 350 ->
  exists r, d_sqrt lm dbg (d_sqr x) = Val r /\ DNorm r /\ Rabs (DV r - Rabs (DV x)) <= 42 * bp (-106) * Rabs (DV x).
Proof.
  intros PR N H. assert (P7 := bpow_gt_0 radix2 (-350)). assert (DX := dhi_bounds x N). destruct B106 as [Q0 Q1].
  set (a := Rabs (DV x)) in *. set (v := Rabs (V (d0 x))) in *.
  assert (XX : DV x * DV x = a * a) by (unfold a; rewrite <- Rabs_mult; symmetry; apply Rabs_pos_eq; apply Rle_0_sqr).
  assert (VV : V (d0 x) * V (d0 x) = v * v) by (unfold v; rewrite <- Rabs_mult; symmetry; apply Rabs_pos_eq; apply Rle_0_sqr).
  assert (E1 : bp (-700) <= a * a <= bp 700).
  { change (-700)%Z with (-350 + -350)%Z. change 700%Z with (350 + 350)%Z. rewrite !bpow_plus. split; apply Rmult_le_compat; lra. }
  assert (V1 : / 4 * (a * a) <= v * v <= 4 * (a * a)).
  { split; [apply Rle_trans with ((/ 2 * a) * (/ 2 * a)); [lra|apply Rmult_le_compat; lra]|apply Rle_trans with ((2 * a) * (2 * a)); [apply Rmult_le_compat; lra|lra]]. }
  assert (A3 : bp (-800) <= / 16 * bp (-700)) by (apply Rle_trans with (bp (-704)); [apply bpow_le; lia|right; change (-704)%Z with (-4 + -700)%Z; now rewrite bpow_plus]).
  assert (A4 : 16 * bp 700 <= bp 800) by (apply Rle_trans with (bp 704); [right; change 704%Z with (4 + 700)%Z; now rewrite bpow_plus|apply bpow_le; lia]).
  assert (A5 : bp (-900) <= bp (-800)) by (apply bpow_le; lia). assert (A6 : bp 800 <= bp 1014) by (apply bpow_le; lia).
  destruct (C27_sqr_accurate x N) as (B1 & B2 & B3); [right; rewrite VV; lra|]. unfold approx in B2. rewrite XX in B2. rewrite (Rabs_pos_eq (a * a)) in B2 by nra.
  set (s := d_sqr x) in *. assert (D1 : 9 * bp (-106) * (a * a) <= / 100 * (a * a)) by (apply Rmult_le_compat_r; lra). assert (B2' := Rabs_le_inv _ _ B2).
  assert (P9 := bpow_gt_0 radix2 (-700)). assert (DS := dhi_bounds s B1). assert (SS := dhi_sign s B1 ltac:(lra)). rewrite !Rabs_pos_eq in DS by lra.
  destruct (C28_double_accuracy lm dbg s PR B1 ltac:(lra)) as (r & R1 & R2 & R3). exists r. split; [exact R1|]. split; [exact R2|].
  assert (S0 : 0 <= sqrt (DV s)) by apply sqrt_pos. assert (SQ : sqrt (DV s) * sqrt (DV s) = DV s) by (apply sqrt_sqrt; lra). set (w := sqrt (DV s)) in *.
  assert (W : Rabs (w - a) <= 9 * bp (-106) * a).
  { apply Rmult_le_reg_r with (w + a); [lra|]. rewrite <- (Rabs_pos_eq (w + a)) at 1 by lra. rewrite <- Rabs_mult. replace ((w - a) * (w + a)) with (DV s - a * a) by (rewrite <- SQ; ring).
    apply Rle_trans with (1 := B2). assert (0 <= 9 * bp (-106) * a * w) by (repeat apply Rmult_le_pos; lra). lra. }
  rewrite <- (Rabs_pos_eq a) in W at 2 by lra. assert (F := chain_err _ _ _ _ _ R3 W ltac:(lra) ltac:(lra)). rewrite (Rabs_pos_eq a) in F by lra.
  apply Rle_trans with (1 := F). apply Rmult_le_compat_r; lra.
Qed.
