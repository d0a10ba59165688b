(** * Multiplication without a lower limit on the product *)
From Coq Require Import ZArith Reals Lra Lia Psatz Bool.
From Flocq Require Import Core IEEE754.BinarySingleNaN.
From Verif Require Import RN F64 Prim DoubleM Spec F64Facts EFT DWAdd DAddProofs DMulProofs DDivProofs.
Local Open Scope R_scope.

Lemma d_mul_any x y : DNorm x -> DNorm y -> Rabs (V (d0 x) * V (d0 y)) <= bp 1015 ->
  DNorm (d_mul x y) /\ Rabs (DV (d_mul x y) - DV x * DV y) <= 10 * bp (-106) * Rabs (DV x * DV y) + bp (-1073).
Proof.
  intros Nx Ny W'.
  assert (H0 := bpow_gt_0 radix2 (-1073)). assert (H6 := bpow_gt_0 radix2 (-106)).
  destruct (Req_dec (V (d0 x) * V (d0 y)) 0) as [Z0|Z0].
  { destruct (d_mul_ok x y Nx Ny (or_introl Z0)) as [A B]. split; auto. unfold approx in B. assert (K := Rabs_pos (DV x * DV y)). nra. }
  destruct (Rle_or_lt (bp (-900)) (Rabs (V (d0 x) * V (d0 y)))) as [L|L].
  { destruct (d_mul_ok x y Nx Ny (or_intror (conj L W'))) as [A B]. split; auto. unfold approx in B. assert (K := Rabs_pos (DV x * DV y)). nra. }
  assert (Zx : V (d0 x) <> 0) by (intros E; apply Z0; rewrite E; ring).
  assert (Lx := DNorm_lo x Nx). assert (Ly := DNorm_lo y Ny).
  destruct Nx as [[Fx0 Fx1] Nx], Ny as [[Fy0 Fy1] Ny].
  unfold d_mul. rewrite d_pre_mul_fin by easy. cbn [from_pre].
  assert (L900 : bp (-900) <= bp 1015) by (apply bpow_le; lia).
  destruct (two_prod_m (-900) (d0 x) (d0 y) ltac:(lia) Fx0 Fy0 ltac:(lra)) as [Fp [Fe [Ep Ee]]].
  destruct (two_prod (d0 x) (d0 y)) as [p e]. cbn [fst snd] in *.
  set (xh := V (d0 x)) in *. set (xl := V (d1 x)) in *. set (yh := V (d0 y)) in *. set (yl := V (d1 y)) in *.
  assert (B1 : Rabs (xh * yl) <= u * Rabs (xh * yh)).
  { rewrite !Rabs_mult. assert (Pa := Rabs_pos xh). nra. }
  assert (B2 : Rabs (xl * yh) <= u * Rabs (xh * yh)).
  { rewrite !Rabs_mult. assert (Pa := Rabs_pos yh). nra. }
  assert (B3 : Rabs (xl * yl) <= u * u * Rabs (xh * yh)).
  { rewrite !Rabs_mult. assert (Pa := Rabs_pos yl). assert (Pb := Rabs_pos xl). assert (Pc := Rabs_pos xh). assert (Pd := Rabs_pos yh). nra. }
  destruct (mul_Bd (-900) (d0 x) (d1 y) ltac:(lia) Fx0 Fy1) as [[Fm1 Bm1] Em1]; [fold xh yl; assert (K := Rabs_pos (xh * yh)); lra|].
  destruct (mul_Bd (-900) (d1 x) (d0 y) ltac:(lia) Fx1 Fy0) as [[Fm2 Bm2] Em2]; [fold xl yh; assert (K := Rabs_pos (xh * yh)); lra|].
  set (m1 := fmul (d0 x) (d1 y)) in *. set (m2 := fmul (d1 x) (d0 y)) in *.
  fold xh yl in Em1. fold xl yh in Em2.
  assert (Bp : Rabs (V p) <= bp (-900)) by (rewrite Ep; apply rn_abs_le; [apply fmt_bpow; lia|lra]).
  assert (Be : Rabs (V e) <= bp (-899)).
  { rewrite Ee. apply rn_abs_le. apply fmt_bpow; lia. change (-899)%Z with (-900 + 1)%Z. rewrite bp_S. rewrite Ep in Bp.
    assert (K' := Rabs_triang (xh * yh) (- rn (xh * yh))). rewrite Rabs_Ropp in K'. unfold Rminus. lra. }
  destruct (Bd_add (-899) e m1 ltac:(lia)) as [[Ft Bt] Et]; [now split|split; auto; apply Rle_trans with (1 := Bm1); apply bpow_le; lia|].
  set (t := fadd e m1) in *.
  destruct (Bd_add (-898) t m2 ltac:(lia)) as [[Ft2 Bt2] Et2]; [now split|split; auto; apply Rle_trans with (1 := Bm2); apply bpow_le; lia|].
  set (t2 := fadd t m2) in *.
  set (P := xh * yh) in *. set (Q := Rabs P) in *. assert (Q0 : 0 <= Q) by apply Rabs_pos.
  set (h := bp (-1075)) in *. assert (Hh : 0 < h) by apply bpow_gt_0.
  assert (H4 : bp (-1073) = 4 * h) by exact (bp_split (-1075) 2 ltac:(lia)).
  assert (MAIN : Rabs (V t2) <= Rabs (V p) /\ Rabs (V p + V t2 - (P + xh * yl + xl * yh + xl * yl)) <= (9 * u * u + 30 * u * u * u) * Q + 4 * h - h * u).
  { destruct (Rle_or_lt Q (bp (-1022))) as [S|S].
    - assert (HU : u * bp (-1022) = h) by (rewrite <- u_bp, <- bpow_plus; reflexivity).
      assert (UQ : u * Q <= h) by nra.
      assert (V1 : V m1 = 0) by (rewrite Em1; apply rn_tiny; fold h; lra).
      assert (V2 : V m2 = 0) by (rewrite Em2; apply rn_tiny; fold h; lra).
      assert (EP : Rabs (V p - P) <= h).
      { rewrite Ep. apply Rle_trans with (/ 2 * bp (-1074)); [|right; change (-1074)%Z with (-1075 + 1)%Z; rewrite bp_S; fold h; lra].
        destruct (Rle_or_lt (bp (-1022)) (Rabs P)) as [G|G].
        - apply Rle_trans with (1 := rn_rel P G). fold Q. apply Rle_trans with (1 := UQ). right. change (-1074)%Z with (-1075 + 1)%Z. rewrite bp_S. fold h. clear. field.
        - apply Rle_trans with (1 := sub_err P G). right. change (-1074)%Z with (-1075 + 1)%Z. rewrite bp_S. lra. }
      assert (Ve : V e = 0). { rewrite Ee. apply rn_tiny. rewrite <- Ep, Rabs_minus_sym. exact EP. }
      assert (Vt : V t = 0) by (rewrite Et, Ve, V1, Rplus_0_r; apply rn_0).
      assert (Vt2 : V t2 = 0) by (rewrite Et2, Vt, V2, Rplus_0_r; apply rn_0).
      rewrite Vt2, Rabs_R0. split; [apply Rabs_pos|].
      replace (V p + 0 - (P + xh * yl + xl * yh + xl * yl)) with ((V p - P) + (- (xh * yl) + (- (xl * yh) + - (xl * yl)))) by ring.
      apply Rle_trans with (h + (u * Q + (u * Q + u * u * Q))).
      { apply triP; [exact EP|]. apply triP; [rewrite Rabs_Ropp; exact B1|]. apply triP; rewrite Rabs_Ropp; [exact B2|exact B3]. }
      assert (u * u * Q <= u * h) by nra. assert (0 <= u * u * u * Q) by nra. assert (0 <= u * u * Q) by nra. lra.
    - assert (HU : h <= u * Q). { apply Rle_trans with (u * bp (-1022)); [right; symmetry; rewrite <- u_bp, <- bpow_plus; reflexivity|nra]. }
      assert (EP : Rabs (V p - P) <= u * Q) by (rewrite Ep; apply rn_rel; fold Q; lra).
      assert (EP' : Rabs (P - V p) <= u * Q) by (rewrite Rabs_minus_sym; exact EP).
      assert (De : Rabs (V e - (P - V p)) <= u * (u * Q) + h) by (rewrite Ee, <- Ep; apply rn_rel_le; exact EP').
      assert (D1 : Rabs (V m1 - xh * yl) <= u * (u * Q) + h) by (rewrite Em1; apply rn_rel_le; exact B1).
      assert (D2 : Rabs (V m2 - xl * yh) <= u * (u * Q) + h) by (rewrite Em2; apply rn_rel_le; exact B2).
      assert (Ae := tri _ _ _ _ De EP'). assert (A1 := tri _ _ _ _ D1 B1). assert (A2 := tri _ _ _ _ D2 B2).
      assert (S1 := triP _ _ _ _ Ae A1).
      assert (Dt : Rabs (V t - (V e + V m1)) <= u * (u * (u * Q) + h + u * Q + (u * (u * Q) + h + u * Q))).
      { rewrite Et. apply plus_rel; auto with fmt. }
      assert (At := tri _ _ _ _ Dt S1). assert (S2 := triP _ _ _ _ At A2).
      assert (Dt2 : Rabs (V t2 - (V t + V m2)) <= u * (u * (u * (u * Q) + h + u * Q + (u * (u * Q) + h + u * Q)) + (u * (u * Q) + h + u * Q + (u * (u * Q) + h + u * Q)) + (u * (u * Q) + h + u * Q))).
      { rewrite Et2. apply plus_rel; auto with fmt. }
      assert (At2 := tri _ _ _ _ Dt2 S2).
      assert (Ap : (1 - u) * Q <= Rabs (V p)). { assert (K := tri2 _ _ _ _ EP (Rle_refl (Rabs (V p)))). fold Q in K. lra. }
      split; [lra|].
      replace (V p + V t2 - (P + xh * yl + xl * yh + xl * yl)) with
        ((V t2 - (V t + V m2)) + ((V t - (V e + V m1)) + ((V e - (P - V p)) + ((V m1 - xh * yl) + ((V m2 - xl * yh) + - (xl * yl)))))) by ring.
      eapply Rle_trans. { apply triP; [exact Dt2|]. apply triP; [exact Dt|]. apply triP; [exact De|]. apply triP; [exact D1|]. apply triP; [exact D2|]. rewrite Rabs_Ropp; exact B3. }
      lra. }
  destruct MAIN as [M1 M2].
  assert (M18' : bp (-898) <= M18) by (apply (bpow_le radix2); lia).
  assert (M19' : bp (-900) <= M18) by (apply (bpow_le radix2); lia).
  destruct (renorm_tail p t2) as [R1 [R2 _]]; auto; [split; auto; lra|split; auto; lra|].
  split; [exact R1|]. rewrite R2.
  assert (E : DV x * DV y = P + xh * yl + xl * yh + xl * yl) by (unfold DV, P; fold xh xl yh yl; ring).
  rewrite E. eapply Rle_trans; [exact M2|].
  assert (Elow : (1 - 3 * u) * Q <= Rabs (P + xh * yl + xl * yh + xl * yl)).
  { assert (K := triP _ _ _ _ (triP _ _ _ _ B1 B2) B3). 
    assert (K' := Rabs_triang (P + xh * yl + xl * yh + xl * yl) (- (xh * yl + xl * yh + xl * yl))).
    rewrite Rabs_Ropp in K'.
    replace (P + xh * yl + xl * yh + xl * yl + - (xh * yl + xl * yh + xl * yl)) with P in K' by ring. fold Q in K'. lra. }
  rewrite H4. replace (bp (-106)) with (u * u) by (change (-106)%Z with (-53 + -53)%Z; now rewrite bpow_plus). nra.
Qed.
