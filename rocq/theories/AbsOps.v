(** * Double operations with absolute error bounds, down to zero *)
From Coq Require Import ZArith Reals Lra Lia Psatz Bool.
From Flocq Require Import Core IEEE754.BinarySingleNaN.
From Verif Require Import RN F64 Prim DoubleM Spec F64Facts EFT DWAdd DAddProofs DMulProofs DDivProofs MulAny LdexpProofs LawProofs OrderProofs.
Local Open Scope R_scope.

(** squaring a tiny number: the result is normalized and tiny *)
Lemma d_sqr_tiny x : DNorm x -> V (d0 x) * V (d0 x) <= bp (-900) -> DNorm (d_sqr x) /\ Rabs (DV (d_sqr x) - DV x * DV x) <= bp (-890).
Proof.
  intros Nx W. assert (Lx := DNorm_lo x Nx). assert (Nx' := Nx). destruct Nx as [[Fx0 Fx1] Nx].
  assert (SQ : Rabs (V (d0 x) * V (d0 x)) = V (d0 x) * V (d0 x)) by (apply Rabs_pos_eq; nra).
  assert (PRE : d_pre_sqr x = None).
  { unfold d_pre_sqr, d_is_infinite. now rewrite (Fin_inf _ Fx0). }
  unfold d_sqr. rewrite PRE. cbn [from_pre].
  change (two_sqr (d0 x)) with (two_prod (d0 x) (d0 x)).
  destruct (two_prod_m (-900) (d0 x) (d0 x) ltac:(lia) Fx0 Fx0 ltac:(lra)) as [Fp [Fe [Ep Ee]]].
  destruct (two_prod (d0 x) (d0 x)) as [p e]. cbn [fst snd] in *.
  set (xh := V (d0 x)) in *. set (xl := V (d1 x)) in *.
  set (P := xh * xh) in *. set (Q := Rabs P) in *. assert (Q0 : 0 <= Q) by apply Rabs_pos.
  assert (XB : Rabs xh <= bp (-450)).
  { apply Rnot_lt_le. intros L. assert (K : bp (-900) = bp (-450) * bp (-450)) by (rewrite <- bpow_plus; reflexivity).
    fold P in SQ. unfold Q in *. rewrite <- SQ in W. unfold P in W. rewrite Rabs_mult, K in W. assert (G := bpow_gt_0 radix2 (-450)). nra. }
  assert (B1 : Rabs (2 * xh * xl) <= 2 * u * Q).
  { unfold Q, P. rewrite !Rabs_mult. rewrite (Rabs_pos_eq 2) by lra. assert (Pa := Rabs_pos xh). nra. }
  assert (B3 : Rabs (xl * xl) <= u * u * Q).
  { unfold Q, P. rewrite !Rabs_mult. assert (Pa := Rabs_pos xl). assert (Pc := Rabs_pos xh). nra. }
  assert (WQ : Q <= bp (-900)) by (rewrite SQ; exact W).
  assert (G9 := bpow_gt_0 radix2 (-900)).
  destruct (mul_Bd (-449) f2 (d0 x) ltac:(lia) Fin_2 Fx0) as [[Fd Bd2] Ed].
  { rewrite V_2. fold xh. rewrite Rabs_mult, (Rabs_pos_eq 2) by lra. change (-449)%Z with (-450 + 1)%Z. rewrite bp_S. lra. }
  rewrite V_2, rn_twice in Ed by auto with fmt. fold xh in Ed. set (dx := fmul f2 (d0 x)) in *.
  destruct (mul_Bd (-900) dx (d1 x) ltac:(lia) Fd Fx1) as [[Fm1 Bm1] Em1]; [rewrite Ed; fold xl; lra|].
  destruct (mul_Bd (-900) (d1 x) (d1 x) ltac:(lia) Fx1 Fx1) as [[Fm2 Bm2] Em2]; [fold xl; lra|].
  rewrite Ed in Em1. fold xl in Em1, Em2.
  set (m1 := fmul dx (d1 x)) in *. set (m2 := fmul (d1 x) (d1 x)) in *.
  assert (Bp : Rabs (V p) <= bp (-900)).
  { rewrite Ep. apply rn_abs_le; [apply fmt_bpow; lia|]. exact WQ. }
  assert (Be : Rabs (V e) <= bp (-899)).
  { rewrite Ee. apply rn_abs_le. apply fmt_bpow; lia. change (-899)%Z with (-900 + 1)%Z. rewrite bp_S. rewrite <- Ep.
    assert (K' := Rabs_triang P (- V p)). rewrite Rabs_Ropp in K'. unfold Rminus. fold Q in K'. lra. }
  destruct (Bd_add (-899) e m1 ltac:(lia)) as [[Ft Bt] Et]; [now split|split; auto; apply Rle_trans with (1 := Bm1); apply bpow_le; lia|].
  set (t := fadd e m1) in *.
  destruct (Bd_add (-898) t m2 ltac:(lia)) as [[Ft2 Bt2] Et2]; [now split|split; auto; apply Rle_trans with (1 := Bm2); apply bpow_le; lia|].
  set (t2 := fadd t m2) in *.
  set (h := bp (-1075)) in *. assert (Hh : 0 < h) by apply bpow_gt_0.
  assert (H2 : bp (-1074) = 2 * h) by exact (bp_split (-1075) 1 ltac:(lia)).
  assert (MAIN : Rabs (V t2) <= Rabs (V p)).
  { destruct (Rle_or_lt Q (bp (-1022))) as [S|S].
    - assert (HU : u * bp (-1022) = h) by (rewrite <- u_bp, <- bpow_plus; reflexivity).
      assert (UQ : u * Q <= h) by nra.
      assert (V2 : V m2 = 0). { rewrite Em2; apply rn_tiny; fold h. assert (u * u * Q <= u * Q) by nra. lra. }
      assert (EP : Rabs (V p - P) <= h).
      { rewrite Ep. destruct (Rle_or_lt (bp (-1022)) (Rabs P)) as [G|G].
        - apply Rle_trans with (1 := rn_rel P G). fold Q. exact UQ.
        - exact (sub_err P G). }
      assert (Ve : V e = 0). { rewrite Ee. apply rn_tiny. rewrite <- Ep, Rabs_minus_sym. exact EP. }
      assert (Vt : V t = V m1) by (rewrite Et, Ve, Rplus_0_l; apply rn_id; auto with fmt).
      assert (Vt2 : V t2 = V m1) by (rewrite Et2, V2, Rplus_0_r, Vt; apply rn_id; auto with fmt).
      rewrite Vt2.
      destruct (Rle_or_lt Q (2 * h)) as [T|T].
      + assert (M0 : V m1 = 0) by (rewrite Em1; apply rn_tiny; fold h; nra). rewrite M0, Rabs_R0. apply Rabs_pos.
      + apply Rle_trans with (bp (-1074)).
        * rewrite Em1. apply rn_abs_le; [apply fmt_bpow; lia|]. lra.
        * rewrite Ep. apply rn_abs_ge; [apply fmt_bpow; lia|]. fold Q. lra.
    - assert (HU : h <= u * Q). { apply Rle_trans with (u * bp (-1022)); [right; symmetry; rewrite <- u_bp, <- bpow_plus; reflexivity|nra]. }
      assert (EP : Rabs (V p - P) <= u * Q) by (rewrite Ep; apply rn_rel; fold Q; lra).
      assert (EP' : Rabs (P - V p) <= u * Q) by (rewrite Rabs_minus_sym; exact EP).
      assert (De : Rabs (V e - (P - V p)) <= u * (u * Q) + h) by (rewrite Ee, <- Ep; apply rn_rel_le; exact EP').
      assert (D1 : Rabs (V m1 - 2 * xh * xl) <= u * (2 * u * Q) + h) by (rewrite Em1; apply rn_rel_le; exact B1).
      assert (D2 : Rabs (V m2 - xl * xl) <= u * (u * u * Q) + h) by (rewrite Em2; apply rn_rel_le; exact B3).
      assert (Ae := tri _ _ _ _ De EP'). assert (Am := tri _ _ _ _ D1 B1). assert (A2 := tri _ _ _ _ D2 B3).
      assert (S1 := triP _ _ _ _ Ae Am).
      assert (Dt : Rabs (V t - (V e + V m1)) <= u * (u * (u * Q) + h + u * Q + (u * (2 * u * Q) + h + 2 * u * Q))).
      { rewrite Et. apply plus_rel; auto with fmt. }
      assert (At := tri _ _ _ _ Dt S1). assert (S2 := triP _ _ _ _ At A2).
      assert (Dt2 : Rabs (V t2) <= 2 * Rabs (V t + V m2)).
      { rewrite Et2. assert (K := plus_rel (V t) (V m2) _ ltac:(auto with fmt) ltac:(auto with fmt) (Rle_refl _)).
        assert (K2 := tri _ _ _ _ K (Rle_refl _)). assert (K3 := Rabs_pos (V t + V m2)). lra. }
      assert (LP : (1 - u) * Q <= Rabs (V p)). { assert (K := tri2 _ _ _ _ EP (Rle_refl _)). fold Q in K. lra. }
      lra. }
  destruct (renorm_tail p t2) as [RN1 [RN2 _]].
  { split; auto. apply Rle_trans with (1 := Bp). apply bpow_le; lia. }
  { split; auto. apply Rle_trans with (1 := Bt2). apply bpow_le; lia. }
  { exact MAIN. }
  split; [exact RN1|]. rewrite RN2.
  replace (DV x * DV x) with (P + 2 * xh * xl + xl * xl) by (unfold DV, P; fold xh xl; ring).
  assert (K : Rabs (V p + V t2 - (P + 2 * xh * xl + xl * xl)) <= Rabs (V p) + Rabs (V t2) + Q + Rabs (2 * xh * xl) + Rabs (xl * xl)).
  { unfold Q. unfold Rminus. repeat (eapply Rle_trans; [apply Rabs_triang|]). rewrite Rabs_Ropp.
    assert (K1 := Rabs_triang (V p) (V t2)). assert (K2 := Rabs_triang (P + 2 * xh * xl) (xl * xl)). assert (K3 := Rabs_triang P (2 * xh * xl)). lra. }
  assert (E9 : bp (-890) = 1024 * bp (-900)) by exact (bp_split (-900) 10 ltac:(lia)).
  assert (u * u * Q <= u * Q) by nra. lra.
Qed.

Lemma d_sqr_any x : DNorm x -> Rabs (V (d0 x)) <= bp 507 ->
  DNorm (d_sqr x) /\ Rabs (DV (d_sqr x) - DV x * DV x) <= 9 * bp (-106) * (DV x * DV x) + bp (-890).
Proof.
  intros N B. assert (P := bpow_gt_0 radix2 (-890)). assert (H6 := bpow_gt_0 radix2 (-106)).
  destruct (Rle_or_lt (V (d0 x) * V (d0 x)) (bp (-900))) as [L|L].
  - destruct (d_sqr_tiny x N L) as [K1 K2]. split; [exact K1|]. assert (0 <= 9 * bp (-106) * (DV x * DV x)) by nra. lra.
  - destruct (d_sqr_ok x N) as [K1 K2].
    + right. split; [lra|]. replace (bp 1014) with (bp 507 * bp 507) by (rewrite <- bpow_plus; reflexivity).
      assert (A := Rabs_pos (V (d0 x))). replace (V (d0 x) * V (d0 x)) with (Rabs (V (d0 x)) * Rabs (V (d0 x))) by (rewrite <- Rabs_mult; apply Rabs_pos_eq; nra). nra.
    + split; [exact K1|]. unfold approx in K2. rewrite (Rabs_pos_eq (DV x * DV x)) in K2 by nra. lra.
Qed.

(** absolute forms, for values below 2^100 *)
Notation vv := (/ 81129638414606681695789005144064).
Notation tiny := (bp (-890)).
Lemma vv_bp : bp (-106) = vv. Proof. reflexivity. Qed.
Lemma hi100 x : DNorm x -> Rabs (DV x) <= bp 100 -> Rabs (V (d0 x)) <= bp 101.
Proof. intros N H. assert (K := DNorm_hi_rel x N). assert (Q := bpow_gt_0 radix2 100). assert (bp 101 = 2 * bp 100) by exact (bp_split 100 1 ltac:(lia)). lra. Qed.
Lemma add_abs x y : DNorm x -> DNorm y -> Rabs (DV x) <= bp 100 -> Rabs (DV y) <= bp 100 ->
  DNorm (d_add x y) /\ Rabs (DV (d_add x y) - (DV x + DV y)) <= 6 * vv * Rabs (DV x + DV y).
Proof.
  intros Nx Ny Bx By. apply hi100 in Bx; auto. apply hi100 in By; auto.
  assert (bp 101 <= bp 1015) by (apply bpow_le; lia). apply (d_add_ok x y Nx Ny); unfold D15; lra.
Qed.
Lemma sub_abs x y : DNorm x -> DNorm y -> Rabs (DV x) <= bp 100 -> Rabs (DV y) <= bp 100 ->
  DNorm (d_sub x y) /\ Rabs (DV (d_sub x y) - (DV x - DV y)) <= 6 * vv * Rabs (DV x - DV y).
Proof.
  intros Nx Ny Bx By. apply hi100 in Bx; auto. apply hi100 in By; auto.
  assert (bp 101 <= bp 1015) by (apply bpow_le; lia). apply (d_sub_ok x y Nx Ny); unfold D15; lra.
Qed.
Lemma mul_abs x y : DNorm x -> DNorm y -> Rabs (DV x) <= bp 100 -> Rabs (DV y) <= bp 100 ->
  DNorm (d_mul x y) /\ Rabs (DV (d_mul x y) - DV x * DV y) <= 10 * vv * Rabs (DV x * DV y) + tiny.
Proof.
  intros Nx Ny Bx By. apply hi100 in Bx; auto. apply hi100 in By; auto.
  destruct (d_mul_any x y Nx Ny) as [K1 K2].
  - rewrite Rabs_mult. apply Rle_trans with (bp 101 * bp 101); [apply Rmult_le_compat; auto using Rabs_pos|]. rewrite <- bpow_plus. apply bpow_le. lia.
  - split; [exact K1|]. rewrite vv_bp in K2. assert (bp (-1073) <= tiny) by (apply bpow_le; lia). lra.
Qed.
Lemma sqr_abs x : DNorm x -> Rabs (DV x) <= bp 100 ->
  DNorm (d_sqr x) /\ Rabs (DV (d_sqr x) - DV x * DV x) <= 9 * vv * (DV x * DV x) + tiny.
Proof.
  intros Nx Bx. apply hi100 in Bx; auto. apply (d_sqr_any x Nx). apply Rle_trans with (1 := Bx). apply bpow_le. lia.
Qed.
(** doubling is exact *)
Lemma rn_2x a b : fmt a -> fmt b -> rn (2 * (a + b)) = 2 * rn (a + b).
Proof.
  intros Fa Fb. destruct (Rle_or_lt (bp (-1022)) (Rabs (a + b))) as [L|L].
  - replace (2 * (a + b)) with ((a + b) * bp 1) by (change (bp 1) with 2; ring). rewrite rn_scale; [change (bp 1) with 2; ring|exact L|].
    rewrite Rabs_mult. change (bp 1) with 2. rewrite (Rabs_pos_eq 2) by lra. assert (P := bpow_gt_0 radix2 (-1022)). lra.
  - assert (F : fmt (a + b)).
    { apply (fmt_mult2 (-1074)); [lia|apply mult2_plus; apply mult2_emin; auto|]. apply Rle_trans with (bp (-1022)); [lra|apply bpow_le; lia]. }
    rewrite (rn_id _ F). now apply rn_twice.
Qed.
Lemma twice_abs x : DNorm x -> Rabs (DV x) <= bp 100 -> DNorm (d_mul_pwr2 x f2) /\ DV (d_mul_pwr2 x f2) = 2 * DV x.
Proof.
  intros N B. apply hi100 in B; auto. assert (Lo := DNorm_lo x N). assert (Nn := DNorm_norm x N). destruct N as [[F0 F1] _].
  assert (B102 : 2 * bp 101 = bp 102) by (symmetry; exact (bp_split 101 1 ltac:(lia))).
  assert (G : bp 101 < bp 102) by (apply bpow_lt; lia). assert (G2 := bpow_gt_0 radix2 101).
  assert (P := Rabs_pos (V (d0 x))).
  assert (M : forall a, Fin a -> Rabs (V a) <= bp 101 -> Fin (fmul a f2) /\ V (fmul a f2) = 2 * V a).
  { intros a Fa Ba. destruct (mul_Bd 102 a f2 ltac:(lia) Fa Fin_2) as [[Fm _] Em].
    - rewrite V_2, Rabs_mult, (Rabs_pos_eq 2) by lra. lra.
    - split; [exact Fm|]. rewrite Em, V_2, Rmult_comm. apply rn_twice. auto with fmt. }
  destruct (M (d0 x) F0 B) as [A1 A2]. destruct (M (d1 x) F1 ltac:(lra)) as [C1 C2].
  assert (E : DV (d_mul_pwr2 x f2) = 2 * DV x) by (unfold DV, d_mul_pwr2; cbn [d0 d1]; rewrite A2, C2; ring).
  split; [split; [now split|]|exact E]. rewrite E. unfold d_mul_pwr2. cbn [d0]. rewrite A2.
  change RN with rn. unfold DV. rewrite rn_2x, Nn by auto with fmt. reflexivity.
Qed.

Lemma Rabs_def2' x a : Rabs x <= a -> - a <= x <= a.
Proof. intros H. unfold Rabs in H. destruct (Rcase_abs x); lra. Qed.
(** halving *)
Lemma bm1' x : x * bp (-1) = x / 2. Proof. change (bp (-1)) with (/ 2). reflexivity. Qed.
Lemma fhalf_V' : Fin fhalf /\ V fhalf = / 2.
Proof. split; [reflexivity|]. unfold V, fhalf. change (f2pow 1 (-1)) with (f2pow 1 (-1)). destruct (f2pow_exact 1 (-1)) as [F E]; try (cbn; lia). unfold V in E. rewrite E. change (bp (-1)) with (/ 2). lra. Qed.
Lemma half_any x : DNorm x -> bp (-890) <= Rabs (V (d0 x)) -> Rabs (V (d0 x)) <= bp 1015 ->
  DNorm (d_mul_pwr2 x fhalf) /\ V (d0 (d_mul_pwr2 x fhalf)) = V (d0 x) / 2 /\ Rabs (DV (d_mul_pwr2 x fhalf) - DV x / 2) <= bp (-1075).
Proof.
  intros Nx L U. assert (Lo := DNorm_lo x Nx). assert (Nn := DNorm_norm x Nx). destruct Nx as [[F0 F1] _].
  destruct fhalf_V' as [Fh Vh]. unfold d_mul_pwr2.
  assert (P6 := bpow_gt_0 radix2 (-890)). assert (B22 : bp (-1022) <= bp (-890) / 4).
  { replace (bp (-890) / 4) with (bp (-892)). apply bpow_le; lia. change (-892)%Z with (-890 + -2)%Z. rewrite bpow_plus. change (bp (-2)) with (/ 4). reflexivity. }
  assert (B24 : bp 1015 < bp 1024) by (apply bpow_lt; lia).
  assert (H0 : rn (V (d0 x) / 2) = V (d0 x) / 2).
  { rewrite <- bm1'. rewrite rn_scale; [now rewrite (rn_id _ (V_fmt _))|lra|]. rewrite bm1'. unfold Rdiv. rewrite Rabs_mult, (Rabs_pos_eq (/ 2)) by lra. lra. }
  assert (G1 : Rabs (V (d1 x)) <= bp 1015) by lra.
  destruct (fmul_ok (d0 x) fhalf F0 Fh) as [Fa [Va _]].
  { rewrite Vh. change (V (d0 x) * / 2) with (V (d0 x) / 2). rewrite H0. unfold Rdiv. rewrite Rabs_mult, (Rabs_pos_eq (/ 2)) by lra. lra. }
  rewrite Vh in Va. change (V (d0 x) * / 2) with (V (d0 x) / 2) in Va. rewrite H0 in Va.
  assert (R1 : Rabs (rn (V (d1 x) / 2)) <= bp 1015).
  { apply rn_abs_le; [apply fmt_bpow; lia|]. unfold Rdiv. rewrite Rabs_mult, (Rabs_pos_eq (/ 2)) by lra. assert (K := Rabs_pos (V (d1 x))). lra. }
  destruct (fmul_ok (d1 x) fhalf F1 Fh) as [Fb [Vb _]].
  { rewrite Vh. change (V (d1 x) * / 2) with (V (d1 x) / 2). lra. }
  rewrite Vh in Vb. change (V (d1 x) * / 2) with (V (d1 x) / 2) in Vb.
  assert (E1 : Rabs (rn (V (d1 x) / 2) - V (d1 x) / 2) <= bp (-1075) /\ rn (V (d0 x) / 2 + rn (V (d1 x) / 2)) = V (d0 x) / 2).
  { destruct (Rle_or_lt (bp (-1021)) (Rabs (V (d1 x)))) as [G|G].
    - assert (B21 : bp (-1021) / 2 = bp (-1022)) by (rewrite <- bm1', <- bpow_plus; reflexivity).
      assert (B21' : bp (-1022) <= bp (-1021)) by (apply bpow_le; lia).
      assert (X : rn (V (d1 x) / 2) = V (d1 x) / 2).
      { rewrite <- bm1'. rewrite rn_scale; [now rewrite (rn_id _ (V_fmt _))|lra|]. rewrite bm1'. unfold Rdiv. rewrite Rabs_mult, (Rabs_pos_eq (/ 2)) by lra. lra. }
      rewrite X, Rminus_diag_eq, Rabs_R0 by reflexivity. split; [apply bpow_ge_0|].
      replace (V (d0 x) / 2 + V (d1 x) / 2) with ((V (d0 x) + V (d1 x)) * bp (-1)) by (rewrite bm1'; field).
      assert (S : bp (-890) / 2 <= Rabs (V (d0 x) + V (d1 x))).
      { assert (K := Rabs_triang_inv (V (d0 x)) (- V (d1 x))). rewrite Rabs_Ropp in K. replace (V (d0 x) - - V (d1 x)) with (V (d0 x) + V (d1 x)) in K by ring. lra. }
      rewrite rn_scale, Nn, bm1'; [reflexivity|lra|]. rewrite bm1'. unfold Rdiv at 1. rewrite Rabs_mult, (Rabs_pos_eq (/ 2)) by lra. lra.
    - assert (E : Rabs (rn (V (d1 x) / 2) - V (d1 x) / 2) <= bp (-1075)).
      { apply sub_err. unfold Rdiv. rewrite Rabs_mult, (Rabs_pos_eq (/ 2)) by lra. assert (bp (-1021) / 2 = bp (-1022)) by (rewrite <- bm1', <- bpow_plus; reflexivity). lra. }
      split; [exact E|]. apply rn_absorb.
      + rewrite <- H0. apply rn_fmt.
      + intros Z. assert (V (d0 x) = 0) by lra. rewrite H, Rabs_R0 in L. lra.
      + assert (K : Rabs (rn (V (d1 x) / 2)) <= bp (-1021)).
        { apply rn_abs_le; [apply fmt_bpow; lia|]. unfold Rdiv. rewrite Rabs_mult, (Rabs_pos_eq (/ 2)) by lra. assert (Q := Rabs_pos (V (d1 x))). lra. }
        assert (bp (-1021) * 8 = bp (-1018)) by (change 8 with (bp 3); rewrite <- bpow_plus; reflexivity).
        assert (u * (bp (-890) / 2) = bp (-944)) by (rewrite <- bm1', <- u_bp, <- !bpow_plus; reflexivity).
        assert (bp (-1018) <= bp (-944)) by (apply bpow_le; lia).
        unfold Rdiv. rewrite Rabs_mult, (Rabs_pos_eq (/ 2)) by lra. lra.
      + unfold Rdiv. rewrite Rabs_mult, (Rabs_pos_eq (/ 2)) by lra.
        assert (bp (-890) / 2 = bp (-891)) by (rewrite <- bm1', <- bpow_plus; reflexivity).
        assert (bp (-902) <= bp (-891)) by (apply bpow_le; lia). lra. }
  destruct E1 as [E1 E2]. split; [|split].
  - split; [split; [exact Fa|exact Fb]|]. unfold DV; cbn [d0 d1]. rewrite Va, Vb. symmetry. exact E2.
  - exact Va.
  - unfold DV; cbn [d0 d1]. rewrite Va, Vb. replace (V (d0 x) / 2 + rn (V (d1 x) / 2) - (V (d0 x) + V (d1 x)) / 2) with (rn (V (d1 x) / 2) - V (d1 x) / 2) by field. exact E1.
Qed.


(** ** words that are all tiny, normalized or not *)
Definition TD (k : Z) (x : Double) : Prop := Bd (bp k) (d0 x) /\ Bd (bp k) (d1 x).
Lemma Bd_up k l a : (k <= l)%Z -> Bd (bp k) a -> Bd (bp l) a.
Proof. intros H [F B]. split; [exact F|]. apply Rle_trans with (1 := B). now apply bpow_le. Qed.
Lemma TD_up k l x : (k <= l)%Z -> TD k x -> TD l x.
Proof. intros H [A B]. split; now apply (Bd_up k). Qed.
Lemma quick_td k a b : (-1000 <= k <= 900)%Z -> Bd (bp k) a -> Bd (bp k) b ->
  Bd (bp (k + 3)) (fst (quick_two_sum a b)) /\ Bd (bp (k + 3)) (snd (quick_two_sum a b)).
Proof.
  intros Hk A B. unfold quick_two_sum. cbn [fst snd].
  destruct (Bd_add k a b ltac:(lia) A B) as [S _]. split; [apply (Bd_up (k + 1)); [lia|exact S]|].
  destruct (Bd_sub (k + 1) (fadd a b) a ltac:(lia) S (Bd_up k (k + 1) a ltac:(lia) A)) as [T _].
  destruct (Bd_sub (k + 1 + 1) b (fsub (fadd a b) a) ltac:(lia) (Bd_up k (k + 1 + 1) b ltac:(lia) B) T) as [W _].
  apply (Bd_up (k + 1 + 1 + 1)); [lia|exact W].
Qed.
Lemma two_sum_td k a b : (-1000 <= k <= 900)%Z -> Bd (bp k) a -> Bd (bp k) b ->
  Bd (bp (k + 1)) (fst (two_sum a b)) /\ Bd (bp (k + 1)) (snd (two_sum a b)).
Proof.
  intros Hk A B.
  destruct (two_sum_ok a b (Bd_up k 1018 a ltac:(lia) A) (Bd_up k 1018 b ltac:(lia) B)) as [F1 [F2 [E1 E2]]].
  destruct A as [Fa Ba], B as [Fb Bb].
  assert (K : Rabs (V a + V b) <= bp (k + 1)). { rewrite bp_S. assert (K := Rabs_triang (V a) (V b)). lra. }
  split; split; auto.
  - rewrite E1. apply rn_abs_le; [apply fmt_bpow; lia|exact K].
  - rewrite E2. apply Rle_trans with (2 := K). apply Rle_trans with (1 := err_le0 (V a + V b) 0 fmt_0). rewrite Rminus_0_r. lra.
Qed.
Lemma TD_add k x y : (-900 <= k <= 800)%Z -> TD k x -> TD k y -> TD (k + 9) (d_add x y).
Proof.
  intros Hk [X0 X1] [Y0 Y1]. unfold d_add. rewrite d_pre_add_fin by (apply X0 || apply Y0). cbn [from_pre].
  destruct (two_sum_td k (d0 x) (d0 y) ltac:(lia) X0 Y0) as [S0 E0]. destruct (two_sum (d0 x) (d0 y)) as [s0 e0]. cbn [fst snd] in *.
  destruct (two_sum_td k (d1 x) (d1 y) ltac:(lia) X1 Y1) as [S1 E1]. destruct (two_sum (d1 x) (d1 y)) as [s1 e1]. cbn [fst snd] in *.
  destruct (Bd_add (k + 1) s1 e0 ltac:(lia) S1 E0) as [C _].
  destruct (quick_td (k + 2) s0 (fadd s1 e0) ltac:(lia) (Bd_up (k + 1) (k + 2) _ ltac:(lia) S0)) as [S2 E2]; [replace (k + 2)%Z with (k + 1 + 1)%Z by lia; exact C|].
  destruct (quick_two_sum s0 (fadd s1 e0)) as [s2 e2]. cbn [fst snd] in *.
  destruct (Bd_add (k + 5) e1 e2 ltac:(lia) (Bd_up (k + 1) (k + 5) _ ltac:(lia) E1)) as [C2 _]; [replace (k + 5)%Z with (k + 2 + 3)%Z by lia; exact E2|].
  unfold renorm2. destruct (quick_td (k + 6) s2 (fadd e1 e2) ltac:(lia)) as [R0 R1].
  { apply (Bd_up (k + 2 + 3)); [lia|exact S2]. } { replace (k + 6)%Z with (k + 5 + 1)%Z by lia. exact C2. }
  destruct (quick_two_sum s2 (fadd e1 e2)) as [a b]. cbn [fst snd] in *. split; cbn [d0 d1]; apply (Bd_up (k + 6 + 3)); [lia|exact R0|lia|exact R1].
Qed.
Lemma mul_td k a b : (-900 <= k <= 800)%Z -> Bd (bp k) a -> Bd (bp 0) b -> Bd (bp k) (fmul a b) /\ Rabs (V a * V b) <= bp k.
Proof.
  intros H [Fa Ba] [Fb Bb].
  assert (K : Rabs (V a * V b) <= bp k).
  { rewrite Rabs_mult. rewrite <- (Rmult_1_r (bp k)). apply Rmult_le_compat; auto using Rabs_pos. }
  split; [apply (mul_Bd k a b ltac:(lia) Fa Fb K)|exact K].
Qed.
Lemma TD_mul k x y : (-900 <= k <= 800)%Z -> TD k x -> TD 0 y -> TD (k + 5) (d_mul x y).
Proof.
  intros Hk [X0 X1] [Y0 Y1]. destruct (Req_dec (V (d0 x)) 0) as [Z|Z].
  { unfold d_mul. rewrite (d_pre_mul_zero x y (proj1 X0) (proj1 Y0) Z). cbn [from_pre]. destruct (Bool.eqb _ _); split; split; try reflexivity;
      change (Rabs 0 <= bp (k + 5)); rewrite Rabs_R0; apply bpow_ge_0. }
  unfold d_mul. rewrite d_pre_mul_fin by (apply X0 || apply Y0 || exact Z). cbn [from_pre].
  destruct (mul_td k _ _ Hk X0 Y0) as [_ BP].
  destruct (two_prod_m k (d0 x) (d0 y) ltac:(lia) (proj1 X0) (proj1 Y0) BP) as [Fp [Fe [Ep Ee]]].
  destruct (two_prod (d0 x) (d0 y)) as [p e]. cbn [fst snd] in *.
  assert (P : Bd (bp k) p). { split; [exact Fp|]. rewrite Ep. apply rn_abs_le; [apply fmt_bpow; lia|exact BP]. }
  assert (E : Bd (bp k) e).
  { split; [exact Fe|]. rewrite Ee. apply rn_abs_le; [apply fmt_bpow; lia|]. apply Rle_trans with (2 := BP).
    apply Rle_trans with (1 := err_le0 (V (d0 x) * V (d0 y)) 0 fmt_0). rewrite Rminus_0_r. lra. }
  destruct (mul_td k _ _ Hk X0 Y1) as [M1 _]. destruct (mul_td k _ _ Hk X1 Y0) as [M2 _].
  destruct (Bd_add k e (fmul (d0 x) (d1 y)) ltac:(lia) E M1) as [T _].
  destruct (Bd_add (k + 1) (fadd e (fmul (d0 x) (d1 y))) (fmul (d1 x) (d0 y)) ltac:(lia) T (Bd_up k (k + 1) _ ltac:(lia) M2)) as [T2 _].
  unfold renorm2. destruct (quick_td (k + 2) p (fadd (fadd e (fmul (d0 x) (d1 y))) (fmul (d1 x) (d0 y))) ltac:(lia)) as [R0 R1].
  { apply (Bd_up k); [lia|exact P]. } { replace (k + 2)%Z with (k + 1 + 1)%Z by lia. exact T2. }
  destruct (quick_two_sum p _) as [a b]. cbn [fst snd] in *. split; cbn [d0 d1]; apply (Bd_up (k + 2 + 3)); [lia|exact R0|lia|exact R1].
Qed.
Lemma TD_sqr k x : (-900 <= k <= -2)%Z -> TD k x -> TD (k + 5) (d_sqr x).
Proof.
  intros Hk [X0 X1]. assert (Y0 := Bd_up k 0 _ ltac:(lia) X0). assert (Y1 := Bd_up k 0 _ ltac:(lia) X1).
  assert (PRE : d_pre_sqr x = None).
  { unfold d_pre_sqr, d_is_infinite. now rewrite (Fin_inf _ (proj1 X0)). }
  unfold d_sqr. rewrite PRE. cbn [from_pre]. change (two_sqr (d0 x)) with (two_prod (d0 x) (d0 x)).
  destruct (mul_td k _ _ ltac:(lia) X0 Y0) as [_ BP].
  destruct (two_prod_m k (d0 x) (d0 x) ltac:(lia) (proj1 X0) (proj1 Y0) BP) as [Fp [Fe [Ep Ee]]].
  destruct (two_prod (d0 x) (d0 x)) as [p e]. cbn [fst snd] in *.
  assert (P : Bd (bp k) p). { split; [exact Fp|]. rewrite Ep. apply rn_abs_le; [apply fmt_bpow; lia|exact BP]. }
  assert (E : Bd (bp k) e).
  { split; [exact Fe|]. rewrite Ee. apply rn_abs_le; [apply fmt_bpow; lia|]. apply Rle_trans with (2 := BP).
    apply Rle_trans with (1 := err_le0 (V (d0 x) * V (d0 x)) 0 fmt_0). rewrite Rminus_0_r. lra. }
  assert (TX : Bd (bp 0) (fmul f2 (d0 x))).
  { apply (mul_Bd 0 f2 (d0 x) ltac:(lia) Fin_2 (proj1 X0)). rewrite V_2, Rabs_mult, (Rabs_pos_eq 2) by lra.
    destruct X0 as [_ B]. assert (bp k <= bp (-2)) by (apply bpow_le; lia). change (bp (-2)) with (/ 4) in *. change (bp 0) with 1. lra. }
  destruct (mul_td k _ _ ltac:(lia) X1 TX) as [_ M1']. destruct (mul_td k _ _ ltac:(lia) X1 Y1) as [M2 _].
  assert (M1 : Bd (bp k) (fmul (fmul f2 (d0 x)) (d1 x))).
  { apply (mul_Bd k _ _ ltac:(lia) (proj1 TX) (proj1 X1)). rewrite Rmult_comm. exact M1'. }
  destruct (Bd_add k e _ ltac:(lia) E M1) as [T _].
  destruct (Bd_add (k + 1) _ (fmul (d1 x) (d1 x)) ltac:(lia) T (Bd_up k (k + 1) _ ltac:(lia) M2)) as [T2 _].
  unfold renorm2. destruct (quick_td (k + 2) p (fadd (fadd e (fmul (fmul f2 (d0 x)) (d1 x))) (fmul (d1 x) (d1 x))) ltac:(lia)) as [R0 R1].
  { apply (Bd_up k); [lia|exact P]. } { replace (k + 2)%Z with (k + 1 + 1)%Z by lia. exact T2. }
  destruct (quick_two_sum p _) as [a b]. cbn [fst snd] in *. split; cbn [d0 d1]; apply (Bd_up (k + 2 + 3)); [lia|exact R0|lia|exact R1].
Qed.
Lemma TD_pwr2 k x f : (-900 <= k <= 800)%Z -> TD k x -> Bd (bp 0) f -> TD k (d_mul_pwr2 x f).
Proof. intros Hk [X0 X1] F. split; cbn [d_mul_pwr2 d0 d1]; now apply mul_td. Qed.
Lemma TD_twice k x : (-900 <= k <= 800)%Z -> TD k x -> TD (k + 1) (d_mul_pwr2 x f2).
Proof.
  intros Hk [X0 X1]. assert (M : forall a, Bd (bp k) a -> Bd (bp (k + 1)) (fmul a f2)).
  { intros a [F B]. apply (mul_Bd (k + 1) a f2 ltac:(lia) F Fin_2). rewrite V_2, Rabs_mult, (Rabs_pos_eq 2) by lra. rewrite bp_S. lra. }
  split; cbn [d_mul_pwr2 d0 d1]; now apply M.
Qed.
(** 1 + tiny *)
Lemma TD_one k x : (-900 <= k <= -100)%Z -> TD k x -> DNorm (d_add x D_ONE) /\ Rabs (DV (d_add x D_ONE) - 1) <= bp (k + 4).
Proof.
  intros Hk [X0 X1]. unfold d_add. rewrite d_pre_add_fin; [|apply X0|reflexivity]. cbn [from_pre].
  assert (V1 : V (d0 D_ONE) = 1) by (apply V_1). assert (V0 : V (d1 D_ONE) = 0) by reflexivity.
  assert (B1 : Bd (bp 0) (d0 D_ONE)). { split; [reflexivity|]. rewrite V1, Rabs_R1. cbn. lra. }
  destruct (two_sum_ok (d0 x) (d0 D_ONE) (Bd_up k 1018 _ ltac:(lia) X0) (Bd_up 0 1018 _ ltac:(lia) B1)) as [F1 [F2 [E1 E2]]].
  destruct (two_sum (d0 x) (d0 D_ONE)) as [s0 e0]. cbn [fst snd] in *.
  assert (B0 : Bd (bp k) (d1 D_ONE)). { split; [reflexivity|]. rewrite V0, Rabs_R0. apply bpow_ge_0. }
  destruct (two_sum_ok (d1 x) (d1 D_ONE) (Bd_up k 1018 _ ltac:(lia) X1) (Bd_up k 1018 _ ltac:(lia) B0)) as [F3 [F4 [E3 E4]]].
  destruct (two_sum (d1 x) (d1 D_ONE)) as [s1 e1]. cbn [fst snd] in *.
  rewrite V1 in E1, E2. rewrite V0, Rplus_0_r, rn_id in E3, E4 by auto with fmt. rewrite Rminus_diag_eq in E4 by reflexivity.
  assert (S1 : Bd (bp k) s1) by (split; [exact F3|rewrite E3; apply X1]).
  assert (E0 : Bd (bp k) e0).
  { split; [exact F2|]. rewrite E2. apply Rle_trans with (1 := err_le0 (V (d0 x) + 1) 1 (fmt_bpow 0 ltac:(lia))). replace (V (d0 x) + 1 - 1) with (V (d0 x)) by ring. apply X0. }
  destruct (Bd_add k s1 e0 ltac:(lia) S1 E0) as [C EC]. set (c := fadd s1 e0) in *.
  assert (PK : bp (k + 4) <= / 16). { change (/ 16) with (bp (-4)). apply bpow_le. lia. }
  assert (PK4 : bp (k + 4) = 8 * bp (k + 1)) by (replace (k + 4)%Z with (k + 1 + 3)%Z by lia; exact (bp_split (k + 1) 3 ltac:(lia))).
  assert (P1 := bpow_gt_0 radix2 k). assert (PK1 : bp (k + 1) = 2 * bp k) by apply bp_S.
  assert (S0 : Rabs (V s0 - 1) <= bp (k + 1)).
  { replace (V s0 - 1) with (V (d0 x) - V e0) by (rewrite E2, E1; ring). rewrite bp_S. destruct X0 as [_ K1], E0 as [_ K2].
    assert (K := Rabs_triang (V (d0 x)) (- V e0)). rewrite Rabs_Ropp in K. unfold Rminus. lra. }
  assert (S0' : 1 / 2 <= Rabs (V s0) <= 2).
  { apply Rabs_def2' in S0. rewrite Rabs_pos_eq; lra. }
  assert (BS0 : Bd M18 s0). { split; [exact F1|]. apply Rle_trans with (bp 1); [cbn; lra|apply bpow_le; lia]. }
  assert (QC : Rabs (V c) <= Rabs (V s0)) by (destruct C as [_ C]; lra).
  destruct (quick_ok s0 c BS0 (Bd_up (k + 1) 1018 _ ltac:(lia) C) (or_introl QC)) as [F5 [F6 [E5 E6]]].
  destruct (quick_two_sum s0 c) as [s2 e2]. cbn [fst snd] in *.
  assert (C' := C). destruct C as [Fc Bc].
  assert (BE2 : Bd (bp (k + 1)) e2).
  { split; [exact F6|]. rewrite E6. assert (FS : RN.fmt (V s0)) by auto with fmt. apply Rle_trans with (1 := err_le0 (V s0 + V c) (V s0) FS).
    replace (V s0 + V c - V s0) with (V c) by ring. exact Bc. }
  assert (B41 : Bd (bp (k + 1)) e1). { split; [exact F4|]. rewrite E4, Rabs_R0. apply bpow_ge_0. }
  destruct (Bd_add (k + 1) e1 e2 ltac:(lia) B41 BE2) as [C2 EC2].
  rewrite E4, Rplus_0_l, rn_id in EC2 by auto with fmt.
  assert (S2 : Rabs (V s2 - V s0) <= bp (k + 2)).
  { replace (V s2 - V s0) with (V c - V e2) by (rewrite E6, E5; ring). replace (k + 2)%Z with (k + 1 + 1)%Z by lia. rewrite bp_S. destruct BE2 as [_ K2].
    assert (K := Rabs_triang (V c) (- V e2)). rewrite Rabs_Ropp in K. unfold Rminus. lra. }
  assert (PK2 : bp (k + 2) = 4 * bp k) by exact (bp_split k 2 ltac:(lia)).
  assert (BS2 : Bd M18 s2 /\ / 4 <= Rabs (V s2)).
  { apply Rabs_def2' in S2. apply Rabs_def2' in S0. assert (H : / 4 <= V s2 <= 2) by lra. rewrite Rabs_pos_eq by lra. split; [split; [exact F5|]|lra].
    rewrite Rabs_pos_eq by lra. apply Rle_trans with (bp 1); [cbn; lra|apply bpow_le; lia]. }
  destruct (renorm_tail s2 (fadd e1 e2)) as [R1 [R2 _]].
  { apply BS2. } { apply (Bd_up (k + 1 + 1)); [lia|exact C2]. } { rewrite EC2. destruct BE2 as [_ K2]. lra. }
  split; [exact R1|]. rewrite R2, EC2, E6, E5. replace (rn (V s0 + V c) + (V s0 + V c - rn (V s0 + V c)) - 1) with ((V s0 - 1) + V c) by ring.
  assert (K := Rabs_triang (V s0 - 1) (V c)). lra.
Qed.
