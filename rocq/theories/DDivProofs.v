(** * Double division and squaring (lemmas) *)
From Coq Require Import ZArith Reals Lra Lia Psatz Bool.
From Flocq Require Import Core IEEE754.BinarySingleNaN.
From Verif Require Import RN F64 Prim DoubleM Spec F64Facts EFT DWAdd DAddProofs DMulProofs ExactProofs OrderProofs.
Local Open Scope R_scope.

Lemma err_le0 x y : fmt y -> Rabs (x - rn x) <= Rabs (x - y).
Proof.
  intros F. assert (N := proj2 (round_N_pt radix2 fexp64 (fun x => negb (Z.even x)) x) y F).
  change (round _ _ _ _) with (rn x) in N. rewrite Rabs_minus_sym, (Rabs_minus_sym x y). exact N.
Qed.
Lemma bp1075 : bp (-1075) = / 2 * bp (-1074). Proof. exact (bpow_plus radix2 (-1) (-1074)). Qed.
Lemma rn_1075 : rn (bp (-1075)) = 0.
Proof.
  unfold round. unfold scaled_mantissa. assert (E : cexp radix2 fexp64 (bp (-1075)) = (-1074)%Z) by (rewrite cexp64, mag_bpow; reflexivity).
  rewrite E, <- bpow_plus. change (-1075 + - -1074)%Z with (-1)%Z.
  replace (ZnearestE (bp (-1))) with 0%Z. unfold F2R; simpl; ring.
  symmetry. change (bp (-1)) with (/ 2). unfold Znearest. rewrite (Zfloor_imp 0) by (simpl; lra). rewrite Rcompare_Eq by (simpl; lra). reflexivity.
Qed.
Lemma rn_tiny T : Rabs T <= bp (-1075) -> rn T = 0.
Proof.
  intros H. apply Rabs_le_inv in H. apply Rle_antisym.
  - rewrite <- rn_1075. now apply rn_le.
  - rewrite <- (Ropp_involutive (rn T)), <- rn_opp. rewrite <- Ropp_0. apply Ropp_le_contravar. rewrite <- rn_1075. apply rn_le. lra.
Qed.
Lemma sub_err x : Rabs x < bp (-1022) -> Rabs (rn x - x) <= bp (-1075).
Proof.
  intros H. destruct (Req_dec x 0) as [->|N]. { rewrite rn_0, Rminus_0_r, Rabs_R0. apply bpow_ge_0. }
  assert (K := error_le_half_ulp radix2 fexp64 (fun x => negb (Z.even x)) x). change (round _ _ _ _) with (rn x) in K.
  rewrite ulp_neq_0 in K by easy. replace (cexp radix2 fexp64 x) with (-1074)%Z in K. now rewrite bp1075.
  rewrite cexp64. assert (mag radix2 x <= -1022)%Z by (apply mag_le_bpow; auto). lia.
Qed.

(** a Double times an f64, with an absolute term for underflow *)
Lemma d_mul_f64_ok y q : DNorm y -> Fin q -> Rabs (V (d0 y) * V q) <= bp 1014 ->
  DNorm (d_mul_f64 y q) /\
  Rabs (DV (d_mul_f64 y q) - DV y * V q) <= 5 * u * u * Rabs (V (d0 y) * V q) + bp (-1073).
Proof.
  intros Ny Fq B. assert (Ly := DNorm_lo y Ny). destruct Ny as [[Fy0 Fy1] Ny].
  unfold d_mul_f64.
  destruct (two_prod_m 1014 (d0 y) q ltac:(lia) Fy0 Fq B) as [Fp [Fe [Ep Ee]]].
  destruct (two_prod (d0 y) q) as [p e]. cbn [fst snd] in *.
  set (Y := V (d0 y)) in *. set (yl := V (d1 y)) in *. set (Q := V q) in *. set (P := Y * Q) in *.
  assert (B1 : Rabs (yl * Q) <= u * Rabs P). { unfold P. rewrite !Rabs_mult. assert (Pa := Rabs_pos Q). nra. }
  assert (PP := Rabs_pos P).
  destruct (mul_Bd 1014 (d1 y) q ltac:(lia) Fy1 Fq) as [[Fm Bm] Em]; [fold yl Q; lra|].
  fold yl Q in Em. set (m := fmul (d1 y) q) in *.
  assert (Bp : Rabs (V p) <= bp 1014). { rewrite Ep. apply rn_abs_le; auto. apply fmt_bpow; lia. }
  assert (Be : Rabs (V e) <= bp 1015).
  { rewrite Ee. apply rn_abs_le. apply fmt_bpow; lia. change 1015%Z with (1014 + 1)%Z. rewrite bp_S. rewrite <- Ep.
    assert (K' := Rabs_triang P (- V p)). rewrite Rabs_Ropp in K'. unfold Rminus. lra. }
  destruct (Bd_add 1015 e m ltac:(lia)) as [[Ft Bt] Et]; [now split|split; auto; apply Rle_trans with (1 := Bm); apply bpow_le; lia|].
  set (t := fadd e m) in *.
  set (h := bp (-1075)). assert (Hh : 0 < h) by apply bpow_gt_0.
  assert (H4 : bp (-1073) = 4 * h). { unfold h. rewrite bp1075. change (-1073)%Z with (-1074 + 1)%Z. rewrite bp_S. lra. }
  assert (HB : h = u * bp (-1022)) by (unfold h; rewrite <- u_bp, <- bpow_plus; f_equal).
  assert (RE : forall z, Rabs (rn z - z) <= u * Rabs z + h) by (intros z; apply rn_err).
  assert (RT : forall z, Rabs z <= h -> rn z = 0) by (intros z; apply rn_tiny).
  assert (RS : forall z, Rabs z < bp (-1022) -> Rabs (rn z - z) <= h) by (intros z; apply sub_err).
  clearbody h.
  assert (E1 : Rabs (V p - P) <= u * Rabs P + h) by (rewrite Ep; apply RE).
  assert (E1' : Rabs (P - V p) <= u * Rabs P + h) by (now rewrite Rabs_minus_sym).
  assert (E2 := RE (P - V p)). rewrite <- Ep in Ee. rewrite <- Ee in E2.
  assert (E3 := RE (yl * Q)). rewrite <- Em in E3.
  assert (S : Rabs (V e + V m) <= 3 * u * Rabs P + 4 * h).
  { assert (K1 := tri _ _ _ _ E2 (Rle_refl _)). assert (K2 := tri _ _ _ _ E3 (Rle_refl _)). assert (K3 := Rabs_triang (V e) (V m)). lra. }
  assert (E4 : Rabs (V t - (V e + V m)) <= u * (3 * u * Rabs P + 4 * h)).
  { rewrite Et. apply plus_rel; auto with fmt. }
  assert (T : Rabs (V t) <= Rabs (V p)).
  { destruct (Rle_or_lt (bp (-1022)) (Rabs P)) as [G|G].
    - assert (K := tri _ _ _ _ E4 S). assert (R := rn_rel P G). rewrite <- Ep in R.
      assert (K' := tri2 _ _ _ _ R (Rle_refl (Rabs (V p)))).
      assert (h <= u * Rabs P) by lra. lra.
    - assert (G1 := RS P G). rewrite <- Ep, Rabs_minus_sym in G1. assert (Ze : V e = 0) by (rewrite Ee; now apply RT).
      assert (Zm : V m = 0). { rewrite Em. apply RT. apply Rle_trans with (1 := B1). lra. }
      rewrite Et, Ze, Zm, Rplus_0_r, rn_0, Rabs_R0. apply Rabs_pos. }
  assert (B18 : bp 1016 <= M18) by (apply bpow_le; lia). assert (B14 : bp 1014 <= M18) by (apply bpow_le; lia).
  destruct (renorm_tail p t) as [R1 [R2 _]]; auto.
  { split; auto. lra. } { split; auto. change (1015 + 1)%Z with 1016%Z in Bt. lra. }
  split; [exact R1|]. rewrite R2, H4.
  replace (V p + V t - DV y * Q) with ((V t - (V e + V m)) + (V e - (P - V p)) + (V m - yl * Q)) by (unfold DV, P; fold Y yl; ring).
  eapply Rle_trans. { repeat (apply triP; eauto). } lra.
Qed.

(** a much smaller addend is absorbed *)
Lemma rn_absorb a y : fmt a -> a <> 0 -> 8 * Rabs y <= u * Rabs a -> bp (-902) <= Rabs a -> rn (a + y) = a.
Proof.
  intros F N H B. assert (K := err_le0 (a + y) a F). replace (a + y - a) with y in K by ring.
  destruct (Req_dec (rn (a + y) - a) 0) as [Zz|Zz]; [lra|exfalso].
  assert (Pa := Rabs_pos a). assert (Py := Rabs_pos y).
  assert (D : Rabs (rn (a + y) - a) <= 2 * Rabs y).
  { replace (rn (a + y) - a) with (y + - (a + y - rn (a + y))) by ring. assert (T := Rabs_triang y (- (a + y - rn (a + y)))). rewrite Rabs_Ropp in T. lra. }
  set (k := (mag radix2 a - 54)%Z).
  assert (KM := mag_ge_bpow radix2 a (-901) B).
  assert (C1 : mult2 k a). { apply mult2_le with (cexp radix2 fexp64 a); [|now apply mult2_cexp]. rewrite cexp64. unfold k. lia. }
  assert (BM := bpow_mag_le radix2 a N). assert (BG := bpow_mag_gt radix2 a).
  assert (C2 : mult2 k (rn (a + y))).
  { apply mult2_le with (cexp radix2 fexp64 (rn (a + y))); [|now apply mult2_cexp, rn_fmt]. rewrite cexp64.
    assert (L : bp (mag radix2 a - 2) <= Rabs (rn (a + y))).
    { apply rn_abs_ge. apply fmt_bpow; lia. replace (bp (mag radix2 a - 1)) with (2 * bp (mag radix2 a - 2)) in BM.
      2: { replace (mag radix2 a - 1)%Z with (mag radix2 a - 2 + 1)%Z by ring. symmetry. apply bp_S. }
      assert (T := Rabs_triang_inv a (- y)). rewrite Rabs_Ropp in T. replace (a - - y) with (a + y) in T by ring. lra. }
    assert (M := mag_ge_bpow radix2 (rn (a + y)) (mag radix2 a - 1)).
    replace (mag radix2 a - 1 - 1)%Z with (mag radix2 a - 2)%Z in M by ring. specialize (M L). unfold k. lia. }
  assert (G := mult2_ge k _ (mult2_minus _ _ _ C2 C1) Zz).
  assert (E : bp (mag radix2 a) = 18014398509481984 * bp k).
  { unfold k. replace (mag radix2 a : Z) with (54 + (mag radix2 a - 54))%Z at 1 by ring. rewrite bpow_plus. f_equal. }
  lra.
Qed.

Lemma div_err a Y q e f : Y <> 0 -> Rabs (q - a / Y) <= e * Rabs (a / Y) + f -> Rabs (Y * q - a) <= e * Rabs a + f * Rabs Y.
Proof.
  intros N H. replace (Y * q - a) with ((q - a / Y) * Y) by (field; auto).
  replace (e * Rabs a) with (e * Rabs (a / Y) * Rabs Y).
  2: { rewrite Rmult_assoc, <- Rabs_mult. do 2 f_equal. field; auto. }
  rewrite Rabs_mult, <- Rmult_plus_distr_r. apply Rmult_le_compat_r; auto. apply Rabs_pos.
Qed.

Definition div_window (a b : R) : Prop :=
  a = 0 \/ (bp (-900) <= Rabs a <= bp 1010 /\ bp (-900) <= Rabs (a / b) <= bp 1010).

(** one quotient digit and the new remainder: [r] is any Double, [X] the scale *)
Lemma fdiv_B a b B : Fin a -> Fin b -> V b <> 0 -> Rabs (V a / V b) <= B -> fmt B -> B < bp 1024 ->
  Fin (fdiv a b) /\ V (fdiv a b) = rn (V a / V b) /\ Rabs (V (fdiv a b)) <= B.
Proof.
  intros Fa Fb N H FB HB. destruct (fdiv_ok a b Fa N) as [K1 [K2 _]].
  { apply Rlt_ovf with B; auto. }
  split; [auto|split; [auto|]]. rewrite K2. now apply rn_abs_le.
Qed.

Lemma renorm3_absorb a b c : Bd M18 a -> Bd M18 b -> Fin c -> Rabs (V b) <= Rabs (V a) ->
  let U := rn (V a + V b) in U <> 0 -> bp (-902) <= Rabs U -> Rabs U <= bp 1012 -> 8 * Rabs (V c) <= u * Rabs U ->
  DNorm (let '(r, s) := renorm3 a b c in mkD r s) /\
  DV (let '(r, s) := renorm3 a b c in mkD r s) = V a + V b.
Proof.
  intros Ba Bb Fc H U NU LU BU HC. unfold renorm3.
  destruct (quick_ok a b Ba Bb (or_introl H)) as [Fs [Fv [Es Ev]]].
  destruct (quick_two_sum a b) as [s v]. cbn [fst snd] in *. fold U in Es, Ev.
  assert (FU : fmt U) by apply rn_fmt. assert (L1 : bp 1012 < bp 1024) by (apply bpow_lt; lia).
  assert (A1 : rn (V c + U) = U). { rewrite Rplus_comm. now apply rn_absorb. }
  assert (A2 : rn (U - V c) = U). { unfold Rminus. apply rn_absorb; auto. now rewrite Rabs_Ropp. }
  assert (Lt : Rabs U < bp 1024) by lra.
  assert (Hs : FV s U) by now split.
  assert (Hv : FV v (V a + V b - U)) by now split.
  assert (Hc : FV c (V c)) by now split.
  unfold quick_two_sum.
  assert (S1 : FV (fadd c s) U) by (eapply FV_add; eauto).
  assert (S2 : FV (fsub (fadd c s) c) U) by (eapply FV_sub; eauto).
  assert (S3 : FV (fsub s (fsub (fadd c s) c)) 0) by (eapply FV_sub_self; eauto).
  assert (S4 := FV_add_0r _ _ _ Hv S3).
  set (aa := fadd c s) in *. set (bb := fadd v _) in *.
  assert (N : rn (U + (V a + V b - U)) = U) by (replace (U + (V a + V b - U)) with (V a + V b) by ring; reflexivity).
  assert (K := quick_norm _ _ _ _ S1 S4 N).
  unfold quick_two_sum in K. set (tt' := fsub bb _) in *. set (r := fadd aa bb) in *. destruct K as [[K1 K2] [K3 K4]]. cbn [fst snd] in *.
  split. { apply DNorm_mk with (V a + V b); [exact K1|exact K3|exact K2|exact K4]. }
  unfold DV; cbn [d0 d1]. rewrite K2, K4. ring.
Qed.

Lemma d_div_zero x y : DNorm x -> DNorm y -> V (d0 y) <> 0 -> V (d0 x) = 0 -> DFV (d_div x y) 0 0.
Proof.
  intros Nx Ny NZ Zx. assert (Zx1 := DNorm_zero x Zx Nx). destruct Nx as [[F0 F1] _], Ny as [[G0 G1] _].
  assert (X : DFV x 0 0) by (split; now split). assert (Y : DFV y (V (d0 y)) (V (d1 y))) by (split; now split).
  unfold d_div. rewrite d_pre_div_fin by auto. cbn [from_pre].
  assert (Q1 : FV (fdiv (d0 x) (d0 y)) 0) by (eapply FV_div_0l; [apply X|apply Y|easy]).
  set (q1 := fdiv (d0 x) (d0 y)) in *.
  assert (M1 := DFV_mulf_0r _ _ _ _ Y Q1).
  assert (R1 := DFV_sub_self _ _ _ _ X M1).
  set (r1 := d_sub x (d_mul_f64 y q1)) in *.
  assert (Q2 : FV (fdiv (d0 r1) (d0 y)) 0) by (eapply FV_div_0l; [apply R1|apply Y|easy]).
  set (q2 := fdiv (d0 r1) (d0 y)) in *.
  assert (M2 := DFV_mulf_0r _ _ _ _ Y Q2).
  assert (R2 := DFV_sub_self _ _ _ _ R1 M2).
  assert (Q3 : FV (fdiv (d0 (d_sub r1 (d_mul_f64 y q2))) (d0 y)) 0) by (eapply FV_div_0l; [apply R2|apply Y|easy]).
  unfold renorm3. repeat fvstep. split; fvs.
Qed.

Lemma DNorm_hi_le x B : DNorm x -> fmt B -> Rabs (DV x) <= B -> Rabs (V (d0 x)) <= B.
Proof. intros [_ N] F H. unfold RN in N. rewrite N. now apply rn_abs_le. Qed.
Lemma DNorm_hi_rel x : DNorm x -> Rabs (V (d0 x)) <= (1 + 2 * u) * Rabs (DV x).
Proof.
  intros N. assert (L := DNorm_lo x N). assert (K := Rabs_triang (DV x) (- V (d1 x))). rewrite Rabs_Ropp in K.
  replace (DV x + - V (d1 x)) with (V (d0 x)) in K by (unfold DV; ring). assert (P := Rabs_pos (DV x)). assert (P' := Rabs_pos (V (d0 x))). lra.
Qed.
Lemma DNorm_val_rel x : DNorm x -> Rabs (DV x - V (d0 x)) <= u * Rabs (V (d0 x)).
Proof. intros N. assert (L := DNorm_lo x N). replace (DV x - V (d0 x)) with (V (d1 x)) by (unfold DV; ring). exact L. Qed.

Lemma d_div_ok x y : DNorm x -> DNorm y -> V (d0 y) <> 0 -> div_window (V (d0 x)) (V (d0 y)) ->
  DNorm (d_div x y) /\ approx (DV (d_div x y)) (DV x / DV y) 16 (-106).
Proof.
  intros Nx Ny NZ [Zx|[[WX1 WX2] [WQ1 WQ2]]].
  { destruct (d_div_zero x y Nx Ny NZ Zx) as [[A1 A2] [A3 A4]]. split.
    - split; [now split|]. unfold DV, RN. rewrite A2, A4, Rplus_0_r. now rewrite rn_0.
    - unfold approx. assert (Zx1 := DNorm_zero x Zx Nx). unfold DV at 1 2 4. rewrite A2, A4, Zx, Zx1. unfold Rdiv. rewrite Rplus_0_r, Rmult_0_l, Rminus_0_r, Rabs_R0. lra. }
  assert (Fx := proj1 (proj1 Nx)). assert (Fy := proj1 (proj1 Ny)).
  unfold d_div. rewrite d_pre_div_fin by auto. cbn [from_pre].
  assert (B1010 : bp 1010 < bp 1024) by (apply bpow_lt; lia).
  destruct (fdiv_B (d0 x) (d0 y) (bp 1010) Fx Fy NZ WQ2 ltac:(apply fmt_bpow; lia) B1010) as [Fq1 [Eq1 Bq1]].
  set (q1 := fdiv (d0 x) (d0 y)) in *.
  assert (Lx := DNorm_val_rel x Nx). assert (Ly := DNorm_val_rel y Ny).
  set (X := V (d0 x)) in *. set (Y := V (d0 y)) in *. set (v := DV x) in *. set (w := DV y) in *.
  assert (R1 : Rabs (V q1 - X / Y) <= u * Rabs (X / Y)). { rewrite Eq1. apply rn_rel. apply Rle_trans with (2 := WQ1). apply bpow_le; lia. }
  assert (PX := Rabs_pos X). assert (PY := Rabs_pos_lt Y NZ).
  assert (TX : bp (-1073) <= u * u * u * Rabs X).
  { apply Rle_trans with (u * u * u * bp (-900)). rewrite <- u_bp, <- !bpow_plus. apply bpow_le. lia. 
    apply Rmult_le_compat_l; auto. lra. }
  assert (TY : bp (-1075) * Rabs Y <= u * u * u * Rabs X).
  { assert (XE : Rabs X = Rabs (X / Y) * Rabs Y). { rewrite <- Rabs_mult. f_equal. unfold X, Y in *. field; auto. }
    rewrite XE, <- Rmult_assoc. apply Rmult_le_compat_r; [lra|].
    apply Rle_trans with (u * u * u * bp (-900)). exact bp_u3. apply Rmult_le_compat_l; auto. lra. }
  assert (E1 : Rabs (Y * V q1 - X) <= u * Rabs X).
  { assert (K := div_err X Y (V q1) u 0 NZ). rewrite Rmult_0_l, !Rplus_0_r in K. auto. }
  assert (HYq1 := tri _ _ _ _ E1 (Rle_refl _)).
  assert (WY1 : forall z A, Rabs (Y * z) <= A -> Rabs (w * z - Y * z) <= u * A).
  { intros z A HA. replace (w * z - Y * z) with ((w - Y) * z) by ring. rewrite Rabs_mult in *. 
    assert (Pz := Rabs_pos z). nra. }
  assert (BB := bp_split 1010 4 ltac:(lia)). change (1010 + 4)%Z with 1014%Z in BB. change (2 ^ 4)%Z with 16%Z in BB.
  assert (BB1 := bp_split 1010 5 ltac:(lia)). change (1010 + 5)%Z with 1015%Z in BB1. change (2 ^ 5)%Z with 32%Z in BB1.
  assert (G10 := bpow_gt_0 radix2 1010). set (M := bp 1010) in *.
  assert (Fx15 : fmt (bp 1015)) by (apply fmt_bpow; lia).
  destruct (d_mul_f64_ok y q1 Ny Fq1) as [Nm1 Em1]. { fold Y. rewrite BB. lra. }
  fold Y w in Em1. set (m1 := d_mul_f64 y q1) in *.
  assert (W1 := WY1 _ _ HYq1).
  assert (Hm1 : Rabs (DV m1 - w * V q1) <= 51/10 * u * u * Rabs X) by lra.
  (* v - m1 *)
  assert (D1 : Rabs (v - DV m1) <= 31/10 * u * Rabs X).
  { replace (v - DV m1) with ((v - X) + - (Y * V q1 - X) + - (w * V q1 - Y * V q1) + - (DV m1 - w * V q1)) by ring.
    eapply Rle_trans. { repeat (apply triP; rewrite ?Rabs_Ropp; eauto). } lra. }
  assert (Dm1 : Rabs (DV m1) <= bp 1015).
  { replace (DV m1) with ((DV m1 - w * V q1) + (w * V q1 - Y * V q1) + Y * V q1) by ring.
    eapply Rle_trans. { repeat (apply triP; eauto). } rewrite BB1. lra. }
  destruct (d_sub_ok x m1 Nx Nm1) as [Nr1 Er1].
  { unfold D15. fold X. rewrite BB1. lra. } { apply DNorm_hi_le; auto. }
  unfold approx in Er1. rewrite <- rel6 in Er1. fold v in Er1. set (r1 := d_sub x m1) in *.
  assert (Er1' : Rabs (DV r1 - (v - w * V q1)) <= 52/10 * u * u * Rabs X).
  { replace (DV r1 - (v - w * V q1)) with ((DV r1 - (v - DV m1)) + - (DV m1 - w * V q1)) by ring.
    eapply Rle_trans. { repeat (apply triP; rewrite ?Rabs_Ropp; eauto). } lra. }
  assert (Hr1 : Rabs (DV r1) <= 32/10 * u * Rabs X). { assert (K := tri _ _ _ _ Er1 D1). lra. }
  assert (Fr1 := proj1 (proj1 Nr1)).
  assert (Hr10 := DNorm_hi_rel r1 Nr1). assert (Lr1 := DNorm_val_rel r1 Nr1).
  set (R10 := V (d0 r1)) in *.
  assert (HR10 : Rabs R10 <= 33/10 * u * Rabs X) by lra.
  assert (XE : Rabs X = Rabs (X / Y) * Rabs Y). { rewrite <- Rabs_mult. f_equal. unfold X, Y in *. field; auto. }
  assert (DIVB : forall a A, Rabs a <= A * Rabs X -> Rabs (a / Y) <= A * Rabs (X / Y)).
  { intros a A H. unfold Rdiv. rewrite !Rabs_mult, <- Rmult_assoc. apply Rmult_le_compat_r; auto. apply Rabs_pos. }
  assert (Hq2r := DIVB _ _ HR10).
  assert (PQ := Rabs_pos (X / Y)). 
  destruct (fdiv_B (d0 r1) (d0 y) M Fr1 Fy NZ) as [Fq2 [Eq2 Bq2]].
  { fold Y R10. lra. } { apply fmt_bpow; lia. } { exact B1010. }
  fold R10 Y in Eq2. set (q2 := fdiv (d0 r1) (d0 y)) in *.
  assert (R2 := rn_err (R10 / Y)). rewrite <- Eq2 in R2.
  assert (E2 := div_err _ _ _ _ _ NZ R2). fold Y in E2.
  assert (HYq2 := tri _ _ _ _ E2 HR10).
  assert (W2 := WY1 _ _ HYq2).
  assert (HW : Rabs (w * V q2 - DV r1) <= 10 * u * u * Rabs X).
  { replace (w * V q2 - DV r1) with ((w * V q2 - Y * V q2) + (Y * V q2 - R10) + - (DV r1 - R10)) by ring.
    eapply Rle_trans. { repeat (apply triP; rewrite ?Rabs_Ropp; eauto). } lra. }
  assert (MAIN : Rabs (w * (V q1 + V q2) - v) <= 153/10 * u * u * Rabs X).
  { replace (w * (V q1 + V q2) - v) with ((w * V q2 - DV r1) + (DV r1 - (v - w * V q1))) by ring.
    eapply Rle_trans. { repeat (apply triP; eauto). } lra. }
  destruct (d_mul_f64_ok y q2 Ny Fq2) as [Nm2 Em2]. { fold Y. rewrite BB. lra. }
  fold Y w in Em2. set (m2 := d_mul_f64 y q2) in *.
  assert (Hm2 : Rabs (DV m2 - w * V q2) <= u * u * Rabs X) by lra.
  assert (D2 : Rabs (DV r1 - DV m2) <= 11 * u * u * Rabs X).
  { replace (DV r1 - DV m2) with (- (w * V q2 - DV r1) + - (DV m2 - w * V q2)) by ring.
    eapply Rle_trans. { repeat (apply triP; rewrite ?Rabs_Ropp; eauto). } lra. }
  assert (Dm2 : Rabs (DV m2) <= bp 1015).
  { replace (DV m2) with ((DV m2 - w * V q2) + (w * V q2 - Y * V q2) + Y * V q2) by ring.
    eapply Rle_trans. { repeat (apply triP; eauto). } rewrite BB1. lra. }
  destruct (d_sub_ok r1 m2 Nr1 Nm2) as [Nr2 Er2].
  { unfold D15. fold R10. rewrite BB1. lra. } { apply DNorm_hi_le; auto. }
  unfold approx in Er2. rewrite <- rel6 in Er2. set (r2 := d_sub r1 m2) in *.
  assert (Hr2 := tri _ _ _ _ Er2 D2).
  assert (Fr2 := proj1 (proj1 Nr2)).
  assert (Hr20 := DNorm_hi_rel r2 Nr2). set (R20 := V (d0 r2)) in *.
  assert (HR20 : Rabs R20 <= 12 * u * u * Rabs X) by lra.
  assert (Hq3r := DIVB _ _ HR20).
  destruct (fdiv_B (d0 r2) (d0 y) M Fr2 Fy NZ) as [Fq3 [Eq3 Bq3]].
  { fold Y R20. lra. } { apply fmt_bpow; lia. } { exact B1010. }
  fold R20 Y in Eq3. set (q3 := fdiv (d0 r2) (d0 y)) in *.
  assert (R3 := rn_err (R20 / Y)). rewrite <- Eq3 in R3.
  assert (TQ : bp (-1075) <= u * u * u * Rabs (X / Y)).
  { apply Rle_trans with (u * u * u * bp (-900)). exact bp_u3. apply Rmult_le_compat_l; auto. lra. }
  assert (HQ1 := tri2 _ _ _ _ R1 (Rle_refl (Rabs (V q1)))).
  assert (HQ1' := tri _ _ _ _ R1 (Rle_refl _)).
  assert (HQ2 := tri _ _ _ _ R2 Hq2r).
  assert (HQ3 := tri _ _ _ _ R3 Hq3r).
  set (U := rn (V q1 + V q2)).
  destruct (plus_ex (V q1) (V q2) ltac:(auto with fmt) ltac:(auto with fmt)) as [KU _]. fold U in KU.
  assert (SU := Rabs_triang (V q1) (V q2)).
  assert (U1 : Rabs (V q1) <= Rabs U + Rabs (V q2) + Rabs (U - (V q1 + V q2))).
  { replace (V q1) with (U + - V q2 + - (U - (V q1 + V q2))) at 1 by ring. 
    repeat (apply triP; rewrite ?Rabs_Ropp; try apply Rle_refl). }
  assert (U2 := tri _ _ _ _ KU SU).
  assert (GL : bp (-900) <= Rabs (V q1)). { rewrite Eq1. apply rn_abs_ge; auto. apply fmt_bpow; lia. }
  assert (M18' := bp_split 1010 8 ltac:(lia)). change (1010 + 8)%Z with 1018%Z in M18'. change (2 ^ 8)%Z with 256%Z in M18'. fold M in M18'.
  assert (M12' := bp_split 1010 2 ltac:(lia)). change (1010 + 2)%Z with 1012%Z in M12'. change (2 ^ 2)%Z with 4%Z in M12'. fold M in M12'.
  destruct (renorm3_absorb q1 q2 q3) as [RN1 RN2].
  { split; auto. lra. } { split; auto. lra. } { exact Fq3. } { lra. }
  { fold U. intros ZU. rewrite ZU, Rabs_R0 in *. assert (G9 := bpow_gt_0 radix2 (-900)). lra. }
  { fold U. assert (K9 := bp_split (-902) 2 ltac:(lia)). change (-902 + 2)%Z with (-900)%Z in K9. change (2 ^ 2)%Z with 4%Z in K9.
    assert (G9 := bpow_gt_0 radix2 (-900)). lra. }
  { fold U. lra. } { fold U. lra. }
  split; [exact RN1|]. rewrite RN2. unfold approx.
  assert (NW : w <> 0).
  { intros Zw. assert (K : Rabs (w - Y) = Rabs Y) by (rewrite Zw, Rminus_0_l; apply Rabs_Ropp). lra. }
  assert (PW := Rabs_pos_lt w NW).
  assert (LX : (1 - 2 * u) * Rabs X <= Rabs v). { assert (K := tri2 _ _ _ _ Lx (Rle_refl (Rabs v))). lra. }
  replace (V q1 + V q2 - v / w) with ((w * (V q1 + V q2) - v) / w) by (field; auto).
  unfold Rdiv. rewrite !Rabs_mult, <- Rmult_assoc. apply Rmult_le_compat_r. apply Rabs_pos.
  replace (IZR 16 * bp (-106)) with (16 * u * u).
  2: { replace (bp (-106)) with (u * u). ring. change (-106)%Z with (-53 + -53)%Z. now rewrite bpow_plus. }
  lra.
Qed.

Definition sqr_window (a : R) : Prop := a * a = 0 \/ bp (-900) <= a * a <= bp 1014.

Lemma d_sqr_ok x : DNorm x -> sqr_window (V (d0 x)) ->
  DNorm (d_sqr x) /\ approx (DV (d_sqr x)) (DV x * DV x) 9 (-106).
Proof.
  intros Nx W. assert (Lx := DNorm_lo x Nx). assert (Nx' := Nx). destruct Nx as [[Fx0 Fx1] Nx].
  assert (SQ : Rabs (V (d0 x) * V (d0 x)) = V (d0 x) * V (d0 x)) by (apply Rabs_pos_eq; nra).
  assert (W' : Rabs (V (d0 x) * V (d0 x)) <= bp 1014).
  { rewrite SQ. destruct W as [W|[_ W]]; auto. rewrite W. apply bpow_ge_0. }
  assert (PRE : d_pre_sqr x = None).
  { unfold d_pre_sqr, d_is_infinite. now rewrite (Fin_inf _ Fx0). }
  unfold d_sqr. rewrite PRE. cbn [from_pre].
  change (two_sqr (d0 x)) with (two_prod (d0 x) (d0 x)).
  destruct (two_prod_m 1014 (d0 x) (d0 x) ltac:(lia) Fx0 Fx0 W') as [Fp [Fe [Ep Ee]]].
  destruct (two_prod (d0 x) (d0 x)) as [p e]. cbn [fst snd] in *.
  set (xh := V (d0 x)) in *. set (xl := V (d1 x)) in *.
  assert (PP := Rabs_pos (xh * xh)). set (Q := Rabs (xh * xh)) in *.
  assert (B1 : Rabs (2 * xh * xl) <= 2 * u * Q).
  { unfold Q. rewrite !Rabs_mult. rewrite (Rabs_pos_eq 2) by lra. assert (Pa := Rabs_pos xh). nra. }
  assert (B3 : Rabs (xl * xl) <= u * u * Q).
  { unfold Q. rewrite !Rabs_mult. assert (Pa := Rabs_pos xl). assert (Pc := Rabs_pos xh). nra. }
  assert (XB : Rabs xh <= bp 507).
  { apply Rnot_lt_le. intros L. assert (K : bp 1014 = bp 507 * bp 507) by (rewrite <- bpow_plus; reflexivity).
    unfold Q in W'. rewrite Rabs_mult, K in W'. assert (G := bpow_gt_0 radix2 507). nra. }
  destruct (mul_Bd 508 f2 (d0 x) ltac:(lia) Fin_2 Fx0) as [[Fd Bd2] Ed].
  { rewrite V_2. fold xh. rewrite Rabs_mult, (Rabs_pos_eq 2) by lra. change 508%Z with (507 + 1)%Z. rewrite bp_S. lra. }
  rewrite V_2, rn_twice in Ed by auto with fmt. fold xh in Ed. set (dx := fmul f2 (d0 x)) in *.
  destruct (mul_Bd 1014 dx (d1 x) ltac:(lia) Fd Fx1) as [[Fm1 Bm1] Em1]; [rewrite Ed; fold xl; lra|].
  destruct (mul_Bd 1014 (d1 x) (d1 x) ltac:(lia) Fx1 Fx1) as [[Fm2 Bm2] Em2]; [fold xl; lra|].
  rewrite Ed in Em1. fold xl in Em1, Em2.
  set (m1 := fmul dx (d1 x)) in *. set (m2 := fmul (d1 x) (d1 x)) in *.
  assert (Bp : Rabs (V p) <= bp 1014). { rewrite Ep. apply rn_abs_le; auto. apply fmt_bpow; lia. }
  assert (Be : Rabs (V e) <= bp 1015).
  { rewrite Ee. apply rn_abs_le. apply fmt_bpow; lia. change 1015%Z with (1014 + 1)%Z. rewrite bp_S. rewrite <- Ep.
    assert (K' := Rabs_triang (xh * xh) (- V p)). rewrite Rabs_Ropp in K'. unfold Rminus. fold Q in K'. lra. }
  destruct (Bd_add 1015 e m1 ltac:(lia)) as [[Ft Bt] Et]; [now split|split; auto; apply Rle_trans with (1 := Bm1); apply bpow_le; lia|].
  set (t := fadd e m1) in *.
  destruct (Bd_add 1016 t m2 ltac:(lia)) as [[Ft2 Bt2] Et2]; [now split|split; auto; apply Rle_trans with (1 := Bm2); apply bpow_le; lia|].
  set (t2 := fadd t m2) in *.
  assert (MAIN : Rabs (V t2) <= Rabs (V p) /\
     Rabs (V p + V t2 - DV x * DV x) <= (8 * u * u + 30 * u * u * u) * Q).
  { assert (E : DV x * DV x = xh * xh + 2 * xh * xl + xl * xl) by (unfold DV; fold xh xl; ring). rewrite E.
    destruct W as [W|[W _]].
    - assert (xh = 0) as Zx by (apply Rmult_integral in W; tauto).
      assert (xl = 0) as Zl by (now apply DNorm_zero).
      assert (Vp : V p = 0) by (rewrite Ep, W; apply rn_0).
      assert (Ve : V e = 0). { rewrite Ee, W, rn_0. replace (0 - 0) with 0 by ring. apply rn_0. }
      assert (V1 : V m1 = 0). { rewrite Em1, Zl, Rmult_0_r. apply rn_0. }
      assert (V2 : V m2 = 0). { rewrite Em2, Zl, Rmult_0_r. apply rn_0. }
      assert (Vt : V t = 0). { rewrite Et, Ve, V1, Rplus_0_r. apply rn_0. }
      assert (Vt2 : V t2 = 0). { rewrite Et2, Vt, V2, Rplus_0_r. apply rn_0. }
      rewrite Vp, Vt2, W, Zx, Zl. split; [lra|].
      replace (0 + 0 - (0 + 2 * 0 * 0 + 0 * 0)) with 0 by ring. rewrite Rabs_R0. lra.
    - assert (Wu := bp_u3). rewrite <- SQ in W.
      assert (W3 : bp (-1075) <= u * u * u * Q) by nra.
      assert (Re : V e = xh * xh - V p).
      { rewrite Ee, Ep. apply rn_id, mul_err_fmt; unfold xh; auto with fmt. intros _. fold xh. fold Q.
        apply Rle_trans with (2 := W). apply bpow_le; lia. }
      destruct (mul3_R (xh * xh) (V e) (V m1) (V m2) (2 * xh * xl) (xl * xl) (V p)
                  ltac:(auto with fmt) ltac:(auto with fmt) ltac:(auto with fmt)) with (A1 := 2 * u) (A2 := u * u) (h := bp (-1075))
        as [K1 [K2 K3]]; auto; try lra.
      + rewrite Ep. apply rn_rel. apply Rle_trans with (2 := W). apply bpow_le; lia.
      + rewrite Em1. apply rn_rel_le. exact B1.
      + rewrite Em2. apply rn_rel_le. exact B3.
      + rewrite <- Et, <- Et2 in *. split; [easy|]. fold Q in K3. lra. }
  destruct MAIN as [M1 M2].
  assert (B18 : bp 1014 <= M18) by (apply bpow_le; lia). assert (B19 : bp 1017 <= M18) by (apply bpow_le; lia).
  destruct (renorm_tail p t2) as [R1 [R2 _]]; auto.
  { split; auto. lra. } { split; auto. change (1016 + 1)%Z with 1017%Z in Bt2. lra. }
  split; [exact R1|]. unfold approx. rewrite <- rel9, R2.
  eapply Rle_trans. exact M2.
  assert (Elow : (1 - 3 * u) * Q <= Rabs (DV x * DV x)).
  { assert (K' := Rabs_triang (DV x * DV x) (- (2 * xh * xl) + - (xl * xl))).
    assert (K'' := Rabs_triang (- (2 * xh * xl)) (- (xl * xl))). rewrite !Rabs_Ropp in K''.
    replace (DV x * DV x + (- (2 * xh * xl) + - (xl * xl))) with (xh * xh) in K' by (unfold DV; fold xh xl; ring). fold Q in K'. lra. }
  lra.
Qed.
