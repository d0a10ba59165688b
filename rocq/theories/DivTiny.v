(** * Division of very small Doubles: the result is canonical and as small as it should be *)
From Coq Require Import ZArith Reals Lra Lia List Bool.
From Flocq Require Import Core IEEE754.BinarySingleNaN.
From Verif Require Import RN F64 Prim DoubleM Spec F64Facts EFT DWAdd DAddProofs DMulProofs SpecialProofs ExactProofs DDivProofs.
Local Open Scope R_scope.

Lemma Rabs_two a b A B : Rabs a <= A -> Rabs b <= B -> Rabs (a + b) <= A + B.
Proof. intros. eapply Rle_trans; [apply Rabs_triang|lra]. Qed.
Lemma add_c k a b : (-1074 <= k < 1023)%Z -> Bd (bp k) a -> Bd (bp k) b ->
  Fin (fadd a b) /\ Rabs (V (fadd a b) - (V a + V b)) <= u * Rabs (V a + V b) /\ V (fadd a b) = rn (V a + V b).
Proof.
  intros Hk Ba Bb. destruct (Bd_add k a b Hk Ba Bb) as [[F _] E]. split; [exact F|]. split; [|exact E]. rewrite E. apply plus_ex; apply V_fmt.
Qed.
Lemma sub_c k a b : (-1074 <= k < 1023)%Z -> Bd (bp k) a -> Bd (bp k) b ->
  Fin (fsub a b) /\ Rabs (V (fsub a b) - (V a - V b)) <= u * Rabs (V a - V b) /\ V (fsub a b) = rn (V a - V b).
Proof.
  intros Hk Ba Bb. destruct (Bd_sub k a b Hk Ba Bb) as [[F _] E]. split; [exact F|]. split; [|exact E]. rewrite E. apply (plus_ex (V a) (- V b)); [apply V_fmt|apply generic_format_opp, V_fmt].
Qed.

(** well separated operands *)
Lemma renorm3_sep a b c : Fin a -> Fin b -> Fin c -> Rabs (V a) <= bp 1000 -> 16 * Rabs (V b) <= Rabs (V a) -> 16 * Rabs (V c) <= Rabs (V a) ->
  DNorm (let '(r, s) := renorm3 a b c in mkD r s) /\ Rabs (DV (let '(r, s) := renorm3 a b c in mkD r s)) <= 2 * Rabs (V a).
Proof.
  intros Fa Fb Fc BA BB BC. unfold renorm3.
  assert (PA := Rabs_pos (V a)). assert (PB := Rabs_pos (V b)). assert (PC := Rabs_pos (V c)). set (A := Rabs (V a)) in *.
  assert (K1 : bp 1010 = 1024 * bp 1000) by exact (bp_split 1000 10 ltac:(lia)). assert (P0 := bpow_gt_0 radix2 1000).
  assert (BD : forall x, Fin x -> Rabs (V x) <= 100 * A -> Bd (bp 1010) x) by (intros x F H; split; [exact F|lra]).
  assert (Da := BD a Fa ltac:(fold A; lra)). assert (Db := BD b Fb ltac:(lra)). assert (Dc := BD c Fc ltac:(lra)).
  unfold quick_two_sum.
  destruct (add_c 1010 a b ltac:(lia) Da Db) as (F1 & E1 & _). set (U := fadd a b) in *.
  assert (HAB : Rabs (V a + V b) <= 17 / 16 * A) by (eapply Rle_trans; [apply Rabs_triang|fold A; lra]).
  assert (D1 : Rabs (V U - V a) <= 17 / 16 * u * A + / 16 * A).
  { replace (V U - V a) with ((V U - (V a + V b)) + V b) by ring. eapply Rle_trans; [apply Rabs_triang|]. lra. }
  assert (U1 := tri _ _ _ _ D1 (Rle_refl _)). assert (U2 := tri2 _ _ _ _ D1 (Rle_refl _)). fold A in U1, U2.
  assert (DU := BD U F1 ltac:(lra)).
  destruct (sub_c 1010 U a ltac:(lia) DU Da) as (F2 & E2 & _). set (v1 := fsub U a) in *. assert (T2 := tri _ _ _ _ E2 (Rle_refl _)).
  assert (Dv1 := BD v1 F2 ltac:(lra)).
  destruct (sub_c 1010 b v1 ltac:(lia) Db Dv1) as (F3 & E3 & _). set (v := fsub b v1) in *. assert (T3 := tri _ _ _ _ E3 (Rle_refl _)).
  assert (D3 : Rabs (V b - V v1) <= 12 / 100 * A).
  { replace (V b - V v1) with (- (V v1 - (V U - V a)) + - (V U - (V a + V b))) by ring. eapply Rle_trans; [apply Rabs_triang|]. rewrite !Rabs_Ropp. lra. }
  assert (Dv := BD v F3 ltac:(lra)).
  destruct (add_c 1010 c U ltac:(lia) Dc DU) as (F4 & E4 & _). set (s := fadd c U) in *.
  assert (D4 : Rabs (V s - V U) <= / 15 * A).
  { replace (V s - V U) with ((V s - (V c + V U)) + V c) by ring. eapply Rle_trans; [apply Rabs_triang|]. assert (Q := Rabs_triang (V c) (V U)). lra. }
  assert (S1 := tri _ _ _ _ D4 (Rle_refl _)). assert (S2 := tri2 _ _ _ _ D4 (Rle_refl _)).
  assert (Ds := BD s F4 ltac:(lra)).
  destruct (sub_c 1010 s c ltac:(lia) Ds Dc) as (F5 & E5 & _). set (w1 := fsub s c) in *.
  assert (Q5 := Rabs_triang (V s) (- V c)). rewrite Rabs_Ropp in Q5. change (V s + - V c) with (V s - V c) in Q5.
  assert (T5 := tri _ _ _ _ E5 (Rle_refl _)).
  assert (Dw1 := BD w1 F5 ltac:(lra)).
  destruct (sub_c 1010 U w1 ltac:(lia) DU Dw1) as (F6 & E6 & _). set (w := fsub U w1) in *.
  assert (D6 : Rabs (V U - V w1) <= 14 / 100 * A).
  { replace (V U - V w1) with (- (V w1 - (V s - V c)) + (- (V s - V U) + V c)) by ring. eapply Rle_trans; [apply Rabs_triang|]. rewrite Rabs_Ropp.
    assert (Q := Rabs_triang (- (V s - V U)) (V c)). rewrite Rabs_Ropp in Q. lra. }
  assert (T6 := tri _ _ _ _ E6 (Rle_refl _)). assert (Dw := BD w F6 ltac:(lra)).
  destruct (add_c 1010 v w ltac:(lia) Dv Dw) as (F7 & E7 & _). set (t := fadd v w) in *.
  assert (T7 := tri _ _ _ _ E7 (Rle_refl _)). assert (Q7 := Rabs_triang (V v) (V w)).
  assert (Ht : Rabs (V t) <= / 2 * A) by lra.
  assert (G : bp 1010 <= M18) by (apply bpow_le; lia).
  destruct (quick_ok s t) as (H1 & H2 & H3 & H4); [split; [exact F4|apply Rle_trans with (2 := G), (proj2 Ds)]|split; [exact F7|lra]|left; lra|].
  unfold quick_two_sum in H1, H2, H3, H4. cbn [fst snd] in *.
  split; [eapply DNorm_mk; eassumption|]. unfold DV; cbn [d0 d1]. rewrite H3, H4. replace (_ + _) with (V s + V t) by ring. eapply Rle_trans; [apply Rabs_triang|]. lra.
Qed.

(** subnormal operands: every sum is exact *)
Definition sm (k : Z) (a : f64) : Prop := Fin a /\ Rabs (V a) <= bp k.
Lemma sm_add a b k : (k < -1022)%Z -> (-1074 <= k)%Z -> sm k a -> sm k b -> sm (k + 1) (fadd a b) /\ V (fadd a b) = V a + V b.
Proof.
  intros Hk Hk' [Fa Ba] [Fb Bb]. destruct (Bd_add k a b ltac:(lia) (conj Fa Ba) (conj Fb Bb)) as [B E]. split; [exact B|]. rewrite E. apply rn_id.
  apply (fmt_mult2 (-1074)); [lia|apply mult2_plus; apply mult2_emin, V_fmt|]. apply Rle_trans with (bp (k + 1)); [|apply bpow_le; lia]. rewrite bp_S. eapply Rle_trans; [apply Rabs_triang|]. lra.
Qed.
Lemma sm_sub a b k : (k < -1022)%Z -> (-1074 <= k)%Z -> sm k a -> sm k b -> sm (k + 1) (fsub a b) /\ V (fsub a b) = V a - V b.
Proof.
  intros Hk Hk' [Fa Ba] [Fb Bb]. destruct (Bd_sub k a b ltac:(lia) (conj Fa Ba) (conj Fb Bb)) as [B E]. split; [exact B|]. rewrite E. apply rn_id.
  apply (fmt_mult2 (-1074)); [lia|apply mult2_minus; apply mult2_emin, V_fmt|]. apply Rle_trans with (bp (k + 1)); [|apply bpow_le; lia]. rewrite bp_S. unfold Rminus. eapply Rle_trans; [apply Rabs_triang|]. rewrite Rabs_Ropp. lra.
Qed.
Lemma renorm3_subn a b c : sm (-1030) a -> sm (-1030) b -> sm (-1030) c ->
  DNorm (let '(r, s) := renorm3 a b c in mkD r s) /\ DV (let '(r, s) := renorm3 a b c in mkD r s) = V a + V b + V c.
Proof.
  intros Sa Sb Sc. unfold renorm3, quick_two_sum.
  assert (UP : forall k l x, (k <= l)%Z -> sm k x -> sm l x) by (intros k l x L [F B]; split; [exact F|]; apply Rle_trans with (1 := B), bpow_le, L).
  destruct (sm_add a b (-1030) ltac:(lia) ltac:(lia) Sa Sb) as [S1 E1]. set (U := fadd a b) in *.
  destruct (sm_sub U a (-1029) ltac:(lia) ltac:(lia) S1 ltac:(apply UP with (2 := Sa); lia)) as [S2 E2]. set (v1 := fsub U a) in *.
  destruct (sm_sub b v1 (-1028) ltac:(lia) ltac:(lia) ltac:(apply UP with (2 := Sb); lia) S2) as [S3 E3]. set (v := fsub b v1) in *.
  destruct (sm_add c U (-1029) ltac:(lia) ltac:(lia) ltac:(apply UP with (2 := Sc); lia) S1) as [S4 E4]. set (s := fadd c U) in *.
  destruct (sm_sub s c (-1028) ltac:(lia) ltac:(lia) S4 ltac:(apply UP with (2 := Sc); lia)) as [S5 E5]. set (w1 := fsub s c) in *.
  destruct (sm_sub U w1 (-1027) ltac:(lia) ltac:(lia) ltac:(apply UP with (2 := S1); lia) S5) as [S6 E6]. set (w := fsub U w1) in *.
  assert (Ev : V v = 0) by lra. assert (Ew : V w = 0) by lra. assert (Es : V s = V a + V b + V c) by lra. clear E2 E3 E5 E6.
  assert (Hv : FV v 0) by (split; [apply S3|exact Ev]). assert (Hw : FV w 0) by (split; [apply S6|exact Ew]).
  assert (Ht := FV_add_0r _ _ _ Hv Hw). set (t := fadd v w) in *. assert (Hs : FV s (V s)) by (split; [apply S4|reflexivity]).
  assert (N : rn (V s + 0) = V s) by (rewrite Rplus_0_r; apply rn_id, V_fmt).
  destruct (quick_norm s t _ _ Hs Ht N) as [[H1 H2] [H3 H4]]. unfold quick_two_sum in H1, H2, H3, H4. cbn [fst snd] in *.
  split; [|unfold DV; cbn [d0 d1]; rewrite H2, H4; lra]. apply (DNorm_mk _ _ (V s)); auto. rewrite H2. symmetry. apply rn_id, V_fmt. rewrite H4. rewrite rn_id by apply V_fmt. ring.
Qed.

Lemma d_div_tiny x y : DNorm x -> DNorm y -> / 4 <= Rabs (V (d0 y)) <= 4096 -> Rabs (V (d0 x)) <= bp (-880) ->
  DNorm (d_div x y) /\ Rabs (DV (d_div x y)) <= 9 * Rabs (V (d0 x)) + bp (-1028).
Proof.
  intros Nx Ny HY HX.
  assert (NZ : V (d0 y) <> 0) by (intros Z; rewrite Z, Rabs_R0 in HY; lra).
  assert (Fx := proj1 (proj1 Nx)). assert (Fy := proj1 (proj1 Ny)).
  unfold d_div. rewrite d_pre_div_fin by auto. cbn [from_pre].
  assert (Lx := DNorm_val_rel x Nx). assert (Ly := DNorm_val_rel y Ny).
  set (H := bp (-1060)). assert (PH : 0 < H) by apply bpow_gt_0.
  assert (Hh : bp (-1075) = H / 32768). { assert (K : H = 32768 * bp (-1075)) by exact (bp_split (-1075) 15 ltac:(lia)). lra. }
  assert (Hn : bp (-1073) = H / 8192). { assert (K : H = 8192 * bp (-1073)) by exact (bp_split (-1073) 13 ltac:(lia)). lra. }
  assert (H40 : bp (-1040) = 1048576 * H) by exact (bp_split (-1060) 20 ltac:(lia)).
  assert (H30 : bp (-1030) = 1073741824 * H) by exact (bp_split (-1060) 30 ltac:(lia)).
  assert (H28 : bp (-1028) = 4294967296 * H) by exact (bp_split (-1060) 32 ltac:(lia)).
  assert (B1 : bp (-880) <= bp 0) by (apply bpow_le; lia). change (bp 0) with 1 in B1.
  assert (HL : H <= bp (-20)) by (apply bpow_le; lia). change (bp (-20)) with (/ 1048576) in HL.
  assert (L1015 : bp 20 <= bp 1015) by (apply bpow_le; lia). change (bp 20) with 1048576 in L1015.
  assert (L1014 : bp 20 <= bp 1014) by (apply bpow_le; lia). change (bp 20) with 1048576 in L1014.
  assert (F20 : fmt (bp 20)) by (apply fmt_bpow; lia). assert (L1024 : bp 20 < bp 1024) by (apply bpow_lt; lia).
  assert (F15 : fmt (bp 1015)) by (apply fmt_bpow; lia).
  set (X := V (d0 x)) in *. set (Y := V (d0 y)) in *. set (v := DV x) in *. set (w := DV y) in *.
  assert (PX := Rabs_pos X). set (A := Rabs X) in *.
  assert (IY : forall a, Rabs (a / Y) <= 4 * Rabs a /\ Rabs a / 4096 <= Rabs (a / Y)).
  { intros a. assert (Pa := Rabs_pos a). unfold Rdiv. rewrite Rabs_mult, Rabs_inv by exact NZ. split.
    - rewrite Rmult_comm. apply Rmult_le_compat_r; [exact Pa|]. replace 4 with (/ / 4) by lra. apply Rinv_le_contravar; lra.
    - apply Rmult_le_compat_l; [exact Pa|]. apply Rinv_le_contravar; lra. }
  destruct (IY X) as [Q1 Q1']. fold A in Q1, Q1'.
  destruct (fdiv_B (d0 x) (d0 y) (bp 20) Fx Fy NZ) as [Fq1 [Eq1 Bq1]]; [fold X Y; change (bp 20) with 1048576; lra|exact F20|exact L1024|].
  fold X Y in Eq1. set (q1 := fdiv (d0 x) (d0 y)) in *.
  assert (R1 := rn_err (X / Y)). rewrite <- Eq1, Hh in R1.
  assert (E1 := div_err _ _ _ _ _ NZ R1). fold Y A in E1.
  assert (HP : H / 32768 * Rabs Y <= H / 8) by (replace (H / 8) with (H / 32768 * 4096) by lra; apply Rmult_le_compat_l; lra).
  assert (HYq1 := tri _ _ _ _ E1 (Rle_refl _)). fold A in HYq1.
  assert (WY1 : forall z B, Rabs (Y * z) <= B -> Rabs (w * z - Y * z) <= u * B).
  { intros z B HB. replace (w * z - Y * z) with ((w - Y) * z) by ring. rewrite Rabs_mult in *. assert (Pz := Rabs_pos z). apply Rle_trans with (u * Rabs Y * Rabs z); [apply Rmult_le_compat_r; assumption|]. lra. }
  destruct (d_mul_f64_ok y q1 Ny Fq1) as [Nm1 Em1]; [fold Y; lra|]. fold Y w in Em1. rewrite Hn in Em1. set (m1 := d_mul_f64 y q1) in *.
  assert (W1 := WY1 _ _ HYq1).
  assert (D1 : Rabs (v - DV m1) <= 31/10 * u * A + H / 4).
  { replace (v - DV m1) with ((v - X) + - (Y * V q1 - X) + - (w * V q1 - Y * V q1) + - (DV m1 - w * V q1)) by ring.
    eapply Rle_trans. { repeat (apply triP; rewrite ?Rabs_Ropp; eauto). } lra. }
  assert (Bv : Rabs v <= 2 * A) by (assert (K := tri _ _ _ _ Lx (Rle_refl _)); fold A in K; lra).
  assert (Dm1 : Rabs (DV m1) <= bp 1015).
  { replace (DV m1) with (v + - (v - DV m1)) by ring. eapply Rle_trans; [apply Rabs_triang|]. rewrite Rabs_Ropp. lra. }
  destruct (d_sub_ok x m1 Nx Nm1) as [Nr1 Er1]; [unfold D15; fold X A; lra|apply DNorm_hi_le; auto|].
  unfold approx in Er1. rewrite <- rel6 in Er1. fold v in Er1. set (r1 := d_sub x m1) in *.
  assert (Hr1 := tri _ _ _ _ Er1 D1). assert (Fr1 := proj1 (proj1 Nr1)).
  assert (Hr10 := DNorm_hi_rel r1 Nr1). assert (Lr1 := DNorm_val_rel r1 Nr1). set (R10 := V (d0 r1)) in *.
  assert (HR10 : Rabs R10 <= 33/10 * u * A + 27 / 100 * H) by lra.
  destruct (IY R10) as [Q2 _].
  destruct (fdiv_B (d0 r1) (d0 y) (bp 20) Fr1 Fy NZ) as [Fq2 [Eq2 Bq2]]; [fold R10 Y; change (bp 20) with 1048576; lra|exact F20|exact L1024|].
  fold R10 Y in Eq2. set (q2 := fdiv (d0 r1) (d0 y)) in *.
  assert (R2 := rn_err (R10 / Y)). rewrite <- Eq2, Hh in R2.
  assert (E2 := div_err _ _ _ _ _ NZ R2). fold Y in E2. assert (HYq2 := tri _ _ _ _ E2 (Rle_refl _)).
  assert (W2 := WY1 _ _ HYq2).
  destruct (d_mul_f64_ok y q2 Ny Fq2) as [Nm2 Em2]; [fold Y; lra|]. fold Y w in Em2. rewrite Hn in Em2. set (m2 := d_mul_f64 y q2) in *.
  assert (D2 : Rabs (DV r1 - DV m2) <= 12 * u * u * A + / 5 * H).
  { replace (DV r1 - DV m2) with ((DV r1 - R10) + - (Y * V q2 - R10) + - (w * V q2 - Y * V q2) + - (DV m2 - w * V q2)) by ring.
    eapply Rle_trans. { repeat (apply triP; rewrite ?Rabs_Ropp; eauto). } lra. }
  assert (Dm2 : Rabs (DV m2) <= bp 1015).
  { replace (DV m2) with (DV r1 + - (DV r1 - DV m2)) by ring. eapply Rle_trans; [apply Rabs_triang|]. rewrite Rabs_Ropp. lra. }
  destruct (d_sub_ok r1 m2 Nr1 Nm2) as [Nr2 Er2]; [unfold D15; fold R10; lra|apply DNorm_hi_le; auto|].
  unfold approx in Er2. rewrite <- rel6 in Er2. set (r2 := d_sub r1 m2) in *.
  assert (Hr2 := tri _ _ _ _ Er2 D2). assert (Fr2 := proj1 (proj1 Nr2)). assert (Hr20 := DNorm_hi_rel r2 Nr2). set (R20 := V (d0 r2)) in *.
  assert (HR20 : Rabs R20 <= 13 * u * u * A + 22 / 100 * H) by lra.
  destruct (IY R20) as [Q3 _].
  destruct (fdiv_B (d0 r2) (d0 y) (bp 20) Fr2 Fy NZ) as [Fq3 [Eq3 Bq3]]; [fold R20 Y; change (bp 20) with 1048576; lra|exact F20|exact L1024|].
  fold R20 Y in Eq3. set (q3 := fdiv (d0 r2) (d0 y)) in *.
  assert (R3 := rn_err (R20 / Y)). rewrite <- Eq3, Hh in R3.
  assert (T1 := tri _ _ _ _ R1 (Rle_refl _)). assert (T1' := tri2 _ _ _ _ R1 (Rle_refl _)).
  assert (T2 := tri _ _ _ _ R2 (Rle_refl _)). assert (T3 := tri _ _ _ _ R3 (Rle_refl _)).
  destruct (Rle_or_lt A (bp (-1040))) as [C|C].
  - destruct (renorm3_subn q1 q2 q3) as [K1 K2]; [split; [assumption|lra]..|]. split; [exact K1|]. rewrite K2.
    eapply Rle_trans; [apply Rabs_triang|]. assert (K := Rabs_triang (V q1) (V q2)). lra.
  - assert (L1000 : bp 20 <= bp 1000) by (apply bpow_le; lia).
    destruct (renorm3_sep q1 q2 q3) as [K1 K2]; [assumption..|lra|lra|lra|]. split; [exact K1|]. apply Rle_trans with (1 := K2). lra.
Qed.
