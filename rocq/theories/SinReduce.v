(** * Argument reduction of Double sin and cos *)
From Coq Require Import ZArith Reals Lra Lia Psatz List Bool.
From Flocq Require Import Core IEEE754.BinarySingleNaN.
From Verif Require Import RN F64 Prim DoubleM QuadM Spec F64Facts EFT DAddProofs DMulProofs DDivProofs MulAny LdexpProofs LawProofs OrderProofs ExactProofs IntProofs RoundProofs AbsOps Exact ConstM BaseConst ConstProofs TableProofs AlgM TransM ExpProofs ExpThms SqrtProofs SinSeries.
From Verif Require DisplayLog.
Local Open Scope R_scope.

(** the quotient digit [floor(r/c + 1/2)] computed from the high words *)
Lemma quot_floor r c : DNorm r -> DNorm c -> 19 / 100 <= DV c <= 2 -> Rabs (DV r) <= 10 * DV c ->
  exists m, FV (ffloor (fadd (fdiv (d0 r) (d0 c)) fhalf)) (IZR m) /\ as_i32 (ffloor (fadd (fdiv (d0 r) (d0 c)) fhalf)) = m /\
    Rabs (DV r - IZR m * DV c) <= 500001 / 1000000 * DV c /\ Rabs (IZR m) <= 12.
Proof.
  intros Nr Nc Bc Br.
  assert (Rr := DNorm_val_rel r Nr). assert (Rc := DNorm_val_rel c Nc). assert (Hr := DNorm_hi_rel r Nr). assert (Hc := DNorm_hi_rel c Nc).
  rewrite (Rabs_pos_eq (DV c)) in Hc by lra. assert (Fr := proj1 (proj1 Nr)). assert (Fc := proj1 (proj1 Nc)).
  set (h := V (d0 r)) in *. set (k := V (d0 c)) in *. set (R := DV r) in *. set (C := DV c) in *.
  assert (Bk0 := Rabs_def2' _ _ Hc). assert (Bk : Rabs (C - k) <= 2 * u * C) by (apply Rle_trans with (1 := Rc); apply Rle_trans with (u * (2 * C)); [apply Rmult_le_compat_l; lra|lra]).
  assert (Bk' := Rabs_def2' _ _ Bk). assert (K0 : 18 / 100 <= k <= 21 / 10) by lra.
  assert (Bh : Rabs h <= (1 + 2 * u) * (10 * C)) by lra.
  assert (Bh' : Rabs (R - h) <= 20 * u * C) by lra.
  set (q := h / k). assert (EQ : q * k = h) by (unfold q; field; lra).
  assert (Aq : Rabs q <= 11).
  { apply Rmult_le_reg_r with k; [lra|]. replace (Rabs q * k) with (Rabs h) by (rewrite <- EQ, Rabs_mult, (Rabs_pos_eq k) by lra; reflexivity). lra. }
  assert (Fb : fmt (bp 4)) by (apply fmt_bpow; lia). assert (Lb : bp 4 < bp 1024) by (apply bpow_lt; lia). change (bp 4) with 16 in Fb, Lb.
  destruct (fdiv_fin (d0 r) (d0 c) 16 Fr Fc) as [F1 V1]; auto; [fold k; lra|fold h k q; lra|]. fold h k q in V1.
  assert (S75 : bp (-1075) <= u) by (rewrite <- u_bp; apply bpow_le; lia). assert (P75 := bpow_gt_0 radix2 (-1075)).
  assert (Er := rn_err q). assert (Er' : Rabs (rn q - q) <= 20 * u) by lra. apply Rabs_def2' in Er'. assert (Aq' := Rabs_def2' _ _ Aq).
  set (d := fdiv (d0 r) (d0 c)) in *.
  assert (Bs : Rabs (V d + V fhalf) <= 16) by (rewrite (proj2 fhalf_V'), V1; apply Rabs_le; lra).
  destruct (fadd_ok d fhalf F1 (proj1 fhalf_V')) as (F2 & V2 & _). { apply Rle_lt_trans with 16; [apply rn_abs_le; auto|exact Lb]. }
  rewrite (proj2 fhalf_V'), V1 in V2, Bs.
  assert (Es := rn_err (rn q + / 2)). assert (Es' : Rabs (rn (rn q + / 2) - (rn q + / 2)) <= 20 * u) by lra. apply Rabs_def2' in Es'.
  set (s := fadd d fhalf) in *. set (m := Zfloor (V s)). exists m.
  assert (M1 := Zfloor_lb (V s)). assert (M2 := Zfloor_ub (V s)). fold m in M1, M2.
  assert (M1' := M1). assert (M2' := M2). rewrite V2 in M1', M2'. set (w := rn (rn q + / 2)) in *. clearbody w. set (w1 := rn q) in *. clearbody w1.
  assert (Hm : (-12 <= m <= 12)%Z). { assert (IZR (-13) < IZR m < IZR 13) as [G1 G2] by lra. split; [apply lt_IZR in G1|apply lt_IZR in G2]; lia. }
  split; [apply ffloor_ok; exact F2|]. split; [apply DisplayLog.floor_i32; [exact F2|split; [exact M1|exact M2]|clearbody m; lia]|].
  assert (Hm' : -12 <= IZR m <= 12) by (split; apply IZR_le; lia).
  assert (QM : Rabs (q - IZR m) <= / 2 + 50 * u) by (apply Rabs_le; lra).
  split; [|apply Rabs_le; lra].
  replace (R - IZR m * C) with ((R - h) + ((q - IZR m) * C + q * (k - C))) by (rewrite <- EQ; ring).
  eapply Rle_trans; [apply Rabs_triang|]. eapply Rle_trans; [apply Rplus_le_compat_l, Rabs_triang|]. rewrite !Rabs_mult, (Rabs_pos_eq C) by lra.
  rewrite (Rabs_minus_sym k C).
  assert (P1 : Rabs (q - IZR m) * C <= (/ 2 + 50 * u) * C) by (apply Rmult_le_compat_r; lra).
  assert (P2 : Rabs q * Rabs (C - k) <= 11 * (2 * u * C)) by (apply Rmult_le_compat; auto using Rabs_pos). lra.
Qed.

(** the multiple of a full turn *)
Lemma round_turn x : DNorm x -> Rabs (DV x) <= bp 38 ->
  exists z, DNorm (d_round x) /\ DV (d_round x) = IZR z /\ (Rabs (DV x - IZR z) <= 501 / 1000 \/ Rabs (DV x - IZR z - 3 / 2) <= / 1000).
Proof.
  intros N H. assert (Nx := N). assert (Lo := DNorm_lo x N). assert (HH := DNorm_hi_rel x N). destruct N as [[F0 F1] _].
  assert (XL : DV x = V (d0 x) + V (d1 x)) by reflexivity.
  set (h := V (d0 x)) in *. set (l := V (d1 x)) in *. set (X := DV x) in *. clearbody X.
  assert (B38 := bpow_gt_0 radix2 38). assert (Bh : Rabs h <= 2 * bp 38) by lra.
  assert (Bl : Rabs l <= / 10000). { apply Rle_trans with (1 := Lo). apply Rle_trans with (u * (2 * bp 38)); [apply Rmult_le_compat_l; lra|]. change (bp 38) with 274877906944. lra. }
  assert (Bl' := Rabs_def2' _ _ Bl).
  assert (B39 : 2 * bp 38 = bp 39) by (symmetry; exact (bp_split 38 1 ltac:(lia))).
  assert (Hh : FV (fround (d0 x)) (IZR (Rround_away h))) by (apply fround_ok; exact F0).
  assert (Hl : FV (fround (d1 x)) (IZR (Rround_away l))) by (apply fround_ok; exact F1).
  assert (Xh : FV (d0 x) h) by (split; [exact F0|reflexivity]). assert (Xl : FV (d1 x) l) by (split; [exact F1|reflexivity]).
  assert (EL : Rround_away l = 0%Z) by (apply Rr_imp; simpl; lra). rewrite EL in Hl.
  assert (E := Rr_err h). set (Z0 := Rround_away h) in *. assert (E' := Rabs_def2' _ _ E).
  assert (P39 : 1 <= bp 39) by (change 1 with (bp 0); apply bpow_le; lia). assert (B40 : bp 40 = 2 * bp 39) by exact (bp_split 39 1 ltac:(lia)).
  assert (BZ : Rabs (IZR Z0) <= bp 40). { apply Rabs_def2' in Bh. apply Rabs_le. lra. }
  assert (B41 : bp 41 = 2 * bp 40) by exact (bp_split 40 1 ltac:(lia)).
  rewrite d_round_unf. cbv zeta. rewrite renorm2_quick.
  destruct (near_eps (fround (d0 x)) (d0 x)) eqn:T.
  - exists Z0. assert (R := quick_big _ _ _ _ Hh Hl). rewrite Rplus_0_r, Rabs_R0 in R.
    specialize (R ltac:(apply bpow_ge_0) ltac:(left; apply Rabs_pos)).
    specialize (R ltac:(apply Rle_lt_trans with (bp 40); [apply rn_B; [lia|exact BZ]|apply bpow_lt; lia])).
    apply DNorm_FV2 in R. 2: { f_equal. ring. }
    destruct R as [R1 R2]. split; [exact R1|]. rewrite R2. split; [ring|]. left. apply Rabs_le. lra.
  - destruct (near_half (fround (d0 x)) (d0 x) (d1 x)) eqn:T2.
    + rewrite (near_half_test _ _ _ _ _ _ Hh Xh Xl) in T2 by lra. apply andb_true_iff in T2. destruct T2 as [T2 _].
      assert (SB : FV (fsub (fround (d0 x)) F64.f1) (IZR (Z0 - 1))).
      { destruct FV_one as [G1 G2]. destruct Hh as [G3 G4].
        assert (BM : Rabs (IZR Z0 - 1) <= bp 41) by (apply Rabs_def2' in BZ; apply Rabs_le; lra).
        assert (FM : fmt (IZR Z0 - 1)).
        { rewrite <- minus_IZR in BM |- *. apply fmt_mult2 with 0%Z. lia. apply mult2_IZR. apply Rle_trans with (1 := BM). apply bpow_le. lia. }
        destruct (fsub_ok _ _ G3 G1) as [G5 [G6 _]].
        { rewrite G4, G2. apply Rle_lt_trans with (bp 41); [|apply bpow_lt; lia]. apply rn_B; [lia|exact BM]. }
        split; auto. rewrite G6, G4, G2, minus_IZR. now apply rn_id. }
      destruct (DNorm_single _ _ SB) as [R1 R2]. exists (Z0 - 1)%Z. split; [exact R1|]. split; [exact R2|].
      destruct (Rlt_bool_spec (Rabs (rn (Rabs (rn (IZR Z0 - h)) - / 2))) (bp (-52))) as [T3|T3]; [|discriminate].
      assert (B52 : bp (-52) <= / 100000). { apply Rle_trans with (bp (-20)); [apply bpow_le; lia|]. cbn. lra. }
      assert (S75 : bp (-1075) <= u) by (rewrite <- u_bp; apply bpow_le; lia).
      set (d := IZR Z0 - h) in *. assert (D1 := rn_err d). assert (D1' : Rabs (rn d - d) <= 2 * u) by lra.
      assert (BD : Rabs (rn d) <= 1). { replace (rn d) with (rn d - d + d) by ring. eapply Rle_trans; [apply Rabs_triang|]. lra. }
      set (e := Rabs (rn d) - / 2) in *. assert (PE := Rabs_pos (rn d)).
      assert (BE : Rabs e <= 1) by (unfold e; apply Rabs_le; lra). assert (D2 := rn_err e). assert (D2' : Rabs (rn e - e) <= 2 * u) by lra.
      apply Rabs_def2' in D2', D1'. apply Rabs_def2 in T3.
      assert (D3 : - / 50000 <= e <= / 50000) by lra. unfold e in D3.
      rewrite minus_IZR. unfold Rabs in D3. unfold d in *. destruct (Rcase_abs (rn (IZR Z0 - h))).
      * right. apply Rabs_le. lra.
      * left. apply Rabs_le. lra.
    + destruct (DNorm_single _ _ Hh) as [R1 R2]. exists Z0. split; [exact R1|]. split; [exact R2|]. left. apply Rabs_le. lra.
Qed.
(** subtracting a multiple of a constant *)
Lemma sub_mult r zd m c C M rho : DNorm r -> DNorm zd -> DV zd = IZR m -> DNorm c -> Rabs (DV c - C) <= 4 * vv * C -> 0 < C <= 7 ->
  Rabs (DV r) <= bp 60 -> Rabs (IZR m) <= bp 60 -> Rabs (IZR m) * C <= M -> Rabs (DV r - IZR m * DV c) <= rho ->
  DNorm (d_sub r (d_mul zd c)) /\ Rabs (DV (d_sub r (d_mul zd c)) - (DV r - IZR m * C)) <= 1401 / 100 * vv * M + 6 * vv * rho + 2 * tiny /\
  Rabs (DV (d_sub r (d_mul zd c)) - (DV r - IZR m * DV c)) <= 1002 / 100 * vv * M + 6 * vv * rho + 2 * tiny.
Proof.
  intros Nr Nz Ez Nc Ec BC Br Bm BM Brho. destruct tiny_le as [T0 T1].
  assert (B6 := bpow_gt_0 radix2 60). assert (B100 : bp 100 = bp 40 * bp 60) by (rewrite <- bpow_plus; reflexivity). assert (B40 : 1000 <= bp 40) by (apply Rle_trans with (bp 10); [cbn; lra|apply bpow_le; lia]).
  assert (L100 : 1000 * bp 60 <= bp 100) by (rewrite B100; apply Rmult_le_compat_r; lra).
  assert (Bc : Rabs (DV c) <= 8). { replace (DV c) with (DV c - C + C) by ring. eapply Rle_trans; [apply Rabs_triang|]. rewrite (Rabs_pos_eq C) by lra. lra. }
  set (k := Rabs (IZR m)) in *. assert (K0 : 0 <= k) by apply Rabs_pos.
  destruct (mul_abs zd c Nz Nc) as [N1 E1]; [rewrite Ez; fold k; lra|apply b100; lra|]. rewrite Ez in E1.
  assert (P1 : Rabs (IZR m * (DV c - C)) <= 4 * vv * M). { rewrite Rabs_mult. fold k. apply Rle_trans with (k * (4 * vv * C)); [apply Rmult_le_compat_l; lra|]. lra. }
  assert (M0 : 0 <= M) by (apply Rle_trans with (2 := BM); apply Rmult_le_pos; lra).
  assert (P2 : Rabs (IZR m * DV c) <= 10001 / 10000 * M).
  { rewrite Rabs_mult. fold k. apply Rle_trans with (k * (10001 / 10000 * C)); [apply Rmult_le_compat_l; [lra|]|lra]. apply Rabs_def2' in Ec. apply Rabs_le. lra. }
  set (p := DV (d_mul zd c)) in *.
  assert (P3 : Rabs (p - IZR m * DV c) <= 10002 / 1000 * vv * M + tiny) by lra.
  assert (P3' := Rabs_def2' _ _ P3). assert (VM : 0 <= vv * M) by (apply Rmult_le_pos; lra).
  assert (BP : Rabs p <= bp 100). { replace p with (p - IZR m * DV c + IZR m * DV c) by ring. eapply Rle_trans; [apply Rabs_triang|].
    assert (Rabs (IZR m * DV c) <= 8 * bp 60). { rewrite Rabs_mult. fold k. rewrite Rmult_comm. apply Rmult_le_compat; auto using Rabs_pos. }
    assert (P4 : Rabs (p - IZR m * DV c) <= 10 * vv * (8 * bp 60) + tiny) by lra. assert (1 <= bp 60) by (change 1 with (bp 0); apply bpow_le; lia). lra. }
  destruct (sub_abs r (d_mul zd c) Nr N1) as [N2 E2]; [lra|fold p; exact BP|]. fold p in E2.
  split; [exact N2|]. set (t := DV (d_sub r (d_mul zd c))) in *.
  assert (Q1 : Rabs (DV r - p) <= rho + (10002 / 1000 * vv * M + tiny)).
  { replace (DV r - p) with ((DV r - IZR m * DV c) + - (p - IZR m * DV c)) by ring. eapply Rle_trans; [apply Rabs_triang|]. rewrite Rabs_Ropp. lra. }
  assert (Q2 : Rabs (t - (DV r - p)) <= 6 * vv * rho + / 1000 * vv * M + / 2 * tiny).
  { eapply Rle_trans; [exact E2|]. apply Rle_trans with (6 * vv * (rho + (10002 / 1000 * vv * M + tiny))); [apply Rmult_le_compat_l; lra|].
    assert (6 * vv * (10002 / 1000) * (vv * M) <= / 1000 * (vv * M)) by (apply Rmult_le_compat_r; lra). assert (6 * vv * tiny <= / 2 * tiny) by (apply Rmult_le_compat_r; lra). lra. }
  assert (Q3 : Rabs (t - (DV r - IZR m * DV c)) <= 1002 / 100 * vv * M + 6 * vv * rho + 2 * tiny).
  { replace (t - (DV r - IZR m * DV c)) with ((t - (DV r - p)) + - (p - IZR m * DV c)) by ring. eapply Rle_trans; [apply Rabs_triang|]. rewrite Rabs_Ropp. lra. }
  split; [|exact Q3].
  replace (t - (DV r - IZR m * C)) with ((t - (DV r - p)) + - (p - IZR m * DV c) + - (IZR m * (DV c - C))) by ring.
  eapply Rle_trans; [apply Rabs_triang|]. eapply Rle_trans; [apply Rplus_le_compat_r, Rabs_triang|]. rewrite !Rabs_Ropp. lra.
Qed.
Lemma const_rel c C : approx (DV c) C 1 (-104) -> 0 < C -> Rabs (DV c - C) <= 4 * vv * C.
Proof.
  unfold approx. intros H P. rewrite (Rabs_pos_eq C) in H by lra. change (IZR 1) with 1 in H. rewrite Rmult_1_l in H. change (-104)%Z with (-106 + 2)%Z in H.
  rewrite bpow_plus, vv_bp in H. change (bp 2) with 4 in H. lra.
Qed.
Lemma pi_b : 314159 / 100000 <= PI <= 314160 / 100000. Proof. split; consts. Qed.
Lemma consts_b : (DNorm D_TAU /\ Rabs (DV D_TAU - 2 * PI) <= 4 * vv * (2 * PI)) /\ (DNorm D_FRAC_PI_2 /\ Rabs (DV D_FRAC_PI_2 - PI / 2) <= 4 * vv * (PI / 2)) /\
  (DNorm D_FRAC_PI_16 /\ Rabs (DV D_FRAC_PI_16 - PI / 16) <= 4 * vv * (PI / 16)).
Proof.
  assert (P := pi_b). destruct d_TAU_ok as [A1 A2], d_FRAC_PI_2_ok as [B1 B2], d_FRAC_PI_16_ok as [C1 C2].
  split; [|split]; (split; [assumption|apply const_rel; [assumption|lra]]).
Qed.
Lemma IZR_in lo hi m : IZR lo - 1 < IZR m -> IZR m < IZR hi + 1 -> (lo <= m <= hi)%Z.
Proof. intros H1 H2. rewrite <- minus_IZR in H1. rewrite <- plus_IZR in H2. apply lt_IZR in H1, H2. lia. Qed.

Definition turn_ok (j : Z) : Prop := (-2 <= j <= 2)%Z \/ j = 6%Z.
(** the reduction, up to the full turns *)
Lemma reduce_ok a : DNorm a -> bp (-700) <= Rabs (DV a) <= bp 40 ->
  exists z j k t, d_reduce a = (j, k, t) /\ DNorm t /\ Rabs (DV t) <= 985 / 10000 /\ turn_ok j /\ (-4 <= k <= 4)%Z /\
  Rabs (DV a - (DV t + IZR z * (2 * PI) + IZR j * (PI / 2) + IZR k * (PI / 16))) <= (1402 / 100 * Rabs (DV a) + 395) * vv /\
  (Rabs (DV a) <= 98 / 1000 -> z = 0%Z /\ j = 0%Z /\ k = 0%Z /\ Rabs (DV t - DV a) <= 181 / 10 * vv * Rabs (DV a)).
Proof.
  intros Na [L U]. destruct tiny_le as [T0 T1]. destruct consts_b as [[NT ET] [[NH EH] [NK EK]]]. assert (P := pi_b).
  assert (ET' := Rabs_def2' _ _ ET). assert (EH' := Rabs_def2' _ _ EH). assert (EK' := Rabs_def2' _ _ EK).
  set (A := DV a) in *. assert (PA := Rabs_pos A). assert (P7 := bpow_gt_0 radix2 (-700)). assert (P4 := bpow_gt_0 radix2 40).
  assert (BT : 62831 / 10000 <= DV D_TAU <= 62833 / 10000) by lra. assert (BH : 15707 / 10000 <= DV D_FRAC_PI_2 <= 15709 / 10000) by lra.
  assert (BK : 19634 / 100000 <= DV D_FRAC_PI_16 <= 19636 / 100000) by lra.
  unfold d_reduce. cbv zeta.
  assert (HT := DNorm_hi_rel _ NT). rewrite (Rabs_pos_eq (DV D_TAU)) in HT by lra. assert (HT2 := DNorm_val_rel _ NT).
  assert (HA := DNorm_hi_rel _ Na). assert (HA2 := DNorm_val_rel _ Na). fold A in HA, HA2.
  set (h := V (d0 D_TAU)) in *. set (g := V (d0 a)) in *.
  assert (Bh : 6 <= h <= 7). { assert (HT3 : Rabs (DV D_TAU - h) <= / 10) by lra. apply Rabs_def2' in HT3. lra. }
  assert (GA : Rabs A / 2 <= Rabs g <= 2 * Rabs A).
  { split; [|lra]. assert (K := Rabs_triang (A - g) g). replace (A - g + g) with A in K by ring. assert (K2 := Rabs_pos g). lra. }
  assert (IH : / 7 <= / h <= / 6) by (split; apply Rinv_le_contravar; lra).
  destruct (d_div_ok a D_TAU Na NT) as [Nq Eq].
  { fold h. lra. }
  { fold g h. right. assert (GQ : Rabs (g / h) = Rabs g * / h) by (unfold Rdiv; rewrite Rabs_mult, (Rabs_pos_eq (/ h)) by lra; reflexivity).
    rewrite GQ. assert (GI : Rabs g * / 7 <= Rabs g * / h <= Rabs g * / 6) by (split; apply Rmult_le_compat_l; try apply Rabs_pos; lra).
    assert (B9 : bp (-900) <= bp (-700) / 1000). { apply Rle_trans with (bp (-710)); [apply bpow_le; lia|]. assert (K : bp (-700) = 1024 * bp (-710)) by exact (bp_split (-710) 10 ltac:(lia)). assert (K2 := bpow_gt_0 radix2 (-710)). lra. }
    assert (B10 : 4 * bp 40 <= bp 1010) by (replace (4 * bp 40) with (bp 42) by exact (bp_split 40 2 ltac:(lia)); apply bpow_le; lia). lra. }
  set (q0 := d_div a D_TAU) in *. unfold approx in Eq. rewrite vv_bp in Eq. fold A in Eq.
  assert (IT : 10000 / 62833 <= / DV D_TAU <= 10000 / 62831).
  { split; [replace (10000 / 62833) with (/ (62833 / 10000)) by lra|replace (10000 / 62831) with (/ (62831 / 10000)) by lra]; apply Rinv_le_contravar; lra. }
  assert (QA : Rabs (A / DV D_TAU) <= 10000 / 62831 * Rabs A). { unfold Rdiv at 1. rewrite Rabs_mult, (Rabs_pos_eq (/ DV D_TAU)) by lra. rewrite Rmult_comm. apply Rmult_le_compat_r; lra. }
  assert (EQ : A / DV D_TAU * DV D_TAU = A) by (field; lra). set (Q := A / DV D_TAU) in *.
  assert (B38 : bp 40 = 4 * bp 38) by exact (bp_split 38 2 ltac:(lia)). assert (P38 := bpow_gt_0 radix2 38).
  assert (C40 : bp 40 = 1099511627776) by reflexivity.
  assert (EQ1 : Rabs (DV q0 - Q) <= / 1000000) by lra. assert (EQ1' := Rabs_def2' _ _ EQ1).
  destruct (round_turn q0 Nq) as (z & Nz & Ez & Cz).
  { replace (DV q0) with (DV q0 - Q + Q) by ring. eapply Rle_trans; [apply Rabs_triang|]. lra. }
  set (zd := d_round q0) in *.
  assert (Cz' : Rabs (Q - IZR z) <= 5011 / 10000 \/ Rabs (Q - IZR z - 3 / 2) <= 11 / 10000).
  { destruct Cz as [C|C]; apply Rabs_def2' in C; [left|right]; apply Rabs_le; lra. }
  assert (RHO : Rabs (A - IZR z * DV D_TAU) <= 315 / 100 \/ Rabs (A - IZR z * DV D_TAU - 3 * PI) <= 1 / 100).
  { destruct Cz' as [C|C]; [left|right].
    - replace (A - IZR z * DV D_TAU) with ((Q - IZR z) * DV D_TAU) by (rewrite <- EQ; ring). rewrite Rabs_mult, (Rabs_pos_eq (DV D_TAU)) by lra.
      apply Rle_trans with (5011 / 10000 * (62833 / 10000)); [apply Rmult_le_compat; auto using Rabs_pos; lra|lra].
    - replace (A - IZR z * DV D_TAU - 3 * PI) with ((Q - IZR z - 3 / 2) * DV D_TAU + 3 / 2 * (DV D_TAU - 2 * PI)) by (rewrite <- EQ; field).
      eapply Rle_trans; [apply Rabs_triang|]. rewrite !Rabs_mult, (Rabs_pos_eq (DV D_TAU)), (Rabs_pos_eq (3 / 2)) by lra.
      assert (K : Rabs (Q - IZR z - 3 / 2) * DV D_TAU <= 11 / 10000 * (62833 / 10000)) by (apply Rmult_le_compat; auto using Rabs_pos; lra). lra. }
  assert (RHO1 : Rabs (A - IZR z * DV D_TAU) <= 95 / 10).
  { destruct RHO as [C|C]; [lra|]. apply Rabs_def2' in C. apply Rabs_le. lra. }
  assert (ZB : Rabs (IZR z) * (2 * PI) <= 100001 / 100000 * Rabs A + 96 / 10).
  { assert (K : Rabs (IZR z) * DV D_TAU <= Rabs A + 95 / 10).
    { rewrite <- (Rabs_pos_eq (DV D_TAU)) at 1 by lra. rewrite <- Rabs_mult. replace (IZR z * DV D_TAU) with (A + - (A - IZR z * DV D_TAU)) by ring. eapply Rle_trans; [apply Rabs_triang|]. rewrite Rabs_Ropp. lra. }
    assert (K2 : Rabs (IZR z) * (2 * PI) <= Rabs (IZR z) * (100001 / 100000 * DV D_TAU)) by (apply Rmult_le_compat_l; [apply Rabs_pos|lra]). lra. }
  assert (B60 : 100 * bp 40 <= bp 60). { apply Rle_trans with (bp 47); [|apply bpow_le; lia]. replace (bp 47) with (128 * bp 40); [lra|]. symmetry. exact (bp_split 40 7 ltac:(lia)). }
  destruct (sub_mult a zd z D_TAU (2 * PI) (100001 / 100000 * Rabs A + 96 / 10) (95 / 10) Na Nz Ez NT ET ltac:(lra)) as (Nr & Er & Er2); auto.
  { fold A. lra. }
  { assert (Rabs (IZR z) * 6 <= Rabs (IZR z) * (2 * PI)) by (apply Rmult_le_compat_l; [apply Rabs_pos|lra]). lra. }
  fold A in Er, Er2. set (r := d_sub a (d_mul zd D_TAU)) in *.
  assert (Er3 : Rabs (DV r - (A - IZR z * DV D_TAU)) <= / 1000) by lra. assert (Er3' := Rabs_def2' _ _ Er3).
  assert (BR : Rabs (DV r) <= 9503 / 1000).
  { replace (DV r) with (DV r - (A - IZR z * DV D_TAU) + (A - IZR z * DV D_TAU)) by ring. eapply Rle_trans; [apply Rabs_triang|]. lra. }
  destruct (quot_floor r D_FRAC_PI_2 Nr NH ltac:(lra) ltac:(lra)) as (j & Fj & -> & Cj & Bj).
  set (fj := ffloor (fadd (fdiv (d0 r) (d0 D_FRAC_PI_2)) fhalf)) in *.
  destruct (d_single_norm fj (proj1 Fj)) as [Nj Ej]. rewrite (proj2 Fj) in Ej.
  assert (Cj' : Rabs (DV r - IZR j * DV D_FRAC_PI_2) <= 7855 / 10000) by lra.
  assert (TJ : turn_ok j).
  { apply Rabs_def2' in Cj. destruct RHO as [C|C]; apply Rabs_def2' in C; [left|right].
    - apply IZR_in; apply Rmult_lt_reg_r with (DV D_FRAC_PI_2); lra.
    - assert (K : (6 <= j <= 6)%Z); [|lia]. apply IZR_in; apply Rmult_lt_reg_r with (DV D_FRAC_PI_2); lra. }
  assert (BJ : Rabs (IZR j) <= 6). { rewrite <- abs_IZR. apply IZR_le. destruct TJ as [TJ|TJ]; lia. }
  destruct (sub_mult r (mkD fj f0) j D_FRAC_PI_2 (PI / 2) (6 * (PI / 2)) (7855 / 10000) Nr Nj Ej NH EH ltac:(lra)) as (Nt & Et & Et2); auto; try lra.
  { apply Rmult_le_compat_r; lra. }
  set (t1 := d_sub r (d_mul (mkD fj f0) D_FRAC_PI_2)) in *.
  assert (BT1 : Rabs (DV t1) <= 786 / 1000).
  { replace (DV t1) with (DV t1 - (DV r - IZR j * DV D_FRAC_PI_2) + (DV r - IZR j * DV D_FRAC_PI_2)) by ring. eapply Rle_trans; [apply Rabs_triang|]. lra. }
  destruct (quot_floor t1 D_FRAC_PI_16 Nt NK ltac:(lra) ltac:(lra)) as (k & Fk & -> & Ck & Bk).
  set (fk := ffloor (fadd (fdiv (d0 t1) (d0 D_FRAC_PI_16)) fhalf)) in *.
  destruct (d_single_norm fk (proj1 Fk)) as [Nk Ek]. rewrite (proj2 Fk) in Ek.
  assert (TK : (-4 <= k <= 4)%Z).
  { apply Rabs_def2' in Ck. apply Rabs_def2' in BT1. apply IZR_in; apply Rmult_lt_reg_r with (DV D_FRAC_PI_16); lra. }
  assert (BKK : Rabs (IZR k) <= 4) by (rewrite <- abs_IZR; apply IZR_le; lia).
  destruct (sub_mult t1 (mkD fk f0) k D_FRAC_PI_16 (PI / 16) (4 * (PI / 16)) (982 / 10000) Nt Nk Ek NK EK ltac:(lra)) as (Nt2 & Ev & Ev2); auto; try lra.
  { apply Rmult_le_compat_r; lra. }
  set (t2 := d_sub t1 (d_mul (mkD fk f0) D_FRAC_PI_16)) in *.
  exists z, j, k, t2. split; [reflexivity|]. split; [exact Nt2|]. split.
  { replace (DV t2) with (DV t2 - (DV t1 - IZR k * DV D_FRAC_PI_16) + (DV t1 - IZR k * DV D_FRAC_PI_16)) by ring. eapply Rle_trans; [apply Rabs_triang|]. lra. }
  split; [exact TJ|]. split; [exact TK|].
  split.
  { replace (A - (DV t2 + IZR z * (2 * PI) + IZR j * (PI / 2) + IZR k * (PI / 16))) with
     (- (DV r - (A - IZR z * (2 * PI))) + - (DV t1 - (DV r - IZR j * (PI / 2))) + - (DV t2 - (DV t1 - IZR k * (PI / 16)))) by ring.
    eapply Rle_trans; [apply Rabs_triang|]. eapply Rle_trans; [apply Rplus_le_compat_r, Rabs_triang|]. rewrite !Rabs_Ropp. lra. }
  intros SM. assert (A' := Rabs_def2' _ _ SM).
  assert (QS : Rabs Q <= 2 / 100) by lra. apply Rabs_def2' in QS.
  assert (Z0 : z = 0%Z).
  { assert (K : (0 <= z <= 0)%Z); [|lia]. destruct Cz' as [C|C]; apply Rabs_def2' in C; [apply IZR_in; lra|]. exfalso.
    assert (-2 < z < -1)%Z; [|lia]. split; apply lt_IZR; lra. }
  (* every step subtracts zero *)
  assert (TA : tiny <= / 1000000 * vv * Rabs A).
  { apply Rle_trans with (/ 1000000 * vv * bp (-700)); [|apply Rmult_le_compat_l; lra]. apply Rle_trans with (bp (-20) * vv * bp (-700)).
    - rewrite <- vv_bp, <- !bpow_plus. apply bpow_le. lia.
    - apply Rmult_le_compat_r; [lra|]. apply Rmult_le_compat_r; [lra|]. change (bp (-20)) with (/ 1048576). lra. }
  assert (STEP : forall x y c, DNorm x -> DNorm y -> DNorm c -> DV y = 0 -> Rabs (DV c) <= 8 -> Rabs (DV x) <= 1 ->
    Rabs (DV (d_sub x (d_mul y c)) - DV x) <= 601 / 100 * vv * Rabs (DV x) + 2 * tiny).
  { intros x y c N1 N2 N3 Z1 Bc Bx. destruct (mul_abs y c N2 N3) as [M1 M2]; [apply b100; rewrite Z1, Rabs_R0; lra|apply b100; lra|].
    rewrite Z1, Rmult_0_l, Rabs_R0, Rmult_0_r, Rplus_0_l, Rminus_0_r in M2.
    destruct (sub_abs x (d_mul y c) N1 M1) as [S1 S2]; [apply b100; lra|apply b100; lra|].
    set (p := DV (d_mul y c)) in *. set (s := DV (d_sub x (d_mul y c))) in *.
    assert (Rabs (DV x - p) <= Rabs (DV x) + tiny) by (unfold Rminus; eapply Rle_trans; [apply Rabs_triang|]; rewrite Rabs_Ropp; lra).
    replace (s - DV x) with ((s - (DV x - p)) + - p) by ring. eapply Rle_trans; [apply Rabs_triang|]. rewrite Rabs_Ropp.
    assert (6 * vv * Rabs (DV x - p) <= 6 * vv * (Rabs (DV x) + tiny)) by (apply Rmult_le_compat_l; lra). assert (Q0 := Rabs_pos (DV x)). lra. }
  assert (S1 := STEP a zd D_TAU Na Nz NT ltac:(rewrite Ez, Z0; reflexivity) ltac:(rewrite Rabs_pos_eq; lra) ltac:(fold A; lra)). fold r A in S1.
  assert (RA : Rabs (DV r) <= 1000001 / 1000000 * Rabs A). { replace (DV r) with (DV r - A + A) by ring. eapply Rle_trans; [apply Rabs_triang|]. lra. }
  assert (J0 : j = 0%Z).
  { assert (K : (0 <= j <= 0)%Z); [|lia]. apply Rabs_def2' in Cj. assert (RA' : Rabs (DV r) <= 99 / 1000) by lra. apply Rabs_def2' in RA'. apply IZR_in; apply Rmult_lt_reg_r with (DV D_FRAC_PI_2); lra. }
  assert (S2 := STEP r (mkD fj f0) D_FRAC_PI_2 Nr Nj NH ltac:(rewrite Ej, J0; reflexivity) ltac:(rewrite Rabs_pos_eq; lra) ltac:(lra)). fold t1 in S2.
  assert (TA1 : Rabs (DV t1) <= 1000002 / 1000000 * Rabs A). { replace (DV t1) with (DV t1 - DV r + DV r) by ring. eapply Rle_trans; [apply Rabs_triang|]. lra. }
  assert (K0 : k = 0%Z).
  { assert (K : (0 <= k <= 0)%Z); [|lia]. apply Rabs_def2' in Ck. assert (RA' : Rabs (DV t1) <= 98001 / 1000000) by lra. apply Rabs_def2' in RA'. apply IZR_in; apply Rmult_lt_reg_r with (DV D_FRAC_PI_16); lra. }
  assert (S3 := STEP t1 (mkD fk f0) D_FRAC_PI_16 Nt Nk NK ltac:(rewrite Ek, K0; reflexivity) ltac:(rewrite Rabs_pos_eq; lra) ltac:(lra)). fold t2 in S3.
  split; [exact Z0|]. split; [exact J0|]. split; [exact K0|].
  replace (DV t2 - A) with ((DV t2 - DV t1) + (DV t1 - DV r) + (DV r - A)) by ring. eapply Rle_trans; [apply Rabs_triang|]. eapply Rle_trans; [apply Rplus_le_compat_r, Rabs_triang|]. lra.
Qed.
