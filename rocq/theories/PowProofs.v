(** * Accuracy of powi (lemmas) *)
From Coq Require Import ZArith Reals Lra Lia Psatz Bool.
From Flocq Require Import Core IEEE754.BinarySingleNaN.
From Verif Require Import RN F64 Prim DoubleM QuadM Spec F64Facts EFT DWAdd DAddProofs DMulProofs ExactProofs OrderProofs SpecialProofs DDivProofs.
Local Open Scope R_scope.

Notation d9 := (9 * bp (-106)).
Lemma d9_small : 0 < d9 <= / 9007199254740992. 
Proof. assert (K := bpow_gt_0 radix2 (-106)). split; [lra|]. 
  replace (bp (-106)) with (u * u) by (change (-106)%Z with (-53 + -53)%Z; now rewrite bpow_plus). lra. Qed.

(** r is e up to n factors (1 + d9) *)
Definition near (r e : R) (n : nat) : Prop := Rabs (r - e) <= ((1 + d9) ^ n - 1) * Rabs e.

Lemma pow_ge1 n : 1 <= (1 + d9) ^ n.
Proof. apply pow_R1_Rle. generalize d9_small. lra. Qed.

Lemma near_step a A na b B nb r :
  near a A na -> near b B nb -> approx r (a * b) 9 (-106) -> near r (A * B) (na + nb + 1).
Proof.
  unfold near, approx. intros HA HB HR.
  assert (P1 := pow_ge1 na). assert (P2 := pow_ge1 nb).
  rewrite !pow_add, pow_1. set (p := (1 + d9) ^ na) in *. set (q := (1 + d9) ^ nb) in *.
  assert (D := proj1 d9_small). set (d := d9) in *. change (9 * bp (-106)) with d in HR.
  assert (KA := tri _ _ _ _ HA (Rle_refl _)). assert (KB := tri _ _ _ _ HB (Rle_refl _)).
  assert (PA := Rabs_pos A). assert (PB := Rabs_pos B). assert (Pa := Rabs_pos a). assert (Pb := Rabs_pos b).
  assert (Hab : Rabs (a * b) <= p * q * (Rabs A * Rabs B)).
  { rewrite Rabs_mult. apply Rle_trans with ((p * Rabs A) * (q * Rabs B)); [|lra]. apply Rmult_le_compat; auto; lra. }
  assert (E : Rabs (a * b - A * B) <= (p * q - 1) * (Rabs A * Rabs B)).
  { replace (a * b - A * B) with ((a - A) * b + A * (b - B)) by ring.
    eapply Rle_trans. { apply triP. rewrite Rabs_mult. apply Rmult_le_compat; [apply Rabs_pos|auto|exact HA|exact KB].
      rewrite Rabs_mult. apply Rmult_le_compat_l; [auto|exact HB]. }
    right. ring. }
  replace (r - A * B) with ((r - a * b) + (a * b - A * B)) by ring.
  eapply Rle_trans. { apply triP. exact HR. exact E. }
  rewrite (Rabs_mult A B). assert (d * Rabs (a * b) <= d * (p * q * (Rabs A * Rabs B))) by (apply Rmult_le_compat_l; lra). lra.
Qed.

Lemma near_refl r : near r r 0.
Proof. unfold near. rewrite Rminus_diag_eq by reflexivity. rewrite Rabs_R0. simpl. lra. Qed.

Lemma bern n : IZR (Z.of_nat n) * d9 <= / 10 -> (1 + d9) ^ n <= 1 + 10 / 9 * IZR (Z.of_nat n) * d9.
Proof.
  assert (D := proj1 d9_small). set (d := d9) in *. induction n as [|n IH]; intros H. { simpl. lra. }
  rewrite Nat2Z.inj_succ, <- Z.add_1_r, plus_IZR in *. 
  assert (P0 : 0 <= IZR (Z.of_nat n)) by (apply IZR_le; lia).
  specialize (IH ltac:(lra)). simpl pow. set (k := IZR (Z.of_nat n)) in *.
  apply Rle_trans with ((1 + d) * (1 + 10 / 9 * k * d)). { apply Rmult_le_compat_l; lra. }
  assert (k * d * d <= / 10 * d). { apply Rmult_le_compat_r; lra. } lra.
Qed.
Definition NMAX : Z := 2147483648.
Lemma bern_max n : (Z.of_nat n <= NMAX)%Z -> (1 + d9) ^ n <= 1 + 10 / 9 * IZR (Z.of_nat n) * d9 /\ (1 + d9) ^ n <= 1001 / 1000.
Proof.
  intros H. apply IZR_le in H. change (IZR NMAX) with 2147483648 in H.
  assert (D := d9_small). set (d := d9) in *.
  assert (P0 : 0 <= IZR (Z.of_nat n)) by (apply IZR_le; lia).
  assert (K : IZR (Z.of_nat n) * d <= 2147483648 * / 9007199254740992) by (apply Rmult_le_compat; lra).
  assert (B := bern n). fold d in B. specialize (B ltac:(lra)). split; [auto|]. lra.
Qed.

Lemma near_approx r e n : (Z.of_nat n <= NMAX)%Z -> near r e n -> approx r e (10 * Z.of_nat n) (-106).
Proof.
  intros H K. destruct (bern_max n H) as [B _]. unfold near in K. unfold approx. rewrite mult_IZR.
  eapply Rle_trans. exact K. apply Rmult_le_compat_r. apply Rabs_pos. lra.
Qed.

(** leading part of an approximation *)
Lemma near_hi x e n : (Z.of_nat n <= NMAX)%Z -> DNorm x -> near (DV x) e n ->
  99 / 100 * Rabs e <= Rabs (V (d0 x)) <= 101 / 100 * Rabs e.
Proof.
  intros H N K. destruct (bern_max n H) as [_ B]. unfold near in K.
  assert (P := Rabs_pos e).
  assert (K1 : Rabs (DV x - e) <= / 1000 * Rabs e). { eapply Rle_trans. exact K. apply Rmult_le_compat_r; lra. }
  assert (A1 := tri _ _ _ _ K1 (Rle_refl _)). assert (A2 := tri2 _ _ _ _ K1 (Rle_refl (Rabs (DV x)))).
  assert (A3 := DNorm_hi_rel x N). assert (A4 := DNorm_val_rel x N). assert (A5 := tri _ _ _ _ A4 (Rle_refl _)).
  assert (PH := Rabs_pos (V (d0 x))). split; lra.
Qed.

Section Loop.
Variables (X : R) (N : nat).
Hypothesis HN : (Z.of_nat N <= NMAX)%Z.
Hypothesis W : forall j, (j <= N)%nat -> bp (-890) <= Rabs (X ^ j) <= bp 1010.

Definition st (s : Double) (p a : nat) : Prop := DNorm s /\ near (DV s) (X ^ p) a.

Lemma win_prod s p a r q b : st s p a -> st r q b -> (p + q <= N)%nat -> (a <= N)%nat -> (b <= N)%nat ->
  bp (-900) <= Rabs (V (d0 s) * V (d0 r)) <= bp 1014.
Proof.
  intros [Ns Hs] [Nr Hr] L La Lb.
  assert (H1 := near_hi s _ a ltac:(lia) Ns Hs). assert (H2 := near_hi r _ b ltac:(lia) Nr Hr).
  assert (K := W (p + q) L). rewrite pow_add, Rabs_mult in K. rewrite Rabs_mult.
  set (A := Rabs (X ^ p)) in *. set (B := Rabs (X ^ q)) in *.
  set (c := Rabs (V (d0 s))) in *. set (d := Rabs (V (d0 r))) in *.
  assert (PA : 0 <= A) by apply Rabs_pos. assert (PB : 0 <= B) by apply Rabs_pos.
  assert (K1 : (99/100 * A) * (99/100 * B) <= c * d) by (apply Rmult_le_compat; lra).
  assert (K2 : c * d <= (101/100 * A) * (101/100 * B)) by (apply Rmult_le_compat; try lra; apply Rabs_pos).
  assert (G1 := bpow_gt_0 radix2 (-890)). assert (G2 := bpow_gt_0 radix2 1010).
  assert (E1 := bp_split (-900) 10 ltac:(lia)). change (-900 + 10)%Z with (-890)%Z in E1. change (2 ^ 10)%Z with 1024%Z in E1.
  assert (E2 := bp_split 1010 4 ltac:(lia)). change (1010 + 4)%Z with 1014%Z in E2. change (2 ^ 4)%Z with 16%Z in E2.
  assert (0 <= A * B) by (apply Rmult_le_pos; auto). split; lra.
Qed.

Lemma st_mul s p a r q b : st s p a -> st r q b -> (p + q <= N)%nat -> (a <= N)%nat -> (b <= N)%nat ->
  st (d_mul s r) (p + q) (a + b + 1).
Proof.
  intros Hs Hr L La Lb. assert (K := win_prod _ _ _ _ _ _ Hs Hr L La Lb). destruct Hs as [Ns Hs], Hr as [Nr Hr].
  assert (B : bp 1014 <= bp 1015) by (apply bpow_le; lia).
  destruct (d_mul_ok s r Ns Nr) as [K1 K2]. { right. split; lra. }
  split; auto. rewrite pow_add. eapply near_step; eauto.
Qed.
Lemma st_sqr r q b : st r q b -> (q + q <= N)%nat -> (b <= N)%nat -> st (d_sqr r) (q + q) (b + b + 1).
Proof.
  intros Hr L Lb. assert (K := win_prod _ _ _ _ _ _ Hr Hr L Lb Lb). destruct Hr as [Nr Hr].
  rewrite Rabs_pos_eq in K by nra.
  destruct (d_sqr_ok r Nr) as [K1 K2]. { right. exact K. }
  split; auto. rewrite pow_add. eapply near_step; eauto.
Qed.

Lemma powi_loop_ok i : forall s r p q a b, st s p a -> st r q b -> (p + q * Pos.to_nat i <= N)%nat ->
  (a + (b + 1) * Pos.to_nat i <= N)%nat ->
  st (d_powi_loop s r i) (p + q * Pos.to_nat i) (a + (b + 1) * Pos.to_nat i).
Proof.
  induction i as [i IH|i IH|]; intros s r p q a b Hs Hr L1 L2; cbn [d_powi_loop].
  - rewrite Pos2Nat.inj_xI in *. assert (P := Pos2Nat.is_pos i).
    assert (M := st_mul _ _ _ _ _ _ Hs Hr ltac:(nia) ltac:(nia) ltac:(nia)).
    assert (S := st_sqr _ _ _ Hr ltac:(nia) ltac:(nia)).
    assert (K := IH _ _ _ _ _ _ M S ltac:(nia) ltac:(nia)).
    replace (p + q * Datatypes.S (2 * Pos.to_nat i))%nat with (p + q + (q + q) * Pos.to_nat i)%nat by ring.
    replace (a + (b + 1) * Datatypes.S (2 * Pos.to_nat i))%nat with (a + b + 1 + (b + b + 1 + 1) * Pos.to_nat i)%nat by ring. exact K.
  - rewrite Pos2Nat.inj_xO in *. assert (P := Pos2Nat.is_pos i).
    assert (S := st_sqr _ _ _ Hr ltac:(nia) ltac:(nia)).
    assert (K := IH _ _ _ _ _ _ Hs S ltac:(nia) ltac:(nia)).
    replace (p + q * (2 * Pos.to_nat i))%nat with (p + (q + q) * Pos.to_nat i)%nat by ring.
    replace (a + (b + 1) * (2 * Pos.to_nat i))%nat with (a + (b + b + 1 + 1) * Pos.to_nat i)%nat by ring. exact K.
  - change (Pos.to_nat 1) with 1%nat in *. rewrite !Nat.mul_1_r in *.
    replace (a + (b + 1))%nat with (a + b + 1)%nat by ring. apply st_mul; auto; lia.
Qed.
End Loop.

Lemma win_pow X n : bp (-890) <= Rabs X ^ n <= bp 1010 -> forall j, (j <= n)%nat -> bp (-890) <= Rabs (X ^ j) <= bp 1010.
Proof.
  intros [H1 H2] j L. rewrite <- RPow_abs. set (x := Rabs X) in *. assert (Px : 0 <= x) by apply Rabs_pos.
  destruct (Rle_or_lt 1 x) as [G|G].
  - split.
    + apply Rle_trans with 1. change 1 with (bp 0). apply bpow_le; lia. now apply pow_R1_Rle.
    + apply Rle_trans with (2 := H2). now apply Rle_pow.
  - assert (M : x ^ n <= x ^ j).
    { replace n with (j + (n - j))%nat by lia. rewrite pow_add. rewrite <- (Rmult_1_r (x ^ j)) at 2.
      apply Rmult_le_compat_l. now apply pow_le. destruct (n - j)%nat. simpl; lra. apply Rlt_le, pow_lt_1_compat; [lra|lia]. }
    split; [lra|]. apply Rle_trans with 1. destruct j. simpl; lra. apply Rlt_le, pow_lt_1_compat; [lra|lia]. change 1 with (bp 0). apply bpow_le; lia.
Qed.

Lemma d_pre_powi_fin x n : Fin (d0 x) -> V (d0 x) <> 0 -> n <> 0%Z -> d_pre_powi x n = None.
Proof.
  intros F N Nn. unfold d_pre_powi, d_is_nan, d_is_infinite, d_is_zero.
  rewrite (proj2 (Z.eqb_neq n 0) Nn), (Fin_nan _ F), (Fin_inf _ F).
  rewrite feqb_ok by (easy || apply Fin_0). now rewrite Req_bool_false.
Qed.

Definition powi_mag (x : Double) (n : Z) : Double := if (n >? 1)%Z then d_powi_loop D_ONE x (Z.to_pos n) else x.

Lemma powi_mag_ok x n : DNorm x -> (1 <= n <= 2147483647)%Z -> bp (-890) <= Rabs (DV x) ^ Z.to_nat n <= bp 1010 ->
  DNorm (powi_mag x n) /\ near (DV (powi_mag x n)) (DV x ^ Z.to_nat n) (Z.to_nat n).
Proof.
  intros Nx Hn H. unfold powi_mag. destruct (Z.gtb_spec n 1) as [G|G].
  - assert (W := win_pow _ _ H). set (N := Z.to_nat n) in *.
    assert (HN : (Z.of_nat N <= NMAX)%Z) by (unfold N, NMAX; lia).
    assert (EN : Pos.to_nat (Z.to_pos n) = N) by (unfold N; rewrite <- Z2Nat.inj_pos; f_equal; lia).
    assert (S0 : st (DV x) D_ONE 0 0).
    { assert (F1 : fmt 1) by (rewrite <- V_1; auto with fmt).
      split. { apply DNorm_mk with 1; [apply Fin_1|apply Fin_0| |]; rewrite (rn_id 1 F1). apply V_1. change (V f0) with 0. ring. }
      replace (DV D_ONE) with 1. simpl pow. apply near_refl. unfold DV, D_ONE; cbn [d0 d1]. rewrite V_1. change (V f0) with 0. ring. }
    assert (S1 : st (DV x) x 1 0). { split; auto. rewrite pow_1. apply near_refl. }
    assert (K := powi_loop_ok (DV x) N HN W (Z.to_pos n) D_ONE x 0 1 0 0 S0 S1). rewrite EN in K.
    replace (0 + 1 * N)%nat with N in K by ring. replace (0 + (0 + 1) * N)%nat with N in K by ring. exact (K (Nat.le_refl _) (Nat.le_refl _)).
  - replace n with 1%Z by lia. change (Z.to_nat 1) with 1%nat. split; auto. rewrite pow_1.
    unfold near. rewrite Rminus_diag_eq by reflexivity. rewrite Rabs_R0. apply Rmult_le_pos; [|apply Rabs_pos]. generalize (pow_ge1 1). lra.
Qed.

Lemma i32_chk_ok dbg n : (-2147483648 <= n <= 2147483647)%Z -> i32_chk dbg n = Val n.
Proof.
  intros H. unfold i32_chk, i32_min, i32_max.
  rewrite (proj2 (Z.leb_le _ _) (proj1 H)), (proj2 (Z.leb_le _ _) (proj2 H)). reflexivity.
Qed.

Lemma d_powi_pos dbg x n : d_pre_powi x n = None -> (1 <= n <= 2147483647)%Z -> d_powi dbg x n = Val (powi_mag x n).
Proof.
  intros H Hn. unfold d_powi. rewrite H, Z.abs_eq by lia. rewrite i32_chk_ok by lia. cbn [obind].
  destruct (Z.ltb_spec n 0); [lia|]. reflexivity.
Qed.
Lemma d_powi_neg dbg x n : d_pre_powi x (- n) = None -> (1 <= n <= 2147483647)%Z -> d_powi dbg x (- n) = Val (d_recip (powi_mag x n)).
Proof.
  intros H Hn. unfold d_powi. rewrite H, Z.abs_opp, Z.abs_eq by lia. rewrite i32_chk_ok by lia. cbn [obind].
  destruct (Z.ltb_spec (- n) 0); [|lia]. reflexivity.
Qed.

Lemma win_nz x n : DNorm x -> (1 <= n)%Z -> bp (-890) <= Rabs (DV x) ^ Z.to_nat n -> V (d0 x) <> 0.
Proof.
  intros N Hn H Z. assert (Z1 := DNorm_zero x Z N). unfold DV in H. rewrite Z, Z1, Rplus_0_r, Rabs_R0, pow_ne_zero in H by lia.
  assert (G := bpow_gt_0 radix2 (-890)). lra.
Qed.

Lemma powi_pos_ok dbg x n : DNorm x -> (1 <= n <= 2147483647)%Z -> bp (-890) <= Rabs (DV x) ^ Z.to_nat n <= bp 1010 ->
  exists r, d_powi dbg x n = Val r /\ DNorm r /\ approx (DV r) (DV x ^ Z.to_nat n) (10 * n) (-106).
Proof.
  intros N Hn H. assert (NZ := win_nz x n N ltac:(lia) (proj1 H)).
  exists (powi_mag x n). split. { apply d_powi_pos; auto. apply d_pre_powi_fin; auto. apply N. lia. }
  destruct (powi_mag_ok x n N Hn H) as [K1 K2]. split; auto.
  apply near_approx in K2. now rewrite Z2Nat.id in K2 by lia. unfold NMAX. lia.
Qed.

Lemma recip_near s e k : DNorm s -> (0 <= k <= 21474836480)%Z -> approx (DV s) e k (-106) ->
  bp (-890) <= Rabs e <= bp 890 ->
  DNorm (d_recip s) /\ approx (DV (d_recip s)) (/ e) (k + 17) (-106).
Proof.
  intros N Hk H W. unfold approx in H.
  assert (PE : 0 < Rabs e) by (generalize (bpow_gt_0 radix2 (-890)); lra).
  assert (NE : e <> 0) by (intros ->; rewrite Rabs_R0 in PE; lra).
  set (c := IZR k * bp (-106)) in *.
  assert (Kk : 0 <= IZR k <= 21474836480) by (split; apply IZR_le; lia).
  assert (B106 : 0 < bp (-106) <= u * u). { split. apply bpow_gt_0. right. change (-106)%Z with (-53 + -53)%Z. now rewrite bpow_plus. }
  assert (Hc : 0 <= c <= 21474836480 * (u * u)) by (unfold c; split; [apply Rmult_le_pos|apply Rmult_le_compat]; lra).
  assert (A1 := tri _ _ _ _ H (Rle_refl _)). assert (A2 := tri2 _ _ _ _ H (Rle_refl (Rabs (DV s)))).
  assert (CE : c * Rabs e <= 21474836480 * (u * u) * Rabs e) by (apply Rmult_le_compat_r; lra).
  assert (A3 := DNorm_hi_rel s N). assert (A4 := DNorm_val_rel s N). assert (A5 := tri _ _ _ _ A4 (Rle_refl _)).
  assert (PH := Rabs_pos (V (d0 s))).
  assert (H1 : 99/100 * Rabs e <= Rabs (V (d0 s)) <= 101/100 * Rabs e) by lra.
  assert (NS : V (d0 s) <> 0) by (intros Z; rewrite Z, Rabs_R0 in H1; lra).
  assert (F1 : fmt 1) by (rewrite <- V_1; auto with fmt).
  assert (N1 : DNorm D_ONE). { apply DNorm_mk with 1; [apply Fin_1|apply Fin_0| |]; rewrite (rn_id 1 F1). apply V_1. change (V f0) with 0. ring. }
  assert (V1 : DV D_ONE = 1) by (unfold DV, D_ONE; cbn [d0 d1]; rewrite V_1; change (V f0) with 0; ring).
  destruct (d_div_ok D_ONE s N1 N NS) as [K1 K2].
  { right. change (d0 D_ONE) with f1. rewrite V_1, Rabs_R1. split.
    - assert (B0 : bp 0 = 1) by reflexivity. rewrite <- B0. split; apply bpow_le; lia.
    - unfold Rdiv. rewrite Rmult_1_l, Rabs_inv.
      assert (E1 := bp_split (-900) 10 ltac:(lia)). change (-900 + 10)%Z with (-890)%Z in E1. change (2 ^ 10)%Z with 1024%Z in E1.
      assert (E2 := bp_split 890 2 ltac:(lia)). change (890 + 2)%Z with 892%Z in E2. change (2 ^ 2)%Z with 4%Z in E2.
      assert (G9 := bpow_gt_0 radix2 890). assert (G10 := bpow_gt_0 radix2 (-900)).
      split.
      + replace (bp (-900)) with (/ bp 900) by (rewrite <- bpow_opp; reflexivity). apply Rinv_le. lra.
        apply Rle_trans with (bp 892). lra. apply bpow_le; lia.
      + replace (bp 1010) with (/ bp (-1010)) by (rewrite <- bpow_opp; reflexivity). apply Rinv_le. apply bpow_gt_0.
        apply Rle_trans with (bp (-900)). apply bpow_le; lia. lra. }
  split; [exact K1|]. change (d_div D_ONE s) with (d_recip s) in *. unfold approx in *. rewrite V1 in K2.
  assert (NDs : DV s <> 0). { intros Z. rewrite Z, Rabs_R0 in A2. lra. }
  set (r := DV (d_recip s)) in *. set (S := DV s) in *.
  assert (PS : 0 < Rabs S) by now apply Rabs_pos_lt.
  unfold Rdiv in K2. rewrite Rmult_1_l in K2.
  assert (Q : Rabs (/ S) <= (1 + 2 * c) * Rabs (/ e)).
  { rewrite !Rabs_inv. apply Rmult_le_reg_r with (Rabs S * Rabs e). apply Rmult_lt_0_compat; auto.
    replace (/ Rabs S * (Rabs S * Rabs e)) with (Rabs e) by (field; lra).
    replace ((1 + 2 * c) * / Rabs e * (Rabs S * Rabs e)) with ((1 + 2 * c) * Rabs S) by (field; lra).
    assert (c * (Rabs e) <= (1 + c) * (c * Rabs e)). { assert (0 <= c * (c * Rabs e)) by (repeat apply Rmult_le_pos; lra). lra. }
    assert (c * (c * Rabs e) <= / 1000 * (c * Rabs e)). { apply Rmult_le_compat_r. apply Rmult_le_pos; lra. lra. }
    assert (c * ((1 - c) * Rabs e) <= c * Rabs S). { apply Rmult_le_compat_l; lra. } lra. }
  assert (D : Rabs (/ S - / e) <= c * Rabs (/ S)).
  { replace (/ S - / e) with (/ S * / e * - (S - e)) by (field; auto).
    rewrite !Rabs_mult, Rabs_Ropp. apply Rle_trans with (Rabs (/ S) * Rabs (/ e) * (c * Rabs e)).
    { apply Rmult_le_compat_l; auto. apply Rmult_le_pos; apply Rabs_pos. }
    right. rewrite (Rabs_inv e). field. lra. }
  replace (r - / e) with ((r - / S) + (/ S - / e)) by ring.
  eapply Rle_trans. { apply triP; [exact K2|exact D]. }
  rewrite <- Rmult_plus_distr_r. rewrite plus_IZR.
  assert (PI := Rabs_pos (/ e)). assert (PIS := Rabs_pos (/ S)).
  apply Rle_trans with ((16 * bp (-106) + c) * ((1 + 2 * c) * Rabs (/ e))).
  { apply Rmult_le_compat_l; lra. }
  rewrite <- Rmult_assoc. apply Rmult_le_compat_r; auto.
  replace ((IZR k + 17) * bp (-106)) with (c + 17 * bp (-106)) by (unfold c; ring).
  assert (C2 : c * c <= / 10 * bp (-106)).
  { unfold c at 1. apply Rle_trans with (IZR k * c * bp (-106)). right; ring. apply Rmult_le_compat_r. lra.
    apply Rle_trans with (21474836480 * (21474836480 * (u * u))). apply Rmult_le_compat; lra. lra. }
  assert (C3 : bp (-106) * c <= / 100 * bp (-106)). { rewrite Rmult_comm. apply Rmult_le_compat_r; lra. }
  lra.
Qed.

Lemma powi_neg_ok dbg x n : DNorm x -> (1 <= n <= 2147483647)%Z -> bp (-890) <= Rabs (DV x) ^ Z.to_nat n <= bp 890 ->
  exists r, d_powi dbg x (- n) = Val r /\ DNorm r /\ approx (DV r) (/ DV x ^ Z.to_nat n) (10 * n + 17) (-106).
Proof.
  intros N Hn H. assert (NZ := win_nz x n N ltac:(lia) (proj1 H)).
  exists (d_recip (powi_mag x n)). split. { apply d_powi_neg; auto. apply d_pre_powi_fin; auto. apply N. lia. }
  assert (B : bp 890 <= bp 1010) by (apply bpow_le; lia).
  destruct (powi_mag_ok x n N Hn ltac:(lra)) as [K1 K2].
  apply near_approx in K2; [|unfold NMAX; lia]. rewrite Z2Nat.id in K2 by lia.
  apply recip_near; auto. lia. now rewrite <- RPow_abs.
Qed.

(** special values *)
Lemma d_powi_zero_exp dbg x : d_powi dbg x 0 = Val D_ONE. Proof. reflexivity. Qed.
Lemma d_powi_nan dbg x n : n <> 0%Z -> is_nan (d0 x) = true -> d_powi dbg x n = Val D_NAN.
Proof. intros H N. unfold d_powi, d_pre_powi, d_is_nan. rewrite (proj2 (Z.eqb_neq n 0) H). unfold fis_nan. now rewrite N. Qed.
Lemma even_odd_n n : Z.even n = negb (Z.odd n). Proof. rewrite <- Z.negb_odd. reflexivity. Qed.
Lemma d_powi_zero dbg x n s : d0 x = B754_zero s -> n <> 0%Z ->
  d_powi dbg x n = Val (if (n >? 0)%Z then (if s && Z.odd n then D_NEG_ZERO else D_ZERO)
                        else (if s && Z.odd n then D_NEG_INFINITY else D_INFINITY)).
Proof.
  intros E H. unfold d_powi, d_pre_powi, d_is_nan, d_is_zero, d_is_sign_positive. rewrite (proj2 (Z.eqb_neq n 0) H), E, even_odd_n.
  destruct s; cbn -[Z.odd Z.gtb]; destruct (Z.odd n), (n >? 0)%Z; reflexivity.
Qed.
Lemma d_powi_inf dbg x n s : d0 x = B754_infinity s -> n <> 0%Z ->
  d_powi dbg x n = Val (if (n >? 0)%Z then (if s && Z.odd n then D_NEG_INFINITY else D_INFINITY)
                        else (if s && Z.odd n then D_NEG_ZERO else D_ZERO)).
Proof.
  intros E H. unfold d_powi, d_pre_powi, d_is_nan, d_is_zero, d_is_infinite, d_is_sign_positive. rewrite (proj2 (Z.eqb_neq n 0) H), E, even_odd_n.
  destruct s; cbn -[Z.odd Z.gtb]; destruct (Z.odd n), (n >? 0)%Z; reflexivity.
Qed.
Lemma q_powi_nan dbg x n : n <> 0%Z -> is_nan (q0 x) = true -> q_powi dbg x n = Val Q_NAN.
Proof. intros H N. unfold q_powi, q_pre_powi, q_is_nan. rewrite (proj2 (Z.eqb_neq n 0) H). unfold fis_nan. now rewrite N. Qed.
Lemma q_powi_zero dbg x n s : q0 x = B754_zero s -> n <> 0%Z ->
  q_powi dbg x n = Val (if (n >? 0)%Z then (if s && Z.odd n then Q_NEG_ZERO else Q_ZERO)
                        else (if s && Z.odd n then Q_NEG_INFINITY else Q_INFINITY)).
Proof.
  intros E H. unfold q_powi, q_pre_powi, q_is_nan, q_is_zero, q_is_sign_positive. rewrite (proj2 (Z.eqb_neq n 0) H), E, even_odd_n.
  destruct s; cbn -[Z.odd Z.gtb]; destruct (Z.odd n), (n >? 0)%Z; reflexivity.
Qed.
Lemma q_powi_inf dbg x n s : q0 x = B754_infinity s -> n <> 0%Z ->
  q_powi dbg x n = Val (if (n >? 0)%Z then (if s && Z.odd n then Q_NEG_INFINITY else Q_INFINITY)
                        else (if s && Z.odd n then Q_NEG_ZERO else Q_ZERO)).
Proof.
  intros E H. unfold q_powi, q_pre_powi, q_is_nan, q_is_zero, q_is_infinite, q_is_sign_positive. rewrite (proj2 (Z.eqb_neq n 0) H), E, even_odd_n.
  destruct s; cbn -[Z.odd Z.gtb]; destruct (Z.odd n), (n >? 0)%Z; reflexivity.
Qed.
Lemma powi_total dbg x y n : (-2147483648 < n <= 2147483647)%Z ->
  (exists r, d_powi dbg x n = Val r) /\ (exists r, q_powi dbg y n = Val r).
Proof.
  intros H. unfold d_powi, q_powi. rewrite i32_chk_ok by lia. cbn [obind].
  split; [destruct (d_pre_powi x n)|destruct (q_pre_powi y n)]; eauto.
Qed.
Lemma powi_min x : Fin (d0 x) -> V (d0 x) <> 0 ->
  d_powi true x (-2147483648) = Panicked /\ d_powi false x (-2147483648) = Val (d_div D_ONE x).
Proof.
  intros F N. unfold d_powi. rewrite d_pre_powi_fin by (auto || lia). split; reflexivity.
Qed.
Lemma q_pre_powi_fin x n : Fin (q0 x) -> V (q0 x) <> 0 -> n <> 0%Z -> q_pre_powi x n = None.
Proof.
  intros F N Nn. unfold q_pre_powi, q_is_nan, q_is_infinite, q_is_zero.
  rewrite (proj2 (Z.eqb_neq n 0) Nn), (Fin_nan _ F), (Fin_inf _ F).
  rewrite feqb_ok by (easy || apply Fin_0). now rewrite Req_bool_false.
Qed.
Lemma q_powi_min x : Fin (q0 x) -> V (q0 x) <> 0 ->
  q_powi true x (-2147483648) = Panicked /\ q_powi false x (-2147483648) = Val (q_div Q_ONE x).
Proof.
  intros F N. unfold q_powi. rewrite q_pre_powi_fin by (auto || lia). split; reflexivity.
Qed.
(** the shape of the Quad loop: powi(1), powi(2), powi(-1) *)
Lemma q_powi_small dbg x : Fin (q0 x) -> V (q0 x) <> 0 ->
  q_powi dbg x 1 = Val x /\ q_powi dbg x (-1) = Val (q_div Q_ONE x) /\
  q_powi dbg x 2 = Val (q_mul Q_ONE (q_sqr x)) /\ q_powi dbg x 3 = Val (q_mul (q_mul Q_ONE x) (q_sqr x)).
Proof. intros F N. unfold q_powi. rewrite !q_pre_powi_fin by (auto || lia). refine (conj _ (conj _ (conj _ _))); reflexivity. Qed.

(** squaring special values *)
Lemma quick_nan_l b : quick_two_sum fnan b = (fnan, fnan).
Proof. unfold quick_two_sum. rewrite fadd_nan_l, fsub_nan_l, fsub_nan_r. reflexivity. Qed.
Lemma renorm5_nan b c d e : exists r1 r2 r3, renorm5 fnan b c d e = (fnan, r1, r2, r3).
Proof.
  unfold renorm5. destruct (quick_two_sum d e) as [x s4]. destruct (quick_two_sum c x) as [x' s3]. destruct (quick_two_sum b x') as [x'' s2].
  assert (E : fne0 fnan = true) by reflexivity.
  rewrite !quick_nan_l; cbv beta iota; rewrite E; cbv beta iota. eauto.
Qed.
Lemma d_sqr_special x : is_finite (d0 x) = false -> d0 (d_sqr x) = fmul (d0 x) (d0 x) /\ (is_nan (d0 x) = false -> d_sqr x = D_INFINITY).
Proof.
  destruct x as [a b]; cbn [d0]. destruct a as [s|s| |s m e h]; try discriminate; intros _.
  - split; [destruct s; reflexivity|]. intros _. destruct s; reflexivity.
  - split; [|easy]. unfold d_sqr. replace (d_pre_sqr _) with (@None Double) by reflexivity. cbn [from_pre d0 d1].
    change (@B754_nan prec emax) with fnan. change (two_sqr fnan) with (fnan, fnan). unfold renorm2. now rewrite quick_nan_l.
Qed.
Lemma q_sqr_special x : is_finite (q0 x) = false -> q0 (q_sqr x) = fmul (q0 x) (q0 x) /\ (is_nan (q0 x) = false -> q_sqr x = Q_INFINITY).
Proof.
  destruct x as [a b c d]; cbn [q0]. destruct a as [s|s| |s m e h]; try discriminate; intros _.
  - split; [destruct s; reflexivity|]. intros _. destruct s; reflexivity.
  - split; [|easy]. unfold q_sqr. replace (q_pre_sqr _) with (@None Quad) by reflexivity. cbn [from_pre]. unfold q_sqr_core.
    change (q0 (mkQ B754_nan b c d)) with fnan. change (two_sqr fnan) with (fnan, fnan). cbv beta iota zeta.
    repeat match goal with |- context [let '(p, q) := ?t in _] => lazymatch t with renorm5 _ _ _ _ _ => fail | _ => destruct t end end.
    match goal with |- context [renorm5 fnan ?b ?c ?d ?e] => destruct (renorm5_nan b c d e) as [r1 [r2 [r3 K]]]; rewrite K end. reflexivity.
Qed.
