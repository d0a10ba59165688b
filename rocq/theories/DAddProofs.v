(** * Double addition and subtraction (lemmas) *)
From Coq Require Import ZArith Reals Lra Lia Psatz Bool.
From Flocq Require Import Core IEEE754.BinarySingleNaN.
From Verif Require Import RN F64 Prim DoubleM Spec F64Facts EFT DWAdd.
Local Open Scope R_scope.

Lemma Fin_nan a : Fin a -> fis_nan a = false.
Proof. unfold Fin. now destruct a. Qed.
Lemma Fin_inf a : Fin a -> fis_infinite a = false.
Proof. unfold Fin. now destruct a. Qed.

Lemma d_pre_add_fin x y : Fin (d0 x) -> Fin (d0 y) -> d_pre_add x y = None.
Proof.
  intros Fx Fy. unfold d_pre_add, d_is_nan, d_is_infinite.
  now rewrite (Fin_nan _ Fx), (Fin_nan _ Fy), (Fin_inf _ Fx), (Fin_inf _ Fy).
Qed.
Lemma d_pre_sub_fin x y : Fin (d0 x) -> Fin (d0 y) -> d_pre_sub x y = None.
Proof.
  intros Fx Fy. unfold d_pre_sub, d_is_nan, d_is_infinite.
  now rewrite (Fin_nan _ Fx), (Fin_nan _ Fy), (Fin_inf _ Fx), (Fin_inf _ Fy).
Qed.

Lemma DNorm_norm x : DNorm x -> rn (V (d0 x) + V (d1 x)) = V (d0 x).
Proof. intros [_ H]. symmetry. exact H. Qed.

Lemma DNorm_lo x : DNorm x -> Rabs (V (d1 x)) <= u * Rabs (V (d0 x)).
Proof. intros H. apply norm_lo; auto with fmt. now apply DNorm_norm. Qed.

Lemma DNorm_mk a b z : Fin a -> Fin b -> V a = rn z -> V b = z - rn z -> DNorm (mkD a b).
Proof.
  intros Fa Fb Ha Hb. split; [now split|]. unfold DV, RN; cbn [d0 d1].
  rewrite Ha, Hb. f_equal. ring.
Qed.

Lemma bp_split k m : (0 <= m)%Z -> bp (k + m) = IZR (2 ^ m) * bp k.
Proof.
  intros Hm. rewrite bpow_plus, Rmult_comm. f_equal. symmetry. apply (IZR_Zpower radix2). easy.
Qed.

(** the common tail of [add] and [sub] *)
Definition d_tail (s0 e0 s1 e1 : f64) : Double :=
  let '(s2, e2) := quick_two_sum s0 (fadd s1 e0) in
  let '(a, b) := renorm2 s2 (fadd e1 e2) in
  mkD a b.

Lemma d_tail_ok xh xl yh yl s0 e0 s1 e1 :
  fmt xh -> fmt xl -> fmt yh -> fmt yl -> rn (xh + xl) = xh -> rn (yh + yl) = yh ->
  Rabs xh <= bp 1015 -> Rabs yh <= bp 1015 ->
  Fin s0 -> Fin e0 -> Fin s1 -> Fin e1 ->
  V s0 = rn (xh + yh) -> V e0 = xh + yh - rn (xh + yh) ->
  V s1 = rn (xl + yl) -> V e1 = xl + yl - rn (xl + yl) ->
  DNorm (d_tail s0 e0 s1 e1) /\
  Rabs (DV (d_tail s0 e0 s1 e1) - (xh + xl + (yh + yl))) <= 6 * u * u * Rabs (xh + xl + (yh + yl)) /\
  exists w, V (d0 (d_tail s0 e0 s1 e1)) = rn w /\ V (d1 (d_tail s0 e0 s1 e1)) = w - rn w /\
    (forall k, (-1074 <= k)%Z -> mult2 k xh -> mult2 k xl -> mult2 k yh -> mult2 k yl -> mult2 k w).
Proof.
  intros Fxh Fxl Fyh Fyl Nx Ny Bx By Fs0 Fe0 Fs1 Fe1 Es0 Ee0 Es1 Ee1.
  destruct (dw_add_R xh xl yh yl Fxh Fxl Fyh Fyl Nx Ny) as [Q1 [Q2 [Q3 [Q4 Q5]]]].
  assert (Lx := norm_lo _ _ Fxh Fxl Nx). assert (Ly := norm_lo _ _ Fyh Fyl Ny).
  destruct (plus_ex xh yh Fxh Fyh) as [Es _].
  destruct (plus_ex xl yl Fxl Fyl) as [Et _].
  rewrite <- Es0 in *. rewrite <- Ee0 in *. rewrite <- Es1 in *. rewrite <- Ee1 in *.
  assert (P1 : bp 1018 = 8 * bp 1015) by exact (bp_split 1015 3 ltac:(lia)).
  assert (P2 : bp 1017 = 4 * bp 1015) by exact (bp_split 1015 2 ltac:(lia)).
  assert (PM := bpow_gt_0 radix2 1015). set (M := bp 1015) in *. assert (Rx := Rabs_pos xh). assert (Ry := Rabs_pos yh).
  assert (T1 := Rabs_triang xh yh). assert (T2 := Rabs_triang xl yl).
  assert (Bs0 : Rabs (V s0) <= 3 * M).
  { assert (K := Rabs_triang (V s0 - (xh + yh)) (xh + yh)).
    replace (V s0 - (xh + yh) + (xh + yh)) with (V s0) in K by ring. lra. }
  assert (Bs1 : Rabs (V s1) <= 3 * M).
  { assert (K := Rabs_triang (V s1 - (xl + yl)) (xl + yl)).
    replace (V s1 - (xl + yl) + (xl + yl)) with (V s1) in K by ring. lra. }
  assert (Be0 : Rabs (V e0) <= M).
  { rewrite Ee0, <- Rabs_Ropp. replace (- (xh + yh - V s0)) with (V s0 - (xh + yh)) by ring. lra. }
  assert (Be1 : Rabs (V e1) <= M).
  { rewrite Ee1, <- Rabs_Ropp. replace (- (xl + yl - V s1)) with (V s1 - (xl + yl)) by ring. lra. }
  destruct (Bd_add 1017 s1 e0 ltac:(lia)) as [[Fc Bc] Ec]; [split; [easy|lra]..|].
  unfold d_tail. set (c := fadd s1 e0) in *. rewrite <- Ec in *.
  destruct (quick_ok_gen s0 c) as [Fs2 [Fe2 [Es2 Ee2]]].
  { split; [easy|lra]. } { split; [easy|lra]. } { exact Q1. }
  destruct (quick_two_sum s0 c) as [s2 e2]. cbn [fst snd] in *.
  rewrite <- Es2 in *. rewrite <- Ee2 in *.
  assert (Bw : Rabs (V s2) <= 8 * M).
  { assert (K := plus_ex (V s0) (V c) ltac:(auto with fmt) ltac:(auto with fmt)).
    rewrite <- Es2 in K. destruct K as [K _].
    assert (K1 := Rabs_triang (V s2 - (V s0 + V c)) (V s0 + V c)).
    replace (V s2 - (V s0 + V c) + (V s0 + V c)) with (V s2) in K1 by ring.
    assert (K2 := Rabs_triang (V s0) (V c)). lra. }
  assert (Be2 : Rabs (V e2) <= 4 * M).
  { assert (K := plus_ex (V s0) (V c) ltac:(auto with fmt) ltac:(auto with fmt)).
    rewrite <- Es2 in K. destruct K as [K _]. rewrite Ee2, <- Rabs_Ropp.
    replace (- (V s0 + V c - V s2)) with (V s2 - (V s0 + V c)) by ring.
    assert (K2 := Rabs_triang (V s0) (V c)). lra. }
  destruct (Bd_add 1017 e1 e2 ltac:(lia)) as [[Fw Bw'] Ew]; [split; [easy|lra]..|].
  set (w := fadd e1 e2) in *. rewrite <- Ew in *.
  destruct (quick_ok s2 w) as [Fa [Fb [Ea Eb]]].
  { split; [easy|lra]. } { split; [easy|lra]. } { exact Q2. }
  unfold renorm2. destruct (quick_two_sum s2 w) as [a b]. cbn [fst snd] in *.
  split; [|split].
  - apply (DNorm_mk a b (V s2 + V w)); auto.
  - unfold DV; cbn [d0 d1]. rewrite Ea, Eb.
    replace (rn (V s2 + V w) + (V s2 + V w - rn (V s2 + V w))) with (V s2 + V w) by ring. exact Q3.
  - exists (V s2 + V w). refine (conj Ea (conj Eb _)). intros k Hk M1 M2 M3 M4.
    assert (A : forall x y, mult2 k x -> mult2 k y -> mult2 k (rn (x + y))) by (intros; apply mult2_rn; auto using mult2_plus).
    assert (Ms0 : mult2 k (V s0)) by (rewrite Es0; auto). assert (Ms1 : mult2 k (V s1)) by (rewrite Es1; auto).
    assert (Me0 : mult2 k (V e0)) by (rewrite Ee0; auto using mult2_plus, mult2_minus).
    assert (Me1 : mult2 k (V e1)) by (rewrite Ee1; auto using mult2_plus, mult2_minus).
    assert (Mc : mult2 k (V c)) by (rewrite Ec; auto).
    assert (Ms2 : mult2 k (V s2)) by (rewrite Es2; auto).
    assert (Me2 : mult2 k (V e2)) by (rewrite Ee2; auto using mult2_plus, mult2_minus).
    apply mult2_plus; auto. rewrite Ew. auto.
Qed.

Definition D15 (x : Double) : Prop := Rabs (V (d0 x)) <= bp 1015.

Lemma Bd_lo x : DNorm x -> D15 x -> Bd M18 (d0 x) /\ Bd M18 (d1 x).
Proof.
  intros N H. assert (K := DNorm_lo x N). destruct N as [[F0 F1] _].
  assert (bp 1015 <= bp 1018) by (apply bpow_le; lia). unfold D15 in H.
  assert (P := Rabs_pos (V (d0 x))).
  split; split; auto; lra.
Qed.

Lemma rel6 e : 6 * u * u * Rabs e = IZR 6 * bp (-106) * Rabs e.
Proof. replace (bp (-106)) with (u * u). ring. change (-106)%Z with (-53 + -53)%Z. now rewrite bpow_plus. Qed.

Lemma d_add_ok x y : DNorm x -> DNorm y -> D15 x -> D15 y ->
  DNorm (d_add x y) /\ approx (DV (d_add x y)) (DV x + DV y) 6 (-106).
Proof.
  intros Nx Ny Bx By. destruct (Bd_lo x Nx Bx) as [B1 B2], (Bd_lo y Ny By) as [B3 B4].
  unfold d_add. rewrite d_pre_add_fin by (apply B1 || apply B3). cbn [from_pre].
  destruct (two_sum_ok (d0 x) (d0 y) B1 B3) as [F1 [F2 [E1 E2]]].
  destruct (two_sum (d0 x) (d0 y)) as [s0 e0]. cbn [fst snd] in *.
  destruct (two_sum_ok (d1 x) (d1 y) B2 B4) as [F3 [F4 [E3 E4]]].
  destruct (two_sum (d1 x) (d1 y)) as [s1 e1]. cbn [fst snd] in *.
  destruct (d_tail_ok (V (d0 x)) (V (d1 x)) (V (d0 y)) (V (d1 y)) s0 e0 s1 e1) as [K1 [K2 _]];
    auto using DNorm_norm with fmt.
  split; [exact K1|]. unfold approx. rewrite <- rel6. exact K2.
Qed.

Lemma d_sub_ok x y : DNorm x -> DNorm y -> D15 x -> D15 y ->
  DNorm (d_sub x y) /\ approx (DV (d_sub x y)) (DV x - DV y) 6 (-106).
Proof.
  intros Nx Ny Bx By. destruct (Bd_lo x Nx Bx) as [B1 B2], (Bd_lo y Ny By) as [B3 B4].
  unfold d_sub. rewrite d_pre_sub_fin by (apply B1 || apply B3). cbn [from_pre].
  destruct (two_diff_ok (d0 x) (d0 y) B1 B3) as [F1 [F2 [E1 E2]]].
  destruct (two_diff (d0 x) (d0 y)) as [s0 e0]. cbn [fst snd] in *.
  destruct (two_diff_ok (d1 x) (d1 y) B2 B4) as [F3 [F4 [E3 E4]]].
  destruct (two_diff (d1 x) (d1 y)) as [s1 e1]. cbn [fst snd] in *.
  destruct (d_tail_ok (V (d0 x)) (V (d1 x)) (- V (d0 y)) (- V (d1 y)) s0 e0 s1 e1) as [K1 [K2 _]];
    auto using DNorm_norm with fmt.
  - apply fmt_opp; auto with fmt.
  - apply fmt_opp; auto with fmt.
  - rewrite <- Ropp_plus_distr, rn_opp. f_equal. now apply DNorm_norm.
  - now rewrite Rabs_Ropp.
  - split; [exact K1|]. unfold approx. rewrite <- rel6.
    replace (DV x - DV y) with (V (d0 x) + V (d1 x) + (- V (d0 y) + - V (d1 y))) by (unfold DV; ring).
    exact K2.
Qed.

(** ** sums of values on a common grid are exact while they fit *)
Lemma DNorm_grid k x : (-1074 <= k)%Z -> DNorm x -> mult2 k (DV x) -> mult2 k (V (d0 x)) /\ mult2 k (V (d1 x)).
Proof.
  intros Hk [_ E] M. assert (M0 : mult2 k (V (d0 x))) by (rewrite E; now apply mult2_rn).
  split; auto. replace (V (d1 x)) with (DV x - V (d0 x)) by (unfold DV; ring). now apply mult2_minus.
Qed.
Lemma d_add_mult2 k x y : (-1074 <= k)%Z -> DNorm x -> DNorm y -> D15 x -> D15 y -> mult2 k (DV x) -> mult2 k (DV y) ->
  mult2 k (DV (d_add x y)).
Proof.
  intros Hk Nx Ny Bx By Mx My. destruct (Bd_lo x Nx Bx) as [B1 B2], (Bd_lo y Ny By) as [B3 B4].
  destruct (DNorm_grid k x Hk Nx Mx) as [G1 G2], (DNorm_grid k y Hk Ny My) as [G3 G4].
  unfold d_add. rewrite d_pre_add_fin by (apply B1 || apply B3). cbn [from_pre].
  destruct (two_sum_ok (d0 x) (d0 y) B1 B3) as [F1 [F2 [E1 E2]]].
  destruct (two_sum (d0 x) (d0 y)) as [s0 e0]. cbn [fst snd] in *.
  destruct (two_sum_ok (d1 x) (d1 y) B2 B4) as [F3 [F4 [E3 E4]]].
  destruct (two_sum (d1 x) (d1 y)) as [s1 e1]. cbn [fst snd] in *.
  destruct (d_tail_ok (V (d0 x)) (V (d1 x)) (V (d0 y)) (V (d1 y)) s0 e0 s1 e1) as [_ [_ [w [K1 [K2 K3]]]]];
    auto using DNorm_norm with fmt.
  change (mult2 k (DV (d_tail s0 e0 s1 e1))). unfold DV. rewrite K1, K2. replace (rn w + (w - rn w)) with w by ring.
  now apply K3.
Qed.
Lemma d_sub_mult2 k x y : (-1074 <= k)%Z -> DNorm x -> DNorm y -> D15 x -> D15 y -> mult2 k (DV x) -> mult2 k (DV y) ->
  mult2 k (DV (d_sub x y)).
Proof.
  intros Hk Nx Ny Bx By Mx My. destruct (Bd_lo x Nx Bx) as [B1 B2], (Bd_lo y Ny By) as [B3 B4].
  destruct (DNorm_grid k x Hk Nx Mx) as [G1 G2], (DNorm_grid k y Hk Ny My) as [G3 G4].
  unfold d_sub. rewrite d_pre_sub_fin by (apply B1 || apply B3). cbn [from_pre].
  destruct (two_diff_ok (d0 x) (d0 y) B1 B3) as [F1 [F2 [E1 E2]]].
  destruct (two_diff (d0 x) (d0 y)) as [s0 e0]. cbn [fst snd] in *.
  destruct (two_diff_ok (d1 x) (d1 y) B2 B4) as [F3 [F4 [E3 E4]]].
  destruct (two_diff (d1 x) (d1 y)) as [s1 e1]. cbn [fst snd] in *.
  destruct (d_tail_ok (V (d0 x)) (V (d1 x)) (- V (d0 y)) (- V (d1 y)) s0 e0 s1 e1) as [_ [_ [w [K1 [K2 K3]]]]];
    auto using DNorm_norm with fmt.
  - apply fmt_opp; auto with fmt.
  - apply fmt_opp; auto with fmt.
  - rewrite <- Ropp_plus_distr, rn_opp. f_equal. now apply DNorm_norm.
  - now rewrite Rabs_Ropp.
  - change (mult2 k (DV (d_tail s0 e0 s1 e1))). unfold DV. rewrite K1, K2. replace (rn w + (w - rn w)) with w by ring.
    apply K3; auto using mult2_opp.
Qed.
(** a multiple of 2^k that is relatively closer than 2^k is exact *)
Lemma grid_exact k a z n : mult2 k a -> mult2 k z -> approx a z n (-106) -> IZR n * Rabs z < bp (k + 106) -> a = z.
Proof.
  intros [p ->] [q ->] H L. unfold approx in H. assert (P := bpow_gt_0 radix2 k).
  assert (E : bp (-106) * bp (k + 106) = bp k) by (rewrite <- bpow_plus; f_equal; lia).
  assert (P' := bpow_gt_0 radix2 (-106)).
  assert (S : Rabs (IZR p * bp k - IZR q * bp k) < bp k).
  { assert (X := Rmult_lt_compat_l _ _ _ P' L). rewrite E in X. eapply Rle_lt_trans; [exact H|]. eapply Rle_lt_trans; [|exact X]. right; ring. }
  replace (IZR p * bp k - IZR q * bp k) with (IZR (p - q) * bp k) in S by (rewrite minus_IZR; ring).
  rewrite Rabs_mult, (Rabs_pos_eq (bp k)) in S by lra. rewrite <- (Rmult_1_l (bp k)) in S at 2.
  apply Rmult_lt_reg_r in S; auto. rewrite <- abs_IZR in S. apply lt_IZR in S. f_equal. f_equal. lia.
Qed.
Lemma d_add_exact k x y : (-1074 <= k)%Z -> DNorm x -> DNorm y -> D15 x -> D15 y -> mult2 k (DV x) -> mult2 k (DV y) ->
  Rabs (DV x + DV y) <= bp (k + 103) -> DNorm (d_add x y) /\ DV (d_add x y) = DV x + DV y.
Proof.
  intros Hk Nx Ny Bx By Mx My B. destruct (d_add_ok x y Nx Ny Bx By) as [N A]. split; auto.
  apply (grid_exact k _ _ 6); auto using d_add_mult2, mult2_plus.
  assert (E : bp (k + 106) = 8 * bp (k + 103)) by (replace (k + 106)%Z with (k + 103 + 3)%Z by ring; exact (bp_split (k + 103) 3 ltac:(lia))).
  assert (P := bpow_gt_0 radix2 (k + 103)). lra.
Qed.
Lemma d_sub_exact k x y : (-1074 <= k)%Z -> DNorm x -> DNorm y -> D15 x -> D15 y -> mult2 k (DV x) -> mult2 k (DV y) ->
  Rabs (DV x - DV y) <= bp (k + 103) -> DNorm (d_sub x y) /\ DV (d_sub x y) = DV x - DV y.
Proof.
  intros Hk Nx Ny Bx By Mx My B. destruct (d_sub_ok x y Nx Ny Bx By) as [N A]. split; auto.
  apply (grid_exact k _ _ 6); auto using d_sub_mult2, mult2_minus.
  assert (E : bp (k + 106) = 8 * bp (k + 103)) by (replace (k + 106)%Z with (k + 103 + 3)%Z by ring; exact (bp_split (k + 103) 3 ltac:(lia))).
  assert (P := bpow_gt_0 radix2 (k + 103)). lra.
Qed.
