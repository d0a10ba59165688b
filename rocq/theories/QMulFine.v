(** * Quad multiplication: the sharp error bound

    The renormalisation runs unordered quick sums.  The two that matter are
    exact all the same: every part of the second-order term is a multiple of a
    power of two that is large compared with what is added to it. *)
From Coq Require Import ZArith Reals List Bool Lia Lra.
From Flocq Require Import Core IEEE754.BinarySingleNaN.
From Verif Require Import F64 F64Facts Prim DoubleM QuadM RN Spec EFT SpecialProofs QuadSpec QAddAcc QAddThms QMulAcc QMulThms.
Local Open Scope R_scope.

Lemma cexp_le a k : a <> 0 -> (-1074 <= k)%Z -> Rabs a <= bp (k + 52) -> (cexp radix2 fexp64 a <= k)%Z.
Proof.
  intros N Hk H. rewrite cexp64.
  assert (K : (mag radix2 a <= k + 53)%Z).
  { apply mag_le_bpow; [exact N|]. eapply Rle_lt_trans; [exact H|]. apply bpow_lt. lia. }
  lia.
Qed.

(** [quick_two_sum a b] is exact when [a] is a multiple of 2^k and [|b| <= 2^(k+52)] *)
Lemma quick_grid_R k a b : fmt a -> fmt b -> (-1074 <= k)%Z -> mult2 k a -> Rabs b <= bp (k + 52) ->
  rn (b - rn (rn (a + b) - a)) = a + b - rn (a + b).
Proof.
  intros Fa Fb Hk Ma Hb.
  destruct (Req_dec b 0) as [->|Nb].
  { rewrite Rplus_0_r, (rn_id a Fa). replace (a - a) with 0 by ring. rewrite rn_0, Rminus_0_r. apply rn_0. }
  assert (Kb := cexp_le b k Nb Hk Hb).
  assert (Kc : (-1074 <= cexp radix2 fexp64 b)%Z) by (rewrite cexp64; lia).
  apply (fast_two_sum_grid (cexp radix2 fexp64 b)); auto.
  - now apply (mult2_le _ k).
  - now apply mult2_cexp.
  - destruct (mult2_cexp b Fb) as [n En]. set (c := cexp radix2 fexp64 b) in *.
    assert (Pc := bpow_gt_0 radix2 c).
    assert (L : Rabs b < bp (c + 53)).
    { eapply Rlt_le_trans; [apply bpow_mag_gt|]. apply bpow_le. unfold c. rewrite cexp64. lia. }
    rewrite En, Rabs_mult, (Rabs_pos_eq (bp c)), <- abs_IZR in * by lra.
    rewrite Z.add_comm, bpow_plus in L. apply Rmult_lt_reg_r in L; [|exact Pc].
    change (bp 53) with (IZR (2 ^ 53)) in L. apply lt_IZR in L.
    assert (L2 : (Z.abs n <= 2 ^ 53 - 1)%Z) by lia. apply IZR_le in L2. rewrite minus_IZR in L2.
    rewrite (Z.add_comm c), bpow_plus. change (bp 53) with (IZR (2 ^ 53)).
    assert (IZR (Z.abs n) * bp c <= (IZR (2 ^ 53) - 1) * bp c) by (apply Rmult_le_compat_r; lra). lra.
Qed.

Lemma quick_grid k a b A B : Fin a -> Fin b -> Rabs (V a) <= A -> Rabs (V b) <= B -> A <= M18 -> B <= M18 ->
  (-1074 <= k)%Z -> mult2 k (V a) -> Rabs (V b) <= bp (k + 52) ->
  exists s e, quick_two_sum a b = (s, e) /\ Fin s /\ Fin e /\
    V s = rn (V a + V b) /\ V e = V a + V b - V s /\
    Rabs (V e) <= u * A + u * B /\ Rabs (V s) <= (1 + u) * (A + B).
Proof.
  intros Fa Fb Ha Hb HA HB Hk Ma Gb.
  destruct (quick_ok_gen a b) as (F1 & F2 & E1 & E2); [split; [assumption|lra]..| |].
  { apply (quick_grid_R k); auto with fmt. }
  destruct (quick_two_sum a b) as [s e]. cbn [fst snd] in *. exists s, e.
  split; [reflexivity|]. split; [assumption|]. split; [assumption|].
  assert (K := sumb _ _ _ _ Ha Hb).
  destruct (plus_ex (V a) (V b)) as [K1 _]; auto with fmt.
  rewrite E1, E2. split; [reflexivity|]. split; [reflexivity|]. split.
  - rewrite <- Rabs_Ropp. replace (- (V a + V b - rn (V a + V b))) with (rn (V a + V b) - (V a + V b)) by ring. lra.
  - replace (rn (V a + V b)) with ((rn (V a + V b) - (V a + V b)) + (V a + V b)) by ring.
    eapply Rle_trans; [apply Rabs_triang|]. lra.
Qed.

(** [s1 = err(a + x)] and [s2 = err(b + y)] with [x = rn (b + y)]: ordered *)
Lemma err_order a x b y : fmt a -> fmt x -> fmt b -> fmt y -> x = rn (b + y) -> Rabs x <= Rabs a ->
  Rabs (b + y - x) <= Rabs (a + x - rn (a + x)) \/ a + x - rn (a + x) = 0.
Proof.
  intros Fa Fx Fb Fy Ex Ho.
  destruct (Req_dec (a + x - rn (a + x)) 0) as [Z|Z]; [now right|left].
  assert (Nx : x <> 0).
  { intros E. apply Z. rewrite E, Rplus_0_r, rn_id by exact Fa. ring. }
  set (c := cexp radix2 fexp64 x).
  assert (Kc : (-1074 <= c)%Z) by (unfold c; rewrite cexp64; lia).
  assert (Ca : (c <= cexp radix2 fexp64 a)%Z).
  { unfold c. rewrite !cexp64. assert (mag radix2 x <= mag radix2 a)%Z by (apply mag_le_abs; assumption). lia. }
  assert (Mx : mult2 c x) by now apply mult2_cexp.
  assert (Ma : mult2 c a) by (apply (mult2_le _ (cexp radix2 fexp64 a)); [exact Ca|now apply mult2_cexp]).
  assert (Me : mult2 c (a + x - rn (a + x))).
  { apply mult2_minus; [now apply mult2_plus|]. apply mult2_rn; [exact Kc|]. now apply mult2_plus. }
  assert (L1 : bp c <= Rabs (a + x - rn (a + x))).
  { destruct Me as [n En]. rewrite En in *. rewrite Rabs_mult, (Rabs_pos_eq (bp c)) by apply bpow_ge_0.
    rewrite <- (Rmult_1_l (bp c)) at 1. apply Rmult_le_compat_r; [apply bpow_ge_0|].
    rewrite <- abs_IZR. apply IZR_le. assert (n <> 0%Z) by (intros ->; apply Z; ring). lia. }
  assert (L2 : Rabs (b + y - x) <= / 2 * bp c).
  { rewrite <- Rabs_Ropp. replace (- (b + y - x)) with (x - (b + y)) by ring. rewrite Ex.
    eapply Rle_trans; [apply error_le_half_ulp_round; auto with typeclass_instances|].
    rewrite <- Ex. rewrite ulp_neq_0 by exact Nx. apply Rle_refl. }
  assert (P := bpow_gt_0 radix2 c). lra.
Qed.

Ltac stpr a b s e H1 H2 H3 :=
  let E := fresh "E" in let F1 := fresh "F" in let F2 := fresh "F" in
  destruct (qs a b (Rabs (V a)) (Rabs (V b))) as (s & e & E & F1 & F2 & H1 & H2 & H3);
  [assumption|assumption|apply Rle_refl|apply Rle_refl|lra|lra| rewrite E; clear E].

Lemma renorm5_fine N0 N1 N2 N3 N4 N5 W a b c d e : 0 <= W <= 200 * N3 -> Scales5 N0 N1 N2 N3 N4 N5 ->
  Fin a -> Fin b -> Fin c -> Fin d -> Fin e ->
  16 * N1 <= Rabs (V a) -> Rabs (V a) <= 2 * N0 -> Rabs (V b) <= 8 * N1 -> Rabs (V c) <= 32 * N2 -> Rabs (V d) <= 128 * N3 -> Rabs (V e) <= 2048 * N4 ->
  ((exists k, (-1074 <= k)%Z /\ mult2 k (V b) /\ Rabs (V c) + Rabs (V d) + Rabs (V e) <= / 2 * bp (k + 52)) \/
   (Rabs (V b) <= / 4 * N2 /\ Rabs (V c) + Rabs (V d) + Rabs (V e) <= W)) ->
  qfin4 (renorm5 a b c d e) /\
  Rabs (qsum4 (renorm5 a b c d e) - (V a + V b + V c + V d + V e)) <= 400 * N4 + 3 * u * W.
Proof.
  intros HW (P0 & P1 & P2 & P3 & P4 & P5 & P6 & P7 & P8 & P9 & P10 & P11) Fa Fb Fc Fd Fe Ho Ha Hb Hc Hd He HG.
  assert (G := big18). unfold renorm5.
  assert (Pd := Rabs_pos (V d)). assert (Pe := Rabs_pos (V e)). assert (Pc := Rabs_pos (V c)). assert (Pb := Rabs_pos (V b)).
  stpr d e s1 e1 H11 H12 H13. assert (Ps1 := Rabs_pos (V s1)).
  stpr c s1 s2 e2 H21 H22 H23. assert (Ps2 := Rabs_pos (V s2)).
  assert (B2 : Rabs (V s2) <= 33 * N2) by lra.
  (* the two critical sums *)
  assert (CR : exists s3 e3, quick_two_sum b s2 = (s3, e3) /\ Fin s3 /\ Fin e3 /\
      Rabs (V s3) <= 9 * N1 /\ Rabs (V e3) <= 9 * N2 /\ Rabs (V s3 + V e3 - (V b + V s2)) <= N4 + 3 * u * W /\
      exists s4 e4, quick_two_sum a s3 = (s4, e4) /\ Fin s4 /\ Fin e4 /\ V s4 + V e4 = V a + V s3 /\
      Rabs (V s4) <= 3 * N0 /\ Rabs (V e4) <= 3 * N1 /\ 4 * N1 <= Rabs (V s4) /\
      exists s5 e5, quick_two_sum e4 e3 = (s5, e5) /\ Fin s5 /\ Fin e5 /\ Rabs (V s5 + V e5 - (V e4 + V e3)) <= N4 /\
      Rabs (V s5) <= 4 * N1 /\ Rabs (V e5) <= 4 * N2).
  { destruct HG as [(k & Hk & Mb & Hx)|(L1 & L2)].
    - destruct (quick_grid k b s2 (8 * N1) (33 * N2)) as (s3 & e3 & E3 & F5 & F6 & H31 & H32 & H33 & H34); [assumption|assumption|lra|lra|lra|lra|assumption|assumption|lra|].
      exists s3, e3. split; [exact E3|]. split; [assumption|]. split; [assumption|]. split; [lra|]. split; [lra|].
      split; [rewrite H32; replace (V s3 + (V b + V s2 - V s3) - (V b + V s2)) with 0 by ring; rewrite Rabs_R0; lra|].
      assert (Ord : Rabs (V s3) <= Rabs (V a)) by lra.
      destruct (quick_ok a s3) as (F7 & F8 & E5 & E6); [split; [assumption|lra]|split; [assumption|lra]|now left|].
      destruct (qs_ord a s3 (2 * N0) (9 * N1)) as (s4 & e4 & E4 & F7' & F8' & H41 & H42 & H43); [assumption|assumption|lra|lra|lra|lra|lra|].
      rewrite E4 in *. cbn [fst snd] in *.
      exists s4, e4. split; [reflexivity|]. split; [assumption|]. split; [assumption|]. split; [assumption|].
      split; [lra|]. split; [lra|]. split.
      { assert (T : Rabs (V a) <= Rabs (V s4) + Rabs (V e4) + Rabs (V s3)).
        { replace (V a) with (V s4 + V e4 + - V s3) by lra. eapply Rle_trans; [apply Rabs_triang|].
          rewrite Rabs_Ropp. assert (T := Rabs_triang (V s4) (V e4)). lra. }
        lra. }
      destruct (qs_ord e4 e3 (3 * N1) (9 * N2)) as (s5 & e5 & E7 & F9 & F10 & H51 & H52 & H53); [assumption|assumption|lra|lra|lra|lra| |].
      { rewrite E6, H32.
        apply err_order; auto with fmt. }
      exists s5, e5. split; [exact E7|]. split; [assumption|]. split; [assumption|].
      split; [rewrite H51; replace (V e4 + V e3 - (V e4 + V e3)) with 0 by ring; rewrite Rabs_R0; lra|]. split; lra.
    - assert (W2 : Rabs (V s2) <= 5/4 * W) by lra.
      destruct (qs b s2 (/ 4 * N2) (5/4 * W)) as (s3 & e3 & E3 & F5 & F6 & H31 & H32 & H33); [assumption|assumption|lra|lra|lra|lra|].
      exists s3, e3. split; [exact E3|]. split; [assumption|]. split; [assumption|]. split; [lra|]. split; [lra|]. split; [lra|].
      destruct (qs_ord a s3 (2 * N0) (9 * N1)) as (s4 & e4 & E4 & F7' & F8' & H41 & H42 & H43); [assumption|assumption|lra|lra|lra|lra|lra|].
      exists s4, e4. split; [exact E4|]. split; [assumption|]. split; [assumption|]. split; [assumption|].
      split; [lra|]. split; [lra|]. split.
      { assert (T : Rabs (V a) <= Rabs (V s4) + Rabs (V e4) + Rabs (V s3)).
        { replace (V a) with (V s4 + V e4 + - V s3) by lra. eapply Rle_trans; [apply Rabs_triang|].
          rewrite Rabs_Ropp. assert (T := Rabs_triang (V s4) (V e4)). lra. }
        lra. }
      destruct (qs e4 e3 (3 * N1) (/ 3 * N3)) as (s5 & e5 & E7 & F9 & F10 & H51 & H52 & H53); [assumption|assumption|lra|lra|lra|lra|].
      exists s5, e5. split; [exact E7|]. split; [assumption|]. split; [assumption|]. split; [lra|]. split; lra. }
  destruct CR as (s3 & e3 & E3 & F5 & F6 & B3 & L2 & D3 & s4 & e4 & E4 & F7 & F8 & D4 & L0 & L1 & Low & s5 & e5 & E5 & F9 & F10 & D5 & L5 & L6).
  rewrite E3, E4; clear E3 E4.
  assert (L3 : Rabs (V e2) <= 34 * N3) by lra. assert (L4 : Rabs (V e1) <= 129 * N4) by lra.
  assert (D2 : Rabs (V s2 + V e2 - (V c + V s1)) <= 259 * N4) by lra.
  assert (D1 : Rabs (V s1 + V e1 - (V d + V e)) <= N4) by lra.
  clear H11 H12 H13 H21 H22 H23 Ho Ha Hb Hc Hd He HG Pd Pe Pc Pb Ps1 Ps2.
  destruct (fne0 e4) eqn:Z1.
  - rewrite E5; clear E5.
    destruct (fne0 e5) eqn:Z2.
    + step qs e5 e2 (4 * N2) (34 * N3) s6 e6 H61 H62 H63.
      destruct (fne0 e6) eqn:Z3.
      * sf e6 e1 (5 * N3) (129 * N4) H71 H72. fin5.
      * apply fne0_V in Z3; [|assumption]. step qs s6 e1 (5 * N2) (129 * N4) s7 e7 H71 H72 H73. fin5.
    + apply fne0_V in Z2; [|assumption]. step qs s5 e2 (4 * N1) (34 * N3) s6 e6 H61 H62 H63.
      destruct (fne0 e6) eqn:Z3.
      * step qs e6 e1 (5 * N2) (129 * N4) s7 e7 H71 H72 H73. fin5.
      * apply fne0_V in Z3; [|assumption]. step qs s6 e1 (5 * N1) (129 * N4) s7 e7 H71 H72 H73. fin5.
  - clear s5 e5 E5 F9 F10 D5 L5 L6.
    apply fne0_V in Z1; [|assumption].
    destruct (qs_ord s4 e3 (3 * N0) (9 * N2)) as (s5 & e5 & E5 & F9 & F10 & H51 & H52 & H53); [assumption|assumption|lra|lra|lra|lra|lra|].
    rewrite E5; clear E5.
    destruct (fne0 e5) eqn:Z2.
    + step qs e5 e2 (4 * N1) (34 * N3) s6 e6 H61 H62 H63.
      destruct (fne0 e6) eqn:Z3.
      * step qs e6 e1 (5 * N2) (129 * N4) s7 e7 H71 H72 H73. fin5.
      * apply fne0_V in Z3; [|assumption]. step qs s6 e1 (5 * N1) (129 * N4) s7 e7 H71 H72 H73. fin5.
    + apply fne0_V in Z2; [|assumption]. step qs s5 e2 (4 * N0) (34 * N3) s6 e6 H61 H62 H63.
      destruct (fne0 e6) eqn:Z3.
      * step qs e6 e1 (5 * N1) (129 * N4) s7 e7 H71 H72 H73. fin5.
      * apply fne0_V in Z3; [|assumption]. step qs s6 e1 (5 * N0) (129 * N4) s7 e7 H71 H72 H73. fin5.
Qed.

(** ** the grid of the second-order term *)
Lemma mag_grid a k : fmt a -> (-1074 <= k)%Z -> bp (k + 52) <= Rabs a -> mult2 k a.
Proof.
  intros Fa Hk H. apply (mult2_le _ (cexp radix2 fexp64 a)); [|now apply mult2_cexp].
  rewrite cexp64. assert (K : (k + 53 <= mag radix2 a)%Z).
  { apply mag_ge_bpow. replace (k + 53 - 1)%Z with (k + 52)%Z by lia. exact H. }
  lia.
Qed.

(** the rounded sum of [a] and [b] is a multiple of 2^(j-55) when the larger is at least 2^(j-1) *)
Lemma grid2 a b j : fmt a -> fmt b -> (-1000 <= j)%Z -> bp (j - 1) <= Rabs a -> Rabs b <= Rabs a -> mult2 (j - 55) (rn (a + b)).
Proof.
  intros Fa Fb Hj Ha Hb.
  destruct (Rle_lt_dec (bp (j - 3)) (Rabs b)) as [L|L].
  - apply mult2_rn; [lia|]. apply mult2_plus; apply mag_grid; auto; try lia.
    + eapply Rle_trans; [|exact Ha]. apply bpow_le. lia.
    + replace (j - 55 + 52)%Z with (j - 3)%Z by lia. exact L.
  - apply mag_grid; [apply rn_fmt|lia|]. apply rn_abs_ge; [apply fmt_bpow; lia|].
    replace (j - 55 + 52)%Z with (j - 3)%Z by lia.
    assert (E : 4 * bp (j - 3) = bp (j - 1)) by (change 4 with (bp 2); rewrite <- bpow_plus; f_equal; lia).
    assert (T : Rabs a <= Rabs (a + b) + Rabs b).
    { replace a with ((a + b) + - b) at 1 by ring. rewrite <- (Rabs_Ropp b). apply Rabs_triang. }
    lra.
Qed.

Lemma grid3 a b c kc : fmt a -> fmt b -> fmt c -> (-1074 <= kc)%Z -> mult2 kc c ->
  bp (-900) <= Rmax (Rmax (Rabs a) (Rabs b)) (Rabs c) ->
  exists k, (-1074 <= k)%Z /\ mult2 k (rn (c + rn (a + b))) /\
    (Rmax (Rmax (Rabs a) (Rabs b)) (Rabs c) <= bp (k + 58) \/ k = kc).
Proof.
  intros Fa Fb Fc Hkc Mc Hm.
  set (mab := Rmax (Rabs a) (Rabs b)) in *.
  assert (La : Rabs a <= mab) by apply Rmax_l. assert (Lb : Rabs b <= mab) by apply Rmax_r.
  assert (Pa := Rabs_pos a). assert (Pc := Rabs_pos c).
  assert (P900 := bpow_gt_0 radix2 (-900)).
  assert (U1 : Rabs (rn (a + b)) <= (2 + / 8) * mab).
  { destruct (plus_ex a b Fa Fb) as [K _]. assert (T := Rabs_triang a b).
    replace (rn (a + b)) with ((rn (a + b) - (a + b)) + (a + b)) by ring.
    eapply Rle_trans; [apply Rabs_triang|]. lra. }
  destruct (Rle_lt_dec (8 * mab) (Rabs c)) as [L|L].
  - (* c dominates *)
    assert (EM : Rmax mab (Rabs c) = Rabs c) by (apply Rmax_right; lra). rewrite EM in *.
    assert (Nc : c <> 0). { intros ->. rewrite Rabs_R0 in Hm. lra. }
    set (j := mag radix2 c). assert (J1 := bpow_mag_le radix2 c Nc). assert (J2 := bpow_mag_gt radix2 c). fold j in J1, J2.
    assert (J3 : (-900 < j)%Z).
    { apply (lt_bpow radix2). lra. }
    exists (j - 56)%Z. split; [lia|]. split.
    + apply (mult2_le _ (j - 55)); [lia|]. apply grid2; auto using rn_fmt; [lia|lra].
    + left. replace (j - 56 + 58)%Z with (j + 2)%Z by lia. apply Rlt_le. eapply Rlt_le_trans; [exact J2|]. apply bpow_le. lia.
  - (* a or b *)
    assert (M1 : Rmax mab (Rabs c) <= 8 * mab) by (apply Rmax_lub; lra).
    assert (G : exists j, (-950 <= j)%Z /\ bp (j - 1) <= mab < bp j).
    { assert (Nm : mab <> 0) by lra. exists (mag radix2 mab).
      assert (J1 := bpow_mag_le radix2 mab Nm). assert (J2 := bpow_mag_gt radix2 mab).
      rewrite Rabs_pos_eq in J1, J2 by lra. split; [|split; assumption].
      assert (-903 < mag radix2 mab)%Z; [|lia]. apply (lt_bpow radix2).
      eapply Rle_lt_trans; [|exact J2].
      assert (8 * bp (-903) = bp (-900)) by (change 8 with (bp 3); rewrite <- bpow_plus; reflexivity). lra. }
    destruct G as (j & Hj & J1 & J2).
    assert (MU : mult2 (j - 55) (rn (a + b))).
    { destruct (Rle_dec (Rabs b) (Rabs a)) as [O|O].
      - apply grid2; auto; [lia|]. assert (mab = Rabs a) by (apply Rmax_left; lra). lra.
      - rewrite Rplus_comm. apply grid2; auto; [lia| |lra]. assert (mab = Rabs b) by (apply Rmax_right; lra). lra. }
    destruct (Z.le_ge_cases kc (j - 55)) as [K|K].
    + exists kc. split; [lia|]. split; [|now right]. apply mult2_rn; [lia|]. apply mult2_plus; [exact Mc|]. apply (mult2_le _ (j - 55)); [lia|exact MU].
    + exists (j - 55)%Z. split; [lia|]. split.
      * apply mult2_rn; [lia|]. apply mult2_plus; [apply (mult2_le _ kc); [lia|exact Mc]|exact MU].
      * left. replace (j - 55 + 58)%Z with (j + 3)%Z by lia. rewrite bpow_plus. change (bp 3) with 8. lra.
Qed.

Lemma ttsum_fst a b c : Bd M18 a -> Bd M18 b -> Bd (bp 1017) c -> Rabs (V a) + Rabs (V b) <= bp 1016 ->
  forall s t w, three_three_sum a b c = (s, t, w) -> V s = rn (V c + rn (V a + V b)).
Proof.
  intros Ba Bb Bc L s t w E. unfold three_three_sum in E.
  destruct (two_sum_ok a b Ba Bb) as (F1 & F2 & E1 & E2). destruct (two_sum a b) as [p q]. cbn [fst snd] in *.
  destruct (two_sum_ok c p) as (F3 & F4 & E3 & E4).
  - eapply Bd_bp; [|exact Bc]. lia.
  - split; [exact F1|]. rewrite E1. destruct (plus_ex (V a) (V b)) as [K _]; auto with fmt.
    assert (T := Rabs_triang (V a) (V b)).
    replace (rn (V a + V b)) with ((rn (V a + V b) - (V a + V b)) + (V a + V b)) by ring.
    eapply Rle_trans; [apply Rabs_triang|].
    assert (4 * bp 1016 = M18) by (change 4 with (bp 2); rewrite <- bpow_plus; reflexivity).
    assert (P := bpow_gt_0 radix2 1016). lra.
  - destruct (two_sum c p) as [s' w']. cbn [fst snd] in *. destruct (two_sum q w') as [e1 e2].
    injection E as <- _ _. rewrite E3, E1. reflexivity.
Qed.

(** bounds on the sums of the product, for any scales *)
Lemma mul_bounds N1 N2 N3 N4 h1 h2 l0 h3 h4 h5 l1 l2 h6 h7 h8 h9 l3 l4 l5 ha hb hc l6 l7 l8 l9 r1 t0 t1 r2 t2 t3 r3 t4 r4 :
  0 <= N4 -> N1 <= bp 1000 -> u * N1 <= N2 -> u * N2 <= N3 -> u * N3 <= N4 -> N2 <= N1 -> N3 <= N2 -> N4 <= N3 ->
  fb (101/100 * N1) h1 -> fb (101/100 * N1) h2 -> fb (101/100 * N1) l0 ->
  fb (2 * N2) h3 -> fb (2 * N2) h4 -> fb (2 * N2) h5 -> fb (2 * N2) l1 -> fb (2 * N2) l2 ->
  fb (2 * N3) h6 -> fb (2 * N3) h7 -> fb (2 * N3) h8 -> fb (2 * N3) h9 -> fb (2 * N3) l3 -> fb (2 * N3) l4 -> fb (2 * N3) l5 ->
  fb (2 * N4) ha -> fb (2 * N4) hb -> fb (2 * N4) hc -> fb (2 * N4) l6 -> fb (2 * N4) l7 -> fb (2 * N4) l8 -> fb (2 * N4) l9 ->
  three_three_sum h1 h2 l0 = (r1, t0, t1) -> six_three_sum t0 h3 h4 h5 l1 l2 = (r2, t2, t3) ->
  nine_two_sum t1 t2 h6 h7 h8 h9 l3 l4 l5 = (r3, t4) ->
  r4 = fadd (fadd (fadd (fadd (fadd (fadd (fadd (fadd t3 t4) ha) hb) hc) l6) l7) l8) l9 ->
  fb (8 * N1) r1 /\ fb (32 * N2) r2 /\ fb (128 * N3) r3 /\ fb (2048 * N4) r4 /\
  Rabs (V r1 + V r2 + V r3 + V r4 - (V h1 + V h2 + V l0 + V h3 + V h4 + V h5 + V l1 + V l2 + V h6 + V h7 + V h8 + V h9 + V l3 + V l4 + V l5 + V ha + V hb + V hc + V l6 + V l7 + V l8 + V l9)) <= 8192 * u * N4.
Proof.
  intros P0 P1 P2 P3 P4 P5 P6 P7 [? ?] [? ?] [? ?] [? ?] [? ?] [? ?] [? ?] [? ?] [? ?] [? ?] [? ?] [? ?] [? ?] [? ?] [? ?]
    [? ?] [? ?] [? ?] [? ?] [? ?] [? ?] [? ?] T1 T2 T3 Er4.
  assert (G : 2 * bp 1000 = bp 1001) by (change 2 with (bp 1); rewrite <- bpow_plus; reflexivity).
  assert (G18 := big18). assert (G10 : bp 1000 <= bp 1010) by (apply bpow_le; lia).
  destruct (sum33 h1 h2 l0 N1 (101/100) (101/100) (101/100)) as (r1' & t0' & t1' & E1 & Fr1 & Ft0 & Ft1 & S1 & S2 & S3 & S4); [assumption|assumption|assumption|lra|lra|lra|lra|lra|lra|lra|lra|].
  rewrite T1 in E1. injection E1 as <- <- <-.
  destruct (sum63 t0 h3 h4 h5 l1 l2 N2) as (r2' & t2' & t3' & E1 & Fr2 & Ft2 & Ft3 & S5 & S6 & S7 & S8); [assumption|assumption|assumption|assumption|assumption|assumption|lra|lra|lra|lra|lra|lra|lra|lra|].
  rewrite T2 in E1. injection E1 as <- <- <-.
  destruct (sum92 t1 t2 h6 h7 h8 h9 l3 l4 l5 N3) as (r3' & t4' & E1 & Fr3 & Ft4 & S9 & S10 & S11); [assumption|assumption|assumption|assumption|assumption|assumption|assumption|assumption|assumption|lra|lra|lra|lra|lra|lra|lra|lra|lra|lra|lra|].
  rewrite T3 in E1. injection E1 as <- <-.
  assert (K3 : Rabs (V t3) <= 128 * N4) by lra. assert (K4 : Rabs (V t4) <= 400 * N4) by lra.
  assert (R1 : Rabs (V r1) <= 8 * N1) by lra. assert (R2 : Rabs (V r2) <= 32 * N2) by lra. assert (R3 : Rabs (V r3) <= 128 * N3) by lra.
  clear S2 S3 S4 S6 S7 S8 S10 S11.
  sf t3 t4 (128 * N4) (400 * N4) Z1 Z1'.
  sf (fadd t3 t4) ha (529 * N4) (2 * N4) Z2 Z2'. set (g1 := fadd t3 t4) in *.
  sf (fadd g1 ha) hb (532 * N4) (2 * N4) Z3 Z3'. set (g2 := fadd g1 ha) in *.
  sf (fadd g2 hb) hc (535 * N4) (2 * N4) Z4 Z4'. set (g3 := fadd g2 hb) in *.
  sf (fadd g3 hc) l6 (538 * N4) (2 * N4) Z5 Z5'. set (g4 := fadd g3 hc) in *.
  sf (fadd g4 l6) l7 (541 * N4) (2 * N4) Z6 Z6'. set (g5 := fadd g4 l6) in *.
  sf (fadd g5 l7) l8 (544 * N4) (2 * N4) Z7 Z7'. set (g6 := fadd g5 l7) in *.
  sf (fadd g6 l8) l9 (547 * N4) (2 * N4) Z8 Z8'. set (g7 := fadd g6 l8) in *.
  rewrite <- Er4 in *.
  split; [split; assumption|]. split; [split; assumption|]. split; [split; assumption|]. split; [split; [assumption|lra]|].
  clear Er4. clearbody g7 g6 g5 g4 g3 g2 g1.
  clear Z1' Z2' Z3' Z4' Z5' Z6' Z7' Z8' K3 K4 R1 R2 R3 P1 G G18 G10.
  apply abs_le in S5, S9, Z1, Z2, Z3, Z4, Z5, Z6, Z7, Z8. apply Rabs_le. split; lra.
Qed.

Ltac nonneg := repeat (apply Rmult_le_pos; [lra|]); lra.

Ltac tq a b C E F1 F2 H1 H2 H3 :=
    let p := fresh in let q := fresh in let Q := fresh in
    destruct (tpb a b C) as (p & q & Q & F1 & F2 & H1 & H2 & H3); [assumption|assumption|assumption|assumption|assumption|];
    rewrite E in Q; injection Q as <- <-.

(** the same for the products of two Quads, from bounds on the partial products *)
Lemma mul_parts_gen x y M1 M2 M3 M4 M5 h1 l1 h2 l2 h3 l3 h4 l4 h5 l5 h6 l6 h7 l7 h8 l8 h9 l9 l0 r1 t0 t1 r2 t2 t3 r3 t4 r4 :
  Q500 x -> Q500 y -> eta <= / 1024 * M5 -> M1 <= bp 1000 ->
  0 <= M2 -> 0 <= M3 -> 0 <= M4 -> 0 <= M5 ->
  M2 <= M1 -> M3 <= M2 -> M4 <= M3 -> M5 <= M4 ->
  u * M1 <= M2 -> u * M2 <= M3 -> u * M3 <= M4 -> u * M4 <= M5 ->
  let p i j := Rabs (V (i x) * V (j y)) in
  p q0 q1 <= M1 -> p q1 q0 <= M1 -> p q0 q2 <= M2 -> p q1 q1 <= M2 -> p q2 q0 <= M2 ->
  p q0 q3 <= M3 -> p q1 q2 <= M3 -> p q2 q1 <= M3 -> p q3 q0 <= M3 ->
  p q1 q3 <= M4 -> p q2 q2 <= M4 -> p q3 q1 <= M4 -> p q2 q3 <= M5 -> p q3 q2 <= M5 -> p q3 q3 <= M5 ->
  two_prod (q0 x) (q1 y) = (h1, l1) -> two_prod (q1 x) (q0 y) = (h2, l2) ->
  two_prod (q0 x) (q2 y) = (h3, l3) -> two_prod (q1 x) (q1 y) = (h4, l4) -> two_prod (q2 x) (q0 y) = (h5, l5) ->
  two_prod (q0 x) (q3 y) = (h6, l6) -> two_prod (q1 x) (q2 y) = (h7, l7) -> two_prod (q2 x) (q1 y) = (h8, l8) -> two_prod (q3 x) (q0 y) = (h9, l9) ->
  fb (101/100 * M1) l0 ->
  three_three_sum h1 h2 l0 = (r1, t0, t1) -> six_three_sum t0 h3 h4 h5 l1 l2 = (r2, t2, t3) ->
  nine_two_sum t1 t2 h6 h7 h8 h9 l3 l4 l5 = (r3, t4) ->
  r4 = fadd (fadd (fadd (fadd (fadd (fadd (fadd (fadd t3 t4) (fmul (q1 x) (q3 y))) (fmul (q2 x) (q2 y))) (fmul (q3 x) (q1 y))) l6) l7) l8) l9 ->
  fb (8 * M1) r1 /\ fb (32 * M2) r2 /\ fb (128 * M3) r3 /\ fb (2048 * M4) r4 /\
  Fin h1 /\ Fin h2 /\ Rabs (V h1) <= 101 / 100 * M1 /\ Rabs (V h2) <= 101 / 100 * M1 /\
  Rabs (V l0 + (QV x * QV y - V (q0 x) * V (q0 y)) - (V r1 + V r2 + V r3 + V r4)) <= 10000 * M5.
Proof.
  intros QX QY HE Hi PM2 PM3 PM4 PM5 A2 A3 A4 A5 U2 U3 U4 U5. cbv zeta.
  destruct x as [x0 x1 x2 x3], y as [y0 y1 y2 y3]. unfold Q500 in QX, QY. cbn [q0 q1 q2 q3] in *.
  destruct QX as ((Fx0 & Bx0) & (Fx1 & Bx1) & (Fx2 & Bx2) & (Fx3 & Bx3)). destruct QY as ((Fy0 & By0) & (Fy1 & By1) & (Fy2 & By2) & (Fy3 & By3)).
  intros P01 P10 P02 P11' P20 P03 P12 P21 P30 P13 P22 P31 P23 P32 P33 E1 E2 E3 E4 E5 E6 E7 E8 E9 B0 T1 T2 T3 Er4.
  tq x0 y1 M1 E1 F1 G1 H11 H12 H13. tq x1 y0 M1 E2 F2 G2 H21 H22 H23.
  tq x0 y2 M2 E3 F3 G3 H31 H32 H33. tq x1 y1 M2 E4 F4 G4 H41 H42 H43. tq x2 y0 M2 E5 F5 G5 H51 H52 H53.
  tq x0 y3 M3 E6 F6 G6 H61 H62 H63. tq x1 y2 M3 E7 F7 G7 H71 H72 H73. tq x2 y1 M3 E8 F8 G8 H81 H82 H83. tq x3 y0 M3 E9 F9 G9 H91 H92 H93.
  destruct (fmb x1 y3 M4) as (Fa & Ha1 & Ha2); [assumption..|]. destruct (fmb x2 y2 M4) as (Fb & Hb1 & Hb2); [assumption..|]. destruct (fmb x3 y1 M4) as (Fc & Hc1 & Hc2); [assumption..|].
  destruct B0 as [B0 B0'].
  set (ha := fmul x1 y3) in *. set (hb := fmul x2 y2) in *. set (hc := fmul x3 y1) in *. clearbody ha hb hc.
  destruct (mul_bounds M1 M2 M3 M4 h1 h2 l0 h3 h4 h5 l1 l2 h6 h7 h8 h9 l3 l4 l5 ha hb hc l6 l7 l8 l9 r1 t0 t1 r2 t2 t3 r3 t4 r4) as (R1 & R2 & R3 & R4 & RS);
    [lra|lra|lra|lra|lra|lra|lra|lra|split; [assumption|lra]..|exact T1|exact T2|exact T3|exact Er4|].
  split; [exact R1|]. split; [exact R2|]. split; [exact R3|]. split; [exact R4|]. split; [exact F1|]. split; [exact F2|].
  split; [lra|]. split; [lra|].
  clear Er4.
  replace (QV (mkQ x0 x1 x2 x3) * QV (mkQ y0 y1 y2 y3) - V x0 * V y0) with
    (V x0 * V y1 + V x1 * V y0 + V x0 * V y2 + V x1 * V y1 + V x2 * V y0 + V x0 * V y3 + V x1 * V y2 + V x2 * V y1 + V x3 * V y0 +
     V x1 * V y3 + V x2 * V y2 + V x3 * V y1 + V x2 * V y3 + V x3 * V y2 + V x3 * V y3) by (unfold QV; cbn [q0 q1 q2 q3]; ring).
  set (m01 := V x0 * V y1) in *. set (m10 := V x1 * V y0) in *.
  set (m02 := V x0 * V y2) in *. set (m11 := V x1 * V y1) in *. set (m20 := V x2 * V y0) in *.
  set (m03 := V x0 * V y3) in *. set (m12 := V x1 * V y2) in *. set (m21 := V x2 * V y1) in *. set (m30 := V x3 * V y0) in *.
  set (m13 := V x1 * V y3) in *. set (m22 := V x2 * V y2) in *. set (m31 := V x3 * V y1) in *.
  set (m23 := V x2 * V y3) in *. set (m32 := V x3 * V y2) in *. set (m33 := V x3 * V y3) in *.
  clearbody m01 m10 m02 m11 m20 m03 m12 m21 m30 m13 m22 m31 m23 m32 m33.
  assert (Peta := bpow_gt_0 radix2 (-1073)). clear - Peta H11 H21 H31 H41 H51 H61 H71 H81 H91 Ha1 Hb1 Hc1 P23 P32 P33 RS HE A2 A3 A4 A5 U2 U3 U4 U5 PM2 PM3 PM4 PM5.
  absall. apply Rabs_le. split; lra.
Qed.

Lemma mul_parts k x y M1 h1 l1 h2 l2 h3 l3 h4 l4 h5 l5 h6 l6 h7 l7 h8 l8 h9 l9 l0 r1 t0 t1 r2 t2 t3 r3 t4 r4 :
  (40 <= k <= 53)%Z -> QDec k x -> QDec k y -> Q500 x -> Q500 y ->
  bp (-801) <= M1 <= bp 1000 -> Rabs (V (q0 x) * V (q1 y)) <= M1 -> Rabs (V (q1 x) * V (q0 y)) <= M1 ->
  two_prod (q0 x) (q1 y) = (h1, l1) -> two_prod (q1 x) (q0 y) = (h2, l2) ->
  two_prod (q0 x) (q2 y) = (h3, l3) -> two_prod (q1 x) (q1 y) = (h4, l4) -> two_prod (q2 x) (q0 y) = (h5, l5) ->
  two_prod (q0 x) (q3 y) = (h6, l6) -> two_prod (q1 x) (q2 y) = (h7, l7) -> two_prod (q2 x) (q1 y) = (h8, l8) -> two_prod (q3 x) (q0 y) = (h9, l9) ->
  fb (101/100 * M1) l0 ->
  three_three_sum h1 h2 l0 = (r1, t0, t1) -> six_three_sum t0 h3 h4 h5 l1 l2 = (r2, t2, t3) ->
  nine_two_sum t1 t2 h6 h7 h8 h9 l3 l4 l5 = (r3, t4) ->
  r4 = fadd (fadd (fadd (fadd (fadd (fadd (fadd (fadd t3 t4) (fmul (q1 x) (q3 y))) (fmul (q2 x) (q2 y))) (fmul (q3 x) (q1 y))) l6) l7) l8) l9 ->
  let e := bp (- k) in
  fb (8 * M1) r1 /\ fb (32 * (e * M1)) r2 /\ fb (128 * (e * (e * M1))) r3 /\ fb (2048 * (e * (e * (e * M1)))) r4 /\
  Fin h1 /\ Fin h2 /\ Rabs (V h1) <= 101 / 100 * M1 /\ Rabs (V h2) <= 101 / 100 * M1 /\
  Rabs (V l0 + (QV x * QV y - V (q0 x) * V (q0 y)) - (V r1 + V r2 + V r3 + V r4)) <= 10000 * (e * (e * (e * (e * M1)))).
Proof.
  intros Hk Hx Hy QX QY [Lo Hi] P01 P10 E1 E2 E3 E4 E5 E6 E7 E8 E9 B0 T1 T2 T3 Er4.
  set (e := bp (- k)).
  assert (Pe : 0 < e) by apply bpow_gt_0.
  assert (Ue : u <= e) by (change u with (bp (-53)); apply bpow_le; lia).
  assert (Le : e <= / 1099511627776) by (change (/ 1099511627776) with (bp (-40)); apply bpow_le; lia).
  destruct Hx as (_ & X1 & X2 & X3). destruct Hy as (_ & Y1 & Y2 & Y3). fold e in X1, X2, X3, Y1, Y2, Y3.
  assert (Peta := bpow_gt_0 radix2 (-1073)). assert (P801 := bpow_gt_0 radix2 (-801)).
  set (M2 := e * M1). set (M3 := e * M2). set (M4 := e * M3). set (M5 := e * M4).
  assert (PM2 : 0 <= M2) by nonneg. assert (PM3 : 0 <= M3) by nonneg. assert (PM4 : 0 <= M4) by nonneg. assert (PM5 : 0 <= M5) by nonneg.
  assert (HE : eta <= / 1024 * M5).
  { assert (E5' : bp (-212) * bp (-801) <= M5).
    { unfold M5, M4, M3, M2. replace (e * (e * (e * (e * M1)))) with ((e * (e * (e * e))) * M1) by ring.
      apply Rmult_le_compat; [apply bpow_ge_0|apply bpow_ge_0| |exact Lo].
      unfold e. rewrite <- !bpow_plus. apply bpow_le. lia. }
    rewrite <- bpow_plus in E5'. change (-212 + -801)%Z with (-1013)%Z in E5'.
    assert (1024 * eta <= bp (-1013)) by (change 1024 with (bp 10); rewrite <- bpow_plus; apply bpow_le; lia). lra. }
  assert (em : forall N, 0 <= N -> e * N <= / 1099511627776 * N) by (intros; apply Rmult_le_compat_r; assumption).
  assert (um : forall N, 0 <= N -> u * N <= e * N) by (intros; apply Rmult_le_compat_r; assumption).
  assert (A2 := em M1 ltac:(lra)). fold M2 in A2. assert (A3 := em M2 PM2). fold M3 in A3. assert (A4 := em M3 PM3). fold M4 in A4. assert (A5 := em M4 PM4). fold M5 in A5.
  assert (U2 := um M1 ltac:(lra)). fold M2 in U2. assert (U3 := um M2 PM2). fold M3 in U3. assert (U4 := um M3 PM3). fold M4 in U4. assert (U5 := um M4 PM4). fold M5 in U5.
  destruct x as [x0 x1 x2 x3], y as [y0 y1 y2 y3]. unfold Q500 in QX, QY. cbn [q0 q1 q2 q3] in *.
  destruct QX as ((Fx0 & Bx0) & (Fx1 & Bx1) & (Fx2 & Bx2) & (Fx3 & Bx3)). destruct QY as ((Fy0 & By0) & (Fy1 & By1) & (Fy2 & By2) & (Fy3 & By3)).
  (* products *)
  assert (dn : forall a b c N, Rabs b <= e * Rabs a -> Rabs (c * a) <= N -> Rabs (c * b) <= e * N).
  { intros a b c N H1 H2. rewrite Rabs_mult in *. apply Rle_trans with (e * (Rabs c * Rabs a)).
    - replace (e * (Rabs c * Rabs a)) with (Rabs c * (e * Rabs a)) by ring. apply Rmult_le_compat_l; [apply Rabs_pos|exact H1].
    - apply Rmult_le_compat_l; lra. }
  assert (dn' : forall a b c N, Rabs b <= e * Rabs a -> Rabs (a * c) <= N -> Rabs (b * c) <= e * N).
  { intros a b c N H1 H2. rewrite (Rmult_comm b). apply (dn a); [exact H1|]. now rewrite Rmult_comm. }
  assert (P02 : Rabs (V x0 * V y2) <= M2) by exact (dn _ _ _ _ Y2 P01).
  assert (P11' : Rabs (V x1 * V y1) <= M2) by exact (dn' _ _ _ _ X1 P01).
  assert (P20 : Rabs (V x2 * V y0) <= M2) by exact (dn' _ _ _ _ X2 P10).
  assert (P03 : Rabs (V x0 * V y3) <= M3) by exact (dn _ _ _ _ Y3 P02).
  assert (P12 : Rabs (V x1 * V y2) <= M3) by exact (dn' _ _ _ _ X1 P02).
  assert (P21 : Rabs (V x2 * V y1) <= M3) by exact (dn _ _ _ _ Y1 P20).
  assert (P30 : Rabs (V x3 * V y0) <= M3) by exact (dn' _ _ _ _ X3 P20).
  assert (P13 : Rabs (V x1 * V y3) <= M4) by exact (dn' _ _ _ _ X1 P03).
  assert (P22 : Rabs (V x2 * V y2) <= M4) by exact (dn' _ _ _ _ X2 P12).
  assert (P31 : Rabs (V x3 * V y1) <= M4) by exact (dn _ _ _ _ Y1 P30).
  assert (P23 : Rabs (V x2 * V y3) <= M5) by exact (dn' _ _ _ _ X2 P13).
  assert (P32 : Rabs (V x3 * V y2) <= M5) by exact (dn' _ _ _ _ X3 P22).
  assert (P33 : Rabs (V x3 * V y3) <= e * M5) by exact (dn' _ _ _ _ X3 P23).
  assert (A6 := em M5 PM5).
  assert (P33' : Rabs (V x3 * V y3) <= M5) by lra.
  apply (mul_parts_gen (mkQ x0 x1 x2 x3) (mkQ y0 y1 y2 y3) M1 M2 M3 M4 M5 h1 l1 h2 l2 h3 l3 h4 l4 h5 l5 h6 l6 h7 l7 h8 l8 h9 l9 l0 r1 t0 t1 r2 t2 t3 r3 t4 r4);
    unfold Q500; cbn [q0 q1 q2 q3]; try assumption; try lra;
    (split; [split; assumption|]; split; [split; assumption|]; split; split; assumption).
Qed.

Lemma tp_back a b p e : Fin a -> Fin b -> Rabs (V a) <= bp 500 -> Rabs (V b) <= bp 500 -> two_prod a b = (p, e) ->
  Rabs (V a * V b) <= 101 / 100 * Rabs (V p) + 4 * eta.
Proof.
  intros Fa Fb Ha Hb E. destruct (tpb a b _ Fa Fb Ha Hb (Rle_refl _)) as (p' & e' & E' & _ & _ & H1 & H2 & _).
  rewrite E in E'. injection E' as <- <-.
  assert (P := bpow_gt_0 radix2 (-1073)).
  assert (T : Rabs (V a * V b) <= Rabs (V p) + Rabs (V e) + Rabs (V p + V e - V a * V b)).
  { replace (V a * V b) with (V p + V e + - (V p + V e - V a * V b)) at 1 by ring.
    eapply Rle_trans; [apply Rabs_triang|]. rewrite Rabs_Ropp. assert (K := Rabs_triang (V p) (V e)). lra. }
  assert (Pp := Rabs_pos (V p)). lra.
Qed.

Lemma mul_grid k x y N0 h0 l0 h1 l1 h2 l2 h3 l3 h4 l4 h5 l5 h6 l6 h7 l7 h8 l8 h9 l9 r1 t0 t1 r2 t2 t3 r3 t4 r4 :
  (40 <= k <= 53)%Z -> QDec k x -> QDec k y -> Q500 x -> Q500 y -> N0 = Rabs (V (q0 x)) * Rabs (V (q0 y)) ->
  bp (-501) <= N0 <= bp 1000 ->
  two_prod (q0 x) (q0 y) = (h0, l0) ->
  two_prod (q0 x) (q1 y) = (h1, l1) -> two_prod (q1 x) (q0 y) = (h2, l2) ->
  two_prod (q0 x) (q2 y) = (h3, l3) -> two_prod (q1 x) (q1 y) = (h4, l4) -> two_prod (q2 x) (q0 y) = (h5, l5) ->
  two_prod (q0 x) (q3 y) = (h6, l6) -> two_prod (q1 x) (q2 y) = (h7, l7) -> two_prod (q2 x) (q1 y) = (h8, l8) -> two_prod (q3 x) (q0 y) = (h9, l9) ->
  three_three_sum h1 h2 l0 = (r1, t0, t1) -> six_three_sum t0 h3 h4 h5 l1 l2 = (r2, t2, t3) ->
  nine_two_sum t1 t2 h6 h7 h8 h9 l3 l4 l5 = (r3, t4) ->
  r4 = fadd (fadd (fadd (fadd (fadd (fadd (fadd (fadd t3 t4) (fmul (q1 x) (q3 y))) (fmul (q2 x) (q2 y))) (fmul (q3 x) (q1 y))) l6) l7) l8) l9 ->
  let e := bp (- k) in let N1 := e * N0 in let N2 := e * N1 in let N3 := e * N2 in let N4 := e * N3 in
  fb (2 * N0) h0 /\ 16 * N1 <= Rabs (V h0) /\ fb (8 * N1) r1 /\ fb (32 * N2) r2 /\ fb (128 * N3) r3 /\ fb (2048 * N4) r4 /\
  Rabs (V h0 + V r1 + V r2 + V r3 + V r4 - QV x * QV y) <= N4 /\
  ((exists k, (-1074 <= k)%Z /\ mult2 k (V r1) /\ Rabs (V r2) + Rabs (V r3) + Rabs (V r4) <= / 2 * bp (k + 52)) \/
   (Rabs (V r1) <= N4 /\ Rabs (V r2) <= N4 /\ Rabs (V r3) <= N4 /\ Rabs (V r4) <= N4)).
Proof.
  intros Hk Hx Hy QX QY EN [Lo Hi] E0 E1 E2 E3 E4 E5 E6 E7 E8 E9 T1 T2 T3 Er4 e.
  assert (Pe : 0 < e) by apply bpow_gt_0.
  assert (Ue : u <= e) by (change u with (bp (-53)); apply bpow_le; lia).
  assert (Le : e <= / 1099511627776) by (change (/ 1099511627776) with (bp (-40)); apply bpow_le; lia).
  assert (Ge : bp (-53) <= e) by (apply bpow_le; lia).
  assert (Peta := bpow_gt_0 radix2 (-1073)). assert (P801 := bpow_gt_0 radix2 (-801)). assert (P501 := bpow_gt_0 radix2 (-501)).
  intros N1 N2 N3 N4.
  assert (em : forall N, 0 <= N -> e * N <= / 1099511627776 * N) by (intros; apply Rmult_le_compat_r; assumption).
  assert (nn : forall N, 0 <= N -> 0 <= e * N) by (intros; apply Rmult_le_pos; lra).
  assert (PN1 : 0 <= N1) by (apply nn; lra). assert (PN2 : 0 <= N2) by (apply nn; lra). assert (PN3 : 0 <= N3) by (apply nn; lra). assert (PN4 : 0 <= N4) by (apply nn; lra).
  assert (A1 := em N0 ltac:(lra)). fold N1 in A1. assert (A2 := em N1 PN1). fold N2 in A2. assert (A3 := em N2 PN2). fold N3 in A3. assert (A4 := em N3 PN3). fold N4 in A4. assert (A5 := em N4 PN4).
  assert (UN : u * N0 <= N1) by (apply Rmult_le_compat_r; lra).
  assert (L4 : bp (-713) <= N4).
  { unfold N4, N3, N2, N1. replace (e * (e * (e * (e * N0)))) with ((e * (e * (e * e))) * N0) by ring.
    replace (bp (-713)) with (bp (-212) * bp (-501)) by (rewrite <- bpow_plus; reflexivity).
    apply Rmult_le_compat; [apply bpow_ge_0|apply bpow_ge_0| |exact Lo].
    unfold e. rewrite <- !bpow_plus. apply bpow_le. lia. }
  assert (L713 : eta <= / 1048576 * bp (-713)).
  { assert (1048576 * eta <= bp (-713)) by (change 1048576 with (bp 20); rewrite <- bpow_plus; apply bpow_le; lia). lra. }
  assert (Hx' := Hx). assert (Hy' := Hy). destruct Hx' as (_ & X1 & X2 & X3). destruct Hy' as (_ & Y1 & Y2 & Y3). fold e in X1, X2, X3, Y1, Y2, Y3.
  assert (QX' := QX). assert (QY' := QY).
  destruct QX' as ((Fx0 & Bx0) & (Fx1 & Bx1) & (Fx2 & Bx2) & (Fx3 & Bx3)). destruct QY' as ((Fy0 & By0) & (Fy1 & By1) & (Fy2 & By2) & (Fy3 & By3)).
  assert (EA : Rabs (V (q0 x) * V (q0 y)) = N0) by (rewrite Rabs_mult; now symmetry).
  (* the leading product is exact *)
  destruct (two_prod_ok 500 500 (q0 x) (q0 y)) as (F0 & G0 & H0 & H0'); [lia|split; assumption..| |].
  { intros _. rewrite EA. eapply Rle_trans; [|exact Lo]. apply bpow_le. lia. }
  rewrite E0 in F0, G0, H0, H0'. cbn [fst snd] in F0, G0, H0, H0'.
  set (P := V (q0 x) * V (q0 y)) in *.
  assert (K0 : Rabs (rn P - P) <= u * N0 + eta).
  { assert (K := rn_err P). rewrite EA in K. assert (bp (-1075) <= eta) by (apply bpow_le; lia). lra. }
  assert (Bl0 : Rabs (V l0) <= 101 / 100 * N1).
  { rewrite H0', <- Rabs_Ropp. replace (- (P - rn P)) with (rn P - P) by ring. lra. }
  assert (P01 : Rabs (V (q0 x) * V (q1 y)) <= N1).
  { rewrite Rabs_mult. unfold N1. rewrite EN. replace (e * (Rabs (V (q0 x)) * Rabs (V (q0 y)))) with (Rabs (V (q0 x)) * (e * Rabs (V (q0 y)))) by ring.
    apply Rmult_le_compat_l; [apply Rabs_pos|exact Y1]. }
  assert (P10 : Rabs (V (q1 x) * V (q0 y)) <= N1).
  { rewrite Rabs_mult. unfold N1. rewrite EN. replace (e * (Rabs (V (q0 x)) * Rabs (V (q0 y)))) with (e * Rabs (V (q0 x)) * Rabs (V (q0 y))) by ring.
    apply Rmult_le_compat_r; [apply Rabs_pos|exact X1]. }
  assert (N801 : bp (-801) <= N1).
  { unfold N1. apply Rle_trans with (bp (-53) * bp (-501)); [rewrite <- bpow_plus; apply bpow_le; lia|].
    apply Rmult_le_compat; try apply bpow_ge_0; assumption. }
  assert (MPt : forall M1, bp (-801) <= M1 <= bp 1000 -> Rabs (V (q0 x) * V (q1 y)) <= M1 -> Rabs (V (q1 x) * V (q0 y)) <= M1 -> fb (101/100 * M1) l0 ->
    fb (8 * M1) r1 /\ fb (32 * (e * M1)) r2 /\ fb (128 * (e * (e * M1))) r3 /\ fb (2048 * (e * (e * (e * M1)))) r4 /\
    Fin h1 /\ Fin h2 /\ Rabs (V h1) <= 101 / 100 * M1 /\ Rabs (V h2) <= 101 / 100 * M1 /\
    Rabs (V l0 + (QV x * QV y - V (q0 x) * V (q0 y)) - (V r1 + V r2 + V r3 + V r4)) <= 10000 * (e * (e * (e * (e * M1))))).
  { intros M1 I1 I2 I3 I4. exact (mul_parts _ _ _ _ _ _ _ _ _ _ _ _ _ _ _ _ _ _ _ _ _ _ _ _ _ _ _ _ _ _ _ _ Hk Hx Hy QX QY I1 I2 I3 E1 E2 E3 E4 E5 E6 E7 E8 E9 I4 T1 T2 T3 Er4). }
  clear Er4.
  destruct (MPt N1)
    as (R1 & R2 & R3 & R4 & Fh1 & Fh2 & Bh1 & Bh2 & RS); [lra|exact P01|exact P10|split; assumption|].
  fold e in R2, R3, R4, RS. fold N2 in R2, R3, R4, RS. fold N3 in R3, R4, RS. fold N4 in R4, RS.
  split.
  { split; [exact F0|]. rewrite H0. replace (rn P) with (rn P - P + P) by ring. eapply Rle_trans; [apply Rabs_triang|]. lra. }
  split.
  { assert (N0 <= Rabs (V h0) + Rabs (V l0)).
    { rewrite <- EA. replace P with (V h0 + V l0) by (rewrite H0', H0; ring). apply Rabs_triang. }
    lra. }
  split; [exact R1|]. split; [exact R2|]. split; [exact R3|]. split; [exact R4|].
  split.
  { rewrite <- Rabs_Ropp.
    replace (- (V h0 + V r1 + V r2 + V r3 + V r4 - QV x * QV y)) with (V l0 + (QV x * QV y - P) - (V r1 + V r2 + V r3 + V r4)) by (rewrite H0', H0; ring).
    eapply Rle_trans; [exact RS|]. lra. }
  set (m := Rmax (Rmax (Rabs (V h1)) (Rabs (V h2))) (Rabs (V l0))).
  assert (m1 : Rabs (V h1) <= m) by (unfold m; eapply Rle_trans; [apply Rmax_l|apply Rmax_l]).
  assert (m2 : Rabs (V h2) <= m) by (unfold m; eapply Rle_trans; [apply Rmax_r|apply Rmax_l]).
  assert (m3 : Rabs (V l0) <= m) by (unfold m; apply Rmax_r).
  assert (mu : m <= 101 / 100 * N1) by (unfold m; apply Rmax_lub; [apply Rmax_lub|]; lra).
  assert (B1 := tp_back _ _ _ _ Fx0 Fy1 Bx0 By1 E1). assert (B2 := tp_back _ _ _ _ Fx1 Fy0 Bx1 By0 E2).
  assert (G800 : 2 * bp (-801) = bp (-800)) by (change 2 with (bp 1); rewrite <- bpow_plus; reflexivity).
  assert (G799 : 2 * bp (-800) = bp (-799)) by (change 2 with (bp 1); rewrite <- bpow_plus; reflexivity).
  assert (G8 : 1048576 * eta <= bp (-801)) by (change 1048576 with (bp 20); rewrite <- bpow_plus; apply bpow_le; lia).
  destruct (Rle_lt_dec (bp (-800)) m) as [ML|ML].
  - left.
    assert (Bm : 102/100 * m <= bp 1000) by lra.
    destruct (MPt (102/100 * m))
      as (_ & S2 & S3 & S4 & _); [lra|lra|lra|split; [assumption|lra]|].
    fold e in S2, S3, S4.
    set (kc := (cexp radix2 fexp64 (V (q0 x)) + cexp radix2 fexp64 (V (q0 y)))%Z).
    assert (NK : N0 < bp (kc + 106)).
    { rewrite EN. apply Rlt_le_trans with (bp (mag radix2 (V (q0 x))) * bp (mag radix2 (V (q0 y)))).
      - apply Rmult_le_0_lt_compat; try apply Rabs_pos; apply bpow_mag_gt.
      - rewrite <- bpow_plus. apply bpow_le. unfold kc. rewrite !cexp64. lia. }
    assert (Kc : (-1074 <= kc)%Z).
    { assert (bp (-501) < bp (kc + 106)) by lra. apply lt_bpow in H. lia. }
    assert (Ml : mult2 kc (V l0)).
    { assert (MP : mult2 kc P) by (apply mult2_mul; apply mult2_cexp; auto with fmt).
      rewrite H0'. apply mult2_minus; [exact MP|]. now apply mult2_rn. }
    assert (B16 : 4 * bp 1000 <= bp 1016) by (change 4 with (bp 2); rewrite <- bpow_plus; apply bpow_le; lia).
    assert (B17 : bp 1016 <= bp 1017) by (apply bpow_le; lia). assert (B18 : bp 1017 <= bp 1018) by (apply bpow_le; lia).
    assert (Er : V r1 = rn (V l0 + rn (V h1 + V h2))).
    { apply ttsum_fst with (4 := ltac:(lra) : Rabs (V h1) + Rabs (V h2) <= bp 1016) (5 := T1); split; try assumption; lra. }
    destruct (grid3 (V h1) (V h2) (V l0) kc) as (k1 & Hk1 & Mk1 & D); auto with fmt.
    { fold m. eapply Rle_trans; [|exact ML]. apply bpow_le. lia. }
    fold m in D. exists k1. split; [exact Hk1|]. rewrite Er. split; [exact Mk1|].
    destruct S2 as [_ S2], S3 as [_ S3], S4 as [_ S4]. destruct R2 as [_ R2], R3 as [_ R3], R4 as [_ R4].
    destruct D as [D| ->].
    + assert (Pm : 0 <= 102/100 * m) by lra.
      assert (C1 := em _ Pm). assert (C2 := em _ (nn _ Pm)). assert (C3 := em _ (nn _ (nn _ Pm))).
      assert (Q : bp (k1 + 58) = 64 * bp (k1 + 52)) by (change 64 with (bp 6); rewrite <- bpow_plus; f_equal; lia).
      set (m' := 102/100 * m) in *. set (d1 := e * m') in *. set (d2 := e * d1) in *. set (d3 := e * d2) in *.
      assert (J0 := nn _ Pm). assert (J1 := nn _ J0). assert (J2 := nn _ J1). fold d1 d2 d3 in J0, J1, J2. fold d2 in J1, J2. fold d3 in J2.
      assert (Pk := bpow_gt_0 radix2 (k1 + 52)).
      unfold m' in *. lra.
    + assert (Q : bp (kc + 106) = 18014398509481984 * bp (kc + 52)) by (change 18014398509481984 with (bp 54); rewrite <- bpow_plus; f_equal; lia).
      assert (Pk := bpow_gt_0 radix2 (kc + 52)). lra.
  - right.
    assert (L799 : bp (-799) <= bp 1000) by (apply bpow_le; lia).
    destruct (MPt (bp (-799)))
      as ([_ S1] & [_ S2] & [_ S3] & [_ S4] & _); [lra|lra|lra|split; [assumption|lra]|].
    fold e in S2, S3, S4.
    assert (Pm := bpow_ge_0 radix2 (-799)).
    assert (C1 := em _ Pm). assert (C2 := em _ (nn _ Pm)). assert (C3 := em _ (nn _ (nn _ Pm))).
    assert (J0 := nn _ Pm). assert (J1 := nn _ J0). assert (J2 := nn _ J1).
    assert (Q : 1048576 * bp (-799) <= bp (-713)) by (change 1048576 with (bp 20); rewrite <- bpow_plus; apply bpow_le; lia).
    repeat split; lra.
Qed.

(** the intermediate results of a product, by name *)
Lemma mul_core_ex x y : exists h0 l0 h1 l1 h2 l2 h3 l3 h4 l4 h5 l5 h6 l6 h7 l7 h8 l8 h9 l9 r1 t0 t1 r2 t2 t3 r3 t4 r4,
  two_prod (q0 x) (q0 y) = (h0, l0) /\
  two_prod (q0 x) (q1 y) = (h1, l1) /\
  two_prod (q1 x) (q0 y) = (h2, l2) /\
  two_prod (q0 x) (q2 y) = (h3, l3) /\
  two_prod (q1 x) (q1 y) = (h4, l4) /\
  two_prod (q2 x) (q0 y) = (h5, l5) /\
  two_prod (q0 x) (q3 y) = (h6, l6) /\
  two_prod (q1 x) (q2 y) = (h7, l7) /\
  two_prod (q2 x) (q1 y) = (h8, l8) /\
  two_prod (q3 x) (q0 y) = (h9, l9) /\
  three_three_sum h1 h2 l0 = (r1, t0, t1) /\
  six_three_sum t0 h3 h4 h5 l1 l2 = (r2, t2, t3) /\
  nine_two_sum t1 t2 h6 h7 h8 h9 l3 l4 l5 = (r3, t4) /\
  r4 = fadd (fadd (fadd (fadd (fadd (fadd (fadd (fadd t3 t4) (fmul (q1 x) (q3 y))) (fmul (q2 x) (q2 y))) (fmul (q3 x) (q1 y))) l6) l7) l8) l9 /\
  q_mul_core x y = mkQ4 (renorm5 h0 r1 r2 r3 r4).
Proof.
  unfold q_mul_core.
  destruct (two_prod (q0 x) (q0 y)) as [h0 l0] eqn:E0.
  destruct (two_prod (q0 x) (q1 y)) as [h1 l1] eqn:E1. destruct (two_prod (q1 x) (q0 y)) as [h2 l2] eqn:E2.
  destruct (two_prod (q0 x) (q2 y)) as [h3 l3] eqn:E3. destruct (two_prod (q1 x) (q1 y)) as [h4 l4] eqn:E4. destruct (two_prod (q2 x) (q0 y)) as [h5 l5] eqn:E5.
  destruct (two_prod (q0 x) (q3 y)) as [h6 l6] eqn:E6. destruct (two_prod (q1 x) (q2 y)) as [h7 l7] eqn:E7. destruct (two_prod (q2 x) (q1 y)) as [h8 l8] eqn:E8. destruct (two_prod (q3 x) (q0 y)) as [h9 l9] eqn:E9.
  destruct (three_three_sum h1 h2 l0) as [[r1 t0] t1] eqn:T1.
  destruct (six_three_sum t0 h3 h4 h5 l1 l2) as [[r2 t2] t3] eqn:T2.
  destruct (nine_two_sum t1 t2 h6 h7 h8 h9 l3 l4 l5) as [r3 t4] eqn:T3.
  exists h0, l0, h1, l1, h2, l2, h3, l3, h4, l4, h5, l5, h6, l6, h7, l7, h8, l8, h9, l9, r1, t0, t1, r2, t2, t3, r3, t4. eexists.
  do 13 (split; [first [exact eq_refl|assumption]|]). split; exact eq_refl.
Qed.

Lemma q_mul_fine k x y : (40 <= k <= 53)%Z -> QDec k x -> QDec k y ->
  Rabs (QV x) <= bp 499 -> Rabs (QV y) <= bp 499 -> bp (-500) <= Rabs (QV x * QV y) ->
  QFin (q_mul x y) /\
  Rabs (QV (q_mul x y) - QV x * QV y) <= bp (9 - 4 * k) * Rabs (QV x * QV y).
Proof.
  intros Hk Hx Hy Bx By Lo.
  assert (Ix := QDec_hi k x ltac:(lia) Hx). assert (Iy := QDec_hi k y ltac:(lia) Hy).
  assert (Jx := QDec_le k x ltac:(lia) Hx). assert (Jy := QDec_le k y ltac:(lia) Hy).
  assert (EP : Rabs (QV x * QV y) = Rabs (QV x) * Rabs (QV y)) by apply Rabs_mult.
  set (X := Rabs (V (q0 x))) in *. set (Y := Rabs (V (q0 y))) in *.
  assert (PX : 0 <= X) by apply Rabs_pos. assert (PY : 0 <= Y) by apply Rabs_pos.
  assert (PQX := Rabs_pos (QV x)). assert (PQY := Rabs_pos (QV y)).
  set (N0 := X * Y). assert (PN : 0 <= N0) by (apply Rmult_le_pos; lra).
  assert (U1 : N0 <= (1 + / 524288) * (1 + / 524288) * (Rabs (QV x) * Rabs (QV y))).
  { unfold N0. replace ((1 + / 524288) * (1 + / 524288) * (Rabs (QV x) * Rabs (QV y))) with (((1 + / 524288) * Rabs (QV x)) * ((1 + / 524288) * Rabs (QV y))) by ring.
    apply Rmult_le_compat; lra. }
  assert (U2 : Rabs (QV x) * Rabs (QV y) <= (1 + / 524288) * (1 + / 524288) * N0).
  { unfold N0. replace ((1 + / 524288) * (1 + / 524288) * (X * Y)) with (((1 + / 524288) * X) * ((1 + / 524288) * Y)) by ring.
    apply Rmult_le_compat; lra. }
  assert (B500 : 2 * bp 499 = bp 500) by (change 2 with (bp 1); rewrite <- bpow_plus; reflexivity).
  assert (X500 : X <= bp 500) by lra. assert (Y500 : Y <= bp 500) by lra.
  set (e := bp (- k)).
  assert (Pe : 0 < e) by apply bpow_gt_0.
  assert (Ue : u <= e) by (change u with (bp (-53)); apply bpow_le; lia).
  assert (Le : e <= / 1099511627776) by (change (/ 1099511627776) with (bp (-40)); apply bpow_le; lia).
  assert (P500 := bpow_gt_0 radix2 (-500)). assert (N501 : bp (-501) <= N0).
  { assert (2 * bp (-501) = bp (-500)) by (change 2 with (bp 1); rewrite <- bpow_plus; reflexivity). lra. }
  assert (NZ : V (q0 x) <> 0).
  { intros Z. assert (X = 0) by (unfold X; rewrite Z; apply Rabs_R0). assert (N0 = 0) by (unfold N0; rewrite H; ring).
    assert (P501 := bpow_gt_0 radix2 (-501)). lra. }
  assert (N1000 : N0 <= bp 1000).
  { unfold N0. replace (bp 1000) with (bp 500 * bp 500) by (rewrite <- bpow_plus; reflexivity). apply Rmult_le_compat; lra. }
  rewrite q_mul_fin by (apply Hx || apply Hy || exact NZ).
  set (N1 := e * N0). set (N2 := e * N1). set (N3 := e * N2). set (N4 := e * N3). set (N5 := e * N4).
  assert (PN1 : 0 <= N1) by (apply Rmult_le_pos; lra). assert (PN2 : 0 <= N2) by (apply Rmult_le_pos; lra).
  assert (PN3 : 0 <= N3) by (apply Rmult_le_pos; lra). assert (PN4 : 0 <= N4) by (apply Rmult_le_pos; lra).
  assert (PN5 : 0 <= N5) by (apply Rmult_le_pos; lra).
  assert (HS : Scales5 N0 N1 N2 N3 N4 N5).
  { repeat split; try assumption; apply Rmult_le_compat_r; assumption. }
  assert (mono : forall Z, 0 <= Z -> e * Z <= Z).
  { intros Z PZ. rewrite <- (Rmult_1_l Z) at 2. apply Rmult_le_compat_r; lra. }
  assert (QQ : forall z, QDec k z -> Rabs (V (q0 z)) <= bp 500 -> Q500 z).
  { intros z ((F0 & F1 & F2 & F3) & H1 & H2 & H3) B0. fold e in H1, H2, H3.
    assert (M1 := mono _ (Rabs_pos (V (q0 z)))). assert (M2 := mono _ (Rabs_pos (V (q1 z)))). assert (M3 := mono _ (Rabs_pos (V (q2 z)))).
    split; [split; [exact F0|lra]|]. split; [split; [exact F1|lra]|]. split; split; [exact F2|lra|exact F3|lra]. }
  destruct (mul_core_ex x y) as (h0 & l0 & h1 & l1 & h2 & l2 & h3 & l3 & h4 & l4 & h5 & l5 & h6 & l6 & h7 & l7 & h8 & l8 & h9 & l9 & r1 & t0 & t1 & r2 & t2 & t3 & r3 & t4 & r4 & E0 & E1 & E2 & E3 & E4 & E5 & E6 & E7 & E8 & E9 & T1 & T2 & T3 & Er4 & EC).
  rewrite EC.
  destruct (mul_grid k x y N0 _ _ _ _ _ _ _ _ _ _ _ _ _ _ _ _ _ _ _ _ _ _ _ _ _ _ _ _ r4 Hk Hx Hy (QQ x Hx X500) (QQ y Hy Y500) eq_refl (conj N501 N1000) E0 E1 E2 E3 E4 E5 E6 E7 E8 E9 T1 T2 T3 Er4)
    as ((F0 & C0) & C0' & (F1 & C1) & (F2 & C2) & (F3 & C3) & (F4 & C4) & RS & D).
  fold e in C0', C1, C2, C3, C4, RS, D. fold N1 in C0', C1, C2, C3, C4, RS, D. fold N2 in C2, C3, C4, RS, D. fold N3 in C3, C4, RS, D. fold N4 in C4, RS, D.
  clear Er4 EC.
  assert (D' : (exists k, (-1074 <= k)%Z /\ mult2 k (V r1) /\ Rabs (V r2) + Rabs (V r3) + Rabs (V r4) <= / 2 * bp (k + 52)) \/
    (Rabs (V r1) <= / 4 * N2 /\ Rabs (V r2) + Rabs (V r3) + Rabs (V r4) <= / 4 * N3)).
  { destruct D as [D|D]; [now left|right]. destruct HS as (_ & _ & _ & _ & _ & _ & _ & _ & H2 & H3 & H4 & _). lra. }
  destruct (renorm5_fine N0 N1 N2 N3 N4 N5 (/ 4 * N3) h0 r1 r2 r3 r4 ltac:(lra) HS F0 F1 F2 F3 F4 C0' C0 C1 C2 C3 C4 D') as [Q1 Q2].
  change (renorm5 h0 r1 r2 r3 r4) with (renorm5 h0 r1 r2 r3 r4) in *.
  destruct (renorm5 h0 r1 r2 r3 r4) as [[[s0 s1] s2] s3] eqn:ER.
  split; [exact Q1|].
  change (QV (mkQ4 (s0, s1, s2, s3))) with (qsum4 (s0, s1, s2, s3)).
  assert (E4' : bp (9 - 4 * k) = 512 * (e * e * e * e)).
  { unfold e. change 512 with (bp 9). rewrite <- !bpow_plus. f_equal. lia. }
  rewrite E4', EP.
  assert (P4 : 0 < e * e * e * e) by (repeat apply Rmult_lt_0_compat; lra).
  assert (W : N4 <= e * e * e * e * ((1 + / 524288) * (1 + / 524288) * (Rabs (QV x) * Rabs (QV y)))).
  { unfold N4, N3, N2, N1. replace (e * (e * (e * (e * N0)))) with (e * e * e * e * N0) by ring. apply Rmult_le_compat_l; lra. }
  assert (Y' : 0 <= e * e * e * e * (Rabs (QV x) * Rabs (QV y))) by (apply Rmult_le_pos; [lra|apply Rmult_le_pos; lra]).
  assert (U34 : u * N3 <= N4) by apply HS.
  set (w := e * e * e * e) in *. set (S4 := qsum4 (s0, s1, s2, s3)) in *. set (xy := QV x * QV y) in *.
  replace (S4 - xy) with ((S4 - (V h0 + V r1 + V r2 + V r3 + V r4)) + (V h0 + V r1 + V r2 + V r3 + V r4 - xy)) by ring.
  eapply Rle_trans; [apply Rabs_triang|]. lra.
Qed.
