(** * Double::from(f64) keeps the value to 2^-53; accuracy of sqrt *)
From Coq Require Import ZArith Reals Lra Lia Psatz List Bool.
From Flocq Require Import Core IEEE754.BinarySingleNaN.
From Verif Require Import RN F64 Prim DoubleM QuadM Spec F64Facts EFT DAddProofs DMulProofs DDivProofs MulAny SpecialProofs PowProofs ParseM ParseSpec ParseProofs ParseThms ParseNum AlgM TransProofs FromProofs LdexpProofs.
Local Open Scope R_scope.

Lemma ffract_ok a : Fin a -> Fin (ffract a) /\ V (ffract a) = V a - IZR (Ztrunc (V a)).
Proof.
  intros F. unfold ffract. destruct (fnearbyint_ok mode_ZR a F) as [Ft Vt]. fold (ftrunc a) in *. cbn [round_mode] in Vt.
  assert (FA : fmt (V a)) by apply V_fmt. 
  assert (B : Rabs (V a - IZR (Ztrunc (V a))) <= 1 /\ Rabs (V a - IZR (Ztrunc (V a))) <= Rabs (V a)).
  { unfold Ztrunc. destruct (Rlt_bool_spec (V a) 0) as [H|H].
    - assert (C1 := Zceil_ub (V a)). assert (C2 := Zceil_lb (V a)).
      assert (IZR (Zceil (V a)) <= 0) by (apply IZR_le; apply Zceil_glb; cbn; lra).
      rewrite (Rabs_left _ H), Rabs_left1 by lra. lra.
    - assert (C1 := Zfloor_ub (V a)). assert (C2 := Zfloor_lb (V a)).
      assert (0 <= IZR (Zfloor (V a))) by (apply IZR_le; apply Zfloor_lub; cbn; lra).
      rewrite (Rabs_pos_eq _ H), Rabs_pos_eq by lra. lra. }
  assert (FD : fmt (V a - IZR (Ztrunc (V a)))).
  { assert (K : Rabs (V a - IZR (Ztrunc (V a))) <= Rabs (V a)) by apply B.
    destruct (Z_le_gt_dec 0 (cexp radix2 fexp64 (V a))) as [C|C].
    - assert (MI : mult2 0 (V a)) by (apply (mult2_le _ _ _ C), mult2_cexp, FA).
      apply mult2_int in MI. destruct MI as [z ->]. rewrite Ztrunc_IZR, Rminus_diag_eq by reflexivity. apply fmt_0.
    - set (k := cexp radix2 fexp64 (V a)) in *.
      assert (Kk : (-1074 <= k)%Z) by (unfold k; rewrite cexp64; lia).
      apply (fmt_mult2 k); [exact Kk| |].
      + apply mult2_minus; [apply mult2_cexp, FA|]. apply (mult2_le k 0); [lia|]. apply mult2_IZR.
      + apply Rle_trans with (1 := K). destruct (Req_dec (V a) 0) as [->|NZ]; [rewrite Rabs_R0; apply bpow_ge_0|].
        apply Rlt_le. apply Rlt_le_trans with (1 := bpow_mag_gt radix2 (V a)). apply bpow_le. unfold k. rewrite cexp64. lia. }
  destruct (fsub_ok a (ftrunc a) F Ft) as [Fs [Vs _]].
  - rewrite Vt, rn_id by exact FD. apply Rle_lt_trans with 1; [apply B|]. change 1 with (bp 0). apply bpow_lt. lia.
  - split; [exact Fs|]. rewrite Vs, Vt. now apply rn_id.
Qed.

Lemma is_dyadic_val lm a : printer lm -> Fin a -> exists b, is_dyadic lm a = Val b /\ ((exists z, V a = IZR z) -> b = true).
Proof.
  intros P F. unfold is_dyadic. destruct (feqb (ffract a) f0) eqn:E; [exists true; split; auto|].
  destruct (ffract_ok a F) as [Ff Vf].
  rewrite feqb_ok in E by easy. change (V f0) with 0 in E.
  assert (NZ : V (ffract a) <> 0).
  { intros Z. rewrite Z in E. revert E. unfold Req_bool. rewrite Rcompare_Eq by reflexivity. discriminate. }
  assert (NI : forall z, V (ffract a) <> IZR z).
  { intros z Ez. assert (B : Rabs (V (ffract a)) < 1).
    { rewrite Vf. unfold Ztrunc. destruct (Rlt_bool_spec (V a) 0) as [H|H].
      - assert (C1 := Zceil_ub (V a)). assert (C2 := Zceil_lb (V a)). rewrite Rabs_left1; lra.
      - assert (C1 := Zfloor_ub (V a)). assert (C2 := Zfloor_lb (V a)). rewrite Rabs_pos_eq; lra. }
    rewrite Ez, <- abs_IZR in B. apply lt_IZR in B. assert (z = 0%Z) by lia. subst z. now apply NZ. }
  assert (L := proj2 (P (ffract a) Ff NI)). rewrite (proj2 (Z.ltb_ge _ _)) by lia. eexists. split; [reflexivity|].
  intros [z Ez]. exfalso. apply NZ. rewrite Vf, Ez, Ztrunc_IZR. ring.
Qed.

Lemma p10_neg n : (0 <= n)%Z -> powerRZ 10 (0 - n) = / IZR (10 ^ n).
Proof.
  intros H. destruct n as [|p|p]; [cbn; lra| |lia]. cbn [Z.sub Z.opp Z.add powerRZ]. f_equal.
  rewrite pow_IZR. f_equal. now rewrite positive_nat_Z.
Qed.
Lemma d_single_norm a : Fin a -> DNorm (mkD a f0) /\ DV (mkD a f0) = V a.
Proof.
  intros F. assert (E : DV (mkD a f0) = V a) by (unfold DV; cbn [d0 d1]; change (V f0) with 0; ring).
  split; [|exact E]. split; [split; [exact F|reflexivity]|]. rewrite E. symmetry. apply (rn_id _ (V_fmt a)).
Qed.

(** a finite f64 of ordinary size converts without panicking, to within its own
    half-ulp (the conversion reads the shortest decimal, not the binary value) *)
Lemma d_from_f64_ok lm dbg a : printer lm -> Fin a -> bp (-500) <= Rabs (V a) ->
  exists r, d_from_f64 lm dbg a = Val r /\ DNorm r /\ approx (DV r) (V a) 9 (-56).
Proof.
  intros PO F LA. assert (P500 := bpow_gt_0 radix2 (-500)).
  assert (NZ : V a <> 0) by (intros E; rewrite E, Rabs_R0 in LA; lra).
  unfold d_from_f64.
  replace (feqb a f0) with false by (symmetry; rewrite feqb_ok by easy; apply Req_bool_false; exact NZ).
  replace (fis_nan a) with false by (symmetry; now apply fin_not_nan).
  replace (fis_infinite a) with false by (symmetry; now destruct a).
  destruct (is_dyadic_val lm a PO F) as [b [-> Hb]]. cbn [obind]. destruct b.
  { exists (mkD a f0). split; [reflexivity|]. destruct (d_single_norm a F) as [N E]. split; [exact N|].
    rewrite E. unfold approx. rewrite Rminus_diag_eq, Rabs_R0 by reflexivity. apply Rmult_le_pos; [|apply Rabs_pos]. apply Rmult_le_pos; [lra|apply bpow_ge_0]. }
  destruct (PO a F) as [(m & Nu & Sh & D17 & E) _]. { intros z Ez. discriminate (Hb (ex_intro _ z Ez)). } fold (sgn_of m) in E.
  assert (D0 : (0 <= dec_val (digs m))%Z) by apply dec_digs_nonneg.
  assert (F0 : (0 <= frac m)%Z) by (unfold frac; lia).
  assert (PT : (0 < 10 ^ frac m)%Z) by (apply Z.pow_pos_nonneg; lia). assert (PT' := IZR_lt _ _ PT).
  set (X := IZR (sgn_of m * dec_val (digs m)) / IZR (10 ^ frac m)) in *.
  assert (AX : Rabs X = IZR (dec_val (digs m)) / IZR (10 ^ frac m)).
  { unfold X, Rdiv. rewrite Rabs_mult, (Rabs_pos_eq (/ _)) by (left; now apply Rinv_0_lt_compat). f_equal.
    rewrite <- abs_IZR, Z.abs_mul. replace (Z.abs (sgn_of m)) with 1%Z by (unfold sgn_of; now destruct (negative m)). f_equal. lia. }
  assert (LX : bp (-501) < Rabs X).
  { apply Rnot_le_lt. intros G. change (RN X) with (rn X) in E.
    assert (K : Rabs (rn X) <= bp (-501)) by (apply rn_abs_le; [apply fmt_bpow; lia|exact G]). rewrite E in K.
    assert (bp (-501) < bp (-500)) by (apply bpow_lt; lia). lra. }
  assert (FR : (frac m <= 168)%Z).
  { apply Z.le_ngt. intros G. 
    assert (T : (10 ^ 17 * 2 ^ 501 <= 10 ^ frac m)%Z).
    { apply Z.le_trans with (10 ^ 168)%Z; [vm_compute; discriminate|]. apply Z.pow_le_mono_r; lia. }
    apply IZR_le in T. rewrite mult_IZR in T. apply IZR_le in D17.
    assert (B5 : IZR (2 ^ 501) * bp (-501) = 1).
    { change (2 ^ 501)%Z with (radix2 ^ 501)%Z. rewrite IZR_Zpower, <- bpow_plus by lia. reflexivity. }
    assert (P5 := bpow_gt_0 radix2 (-501)). rewrite AX in LX.
    assert (LX2 : bp (-501) * IZR (10 ^ frac m) < IZR (dec_val (digs m))).
    { replace (IZR (dec_val (digs m))) with (IZR (dec_val (digs m)) / IZR (10 ^ frac m) * IZR (10 ^ frac m)) by (field; lra). apply Rmult_lt_compat_r; lra. }
    assert (bp (-501) * (IZR (10 ^ 17) * IZR (2 ^ 501)) <= bp (-501) * IZR (10 ^ frac m)) by (apply Rmult_le_compat_l; lra).
    replace (bp (-501) * (IZR (10 ^ 17) * IZR (2 ^ 501))) with (IZR (10 ^ 17) * (IZR (2 ^ 501) * bp (-501))) in H by ring. rewrite B5 in H. lra. }
  destruct (parse_accurate dbg (lm_to_string lm a) m 0 Sh Nu ltac:(lia)) as (r & K1 & K2 & K3).
  { apply Z.le_lt_trans with (1 := D17). vm_compute. reflexivity. }
  rewrite K1. cbn [obind unwrap]. exists r. split; [reflexivity|]. split; [exact K2|].
  rewrite p10_neg in K3 by exact F0. change (IZR (sgn_of m * dec_val (digs m)) * / IZR (10 ^ frac m)) with X in K3.
  unfold approx in *.
  assert (K4 : Rabs (DV r - X) <= IZR 1727 * bp (-106) * Rabs X).
  { apply Rle_trans with (1 := K3). apply Rmult_le_compat_r; [apply Rabs_pos|]. apply Rmult_le_compat_r; [apply bpow_ge_0|]. apply IZR_le. lia. }
  assert (K5 : Rabs (rn X - X) <= u * Rabs X).
  { apply rn_rel. apply Rle_trans with (bp (-501)); [apply bpow_le; lia|lra]. }
  change (rn X) with (RN X) in K5. rewrite E in K5.
  assert (XA : Rabs X <= (1 + 2 * u) * Rabs (V a)).
  { assert (K := Rabs_triang_inv X (V a)). rewrite (Rabs_minus_sym X) in K. assert (Q := Rabs_pos X). lra. }
  replace (DV r - V a) with ((DV r - X) - (V a - X)) by ring.
  eapply Rle_trans; [apply Rabs_triang|]. rewrite Rabs_Ropp.
  change (bp (-106)) with (/ 81129638414606681695789005144064) in *. change (bp (-56)) with (/ 72057594037927936). lra.
Qed.

Lemma bm1 x : x * bp (-1) = x / 2. Proof. change (bp (-1)) with (/ 2). reflexivity. Qed.
Lemma fhalf_V : Fin fhalf /\ V fhalf = / 2.
Proof. split; [reflexivity|]. unfold V, fhalf. change (f2pow 1 (-1)) with (f2pow 1 (-1)). destruct (f2pow_exact 1 (-1)) as [F E]; try (cbn; lia). unfold V in E. rewrite E. change (bp (-1)) with (/ 2). lra. Qed.
Lemma half_ok x : DNorm x -> bp (-600) <= Rabs (V (d0 x)) -> Rabs (V (d0 x)) <= bp 1015 ->
  DNorm (d_mul_pwr2 x fhalf) /\ V (d0 (d_mul_pwr2 x fhalf)) = V (d0 x) / 2 /\ Rabs (DV (d_mul_pwr2 x fhalf) - DV x / 2) <= bp (-1075).
Proof.
  intros Nx L U. assert (Lo := DNorm_lo x Nx). assert (Nn := DNorm_norm x Nx). destruct Nx as [[F0 F1] _].
  destruct fhalf_V as [Fh Vh]. unfold d_mul_pwr2.
  assert (P6 := bpow_gt_0 radix2 (-600)). assert (B22 : bp (-1022) <= bp (-600) / 4).
  { replace (bp (-600) / 4) with (bp (-602)). apply bpow_le; lia. change (-602)%Z with (-600 + -2)%Z. rewrite bpow_plus. change (bp (-2)) with (/ 4). reflexivity. }
  assert (B24 : bp 1015 < bp 1024) by (apply bpow_lt; lia).
  assert (H0 : rn (V (d0 x) / 2) = V (d0 x) / 2).
  { rewrite <- bm1. rewrite rn_scale; [now rewrite (rn_id _ (V_fmt _))|lra|]. rewrite bm1. unfold Rdiv. rewrite Rabs_mult, (Rabs_pos_eq (/ 2)) by lra. lra. }
  assert (G1 : Rabs (V (d1 x)) <= bp 1015) by lra.
  destruct (fmul_ok (d0 x) fhalf F0 Fh) as [Fa [Va _]].
  { rewrite Vh. change (V (d0 x) * / 2) with (V (d0 x) / 2). rewrite H0. unfold Rdiv. rewrite Rabs_mult, (Rabs_pos_eq (/ 2)) by lra. lra. }
  rewrite Vh in Va. change (V (d0 x) * / 2) with (V (d0 x) / 2) in Va. rewrite H0 in Va.
  assert (R1 : Rabs (rn (V (d1 x) / 2)) <= bp 1015).
  { apply rn_abs_le; [apply fmt_bpow; lia|]. unfold Rdiv. rewrite Rabs_mult, (Rabs_pos_eq (/ 2)) by lra. assert (K := Rabs_pos (V (d1 x))). lra. }
  destruct (fmul_ok (d1 x) fhalf F1 Fh) as [Fb [Vb _]].
  { rewrite Vh. change (V (d1 x) * / 2) with (V (d1 x) / 2). lra. }
  rewrite Vh in Vb. change (V (d1 x) * / 2) with (V (d1 x) / 2) in Vb.
  assert (E1 : Rabs (rn (V (d1 x) / 2) - V (d1 x) / 2) <= bp (-1075) /\ rn (V (d0 x) / 2 + rn (V (d1 x) / 2)) = V (d0 x) / 2).
  { destruct (Rle_or_lt (bp (-1021)) (Rabs (V (d1 x)))) as [G|G].
    - assert (B21 : bp (-1021) / 2 = bp (-1022)) by (rewrite <- bm1, <- bpow_plus; reflexivity).
      assert (B21' : bp (-1022) <= bp (-1021)) by (apply bpow_le; lia).
      assert (X : rn (V (d1 x) / 2) = V (d1 x) / 2).
      { rewrite <- bm1. rewrite rn_scale; [now rewrite (rn_id _ (V_fmt _))|lra|]. rewrite bm1. unfold Rdiv. rewrite Rabs_mult, (Rabs_pos_eq (/ 2)) by lra. lra. }
      rewrite X, Rminus_diag_eq, Rabs_R0 by reflexivity. split; [apply bpow_ge_0|].
      replace (V (d0 x) / 2 + V (d1 x) / 2) with ((V (d0 x) + V (d1 x)) * bp (-1)) by (rewrite bm1; field).
      assert (S : bp (-600) / 2 <= Rabs (V (d0 x) + V (d1 x))).
      { assert (K := Rabs_triang_inv (V (d0 x)) (- V (d1 x))). rewrite Rabs_Ropp in K. replace (V (d0 x) - - V (d1 x)) with (V (d0 x) + V (d1 x)) in K by ring. lra. }
      rewrite rn_scale, Nn, bm1; [reflexivity|lra|]. rewrite bm1. unfold Rdiv at 1. rewrite Rabs_mult, (Rabs_pos_eq (/ 2)) by lra. lra.
    - assert (E : Rabs (rn (V (d1 x) / 2) - V (d1 x) / 2) <= bp (-1075)).
      { apply sub_err. unfold Rdiv. rewrite Rabs_mult, (Rabs_pos_eq (/ 2)) by lra. assert (bp (-1021) / 2 = bp (-1022)) by (rewrite <- bm1, <- bpow_plus; reflexivity). lra. }
      split; [exact E|]. apply rn_absorb.
      + rewrite <- H0. apply rn_fmt.
      + intros Z. assert (V (d0 x) = 0) by lra. rewrite H, Rabs_R0 in L. lra.
      + assert (K : Rabs (rn (V (d1 x) / 2)) <= bp (-1021)).
        { apply rn_abs_le; [apply fmt_bpow; lia|]. unfold Rdiv. rewrite Rabs_mult, (Rabs_pos_eq (/ 2)) by lra. assert (Q := Rabs_pos (V (d1 x))). lra. }
        assert (bp (-1021) * 8 = bp (-1018)) by (change 8 with (bp 3); rewrite <- bpow_plus; reflexivity).
        assert (u * (bp (-600) / 2) = bp (-654)) by (rewrite <- bm1, <- u_bp, <- !bpow_plus; reflexivity).
        assert (bp (-1018) <= bp (-654)) by (apply bpow_le; lia).
        unfold Rdiv. rewrite Rabs_mult, (Rabs_pos_eq (/ 2)) by lra. lra.
      + unfold Rdiv. rewrite Rabs_mult, (Rabs_pos_eq (/ 2)) by lra.
        assert (bp (-600) / 2 = bp (-601)) by (rewrite <- bm1, <- bpow_plus; reflexivity).
        assert (bp (-902) <= bp (-601)) by (apply bpow_le; lia). lra. }
  destruct E1 as [E1 E2]. split; [|split].
  - split; [split; [exact Fa|exact Fb]|]. unfold DV; cbn [d0 d1]. rewrite Va, Vb. symmetry. exact E2.
  - exact Va.
  - unfold DV; cbn [d0 d1]. rewrite Va, Vb. replace (V (d0 x) / 2 + rn (V (d1 x) / 2) - (V (d0 x) + V (d1 x)) / 2) with (rn (V (d1 x) / 2) - V (d1 x) / 2) by field. exact E1.
Qed.

Lemma Rabs_def2' x a : Rabs x <= a -> - a <= x <= a.
Proof. intros H. unfold Rabs in H. destruct (Rcase_abs x); lra. Qed.
Notation vv := (/ 81129638414606681695789005144064).
Lemma karp_step p p' q w d c r :
  Rabs (q - 1) <= 37 / 10 * u -> Rabs (q - p) <= 10 * vv -> Rabs (p' - p) <= vv * vv ->
  Rabs (w - q * q) <= 9 * vv * (q * q) -> Rabs (d - (1 - w)) <= 6 * vv * Rabs (1 - w) ->
  Rabs (c - d * (p' / 2)) <= 10 * vv * Rabs (d * (p' / 2)) + vv * vv -> Rabs (r - (q + c)) <= 6 * vv * Rabs (q + c) ->
  Rabs (r - 1) <= 32 * vv.
Proof.
  intros Hq Hp Hp' Hw Hd Hc Hr.
  assert (G : forall a b x y, Rabs a <= x -> Rabs b <= y -> Rabs (a * b) <= x * y).
  { intros a b x y Ha Hb. rewrite Rabs_mult. apply Rmult_le_compat; auto using Rabs_pos. }
  assert (T : forall a b x y, Rabs a <= x -> Rabs b <= y -> Rabs (a + b) <= x + y).
  { intros a b x y Ha Hb. eapply Rle_trans; [apply Rabs_triang|]. lra. }
  assert (Q1 : Rabs q <= 101 / 100). { replace q with ((q - 1) + 1) by ring. eapply Rle_trans; [apply (T _ _ _ 1 Hq); rewrite Rabs_R1; lra|]. lra. }
  set (n := q - 1) in *.
  assert (QQ : 1 - q * q = - (n * (n + 2))) by (unfold n; ring).
  assert (A2 : Rabs (n + 2) <= 201 / 100). { eapply Rle_trans; [apply (T _ _ _ 2 Hq); rewrite Rabs_pos_eq; lra|]. lra. }
  assert (A1 : Rabs (1 - q * q) <= 75 / 10 * u). { rewrite QQ, Rabs_Ropp. eapply Rle_trans; [apply (G _ _ _ _ Hq A2)|]. lra. }
  assert (QS : 0 <= q * q <= 1 + 75 / 10 * u).
  { split; [nra|]. assert (K := Rle_abs (- (1 - q * q))). rewrite Rabs_Ropp in K. lra. }
  assert (B1 : Rabs (w - q * q) <= 91 / 10 * vv). { apply Rle_trans with (1 := Hw). nra. }
  assert (B2 : Rabs (1 - w) <= 76 / 10 * u).
  { replace (1 - w) with ((1 - q * q) + - (w - q * q)) by ring. eapply Rle_trans; [apply (T _ _ _ (91 / 10 * vv) A1); rewrite Rabs_Ropp; exact B1|]. lra. }
  assert (C1 : Rabs (d - (1 - q * q)) <= 92 / 10 * vv).
  { replace (d - (1 - q * q)) with ((d - (1 - w)) + - (w - q * q)) by ring. eapply Rle_trans; [apply (T _ _ _ (91 / 10 * vv) Hd); rewrite Rabs_Ropp; exact B1|]. lra. }
  assert (C2 : Rabs d <= 77 / 10 * u).
  { replace d with ((d - (1 - q * q)) + (1 - q * q)) by ring. eapply Rle_trans; [apply (T _ _ _ _ C1 A1)|]. lra. }
  assert (D1 : Rabs (p' - q) <= 11 * vv).
  { replace (p' - q) with ((p' - p) + - (q - p)) by ring. eapply Rle_trans; [apply (T _ _ _ (10 * vv) Hp'); rewrite Rabs_Ropp; exact Hp|]. lra. }
  assert (D2 : Rabs (p' / 2) <= 51 / 100).
  { replace (p' / 2) with (((p' - q) + q) * / 2) by field. eapply Rle_trans; [apply (G _ (/ 2) _ (/ 2) (T _ _ _ _ D1 Q1)); rewrite Rabs_pos_eq; lra|]. lra. }
  assert (D3 := G _ _ _ _ C2 D2).
  assert (E1 : Rabs (c - d * (p' / 2)) <= 1 / 100 * vv). { apply Rle_trans with (1 := Hc). lra. }
  assert (E2 := G _ _ _ _ C2 D1). assert (E3 := G _ _ _ _ C1 Q1).
  assert (X : Rabs (c - (1 - q * q) * q / 2) <= 48 / 10 * vv).
  { replace (c - (1 - q * q) * q / 2) with ((c - d * (p' / 2)) + ((d * (p' - q)) * / 2 + ((d - (1 - q * q)) * q) * / 2)) by field.
    eapply Rle_trans; [apply (T _ _ _ (1 / 100 * vv + 47 / 10 * vv) E1)|lra].
    eapply Rle_trans; [apply T; [apply (G _ (/ 2) _ (/ 2) E2)|apply (G _ (/ 2) _ (/ 2) E3)]; rewrite Rabs_pos_eq; lra|]. lra. }
  assert (N2 := G _ _ _ _ Hq Hq).
  assert (Y : Rabs (q + (1 - q * q) * q / 2 - 1) <= 207 / 10 * vv).
  { replace (q + (1 - q * q) * q / 2 - 1) with (- (n * n * (3 / 2 + n / 2))) by (unfold n; field). rewrite Rabs_Ropp.
    eapply Rle_trans; [apply (G _ (3 / 2 + n / 2) _ (151 / 100) N2)|lra].
    eapply Rle_trans; [apply (T (3 / 2) (n / 2) (3 / 2) (1 / 1000)); [rewrite Rabs_pos_eq; lra|]|lra].
    unfold Rdiv. rewrite Rabs_mult, (Rabs_pos_eq (/ 2)) by lra. lra. }
  assert (Zc : Rabs (q + c - 1) <= 256 / 10 * vv).
  { replace (q + c - 1) with ((q + (1 - q * q) * q / 2 - 1) + (c - (1 - q * q) * q / 2)) by ring. eapply Rle_trans; [apply (T _ _ _ _ Y X)|]. lra. }
  assert (Zq : Rabs (q + c) <= 101 / 100).
  { replace (q + c) with ((q + c - 1) + 1) by ring. eapply Rle_trans; [apply (T _ _ _ 1 Zc); rewrite Rabs_R1; lra|]. lra. }
  replace (r - 1) with ((r - (q + c)) + (q + c - 1)) by ring. eapply Rle_trans; [apply (T _ _ _ _ Hr Zc)|]. lra.
Qed.

(** the starting value: X s = 1 to a few ulps *)
Lemma start_ok A ah h t y X s : 0 < A -> s = sqrt A -> h = sqrt ah -> 0 < ah -> Rabs (ah - A) <= u * A -> Rabs (t - h) <= u * h ->
  Rabs (y - 1 / t) <= u * Rabs (1 / t) -> Rabs (X - y) <= 9 / 8 * u * Rabs y ->
  Rabs (X * s - 1) <= 367 / 100 * u.
Proof.
  intros PA Es Eh Pa Ha Ht Hy HX.
  assert (Ps : 0 < s) by (rewrite Es; now apply sqrt_lt_R0). assert (Ph : 0 < h) by (rewrite Eh; now apply sqrt_lt_R0).
  assert (SS : s * s = A) by (rewrite Es; apply sqrt_sqrt; lra). assert (HH : h * h = ah) by (rewrite Eh; apply sqrt_sqrt; lra).
  assert (D1 : Rabs (h - s) <= 51 / 100 * u * s).
  { assert (HL : 99 / 100 * s <= h).
    { apply Rnot_lt_le. intros G. assert (h * h <= (99 / 100 * s) * (99 / 100 * s)) by (apply Rmult_le_compat; lra).
      assert (K := Rle_abs (- (ah - A))). rewrite Rabs_Ropp in K. nra. }
    apply Rmult_le_reg_r with (h + s); [lra|].
    rewrite <- (Rabs_pos_eq (h + s)) at 1 by lra. rewrite <- Rabs_mult.
    replace ((h - s) * (h + s)) with (ah - A) by (rewrite <- HH, <- SS; ring).
    apply Rle_trans with (1 := Ha). rewrite <- SS. nra. }
  assert (D2 : Rabs (t - s) <= 152 / 100 * u * s).
  { assert (K1 := Rle_abs (h - s)).
    replace (t - s) with ((t - h) + (h - s)) by ring. eapply Rle_trans; [apply Rabs_triang|]. nra. }
  assert (Pt : 0 < t). { assert (K := Rle_abs (- (t - s))). rewrite Rabs_Ropp in K. nra. }
  assert (I : Rabs (1 / t) = 1 / t) by (apply Rabs_pos_eq; apply Rlt_le, Rdiv_lt_0_compat; lra).
  rewrite I in Hy.
  assert (Y1 : Rabs (y * t - 1) <= u).
  { replace (y * t - 1) with ((y - 1 / t) * t) by (field; lra). rewrite Rabs_mult, (Rabs_pos_eq t) by lra.
    replace u with (u * (1 / t) * t) by (field; lra). apply Rmult_le_compat_r; lra. }
  assert (Y2 : Rabs y * t <= 1 + u).
  { rewrite <- (Rabs_pos_eq t) by lra. rewrite <- Rabs_mult. replace (y * t) with ((y * t - 1) + 1) by ring. eapply Rle_trans; [apply Rabs_triang|]. rewrite Rabs_R1. lra. }
  assert (X1 : Rabs (X * t - 1) <= 213 / 100 * u).
  { replace (X * t - 1) with ((X - y) * t + (y * t - 1)) by ring. eapply Rle_trans; [apply Rabs_triang|].
    rewrite Rabs_mult, (Rabs_pos_eq t) by lra. assert (Rabs (X - y) * t <= 9 / 8 * u * Rabs y * t) by (apply Rmult_le_compat_r; lra). nra. }
  assert (PX : 0 < X).
  { assert (K := Rle_abs (- (X * t - 1))). rewrite Rabs_Ropp in K. assert (0 < X * t) by lra. apply Rmult_lt_reg_r with t; lra. }
  assert (X2 : Rabs (X * s - X * t) <= 152 / 100 * u * (X * s)).
  { rewrite <- Rmult_minus_distr_l, Rabs_mult, (Rabs_pos_eq X), Rabs_minus_sym by lra. nra. }
  set (p := X * s) in *. set (z := X * t) in *.
  assert (Pp : 0 < p) by (unfold p; now apply Rmult_lt_0_compat).
  assert (K1 := Rle_abs (p - z)). assert (K2 := Rle_abs (z - 1)). 
  assert (p <= 101 / 100) by lra.
  replace (p - 1) with ((p - z) + (z - 1)) by ring. eapply Rle_trans; [apply Rabs_triang|]. lra.
Qed.

Lemma v_bp : bp (-106) = vv. Proof. reflexivity. Qed.
Lemma d_pre_sqrt_none a : Fin (d0 a) -> 0 < V (d0 a) -> d_pre_sqrt a = None.
Proof.
  intros F P. unfold d_pre_sqrt, d_is_zero, d_is_sign_negative, d_is_infinite.
  replace (feqb (d0 a) f0) with false by (symmetry; rewrite feqb_ok by easy; apply Req_bool_false; change (V f0) with 0; lra).
  destruct (d0 a) as [s|s| |s m e h]; try discriminate F; [unfold V in P; cbn in P; lra|]. cbn [andb].
  destruct s; [|reflexivity]. exfalso. change (0 < IZR (Z.neg m) * bp e) in P.
  assert (K := bpow_gt_0 radix2 e). assert (IZR (Z.neg m) < 0) by (apply IZR_lt; reflexivity).
  assert (IZR (Z.neg m) * bp e <= 0); [|lra]. rewrite <- (Rmult_0_l (bp e)). apply Rmult_le_compat_r; lra.
Qed.

Lemma div_abs a b c : 0 < c -> Rabs a <= b * c -> Rabs (a / c) <= b.
Proof.
  intros P H. unfold Rdiv. rewrite Rabs_mult, (Rabs_pos_eq (/ c)) by (left; now apply Rinv_0_lt_compat).
  apply Rmult_le_reg_r with c; [exact P|]. rewrite Rmult_assoc, Rinv_l by lra. lra.
Qed.
Lemma abs_scale a c : 0 < c -> Rabs (a / c) * c = Rabs a.
Proof. intros P. rewrite <- (Rabs_pos_eq c) at 2 by lra. rewrite <- Rabs_mult. f_equal. field. lra. Qed.

Lemma d_sqrt_ok lm dbg a : printer lm -> DNorm a -> bp (-800) <= V (d0 a) <= bp 800 ->
  exists r, d_sqrt lm dbg a = Val r /\ DNorm r /\ approx (DV r) (sqrt (DV a)) 32 (-106).
Proof.
  intros PR Na [L U]. assert (P8 := bpow_gt_0 radix2 (-800)). assert (Fa := proj1 (proj1 Na)).
  assert (Pah : 0 < V (d0 a)) by lra.
  unfold d_sqrt. rewrite d_pre_sqrt_none by assumption.
  destruct (fsqrt_ok (d0 a) Fa ltac:(lra)) as [Ft Vt].
  set (A := DV a) in *. set (ah := V (d0 a)) in *. set (h := sqrt ah) in *. set (s := sqrt A).
  assert (HA : Rabs (ah - A) <= u * A /\ 0 < A).
  { assert (K := DNorm_val_rel a Na). fold A ah in K. rewrite (Rabs_pos_eq ah) in K by lra. apply Rabs_def2' in K.
    assert (PA : 0 < A) by lra. split; [|exact PA].
    assert (Nn := proj2 Na). fold A ah in Nn. change RN with rn in Nn. rewrite Nn. 
    eapply Rle_trans; [apply rn_rel|rewrite Rabs_pos_eq by lra; lra]. rewrite Rabs_pos_eq by lra.
    assert (bp (-1022) <= / 2 * bp (-800)). { change (/ 2) with (bp (-1)). rewrite <- bpow_plus. apply bpow_le; lia. } lra. }
  destruct HA as [HA PA].
  assert (Ph : 0 < h) by now apply sqrt_lt_R0. assert (HH : h * h = ah) by (apply sqrt_sqrt; lra).
  assert (Ps : 0 < s) by now apply sqrt_lt_R0. assert (SS : s * s = A) by (apply sqrt_sqrt; lra).
  assert (B8 : bp (-800) = bp (-400) * bp (-400)) by (rewrite <- bpow_plus; reflexivity).
  assert (B8' : bp 800 = bp 400 * bp 400) by (rewrite <- bpow_plus; reflexivity).
  assert (P4 := bpow_gt_0 radix2 (-400)). assert (P4' := bpow_gt_0 radix2 400). assert (B44 : bp 400 * bp (-400) = 1) by (rewrite <- bpow_plus; reflexivity).
  assert (Hh : bp (-400) <= h <= bp 400).
  { split; apply Rnot_lt_le; intros G; assert (K : h * h < bp (-400) * bp (-400) \/ bp 400 * bp 400 < h * h); try (left; apply Rmult_le_0_lt_compat; lra); try (right; apply Rmult_le_0_lt_compat; lra); lra. }
  assert (Ht : bp (-400) <= V (fsqrt (d0 a)) <= bp 400).
  { rewrite Vt. split; [rewrite <- (rn_id (bp (-400))) by (apply fmt_bpow; lia)|rewrite <- (rn_id (bp 400)) by (apply fmt_bpow; lia)]; apply rn_le; lra. }
  set (t := V (fsqrt (d0 a))) in *. assert (Pt : 0 < t) by lra.
  assert (I1 : bp (-400) <= 1 / t <= bp 400).
  { split.
    - apply Rmult_le_reg_r with t; [exact Pt|]. replace (1 / t * t) with 1 by (field; lra). rewrite <- B44, (Rmult_comm (bp 400)). apply Rmult_le_compat_l; lra.
    - apply Rmult_le_reg_r with t; [exact Pt|]. replace (1 / t * t) with 1 by (field; lra). rewrite <- B44. apply Rmult_le_compat_l; lra. }
  assert (F1 : Fin f1 /\ V f1 = 1) by (split; [reflexivity|unfold V; cbn; unfold F2R; cbn; lra]).
  assert (Ry : bp (-400) <= rn (1 / t) <= bp 400).
  { split; [rewrite <- (rn_id (bp (-400))) by (apply fmt_bpow; lia)|rewrite <- (rn_id (bp 400)) by (apply fmt_bpow; lia)]; apply rn_le; lra. }
  destruct (fdiv_ok f1 (fsqrt (d0 a)) (proj1 F1)) as [Fy [Vy _]].
  { fold t. lra. }
  { rewrite (proj2 F1). fold t. rewrite Rabs_pos_eq by lra. apply Rle_lt_trans with (1 := proj2 Ry). apply bpow_lt; lia. }
  rewrite (proj2 F1) in Vy. fold t in Vy. set (y := fdiv f1 (fsqrt (d0 a))) in *.
  destruct (d_from_f64_ok lm dbg y PR Fy) as (x & Kx & Nx & Ax).
  { rewrite Vy, Rabs_pos_eq by lra. apply Rle_trans with (2 := proj1 Ry). apply bpow_le; lia. }
  rewrite Kx. cbn [obind].
  assert (B1022 : bp (-1022) <= bp (-400)) by (apply bpow_le; lia).
  assert (ST : Rabs (DV x * s - 1) <= 367 / 100 * u).
  { apply (start_ok A ah h t (V y) (DV x) s); auto.
    - rewrite Vt. eapply Rle_trans; [apply rn_rel; rewrite Rabs_pos_eq by lra; lra|]. rewrite Rabs_pos_eq by lra. lra.
    - rewrite Vy. apply rn_rel. rewrite Rabs_pos_eq by lra. lra.
    - unfold approx in Ax. change (IZR 9 * bp (-56)) with (9 * / 72057594037927936) in Ax. eapply Rle_trans; [exact Ax|]. apply Rmult_le_compat_r; [apply Rabs_pos|]. lra. }
  set (X := DV x) in *. set (p := X * s) in *.
  assert (Pp : 99 / 100 <= p <= 101 / 100) by (apply Rabs_def2' in ST; lra).
  assert (EX : X = p / s) by (unfold p; field; lra).
  (* sizes of the components *)
  assert (HS : bp (-401) <= s <= bp 401).
  { assert (Q1 : bp (-401) = / 2 * bp (-400)) by (change (/ 2) with (bp (-1)); rewrite <- bpow_plus; reflexivity).
    assert (Q2 : bp 401 = 2 * bp 400) by (change 2 with (bp 1); rewrite <- bpow_plus; reflexivity).
    apply Rabs_def2' in HA.
    split; apply Rnot_lt_le; intros G; assert (K : s * s < bp (-401) * bp (-401) \/ bp 401 * bp 401 < s * s); try (left; apply Rmult_le_0_lt_compat; lra); try (right; apply Rmult_le_0_lt_compat; lra); nra. }
  assert (PS1 := bpow_gt_0 radix2 (-401)). assert (PS2 := bpow_gt_0 radix2 401).
  assert (IS : bp (-401) <= / s <= bp 401).
  { assert (BB : bp 401 * bp (-401) = 1) by (rewrite <- bpow_plus; reflexivity).
    split; apply Rmult_le_reg_r with s; try exact Ps; rewrite Rinv_l by lra; rewrite <- BB; [rewrite (Rmult_comm (bp 401))|]; apply Rmult_le_compat_l; lra. }
  assert (HX : bp (-402) <= X <= bp 402).
  { assert (Q1 : bp (-402) = / 2 * bp (-401)) by (change (/ 2) with (bp (-1)); rewrite <- bpow_plus; reflexivity).
    assert (Q2 : bp 402 = 2 * bp 401) by (change 2 with (bp 1); rewrite <- bpow_plus; reflexivity).
    rewrite EX. unfold Rdiv. rewrite Q1, Q2. split; apply Rmult_le_compat; lra. }
  assert (Hx0 : bp (-402) <= V (d0 x) <= bp 402).
  { rewrite (proj2 Nx). change RN with rn. fold X. split; [rewrite <- (rn_id (bp (-402))) by (apply fmt_bpow; lia)|rewrite <- (rn_id (bp 402)) by (apply fmt_bpow; lia)]; apply rn_le; lra. }
  (* a * x *)
  assert (P402 := bpow_gt_0 radix2 (-402)). assert (P402' := bpow_gt_0 radix2 402).
  assert (AX0 : 0 < ah * V (d0 x)) by (apply Rmult_lt_0_compat; lra).
  destruct (d_mul_ok a x Na Nx) as [Ng Ag].
  { right. fold ah. rewrite (Rabs_pos_eq (ah * V (d0 x))) by lra.
    assert (x0X := DNorm_val_rel x Nx). fold X in x0X. rewrite (Rabs_pos_eq (V (d0 x))) in x0X by lra. apply Rabs_def2' in x0X.
    apply Rabs_def2' in HA.
    assert (AXS : A * X = s * p) by (rewrite <- SS, EX; field; lra).
    assert (L1 : / 4 * (A * X) <= ah * V (d0 x)). { replace (/ 4 * (A * X)) with ((/ 2 * A) * (/ 2 * X)) by field. apply Rmult_le_compat; lra. }
    assert (U1 : ah * V (d0 x) <= 4 * (A * X)). { replace (4 * (A * X)) with ((2 * A) * (2 * X)) by ring. apply Rmult_le_compat; lra. }
    rewrite AXS in L1, U1.
    assert (/ 2 * s <= s * p <= 2 * s) by (rewrite (Rmult_comm s p); split; apply Rmult_le_compat_r; lra).
    assert (bp (-900) <= / 8 * bp (-401)). { change (/ 8) with (bp (-3)). rewrite <- bpow_plus. apply bpow_le; lia. }
    assert (8 * bp 401 <= bp 1015). { change 8 with (bp 3). rewrite <- bpow_plus. apply bpow_le; lia. }
    lra. }
  set (g := d_mul a x) in *. fold A X in Ag. unfold approx in Ag. rewrite v_bp in Ag.
  assert (AXS : A * X = s * p) by (rewrite <- SS, EX; field; lra). rewrite AXS in Ag.
  rewrite (Rabs_pos_eq (s * p)) in Ag by (apply Rmult_le_pos; lra).
  set (q := DV g / s). assert (EG : DV g = s * q) by (unfold q; field; lra).
  assert (Hqp : Rabs (q - p) <= 10 * vv).
  { replace (q - p) with ((DV g - s * p) / s) by (unfold q; field; lra). apply div_abs; [exact Ps|]. apply Rle_trans with (1 := Ag).
    replace (IZR 9 * vv * (s * p)) with (9 * vv * p * s) by ring. apply Rmult_le_compat_r; lra. }
  assert (Hq : Rabs (q - 1) <= 37 / 10 * u).
  { replace (q - 1) with ((q - p) + (p - 1)) by ring. eapply Rle_trans; [apply Rabs_triang|]. lra. }
  assert (Q1 : 99 / 100 <= q <= 101 / 100) by (apply Rabs_def2' in Hq; lra).
  assert (GB : bp (-402) <= DV g <= bp 402).
  { assert (Z1 : bp (-402) = / 2 * bp (-401)) by (change (/ 2) with (bp (-1)); rewrite <- bpow_plus; reflexivity).
    assert (Z2 : bp 402 = 2 * bp 401) by (change 2 with (bp 1); rewrite <- bpow_plus; reflexivity).
    rewrite EG, (Rmult_comm s), Z1, Z2. split; apply Rmult_le_compat; lra. }
  assert (Hg0 : bp (-402) <= V (d0 g) <= bp 402).
  { rewrite (proj2 Ng). change RN with rn. split; [rewrite <- (rn_id (bp (-402))) by (apply fmt_bpow; lia)|rewrite <- (rn_id (bp 402)) by (apply fmt_bpow; lia)]; apply rn_le; lra. }
  (* its square *)
  assert (BG : bp (-804) <= V (d0 g) * V (d0 g) <= bp 804).
  { change (-804)%Z with (-402 + -402)%Z. change 804%Z with (402 + 402)%Z. rewrite !bpow_plus. split; apply Rmult_le_compat; lra. }
  destruct (d_sqr_ok g Ng) as [Nw Aw].
  { right. split; [apply Rle_trans with (2 := proj1 BG); apply bpow_le; lia|apply Rle_trans with (1 := proj2 BG); apply bpow_le; lia]. }
  set (w := d_sqr g) in *. unfold approx in Aw. rewrite v_bp in Aw.
  set (w' := DV w / A). assert (EW : DV w = A * w') by (unfold w'; field; lra).
  assert (GG : DV g * DV g = A * (q * q)) by (rewrite EG, <- SS; ring). rewrite GG in Aw.
  rewrite (Rabs_pos_eq (A * (q * q))) in Aw by (apply Rmult_le_pos; [lra|nra]).
  assert (Hw : Rabs (w' - q * q) <= 9 * vv * (q * q)).
  { replace (w' - q * q) with ((DV w - A * (q * q)) / A) by (unfold w'; field; lra). apply div_abs; [exact PA|]. apply Rle_trans with (1 := Aw). right; ring. }
  assert (BW : Rabs (V (d0 w)) <= bp 1015).
  { rewrite (proj2 Nw). change RN with rn. apply rn_abs_le; [apply fmt_bpow; lia|].
    assert (QB : 0 <= q * q <= 2) by (split; nra). apply Rabs_def2' in Hw.
    rewrite EW, Rabs_pos_eq by (apply Rmult_le_pos; lra).
    assert (A4 : A <= 2 * bp 800) by (apply Rabs_def2' in HA; lra).
    assert (8 * bp 800 <= bp 1015). { change 8 with (bp 3). rewrite <- bpow_plus. apply bpow_le; lia. }
    assert (A * w' <= (2 * bp 800) * 4) by (apply Rmult_le_compat; lra). lra. }
  assert (BA : Rabs (V (d0 a)) <= bp 1015).
  { fold ah. rewrite Rabs_pos_eq by lra. apply Rle_trans with (1 := U). apply bpow_le; lia. }
  destruct (d_sub_ok a w Na Nw BA BW) as [Nd Ad]. set (d := d_sub a w) in *. fold A in Ad. unfold approx in Ad. rewrite v_bp in Ad.
  set (d' := DV d / A). assert (ED : DV d = A * d') by (unfold d'; field; lra).
  assert (EAW : A - DV w = A * (1 - w')) by (rewrite EW; ring). rewrite EAW in Ad.
  assert (Hd : Rabs (d' - (1 - w')) <= 6 * vv * Rabs (1 - w')).
  { replace (d' - (1 - w')) with ((DV d - A * (1 - w')) / A) by (unfold d'; field; lra). apply div_abs; [exact PA|]. apply Rle_trans with (1 := Ad).
    rewrite (Rabs_mult A), (Rabs_pos_eq A) by lra. right. ring. }
  assert (W1 : Rabs (1 - w') <= 1).
  { apply Rabs_def2' in Hw. assert (0 <= q * q <= 3 / 2) by (split; nra). apply Rabs_le. lra. }
  assert (D1 : Rabs d' <= 2).
  { replace d' with ((d' - (1 - w')) + (1 - w')) by ring. eapply Rle_trans; [apply Rabs_triang|]. lra. }
  (* half of x *)
  destruct (half_ok x Nx) as [Nh [Vh Eh]].
  { rewrite Rabs_pos_eq by lra. apply Rle_trans with (2 := proj1 Hx0). apply bpow_le; lia. }
  { rewrite Rabs_pos_eq by lra. apply Rle_trans with (1 := proj2 Hx0). apply bpow_le; lia. }
  set (hx := d_mul_pwr2 x fhalf) in *. fold X in Eh.
  set (p' := 2 * (s * DV hx)). assert (EH : DV hx = p' / 2 / s) by (unfold p'; field; lra).
  assert (Hp' : Rabs (p' - p) <= vv * vv).
  { replace (p' - p) with (2 * s * (DV hx - X / 2)) by (unfold p', p; field). rewrite Rabs_mult, (Rabs_pos_eq (2 * s)) by lra.
    apply Rle_trans with (2 * bp 401 * bp (-1075)); [apply Rmult_le_compat; try apply Rabs_pos; lra|].
    change 2 with (bp 1) at 1. rewrite <- !bpow_plus. change (vv * vv) with (bp (-106) * bp (-106)). rewrite <- bpow_plus. apply bpow_le; lia. }
  assert (Hp2 : Rabs p' <= 2).
  { replace p' with ((p' - p) + p) by ring. eapply Rle_trans; [apply Rabs_triang|]. rewrite (Rabs_pos_eq p) by lra. lra. }
  destruct (d_mul_any d hx Nd Nh) as [Nc Ac].
  { assert (R1 := DNorm_hi_rel d Nd). assert (R2 := DNorm_hi_rel hx Nh). rewrite Rabs_mult.
    apply Rle_trans with ((2 * Rabs (DV d)) * (2 * Rabs (DV hx))).
    { apply Rmult_le_compat; try apply Rabs_pos; assert (K1 := Rabs_pos (DV d)); assert (K2 := Rabs_pos (DV hx)); lra. }
    replace ((2 * Rabs (DV d)) * (2 * Rabs (DV hx))) with (4 * Rabs (DV d * DV hx)) by (rewrite Rabs_mult; ring).
    replace (DV d * DV hx) with (s * (d' * (p' / 2))) by (rewrite ED, EH, <- SS; field; lra).
    rewrite (Rabs_mult s), (Rabs_pos_eq s) by lra. rewrite (Rabs_mult d').
    assert (Rabs (p' / 2) <= 1) by (apply div_abs; lra).
    assert (Rabs d' * Rabs (p' / 2) <= 2 * 1) by (apply Rmult_le_compat; try apply Rabs_pos; lra).
    assert (s * (Rabs d' * Rabs (p' / 2)) <= bp 401 * (2 * 1)) by (apply Rmult_le_compat; try lra; apply Rmult_le_pos; apply Rabs_pos).
    assert (8 * bp 401 <= bp 1015). { change 8 with (bp 3). rewrite <- bpow_plus. apply bpow_le; lia. }
    lra. }
  set (c := d_mul d hx) in *. rewrite v_bp in Ac.
  set (c' := DV c / s). assert (EC : DV c = s * c') by (unfold c'; field; lra).
  assert (EDH : DV d * DV hx = s * (d' * (p' / 2))) by (rewrite ED, EH, <- SS; field; lra). rewrite EDH in Ac.
  assert (Hc : Rabs (c' - d' * (p' / 2)) <= 10 * vv * Rabs (d' * (p' / 2)) + vv * vv).
  { replace (c' - d' * (p' / 2)) with ((DV c - s * (d' * (p' / 2))) / s) by (unfold c'; field; lra). apply div_abs; [exact Ps|]. apply Rle_trans with (1 := Ac).
    rewrite (Rabs_mult s), (Rabs_pos_eq s) by lra.
    assert (bp (-1073) <= vv * vv * s).
    { apply Rle_trans with (vv * vv * bp (-401)); [|apply Rmult_le_compat_l; lra].
      change (vv * vv) with (bp (-106) * bp (-106)). rewrite <- !bpow_plus. apply bpow_le; lia. }
    rewrite Rmult_plus_distr_r. apply Rplus_le_compat; [right; ring|exact H]. }
  assert (C1 : Rabs c' <= 10).
  { replace c' with ((c' - d' * (p' / 2)) + d' * (p' / 2)) by ring. eapply Rle_trans; [apply Rabs_triang|].
    assert (Rabs (d' * (p' / 2)) <= 2). { rewrite Rabs_mult. assert (Rabs (p' / 2) <= 1) by (apply div_abs; lra).
      assert (Rabs d' * Rabs (p' / 2) <= 2 * 1) by (apply Rmult_le_compat; try apply Rabs_pos; lra). lra. }
    lra. }
  assert (BGG : Rabs (V (d0 g)) <= bp 1015).
  { rewrite Rabs_pos_eq by lra. apply Rle_trans with (1 := proj2 Hg0). apply bpow_le; lia. }
  assert (BC : Rabs (V (d0 c)) <= bp 1015).
  { apply DNorm_hi_le; [exact Nc|apply fmt_bpow; lia|]. rewrite EC, Rabs_mult, (Rabs_pos_eq s) by lra.
    apply Rle_trans with (bp 401 * 10); [apply Rmult_le_compat; try apply Rabs_pos; lra|].
    assert (16 * bp 401 <= bp 1015). { change 16 with (bp 4). rewrite <- bpow_plus. apply bpow_le; lia. } lra. }
  destruct (d_add_ok g c Ng Nc BGG BC) as [Nr Ar]. exists (d_add g c). split; [reflexivity|]. split; [exact Nr|].
  set (r := d_add g c) in *. unfold approx in Ar. rewrite v_bp in Ar.
  replace (DV g + DV c) with (s * (q + c')) in Ar by (rewrite EG, EC; ring).
  assert (Hr : Rabs (DV r / s - (q + c')) <= 6 * vv * Rabs (q + c')).
  { replace (DV r / s - (q + c')) with ((DV r - s * (q + c')) / s) by (field; lra). apply div_abs; [exact Ps|]. apply Rle_trans with (1 := Ar).
    rewrite (Rabs_mult s), (Rabs_pos_eq s) by lra. right; ring. }
  assert (FIN := karp_step p p' q w' d' c' (DV r / s) Hq Hqp Hp' Hw Hd Hc Hr).
  unfold approx. fold s. rewrite v_bp, (Rabs_pos_eq s) by lra.
  replace (DV r - s) with ((DV r / s - 1) * s) by (field; lra). rewrite Rabs_mult, (Rabs_pos_eq s) by lra.
  apply Rmult_le_compat_r; lra.
Qed.
