(** * A platform log10 that is close to the real one finds the decimal exponent *)
From Coq Require Import ZArith Reals Lra Lia Psatz.
From Flocq Require Import Core IEEE754.BinarySingleNaN.
From Verif Require Import RN F64 Prim DoubleM Spec F64Facts EFT DAddProofs ExactProofs LawProofs RoundProofs DDivProofs DisplayM DisplayText DisplayNum DisplayMore.
Local Open Scope R_scope.

(** contract on the platform: log10 of a positive finite f64 is finite and within 2^-43 of the real logarithm
    (glibc documents 2 ulp; 2 ulp at 308 is 2^-43) *)
Definition log10_close (lm : libm) : Prop :=
  forall a, Fin a -> 0 < V a -> Fin (lm_log10 lm a) /\ Rabs (V (lm_log10 lm a) - ln (V a) / ln 10) <= bp (-43).

Lemma ln10_bounds : 1 < ln 10 < 3.
Proof.
  split.
  - rewrite <- (ln_exp 1) at 1. apply ln_increasing; [apply exp_pos|]. pose proof exp_le_3. lra.
  - rewrite <- (ln_exp 3). apply ln_increasing; [lra|].
    assert (K := exp_ineq1 (/ 8) ltac:(lra)). set (t := exp (/ 8)) in *.
    assert (E2 : exp (/ 4) = t * t) by (unfold t; rewrite <- exp_plus; f_equal; lra).
    assert (E3 : exp (/ 2) = exp (/ 4) * exp (/ 4)) by (rewrite <- exp_plus; f_equal; lra).
    assert (E4 : exp 1 = exp (/ 2) * exp (/ 2)) by (rewrite <- exp_plus; f_equal; lra).
    assert (E5 : exp 3 = exp 1 * (exp 1 * exp 1)) by (rewrite <- !exp_plus; f_equal; lra).
    assert (1.26 <= exp (/ 4)) by (rewrite E2; nra). assert (1.58 <= exp (/ 2)) by (rewrite E3; nra). assert (2.4 <= exp 1) by (rewrite E4; nra).
    rewrite E5. assert (5.7 <= exp 1 * exp 1) by nra. nra.
Qed.
Lemma lnle x y : 0 < x -> x <= y -> ln x <= ln y.
Proof. intros H [K| ->]; [left; now apply ln_increasing|right; reflexivity]. Qed.
Lemma pz_exp n : powerRZ 10 n = exp (IZR n * ln 10).
Proof. rewrite powerRZ_Rpower by lra. reflexivity. Qed.
Lemma exp_le_frac t : 0 <= t < 1 -> exp t <= / (1 - t).
Proof.
  intros H. assert (K : 1 - t <= exp (- t)). { destruct (Req_dec t 0) as [->|N]; [rewrite Ropp_0, exp_0; lra|]. left. replace (1 - t) with (1 + - t) by ring. apply exp_ineq1. lra. }
  rewrite exp_Ropp in K. assert (P := exp_pos t). rewrite <- (Rinv_inv (exp t)). apply Rinv_le; lra.
Qed.
Lemma floor_i32 a z : Fin a -> IZR z <= V a < IZR z + 1 -> (Z.abs z <= 2147483647)%Z -> as_i32 (ffloor a) = z.
Proof.
  intros F H Hz. assert (Ez : Zfloor (V a) = z) by (apply Zfloor_imp; rewrite plus_IZR; auto).
  destruct (ffloor_ok a F) as [Ff Vf]. rewrite Ez in Vf. unfold as_i32, sat.
  assert (T : Btrunc (ffloor a) = z).
  { apply eq_IZR. rewrite (Btrunc_correct prec emax _ (ffloor a)). change (B2R (ffloor a)) with (V (ffloor a)). rewrite Vf.
    rewrite round_generic; auto with typeclass_instances. apply generic_format_FIX. exists (Float radix2 z 0); cbn; [unfold F2R; cbn; ring|reflexivity]. }
  unfold Fin in Ff. destruct (ffloor a); try discriminate Ff; rewrite T; lia.
Qed.
Lemma decade_real h X L z : 0 < X -> Rabs (h - X) <= bp (-52) * X -> Rabs (L - ln h / ln 10) <= bp (-43) -> IZR z <= L < IZR z + 1 -> decade z X.
Proof.
  intros X0 Hh HL Hz. assert (B := ln10_bounds). change (bp (-52)) with (/ 4503599627370496) in Hh. change (bp (-43)) with (/ 8796093022208) in HL.
  apply Rabs_le_inv in Hh. assert (h0 : 0 < h) by lra. set (l := ln 10) in *. set (d := / 8796093022208) in *. assert (D0 : 0 < d < / 8000000000000) by (unfold d; lra).
  apply Rabs_le_inv in HL. assert (Q : ln h = ln h / l * l) by (field; lra). set (q := ln h / l) in *.
  assert (L1 : IZR z * l <= ln h + 3 * d) by nra. assert (L2 : ln h <= (IZR z + 1) * l + 3 * d) by nra.
  assert (E : exp (3 * d) <= / (1 - 3 * d)) by (apply exp_le_frac; lra).
  assert (H1 : powerRZ 10 z * (1 - 3 * d) <= h).
  { rewrite pz_exp. fold l. apply Rle_trans with (h * exp (3 * d) * (1 - 3 * d)).
    - apply Rmult_le_compat_r; [lra|]. rewrite <- (exp_ln h) at 1 by auto. rewrite <- exp_plus. destruct L1 as [L1| ->]; [left; now apply exp_increasing|right; reflexivity].
    - assert (exp (3 * d) * (1 - 3 * d) <= 1). { apply Rle_trans with (/ (1 - 3 * d) * (1 - 3 * d)); [apply Rmult_le_compat_r; lra|rewrite Rinv_l; lra]. } nra. }
  assert (H2 : h * (1 - 3 * d) <= powerRZ 10 (z + 1)).
  { rewrite pz_exp, plus_IZR. fold l. apply Rle_trans with (exp ((IZR z + 1) * l) * exp (3 * d) * (1 - 3 * d)).
    - apply Rmult_le_compat_r; [lra|]. rewrite <- exp_plus. rewrite <- (exp_ln h) at 1 by auto. destruct L2 as [L2| ->]; [left; now apply exp_increasing|right; reflexivity].
    - assert (P := exp_pos ((IZR z + 1) * l)). assert (exp (3 * d) * (1 - 3 * d) <= 1). { apply Rle_trans with (/ (1 - 3 * d) * (1 - 3 * d)); [apply Rmult_le_compat_r; lra|rewrite Rinv_l; lra]. } nra. }
  assert (P1 := pz_pos z). assert (P2 := pz_pos (z + 1)). unfold decade. change (bp (-40)) with (/ 1099511627776).
  set (A := powerRZ 10 z) in *. set (C := powerRZ 10 (z + 1)) in *. clearbody A C. unfold d in *. split; nra.
Qed.
Lemma log10_decade lm x : log10_close lm -> DNorm x -> powerRZ 10 (-259) <= Rabs (DV x) <= powerRZ 10 259 ->
  let e := dec_exp lm (fabs (d0 x)) in (Z.abs e <= 260)%Z /\ decade e (Rabs (DV x)).
Proof.
  intros HL N R e. assert (F : Fin (d0 x)) by (destruct N as [[? _] _]; auto). assert (X0 : 0 < Rabs (DV x)) by (eapply Rlt_le_trans; [apply pz_pos|apply R]).
  set (X := Rabs (DV x)) in *. destruct (fabs_ok (d0 x) F) as [Fa Va].
  assert (Hh : Rabs (V (fabs (d0 x)) - X) <= bp (-52) * X). {
    assert (K1 := DNorm_hi_rel x N). assert (K2 := DNorm_val_rel x N). rewrite Va. eapply Rle_trans; [apply Rabs_triang_inv2|]. rewrite Rabs_minus_sym.
    eapply Rle_trans; [exact K2|]. change (bp (-52)) with (/ 4503599627370496). fold X in K1. lra. }
  set (h := V (fabs (d0 x))) in *. assert (h0 : 0 < h). { change (bp (-52)) with (/ 4503599627370496) in Hh. apply Rabs_le_inv in Hh. lra. }
  destruct (HL _ Fa h0) as [Fl Cl]. fold h in Cl. set (L := V (lm_log10 lm (fabs (d0 x)))) in *.
  assert (B := ln10_bounds).
  assert (Bl : -259.6 <= L <= 259.6).
  { change (bp (-43)) with (/ 8796093022208) in Cl. apply Rabs_le_inv in Cl. assert (K := exp_ineq1 (/ 2 * ln 10) ltac:(lra)). set (s := exp (/ 2 * ln 10)) in *.
    change (bp (-52)) with (/ 4503599627370496) in Hh. apply Rabs_le_inv in Hh. rewrite !pz_exp in R.
    assert (U : ln h <= (259 + / 2) * ln 10).
    { rewrite <- (ln_exp ((259 + / 2) * ln 10)). apply lnle; [lra|]. replace ((259 + / 2) * ln 10) with (259 * ln 10 + / 2 * ln 10) by ring. rewrite exp_plus. fold s.
      assert (P := exp_pos (259 * ln 10)). nra. }
    assert (W : - (259 + / 2) * ln 10 <= ln h).
    { rewrite <- (ln_exp (- (259 + / 2) * ln 10)). apply lnle; [apply exp_pos|]. replace (- (259 + / 2) * ln 10) with (-259 * ln 10 + - (/ 2 * ln 10)) by ring. rewrite exp_plus, exp_Ropp. fold s.
      assert (P := exp_pos (-259 * ln 10)). assert (/ s <= / (1.5)) by (apply Rinv_le; lra). nra. }
    assert (Q : ln h = ln h / ln 10 * ln 10) by (field; lra). set (q := ln h / ln 10) in *. 
    assert (q <= 259.5) by nra. assert (-259.5 <= q) by nra. lra. }
  assert (Ez : e = Zfloor L).
  { unfold e, dec_exp. apply floor_i32; auto. 2: {
      assert (-260 <= Zfloor L)%Z by (apply Zfloor_lub; lra). assert (Zfloor L <= 259)%Z by (assert (K := Zfloor_lb L); assert (IZR (Zfloor L) < 260) by lra; apply lt_IZR in H0; lia). lia. }
    fold L. assert (K := Zfloor_lb L). assert (K' := Zfloor_ub L). lra. }
  assert (Bz : (-260 <= e <= 259)%Z).
  { rewrite Ez. split; [apply Zfloor_lub; lra|]. assert (K := Zfloor_lb L). assert (K2 : IZR (Zfloor L) < 260) by lra. apply lt_IZR in K2. lia. }
  split; [lia|]. apply (decade_real h X L e X0 Hh Cl). rewrite Ez. split; [apply Zfloor_lb|apply Zfloor_ub].
Qed.
