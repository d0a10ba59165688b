(** * Accuracy of Quad exp, assembled *)
From Coq Require Import ZArith Reals List Bool Lia Lra Psatz.
From Flocq Require Import Core IEEE754.BinarySingleNaN.
From Verif Require Import RN F64 F64Facts Prim DoubleM QuadM Spec EFT SpecialProofs DAddProofs DMulProofs ExactProofs QExactProofs LawProofs OrderProofs QuadSpec QAddAcc QAddThms QMulAcc QMulThms QGeoAcc QGeoMul QSqrAcc QGeoSqr
  LdexpProofs Exact BaseConst ConstM ConstSpec ConstProofs TableProofs AlgM TransM TransProofs SqrtProofs AbsOps ExpProofs ExpThms QParse QExpProofs.
Import ListNotations.
Local Open Scope R_scope.

Lemma geo_close x : QGeoS x -> Rabs (QV x - V (q0 x)) <= 3 * u * Rabs (V (q0 x)).
Proof.
  intros (F & H1 & H2 & H3 & H4). assert (P := Rabs_pos (V (q0 x))).
  replace (QV x - V (q0 x)) with (V (q1 x) + (V (q2 x) + V (q3 x))) by (unfold QV; ring).
  assert (T1 := Rabs_triang (V (q1 x)) (V (q2 x) + V (q3 x))). assert (T2 := Rabs_triang (V (q2 x)) (V (q3 x))). lra.
Qed.
Lemma geoS_neg x : QGeoS x -> QGeoS (q_neg x).
Proof.
  unfold QGeoS, QFin. cbn [q_neg q0 q1 q2 q3]. intros H. rewrite !V_fneg, !Fin_fneg, !Rabs_Ropp. exact H.
Qed.
Lemma geoS_zero x : QFV x 0 0 0 0 -> QGeoS x /\ QV x = 0.
Proof.
  intros ((F0 & V0) & (F1 & V1) & (F2 & V2) & (F3 & V3)). split; [|unfold QV; rewrite V0, V1, V2, V3; ring].
  unfold QGeoS, QFin. rewrite V0, V1, V2, V3, Rabs_R0. split; [auto|]. lra.
Qed.
Lemma one_okQ : QGeoS Q_ONE /\ QV Q_ONE = 1.
Proof. change Q_ONE with (mkQ f1 f0 f0 f0). destruct (single_geo f1 Fin_1) as [A B]. rewrite V_1 in B. split; [now apply QGeoS_of|exact B]. Qed.

(** ** e^(65536 X) *)
Lemma core_okQ x : QGeoS x -> bp (-100) <= Rabs (QV x) <= / 187000 ->
  QGeo (q_add (q_exp_square 16 (q_exp_small x)) Q_ONE) /\
  Rabs (QV (q_add (q_exp_square 16 (q_exp_small x)) Q_ONE) - exp (65536 * QV x)) <= 32 * dl.
Proof.
  intros G H. destruct dl_mu as (Pm & Ed & Sm). destruct (exp_small_okQ x G H) as [G1 E1].
  assert (E3 : exp (2 * Rabs (QV x) * (2 ^ 16 - 1)) <= 3).
  { apply Rle_trans with (2 := exp_le_3). left. apply exp_increasing. replace (2 ^ 16) with 65536 by (cbn; ring). lra. }
  assert (Pe := exp_pos (2 * Rabs (QV x) * (2 ^ 16 - 1))).
  assert (I16 : INR 16 = 16) by (cbn; ring).
  assert (T16 : 2 ^ 16 = 65536) by (cbn; ring).
  destruct (exp_up 16 (q_exp_small x) (QV x) 12 G1) as [G2 E2]; [lra|rewrite T16; lra|lra|rewrite I16; lra|exact E1|].
  set (r := q_exp_square 16 (q_exp_small x)) in *. rewrite T16, I16 in E2. rewrite T16 in E3, Pe. set (ex := exp (2 * Rabs (QV x) * (65536 - 1))) in *.
  assert (Y : Rabs (65536 * QV x) = 65536 * Rabs (QV x)) by (rewrite Rabs_mult, (Rabs_pos_eq 65536) by lra; reflexivity).
  assert (P := Rabs_pos (QV x)). set (y := 65536 * QV x) in *. assert (By : Rabs y <= 351 / 1000) by lra. assert (Py := Rabs_pos y).
  assert (E4 : Rabs (QV r - (exp y - 1)) <= 30 * dl).
  { apply Rle_trans with (1 := E2). replace (30 * dl) with (30 * 1000 / 351 * (dl * (351 / 1000))) by field. apply Rmult_le_compat; [apply Rmult_le_pos; lra|apply Rmult_le_pos; lra|lra|apply Rmult_le_compat_l; lra]. }
  assert (BE := expm1_fine y ltac:(lra)). set (s := Rabs y) in *. assert (BE2 : Rabs (exp y - 1) <= 6 / 10) by nra.
  assert (Br := tri _ _ _ _ E4 BE2). assert (Br' : Rabs (QV r) <= 61 / 100) by lra.
  destruct one_okQ as [O1 O2].
  destruct (q_add_geoS r Q_ONE (QGeoS_of r G2) O1) as [G3 E5].
  { apply Rle_trans with 1; [lra|change 1 with (bp 0); apply bpow_le; lia]. }
  { rewrite O2, Rabs_R1. change 1 with (bp 0). apply bpow_le; lia. }
  { rewrite O2, Rabs_R1. change (bp (-30)) with (/ 1073741824). assert (K := Rabs_triang (QV r + 1) (- QV r)). rewrite Rabs_Ropp in K. replace (QV r + 1 + - QV r) with 1 in K by ring. rewrite Rabs_R1 in K. lra. }
  split; [exact G3|]. rewrite O2, Rabs_R1 in E5. fold dl in E5.
  replace (QV (q_add r Q_ONE) - exp y) with ((QV (q_add r Q_ONE) - (QV r + 1)) + (QV r - (exp y - 1))) by ring.
  eapply Rle_trans; [apply Rabs_triang|]. assert (dl * (Rabs (QV r) + 1) <= dl * (161 / 100)) by (apply Rmult_le_compat_l; lra). lra.
Qed.

(** ** the reduction *)
Lemma q_inv_k_ok : QGeoS Q_INV_K /\ QV Q_INV_K = / 65536.
Proof.
  split; [apply norm_geoS, qnormx_ok; vm_compute; reflexivity|]. rewrite zq_ok. replace (zq Q_INV_K) with (2 ^ 1058)%Z by (vm_compute; reflexivity).
  change (2 ^ 1058)%Z with (radix2 ^ 1058)%Z. rewrite IZR_Zpower by lia. rewrite <- bpow_plus. change (1058 + -1074)%Z with (-16)%Z. reflexivity.
Qed.
Lemma q_exp_m_ok a : QGeoS a -> -469 <= QV a <= 707 ->
  exists m, (-680 <= m <= 1021)%Z /\ FV (q_exp_m a) (IZR m) /\ as_i32 (q_exp_m a) = m /\ Rabs (QV a - IZR m * ln 2) <= 3495 / 10000.
Proof.
  intros G H. assert (C := geo_close a G). assert (HI := QGeoS_hi a G). assert (P0 := Rabs_pos (V (q0 a))).
  assert (A707 : Rabs (QV a) <= 707) by (apply Rabs_le; lra). assert (C2 : Rabs (QV a - V (q0 a)) <= / 100000) by lra. apply Rabs_def2' in C2 as C3.
  assert (F : Fin (q0 a)) by apply G. destruct (d_single_norm (q0 a) F) as [N E].
  destruct (exp_m_ok (mkD (q0 a) f0) N) as (m & Hm & FM & IM & HK); [cbn [d0]; lra|]. rewrite E in HK.
  exists m. assert (HK' : Rabs (QV a - IZR m * ln 2) <= 3495 / 10000).
  { replace (QV a - IZR m * ln 2) with ((QV a - V (q0 a)) + (V (q0 a) - IZR m * ln 2)) by ring. eapply Rle_trans; [apply Rabs_triang|]. lra. }
  destruct ln2_lo as (_ & _ & _ & _ & _ & B2). apply Rabs_def2' in HK' as HK2.
  split.
  { assert (M1 : -680 < IZR m). { apply Rnot_le_lt. intros L. assert (IZR m * ln 2 <= -680 * (693 / 1000)) by nra. lra. }
    assert (M2 : IZR m < 1022). { apply Rnot_le_lt. intros L. assert (1022 * (693 / 1000) <= IZR m * ln 2) by nra. lra. }
    apply lt_IZR in M1. apply lt_IZR in M2. lia. }
  split; [exact FM|]. split; [exact IM|exact HK'].
Qed.
Lemma q_exp_x_ok a m : QGeoS a -> -469 <= QV a <= 707 -> bp (-80) <= Rabs (QV a) -> (m <> 0%Z -> bp (-28) * Rabs (QV a) <= Rabs (QV a - IZR m * ln 2)) ->
  FV (q_exp_m a) (IZR m) -> Rabs (QV a - IZR m * ln 2) <= 3495 / 10000 ->
  QGeoS (q_exp_x a) /\ bp (-100) <= Rabs (QV (q_exp_x a)) <= / 187000 /\
  Rabs (65536 * QV (q_exp_x a) - (QV a - IZR m * ln 2)) <= (201 / 100 * Rabs (QV a) + 4 / 10) * dl.
Proof.
  intros G H LA HC [FM VM] HK. destruct ln2_lo as (_ & _ & _ & _ & _ & B2). destruct dl_mu as (Pm & Ed & Sm). assert (PA := Rabs_pos (QV a)).
  assert (A707 : Rabs (QV a) <= 707) by (apply Rabs_le; lra).
  unfold q_exp_x. set (y := q_mul Q_LN_2 (mkQ (q_exp_m a) f0 f0 f0)). set (k := QV a - IZR m * ln 2) in *.
  assert (P80 := bpow_gt_0 radix2 (-80)).
  assert (RED : QGeo (q_sub a y) /\ Rabs (QV (q_sub a y) - k) <= (2005 / 1000 * Rabs (QV a) + 36 / 100) * dl /\ / 2 * bp (-80) <= Rabs (QV (q_sub a y))).
  { unfold q_sub. destruct (Z.eq_dec m 0) as [->|NZ].
    - assert (YZ : QFV y 0 0 0 0).
      { unfold y. destruct q_LN_2_ok as [NL _]. eapply QFV_mul_0r; [apply QFV_self, NL|]. repeat split; cbn [q0 q1 q2 q3]; auto using Fin_0; apply V_0. }
      assert (YN := QFV_neg _ _ _ _ _ YZ). rewrite Ropp_0 in YN. destruct (geoS_zero _ YN) as [GY VY].
      destruct (q_add_geoS a (q_neg y) G GY) as [GA EA].
      { apply Rle_trans with (bp 10); [change (bp 10) with 1024; lra|apply bpow_le; lia]. }
      { rewrite VY, Rabs_R0. apply bpow_ge_0. }
      { rewrite VY, Rabs_R0, !Rplus_0_r. rewrite <- (Rmult_1_l (Rabs (QV a))) at 2. apply Rmult_le_compat_r; [lra|]. change 1 with (bp 0). apply bpow_le; lia. }
      split; [exact GA|]. rewrite VY, Rabs_R0, !Rplus_0_r in EA. fold dl in EA.
      assert (EK : k = QV a) by (unfold k; ring). rewrite EK. assert (Pda : 0 <= dl * Rabs (QV a)) by (apply Rmult_le_pos; lra). split; [lra|].
      assert (K := tri2 _ _ _ _ EA (Rle_refl _)). assert (dl * Rabs (QV a) <= / 1000 * Rabs (QV a)) by (apply Rmult_le_compat_r; lra). lra.
    - specialize (HC NZ). assert (M1 : 1 <= Rabs (IZR m)) by (rewrite <- abs_IZR; apply IZR_le; lia).
      assert (BM : Rabs (IZR m) * ln 2 <= Rabs (QV a) + Rabs k).
      { replace (Rabs (IZR m) * ln 2) with (Rabs (IZR m * ln 2)) by (rewrite Rabs_mult, (Rabs_pos_eq (ln 2)) by lra; reflexivity).
        replace (IZR m * ln 2) with (QV a - k) by (unfold k; ring). eapply Rle_trans; [apply Rabs_triang|]. rewrite Rabs_Ropp. lra. }
      assert (BM2 : ln 2 <= Rabs (IZR m) * ln 2) by (rewrite <- (Rmult_1_l (ln 2)) at 1; apply Rmult_le_compat_r; lra).
      destruct q_LN_2_ok as [NL AL]. assert (RL := rl_const _ _ NL AL). destruct (single_geo _ FM) as [GM EM]. rewrite VM in EM.
      assert (RM := rl_self _ (QGeoS_of _ GM)). rewrite EM in RM.
      assert (AML : Rabs (ln 2 * IZR m) = Rabs (IZR m) * ln 2) by (rewrite Rabs_mult, (Rabs_pos_eq (ln 2)) by lra; ring).
      destruct (rl_mul 1 0 _ _ _ _ ltac:(lra) ltac:(lra) RL RM) as [_ RY].
      { apply b400. rewrite Rabs_pos_eq; lra. }
      { apply b400. nra. }
      { rewrite AML. apply Rle_trans with (bp (-1)); [apply bpow_le; lia|]. change (bp (-1)) with (/ 2). lra. }
      fold y in RY. assert (RA := rl_abs (1 + 0 + 1001 / 1000) y _ ltac:(lra) RY). destruct RY as [GY EY]. rewrite AML in EY, RA. set (ml := Rabs (IZR m) * ln 2) in *. 
      replace (ln 2 * IZR m) with (IZR m * ln 2) in EY by ring.
      assert (VN := proj1 (q_neg_val y)).
      assert (EYK : Rabs (QV a + QV (q_neg y) - k) <= (1 + 0 + 1001 / 1000) * mu * ml).
      { rewrite VN. replace (QV a + - QV y - k) with (- (QV y - IZR m * ln 2)) by (unfold k; ring). rewrite Rabs_Ropp. exact EY. }
      assert (Pml : 0 < mu * ml) by (apply Rmult_lt_0_compat; lra). assert (Sml : mu * ml <= / 1000000000000 * ml) by (apply Rmult_le_compat_r; lra).
      assert (NC := tri2 _ _ _ _ EYK (Rle_refl _)). change (bp (-28)) with (/ 268435456) in HC.
      destruct (q_add_geoS a (q_neg y) G (geoS_neg _ GY)) as [GA EA].
      { apply Rle_trans with (bp 10); [change (bp 10) with 1024; lra|apply bpow_le; lia]. }
      { rewrite VN, Rabs_Ropp. apply Rle_trans with (bp 11); [change (bp 11) with 2048; lra|apply bpow_le; lia]. }
      { rewrite VN, Rabs_Ropp. rewrite VN in NC. change (bp (-30)) with (/ 1073741824). lra. }
      split; [exact GA|]. rewrite VN, Rabs_Ropp in EA. fold dl in EA. rewrite VN in EYK.
      assert (EE : Rabs (QV (q_add a (q_neg y)) - k) <= (2005 / 1000 * Rabs (QV a) + 36 / 100) * dl).
      { replace (QV (q_add a (q_neg y)) - k) with ((QV (q_add a (q_neg y)) - (QV a + - QV y)) + (QV a + - QV y - k)) by ring. eapply Rle_trans; [apply Rabs_triang|].
        assert (K1 : dl * (Rabs (QV a) + Rabs (QV y)) <= dl * (Rabs (QV a) + (1 + / 1000000) * (Rabs (QV a) + 3495 / 10000))) by (apply Rmult_le_compat_l; lra).
        assert (K2 : mu * ml <= mu * (Rabs (QV a) + 3495 / 10000)) by (apply Rmult_le_compat_l; lra).
        replace (mu * (Rabs (QV a) + 3495 / 10000)) with (/ 512 * (dl * (Rabs (QV a) + 3495 / 10000))) in K2 by (rewrite Ed; field).
        assert (0 <= dl * Rabs (QV a)) by (apply Rmult_le_pos; lra). lra. }
      split; [exact EE|]. assert (K := tri2 _ _ _ _ EE (Rle_refl _)).
      assert (K3 : (2005 / 1000 * Rabs (QV a) + 36 / 100) * dl <= (2005 / 1000 * Rabs (QV a) + 36 / 100) * / 1000000000000) by (apply Rmult_le_compat_l; lra).
      assert (B80 : bp (-80) <= / 1000000000000) by (apply Rle_trans with (bp (-40)); [apply bpow_le; lia|change (bp (-40)) with (/ 1099511627776); lra]). lra. }
  destruct RED as (GK & EK & LK). set (K := q_sub a y) in *. clearbody K y.
  destruct q_inv_k_ok as [GI VI]. assert (RI := rl_self _ GI). rewrite VI in RI.
  assert (KS : (2005 / 1000 * Rabs (QV a) + 36 / 100) * dl <= / 100000).
  { apply Rle_trans with (2000 * dl); [apply Rmult_le_compat_r; lra|lra]. }
  assert (BK := tri _ _ _ _ EK HK).
  assert (L79 : bp (-97) <= / 2 * bp (-80) * / 65536). { replace (/ 2) with (bp (-1)) by reflexivity. replace (/ 65536) with (bp (-16)) by reflexivity. rewrite <- !bpow_plus. apply bpow_le; lia. }
  assert (B97 : 8 * bp (-100) = bp (-97)) by (symmetry; exact (bp_split (-100) 3 ltac:(lia))). assert (P100 := bpow_gt_0 radix2 (-100)).
  assert (AKI : Rabs (QV K * / 65536) = Rabs (QV K) * / 65536) by (rewrite Rabs_mult, (Rabs_pos_eq (/ 65536)) by lra; reflexivity).
  destruct (rl_mul 0 0 K Q_INV_K (QV K) (/ 65536) ltac:(lra) ltac:(lra) (rl_self _ (QGeoS_of _ GK)) RI) as [_ RX].
  { apply b400. lra. }
  { apply b400. rewrite Rabs_pos_eq; lra. }
  { rewrite AKI. apply Rle_trans with (bp (-97)); [apply bpow_le; lia|lra]. }
  assert (RA := rl_abs (0 + 0 + 1001 / 1000) _ _ ltac:(lra) RX). destruct RX as [GX EX]. rewrite AKI in EX, RA. set (x := q_mul K Q_INV_K) in *.
  split; [exact GX|]. split; [lra|].
  replace (65536 * QV x - k) with (65536 * (QV x - QV K * / 65536) + (QV K - k)) by field. eapply Rle_trans; [apply Rabs_triang|]. rewrite Rabs_mult, (Rabs_pos_eq 65536) by lra.
  assert (K1 : mu * Rabs (QV K) <= mu * (4 / 10)) by (apply Rmult_le_compat_l; lra).
  assert (0 <= dl * Rabs (QV a)) by (apply Rmult_le_pos; lra). lra.
Qed.

(** ** assembled *)
Lemma q_ldexp_pwr2 r m : q_ldexp r m = q_mul_pwr2 r (fpowi f2 m).
Proof. reflexivity. Qed.
Lemma q_exp_main a : QGeoS a -> -469 <= QV a <= 707 -> bp (-80) <= Rabs (QV a) ->
  (forall k : Z, k <> 0%Z -> bp (-28) * Rabs (QV a) <= Rabs (QV a - IZR k * ln 2)) ->
  let r := q_ldexp (q_add (q_exp_square 16 (q_exp_small (q_exp_x a))) Q_ONE) (as_i32 (q_exp_m a)) in
  QGeoS r /\ Rabs (QV r - exp (QV a)) <= (3 * Rabs (QV a) + 60) * bp (-137) * exp (QV a).
Proof.
  intros G H LA HC. destruct (q_exp_m_ok a G H) as (m & Hm & FM & -> & HK). destruct (q_exp_x_ok a m G H LA (HC m) FM HK) as (Gx & Bx & Ex).
  destruct (core_okQ _ Gx Bx) as [Gr Er]. set (r := q_add _ Q_ONE) in *. cbv zeta. fold dl. destruct dl_mu as (Pm & Ed & Sm).
  set (k := QV a - IZR m * ln 2) in *. set (X := 65536 * QV (q_exp_x a)) in *.
  assert (PA := Rabs_pos (QV a)). assert (VA : Rabs (QV a) <= 707) by (apply Rabs_le; lra).
  assert (KP : 65 / 100 <= exp k). { apply Rabs_def2' in HK. destruct (Req_dec k 0) as [->|NZ]; [rewrite exp_0; lra|]. assert (K := exp_ineq1 k NZ). lra. }
  assert (KU : exp k <= 16 / 10).
  { assert (K := expm1_fine k ltac:(lra)). assert (PK := Rabs_pos k). set (y := Rabs k) in *. assert (K2 : y * (1 + y / 2 + 3 / 2 * (y * y)) <= 5 / 10) by nra.
    assert (K3 := Rabs_def2' _ _ (Rle_trans _ _ _ K K2)). lra. }
  assert (XS : (201 / 100 * Rabs (QV a) + 4 / 10) * dl <= / 1000).
  { apply Rle_trans with (2000 * dl); [apply Rmult_le_compat_r; lra|lra]. }
  assert (ED : Rabs (exp X - exp k) <= 101 / 100 * ((201 / 100 * Rabs (QV a) + 4 / 10) * dl) * exp k).
  { replace (exp X) with (exp (X - k) * exp k) by (rewrite <- exp_plus; f_equal; ring).
    replace (exp (X - k) * exp k - exp k) with ((exp (X - k) - 1) * exp k) by ring. rewrite Rabs_mult, (Rabs_pos_eq (exp k)) by lra. apply Rmult_le_compat_r; [lra|].
    assert (K := expm1_bound (X - k) ltac:(lra)). assert (PK := Rabs_pos (X - k)). set (y := Rabs (X - k)) in *.
    apply Rle_trans with (1 := K). apply Rle_trans with (y * (101 / 100)); [apply Rmult_le_compat_l; lra|]. lra. }
  assert (Pae : 0 <= dl * Rabs (QV a) * exp k) by (apply Rmult_le_pos; [apply Rmult_le_pos; lra|lra]).
  assert (ER : Rabs (QV r - exp k) <= (22 / 10 * Rabs (QV a) + 52) * dl * exp k).
  { replace (QV r - exp k) with ((QV r - exp X) + (exp X - exp k)) by ring. eapply Rle_trans; [apply Rabs_triang|].
    assert (K : 32 * dl <= 50 * (dl * exp k)) by (assert (dl * (65 / 100) <= dl * exp k) by (apply Rmult_le_compat_l; lra); lra).
    replace ((22 / 10 * Rabs (QV a) + 52) * dl * exp k) with (22 / 10 * (dl * Rabs (QV a) * exp k) + 52 * (dl * exp k)) by ring.
    replace (101 / 100 * ((201 / 100 * Rabs (QV a) + 4 / 10) * dl) * exp k) with (101 / 100 * (201 / 100) * (dl * Rabs (QV a) * exp k) + 101 / 100 * (4 / 10) * (dl * exp k)) in ED by ring.
    assert (0 < dl * exp k) by (apply Rmult_lt_0_compat; lra). lra. }
  assert (BR : 6 / 10 <= QV r <= 17 / 10).
  { assert (K : (22 / 10 * Rabs (QV a) + 52) * dl * exp k <= 2000 * dl * 2) by (apply Rmult_le_compat; [apply Rmult_le_pos; lra|lra|apply Rmult_le_compat_r; lra|lra]).
    assert (K2 := Rabs_def2' _ _ (Rle_trans _ _ _ ER K)). lra. }
  rewrite q_ldexp_pwr2. assert (Pbm := bpow_gt_0 radix2 m).
  destruct (scale_geo m r (fpowi f2 m) ltac:(lia) (fpowi2 m ltac:(lia)) Gr) as [Gs Es].
  { rewrite (Rabs_pos_eq (QV r)) by lra. apply Rle_trans with (bp (-1) * bp m); [rewrite <- bpow_plus; apply bpow_le; lia|]. apply Rmult_le_compat_r; [lra|]. change (bp (-1)) with (/ 2). lra. }
  { rewrite (Rabs_pos_eq (QV r)) by lra. apply Rle_trans with (bp 1 * bp m); [|rewrite <- bpow_plus; apply bpow_le; lia]. apply Rmult_le_compat_r; [lra|]. change (bp 1) with 2. lra. }
  split; [exact Gs|].
  assert (EA : exp (QV a) = exp k * bp m) by (rewrite bpow_exp, <- exp_plus; f_equal; unfold k; change (IZR radix2) with 2; ring).
  rewrite EA. set (s := QV (q_mul_pwr2 r (fpowi f2 m))) in *.
  replace (s - exp k * bp m) with ((s - QV r * bp m) + (QV r - exp k) * bp m) by ring.
  assert (K1 : Rabs ((QV r - exp k) * bp m) <= (22 / 10 * Rabs (QV a) + 52) * dl * exp k * bp m) by (rewrite Rabs_mult, (Rabs_pos_eq (bp m)) by lra; apply Rmult_le_compat_r; lra).
  assert (K2 : bp (-1073) <= dl * (exp k * bp m)).
  { apply Rle_trans with (bp (-137) * (bp (-1) * bp m)); [rewrite <- !bpow_plus; apply bpow_le; lia|]. fold dl. apply Rmult_le_compat_l; [lra|]. apply Rmult_le_compat_r; [lra|]. change (bp (-1)) with (/ 2). lra. }
  eapply Rle_trans; [apply Rabs_triang|].
  assert (K3 : 0 <= dl * Rabs (QV a) * (exp k * bp m)) by (apply Rmult_le_pos; [apply Rmult_le_pos; lra|apply Rmult_le_pos; lra]).
  assert (K4 : 0 <= dl * (exp k * bp m)) by (apply Rmult_le_pos; [lra|apply Rmult_le_pos; lra]).
  replace ((3 * Rabs (QV a) + 60) * dl * (exp k * bp m)) with (3 * (dl * Rabs (QV a) * (exp k * bp m)) + 60 * (dl * (exp k * bp m))) by ring.
  replace ((22 / 10 * Rabs (QV a) + 52) * dl * exp k * bp m) with (22 / 10 * (dl * Rabs (QV a) * (exp k * bp m)) + 52 * (dl * (exp k * bp m))) in K1 by ring.
  lra.
Qed.
Lemma q_eq_one a : QGeoS a -> q_eq a Q_ONE = true -> QV a = 1.
Proof.
  intros ((F0 & F1 & F2 & F3) & _) E. unfold q_eq in E. repeat (apply andb_prop in E; destruct E as [E ?]). change Q_ONE with (mkQ f1 f0 f0 f0) in *. cbn [q0 q1 q2 q3] in *.
  unfold QV. rewrite (feqb_V _ _ F0 Fin_1 E), (feqb_V _ _ F1 Fin_0 H1), (feqb_V _ _ F2 Fin_0 H0), (feqb_V _ _ F3 Fin_0 H), V_1, V_0. ring.
Qed.
Lemma q_exp_ok a : QGeoS a -> -469 <= QV a <= 707 -> bp (-80) <= Rabs (QV a) ->
  (forall k : Z, k <> 0%Z -> bp (-28) * Rabs (QV a) <= Rabs (QV a - IZR k * ln 2)) ->
  QGeoS (q_exp a) /\ Rabs (QV (q_exp a) - exp (QV a)) <= (3 * Rabs (QV a) + 60) * bp (-137) * exp (QV a).
Proof.
  intros G H LA HC. unfold q_exp, q_pre_exp. assert (FA : Fin (q0 a)) by apply G. assert (C := geo_close a G). assert (HI := QGeoS_hi a G). assert (P0 := Rabs_pos (V (q0 a))).
  assert (A707 : Rabs (QV a) <= 707) by (apply Rabs_le; lra). assert (C2 : Rabs (QV a - V (q0 a)) <= / 100000) by lra. apply Rabs_def2' in C2.
  destruct (fofZ_exact (-470) ltac:(lia)) as [F6 V6]. destruct (fofZ_exact 709 ltac:(lia)) as [F7 V7].
  rewrite (fltb_ok (q0 a) _ FA F6), V6, Rlt_bool_false by lra.
  replace (fgeb (q0 a) (fofZ 709)) with false.
  2:{ symmetry. change (fgeb (q0 a) (fofZ 709)) with (fleb (fofZ 709) (q0 a)). rewrite (fleb_ok _ (q0 a) F7 FA), V7, Rle_bool_false by lra. reflexivity. }
  replace (q_is_nan a) with false by (symmetry; apply Fin_nan; exact FA).
  destruct (q_is_zero a) eqn:EZ.
  { exfalso. apply feqb_V in EZ; [|exact FA|exact Fin_0]. assert (K := QGeoS_le a G). rewrite EZ, V_0, Rabs_R0, Rmult_0_r in K. assert (P := bpow_gt_0 radix2 (-80)). lra. }
  destruct (q_eq a Q_ONE) eqn:E1.
  { cbn [from_pre]. apply (q_eq_one a G) in E1. rewrite E1, Rabs_R1. destruct q_E_ok as [NE AE]. destruct (rl_const _ _ NE AE) as [GE EE]. split; [exact GE|].
    assert (P1 := exp_pos 1). rewrite (Rabs_pos_eq (exp 1)) in EE by lra. apply Rle_trans with (1 := EE). apply Rmult_le_compat_r; [lra|]. destruct dl_mu as (Pm & Ed & _). fold dl. lra. }
  cbn [from_pre]. apply q_exp_main; assumption.
Qed.
