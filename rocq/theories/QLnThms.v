(** * Accuracy of Quad ln *)
From Coq Require Import ZArith Reals List Bool Lia Lra Psatz.
From Flocq Require Import Core IEEE754.BinarySingleNaN.
From Verif Require Import RN F64 F64Facts Prim DoubleM QuadM Spec EFT SpecialProofs DAddProofs DMulProofs ExactProofs QExactProofs LawProofs OrderProofs QuadSpec QAddAcc QAddThms QMulAcc QMulThms QGeoAcc QGeoMul QSqrAcc QGeoSqr
  LdexpProofs Exact BaseConst ConstM ConstSpec ConstProofs TableProofs AlgM TransM TransProofs SqrtProofs AbsOps ExpProofs ExpThms LnThms LogLib QParse QExpProofs QExpThms QAddHead ConstMore QLogSpec.
Import ListNotations.
Local Open Scope R_scope.

Definition nstepQ (a x : Quad) : Quad := q_sub (q_add x (q_mul a (q_exp (q_neg x)))) Q_ONE.
Definition etaq (l : R) : R := (51 / 10 * Rabs l + 66) * dl.
Definition e0q (l : R) : R := bp (-50) * (Rabs l + 1).
Lemma nstepQ_ok a x l e : QGeoS a -> QGeoS x -> QV a = exp l -> plain_log l -> Rabs (QV x - l) <= e -> e <= e0q l ->
  QGeo (nstepQ a x) /\ Rabs (QV (nstepQ a x) - l) <= 51 / 100 * (e * e) + etaq l.
Proof.
  intros Ga Gx Ea (Hl1 & Hl2 & Hl3 & Hl4) He Le. unfold nstepQ. destruct dl_mu as (Pm & Ed & Sm).
  assert (Vn := proj1 (q_neg_val x)). assert (Gn := geoS_neg x Gx).
  set (X := QV x) in *. set (z := X - l) in *. assert (EX : X = l + z) by (unfold z; ring).
  assert (Pz := Rabs_pos z). assert (Pl := Rabs_pos l). assert (PX := Rabs_pos X).
  change (bpow radix2 (-16)) with (/ 65536) in Hl2. change (bpow radix2 (-20)) with (/ 1048576) in Hl3.
  unfold e0q in Le. change (bp (-50)) with (/ 1125899906842624) in Le. change (bpow radix2 (-27)) with (/ 134217728) in Hl4.
  assert (Le2 : e <= / 10000000000 * Rabs l) by lra. assert (Le3 : e <= / 1000000000000) by lra.
  assert (XL := tri _ _ _ _ He (Rle_refl _)). assert (XL2 := tri2 _ _ _ _ He (Rle_refl _)). fold X in XL, XL2.
  assert (BX : Rabs X <= 341) by lra. apply Rabs_def2' in BX as BX2.
  destruct (q_exp_ok (q_neg x) Gn) as [GE EE].
  { rewrite Vn. lra. }
  { rewrite Vn, Rabs_Ropp. apply Rle_trans with (bp (-17)); [apply bpow_le; lia|]. change (bp (-17)) with (/ 131072). lra. }
  { intros k Hk. rewrite Vn, Rabs_Ropp. assert (K := Hl4 (- k)%Z ltac:(lia)). rewrite opp_IZR in K. change (bp (-28)) with (/ 268435456).
    replace (- X - IZR k * ln 2) with (- ((l - - IZR k * ln 2) + z)) by (rewrite EX; ring). rewrite Rabs_Ropp.
    assert (T := Rabs_triang (l - - IZR k * ln 2 + z) (- z)). rewrite Rabs_Ropp in T. replace (l - - IZR k * ln 2 + z + - z) with (l - - IZR k * ln 2) in T by ring. lra. }
  rewrite Vn, Rabs_Ropp in EE. fold dl in EE. set (E := q_exp (q_neg x)) in *.
  assert (PE := exp_pos (- X)). assert (PA : 0 < QV a) by (rewrite Ea; apply exp_pos).
  assert (AE : QV a * exp (- X) = exp (- z)) by (rewrite Ea, <- exp_plus; f_equal; lra).
  assert (TZ : Rabs (exp (- z) - 1 + z) <= 51 / 100 * (e * e)).
  { assert (K := exp_tail 1 (- z)). rewrite Rabs_Ropp in K. specialize (K ltac:(lra)).
    assert (S1 : esum 1 (- z) = 1 - z) by (cbn; field). assert (S2 : Rabs z ^ 2 / INR (fact 2) = Rabs z * Rabs z / 2) by (cbn; field). rewrite S1, S2 in K.
    replace (exp (- z) - 1 + z) with (exp (- z) - (1 - z)) by ring. apply Rle_trans with (1 := K).
    assert (Rabs z * Rabs z <= e * e) by (apply Rmult_le_compat; assumption). assert (0 <= Rabs z * Rabs z) by (apply Rmult_le_pos; exact Pz). lra. }
  assert (E2 : e * e <= / 1000000000000 * / 1000000000000) by (apply Rmult_le_compat; lra).
  apply Rabs_def2' in He as Bz.
  assert (PZ : 9999999 / 10000000 <= exp (- z) <= 10000001 / 10000000) by (apply Rabs_def2' in TZ; lra).
  assert (R1 : Rabs (QV a * QV E - exp (- z)) <= (3 * Rabs X + 60) * dl * (10000001 / 10000000)).
  { rewrite <- AE. replace (QV a * QV E - QV a * exp (- X)) with (QV a * (QV E - exp (- X))) by ring. rewrite Rabs_mult, (Rabs_pos_eq (QV a)) by lra.
    apply Rle_trans with (QV a * ((3 * Rabs X + 60) * dl * exp (- X))); [apply Rmult_le_compat_l; lra|].
    replace (QV a * ((3 * Rabs X + 60) * dl * exp (- X))) with ((3 * Rabs X + 60) * dl * (QV a * exp (- X))) by ring. rewrite AE.
    apply Rmult_le_compat_l; [apply Rmult_le_pos; lra|lra]. }
  assert (DS : (3 * Rabs X + 60) * dl <= / 1000000000) by (apply Rle_trans with (2000 * dl); [apply Rmult_le_compat_r; lra|lra]).
  assert (BP : 99 / 100 <= QV a * QV E <= 101 / 100). { apply Rabs_def2' in R1. lra. }
  assert (BIG : forall t, Rabs t <= 342 -> exp t <= bp 498).
  { intros t Ht. apply Rabs_def2' in Ht. rewrite bpow_exp. change (IZR radix2) with 2. destruct ln2_lo as (_ & _ & _ & _ & _ & B2).
    left. apply exp_increasing. lra. }
  assert (B98 : 2 * bp 498 = bp 499) by (change 2 with (bp 1); rewrite <- bpow_plus; reflexivity).
  assert (BA : Rabs (QV a) <= bp 499). { rewrite Ea, Rabs_pos_eq by (left; apply exp_pos). assert (K := BIG l ltac:(lra)). assert (P := bpow_gt_0 radix2 498). lra. }
  assert (BE : Rabs (QV E) <= bp 499).
  { assert (K := tri _ _ _ _ EE (Rle_refl _)). rewrite (Rabs_pos_eq (exp (- X))) in K by lra. assert (K2 := BIG (- X) ltac:(rewrite Rabs_Ropp; lra)).
    assert ((3 * Rabs X + 60) * dl * exp (- X) <= 1 * exp (- X)) by (apply Rmult_le_compat_r; lra). lra. }
  destruct (q_mul_geoS a E Ga GE BA BE) as [Gp Ep].
  { rewrite Rabs_pos_eq by lra. apply Rle_trans with (bp (-1)); [apply bpow_le; lia|change (bp (-1)) with (/ 2); lra]. }
  fold mu in Ep. rewrite (Rabs_pos_eq (QV a * QV E)) in Ep by lra. set (p := q_mul a E) in *.
  assert (EP : Rabs (QV p - exp (- z)) <= (31 / 10 * Rabs X + 61) * dl).
  { replace (QV p - exp (- z)) with ((QV p - QV a * QV E) + (QV a * QV E - exp (- z))) by ring. eapply Rle_trans; [apply Rabs_triang|].
    assert (mu * (QV a * QV E) <= mu * (101 / 100)) by (apply Rmult_le_compat_l; lra). assert (0 <= dl * Rabs X) by (apply Rmult_le_pos; lra). lra. }
  assert (DS2 : (31 / 10 * Rabs X + 61) * dl <= / 1000000000) by (apply Rle_trans with (2000 * dl); [apply Rmult_le_compat_r; lra|lra]).
  assert (Bp : 99 / 100 <= QV p <= 101 / 100). { apply Rabs_def2' in EP. lra. }
  assert (SP : Rabs (X + QV p - (l + 1)) <= 2 / 1000000000).
  { replace (X + QV p - (l + 1)) with ((QV p - exp (- z)) + (exp (- z) - 1 + z)) by (rewrite EX; ring). eapply Rle_trans; [apply Rabs_triang|]. lra. }
  assert (SP2 := tri2 _ _ _ _ SP (Rle_refl _)). assert (SP3 := tri _ _ _ _ SP (Rle_refl _)).
  assert (L1 : Rabs l <= Rabs (l + 1) + 1). { assert (T := Rabs_triang (l + 1) (-1)). replace (l + 1 + -1) with l in T by ring. rewrite (Rabs_left (-1)) in T by lra. lra. }
  destruct (q_add_geoS x p Gx (QGeoS_of p Gp)) as [Gs Es].
  { apply Rle_trans with (bp 9); [change (bp 9) with 512; fold X; lra|apply bpow_le; lia]. }
  { rewrite Rabs_pos_eq by lra. apply Rle_trans with (bp 9); [change (bp 9) with 512; lra|apply bpow_le; lia]. }
  { fold X. rewrite (Rabs_pos_eq (QV p)) by lra. change (bp (-30)) with (/ 1073741824). lra. }
  fold X dl in Es. rewrite (Rabs_pos_eq (QV p)) in Es by lra. set (s := q_add x p) in *.
  assert (Es2 : dl * (Rabs X + QV p) <= dl * (Rabs X + 101 / 100)) by (apply Rmult_le_compat_l; lra).
  assert (DS3 : dl * (Rabs X + 101 / 100) <= / 1000000000) by (apply Rle_trans with (dl * 1000); [apply Rmult_le_compat_l; lra|lra]).
  assert (SL : Rabs (QV s - (l + 1)) <= 3 / 1000000000).
  { replace (QV s - (l + 1)) with ((QV s - (X + QV p)) + (X + QV p - (l + 1))) by ring. eapply Rle_trans; [apply Rabs_triang|]. lra. }
  assert (SA := tri _ _ _ _ SL (Rle_refl _)). assert (L2 : Rabs (l + 1) <= Rabs l + 1) by (assert (T := Rabs_triang l 1); rewrite Rabs_R1 in T; exact T).
  destruct one_okQ as [GO VO]. unfold q_sub. assert (VNO := proj1 (q_neg_val Q_ONE)). rewrite VO in VNO.
  assert (ANO : Rabs (- (1)) = 1) by (rewrite Rabs_Ropp; apply Rabs_R1).
  destruct (q_add_geoS s (q_neg Q_ONE) (QGeoS_of s Gs) (geoS_neg _ GO)) as [Gr Er].
  { apply Rle_trans with (bp 9); [change (bp 9) with 512; lra|apply bpow_le; lia]. }
  { rewrite VNO, ANO. change 1 with (bp 0). apply bpow_le; lia. }
  { rewrite VNO, ANO. change (bp (-30)) with (/ 1073741824). replace (QV s + - (1)) with (QV s - (l + 1) + l) by ring.
    assert (T := Rabs_triang (QV s - (l + 1) + l) (- (QV s - (l + 1)))). rewrite Rabs_Ropp in T. replace (QV s - (l + 1) + l + - (QV s - (l + 1))) with l in T by ring. lra. }
  split; [exact Gr|]. rewrite VNO, ANO in Er. fold dl in Er. set (r := q_add s (q_neg Q_ONE)) in *.
  replace (QV r - l) with ((QV r - (QV s + - (1))) + ((QV s - (X + QV p)) + ((QV p - exp (- z)) + (exp (- z) - 1 + z)))) by (rewrite EX; ring).
  assert (K2 := Rabs_triang (QV r - (QV s + - (1))) ((QV s - (X + QV p)) + ((QV p - exp (- z)) + (exp (- z) - 1 + z)))).
  assert (K3 := Rabs_triang (QV s - (X + QV p)) ((QV p - exp (- z)) + (exp (- z) - 1 + z))). assert (K4 := Rabs_triang (QV p - exp (- z)) (exp (- z) - 1 + z)).
  assert (K5 : dl * (Rabs (QV s) + 1) <= dl * (Rabs l + 21 / 10)) by (apply Rmult_le_compat_l; lra).
  assert (K6 : dl * Rabs X <= dl * (Rabs l + / 1000000)) by (apply Rmult_le_compat_l; lra). assert (0 <= dl * Rabs l) by (apply Rmult_le_pos; lra).
  unfold etaq. lra.
Qed.
Lemma etaq_small l : plain_log l -> 0 <= etaq l /\ 51 / 100 * (e0q l * e0q l) + etaq l <= 52 / 100 * (e0q l * e0q l) /\ 52 / 100 * (e0q l * e0q l) <= e0q l.
Proof.
  intros (Hl1 & _). destruct dl_mu as (Pm & Ed & Sm). assert (Pl := Rabs_pos l). unfold etaq, e0q. set (w := Rabs l + 1). assert (Hw : 1 <= w <= 341) by (unfold w; lra).
  assert (S0 : 0 <= (51 / 10 * Rabs l + 66) * dl <= 66 * (dl * w)). { split; [apply Rmult_le_pos; lra|]. apply Rle_trans with ((66 * w) * dl); [apply Rmult_le_compat_r; unfold w; lra|lra]. }
  assert (D100 : dl <= / 100000000 * bp (-100)). { apply Rle_trans with (bp (-37) * bp (-100)); [rewrite <- bpow_plus; right; reflexivity|]. apply Rmult_le_compat_r; [apply bpow_ge_0|]. change (bp (-37)) with (/ 137438953472). lra. }
  replace (bp (-50) * w * (bp (-50) * w)) with (bp (-100) * (w * w)) by (change (-100)%Z with (-50 + -50)%Z; rewrite bpow_plus; ring).
  assert (P1 := bpow_gt_0 radix2 (-100)). assert (P5 := bpow_gt_0 radix2 (-50)).
  assert (W : w <= w * w) by (rewrite <- (Rmult_1_l w) at 1; apply Rmult_le_compat_r; lra).
  assert (Q1 : dl * w <= / 100000000 * bp (-100) * (w * w)) by (apply Rmult_le_compat; lra).
  split; [lra|]. split; [lra|].
  assert (Q2 : bp (-100) * (w * w) <= bp (-50) * w).
  { change (-100)%Z with (-50 + -50)%Z. rewrite bpow_plus. replace (bp (-50) * bp (-50) * (w * w)) with (bp (-50) * w * (bp (-50) * w)) by ring. rewrite <- (Rmult_1_r (bp (-50) * w)) at 3.
    apply Rmult_le_compat_l; [apply Rmult_le_pos; lra|]. change (bp (-50)) with (/ 1125899906842624). lra. }
  assert (0 <= bp (-50) * w) by (apply Rmult_le_pos; lra). lra.
Qed.
Lemma q_lt_hi x y : Fin (q0 x) -> Fin (q0 y) -> q_lt x y = true -> V (q0 x) <= V (q0 y).
Proof.
  intros Fx Fy. unfold q_lt, q_partial_cmp. rewrite (fcmp_ok _ _ Fx Fy).
  destruct (Rcompare_spec (V (q0 x)) (V (q0 y))) as [H|H|H]; [lra|lra|discriminate].
Qed.
Lemma eps_smallQ k : (k <= 12)%Z -> Fin (q0 (q_mul_pwr2 Q_EPSILON (fpowi f2 k))) /\ V (q0 (q_mul_pwr2 Q_EPSILON (fpowi f2 k))) <= bp (-190).
Proof.
  intros H. destruct (fpowi2_le 12 k H ltac:(lia)) as [F B]. cbn [q0 q_mul_pwr2].
  assert (E : Fin (q0 Q_EPSILON) /\ 0 <= V (q0 Q_EPSILON) <= bp (-208)).
  { destruct q_epsilon_ok as [N K]. assert (G := norm_geoS _ N). split; [apply G|].
    assert (P := bpow_gt_0 radix2 (-209)). assert (E2 : bp (-208) = 2 * bp (-209)) by exact (bp_split (-209) 1 ltac:(lia)). assert (K17 : bp (-217) <= / 1000) by (apply Rle_trans with (bp (-10)); [apply bpow_le; lia|change (bp (-10)) with (/ 1024); lra]).
    assert (K2 : bp (-217) * bp (-209) <= / 1000 * bp (-209)) by (apply Rmult_le_compat_r; lra). assert (C := geo_close _ G). apply Rabs_def2' in K.
    assert (PV : 0 < QV Q_EPSILON) by lra. destruct (Rle_or_lt (V (q0 Q_EPSILON)) 0) as [L|L].
    - rewrite (Rabs_left1 _ L) in C. apply Rabs_def2' in C. lra.
    - rewrite (Rabs_pos_eq (V _)) in C by lra. apply Rabs_def2' in C. lra. }
  destruct E as [Fe Be]. assert (PB : 0 <= V (q0 Q_EPSILON) * V (fpowi f2 k) <= bp (-190)).
  { split; [apply Rmult_le_pos; lra|]. apply Rle_trans with (bp (-208) * bp 12); [apply Rmult_le_compat; lra|]. rewrite <- bpow_plus. apply bpow_le. lia. }
  destruct (fmul_ok _ _ Fe F) as (Fm & Vm & _).
  { eapply Rlt_ovf; [rewrite Rabs_pos_eq; [apply PB|lra]|apply fmt_bpow; lia|apply bpow_lt; lia]. }
  split; [exact Fm|]. rewrite Vm. rewrite <- (rn_id (bp (-190))) by (apply fmt_bpow; lia). apply rn_le. lra.
Qed.
Lemma d155 : bp (-155) <= / 100000 * dl /\ bp (-78) * bp (-78) = / 2 * bp (-155).
Proof.
  split.
  - unfold dl. apply Rle_trans with (bp (-18) * bp (-137)); [rewrite <- bpow_plus; apply bpow_le; lia|]. apply Rmult_le_compat_r; [apply bpow_ge_0|]. change (bp (-18)) with (/ 262144). lra.
  - change (/ 2) with (bp (-1)). rewrite <- !bpow_plus. reflexivity.
Qed.
Lemma e0q_sq l : plain_log l -> 0 <= 52 / 100 * (e0q l * e0q l) <= bp (-80).
Proof.
  intros (H & _). assert (Pl := Rabs_pos l). unfold e0q. replace (bp (-50) * (Rabs l + 1) * (bp (-50) * (Rabs l + 1))) with (bp (-100) * ((Rabs l + 1) * (Rabs l + 1))) by (change (-100)%Z with (-50 + -50)%Z; rewrite bpow_plus; ring).
  assert (K : (Rabs l + 1) * (Rabs l + 1) <= 341 * 341) by (apply Rmult_le_compat; lra). assert (K0 : 0 <= (Rabs l + 1) * (Rabs l + 1)) by (apply Rmult_le_pos; lra).
  assert (P := bpow_gt_0 radix2 (-100)). assert (E : bp (-80) = 1048576 * bp (-100)) by exact (bp_split (-100) 20 ltac:(lia)). rewrite E.
  assert (bp (-100) * ((Rabs l + 1) * (Rabs l + 1)) <= bp (-100) * (341 * 341)) by (apply Rmult_le_compat_l; lra).
  assert (0 <= bp (-100) * ((Rabs l + 1) * (Rabs l + 1))) by (apply Rmult_le_pos; lra). lra.
Qed.
Definition lnq (l : R) : R := (51 / 10 * Rabs l + 67) * dl.
Lemma nstep_fine a x l : QGeoS a -> QGeoS x -> QV a = exp l -> plain_log l -> Rabs (QV x - l) <= bp (-78) -> Rabs (QV x - l) <= e0q l ->
  QGeo (nstepQ a x) /\ Rabs (QV (nstepQ a x) - l) <= lnq l.
Proof.
  intros Ga Gx Ea Hl H1 H2. destruct (nstepQ_ok a x l _ Ga Gx Ea Hl (Rle_refl _) H2) as [G E]. split; [exact G|].
  destruct d155 as [D1 D2]. assert (Rabs (QV x - l) * Rabs (QV x - l) <= bp (-78) * bp (-78)) by (apply Rmult_le_compat; auto using Rabs_pos).
  assert (P := bpow_gt_0 radix2 (-155)). destruct dl_mu as (Pm & Ed & Sm). unfold lnq. unfold etaq in E. lra.
Qed.
Lemma lnq_small l : plain_log l -> lnq l <= bp (-80) /\ lnq l <= e0q l.
Proof.
  intros (H & _). assert (Pl := Rabs_pos l). destruct dl_mu as (Pm & Ed & Sm).
  assert (A : lnq l <= bp (-100)).
  { unfold lnq. apply Rle_trans with (2048 * dl); [apply Rmult_le_compat_r; lra|]. change 2048 with (bp 11). unfold dl. rewrite <- bpow_plus. apply bpow_le. lia. }
  split; [apply Rle_trans with (1 := A); apply bpow_le; lia|]. unfold e0q. apply Rle_trans with (1 := A). apply Rle_trans with (bp (-50) * 1); [rewrite Rmult_1_r; apply bpow_le; lia|].
  apply Rmult_le_compat_l; [apply bpow_ge_0|lra].
Qed.
(** once close, every further step keeps the final accuracy *)
Lemma ln_loopB a eps l : QGeoS a -> QV a = exp l -> plain_log l -> forall n x, QGeoS x -> Rabs (QV x - l) <= bp (-80) -> Rabs (QV x - l) <= e0q l ->
  QGeo (q_ln_loop n a eps x) /\ Rabs (QV (q_ln_loop n a eps x) - l) <= lnq l.
Proof.
  intros Ga Ea Hl. destruct (lnq_small l Hl) as [T1 T2]. assert (T3 : bp (-80) <= bp (-78)) by (apply bpow_le; lia).
  induction n as [|n IH]; intros x Gx Hx Hx2; cbn [q_ln_loop]; fold (nstepQ a x);
    destruct (nstep_fine a x l Ga Gx Ea Hl ltac:(lra) Hx2) as [Gr Er]; set (r := nstepQ a x) in *.
  - destruct (q_lt _ _); (split; [exact Gr|lra]).
  - destruct (q_lt _ _); [split; [exact Gr|lra]|]. apply IH; [now apply QGeoS_of|lra|lra].
Qed.
Lemma ln_loopQ a eps l : QGeoS a -> QV a = exp l -> plain_log l -> Fin (q0 eps) -> V (q0 eps) <= bp (-190) -> forall n x, QGeoS x -> Rabs (QV x - l) <= e0q l ->
  QGeo (q_ln_loop (S n) a eps x) /\ Rabs (QV (q_ln_loop (S n) a eps x) - l) <= lnq l.
Proof.
  intros Ga Ea Hl Fe Be n x Gx Hx. destruct (etaq_small l Hl) as (T1 & T2 & T3). assert (SQ := e0q_sq l Hl).
  cbn [q_ln_loop]. fold (nstepQ a x). destruct (nstepQ_ok a x l _ Ga Gx Ea Hl Hx (Rle_refl _)) as [Gr Er]. assert (Er2 : Rabs (QV (nstepQ a x) - l) <= 52 / 100 * (e0q l * e0q l)) by lra.
  destruct (q_lt (q_abs (q_sub x (nstepQ a x))) eps) eqn:ST.
  2: { apply ln_loopB; auto using QGeoS_of; lra. }
  assert (HL := Hl). destruct HL as (Hb & _).
  assert (L0 : e0q l <= 1). { unfold e0q. change (bp (-50)) with (/ 1125899906842624). lra. }
  assert (B80 : bp (-80) <= / 1000000) by (apply Rle_trans with (bp (-20)); [apply bpow_le; lia|change (bp (-20)) with (/ 1048576); lra]).
  assert (BX : Rabs (QV x) <= 341) by (assert (K := tri _ _ _ _ Hx (Rle_refl _)); lra).
  assert (BR : Rabs (QV (nstepQ a x)) <= 341) by (assert (K := tri _ _ _ _ Er2 (Rle_refl _)); lra).
  apply nstep_fine; auto. set (r := nstepQ a x) in *. unfold q_sub in ST.
  assert (Vn := proj1 (q_neg_val r)). assert (B9 : 341 <= bp 999) by (apply Rle_trans with (bp 9); [change (bp 9) with 512; lra|apply bpow_le; lia]).
  destruct (q_add_head x (q_neg r) Gx (geoS_neg r (QGeoS_of r Gr))) as [Fs Hs]; [lra|rewrite Vn, Rabs_Ropp; lra|]. rewrite Vn, Rabs_Ropp in Hs.
  destruct (q_abs_hi (q_add x (q_neg r)) (proj1 Fs)) as [Fa Va]. assert (K := q_lt_hi _ _ Fa Fe ST). rewrite Va in K.
  assert (P90 : bp (-90) * (Rabs (QV x) + Rabs (QV r)) <= bp (-90) * 682) by (apply Rmult_le_compat_l; [apply bpow_ge_0|lra]).
  assert (E80 : bp (-80) = 1024 * bp (-90)) by exact (bp_split (-90) 10 ltac:(lia)). assert (E78 : bp (-78) = 4 * bp (-80)) by exact (bp_split (-80) 2 ltac:(lia)).
  assert (E190 : bp (-190) <= bp (-90)) by (apply bpow_le; lia). assert (P := bpow_gt_0 radix2 (-90)).
  replace (QV x - l) with ((QV x + - QV r) + (QV r - l)) by ring. eapply Rle_trans; [apply Rabs_triang|]. lra.
Qed.
Lemma geoS_pos_hi a : QGeoS a -> 0 < QV a -> 0 < V (q0 a).
Proof.
  intros G H. assert (K := geo_close a G). destruct (Rle_or_lt (V (q0 a)) 0) as [L|L]; [|exact L]. rewrite (Rabs_left1 (V (q0 a))) in K by exact L.
  apply Rabs_def2' in K. lra.
Qed.
Lemma ln_ratioQ a : QGeoS a -> 0 < QV a -> Rabs (ln (V (q0 a)) - ln (QV a)) <= 4 * u.
Proof.
  intros G H. assert (P := geoS_pos_hi a G H). assert (K := geo_close a G). rewrite (Rabs_pos_eq (V (q0 a))) in K by lra.
  set (h := V (q0 a)) in *. set (D := QV a) in *. apply Rabs_def2' in K.
  assert (UP : forall x y, 0 < x -> 0 < y -> ln x - ln y <= x / y - 1).
  { intros x y Px Py. assert (Q : 0 < x / y) by (unfold Rdiv; apply Rmult_lt_0_compat; [lra|now apply Rinv_0_lt_compat]).
    replace (ln x - ln y) with (ln (x / y)) by (unfold Rdiv; rewrite ln_mult, ln_Rinv by (auto; now apply Rinv_0_lt_compat); ring).
    assert (E := exp_ineq1_le (ln (x / y))). rewrite exp_ln in E by exact Q. lra. }
  assert (U1 := UP h D P H). assert (U2 := UP D h H P).
  assert (D1 : D / h <= 1 + 4 * u) by (apply Rmult_le_reg_r with h; [lra|]; unfold Rdiv; rewrite Rmult_assoc, Rinv_l by lra; lra).
  assert (D2 : h / D <= 1 + 4 * u) by (apply Rmult_le_reg_r with D; [lra|]; unfold Rdiv; rewrite Rmult_assoc, Rinv_l by lra; lra).
  apply Rabs_le. lra.
Qed.
Lemma fpos_facts a : Fin a -> 0 < V a -> fsign_neg a = false /\ feqb a f0 = false /\ fis_nan a = false /\ fis_infinite a = false.
Proof.
  intros F P. split; [|split; [|split]].
  - destruct a as [s|s| |s m e h]; try discriminate; unfold V, B2R in P; [lra|]. destruct s; [|reflexivity].
    assert (K : F2R (Float radix2 (cond_Zopp true (Zpos m)) e) < 0) by (apply F2R_lt_0; reflexivity). lra.
  - destruct (feqb a f0) eqn:Q0; [|reflexivity]. apply feqb_V in Q0; auto using Fin_0. rewrite V_0 in Q0. lra.
  - now apply Fin_nan.
  - destruct a; try discriminate; reflexivity.
Qed.
Lemma q_ln_ok lm dbg a : log_tight lm -> QGeoS a -> 0 < QV a -> plain_log (ln (QV a)) ->
  exists r, q_ln lm dbg a = Val r /\ QGeo r /\ Rabs (QV r - ln (QV a)) <= (51 / 10 * Rabs (ln (QV a)) + 67) * bp (-137).
Proof.
  intros [C1 C2] G P Hl. unfold q_ln, q_pre_ln. assert (FA : Fin (q0 a)) by apply G. assert (PH := geoS_pos_hi a G P).
  destruct (fpos_facts _ FA PH) as (N1 & N2 & N3 & N4). unfold q_is_nan, q_is_sign_negative, q_is_zero, q_is_infinite. rewrite N1, N2, N3, N4.
  set (l := ln (QV a)) in *. assert (EL : QV a = exp l) by (unfold l; now rewrite exp_ln). assert (Pl := Rabs_pos l).
  destruct (q_eq a Q_ONE) eqn:E1.
  { exfalso. apply (q_eq_one a G) in E1. destruct Hl as (_ & H2 & _). unfold l in H2. rewrite E1, ln_1, Rabs_R0 in H2. assert (Q := bpow_gt_0 radix2 (-16)). lra. }
  destruct (C1 _ FA PH) as [FL EL0]. assert (LR := ln_ratioQ a G P). fold l in LR.
  set (x0 := lm_ln lm (q0 a)) in *. destruct Hl as (H1 & H2 & H3 & H4).
  assert (E51 : bp (-51) = 4 * u) by exact (bp_split (-53) 2 ltac:(lia)). assert (E60 : bp (-60) = / 128 * u) by (rewrite <- u_bp; change (/ 128) with (bp (-7)); rewrite <- bpow_plus; reflexivity).
  assert (E50 : bp (-50) = 8 * u) by exact (bp_split (-53) 3 ltac:(lia)). rewrite E51, E60 in EL0.
  assert (LL : Rabs (ln (V (q0 a))) <= Rabs l + 4 * u). { assert (K := tri _ _ _ _ LR (Rle_refl _)). lra. }
  assert (X0 : Rabs (V x0 - l) <= e0q l).
  { replace (V x0 - l) with ((V x0 - ln (V (q0 a))) + (ln (V (q0 a)) - l)) by ring. eapply Rle_trans; [apply Rabs_triang|]. unfold e0q. rewrite E50. lra. }
  destruct (single_geo x0 FL) as [Gx Vx0]. cbn [q0]. destruct (fabs_ok x0 FL) as [Fx Vx].
  assert (XB : Rabs (V x0) <= 1024). { assert (K := tri _ _ _ _ X0 (Rle_refl _)). unfold e0q in K. rewrite E50 in K. lra. }
  assert (K := as_i32_le10 _ (C2 (fabs x0) Fx ltac:(rewrite Vx; split; [apply Rabs_pos|exact XB]))).
  set (k := as_i32 _) in *. rewrite i32_chk_in by (unfold i32_min, i32_max in *; lia). cbn [obind].
  eexists. split; [reflexivity|].
  destruct (eps_smallQ (k + 2) ltac:(lia)) as [Fe Be].
  exact (ln_loopQ a (q_mul_pwr2 Q_EPSILON (fpowi f2 (k + 2))) l G EL (conj H1 (conj H2 (conj H3 H4))) Fe Be 5 _ (QGeoS_of _ Gx) ltac:(rewrite Vx0; exact X0)).
Qed.
