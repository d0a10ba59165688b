(** * Quad log10, log2, log and powf: accuracy; a library meeting the contract *)
From Coq Require Import ZArith Reals List Bool Lia Lra Psatz.
From Flocq Require Import Core IEEE754.BinarySingleNaN.
From Verif Require Import RN F64 F64Facts Prim DoubleM QuadM Spec EFT SpecialProofs DAddProofs DMulProofs ExactProofs QExactProofs LawProofs OrderProofs QuadSpec QAddAcc QAddThms QMulAcc QMulThms QGeoAcc QGeoMul QSqrAcc QGeoSqr
  LdexpProofs Exact BaseConst ConstM ConstSpec ConstProofs AlgM TransM TransProofs SqrtProofs AbsOps ExpProofs ExpThms LnThms LogLib QLoose QLDiv QLOps QExprSpec QExprProofs QParse QExpProofs QExpThms QLogSpec QLnThms.
Import ListNotations.
Local Open Scope R_scope.

(** ** a library that meets [log_tight] *)
Definition tight_ln (a : f64) : f64 := grid (Z.max 0 (Z.min 60 (52 - mag radix2 (ln (V a))))) (ln (V a)).
Definition with_tight (lm : libm) : libm :=
  {| lm_ln := tight_ln; lm_exp := lm_exp lm; lm_log10 := lm_log10 (with_logs lm);
     lm_log2 := lm_log2 (with_logs lm); lm_atan2 := lm_atan2 lm; lm_to_string := lm_to_string lm |}.
Lemma with_tight_ok lm : log_tight (with_tight lm).
Proof.
  split; [|exact (proj2 (proj1 (with_logs_ok lm)))].
  intros a F P. cbn [with_tight lm_ln]. unfold tight_ln. assert (R := ln_range a F P). set (l := ln (V a)) in *. clearbody l. clear F P.
  assert (PB := bpow_gt_0 radix2 (-51)). assert (P6 := bpow_gt_0 radix2 (-60)). assert (Pl := Rabs_pos l).
  destruct (Req_dec l 0) as [Z0|NZ].
  - assert (GZ : forall k, (0 <= k <= 60)%Z -> Fin (grid k l) /\ V (grid k l) = 0).
    { intros k Hk. assert (G : grid k l = f2pow 0 (- k)). { unfold grid. rewrite Z0, Rmult_0_l. rewrite Znearest_imp with (n := 0%Z); [reflexivity|]. rewrite Rminus_0_r, Rabs_R0. lra. }
      rewrite G. destruct (f2pow_exact 0 (- k) ltac:(lia) ltac:(lia) ltac:(lia)) as [G1 G2]. split; [exact G1|]. rewrite G2. ring. }
    assert (M : (0 <= Z.max 0 (Z.min 60 (52 - mag radix2 l)) <= 60)%Z) by lia.
    destruct (GZ _ M) as [G1 G2]. split; [exact G1|]. rewrite G2, Z0, Rminus_0_r, Rabs_R0. lra.
  - destruct (mag radix2 l) as [e He]. cbn [mag_val]. specialize (He NZ).
    assert (E10 : (e <= 10)%Z). { destruct (Z_le_gt_dec e 10) as [?|G]; [assumption|exfalso]. assert (K : bp 10 <= bp (e - 1)) by (apply bpow_le; lia). change (bp 10) with 1024 in K. assert (Rabs l <= 745) by (apply Rabs_le; lra). lra. }
    rewrite Z.max_r by lia. destruct (grid_ok (Z.min 60 (52 - e)) l ltac:(lia)) as [G1 G2].
    { apply Rle_trans with (bp e); [lra|]. apply bpow_le. lia. }
    split; [exact G1|]. apply Rle_trans with (1 := G2). destruct (Z_le_gt_dec 60 (52 - e)) as [L|L].
    + rewrite Z.min_l by lia. change (- (60))%Z with (-60)%Z. assert (0 <= bp (-51) * Rabs l) by (apply Rmult_le_pos; lra). lra.
    + rewrite Z.min_r by lia. apply Rle_trans with (bp (-51) * bp (e - 1)); [rewrite <- bpow_plus; apply bpow_le; lia|]. assert (bp (-51) * bp (e - 1) <= bp (-51) * Rabs l) by (apply Rmult_le_compat_l; lra). lra.
Qed.

(** ** the logarithm as a relative error *)
Lemma ln_rel L l : QGeo L -> plain_log l -> Rabs (QV L - l) <= (51 / 10 * Rabs l + 67) * bp (-137) -> Rabs (QV L - l) <= bp (-100) * Rabs l.
Proof.
  intros G (H1 & H2 & _) E. apply Rle_trans with (1 := E). change (bp (-16)) with (/ 65536) in H2.
  apply Rle_trans with ((2 ^ 23 * Rabs l) * bp (-137)); [apply Rmult_le_compat_r; [apply bpow_ge_0|lra]|].
  replace (2 ^ 23 * Rabs l * bp (-137)) with (bp 23 * bp (-137) * Rabs l) by (change (bp 23) with 8388608; lra).
  apply Rmult_le_compat_r; [apply Rabs_pos|]. rewrite <- bpow_plus. apply bpow_le. lia.
Qed.
Lemma QL_geoS x : QGeoS x -> QL (4 * u) x.
Proof. intros (F & A & B & C & _). assert (P := Rabs_pos (V (q0 x))). split; [exact F|]. lra. Qed.
Lemma log_divQ L M l m : QGeoS L -> QGeoS M -> bp (-20) <= Rabs l <= 341 -> bp (-20) <= Rabs m <= 341 ->
  Rabs (QV L - l) <= bp (-100) * Rabs l -> Rabs (QV M - m) <= bp (-100) * Rabs m ->
  QTame (q_div L M) /\ Rabs (QV (q_div L M) - l / m) <= bp (-91) * Rabs (l / m).
Proof.
  intros GL GM Bl Bm EL EM. change (bp (-20)) with (/ 1048576) in *.
  assert (B100 : bp (-100) = 64 * (u * u)) by (change 64 with (bp 6); rewrite <- u_bp, <- !bpow_plus; reflexivity).
  assert (B91 : bp (-91) = 32768 * (u * u)) by (change 32768 with (bp 15); rewrite <- u_bp, <- !bpow_plus; reflexivity).
  rewrite B100 in *. rewrite B91. assert (LL := QL_geoS L GL). assert (LM := QL_geoS M GM).
  assert (AL := QL_abs (4 * u) L ltac:(lra) ltac:(lra) LL). assert (AM := QL_abs (4 * u) M ltac:(lra) ltac:(lra) LM).
  assert (UU : u * u <= / 10000000000000000000000000000000) by lra.
  assert (UL : 64 * (u * u) * Rabs l <= / 1000000000 * Rabs l) by (apply Rmult_le_compat_r; lra). assert (UM : 64 * (u * u) * Rabs m <= / 1000000000 * Rabs m) by (apply Rmult_le_compat_r; lra).
  assert (T1 := tri _ _ _ _ EL (Rle_refl _)). assert (T2 := tri2 _ _ _ _ EL (Rle_refl _)). assert (T3 := tri _ _ _ _ EM (Rle_refl _)). assert (T4 := tri2 _ _ _ _ EM (Rle_refl _)).
  assert (B3 : bp (-300) <= / 10000000) by (apply Rle_trans with (bp (-24)); [apply bpow_le; lia|change (bp (-24)) with (/ 16777216); lra]).
  assert (B90 : 1000 <= bp 90) by (apply Rle_trans with (bp 10); [change (bp 10) with 1024; lra|apply bpow_le; lia]). assert (B30 : 1000 <= bp 300) by (apply Rle_trans with (bp 10); [change (bp 10) with 1024; lra|apply bpow_le; lia]).
  destruct (q_div_L (4 * u) L M ltac:(lra) ltac:(lra) LL LM ltac:(lra) ltac:(lra) ltac:(lra) ltac:(lra)) as [LQ EQ].
  split; [now apply L_tame with (4 * u); [lra|]|]. set (Q := QV (q_div L M)) in *. set (X := QV L) in *. set (Y := QV M) in *.
  assert (NY : Y <> 0) by (intros Z0; rewrite Z0, Rabs_R0 in T4; lra). assert (Nm : m <> 0) by (intros Z0; rewrite Z0, Rabs_R0 in Bm; lra).
  assert (PY : 0 < Rabs Y) by now apply Rabs_pos_lt. assert (Pm : 0 < Rabs m) by now apply Rabs_pos_lt.
  assert (D : Rabs (X / Y - l / m) <= 129 * (u * u) * Rabs (l / m)).
  { replace (X / Y - l / m) with (((X - l) - l * (Y - m) / m) * / Y) by (field; auto). rewrite Rabs_mult, Rabs_inv.
    apply Rle_trans with ((64 * (u * u) * Rabs l + 64 * (u * u) * Rabs l) * / Rabs Y).
    - apply Rmult_le_compat_r; [left; now apply Rinv_0_lt_compat|]. eapply Rle_trans; [apply Rabs_triang|]. rewrite Rabs_Ropp. apply Rplus_le_compat; [exact EL|].
      unfold Rdiv. rewrite !Rabs_mult, Rabs_inv. apply Rle_trans with (Rabs l * (64 * (u * u) * Rabs m) * / Rabs m); [|right; field; lra].
      apply Rmult_le_compat_r; [left; now apply Rinv_0_lt_compat|]. apply Rmult_le_compat_l; [apply Rabs_pos|exact EM].
    - unfold Rdiv. rewrite Rabs_mult, Rabs_inv. replace ((64 * (u * u) * Rabs l + 64 * (u * u) * Rabs l) * / Rabs Y) with (u * u * Rabs l * (128 * / Rabs Y)) by ring.
      replace (129 * (u * u) * (Rabs l * / Rabs m)) with (u * u * Rabs l * (129 * / Rabs m)) by ring. apply Rmult_le_compat_l; [apply Rmult_le_pos; [lra|apply Rabs_pos]|].
      apply Rmult_le_reg_r with (Rabs Y * Rabs m); [now apply Rmult_lt_0_compat|].
      replace (128 * / Rabs Y * (Rabs Y * Rabs m)) with (128 * Rabs m) by (field; lra). replace (129 * / Rabs m * (Rabs Y * Rabs m)) with (129 * Rabs Y) by (field; lra). lra. }
  set (z := l / m) in *. assert (Pz := Rabs_pos z).
  assert (T5 := tri _ _ _ _ D (Rle_refl _)). replace (Q - z) with ((Q - X / Y) + (X / Y - z)) by ring. eapply Rle_trans; [apply Rabs_triang|].
  set (s := Rabs (X / Y)) in *. set (t := Rabs z) in *. clearbody s t.
  assert (U2 : u * u * s <= u * u * (101 / 100 * t)). { apply Rmult_le_compat_l; [lra|]. assert (129 * (u * u) * t <= / 1000 * t) by (apply Rmult_le_compat_r; lra). lra. }
  replace ((1024 * (u * (4 * u)) + 13000 * (u * u)) * s) with (17096 * (u * u * s)) in EQ by ring. assert (0 <= u * u * t) by (apply Rmult_le_pos; lra). lra.
Qed.
Lemma const_rel x z : QNorm x -> approx (QV x) z 1 (-212) -> QGeoS x /\ Rabs (QV x - z) <= bp (-100) * Rabs z.
Proof.
  intros N A. split; [now apply norm_geoS|]. unfold approx in A. rewrite Rmult_1_l in A. eapply Rle_trans; [exact A|]. apply Rmult_le_compat_r; [apply Rabs_pos|]. apply bpow_le. lia.
Qed.
Lemma ln10_b : bp (-20) <= Rabs (ln 10) <= 341 /\ bp (-20) <= Rabs (ln 2) <= 341.
Proof.
  change (bp (-20)) with (/ 1048576). assert (B : 6931 / 10000 <= ln 2 <= 6932 / 10000) by (split; consts). assert (B10 : 23 / 10 <= ln 10 <= 24 / 10) by (split; consts).
  rewrite !Rabs_pos_eq by lra. lra.
Qed.
Lemma plain_b l : plain_log l -> bp (-20) <= Rabs l <= 341.
Proof. intros (H1 & H2 & _). split; [apply Rle_trans with (2 := H2); apply bpow_le; lia|lra]. Qed.

Lemma q_log10_ok lm dbg a : log_tight lm -> QGeoS a -> 0 < QV a -> plain_log (ln (QV a)) ->
  exists r, q_log10 lm dbg a = Val r /\ QTame r /\ Rabs (QV r - ln (QV a) / ln 10) <= bp (-91) * Rabs (ln (QV a) / ln 10).
Proof.
  intros C G P H. destruct (q_ln_ok lm dbg a C G P H) as (L & E & GL & EL). unfold q_log10. rewrite E. cbn [obind]. eexists. split; [reflexivity|].
  destruct q_LN_10_ok as [N A]. destruct (const_rel _ _ N A) as [GM EM]. apply log_divQ; auto using QGeoS_of, ln_rel, plain_b. apply ln10_b.
Qed.
Lemma q_log2_ok lm dbg a : log_tight lm -> QGeoS a -> 0 < QV a -> plain_log (ln (QV a)) ->
  exists r, q_log2 lm dbg a = Val r /\ QTame r /\ Rabs (QV r - ln (QV a) / ln 2) <= bp (-91) * Rabs (ln (QV a) / ln 2).
Proof.
  intros C G P H. destruct (q_ln_ok lm dbg a C G P H) as (L & E & GL & EL). unfold q_log2. rewrite E. cbn [obind]. eexists. split; [reflexivity|].
  destruct q_LN_2_ok as [N A]. destruct (const_rel _ _ N A) as [GM EM]. apply log_divQ; auto using QGeoS_of, ln_rel, plain_b. apply ln10_b.
Qed.
Lemma q_log_ok lm dbg a b : log_tight lm -> QGeoS a -> 0 < QV a -> plain_log (ln (QV a)) -> QGeoS b -> 0 < QV b -> plain_log (ln (QV b)) ->
  exists r, q_log lm dbg a b = Val r /\ QTame r /\ Rabs (QV r - ln (QV a) / ln (QV b)) <= bp (-91) * Rabs (ln (QV a) / ln (QV b)).
Proof.
  intros C G P H Gb Pb Hb. destruct (q_ln_ok lm dbg a C G P H) as (L & E & GL & EL). destruct (q_ln_ok lm dbg b C Gb Pb Hb) as (M & E2 & GM & EM).
  unfold q_log, q_pre_log. assert (FA : Fin (q0 a)) by apply G. assert (FB : Fin (q0 b)) by apply Gb.
  destruct (fpos_facts _ FA (geoS_pos_hi a G P)) as (A1 & A2 & A3 & A4). destruct (fpos_facts _ FB (geoS_pos_hi b Gb Pb)) as (B1 & B2 & B3 & B4).
  unfold q_is_nan, q_is_sign_negative, q_is_zero. rewrite A3, B1, B2. cbn [orb]. rewrite E, E2. cbn [obind]. eexists. split; [reflexivity|].
  apply log_divQ; auto using QGeoS_of, ln_rel, plain_b.
Qed.
Lemma q_powf_ok lm dbg a n : log_tight lm -> QGeoS a -> 0 < QV a -> plain_log (ln (QV a)) -> QGeoS n ->
  -468 <= QV n * ln (QV a) <= 706 -> bp (-79) <= Rabs (QV n * ln (QV a)) ->
  (forall k : Z, k <> 0%Z -> bp (-27) * Rabs (QV n * ln (QV a)) <= Rabs (QV n * ln (QV a) - IZR k * ln 2)) ->
  exists r, q_powf lm dbg a n = Val r /\ QTame r /\
    Rabs (QV r - Rpower (QV a) (QV n)) <= (9 * Rabs (QV n * ln (QV a)) + 70 * Rabs (QV n) + 61) * bp (-137) * Rpower (QV a) (QV n).
Proof.
  intros C G P H Gn B1 B2 B3. destruct (q_ln_ok lm dbg a C G P H) as (L & E & GL & EL). assert (ER := ln_rel L _ GL H EL).
  unfold q_powf, q_pre_powf. assert (FA : Fin (q0 a)) by apply G. assert (FN : Fin (q0 n)) by apply Gn.
  destruct (fpos_facts _ FA (geoS_pos_hi a G P)) as (A1 & A2 & A3 & A4). unfold q_is_zero at 1. rewrite A2.
  replace (q_is_infinite n) with false by (symmetry; unfold q_is_infinite; destruct (q0 n); try discriminate; reflexivity).
  rewrite E. cbn [obind]. eexists. split; [reflexivity|]. unfold Rpower. set (l := ln (QV a)) in *. destruct H as (H1 & H2 & _). change (bp (-16)) with (/ 65536) in H2.
  destruct dl_mu as (Pm & Ed & Sm). fold dl in EL |- *. set (N := QV n) in *. set (w := N * l) in *. assert (Pw := Rabs_pos w). assert (PN := Rabs_pos N). assert (Pl := Rabs_pos l).
  assert (Aw : Rabs w <= 706) by (apply Rabs_le; lra). assert (Ew : Rabs w = Rabs N * Rabs l) by apply Rabs_mult.
  assert (BN : Rabs N <= 706 * 65536). { apply Rmult_le_reg_r with (/ 65536); [lra|]. apply Rle_trans with (Rabs N * Rabs l); [apply Rmult_le_compat_l; lra|lra]. }
  assert (B100 : 0 < bp (-100) <= / 1000000000). { split; [apply bpow_gt_0|]. apply Rle_trans with (bp (-30)); [apply bpow_le; lia|change (bp (-30)) with (/ 1073741824); lra]. }
  assert (LB : bp (-100) * Rabs l <= / 1000000000 * Rabs l) by (apply Rmult_le_compat_r; lra).
  assert (T1 := tri _ _ _ _ ER (Rle_refl _)). assert (T2 := tri2 _ _ _ _ ER (Rle_refl _)).
  assert (NL : Rabs (N * QV L - w) <= bp (-100) * Rabs w). { unfold w. replace (N * QV L - N * l) with (N * (QV L - l)) by ring. fold w. rewrite Rabs_mult, Ew. apply Rle_trans with (Rabs N * (bp (-100) * Rabs l)); [apply Rmult_le_compat_l; lra|right; ring]. }
  assert (NL2 : Rabs (N * QV L - w) <= (51 / 10 * Rabs w + 67 * Rabs N) * dl). { unfold w. replace (N * QV L - N * l) with (N * (QV L - l)) by ring. fold w. rewrite Rabs_mult, Ew. apply Rle_trans with (Rabs N * ((51 / 10 * Rabs l + 67) * dl)); [apply Rmult_le_compat_l; lra|right; ring]. }
  assert (WB : bp (-100) * Rabs w <= / 1000000000 * Rabs w) by (apply Rmult_le_compat_r; lra).
  assert (T3 := tri _ _ _ _ NL (Rle_refl _)). assert (T4 := tri2 _ _ _ _ NL (Rle_refl _)).
  assert (B9 : 706 * 65536 <= bp 499) by (apply Rle_trans with (bp 27); [change (bp 27) with 134217728; lra|apply bpow_le; lia]).
  destruct (q_mul_geoS n L Gn (QGeoS_of L GL)) as [Gt Et]; [fold N; lra|lra| |].
  { fold N. apply Rle_trans with (/ 2 * bp (-79)); [change (/ 2) with (bp (-1)); rewrite <- bpow_plus; apply bpow_le; lia|lra]. }
  fold N mu in Et. set (t := q_mul n L) in *. set (p := N * QV L) in *.
  assert (TE : Rabs (QV t - w) <= (52 / 10 * Rabs w + 67 * Rabs N) * dl).
  { replace (QV t - w) with ((QV t - p) + (p - w)) by ring. eapply Rle_trans; [apply Rabs_triang|]. assert (mu * Rabs p <= mu * (2 * Rabs w)) by (apply Rmult_le_compat_l; lra). assert (0 <= mu * Rabs w) by (apply Rmult_le_pos; lra).
    replace ((52 / 10 * Rabs w + 67 * Rabs N) * dl) with ((51 / 10 * Rabs w + 67 * Rabs N) * dl + / 10 * (512 * (mu * Rabs w))) by (rewrite Ed; field). lra. }
  assert (TR : Rabs (QV t - w) <= 3 / 1000000000 * Rabs w).
  { replace (QV t - w) with ((QV t - p) + (p - w)) by ring. eapply Rle_trans; [apply Rabs_triang|]. assert (mu * Rabs p <= / 1000000000 * (2 * Rabs w)) by (apply Rmult_le_compat; lra). lra. }
  assert (T5 := tri _ _ _ _ TR (Rle_refl _)). assert (T6 := tri2 _ _ _ _ TR (Rle_refl _)). assert (TA : Rabs (QV t - w) <= / 100000) by lra. apply Rabs_def2' in TA as TA2.
  destruct (q_exp_ok t (QGeoS_of t Gt)) as [Gr Er].
  { lra. }
  { assert (E79 : bp (-79) = 2 * bp (-80)) by exact (bp_split (-80) 1 ltac:(lia)). assert (Q := bpow_gt_0 radix2 (-80)). lra. }
  { intros k Hk. assert (K := B3 k Hk). change (bp (-28)) with (/ 268435456). change (bp (-27)) with (/ 134217728) in K.
    assert (T := Rabs_triang (QV t - IZR k * ln 2) (- (QV t - w))). rewrite Rabs_Ropp in T. replace (QV t - IZR k * ln 2 + - (QV t - w)) with (w - IZR k * ln 2) in T by ring. lra. }
  split; [apply L_tame with (4 * u); [lra|now apply QL_geoS]|]. fold dl in Er.
  assert (EX : exp (QV t) = exp w * exp (QV t - w)) by (rewrite <- exp_plus; f_equal; ring). assert (Pe := exp_pos w).
  assert (K := expm1_bound (QV t - w) ltac:(lra)). set (d := Rabs (QV t - w)) in *. assert (Pd : 0 <= d) by apply Rabs_pos.
  assert (K2 : Rabs (exp (QV t - w) - 1) <= 1001 / 1000 * d). { apply Rle_trans with (1 := K). rewrite (Rmult_comm (1001 / 1000)). apply Rmult_le_compat_l; lra. }
  set (y := exp (QV t - w)) in *. assert (Y2 : 0 <= y <= 1001 / 1000) by (apply Rabs_def2' in K2; lra).
  replace (QV (q_exp t) - exp w) with ((QV (q_exp t) - exp (QV t)) + exp w * (y - 1)) by (rewrite EX; ring). eapply Rle_trans; [apply Rabs_triang|].
  rewrite (Rabs_mult (exp w)), (Rabs_pos_eq (exp w)) by lra. rewrite EX in Er.
  replace ((3 * Rabs (QV t) + 60) * dl * (exp w * y)) with (exp w * (((3 * Rabs (QV t) + 60) * dl) * y)) in Er by ring.
  apply Rle_trans with (exp w * (((3 * Rabs (QV t) + 60) * dl) * y + 1001 / 1000 * d)); [rewrite Rmult_plus_distr_l; apply Rplus_le_compat; [rewrite EX; exact Er|apply Rmult_le_compat_l; lra]|].
  rewrite (Rmult_comm _ (exp w)). apply Rmult_le_compat_l; [lra|].
  assert (Q1 : (3 * Rabs (QV t) + 60) * dl * y <= ((301 / 100 * Rabs w + 60) * dl) * (1001 / 1000)). { assert (0 <= Rabs (QV t)) by apply Rabs_pos. apply Rmult_le_compat; [apply Rmult_le_pos; lra|lra|apply Rmult_le_compat_r; lra|lra]. }
  assert (0 <= dl * Rabs w) by (apply Rmult_le_pos; lra). assert (0 <= dl * Rabs N) by (apply Rmult_le_pos; lra). lra.
Qed.
