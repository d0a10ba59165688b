(** * Accuracy of Quad sin, cos and sin_cos within half a turn *)
From Coq Require Import ZArith Reals List Bool Lia Lra Psatz.
From Flocq Require Import Core IEEE754.BinarySingleNaN.
From Verif Require Import F64 F64Facts Prim DoubleM QuadM AlgM RN Spec EFT SpecialProofs ExactProofs QExactProofs LawProofs RoundProofs IntProofs QuadSpec QAddAcc QAddThms QMulAcc QMulThms QGeoAcc QGeoMul QSqrAcc QLoose QLDiv QLOps
  DDivProofs DAddProofs DMulProofs AbsOps Exact ConstM BaseConst ConstProofs TableProofs TableQuad TransM ExpProofs ExpThms QExpProofs SinLoop SinSeries SinReduce SinThms QLogThms QParse QLSq SqrtProofs TransProofs QSinhThms QTrigOps QTrigLoop LdexpProofs ParseM FromProofs QTrigSmall.
From Verif Require DisplayLog.
Import ListNotations.
Local Open Scope R_scope.
Local Notation uu := (u * u).

(** ** the number of full turns is zero *)
Lemma zero_is a : Fin a -> V a = 0 -> exists s, a = B754_zero s.
Proof.
  intros F E. destruct a as [s|s| |s m e h]; try discriminate; [eauto|]. exfalso. unfold V, B2R in E.
  apply (F2R_neq_0 radix2 {| Fnum := cond_Zopp s (Z.pos m); Fexp := e |}); [cbn; destruct s; discriminate|exact E].
Qed.
Lemma round_zero c : Fin c -> Rabs (V c) <= 498 / 1000 -> exists s, fround c = B754_zero s.
Proof.
  intros F H. apply Rabs_le_inv in H. assert (K : FV (fround c) (IZR (Rround_away (V c)))) by (apply fround_ok; exact F).
  assert (E : Rround_away (V c) = 0%Z) by (apply Rr_imp; simpl; lra). rewrite E in K. apply zero_is; [apply K|apply (proj2 K)].
Qed.
Lemma zero_FV s : FV (B754_zero s) 0. Proof. split; reflexivity. Qed.
Lemma half_no s c d : Fin c -> Fin d -> Rabs (V c) <= 498 / 1000 -> near_half (B754_zero s) c d = false.
Proof.
  intros Fc Fd H. rewrite (near_half_test _ _ _ 0 (V c) (V d) (zero_FV s) (conj Fc eq_refl) (conj Fd eq_refl)) by (rewrite Rminus_0_l, Rabs_Ropp; lra).
  rewrite Rminus_0_l. assert (R1 : rn (- V c) = - V c) by (apply rn_id, fmt_opp, V_fmt). rewrite R1, Rabs_Ropp.
  rewrite Rlt_bool_false; [reflexivity|]. assert (P := Rabs_pos (V c)). assert (K := rn_err (Rabs (V c) - / 2)).
  assert (S75 : bp (-1075) <= u) by (rewrite <- u_bp; apply bpow_le; lia).
  assert (B52 : bp (-52) = 2 * u) by (rewrite <- u_bp; exact (bp_split (-53) 1 ltac:(lia))). rewrite B52.
  rewrite (Rabs_left (Rabs (V c) - / 2)) in K by lra. apply Rabs_le_inv in K. rewrite Rabs_left; lra.
Qed.
Lemma q_round_small v : QFin v -> Rabs (V (q0 v)) <= 498 / 1000 -> Rabs (V (q1 v)) <= / 1000 -> Rabs (V (q2 v)) <= / 1000 -> Rabs (V (q3 v)) <= / 1000 ->
  QB 0 0 (q_round v).
Proof.
  intros (F0 & F1 & F2 & F3) H0 H1 H2 H3. unfold q_round.
  destruct (round_zero (q0 v) F0 H0) as [s0 E0]. destruct (round_zero (q1 v) F1 ltac:(lra)) as [s1 E1]. destruct (round_zero (q2 v) F2 ltac:(lra)) as [s2 E2]. destruct (round_zero (q3 v) F3 ltac:(lra)) as [s3 E3].
  rewrite E0, E1, E2, E3. rewrite (half_no s0 _ _ F0 F1 H0), (half_no s1 _ _ F1 F2 ltac:(lra)), (half_no s2 _ _ F2 F3 ltac:(lra)). clear.
  assert (Z : forall s, fb 0 (B754_zero s)) by (intros s; split; [reflexivity|change (V (B754_zero s)) with 0; rewrite Rabs_R0; lra]).
  destruct (near_eps (B754_zero s0) (q0 v)); [|repeat split; cbn [q0 q1 q2 q3]; try apply Z; try (apply (Z false))].
  destruct (near_eps (B754_zero s1) (q1 v)); [|repeat split; cbn [q0 q1 q2 q3]; try apply Z; try (apply (Z false))].
  destruct (near_eps (B754_zero s2) (q2 v)); [|repeat split; cbn [q0 q1 q2 q3]; try apply Z; try (apply (Z false))].
  destruct s0, s1, s2, s3; cbv -[V Rabs Rle]; repeat split; try apply Z; apply Z.
Qed.

(** ** a quotient digit *)
Lemma qfloor h k c m0 : Fin h -> Fin k -> / 1000 <= V k <= 2 -> Rabs (V h) <= c * V k -> c <= m0 -> m0 <= 300 ->
  exists m, FV (ffloor (fadd (fdiv h k) fhalf)) (IZR m) /\ as_i32 (ffloor (fadd (fdiv h k) fhalf)) = m /\
    Rabs (V h - IZR m * V k) <= (/ 2 + 700 * u) * V k.
Proof.
  intros Fr Fc K0 Bh Hc Hm. set (H := V h) in *. set (K := V k) in *.
  set (q := H / K). assert (EQ : q * K = H) by (unfold q; field; lra).
  assert (Aq : Rabs q <= 300).
  { apply Rmult_le_reg_r with K; [lra|]. replace (Rabs q * K) with (Rabs H) by (rewrite <- EQ, Rabs_mult, (Rabs_pos_eq K) by lra; reflexivity).
    apply Rle_trans with (1 := Bh). apply Rmult_le_compat_r; lra. }
  assert (Fb : fmt (bp 9)) by (apply fmt_bpow; lia). assert (Lb : bp 9 < bp 1024) by (apply bpow_lt; lia). change (bp 9) with 512 in Fb, Lb.
  destruct (fdiv_fin h k 512 Fr Fc) as [F1 V1]; auto; [fold K; lra|fold H K q; lra|]. fold H K q in V1.
  assert (S75 : bp (-1075) <= u) by (rewrite <- u_bp; apply bpow_le; lia). assert (P75 := bpow_gt_0 radix2 (-1075)).
  assert (Er := rn_err q). assert (Er' : Rabs (rn q - q) <= 301 * u) by lra. apply Rabs_def2' in Er'. assert (Aq' := Rabs_def2' _ _ Aq).
  set (d := fdiv h k) in *.
  assert (Bs : Rabs (V d + V fhalf) <= 512) by (rewrite (proj2 fhalf_V'), V1; apply Rabs_le; lra).
  destruct (fadd_ok d fhalf F1 (proj1 fhalf_V')) as (F2 & V2 & _). { apply Rle_lt_trans with 512; [apply rn_abs_le; auto|exact Lb]. }
  rewrite (proj2 fhalf_V'), V1 in V2, Bs.
  assert (BS2 : Rabs (rn q + / 2) <= 301) by (apply Rabs_le; lra).
  assert (Es := rn_err (rn q + / 2)). assert (Es' : Rabs (rn (rn q + / 2) - (rn q + / 2)) <= 302 * u) by lra. apply Rabs_def2' in Es'.
  set (s := fadd d fhalf) in *. set (m := Zfloor (V s)). exists m.
  assert (M1 := Zfloor_lb (V s)). assert (M2 := Zfloor_ub (V s)). fold m in M1, M2.
  assert (M1' := M1). assert (M2' := M2). rewrite V2 in M1', M2'. set (w := rn (rn q + / 2)) in *. clearbody w. set (w1 := rn q) in *. clearbody w1.
  assert (Hm' : (-400 <= m <= 400)%Z). { assert (IZR (-401) < IZR m < IZR 401) as [G1 G2] by lra. split; [apply lt_IZR in G1|apply lt_IZR in G2]; lia. }
  split; [apply ffloor_ok; exact F2|]. split; [apply DisplayLog.floor_i32; [exact F2|split; [exact M1|exact M2]|clearbody m; lia]|].
  assert (QM : Rabs (q - IZR m) <= / 2 + 700 * u) by (apply Rabs_le; lra).
  replace (H - IZR m * K) with ((q - IZR m) * K) by (rewrite <- EQ; ring). rewrite Rabs_mult, (Rabs_pos_eq K) by lra. apply Rmult_le_compat_r; lra.
Qed.

(** ** constants *)
Lemma const_Q c C a : QNorm c -> approx (QV c) C 1 (-212) -> 0 < C <= 7 -> C <= a -> Rabs (QV c - C) <= / 4096 * uu * C /\ QB ((1 + / 100000) * a) (5 * u * a) c /\ (1 - / 100000) * C <= V (q0 c) <= (1 + / 100000) * C.
Proof.
  intros N E BC Ha. unfold approx in E. rewrite (Rabs_pos_eq C) in E by lra. change (IZR 1) with 1 in E. rewrite Rmult_1_l in E.
  assert (K : bp (-212) <= / 4096 * uu). { change (/ 4096) with (bp (-12)). rewrite <- u_bp, <- !bpow_plus. apply bpow_le. lia. }
  assert (E1 : Rabs (QV c - C) <= / 4096 * uu * C) by (apply Rle_trans with (1 := E); apply Rmult_le_compat_r; lra).
  split; [exact E1|]. assert (E2 : Rabs (QV c - C) <= / 1000000000 * C) by (apply Rle_trans with (1 := E1); apply Rmult_le_compat_r; lra).
  assert (L := QL_geoS _ (norm_geoS _ N)). assert (A := QL_abs (4 * u) _ ltac:(lra) ltac:(lra) L). assert (V1 := QL_val (4 * u) _ ltac:(lra) L). apply Rabs_le_inv in E2. rewrite (Rabs_pos_eq (QV c)) in A by lra.
  assert (H : Rabs (V (q0 c)) <= (1 + / 200000) * C) by lra. split.
  - apply QB_mono with ((1 + / 100000) * a) (4 * u * ((1 + / 100000) * a)); [lra| |].
    + replace (4 * u * ((1 + / 100000) * a)) with (4 * (1 + / 100000) * u * a) by ring. apply Rmult_le_compat_r; lra.
    + apply QL_QB; [exact L|lra|lra].
  - apply Rabs_le_inv in V1. lra.
Qed.
Lemma single_QB f m a : FV f (IZR m) -> Rabs (IZR m) <= a -> QB a 0 (mkQ f f0 f0 f0) /\ QV (mkQ f f0 f0 f0) = IZR m.
Proof.
  intros [F E] H. assert (Z : V f0 = 0) by reflexivity. split.
  - unfold QB, fb. cbn [q0 q1 q2 q3]. rewrite Z, Rabs_R0, E. repeat split; try assumption; try reflexivity; lra.
  - unfold QV. cbn [q0 q1 q2 q3]. rewrite Z, E. ring.
Qed.
(** a multiple of a constant *)
Lemma mult_ok f m a c C b e : FV f (IZR m) -> Rabs (IZR m) <= a -> QB b (e * u) c -> Rabs (QV c - C) <= / 4096 * uu * C -> 0 <= C -> a * C <= 7 -> 0 <= a <= 1000 -> 0 <= b <= 1000 -> 0 <= e -> b * u <= 1 -> a * b <= 4 -> a * e <= 20 -> e <= 20 ->
  QB 5 (9 * u) (q_mul (mkQ f f0 f0 f0) c) /\ Rabs (QV (q_mul (mkQ f f0 f0 f0) c) - IZR m * C) <= (1270 * Rmax (a * e) 4 + 5) * uu.
Proof.
  intros Hf Hm Bc Ec PC Pac Pa Pb Pe Hbe Hab Hae He. destruct (single_QB f m a Hf Hm) as [Bs Es]. set (s := mkQ f f0 f0 f0) in *.
  assert (MC : Rabs (IZR m * (QV c - C)) <= / 100 * uu).
  { eapply Rle_trans; [apply prod_le; [exact Hm|exact Ec]|]. replace (a * (/ 4096 * uu * C)) with (/ 4096 * uu * (a * C)) by ring. apply Rle_trans with (/ 4096 * uu * 7); [apply Rmult_le_compat_l; lra|lra]. }
  assert (X4 : 4 <= Rmax (a * e) 4 <= 20) by (split; [apply Rmax_r|apply Rmax_case; lra]). assert (X5 : a * e <= Rmax (a * e) 4) by apply Rmax_l.
  set (y := Rmax (a * e) 4) in *. clearbody y.
  assert (E0 : QB 5 (9 * u) (q_mul s c) /\ Rabs (QV (q_mul s c) - QV s * QV c) <= (1270 * y + 4) * uu).
  { destruct (Req_dec (V (q0 s)) 0) as [Z|Z].
    - destruct (zmul s c) as [G1 G2]; [apply Bs|apply Bc|exact Z|]. split; [eapply QB_mono; [| |exact G1]; lra|]. rewrite G2.
      assert (Q0 : QV s = 0). { rewrite Es. change (q0 s) with f in Z. rewrite (proj2 Hf) in Z. exact Z. }
      rewrite Q0, Rmult_0_l, Rminus_0_r, Rabs_R0. apply Rmult_le_pos; lra.
    - assert (B4 : 1024 <= bp 400) by (apply Rle_trans with (bp 10); [cbn; lra|apply bpow_le; lia]). assert (B9 : 1024 <= bp 900) by (apply Rle_trans with (bp 10); [cbn; lra|apply bpow_le; lia]).
      assert (yu : 4 * u <= y * u <= 20 * u) by (split; apply Rmult_le_compat_r; lra). assert (eu : e * u <= 20 * u) by (apply Rmult_le_compat_r; lra). assert (eu0 : 0 <= e * u) by (apply Rmult_le_pos; lra).
      assert (AE : a * (e * u) <= y * u) by (replace (a * (e * u)) with (a * e * u) by ring; apply Rmult_le_compat_r; lra).
      destruct (bmul a 0 b (e * u) s c (y * u) uu Bs Bc) with (N0 := 4) as (G1 & G2 & G3); try lra; try exact Z.
      split; [eapply QB_mono; [| |exact G2]; lra|]. lra. }
  destruct E0 as [E1 E2]. split; [exact E1|]. rewrite Es in E2.
  replace (QV (q_mul s c) - IZR m * C) with ((QV (q_mul s c) - IZR m * QV c) + IZR m * (QV c - C)) by ring. eapply Rle_trans; [apply Rabs_triang|]. lra.
Qed.

Lemma q_reduce_ok a : QGeoS a -> bp (-290) <= Rabs (QV a) <= 31 / 10 ->
  exists j k t, q_reduce a = (j, k, t) /\ QB (/ 635) (14 * u) t /\ Rabs (QV t) <= / 640 /\ (V (q0 t) = 0 -> QV t = 0) /\ (-2 <= j <= 2)%Z /\ (-256 <= k <= 256)%Z /\
   Rabs (QV a - (QV t + IZR j * (PI / 2) + IZR k * (PI / 1024))) <= 125000 * uu.
Proof.
  intros Na [L U]. assert (PB := pi_b). assert (La := QL_geoS _ Na). assert (Aa := QL_abs (4 * u) a ltac:(lra) ltac:(lra) La).
  assert (P29 := bpow_gt_0 radix2 (-290)). assert (B29 : 2 * bp (-300) <= bp (-290)). { assert (E : bp (-290) = 1024 * bp (-300)) by exact (bp_split (-300) 10 ltac:(lia)). assert (P := bpow_gt_0 radix2 (-300)). lra. }
  assert (B90 : 1024 <= bp 90) by (apply Rle_trans with (bp 10); [cbn; lra|apply bpow_le; lia]). assert (B300 : 1024 <= bp 300) by (apply Rle_trans with (bp 10); [cbn; lra|apply bpow_le; lia]).
  assert (B30 : bp (-300) <= / 1024) by (apply Rle_trans with (bp (-10)); [apply bpow_le; lia|cbn; lra]). assert (B1000 : 1000 <= bp 1000) by (apply Rle_trans with (bp 10); [cbn; lra|apply bpow_le; lia]).
  destruct q_TAU_ok as [NT ET]. destruct (const_Q Q_TAU (2 * PI) 7 NT ET ltac:(lra) ltac:(lra)) as (ET1 & BT & HT). assert (LT := QL_geoS _ (norm_geoS _ NT)).
  destruct q_FRAC_PI_2_ok as [NH EH]. destruct (const_Q Q_FRAC_PI_2 (PI / 2) (15708 / 10000) NH EH ltac:(lra) ltac:(lra)) as (EH1 & BH & HH).
  destruct q_FRAC_PI_1024_ok as [NK EK]. destruct (const_Q Q_FRAC_PI_1024 (PI / 1024) (30680 / 10000000) NK EK ltac:(lra) ltac:(lra)) as (EK1 & BK & HK).
  unfold q_reduce. cbv zeta.
  (* no full turn *)
  destruct (q_div_L (4 * u) a Q_TAU ltac:(lra) ltac:(lra) La LT) as [Lv Ev]; [lra|lra|rewrite Rabs_pos_eq; lra|rewrite Rabs_pos_eq; lra|].
  assert (VT : Rabs (QV Q_TAU - 2 * PI) <= / 1000000) by (assert (K : / 4096 * uu * (2 * PI) <= / 4096 * uu * 7) by (apply Rmult_le_compat_l; lra); lra). apply Rabs_le_inv in VT.
  set (v := q_div a Q_TAU) in *.
  assert (QA : Rabs (QV a / QV Q_TAU) <= 4935 / 10000).
  { unfold Rdiv. rewrite Rabs_mult, (Rabs_pos_eq (/ QV Q_TAU)) by (left; apply Rinv_0_lt_compat; lra).
    apply Rle_trans with (31 / 10 * / (62831 / 10000)); [|lra]. apply Rmult_le_compat; [apply Rabs_pos|left; apply Rinv_0_lt_compat; lra|lra|]. apply Rinv_le_contravar; lra. }
  assert (VV : Rabs (QV v) <= 494 / 1000).
  { assert (K : (1024 * (u * (4 * u)) + 13000 * uu) * Rabs (QV a / QV Q_TAU) <= (1024 * (u * (4 * u)) + 13000 * uu) * 1) by (apply Rmult_le_compat_l; lra).
    replace (QV v) with ((QV v - QV a / QV Q_TAU) + QV a / QV Q_TAU) by ring. eapply Rle_trans; [apply Rabs_triang|]. lra. }
  assert (Av := QL_abs (4 * u) v ltac:(lra) ltac:(lra) Lv).
  assert (BZ : QB 0 0 (q_round v)). { destruct Lv as (Fv & v1 & v2 & v3). apply q_round_small; [exact Fv|lra|lra|lra|lra]. }
  set (z := q_round v) in *. clearbody z. clear Ev QA VV Av Lv. clearbody v.
  assert (Z0 : V (q0 z) = 0). { destruct BZ as ([_ K] & _). assert (K2 := Rabs_pos (V (q0 z))). apply Rabs_le_inv in K. lra. }
  destruct (zmul z Q_TAU) as [M1 M2]; [apply BZ|apply BT|exact Z0|]. set (zt := q_mul z Q_TAU) in *. clearbody zt.
  assert (Ba : QB (32 / 10) (13 * u) a). { apply QB_mono with (32 / 10) (4 * u * (32 / 10)); [lra|lra|]. apply QL_QB; [exact La|lra|lra]. }
  destruct (bsub 4 (18 * u) a zt) as (R1 & R2 & _); try lra; [eapply QB_mono; [| |exact Ba]; lra|eapply QB_mono; [| |exact M1]; lra|].
  rewrite M2, Rminus_0_r in R1. set (r := q_sub a zt) in *. clearbody r.
  assert (VR : Rabs (QV r) <= 3101 / 1000) by (assert (K := tri _ _ _ _ R1 U); lra).
  assert (BR : QB (311 / 100) (69 * u) r). { apply QB_mono with (3101 / 1000 + 3 * (69 * u)) (69 * u); [lra|lra|]. eapply QB_sharp; [|exact VR]. eapply QB_mono; [| |exact R2]; [apply Rle_refl|lra]. }
  (* quarter turns *)
  assert (HR := QB_val _ _ _ BR). set (h := V (q0 r)) in *. set (kh := V (q0 Q_FRAC_PI_2)) in *.
  destruct (qfloor (q0 r) (q0 Q_FRAC_PI_2) 2 2) as (j & Fj & -> & Cj); [apply BR|apply BH|fold kh; lra|fold h kh; apply Rle_trans with (311 / 100); [apply BR|lra]|lra|lra|].
  fold h kh in Cj. set (fj := ffloor (fadd (fdiv (q0 r) (q0 Q_FRAC_PI_2)) fhalf)) in *.
  assert (Ckh : (/ 2 + 700 * u) * kh <= / 2 * kh + 1400 * u) by lra.
  assert (BRh : Rabs h <= 311 / 100) by apply BR.
  assert (TJ : (-2 <= j <= 2)%Z). { apply Rabs_le_inv in Cj, BRh. apply IZR_in; apply Rmult_lt_reg_r with kh; lra. }
  assert (IJ : Rabs (IZR j) <= 2) by (rewrite <- abs_IZR; apply IZR_le; lia).
  destruct (mult_ok fj j 2 Q_FRAC_PI_2 (PI / 2) (15709 / 10000) (79 / 10) Fj IJ) as [J1 J2]; try lra.
  { eapply QB_mono; [| |exact BH]; lra. }
  replace (Rmax (2 * (79 / 10)) 4) with (158 / 10) in J2 by (rewrite Rmax_left; lra).
  set (pj := q_mul (mkQ fj f0 f0 f0) Q_FRAC_PI_2) in *. clearbody pj.
  assert (KC2 : Rabs (QV Q_FRAC_PI_2 - kh) <= 24 * u) by (assert (K := QB_val _ _ _ BH); fold kh in K; lra).
  assert (KC : Rabs (kh - PI / 2) <= 25 * u).
  { assert (K : / 4096 * uu * (PI / 2) <= / 4096 * uu * 2) by (apply Rmult_le_compat_l; lra). apply Rabs_le_inv in KC2, EH1. apply Rabs_le. lra. }
  assert (RJ : Rabs (QV r - IZR j * (PI / 2)) <= PI / 4 + 3000 * u).
  { replace (QV r - IZR j * (PI / 2)) with ((QV r - h) + (h - IZR j * kh) + IZR j * (kh - PI / 2)) by ring.
    assert (K1 : Rabs (IZR j * (kh - PI / 2)) <= 2 * (25 * u)) by (apply prod_le; assumption). apply Rabs_le_inv in KC.
    eapply Rle_trans; [apply Rabs_triang|]. eapply Rle_trans; [apply Rplus_le_compat_r, Rabs_triang|]. lra. }
  assert (PJ : Rabs (QV pj) <= 32 / 10).
  { assert (K1 : Rabs (IZR j * (PI / 2)) <= 2 * (PI / 2)) by (apply prod_le; [exact IJ|rewrite Rabs_pos_eq; lra]). assert (K := tri _ _ _ _ J2 K1). lra. }
  assert (BPJ : QB (33 / 10) (9 * u) pj). { eapply QB_mono; [| |eapply QB_sharp; [exact J1|exact PJ]]; lra. }
  destruct (bsub (33 / 10) (69 * u) r pj) as (T1 & T2 & _); try lra; [eapply QB_mono; [| |exact BR]; lra|eapply QB_mono; [| |exact BPJ]; lra|].
  set (t1 := q_sub r pj) in *. clearbody t1.
  assert (ET2 : Rabs (QV t1 - (QV r - IZR j * (PI / 2))) <= 66500 * uu).
  { replace (QV t1 - (QV r - IZR j * (PI / 2))) with ((QV t1 - (QV r - QV pj)) + - (QV pj - IZR j * (PI / 2))) by ring. eapply Rle_trans; [apply Rabs_triang|]. rewrite Rabs_Ropp. lra. }
  assert (VT1 : Rabs (QV t1) <= PI / 4 + 3001 * u) by (assert (K := tri _ _ _ _ ET2 RJ); lra).
  assert (BT1 : QB (786 / 1000) (57 * u) t1). { apply QB_mono with (PI / 4 + 3001 * u + 3 * (57 * u)) (57 * u); [lra|lra|]. eapply QB_sharp; [|exact VT1]. eapply QB_mono; [| |exact T2]; [apply Rle_refl|lra]. }
  (* 1024ths *)
  clear HR Cj Ckh BRh KC2 KC. clear h.
  assert (HR := QB_val _ _ _ BT1). set (h := V (q0 t1)) in *. set (k1 := V (q0 Q_FRAC_PI_1024)) in *.
  assert (Bh : Rabs h <= PI / 4 + 3200 * u). { replace h with (- (QV t1 - h) + QV t1) by ring. eapply Rle_trans; [apply Rabs_triang|]. rewrite Rabs_Ropp. lra. }
  assert (KC : Rabs (k1 - PI / 1024) <= / 20 * u).
  { assert (KC2 := QB_val _ _ _ BK). fold k1 in KC2. assert (K : / 4096 * uu * (PI / 1024) <= / 4096 * uu * 2) by (apply Rmult_le_compat_l; lra). apply Rabs_le_inv in KC2, EK1. apply Rabs_le. lra. }
  assert (KC' := Rabs_le_inv _ _ KC).
  destruct (qfloor (q0 t1) (q0 Q_FRAC_PI_1024) (25601 / 100) 300) as (k & Fk & -> & Ck); [apply BT1|apply BK|fold k1; lra|fold h k1; lra|lra|lra|].
  fold h k1 in Ck. set (fk := ffloor (fadd (fdiv (q0 t1) (q0 Q_FRAC_PI_1024)) fhalf)) in *.
  assert (Ck2 : (/ 2 + 700 * u) * k1 <= / 2 * (PI / 1024) + 3 * u) by lra.
  assert (TK : (-256 <= k <= 256)%Z). { apply Rabs_le_inv in Ck, Bh. apply IZR_in; apply Rmult_lt_reg_r with k1; lra. }
  assert (IK : Rabs (IZR k) <= 256) by (rewrite <- abs_IZR; apply IZR_le; lia).
  assert (BK' : QB (3069 / 1000000) (/ 50 * u) Q_FRAC_PI_1024) by (eapply QB_mono; [| |exact BK]; lra).
  destruct (mult_ok fk k 256 Q_FRAC_PI_1024 (PI / 1024) (3069 / 1000000) (/ 50) Fk IK BK' EK1) as [K1 K2]; try lra.
  replace (Rmax (256 * / 50) 4) with (256 / 50) in K2 by (rewrite Rmax_left; lra).
  set (pk := q_mul (mkQ fk f0 f0 f0) Q_FRAC_PI_1024) in *. clearbody pk.
  assert (RK : Rabs (QV t1 - IZR k * (PI / 1024)) <= PI / 2048 + 300 * u).
  { replace (QV t1 - IZR k * (PI / 1024)) with ((QV t1 - h) + (h - IZR k * k1) + IZR k * (k1 - PI / 1024)) by ring.
    assert (KK : Rabs (IZR k * (k1 - PI / 1024)) <= 256 * (/ 20 * u)) by (apply prod_le; assumption).
    eapply Rle_trans; [apply Rabs_triang|]. eapply Rle_trans; [apply Rplus_le_compat_r, Rabs_triang|]. lra. }
  assert (PK : Rabs (QV pk) <= 789 / 1000).
  { replace (QV pk) with ((QV pk - IZR k * (PI / 1024)) + - (QV t1 - IZR k * (PI / 1024)) + QV t1) by ring.
    eapply Rle_trans; [apply Rabs_triang|]. eapply Rle_trans; [apply Rplus_le_compat_r, Rabs_triang|]. rewrite Rabs_Ropp. lra. }
  assert (BPK : QB (8 / 10) (9 * u) pk). { eapply QB_mono; [| |eapply QB_sharp; [exact K1|exact PK]]; lra. }
  destruct (bsub (8 / 10) (57 * u) t1 pk) as (S1 & S2 & S3); try lra; [eapply QB_mono; [| |exact BT1]; lra|eapply QB_mono; [| |exact BPK]; lra|].
  set (t := q_sub t1 pk) in *. clearbody t.
  assert (ET3 : Rabs (QV t - (QV t1 - IZR k * (PI / 1024))) <= 45000 * uu).
  { replace (QV t - (QV t1 - IZR k * (PI / 1024))) with ((QV t - (QV t1 - QV pk)) + - (QV pk - IZR k * (PI / 1024))) by ring. eapply Rle_trans; [apply Rabs_triang|]. rewrite Rabs_Ropp. lra. }
  assert (VT2 : Rabs (QV t) <= PI / 2048 + 301 * u) by (assert (K := tri _ _ _ _ ET3 RK); lra).
  exists j, k, t. split; [reflexivity|]. split.
  { apply QB_mono with (PI / 2048 + 301 * u + 3 * (14 * u)) (14 * u); [lra|lra|]. eapply QB_sharp; [|exact VT2]. eapply QB_mono; [| |exact S2]; [apply Rle_refl|lra]. }
  split; [lra|]. split; [exact S3|]. split; [exact TJ|]. split; [exact TK|].
  replace (QV a - (QV t + IZR j * (PI / 2) + IZR k * (PI / 1024))) with (- (QV t - (QV t1 - IZR k * (PI / 1024))) + - (QV t1 - (QV r - IZR j * (PI / 2))) + - (QV r - QV a)) by ring.
  eapply Rle_trans; [apply Rabs_triang|]. eapply Rle_trans; [apply Rplus_le_compat_r, Rabs_triang|]. rewrite !Rabs_Ropp. lra.
Qed.
