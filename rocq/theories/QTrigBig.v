(** * Reduction of Quad angles by full turns *)
From Coq Require Import ZArith Reals List Bool Lia Lra Psatz.
From Flocq Require Import Core IEEE754.BinarySingleNaN.
From Verif Require Import F64 F64Facts Prim DoubleM QuadM AlgM RN Spec EFT SpecialProofs ExactProofs QExactProofs LawProofs RoundProofs IntProofs QuadSpec QAddAcc QAddThms QMulAcc QMulThms QGeoAcc QGeoMul QSqrAcc QLoose QLDiv QLOps
  DDivProofs DAddProofs DMulProofs AbsOps Exact ConstM BaseConst ConstProofs TableProofs TableQuad TransM ExpProofs ExpThms QExpProofs SinLoop SinSeries SinReduce SinThms QLogThms QParse QLSq SqrtProofs TransProofs QSinhThms QTrigOps QTrigLoop LdexpProofs ParseM FromProofs QTrigSmall QTrigThms.
Import ListNotations.
Local Open Scope R_scope.
Local Notation uu := (u * u).

(** ** the number of full turns *)
Definition isint (m : Z) (q : Quad) : Prop := QB (Rabs (IZR m)) 0 q /\ V (q0 q) = IZR m.
Lemma isint_of f m b c d : FV f (IZR m) -> FV b 0 -> FV c 0 -> FV d 0 -> isint m (mkQ f b c d).
Proof.
  intros [F E] [Fb Eb] [Fc Ec] [Fd Ed]. split; [|exact E]. unfold QB, fb. cbn [q0 q1 q2 q3]. rewrite E, Eb, Ec, Ed, Rabs_R0. repeat split; try assumption; lra.
Qed.
Lemma chain4_0 x : fmt x -> chain4 x 0 0 0.
Proof. intros F. assert (Z := rn_0). repeat split; rewrite ?Rplus_0_r; try exact rn_0; try (now apply rn_id); try lra. Qed.
Lemma q_round_int v : QL (4 * u) v -> Rabs (V (q0 v)) <= 200000 ->
  exists m, isint m (q_round v) /\ (Rabs (V (q0 v) - IZR m) <= / 2 + 4 * u \/ Rabs (V (q0 v) - IZR m - 3 / 2) <= 4 * u) /\ (Z.abs m <= 200002)%Z.
Proof.
  intros ((F0 & F1 & F2 & F3) & A1 & A2 & A3) B. assert (S : 4 * u * Rabs (V (q0 v)) <= / 1000) by (apply Rle_trans with (4 * u * 200000); [apply Rmult_le_compat_l; lra|lra]).
  unfold q_round. assert (Fa := fround_ok (q0 v) F0). set (m := Rround_away (V (q0 v))) in *. assert (Em : Rabs (IZR m - V (q0 v)) <= / 2) by apply Rr_err.
  destruct (round_zero (q1 v) F1 ltac:(lra)) as [s1 E1]. destruct (round_zero (q2 v) F2 ltac:(lra)) as [s2 E2]. destruct (round_zero (q3 v) F3 ltac:(lra)) as [s3 E3].
  rewrite E1, E2, E3. rewrite (half_no s1 _ _ F1 F2 ltac:(lra)), (half_no s2 _ _ F2 F3 ltac:(lra)).
  set (a := fround (q0 v)) in *. assert (G : forall q, isint m q -> exists m, isint m q /\ (Rabs (V (q0 v) - IZR m) <= / 2 + 4 * u \/ Rabs (V (q0 v) - IZR m - 3 / 2) <= 4 * u) /\ (Z.abs m <= 200002)%Z).
  { intros q H. exists m. split; [exact H|]. split; [left; rewrite Rabs_minus_sym; lra|]. apply le_IZR. rewrite abs_IZR. assert (K := tri _ _ _ _ Em (Rle_refl _)). lra. }
  destruct (near_eps a (q0 v)).
  - destruct (near_eps (B754_zero s1) (q1 v)); [|apply G, isint_of; try exact Fa; apply zero_FV || exact FV_0].
    destruct (near_eps (B754_zero s2) (q2 v)); [|apply G, isint_of; try exact Fa; apply zero_FV || exact FV_0].
    apply G. destruct (renorm4_id a (B754_zero s1) (B754_zero s2) (B754_zero s3) (IZR m) 0 0 0 Fa (zero_FV _) (zero_FV _) (zero_FV _)) as (H0 & H1 & H2 & H3); [apply chain4_0; exact (FV_fmt _ _ Fa)|].
    destruct (mkQ4 _) as [x0 x1 x2 x3]. cbn [q0 q1 q2 q3] in *. apply isint_of; assumption.
  - destruct (near_half a (q0 v) (q1 v)) eqn:NH; [|apply G, isint_of; try exact Fa; exact FV_0].
    rewrite (near_half_test _ _ _ (IZR m) (V (q0 v)) (V (q1 v)) Fa (conj F0 eq_refl) (conj F1 eq_refl)) in NH by lra.
    apply andb_prop in NH. destruct NH as [NH _]. apply Rlt_bool_true_iff in NH || (assert (NH' : Rabs (rn (Rabs (rn (IZR m - V (q0 v))) - / 2)) < bp (-52)) by (destruct (Rlt_bool_spec (Rabs (rn (Rabs (rn (IZR m - V (q0 v))) - / 2))) (bp (-52))); [assumption|discriminate]); clear NH; rename NH' into NH).
    assert (B52 : bp (-52) = 2 * u) by (rewrite <- u_bp; exact (bp_split (-53) 1 ltac:(lia))). rewrite B52 in NH.
    assert (S75 : bp (-1075) <= / 100 * u) by (apply Rle_trans with (bp (-60)); [apply bpow_le; lia|]; change (-60)%Z with (-7 + -53)%Z; rewrite bpow_plus, u_bp; change (bp (-7)) with (/ 128); lra).
    set (y := IZR m - V (q0 v)) in *. assert (R1 := rn_err y). assert (R1' : Rabs (rn y - y) <= 51 / 100 * u) by lra. set (w := rn y) in *. clearbody w.
    assert (R2 := rn_err (Rabs w - / 2)).
    assert (W : Rabs (Rabs w - / 2) <= 203 / 100 * u).
    { assert (K1 := Rabs_pos (Rabs w - / 2)). assert (K3 := tri2 _ _ _ _ R2 (Rle_refl _)). assert (u * Rabs (Rabs w - / 2) <= / 1000000 * Rabs (Rabs w - / 2)) by (apply Rmult_le_compat_r; lra). lra. }
    assert (F1c : FV f1 1) by (split; [reflexivity|exact V_1]).
    assert (FS : FV (fsub a f1) (IZR (m - 1))).
    { destruct Fa as [Fa Ea]. assert (M2 : Rabs (IZR m) <= 200001) by (assert (K := tri _ _ _ _ Em (Rle_refl _)); lra).
      assert (IM : rn (IZR (m - 1)) = IZR (m - 1)). { apply rnZ. apply le_IZR. rewrite abs_IZR, minus_IZR. change (IZR (2 ^ 53)) with 9007199254740992. apply Rabs_le_inv in M2. apply Rabs_le. lra. }
      destruct (fsub_ok a f1 Fa (proj1 F1c)) as [K1 [K2 _]].
      { rewrite Ea, (proj2 F1c). rewrite <- minus_IZR, IM. apply Rle_lt_trans with (bp 20); [|apply bpow_lt; lia]. rewrite minus_IZR. change (bp 20) with 1048576. apply Rabs_le_inv in M2. apply Rabs_le. lra. }
      split; [exact K1|]. rewrite K2, Ea, (proj2 F1c), <- minus_IZR. exact IM. }
    exists (m - 1)%Z. split; [apply isint_of; try exact FS; exact FV_0|]. split.
    + rewrite minus_IZR. apply Rabs_le_inv in R1', W, Em. destruct (Rle_or_lt 0 w) as [P|P].
      * left. rewrite (Rabs_pos_eq w) in W by exact P. apply Rabs_le. unfold y in *. lra.
      * right. rewrite (Rabs_left w) in W by exact P. apply Rabs_le. unfold y in *. lra.
    + assert (K := tri _ _ _ _ Em (Rle_refl _)). assert (Z.abs m <= 200001)%Z; [|lia]. apply le_IZR. rewrite abs_IZR. lra.
Qed.

(** ** an integer multiple of a constant *)
Lemma mult_big s m a c C b e y N0 : isint m s -> Rabs (IZR m) <= a -> QB b (e * u) c -> Rabs (QV c - C) <= / 4096 * uu * C -> 0 <= C -> a * C <= N0 -> 4 <= N0 <= 134217728 -> 0 <= a <= 134217728 -> 0 <= b <= 1000 -> 0 <= e <= 1000 ->
  a * b <= N0 -> a * e <= y -> N0 <= y -> y <= 1000 * N0 ->
  QB (11 / 10 * N0) (3 * (u * N0)) (q_mul s c) /\ Rabs (QV (q_mul s c) - IZR m * C) <= (1271 * y + 4) * uu.
Proof.
  intros [Bs0 Em] Hm Bc Ec PC Pac PN Pa Pb Pe Hab Hae Hy0 Hy1. assert (Bs : QB a 0 s) by (eapply QB_mono; [exact Hm|apply Rle_refl|exact Bs0]).
  assert (Es : QV s = IZR m). { assert (K := QB_val _ _ _ Bs). rewrite Rmult_0_r, Em in K. assert (K1 := Rabs_pos (QV s - IZR m)). apply Rabs_le_inv in K. lra. }
  assert (UP : 0 < uu) by (apply Rmult_lt_0_compat; lra).
  assert (MC : Rabs (IZR m * (QV c - C)) <= y * uu).
  { eapply Rle_trans; [apply prod_le; [exact Hm|exact Ec]|]. replace (a * (/ 4096 * uu * C)) with (/ 4096 * (a * C) * uu) by ring. apply Rmult_le_compat_r; lra. }
  assert (E0 : QB (11 / 10 * N0) (3 * (u * N0)) (q_mul s c) /\ Rabs (QV (q_mul s c) - QV s * QV c) <= (1270 * y + 4) * uu).
  { destruct (Req_dec (V (q0 s)) 0) as [Z|Z].
    - destruct (zmul s c) as [G1 G2]; [apply Bs|apply Bc|exact Z|]. split; [eapply QB_mono; [| |exact G1]; lra|]. rewrite G2.
      assert (Q0 : QV s = 0) by (rewrite Es, <- Em; exact Z). rewrite Q0, Rmult_0_l, Rminus_0_r, Rabs_R0. apply Rmult_le_pos; lra.
    - assert (B4 : 1073741824 <= bp 400) by (apply Rle_trans with (bp 30); [cbn; lra|apply bpow_le; lia]). assert (B9 : 1073741824 <= bp 900) by (apply Rle_trans with (bp 30); [cbn; lra|apply bpow_le; lia]).
      assert (yu : y * u <= 1000 * N0 * u) by (apply Rmult_le_compat_r; lra). assert (yu2 : N0 * u <= y * u) by (apply Rmult_le_compat_r; lra). assert (eu : 0 <= e * u <= 1000 * u) by (split; [apply Rmult_le_pos|apply Rmult_le_compat_r]; lra).
      assert (AE : a * (e * u) <= y * u) by (replace (a * (e * u)) with (a * e * u) by ring; apply Rmult_le_compat_r; lra).
      destruct (bmul a 0 b (e * u) s c (y * u) uu Bs Bc) with (N0 := N0) as (G1 & G2 & _); try lra; try exact Z.
      split; [eapply QB_mono; [| |exact G2]; lra|]. lra. }
  destruct E0 as [E1 E2]. split; [exact E1|]. rewrite Es in E2.
  replace (QV (q_mul s c) - IZR m * C) with ((QV (q_mul s c) - IZR m * QV c) + IZR m * (QV c - C)) by ring. eapply Rle_trans; [apply Rabs_triang|]. lra.
Qed.

(** ** the reduction *)
Lemma q_reduce_big a X : QGeoS a -> bp (-290) <= Rabs (QV a) <= X -> 4 <= X <= 1048600 ->
  exists z j k t, q_reduce a = (j, k, t) /\ QB (/ 635) (14 * u) t /\ Rabs (QV t) <= / 640 /\ (V (q0 t) = 0 -> QV t = 0) /\ turn_ok j /\ (-256 <= k <= 256)%Z /\
   Rabs (QV a - (QV t + IZR k * (PI / 1024) + IZR z * (2 * PI) + IZR j * (PI / 2))) <= (84000 * X + 179000) * uu.
Proof.
  intros Na [L U] BX. assert (PB := pi_b). assert (La := QL_geoS _ Na). assert (Aa := QL_abs (4 * u) a ltac:(lra) ltac:(lra) La).
  assert (UP : 0 < uu) by (apply Rmult_lt_0_compat; lra).
  assert (P29 := bpow_gt_0 radix2 (-290)). assert (B29 : 2 * bp (-300) <= bp (-290)). { assert (E : bp (-290) = 1024 * bp (-300)) by exact (bp_split (-300) 10 ltac:(lia)). assert (P := bpow_gt_0 radix2 (-300)). lra. }
  assert (B90 : 1073741824 <= bp 90) by (apply Rle_trans with (bp 30); [cbn; lra|apply bpow_le; lia]). assert (B300 : 1073741824 <= bp 300) by (apply Rle_trans with (bp 30); [cbn; lra|apply bpow_le; lia]).
  assert (B30 : bp (-300) <= / 1024) by (apply Rle_trans with (bp (-10)); [apply bpow_le; lia|cbn; lra]). assert (B1000 : 1073741824 <= bp 1000) by (apply Rle_trans with (bp 30); [cbn; lra|apply bpow_le; lia]).
  destruct q_TAU_ok as [NT ET]. destruct (const_Q Q_TAU (2 * PI) 7 NT ET ltac:(lra) ltac:(lra)) as (ET1 & BT & HT). assert (LT := QL_geoS _ (norm_geoS _ NT)).
  destruct q_FRAC_PI_2_ok as [NH EH]. destruct (const_Q Q_FRAC_PI_2 (PI / 2) (15708 / 10000) NH EH ltac:(lra) ltac:(lra)) as (EH1 & BH & HH).
  destruct q_FRAC_PI_1024_ok as [NK EK]. destruct (const_Q Q_FRAC_PI_1024 (PI / 1024) (30680 / 10000000) NK EK ltac:(lra) ltac:(lra)) as (EK1 & BK & HK).
  unfold q_reduce. cbv zeta.
  (* full turns *)
  destruct (q_div_L (4 * u) a Q_TAU ltac:(lra) ltac:(lra) La LT) as [Lv Ev]; [lra|lra|rewrite Rabs_pos_eq; lra|rewrite Rabs_pos_eq; lra|].
  assert (VT0 : Rabs (QV Q_TAU - 2 * PI) <= / 100 * uu) by (assert (K : / 4096 * uu * (2 * PI) <= / 4096 * uu * 7) by (apply Rmult_le_compat_l; lra); lra). assert (VT := Rabs_le_inv _ _ VT0).
  set (v := q_div a Q_TAU) in *. set (T := QV Q_TAU) in *. set (w := QV a / T) in *.
  assert (EW : QV a = T * w) by (unfold w; field; lra).
  assert (QA : Rabs w <= 10 / 62 * X).
  { unfold w, Rdiv. rewrite Rabs_mult, (Rabs_pos_eq (/ T)) by (left; apply Rinv_0_lt_compat; lra).
    rewrite (Rmult_comm (10 * / 62) X). apply Rmult_le_compat; [apply Rabs_pos|left; apply Rinv_0_lt_compat; lra|lra|]. replace (10 * / 62) with (/ (62 / 10)) by field. apply Rinv_le_contravar; lra. }
  clearbody w. assert (VV := QL_val (4 * u) v ltac:(lra) Lv). assert (Av := QL_abs (4 * u) v ltac:(lra) ltac:(lra) Lv). set (v0 := V (q0 v)) in *.
  assert (Ev2 : Rabs (QV v - w) <= 20000 * uu * X).
  { apply Rle_trans with (1 := Ev). apply Rle_trans with ((1024 * (u * (4 * u)) + 13000 * uu) * (10 / 62 * X)); [apply Rmult_le_compat_l; lra|lra]. }
  assert (VB : Rabs (QV v) <= 163 / 1000 * X) by (assert (K := tri _ _ _ _ Ev2 QA); lra).
  assert (V0B : Rabs v0 <= 164 / 1000 * X) by lra.
  assert (VV2 : Rabs (QV v - v0) <= 2 * (u * X)) by (apply Rle_trans with (1 := VV); lra).
  assert (WV : Rabs (w - v0) <= 3 * (u * X)). { replace (w - v0) with (- (QV v - w) + (QV v - v0)) by ring. eapply Rle_trans; [apply Rabs_triang|]. rewrite Rabs_Ropp. lra. }
  destruct (q_round_int v Lv) as (m & Iz & Hm & _); [fold v0; lra|]. fold v0 in Hm.
  assert (Bm : Rabs (IZR m) <= 56 / 100 * X). { apply Rabs_le_inv in V0B. destruct Hm as [Hm|Hm]; apply Rabs_le_inv in Hm; apply Rabs_le; lra. }
  set (z := q_round v) in *. clearbody z. clear Ev VV Av Lv VB V0B VV2 Ev2.
  assert (XP : 56 / 100 * X * (2 * PI) <= 4 * X) by (apply Rle_trans with (56 / 100 * X * 7); [apply Rmult_le_compat_l; lra|lra]).
  destruct (mult_big z m (56 / 100 * X) Q_TAU (2 * PI) (71 / 10) 35 (20 * X) (4 * X) Iz Bm) as [M1 M2]; try lra; [eapply QB_mono; [| |exact BT]; lra|exact ET1|].
  set (zt := q_mul z Q_TAU) in *. clearbody zt.
  assert (Ba : QB (101 / 100 * X) (5 * (u * X)) a). { apply QB_mono with (101 / 100 * X) (4 * u * (101 / 100 * X)); [lra|lra|]. apply QL_QB; [exact La|lra|lra]. }
  destruct (bsub (44 / 10 * X) (12 * (u * X)) a zt) as (R1 & R2 & _); try lra; [eapply QB_mono; [| |exact Ba]; lra|eapply QB_mono; [| |exact M1]; lra|].
  set (r := q_sub a zt) in *. clearbody r.
  assert (ER1 : Rabs (QV r - (QV a - IZR m * (2 * PI))) <= (33500 * X + 4) * uu).
  { replace (QV r - (QV a - IZR m * (2 * PI))) with ((QV r - (QV a - QV zt)) + - (QV zt - IZR m * (2 * PI))) by ring. eapply Rle_trans; [apply Rabs_triang|]. rewrite Rabs_Ropp. lra. }
  assert (MT : Rabs (IZR m * (T - 2 * PI)) <= 56 / 100 * X * (/ 100 * uu)) by (apply prod_le; assumption).
  assert (VR : Rabs (QV r) <= 31417 / 10000 \/ Rabs (QV r - 3 * PI) <= / 100000).
  { assert (ER1' := Rabs_le_inv _ _ ER1). apply Rabs_le_inv in MT, WV. destruct Hm as [Hm|Hm]; [left|right].
    - assert (W1 : Rabs (w - IZR m) <= / 2 + / 100000000) by (apply Rabs_le_inv in Hm; apply Rabs_le; lra).
      assert (W2 : Rabs (T * (w - IZR m)) <= 62833 / 10000 * (/ 2 + / 100000000)) by (apply prod_le; [rewrite Rabs_pos_eq; lra|exact W1]). apply Rabs_le_inv in W2. apply Rabs_le. rewrite EW in ER1'. lra.
    - assert (W1 : Rabs (w - IZR m - 3 / 2) <= / 100000000) by (apply Rabs_le_inv in Hm; apply Rabs_le; lra).
      assert (W2 : Rabs (T * (w - IZR m - 3 / 2)) <= 62833 / 10000 * (/ 100000000)) by (apply prod_le; [rewrite Rabs_pos_eq; lra|exact W1]). apply Rabs_le_inv in W2. apply Rabs_le. rewrite EW in ER1'. lra. }
  clear MT WV Hm EW QA. clear w.
  assert (VRB : Rabs (QV r) <= 95 / 10). { destruct VR as [K|K]; apply Rabs_le_inv in K; apply Rabs_le; lra. }
  assert (BR : QB (96 / 10) (75 * (u * X)) r). { apply QB_mono with (95 / 10 + 3 * (75 * (u * X))) (75 * (u * X)); [lra|lra|]. eapply QB_sharp; [|exact VRB]. eapply QB_mono; [| |exact R2]; [apply Rle_refl|lra]. }
  (* quarter turns *)
  assert (HR := QB_val _ _ _ BR). set (h := V (q0 r)) in *. set (kh := V (q0 Q_FRAC_PI_2)) in *.
  destruct (qfloor (q0 r) (q0 Q_FRAC_PI_2) 7 7) as (j & Fj & -> & Cj); [apply BR|apply BH|fold kh; lra|fold h kh; apply Rle_trans with (96 / 10); [apply BR|lra]|lra|lra|].
  fold h kh in Cj. set (fj := ffloor (fadd (fdiv (q0 r) (q0 Q_FRAC_PI_2)) fhalf)) in *.
  assert (Ckh : (/ 2 + 700 * u) * kh <= / 2 * kh + 1400 * u) by lra.
  assert (KC2 : Rabs (QV Q_FRAC_PI_2 - kh) <= 24 * u) by (assert (K := QB_val _ _ _ BH); fold kh in K; lra).
  assert (KC : Rabs (kh - PI / 2) <= 25 * u).
  { assert (K : / 4096 * uu * (PI / 2) <= / 4096 * uu * 2) by (apply Rmult_le_compat_l; lra). apply Rabs_le_inv in KC2, EH1. apply Rabs_le. lra. }
  assert (KC' := Rabs_le_inv _ _ KC).
  assert (TJ : turn_ok j).
  { apply Rabs_le_inv in Cj, HR. destruct VR as [K|K]; apply Rabs_le_inv in K.
    - left. apply IZR_in; apply Rmult_lt_reg_r with kh; lra.
    - right. assert (5 < j < 7)%Z; [|lia]. split; apply lt_IZR; apply Rmult_lt_reg_r with kh; lra. }
  assert (IJ : Rabs (IZR j) <= 6). { rewrite <- abs_IZR. apply IZR_le. destruct TJ; lia. }
  assert (Ij : isint j (mkQ fj f0 f0 f0)) by (apply isint_of; [exact Fj|exact FV_0|exact FV_0|exact FV_0]).
  destruct (mult_big (mkQ fj f0 f0 f0) j 6 Q_FRAC_PI_2 (PI / 2) (15709 / 10000) (79 / 10) 48 10 Ij IJ) as [J1 J2]; try lra; [eapply QB_mono; [| |exact BH]; lra|].
  set (pj := q_mul (mkQ fj f0 f0 f0) Q_FRAC_PI_2) in *. clearbody pj.
  assert (RJ : Rabs (QV r - IZR j * (PI / 2)) <= PI / 4 + 800 * (u * X)).
  { replace (QV r - IZR j * (PI / 2)) with ((QV r - h) + (h - IZR j * kh) + IZR j * (kh - PI / 2)) by ring.
    assert (K1 : Rabs (IZR j * (kh - PI / 2)) <= 6 * (25 * u)) by (apply prod_le; assumption).
    eapply Rle_trans; [apply Rabs_triang|]. eapply Rle_trans; [apply Rplus_le_compat_r, Rabs_triang|]. lra. }
  assert (PJ : Rabs (QV pj) <= 95 / 10).
  { assert (K1 : Rabs (IZR j * (PI / 2)) <= 6 * (PI / 2)) by (apply prod_le; [exact IJ|rewrite Rabs_pos_eq; lra]). assert (K := tri _ _ _ _ J2 K1). lra. }
  assert (BPJ : QB (96 / 10) (30 * u) pj). { eapply QB_mono; [| |eapply QB_sharp; [exact J1|exact PJ]]; lra. }
  destruct (bsub (96 / 10) (75 * (u * X)) r pj) as (T1 & T2 & _); try lra; [exact BR|eapply QB_mono; [| |exact BPJ]; lra|].
  set (t1 := q_sub r pj) in *. clearbody t1.
  assert (ET2 : Rabs (QV t1 - (QV r - IZR j * (PI / 2))) <= (50400 * X + 61012) * uu).
  { replace (QV t1 - (QV r - IZR j * (PI / 2))) with ((QV t1 - (QV r - QV pj)) + - (QV pj - IZR j * (PI / 2))) by ring. eapply Rle_trans; [apply Rabs_triang|]. rewrite Rabs_Ropp. lra. }
  assert (VT1 : Rabs (QV t1) <= PI / 4 + 801 * (u * X)) by (assert (K := tri _ _ _ _ ET2 RJ); lra).
  assert (BT1 : QB (786 / 1000) (164 * u) t1). { apply QB_mono with (PI / 4 + 801 * (u * X) + 3 * (164 * u)) (164 * u); [lra|lra|]. eapply QB_sharp; [|exact VT1]. eapply QB_mono; [| |exact T2]; [apply Rle_refl|lra]. }
  (* 1024ths *)
  clear HR Cj Ckh KC2 KC KC' VR VRB. clear h.
  assert (HR := QB_val _ _ _ BT1). set (h := V (q0 t1)) in *. set (k1 := V (q0 Q_FRAC_PI_1024)) in *.
  assert (Bh : Rabs h <= PI / 4 + 1200 * (u * X)). { replace h with (- (QV t1 - h) + QV t1) by ring. eapply Rle_trans; [apply Rabs_triang|]. rewrite Rabs_Ropp. lra. }
  assert (KC : Rabs (k1 - PI / 1024) <= / 20 * u).
  { assert (KC2 := QB_val _ _ _ BK). fold k1 in KC2. assert (K : / 4096 * uu * (PI / 1024) <= / 4096 * uu * 2) by (apply Rmult_le_compat_l; lra). apply Rabs_le_inv in KC2, EK1. apply Rabs_le. lra. }
  assert (KC' := Rabs_le_inv _ _ KC).
  destruct (qfloor (q0 t1) (q0 Q_FRAC_PI_1024) (25601 / 100) 300) as (k & Fk & -> & Ck); [apply BT1|apply BK|fold k1; lra|fold h k1; lra|lra|lra|].
  fold h k1 in Ck. set (fk := ffloor (fadd (fdiv (q0 t1) (q0 Q_FRAC_PI_1024)) fhalf)) in *.
  assert (Ck2 : (/ 2 + 700 * u) * k1 <= / 2 * (PI / 1024) + 3 * u) by lra.
  assert (TK : (-256 <= k <= 256)%Z). { apply Rabs_le_inv in Ck, Bh. apply IZR_in; apply Rmult_lt_reg_r with k1; lra. }
  assert (IK : Rabs (IZR k) <= 256) by (rewrite <- abs_IZR; apply IZR_le; lia).
  assert (BK' : QB (3069 / 1000000) (/ 50 * u) Q_FRAC_PI_1024) by (eapply QB_mono; [| |exact BK]; lra).
  assert (Ik : isint k (mkQ fk f0 f0 f0)) by (apply isint_of; [exact Fk|exact FV_0|exact FV_0|exact FV_0]).
  destruct (mult_big (mkQ fk f0 f0 f0) k 256 Q_FRAC_PI_1024 (PI / 1024) (3069 / 1000000) (/ 50) 6 4 Ik IK BK' EK1) as [K1 K2]; try lra.
  set (pk := q_mul (mkQ fk f0 f0 f0) Q_FRAC_PI_1024) in *. clearbody pk.
  assert (RK : Rabs (QV t1 - IZR k * (PI / 1024)) <= PI / 2048 + 600 * u).
  { replace (QV t1 - IZR k * (PI / 1024)) with ((QV t1 - h) + (h - IZR k * k1) + IZR k * (k1 - PI / 1024)) by ring.
    assert (KK : Rabs (IZR k * (k1 - PI / 1024)) <= 256 * (/ 20 * u)) by (apply prod_le; assumption).
    eapply Rle_trans; [apply Rabs_triang|]. eapply Rle_trans; [apply Rplus_le_compat_r, Rabs_triang|]. lra. }
  assert (PK : Rabs (QV pk) <= 789 / 1000).
  { replace (QV pk) with ((QV pk - IZR k * (PI / 1024)) + - (QV t1 - IZR k * (PI / 1024)) + QV t1) by ring.
    eapply Rle_trans; [apply Rabs_triang|]. eapply Rle_trans; [apply Rplus_le_compat_r, Rabs_triang|]. rewrite Rabs_Ropp. lra. }
  assert (BPK : QB (8 / 10) (12 * u) pk). { eapply QB_mono; [| |eapply QB_sharp; [exact K1|exact PK]]; lra. }
  destruct (bsub (8 / 10) (164 * u) t1 pk) as (S1 & S2 & S3); try lra; [eapply QB_mono; [| |exact BT1]; lra|eapply QB_mono; [| |exact BPK]; lra|].
  set (t := q_sub t1 pk) in *. clearbody t.
  assert (ET3 : Rabs (QV t - (QV t1 - IZR k * (PI / 1024))) <= 117900 * uu).
  { replace (QV t - (QV t1 - IZR k * (PI / 1024))) with ((QV t - (QV t1 - QV pk)) + - (QV pk - IZR k * (PI / 1024))) by ring. eapply Rle_trans; [apply Rabs_triang|]. rewrite Rabs_Ropp. lra. }
  assert (VT2 : Rabs (QV t) <= PI / 2048 + 601 * u) by (assert (K := tri _ _ _ _ ET3 RK); lra).
  exists m, j, k, t. split; [reflexivity|]. split.
  { apply QB_mono with (PI / 2048 + 601 * u + 3 * (14 * u)) (14 * u); [lra|lra|]. eapply QB_sharp; [|exact VT2]. eapply QB_mono; [| |exact S2]; [apply Rle_refl|lra]. }
  split; [lra|]. split; [exact S3|]. split; [exact TJ|]. split; [exact TK|].
  replace (QV a - (QV t + IZR k * (PI / 1024) + IZR m * (2 * PI) + IZR j * (PI / 2))) with (- (QV t - (QV t1 - IZR k * (PI / 1024))) + - (QV t1 - (QV r - IZR j * (PI / 2))) + - (QV r - (QV a - IZR m * (2 * PI)))) by ring.
  eapply Rle_trans; [apply Rabs_triang|]. eapply Rle_trans; [apply Rplus_le_compat_r, Rabs_triang|]. rewrite !Rabs_Ropp. lra.
Qed.
