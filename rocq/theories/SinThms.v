(** * Accuracy of Double sin, cos, sin_cos and tan *)
From Coq Require Import ZArith Reals Lra Lia Psatz List Bool.
From Flocq Require Import Core IEEE754.BinarySingleNaN.
From Verif Require Import RN F64 Prim DoubleM ParseM Spec F64Facts EFT DAddProofs DMulProofs DDivProofs MulAny LdexpProofs LawProofs OrderProofs AbsOps Exact ConstM BaseConst ConstProofs TableProofs AlgM TransM ExpProofs ExpThms FromProofs SqrtProofs SinLoop SinSeries SinReduce.
Local Open Scope R_scope.

(** ** real facts *)
Lemma sin_lip x y : Rabs (sin x - sin y) <= Rabs (x - y).
Proof.
  assert (G : forall a b, a < b -> Rabs (sin b - sin a) <= Rabs (b - a)).
  { intros a b H. destruct (MVT_cor2 sin cos a b H) as (c & E & _); [intros; apply derivable_pt_lim_sin|]. rewrite E, Rabs_mult.
    assert (K := COS_bound c). assert (Rabs (cos c) <= 1) by (apply Rabs_le; lra). assert (P := Rabs_pos (b - a)). nra. }
  destruct (Rtotal_order x y) as [L|[->|L]].
  - rewrite (Rabs_minus_sym (sin x)), (Rabs_minus_sym x). now apply G.
  - rewrite !Rminus_diag_eq, Rabs_R0 by reflexivity. lra.
  - now apply G.
Qed.
Lemma cos_lip x y : Rabs (cos x - cos y) <= Rabs (x - y).
Proof.
  rewrite !cos_sin. eapply Rle_trans; [apply sin_lip|]. right. f_equal. ring.
Qed.
Lemma sin_small x : Rabs (sin x) <= Rabs x.
Proof. assert (K := sin_lip x 0). now rewrite sin_0, !Rminus_0_r in K. Qed.
Lemma cos_near1 x : Rabs x <= / 10 -> 995 / 1000 <= cos x <= 1.
Proof.
  intros H. assert (K := COS_bound x). split; [|lra]. assert (E := cos_2a_sin (x / 2)). replace (2 * (x / 2)) with x in E by field. rewrite E.
  assert (S := sin_small (x / 2)). unfold Rdiv in S at 2. rewrite Rabs_mult, (Rabs_pos_eq (/ 2)) in S by lra.
  assert (S2 : sin (x / 2) * sin (x / 2) <= / 400).
  { replace (sin (x / 2) * sin (x / 2)) with (Rabs (sin (x / 2)) * Rabs (sin (x / 2))) by (rewrite <- Rabs_mult; apply Rabs_pos_eq; nra).
    assert (P := Rabs_pos (sin (x / 2))). nra. }
  lra.
Qed.
Lemma sin_turns b j z : turn_ok j -> sin (b + IZR z * (2 * PI) + IZR j * (PI / 2)) = if (j =? 0)%Z then sin b else if (j =? 1)%Z then cos b else if (j =? -1)%Z then - cos b else - sin b.
Proof.
  intros H. assert (PER : forall x, sin (x + IZR z * (2 * PI)) = sin x).
  { intros x. assert (K : forall n y, sin (y + IZR (Z.of_nat n) * (2 * PI)) = sin y). { intros n y. rewrite <- INR_IZR_INZ. replace (y + INR n * (2 * PI)) with (y + 2 * INR n * PI) by ring. apply sin_period. }
    destruct (Z_le_gt_dec 0 z) as [P|P].
    - rewrite <- (Z2Nat.id z) by exact P. apply K.
    - rewrite <- (K (Z.to_nat (- z)) (x + IZR z * (2 * PI))). f_equal. rewrite Z2Nat.id by lia. rewrite opp_IZR. ring. }
  replace (b + IZR z * (2 * PI) + IZR j * (PI / 2)) with (b + IZR j * (PI / 2) + IZR z * (2 * PI)) by ring. rewrite PER.
  assert (S1 : forall x, sin (x + PI / 2) = cos x) by (intros; rewrite sin_plus, sin_PI2, cos_PI2; ring).
  assert (S2 : forall x, sin (x + PI) = - sin x) by (intros; rewrite sin_plus, sin_PI, cos_PI; ring).
  destruct H as [H| ->].
  - assert (C : (j = -2 \/ j = -1 \/ j = 0 \/ j = 1 \/ j = 2)%Z) by lia. destruct C as [-> | [-> | [-> | [-> | ->]]]]; cbn [Z.eqb Pos.eqb].
    + replace (b + -2 * (PI / 2)) with (b + - PI) by field. rewrite sin_plus, sin_neg, cos_neg, sin_PI, cos_PI. ring.
    + replace (b + -1 * (PI / 2)) with (b + - (PI / 2)) by field. rewrite sin_plus, sin_neg, cos_neg, sin_PI2, cos_PI2. ring.
    + f_equal. ring.
    + rewrite Rmult_1_l. apply S1.
    + replace (b + 2 * (PI / 2)) with (b + PI) by field. apply S2.
  - cbn [Z.eqb Pos.eqb]. replace (b + 6 * (PI / 2)) with (b + PI + 2 * INR 1 * PI) by (cbn [INR]; field). rewrite sin_period. apply S2.
Qed.
Lemma cos_turns b j z : turn_ok j -> cos (b + IZR z * (2 * PI) + IZR j * (PI / 2)) = if (j =? 0)%Z then cos b else if (j =? 1)%Z then - sin b else if (j =? -1)%Z then sin b else - cos b.
Proof.
  intros H. rewrite cos_sin. replace (PI / 2 + (b + IZR z * (2 * PI) + IZR j * (PI / 2))) with ((PI / 2 + b) + IZR z * (2 * PI) + IZR j * (PI / 2)) by ring.
  rewrite sin_turns by exact H. assert (C : cos (PI / 2 + b) = - sin b) by (rewrite cos_plus, sin_PI2, cos_PI2; ring). rewrite <- cos_sin, C.
  destruct (j =? 0)%Z; [reflexivity|]. destruct (j =? 1)%Z; [reflexivity|]. destruct (j =? -1)%Z; ring.
Qed.

(** ** sin and cos of the reduced argument *)
Lemma sincos_ok lm dbg t : printer lm -> DNorm t -> Rabs (DV t) <= 985 / 10000 ->
  exists s c, d_sincos_taylor lm dbg t = Val (s, c) /\ DNorm s /\ DNorm c /\ Rabs (DV s - sin (DV t)) <= 51 / 10 * vv /\ Rabs (DV c - cos (DV t)) <= 37 * vv.
Proof.
  intros PR N H. destruct tiny_le as [T0 T1]. unfold d_sincos_taylor. destruct (d_is_zero t) eqn:Z.
  { apply d_is_zero_DV in Z; auto. rewrite Z, sin_0, cos_0. destruct one_ok as [N1 V1], DNorm_zero0 as [N0 V0]. exists D_ZERO, D_ONE.
    split; [reflexivity|]. split; [exact N0|]. split; [exact N1|]. rewrite V0, V1, !Rminus_diag_eq, Rabs_R0 by reflexivity. lra. }
  cbv zeta. destruct (sin_taylor_ok t N ltac:(lra)) as [Ns Es]. set (s := d_sin_taylor t) in *.
  assert (PA := Rabs_pos (DV t)). assert (Es' : Rabs (DV s - sin (DV t)) <= 505 / 100 * vv) by lra.
  assert (SS := sin_small (DV t)). set (A := DV t) in *. set (S := sin A) in *.
  assert (BS : Rabs (DV s) <= / 10). { replace (DV s) with (DV s - S + S) by ring. eapply Rle_trans; [apply Rabs_triang|]. lra. }
  destruct (sqr_abs s Ns ltac:(apply b100; lra)) as [Nq Eq]. destruct one_ok as [N1 V1].
  assert (SQ : 0 <= DV s * DV s <= / 100). { replace (DV s * DV s) with (Rabs (DV s) * Rabs (DV s)) by (rewrite <- Rabs_mult; apply Rabs_pos_eq; nra). assert (P := Rabs_pos (DV s)). nra. }
  set (q := DV (d_sqr s)) in *. assert (Eq' : Rabs (q - DV s * DV s) <= / 10 * vv) by lra. assert (Eq2 := Rabs_def2' _ _ Eq').
  destruct (sub_abs D_ONE (d_sqr s) N1 Nq) as [Nd Ed]; [apply b100; rewrite V1, Rabs_R1; lra|fold q; apply b100, Rabs_le; lra|].
  rewrite V1 in Ed. fold q in Ed. rewrite (Rabs_pos_eq (1 - q)) in Ed by lra. set (d := d_sub D_ONE (d_sqr s)) in *.
  assert (ED : Rabs (DV d - (1 - S * S)) <= 72 / 10 * vv).
  { replace (DV d - (1 - S * S)) with ((DV d - (1 - q)) + (- (q - DV s * DV s) + - ((DV s - S) * (DV s + S)))) by ring.
    eapply Rle_trans; [apply Rabs_triang|]. eapply Rle_trans; [apply Rplus_le_compat_l, Rabs_triang|]. rewrite !Rabs_Ropp, (Rabs_mult (DV s - S)).
    assert (K : Rabs (DV s + S) <= 2 / 10) by (eapply Rle_trans; [apply Rabs_triang|]; lra).
    assert (K2 : Rabs (DV s - S) * Rabs (DV s + S) <= 505 / 100 * vv * (2 / 10)) by (apply Rmult_le_compat; auto using Rabs_pos). lra. }
  assert (C1 := cos_near1 A ltac:(lra)). assert (SC : 1 - S * S = cos A * cos A). { assert (K := sin2_cos2 A). unfold Rsqr in K. unfold S. lra. }
  rewrite SC in ED. set (c := cos A) in *. assert (ED' := Rabs_def2' _ _ ED).
  assert (BD : 98 / 100 <= DV d <= 101 / 100) by nra.
  assert (HD := DNorm_val_rel d Nd). assert (HD2 := DNorm_hi_rel d Nd). rewrite (Rabs_pos_eq (DV d)) in HD2 by lra.
  assert (HD3 : Rabs (DV d - V (d0 d)) <= / 100) by lra. apply Rabs_def2' in HD3.
  destruct (d_sqrt_ok lm dbg d PR Nd) as (w & E & Nw & Ew).
  { split; [apply Rle_trans with (bp (-1)); [apply bpow_le; lia|cbn; lra]|apply Rle_trans with (bp 1); [cbn; lra|apply bpow_le; lia]]. }
  exists s, w. rewrite E. split; [reflexivity|]. split; [exact Ns|]. split; [exact Nw|]. split; [lra|].
  unfold approx in Ew. rewrite vv_bp in Ew. set (p := sqrt (DV d)) in *. assert (P0 : 0 <= p) by apply sqrt_pos. assert (PP : p * p = DV d) by (apply sqrt_sqrt; lra).
  assert (PC : Rabs (p - c) <= 37 / 10 * vv).
  { assert (K : Rabs (p - c) * Rabs (p + c) <= 72 / 10 * vv) by (rewrite <- Rabs_mult; replace ((p - c) * (p + c)) with (DV d - c * c) by (rewrite <- PP; ring); exact ED).
    rewrite (Rabs_pos_eq (p + c)) in K by lra. assert (K3 : 195 / 100 <= p + c). { assert (96 / 100 <= p); [|lra]. apply Rnot_lt_le. intros L. nra. }
    assert (K4 := Rabs_pos (p - c)). assert (Rabs (p - c) * (195 / 100) <= Rabs (p - c) * (p + c)) by (apply Rmult_le_compat_l; lra). lra. }
  rewrite (Rabs_pos_eq p) in Ew by exact P0. assert (p <= 1 + / 100) by (apply Rabs_def2' in PC; lra).
  replace (DV w - c) with ((DV w - p) + (p - c)) by ring. eapply Rle_trans; [apply Rabs_triang|]. lra.
Qed.

(** table entries *)
Lemma sines_norm i : (i < 4)%nat -> DNorm (nth i D_SINES D_ZERO) /\ DNorm (nth i D_COSINES D_ZERO).
Proof.
  intros H. assert (K1 : forallb dnormx D_SINES = true) by (vm_compute; reflexivity). assert (K2 : forallb dnormx D_COSINES = true) by (vm_compute; reflexivity).
  rewrite forallb_forall in K1, K2. split; apply dnormx_ok; [apply K1|apply K2]; apply nth_In; [rewrite (proj1 d_sines_ok)|rewrite (proj1 d_cosines_ok)]; exact H.
Qed.
Lemma entry_ok k : (-4 <= k <= 4)%Z -> k <> 0%Z -> exists u v, d_cos_sin_entry k = Val (u, v) /\ DNorm u /\ DNorm v /\
  Rabs (DV u - cos (IZR k * (PI / 16))) <= 4 * vv /\ Rabs (DV v - (if (k >? 0)%Z then sin (IZR k * (PI / 16)) else - sin (IZR k * (PI / 16)))) <= 29 / 10 * vv /\
  Rabs (sin (IZR k * (PI / 16))) <= 7072 / 10000.
Proof.
  intros H NZ. set (i := Z.to_nat (Z.abs k - 1)). assert (Hi : (i < 4)%nat) by (unfold i; lia).
  unfold d_cos_sin_entry. replace (Z.abs k <=? 4)%Z with true by (symmetry; apply Z.leb_le; lia). fold i.
  exists (nth i D_COSINES D_ZERO), (nth i D_SINES D_ZERO). split; [reflexivity|].
  destruct (sines_norm i Hi) as [N1 N2]. split; [exact N2|]. split; [exact N1|].
  assert (KS := proj2 d_sines_ok i Hi). assert (KC := proj2 d_cosines_ok i Hi). unfold approx in KS, KC.
  assert (IK : INR (i + 1) = IZR (Z.abs k)). { rewrite INR_IZR_INZ. f_equal. unfold i. lia. }
  rewrite IK in KS, KC. change (IZR 1) with 1 in KS, KC. rewrite Rmult_1_l in KS, KC. change (-104)%Z with (-106 + 2)%Z in KS, KC. rewrite bpow_plus, vv_bp in KS, KC. change (bp 2) with 4 in KS, KC.
  replace (IZR (Z.abs k) * PI / 16) with (IZR (Z.abs k) * (PI / 16)) in KS, KC by field.
  assert (PB := pi_b). assert (KB : 1 <= IZR (Z.abs k) <= 4) by (split; apply IZR_le; lia).
  set (th := IZR (Z.abs k) * (PI / 16)) in *. assert (TH : 0 <= th <= PI / 4) by (unfold th; split; [apply Rmult_le_pos; lra|]; replace (PI / 4) with (4 * (PI / 16)) by field; apply Rmult_le_compat_r; lra).
  assert (S4 : 0 <= sin th <= 7072 / 10000).
  { split; [apply sin_ge_0; lra|]. apply Rle_trans with (sin (PI / 4)).
    - destruct (proj2 TH) as [L|L]; [left; apply sin_increasing_1; lra|right; now rewrite L].
    - assert (P1 := sin_PI4). assert (P2 : sin (PI / 4) * sin (PI / 4) = / 2). { rewrite P1. unfold Rdiv. rewrite Rmult_1_l. rewrite <- Rinv_mult, sqrt_sqrt by lra. reflexivity. }
      apply Rnot_lt_le. intros L. nra. }
  assert (C4 : Rabs (cos th) <= 1) by (assert (K := COS_bound th); apply Rabs_le; lra).
  assert (EC : cos (IZR k * (PI / 16)) = cos th).
  { unfold th. destruct (Z_le_gt_dec 0 k) as [P|P]; [rewrite Z.abs_eq by exact P; reflexivity|]. rewrite Z.abs_neq, opp_IZR by lia. rewrite <- cos_neg. f_equal. ring. }
  assert (ESS : (if (k >? 0)%Z then sin (IZR k * (PI / 16)) else - sin (IZR k * (PI / 16))) = sin th).
  { unfold th. destruct (k >? 0)%Z eqn:P; [apply Z.gtb_lt in P; rewrite Z.abs_eq by lia; reflexivity|].
    assert (k < 0)%Z by (rewrite Z.gtb_ltb in P; apply Z.ltb_ge in P; lia). rewrite Z.abs_neq, opp_IZR by lia. rewrite <- sin_neg. f_equal. ring. }
  rewrite EC, ESS. split; [lra|]. split; [rewrite (Rabs_pos_eq (sin th)) in KS by lra; lra|].
  destruct (k >? 0)%Z; [rewrite ESS, Rabs_pos_eq; lra|]. rewrite <- Rabs_Ropp, ESS, Rabs_pos_eq; lra.
Qed.
(** ** the angle addition *)
Lemma prod_ok u x U X eu ex : DNorm u -> DNorm x -> Rabs U <= 1 -> Rabs X <= 1 -> 0 <= eu <= 40 -> 0 <= ex <= 40 ->
  Rabs (DV u - U) <= eu * vv -> Rabs (DV x - X) <= ex * vv ->
  DNorm (d_mul u x) /\ Rabs (DV (d_mul u x) - U * X) <= (1001 / 100 + eu + ex) * vv /\ Rabs (DV (d_mul u x)) <= 2.
Proof.
  intros Nu Nx BU BX Hu Hx Eu Ex. destruct tiny_le as [T0 T1].
  assert (eu * vv <= 40 * vv) by (apply Rmult_le_compat_r; lra). assert (ex * vv <= 40 * vv) by (apply Rmult_le_compat_r; lra).
  assert (Bu : Rabs (DV u) <= 11 / 10) by (assert (K := tri _ _ _ _ Eu BU); lra). assert (Bx : Rabs (DV x) <= 11 / 10) by (assert (K := tri _ _ _ _ Ex BX); lra).
  destruct (mul_abs u x Nu Nx) as [N E]; [apply b100; lra|apply b100; lra|]. split; [exact N|].
  assert (K := rel_prod _ _ _ _ _ _ Eu Ex). assert (PU := Rabs_pos U). assert (PX := Rabs_pos X).
  assert (K1 : eu * vv * Rabs X <= eu * vv) by (rewrite <- (Rmult_1_r (eu * vv)) at 2; apply Rmult_le_compat_l; [apply Rmult_le_pos; lra|lra]).
  assert (K2 : Rabs U * (ex * vv) <= ex * vv) by (rewrite <- (Rmult_1_l (ex * vv)) at 2; apply Rmult_le_compat_r; [apply Rmult_le_pos; lra|lra]).
  assert (K3 : eu * vv * (ex * vv) <= 40 * vv * (40 * vv)) by (apply Rmult_le_compat; lra || (apply Rmult_le_pos; lra)).
  assert (K4 : Rabs (DV u * DV x - U * X) <= eu * vv + ex * vv + / 10000 * vv) by lra.
  assert (UX : Rabs (U * X) <= 1) by (rewrite Rabs_mult, <- (Rmult_1_l 1); apply Rmult_le_compat; lra).
  assert (K5 := tri _ _ _ _ K4 UX).
  assert (K6 : Rabs (DV (d_mul u x) - U * X) <= (1001 / 100 + eu + ex) * vv).
  { replace (DV (d_mul u x) - U * X) with ((DV (d_mul u x) - DV u * DV x) + (DV u * DV x - U * X)) by ring. eapply Rle_trans; [apply Rabs_triang|]. lra. }
  split; [exact K6|]. assert (K7 := tri _ _ _ _ K6 UX). lra.
Qed.
Lemma comb_add u x v y U X V Y eu ex ev ey : DNorm u -> DNorm x -> DNorm v -> DNorm y -> Rabs U <= 1 -> Rabs X <= 1 -> Rabs V <= 1 -> Rabs Y <= 1 ->
  0 <= eu <= 40 -> 0 <= ex <= 40 -> 0 <= ev <= 40 -> 0 <= ey <= 40 -> eu + ex + ev + ey <= 49 ->
  Rabs (DV u - U) <= eu * vv -> Rabs (DV x - X) <= ex * vv -> Rabs (DV v - V) <= ev * vv -> Rabs (DV y - Y) <= ey * vv ->
  (DNorm (d_add (d_mul u x) (d_mul v y)) /\ Rabs (DV (d_add (d_mul u x) (d_mul v y)) - (U * X + V * Y)) <= 815 / 10 * vv) /\
  (DNorm (d_sub (d_mul u x) (d_mul v y)) /\ Rabs (DV (d_sub (d_mul u x) (d_mul v y)) - (U * X - V * Y)) <= 815 / 10 * vv).
Proof.
  intros Nu Nx Nv Ny BU BX BV BY Hu Hx Hv Hy HS Eu Ex Ev Ey.
  destruct (prod_ok u x U X eu ex Nu Nx BU BX Hu Hx Eu Ex) as (N1 & E1 & B1). destruct (prod_ok v y V Y ev ey Nv Ny BV BY Hv Hy Ev Ey) as (N2 & E2 & B2).
  set (p := d_mul u x) in *. set (q := d_mul v y) in *. clearbody p q.
  assert (UX : Rabs (U * X) <= 1) by (rewrite Rabs_mult, <- (Rmult_1_l 1); apply Rmult_le_compat; auto using Rabs_pos).
  assert (VY : Rabs (V * Y) <= 1) by (rewrite Rabs_mult, <- (Rmult_1_l 1); apply Rmult_le_compat; auto using Rabs_pos).
  set (a := U * X) in *. set (b := V * Y) in *. clearbody a b.
  assert (SM : (1001 / 100 + eu + ex) * vv + (1001 / 100 + ev + ey) * vv <= 6903 / 100 * vv).
  { rewrite <- Rmult_plus_distr_r. apply Rmult_le_compat_r; lra. }
  set (w1 := (1001 / 100 + eu + ex) * vv) in *. set (w2 := (1001 / 100 + ev + ey) * vv) in *. clearbody w1 w2.
  assert (E1' := Rabs_def2' _ _ E1). assert (E2' := Rabs_def2' _ _ E2). apply Rabs_def2' in UX, VY.
  split.
  - destruct (add_abs p q N1 N2) as [N E]; [apply b100; lra|apply b100; lra|]. split; [exact N|].
    assert (S : Rabs (DV p + DV q) <= 201 / 100) by (apply Rabs_le; lra). assert (E' : Rabs (DV (d_add p q) - (DV p + DV q)) <= 6 * vv * (201 / 100)) by lra.
    apply Rabs_def2' in E'. apply Rabs_le. lra.
  - destruct (sub_abs p q N1 N2) as [N E]; [apply b100; lra|apply b100; lra|]. split; [exact N|].
    assert (S : Rabs (DV p - DV q) <= 201 / 100) by (apply Rabs_le; lra). assert (E' : Rabs (DV (d_sub p q) - (DV p - DV q)) <= 6 * vv * (201 / 100)) by lra.
    apply Rabs_def2' in E'. apply Rabs_le. lra.
Qed.
Lemma neg_ok x X e : DNorm x -> Rabs (DV x - X) <= e -> DNorm (d_neg x) /\ Rabs (DV (d_neg x) - - X) <= e.
Proof.
  intros N H. destruct (d_neg_val x) as [E K]. split; [now apply K|]. rewrite E. replace (- DV x - - X) with (- (DV x - X)) by ring. now rewrite Rabs_Ropp.
Qed.
Definition trig_bound (A : R) : R := (15 * Rabs A + 480) * bp (-106).
Lemma trig_fin y F Ft A B : (forall x z, Rabs (F x - F z) <= Rabs (x - z)) -> Rabs (A - B) <= (1402 / 100 * Rabs A + 395) * vv -> F B = Ft -> Rabs (DV y - Ft) <= 815 / 10 * vv ->
  Rabs (DV y - F A) <= trig_bound A.
Proof.
  intros L H E K. assert (L1 := L A B). rewrite E in L1. unfold trig_bound. rewrite vv_bp.
  replace (DV y - F A) with ((DV y - Ft) + - (F A - Ft)) by ring. eapply Rle_trans; [apply Rabs_triang|]. rewrite Rabs_Ropp. assert (P := Rabs_pos A). lra.
Qed.
Lemma pre_none a : DNorm a -> DV a <> 0 -> d_is_zero a = false /\ d_is_finite a = true.
Proof.
  intros N H. split.
  - destruct (d_is_zero a) eqn:Z; [|reflexivity]. exfalso. apply H. now apply d_is_zero_DV.
  - apply (proj1 (proj1 N)).
Qed.
Lemma nz_of a : bp (-700) <= Rabs (DV a) -> DV a <> 0.
Proof. intros H E. rewrite E, Rabs_R0 in H. assert (P := bpow_gt_0 radix2 (-700)). lra. Qed.
Lemma sc1 x : Rabs (sin x) <= 1 /\ Rabs (cos x) <= 1.
Proof. assert (A := SIN_bound x). assert (B := COS_bound x). split; apply Rabs_le; lra. Qed.

(** the four combinations that occur *)
Section Combos.
Variables (lm : libm) (dbg : bool).
Hypothesis PR : printer lm.
Lemma combos k t : DNorm t -> Rabs (DV t) <= 985 / 10000 -> (-4 <= k <= 4)%Z -> k <> 0%Z ->
  exists u v s c, d_cos_sin_entry k = Val (u, v) /\ d_sincos_taylor lm dbg t = Val (s, c) /\
   let ok (r : Double) (y : R) := DNorm r /\ Rabs (DV r - y) <= 815 / 10 * vv in
   let g := (k >? 0)%Z in
   ok (if g then d_add (d_mul u s) (d_mul v c) else d_sub (d_mul u s) (d_mul v c)) (sin (DV t + IZR k * (PI / 16))) /\
   ok (if g then d_sub (d_mul u c) (d_mul v s) else d_add (d_mul u c) (d_mul v s)) (cos (DV t + IZR k * (PI / 16))) /\
   ok (if g then d_sub (d_mul (d_neg u) s) (d_mul v c) else d_add (d_mul (d_neg u) s) (d_mul v c)) (- sin (DV t + IZR k * (PI / 16))) /\
   ok (if g then d_add (d_mul (d_neg u) c) (d_mul v s) else d_sub (d_mul (d_neg u) c) (d_mul v s)) (- cos (DV t + IZR k * (PI / 16))) /\
   (g = false -> ok (d_sub (d_mul v c) (d_mul u s)) (- sin (DV t + IZR k * (PI / 16)))).
Proof.
  intros Nt Bt Hk NZ. destruct (entry_ok k Hk NZ) as (u & v & E1 & Nu & Nv & Eu & Ev & _). destruct (sincos_ok lm dbg t PR Nt Bt) as (s & c & E2 & Ns & Nc & Es & Ec).
  exists u, v, s, c. split; [exact E1|]. split; [exact E2|]. cbv zeta.
  destruct (sc1 (DV t)) as [b1 b2]. destruct (sc1 (IZR k * (PI / 16))) as [b3 b4].
  rewrite sin_plus, cos_plus. set (S := sin (DV t)) in *. set (C := cos (DV t)) in *. set (sg := sin (IZR k * (PI / 16))) in *. set (ka := cos (IZR k * (PI / 16))) in *.
  destruct (neg_ok u ka _ Nu Eu) as [Nn En].
  destruct (k >? 0)%Z.
  - destruct (comb_add u s v c ka S sg C 4 (51 / 10) (29 / 10) 37) as [[A1 A2] [A3 A4]]; auto; try lra.
    destruct (comb_add u c v s ka C sg S 4 37 (29 / 10) (51 / 10)) as [[B1 B2] [B3 B4]]; auto; try lra.
    destruct (comb_add (d_neg u) s v c (- ka) S sg C 4 (51 / 10) (29 / 10) 37) as [[C1 C2] [C3 C4]]; auto; try lra; [now rewrite Rabs_Ropp|].
    destruct (comb_add (d_neg u) c v s (- ka) C sg S 4 37 (29 / 10) (51 / 10)) as [[D1 D2] [D3 D4]]; auto; try lra; [now rewrite Rabs_Ropp|].
    split; [split; [exact A1|]|split; [split; [exact B3|]|split; [split; [exact C3|]|split; [split; [exact D1|]|intros; discriminate]]]].
    + replace (S * ka + C * sg) with (ka * S + sg * C) by ring. exact A2.
    + replace (C * ka - S * sg) with (ka * C - sg * S) by ring. exact B4.
    + replace (- (S * ka + C * sg)) with (- ka * S - sg * C) by ring. exact C4.
    + replace (- (C * ka - S * sg)) with (- ka * C + sg * S) by ring. exact D2.
  - assert (b3' : Rabs (- sg) <= 1) by now rewrite Rabs_Ropp.
    destruct (comb_add u s v c ka S (- sg) C 4 (51 / 10) (29 / 10) 37) as [[A1 A2] [A3 A4]]; auto; try lra.
    destruct (comb_add u c v s ka C (- sg) S 4 37 (29 / 10) (51 / 10)) as [[B1 B2] [B3 B4]]; auto; try lra.
    destruct (comb_add (d_neg u) s v c (- ka) S (- sg) C 4 (51 / 10) (29 / 10) 37) as [[C1 C2] [C3 C4]]; auto; try lra; [now rewrite Rabs_Ropp|].
    destruct (comb_add (d_neg u) c v s (- ka) C (- sg) S 4 37 (29 / 10) (51 / 10)) as [[D1 D2] [D3 D4]]; auto; try lra; [now rewrite Rabs_Ropp|].
    destruct (comb_add v c u s (- sg) C ka S (29 / 10) 37 4 (51 / 10)) as [_ [F3 F4]]; auto; try lra.
    split; [split; [exact A3|]|split; [split; [exact B1|]|split; [split; [exact C1|]|split; [split; [exact D3|]|intros _; split; [exact F3|]]]]].
    + replace (S * ka + C * sg) with (ka * S - - sg * C) by ring. exact A4.
    + replace (C * ka - S * sg) with (ka * C + - sg * S) by ring. exact B2.
    + replace (- (S * ka + C * sg)) with (- ka * S + - sg * C) by ring. exact C2.
    + replace (- (C * ka - S * sg)) with (- ka * C - - sg * S) by ring. exact D4.
    + replace (- (S * ka + C * sg)) with (- sg * C - ka * S) by ring. exact F4.
Qed.

Lemma k0 t : DV t + IZR 0 * (PI / 16) = DV t. Proof. ring. Qed.
Lemma d_sin_ok a : DNorm a -> bp (-700) <= Rabs (DV a) <= bp 40 ->
  exists r, d_sin lm dbg a = Val r /\ DNorm r /\ Rabs (DV r - sin (DV a)) <= trig_bound (DV a).
Proof.
  intros N H. destruct (pre_none a N (nz_of a (proj1 H))) as [Z F]. destruct (reduce_ok a N H) as (z & j & k & t & RD & Nt & Bt & TJ & TK & ER & _).
  unfold d_sin, d_pre_sin. rewrite Z, F. cbn [negb]. rewrite RD.
  replace (DV t + IZR z * (2 * PI) + IZR j * (PI / 2) + IZR k * (PI / 16)) with (DV t + IZR k * (PI / 16) + IZR z * (2 * PI) + IZR j * (PI / 2)) in ER by ring.
  assert (ST := sin_turns (DV t + IZR k * (PI / 16)) j z TJ).
  assert (FIN : forall y, DNorm y -> Rabs (DV y - (if (j =? 0)%Z then sin (DV t + IZR k * (PI / 16)) else if (j =? 1)%Z then cos (DV t + IZR k * (PI / 16)) else if (j =? -1)%Z then - cos (DV t + IZR k * (PI / 16)) else - sin (DV t + IZR k * (PI / 16)))) <= 815 / 10 * vv ->
    exists r, Val y = Val r /\ DNorm r /\ Rabs (DV r - sin (DV a)) <= trig_bound (DV a)).
  { intros y Ny Ey. exists y. split; [reflexivity|]. split; [exact Ny|]. eapply trig_fin; [exact sin_lip|exact ER|exact ST|exact Ey]. }
  destruct tiny_le as [T0 T1].
  destruct (k =? 0)%Z eqn:K.
  - apply Z.eqb_eq in K. rewrite K, k0 in FIN.
    destruct (sin_taylor_ok t Nt ltac:(lra)) as [Ns Es]. destruct (cos_taylor_ok t Nt ltac:(lra)) as [Nc Ec]. assert (PA := Rabs_pos (DV t)).
    destruct (neg_ok _ _ _ Ns Es) as [Ns' Es']. destruct (neg_ok _ _ _ Nc Ec) as [Nc' Ec'].
    apply FIN; destruct (j =? 0)%Z; auto; try lra; destruct (j =? 1)%Z; auto; try lra; destruct (j =? -1)%Z; auto; lra.
  - apply Z.eqb_neq in K. destruct (combos k t Nt Bt TK K) as (u & v & s & c & E1 & E2 & [C1 C1'] & [C2 C2'] & [C3 C3'] & [C4 C4'] & _). rewrite E1, E2. cbn [obind].
    destruct (k >? 0)%Z; apply FIN; destruct (j =? 0)%Z; auto; destruct (j =? 1)%Z; auto; destruct (j =? -1)%Z; auto.
Qed.
Lemma d_cos_ok a : DNorm a -> bp (-700) <= Rabs (DV a) <= bp 40 ->
  exists r, d_cos lm dbg a = Val r /\ DNorm r /\ Rabs (DV r - cos (DV a)) <= trig_bound (DV a).
Proof.
  intros N H. destruct (pre_none a N (nz_of a (proj1 H))) as [Z F]. destruct (reduce_ok a N H) as (z & j & k & t & RD & Nt & Bt & TJ & TK & ER & _).
  unfold d_cos, d_pre_cos. rewrite Z, F. cbn [negb]. rewrite RD.
  replace (DV t + IZR z * (2 * PI) + IZR j * (PI / 2) + IZR k * (PI / 16)) with (DV t + IZR k * (PI / 16) + IZR z * (2 * PI) + IZR j * (PI / 2)) in ER by ring.
  assert (ST := cos_turns (DV t + IZR k * (PI / 16)) j z TJ).
  assert (FIN : forall y, DNorm y -> Rabs (DV y - (if (j =? 0)%Z then cos (DV t + IZR k * (PI / 16)) else if (j =? 1)%Z then - sin (DV t + IZR k * (PI / 16)) else if (j =? -1)%Z then sin (DV t + IZR k * (PI / 16)) else - cos (DV t + IZR k * (PI / 16)))) <= 815 / 10 * vv ->
    exists r, Val y = Val r /\ DNorm r /\ Rabs (DV r - cos (DV a)) <= trig_bound (DV a)).
  { intros y Ny Ey. exists y. split; [reflexivity|]. split; [exact Ny|]. eapply trig_fin; [exact cos_lip|exact ER|exact ST|exact Ey]. }
  destruct tiny_le as [T0 T1].
  destruct (k =? 0)%Z eqn:K.
  - apply Z.eqb_eq in K. rewrite K, k0 in FIN.
    destruct (sin_taylor_ok t Nt ltac:(lra)) as [Ns Es]. destruct (cos_taylor_ok t Nt ltac:(lra)) as [Nc Ec]. assert (PA := Rabs_pos (DV t)).
    destruct (neg_ok _ _ _ Ns Es) as [Ns' Es']. destruct (neg_ok _ _ _ Nc Ec) as [Nc' Ec'].
    apply FIN; destruct (j =? 0)%Z; auto; try lra; destruct (j =? 1)%Z; auto; try lra; destruct (j =? -1)%Z; auto; lra.
  - apply Z.eqb_neq in K. destruct (combos k t Nt Bt TK K) as (u & v & s & c & E1 & E2 & [C1 C1'] & [C2 C2'] & [C3 C3'] & [C4 C4'] & C5). rewrite E1, E2. cbn [obind].
    destruct (k >? 0)%Z; [|destruct (C5 eq_refl) as [C6 C6']]; apply FIN; destruct (j =? 0)%Z; auto; destruct (j =? 1)%Z; auto; destruct (j =? -1)%Z; auto.
Qed.
Lemma d_sin_cos_ok a : DNorm a -> bp (-700) <= Rabs (DV a) <= bp 40 ->
  exists s c, d_sin_cos lm dbg a = Val (s, c) /\ DNorm s /\ DNorm c /\ Rabs (DV s - sin (DV a)) <= trig_bound (DV a) /\ Rabs (DV c - cos (DV a)) <= trig_bound (DV a).
Proof.
  intros N H. destruct (pre_none a N (nz_of a (proj1 H))) as [Z F]. destruct (reduce_ok a N H) as (z & j & k & t & RD & Nt & Bt & TJ & TK & ER & _).
  unfold d_sin_cos, d_pre_sin_cos. rewrite Z, F. cbn [negb]. rewrite RD.
  replace (DV t + IZR z * (2 * PI) + IZR j * (PI / 2) + IZR k * (PI / 16)) with (DV t + IZR k * (PI / 16) + IZR z * (2 * PI) + IZR j * (PI / 2)) in ER by ring.
  assert (ST := sin_turns (DV t + IZR k * (PI / 16)) j z TJ). assert (CT := cos_turns (DV t + IZR k * (PI / 16)) j z TJ).
  set (S := sin (DV t + IZR k * (PI / 16))) in *. set (C := cos (DV t + IZR k * (PI / 16))) in *.
  assert (FIN : forall s c, DNorm s -> DNorm c -> Rabs (DV s - S) <= 815 / 10 * vv -> Rabs (DV c - C) <= 815 / 10 * vv ->
    exists s' c', Val (if (j =? 0)%Z then (s, c) else if (j =? 1)%Z then (c, d_neg s) else if (j =? -1)%Z then (d_neg c, s) else (d_neg s, d_neg c)) = Val (s', c') /\ DNorm s' /\ DNorm c' /\
      Rabs (DV s' - sin (DV a)) <= trig_bound (DV a) /\ Rabs (DV c' - cos (DV a)) <= trig_bound (DV a)).
  { intros s c Ns Nc Es Ec. destruct (neg_ok _ _ _ Ns Es) as [Ns' Es']. destruct (neg_ok _ _ _ Nc Ec) as [Nc' Ec'].
    destruct (j =? 0)%Z; [|destruct (j =? 1)%Z; [|destruct (j =? -1)%Z]]; eexists; eexists; (split; [reflexivity|]); (split; [assumption|]); (split; [assumption|]);
      (split; [eapply trig_fin; [exact sin_lip|exact ER|exact ST|assumption]|eapply trig_fin; [exact cos_lip|exact ER|exact CT|assumption]]). }
  destruct (k =? 0)%Z eqn:K.
  - apply Z.eqb_eq in K. destruct (sincos_ok lm dbg t PR Nt Bt) as (s & c & E2 & Ns & Nc & Es & Ec). rewrite E2. cbn [obind].
    unfold S, C in FIN. rewrite K, k0 in FIN. apply FIN; auto; lra.
  - apply Z.eqb_neq in K. destruct (combos k t Nt Bt TK K) as (u & v & s & c & E1 & E2 & [C1 C1'] & [C2 C2'] & _). rewrite E1, E2. cbn [obind].
    fold S in C1'. fold C in C2'. destruct (k >? 0)%Z; cbn [obind]; apply FIN; auto.
Qed.
End Combos.
(** ** small arguments: relative accuracy *)
Lemma sin_lower x : Rabs x <= / 10 -> 998 / 1000 * Rabs x <= Rabs (sin x).
Proof.
  intros H. assert (K := sin_rem x 0 ltac:(lra)). assert (K2 := sin_term_next x 1 H). assert (K3 := sin_term_next x 0 H).
  assert (T0 : sin_term x 0 = x) by (unfold sin_term; cbn; field). rewrite T0 in K3.
  assert (SA : sin_approx x 1 = x + sin_term x 1) by (unfold sin_approx; cbn [sum_f_R0]; rewrite T0; reflexivity). rewrite SA in K.
  assert (T1 : Rabs (sin_term x 1) <= / 600 * Rabs x).
  { unfold sin_term. cbn [Nat.mul Nat.add pow fact]. replace (INR 6) with 6 by (cbn; lra). replace (-1 * 1 * (x * (x * (x * 1)) / 6)) with (- (x * (x * x)) / 6) by field.
    unfold Rdiv. rewrite Rabs_mult, Rabs_Ropp, !Rabs_mult, (Rabs_pos_eq (/ 6)) by lra. assert (P := Rabs_pos x). assert (Rabs x * Rabs x <= / 100) by nra.
    replace (/ 600 * Rabs x) with (Rabs x * / 100 * / 6) by field. apply Rmult_le_compat_r; [lra|]. apply Rmult_le_compat_l; lra. }
  assert (P := Rabs_pos x). replace x with (- (sin x - (x + sin_term x 1)) + - sin_term x 1 + sin x) at 1 by ring.
  assert (K4 : Rabs (- (sin x - (x + sin_term x 1)) + - sin_term x 1 + sin x) <= / 200 * Rabs (sin_term x 1) + Rabs (sin_term x 1) + Rabs (sin x)).
  { eapply Rle_trans; [apply Rabs_triang|]. apply Rplus_le_compat_r. eapply Rle_trans; [apply Rabs_triang|]. rewrite !Rabs_Ropp. lra. }
  replace (- (sin x - (x + sin_term x 1)) + - sin_term x 1 + sin x) with x in K4 |- * by ring. lra.
Qed.
Lemma tiny_A A : bp (-700) <= Rabs A -> tiny <= / 1000000 * vv * Rabs A.
Proof.
  intros L. apply Rle_trans with (/ 1000000 * vv * bp (-700)); [|apply Rmult_le_compat_l; lra]. apply Rle_trans with (bp (-20) * vv * bp (-700)).
  - rewrite <- vv_bp, <- !bpow_plus. apply bpow_le. lia.
  - apply Rmult_le_compat_r; [apply bpow_ge_0|]. apply Rmult_le_compat_r; [lra|]. change (bp (-20)) with (/ 1048576). lra.
Qed.
Lemma sin_rel_small t A : DNorm t -> bp (-700) <= Rabs A <= 98 / 1000 -> Rabs (DV t - A) <= 181 / 10 * vv * Rabs A ->
  Rabs (DV (d_sin_taylor t) - sin A) <= 693 / 10 * vv * Rabs A.
Proof.
  intros N [L U] H. assert (TT := tiny_A A L). assert (P := Rabs_pos A).
  assert (Bt : Rabs (DV t) <= (1 + / 1000000) * Rabs A). { assert (K := tri _ _ _ _ H (Rle_refl _)). lra. }
  destruct (sin_taylor_ok t N ltac:(lra)) as [_ E]. assert (K := sin_lip (DV t) A).
  replace (DV (d_sin_taylor t) - sin A) with ((DV (d_sin_taylor t) - sin (DV t)) + (sin (DV t) - sin A)) by ring. eapply Rle_trans; [apply Rabs_triang|]. lra.
Qed.
Lemma d_sin_small_ok lm dbg a : DNorm a -> bp (-700) <= Rabs (DV a) <= 98 / 1000 ->
  exists r, d_sin lm dbg a = Val r /\ DNorm r /\ approx (DV r) (sin (DV a)) 70 (-106).
Proof.
  intros N [L U]. assert (U40 : Rabs (DV a) <= bp 40). { apply Rle_trans with (1 := U). apply Rle_trans with 1; [lra|]. change 1 with (bp 0). apply bpow_le. lia. }
  destruct (pre_none a N (nz_of a L)) as [Z F]. destruct (reduce_ok a N (conj L U40)) as (z & j & k & t & RD & Nt & Bt & _ & _ & _ & SM).
  destruct (SM U) as (-> & -> & -> & ET).
  unfold d_sin, d_pre_sin. rewrite Z, F. cbn [negb]. rewrite RD. cbn [Z.eqb]. exists (d_sin_taylor t). split; [reflexivity|].
  split; [apply sin_taylor_ok; [exact Nt|lra]|]. unfold approx. rewrite vv_bp.
  assert (K2 : 998 / 1000 * Rabs (DV a) <= Rabs (sin (DV a))) by (apply sin_lower; clear - U; lra).
  assert (K := sin_rel_small t (DV a) Nt (conj L U) ET). assert (PA := Rabs_pos (DV a)). clear - K K2 PA. lra.
Qed.
(** ** quotients *)
Lemma quot_rel s c S C E F : DNorm s -> DNorm c -> Rabs (DV s - S) <= E -> Rabs (DV c - C) <= F -> 0 <= E -> 0 <= F -> C <> 0 -> F <= / 1000 * Rabs C -> E <= / 1000 * Rabs S ->
  bp (-710) <= Rabs S <= 2 -> bp (-100) <= Rabs C <= 2 ->
  DNorm (d_div s c) /\ Rabs (DV (d_div s c) - S / C) <= 1002 / 1000 * (E / Rabs C + F / Rabs C * Rabs (S / C)) + 161 / 10 * vv * Rabs (S / C).
Proof.
  intros Ns Nc Es Ec E0 F0 CZ FC ES BS BC. assert (PS := Rabs_pos S). assert (PC := Rabs_pos C). assert (P7 := bpow_gt_0 radix2 (-710)). assert (P1 := bpow_gt_0 radix2 (-100)).
  assert (Ls := tri2 _ _ _ _ Es (Rle_refl _)). assert (Lc := tri2 _ _ _ _ Ec (Rle_refl _)). assert (Us := tri _ _ _ _ Es (Rle_refl _)). assert (Uc := tri _ _ _ _ Ec (Rle_refl _)).
  assert (Hs := DNorm_hi_rel s Ns). assert (Hc := DNorm_hi_rel c Nc). assert (Hs2 := DNorm_val_rel s Ns). assert (Hc2 := DNorm_val_rel c Nc).
  assert (Gs : Rabs (DV s) <= Rabs (DV s - V (d0 s)) + Rabs (V (d0 s))) by (replace (DV s) with (DV s - V (d0 s) + V (d0 s)) at 1 by ring; apply Rabs_triang).
  assert (Gc : Rabs (DV c) <= Rabs (DV c - V (d0 c)) + Rabs (V (d0 c))) by (replace (DV c) with (DV c - V (d0 c) + V (d0 c)) at 1 by ring; apply Rabs_triang).
  set (hs := Rabs (V (d0 s))) in *. set (hc := Rabs (V (d0 c))) in *.
  assert (HS : 99 / 100 * Rabs S <= hs <= 101 / 100 * Rabs S) by lra. assert (HC : 99 / 100 * Rabs C <= hc <= 101 / 100 * Rabs C) by lra.
  assert (HC0 : 0 < hc) by lra. assert (VC0 : V (d0 c) <> 0) by (intros Q; unfold hc in HC0; rewrite Q, Rabs_R0 in HC0; lra).
  destruct (d_div_ok s c Ns Nc VC0) as [N D].
  { right. assert (DQ : Rabs (V (d0 s) / V (d0 c)) = hs * / hc) by (unfold Rdiv; rewrite Rabs_mult, Rabs_inv by exact VC0; reflexivity). rewrite DQ. fold hs.
    assert (I1 : / 3 <= / hc) by (apply Rinv_le_contravar; lra).
    assert (I2 : / hc <= bp 102). { replace (bp 102) with (/ bp (-102)) by (rewrite <- bpow_opp; reflexivity). apply Rinv_le_contravar; [apply bpow_gt_0|]. assert (bp (-100) = 4 * bp (-102)) by exact (bp_split (-102) 2 ltac:(lia)). assert (G := bpow_gt_0 radix2 (-102)). lra. }
    assert (B9 : bp (-900) <= bp (-710) / 1000). { apply Rle_trans with (bp (-720)); [apply bpow_le; lia|]. assert (K : bp (-710) = 1024 * bp (-720)) by exact (bp_split (-720) 10 ltac:(lia)). assert (K2 := bpow_gt_0 radix2 (-720)). lra. }
    assert (B10 : 100 * bp 102 <= bp 1010) by (apply Rle_trans with (bp 110); [replace (bp 110) with (256 * bp 102) by (symmetry; exact (bp_split 102 8 ltac:(lia))); assert (G := bpow_gt_0 radix2 102); lra|apply bpow_le; lia]).
    assert (G1 : 1 <= bp 102) by (change 1 with (bp 0); apply bpow_le; lia).
    assert (Q1 : hs * / 3 <= hs * / hc) by (apply Rmult_le_compat_l; lra). assert (Q2 : hs * / hc <= 3 * bp 102) by (apply Rmult_le_compat; lra). lra. }
  split; [exact N|]. unfold approx in D. rewrite vv_bp in D.
  assert (DC0 : 0 < Rabs (DV c)) by lra. assert (DCZ : DV c <> 0) by (intros Q; rewrite Q, Rabs_R0 in DC0; lra).
  set (q := DV s / DV c) in *. set (Q := S / C) in *.
  assert (QE : Rabs (q - Q) <= 1002 / 1000 * (E / Rabs C + F / Rabs C * Rabs Q)).
  { replace (q - Q) with (((DV s - S) - (DV c - C) * Q) / DV c) by (unfold q, Q; field; auto). unfold Rdiv at 1. rewrite Rabs_mult, Rabs_inv by exact DCZ.
    assert (K1 : Rabs (DV s - S - (DV c - C) * Q) <= E + F * Rabs Q). { unfold Rminus at 1. eapply Rle_trans; [apply Rabs_triang|]. rewrite Rabs_Ropp, Rabs_mult. apply Rplus_le_compat; [exact Es|]. apply Rmult_le_compat_r; [apply Rabs_pos|exact Ec]. }
    assert (K2 : / Rabs (DV c) <= 1002 / 1000 * / Rabs C).
    { replace (1002 / 1000 * / Rabs C) with (/ (1000 / 1002 * Rabs C)) by (field; lra). apply Rinv_le_contravar; lra. }
    replace (1002 / 1000 * (E / Rabs C + F / Rabs C * Rabs Q)) with ((E + F * Rabs Q) * (1002 / 1000 * / Rabs C)) by (unfold Rdiv; ring).
    apply Rmult_le_compat; [apply Rabs_pos|left; now apply Rinv_0_lt_compat|exact K1|exact K2]. }
  assert (PQ := Rabs_pos Q).
  assert (QB : Rabs q <= 1005 / 1000 * Rabs Q).
  { assert (SC : Rabs S / Rabs C = Rabs Q) by (unfold Q, Rdiv; rewrite Rabs_mult, Rabs_inv by exact CZ; reflexivity).
    assert (K1 : E / Rabs C <= / 1000 * Rabs Q). { rewrite <- SC. unfold Rdiv. rewrite <- Rmult_assoc. apply Rmult_le_compat_r; [left; apply Rinv_0_lt_compat; lra|exact ES]. }
    assert (K2 : F / Rabs C <= / 1000). { apply Rmult_le_reg_r with (Rabs C); [lra|]. unfold Rdiv. rewrite Rmult_assoc, Rinv_l, Rmult_1_r by lra. exact FC. }
    assert (K3 : F / Rabs C * Rabs Q <= / 1000 * Rabs Q) by (apply Rmult_le_compat_r; [exact PQ|exact K2]).
    assert (K4 := tri _ _ _ _ QE (Rle_refl _)). lra. }
  replace (DV (d_div s c) - Q) with ((DV (d_div s c) - q) + (q - Q)) by ring. eapply Rle_trans; [apply Rabs_triang|]. lra.
Qed.
Lemma trig_pos A : 480 * vv <= trig_bound A.
Proof. unfold trig_bound. rewrite vv_bp. assert (P := Rabs_pos A). lra. Qed.
Lemma d_tan_ok lm dbg a : printer lm -> DNorm a -> bp (-700) <= Rabs (DV a) <= bp 40 -> 1000 * trig_bound (DV a) <= Rabs (cos (DV a)) -> 1000 * trig_bound (DV a) <= Rabs (sin (DV a)) ->
  exists r, d_tan lm dbg a = Val r /\ DNorm r /\ Rabs (DV r - tan (DV a)) <= 105 / 100 * (trig_bound (DV a) / Rabs (cos (DV a))) * (1 + Rabs (tan (DV a))).
Proof.
  intros PR N H HC HS. destruct (d_sin_cos_ok lm dbg PR a N H) as (s & c & E & Ns & Nc & Es & Ec).
  unfold d_tan. rewrite E. cbn [obind]. exists (d_div s c). split; [reflexivity|].
  assert (TP := trig_pos (DV a)). destruct (sc1 (DV a)) as [b1 b2]. set (S := sin (DV a)) in *. set (C := cos (DV a)) in *. set (B := trig_bound (DV a)) in *. clearbody B.
  assert (B100 : bp (-100) <= 64 * vv). { rewrite <- vv_bp. right. exact (bp_split (-106) 6 ltac:(lia)). } assert (B710 : bp (-710) <= bp (-100)) by (apply bpow_le; lia).
  assert (CZ : C <> 0) by (intros Q; rewrite Q, Rabs_R0 in HC; lra).
  destruct (quot_rel s c S C B B Ns Nc Es Ec ltac:(lra) ltac:(lra) CZ ltac:(lra) ltac:(lra) ltac:(lra) ltac:(lra)) as [N1 E1]. split; [exact N1|].
  change (tan (DV a)) with (S / C). set (T := Rabs (S / C)) in *. assert (T0 : 0 <= T) by apply Rabs_pos.
  eapply Rle_trans; [exact E1|].
  assert (BC : 480 * vv <= B / Rabs C). { apply Rle_trans with (B * 1); [lra|]. unfold Rdiv. apply Rmult_le_compat_l; [lra|]. rewrite <- Rinv_1. apply Rinv_le_contravar; [lra|exact b2]. }
  set (w := B / Rabs C) in *. clearbody w. assert (161 / 10 * vv * T <= 4 / 100 * w * T) by (apply Rmult_le_compat_r; lra). assert (0 <= w * T) by (apply Rmult_le_pos; lra). lra.
Qed.
Lemma d_tan_small_ok lm dbg a : printer lm -> DNorm a -> bp (-700) <= Rabs (DV a) <= 98 / 1000 ->
  exists r, d_tan lm dbg a = Val r /\ DNorm r /\ approx (DV r) (tan (DV a)) 126 (-106).
Proof.
  intros PR N [L U]. assert (U40 : Rabs (DV a) <= bp 40). { apply Rle_trans with (1 := U). apply Rle_trans with 1; [lra|]. change 1 with (bp 0). apply bpow_le. lia. }
  destruct (pre_none a N (nz_of a L)) as [Z F]. destruct (reduce_ok a N (conj L U40)) as (z & j & k & t & RD & Nt & Bt & _ & _ & _ & SM).
  destruct (SM U) as (-> & -> & -> & ET). assert (PA := Rabs_pos (DV a)).
  unfold d_tan, d_sin_cos, d_pre_sin_cos. rewrite Z, F. cbn [negb]. rewrite RD.
  assert (TZ : d_is_zero t = false).
  { destruct (d_is_zero t) eqn:TZ; [|reflexivity]. apply d_is_zero_DV in TZ; auto. rewrite TZ, Rminus_0_l, Rabs_Ropp in ET. assert (P := bpow_gt_0 radix2 (-700)). lra. }
  destruct (sincos_ok lm dbg t PR Nt Bt) as (s & c & E2 & Ns & Nc & _ & Ec). rewrite E2. cbn [obind Z.eqb].
  assert (SE : s = d_sin_taylor t). { unfold d_sincos_taylor in E2. rewrite TZ in E2. cbv zeta in E2. destruct (d_sqrt lm dbg (d_sub D_ONE (d_sqr (d_sin_taylor t)))); cbn [obind] in E2; [|discriminate]. congruence. }
  exists (d_div s c). split; [reflexivity|].
  assert (Es := sin_rel_small t (DV a) Nt (conj L U) ET). rewrite <- SE in Es.
  assert (Ec' : Rabs (DV c - cos (DV a)) <= 39 * vv). { assert (K := cos_lip (DV t) (DV a)). replace (DV c - cos (DV a)) with ((DV c - cos (DV t)) + (cos (DV t) - cos (DV a))) by ring. eapply Rle_trans; [apply Rabs_triang|]. lra. }
  assert (SL := sin_lower (DV a) ltac:(lra)). assert (SU := sin_small (DV a)). assert (CB := cos_near1 (DV a) ltac:(lra)).
  set (S := sin (DV a)) in *. set (C := cos (DV a)) in *.
  assert (CA : Rabs C = C) by (apply Rabs_pos_eq; lra).
  assert (B710 : 2 * bp (-710) <= bp (-700)) by (rewrite <- bp_S; apply bpow_le; lia).
  assert (B100 : bp (-100) <= / 2) by (change (/ 2) with (bp (-1)); apply bpow_le; lia).
  destruct (quot_rel s c S C (693 / 10 * vv * Rabs (DV a)) (39 * vv) Ns Nc Es Ec' ltac:(lra) ltac:(lra) ltac:(lra) ltac:(lra) ltac:(lra) ltac:(lra) ltac:(lra)) as [N1 E1]. split; [exact N1|].
  unfold approx. rewrite vv_bp. change (tan (DV a)) with (S / C). eapply Rle_trans; [exact E1|].
  assert (SC : Rabs S / C = Rabs (S / C)) by (unfold Rdiv; rewrite Rabs_mult, Rabs_inv, CA by lra; reflexivity).
  assert (IC : 1 <= / C <= 1000 / 995). { split; [rewrite <- Rinv_1; apply Rinv_le_contravar; lra|]. replace (1000 / 995) with (/ (995 / 1000)) by lra. apply Rinv_le_contravar; lra. }
  rewrite CA. set (T := Rabs (S / C)) in *. assert (T0 : 0 <= T) by apply Rabs_pos.
  assert (K1 : 693 / 10 * vv * Rabs (DV a) / C <= 695 / 10 * vv * T).
  { rewrite <- SC. unfold Rdiv. rewrite <- (Rmult_assoc _ (Rabs S) (/ C)). apply Rmult_le_compat_r; lra. }
  assert (K2 : 39 * vv / C * T <= 392 / 10 * vv * T). { apply Rmult_le_compat_r; [exact T0|]. unfold Rdiv. lra. }
  lra.
Qed.
