(** * Accuracy of the Double n-th root *)
From Coq Require Import ZArith Reals Lra Lia Psatz Bool.
From Flocq Require Import Core IEEE754.BinarySingleNaN.
From Verif Require Import RN F64 Prim DoubleM Spec F64Facts EFT DWAdd DAddProofs DMulProofs DDivProofs MulAny OrderProofs LawProofs ExactProofs IntProofs AbsOps ParseM AlgM ConstM ConstProofs Exact FromProofs SqrtProofs TransM TransProofs PowProofs ExpProofs ExpThms LnThms SinThms RelOps HypThms DivTiny SymProofs.
From Verif Require DisplayMore.
Local Open Scope R_scope.

(** ** the real Newton step for x^-n = W *)
Lemma pow_near n h e : 0 <= e -> Rabs h <= e -> INR n * e <= / 1000 ->
  Rabs ((1 + h) ^ n - 1 - INR n * h) <= 51 / 100 * (INR n * INR n) * (e * e).
Proof.
  intros He Hh. induction n as [|k IH]; intros H.
  - cbn [pow INR]. replace (1 - 1 - 0 * h) with 0 by ring. rewrite Rabs_R0. nra.
  - rewrite S_INR in *. set (K := INR k) in *. assert (K0 : 0 <= K) by (unfold K; apply pos_INR). assert (HK : K * e <= / 1000) by nra. specialize (IH HK).
    set (t := (1 + h) ^ k - 1 - K * h) in *. cbn [pow]. assert (E : (1 + h) ^ k = t + 1 + K * h) by (unfold t; ring). rewrite E.
    replace ((1 + h) * (t + 1 + K * h) - 1 - (K + 1) * h) with (t + h * t + h * (K * h)) by ring.
    assert (PH := Rabs_pos h). assert (PT := Rabs_pos t).
    assert (HT : Rabs (h * t) <= 51 / 100 * (/ 1000) * K * (e * e)).
    { rewrite Rabs_mult. apply Rle_trans with (e * (51 / 100 * (K * K) * (e * e))); [apply Rmult_le_compat; lra|].
      replace (e * (51 / 100 * (K * K) * (e * e))) with (51 / 100 * (K * e) * (K * (e * e))) by ring. replace (51 / 100 * / 1000 * K * (e * e)) with (51 / 100 * / 1000 * (K * (e * e))) by ring.
      apply Rmult_le_compat_r; [apply Rmult_le_pos; [lra|nra]|lra]. }
    assert (HH : Rabs (h * (K * h)) <= K * (e * e)).
    { replace (h * (K * h)) with (K * (h * h)) by ring. rewrite Rabs_mult, (Rabs_pos_eq K) by lra. apply Rmult_le_compat_l; [lra|]. rewrite Rabs_mult. apply Rmult_le_compat; lra. }
    assert (T1 := Rabs_triang (t + h * t) (h * (K * h))). assert (T2 := Rabs_triang t (h * t)). assert (PE : 0 <= e * e) by nra.
    apply Rle_trans with (51 / 100 * (K * K) * (e * e) + 51 / 100 * / 1000 * K * (e * e) + K * (e * e)); [lra|].
    replace (51 / 100 * (K * K) * (e * e) + 51 / 100 * / 1000 * K * (e * e) + K * (e * e)) with ((51 / 100 * (K * K) + 51 / 100 * / 1000 * K + K) * (e * e)) by ring.
    apply Rmult_le_compat_r; [exact PE|]. lra.
Qed.
Lemma newton_root n h e : (1 <= n)%nat -> 0 <= e -> Rabs h <= e -> INR n * e <= / 1000 ->
  Rabs ((1 + h) * (1 + (1 - (1 + h) ^ n) / INR n) - 1) <= (52 / 100 * INR n + 1) * (e * e) /\ Rabs ((1 + h) ^ n - 1) <= / 990.
Proof.
  intros Hn He Hh H. assert (N1 : 1 <= INR n) by (apply (le_INR 1); exact Hn). assert (B := pow_near n h e He Hh H). set (N := INR n) in *. set (t := (1 + h) ^ n - 1 - N * h) in *.
  assert (E : (1 + h) ^ n = t + 1 + N * h) by (unfold t; ring). rewrite E. assert (PE : 0 <= e * e) by nra. assert (PH := Rabs_pos h). assert (PT := Rabs_pos t).
  assert (IN : 0 < / N) by (apply Rinv_0_lt_compat; lra). assert (EN : e <= / 1000) by nra.
  split.
  - replace ((1 + h) * (1 + (1 - (t + 1 + N * h)) / N) - 1) with (- (h * h) - (1 + h) * (t * / N)) by (field; lra).
    unfold Rminus. eapply Rle_trans; [apply Rabs_triang|]. rewrite !Rabs_Ropp, (Rabs_mult h h), (Rabs_mult (1 + h)), (Rabs_mult t), (Rabs_pos_eq (/ N)) by lra.
    assert (H1 : Rabs h * Rabs h <= e * e) by (apply Rmult_le_compat; lra). assert (H2 : Rabs (1 + h) <= 1001 / 1000) by (eapply Rle_trans; [apply Rabs_triang|rewrite Rabs_R1; lra]).
    assert (H3 : Rabs t * / N <= 51 / 100 * N * (e * e)). { apply Rmult_le_reg_r with N; [lra|]. rewrite Rmult_assoc, Rinv_l by lra. replace (51 / 100 * N * (e * e) * N) with (51 / 100 * (N * N) * (e * e)) by ring. lra. }
    assert (H4 : Rabs (1 + h) * (Rabs t * / N) <= 1001 / 1000 * (51 / 100 * N * (e * e))) by (apply Rmult_le_compat; auto using Rabs_pos; apply Rmult_le_pos; lra).
    assert (H5 : 0 <= N * (e * e)) by nra. lra.
  - replace (t + 1 + N * h - 1) with (t + N * h) by ring. eapply Rle_trans; [apply Rabs_triang|]. rewrite Rabs_mult, (Rabs_pos_eq N) by lra.
    assert (N * Rabs h <= N * e) by (apply Rmult_le_compat_l; lra). assert (51 / 100 * (N * N) * (e * e) = 51 / 100 * (N * e * (N * e))) by ring. assert (N * e * (N * e) <= / 1000 * / 1000) by (apply Rmult_le_compat; nra). lra.
Qed.

(** division by a number of moderate size *)
Lemma div_mid x y : DNorm x -> DNorm y -> / 2 <= Rabs (DV y) <= 4095 -> Rabs (DV x) <= bp 900 ->
  DNorm (d_div x y) /\ Rabs (DV (d_div x y) - DV x / DV y) <= 16 * vv * Rabs (DV x / DV y) + bp (-860).
Proof.
  intros Nx Ny HY HX. assert (Kx := DNorm_hi_rel x Nx). assert (Ky := DNorm_hi_rel y Ny). assert (Ly := DNorm_val_rel y Ny). assert (Lx := DNorm_val_rel x Nx).
  assert (Hy : 4 / 10 <= Rabs (V (d0 y)) <= 4096). { assert (K := tri2 _ _ _ _ Ly (Rle_refl _)). assert (Q := tri _ _ _ _ Ly (Rle_refl _)). assert (P := Rabs_pos (V (d0 y))). lra. }
  assert (NZ : V (d0 y) <> 0) by (intros Z; rewrite Z, Rabs_R0 in Hy; lra). assert (P8 := bpow_gt_0 radix2 (-880)).
  assert (YZ : DV y <> 0) by (intros Z; rewrite Z, Rabs_R0 in HY; lra).
  assert (AQ : Rabs (DV x / DV y) = Rabs (DV x) * / Rabs (DV y)) by (unfold Rdiv; rewrite Rabs_mult, Rabs_inv by exact YZ; reflexivity).
  assert (IY : 0 < / Rabs (DV y) <= 2). { split; [apply Rinv_0_lt_compat; lra|]. replace 2 with (/ / 2) by lra. apply Rinv_le_contravar; lra. }
  assert (PX := Rabs_pos (DV x)).
  destruct (Rle_or_lt (Rabs (V (d0 x))) (bp (-880))) as [T|T].
  - destruct (d_div_tiny x y Nx Ny ltac:(lra) T) as [N E]. split; [exact N|].
    assert (B : bp (-860) = 1048576 * bp (-880)) by exact (bp_split (-880) 20 ltac:(lia)). assert (B2 : bp (-1028) <= bp (-880)) by (apply bpow_le; lia).
    unfold Rminus. eapply Rle_trans; [apply Rabs_triang|]. rewrite Rabs_Ropp.
    assert (HXD : Rabs (DV x) <= 2 * bp (-880)). { assert (K := tri _ _ _ _ Lx (Rle_refl _)). lra. }
    assert (Rabs (DV x) * / Rabs (DV y) <= 2 * bp (-880) * 2) by (apply Rmult_le_compat; lra).
    assert (0 <= Rabs (DV x) * / Rabs (DV y)) by (apply Rmult_le_pos; lra). rewrite AQ. lra.
  - destruct (d_div_ok x y Nx Ny NZ) as [N E].
    + right. assert (B1 : bp 1010 = 1024 * bp 1000) by exact (bp_split 1000 10 ltac:(lia)). assert (B0 : bp 900 <= bp 1000) by (apply bpow_le; lia). assert (P1 := bpow_gt_0 radix2 900). assert (B2 : bp (-900) <= bp (-880)) by (apply bpow_le; lia).
      assert (VX : Rabs (V (d0 x)) <= 2 * bp 900) by lra.
      split; [lra|]. unfold Rdiv. rewrite Rabs_mult, Rabs_inv by exact NZ.
      assert (I : / 4096 <= / Rabs (V (d0 y)) <= 3). { split; [apply Rinv_le_contravar; lra|]. replace 3 with (/ / 3) by lra. apply Rinv_le_contravar; lra. }
      assert (PV := Rabs_pos (V (d0 x))). split.
      * assert (B3 : bp (-880) = 1048576 * bp (-900)) by exact (bp_split (-900) 20 ltac:(lia)). apply Rle_trans with (bp (-880) * / 4096); [assert (P9 := bpow_gt_0 radix2 (-900)); lra|]. apply Rmult_le_compat; lra.
      * apply Rle_trans with (2 * bp 900 * 3); [apply Rmult_le_compat; lra|lra].
    + split; [exact N|]. unfold approx in E. rewrite vv_bp in E. assert (P6 := bpow_gt_0 radix2 (-860)). lra.
Qed.

(** ** the rounded step *)
Definition nroot_step (r x p : Double) (n : Z) : Double := d_add x (d_div (d_mul x (d_sub D_ONE (d_mul r p))) (mkD (fofZ n) f0)).
Lemma nroot_step_ok r x p n rho e : (3 <= n <= 4095)%Z -> DNorm r -> DNorm x -> DNorm p -> 0 < rho -> DV r * rho ^ Z.to_nat n = 1 ->
  bp (-270) <= rho <= bp 270 -> bp (-805) <= DV r <= bp 805 -> 0 <= e -> IZR n * e <= / 1000 -> Rabs (DV x - rho) <= e * rho ->
  approx (DV p) (DV x ^ Z.to_nat n) (10 * n) (-106) ->
  rel ((52 / 100 * IZR n + 1) * (e * e) + 199 / 10 * vv) (nroot_step r x p n) rho.
Proof.
  intros Hn Nr Nx Np Pr ER HR HW He HN Hx Hp. set (W := DV r) in *. set (X := DV x) in *. set (k := Z.to_nat n) in *.
  assert (EK : INR k = IZR n) by (unfold k; rewrite INR_IZR_INZ, Z2Nat.id by lia; reflexivity).
  assert (N3 : 3 <= IZR n <= 4095) by (split; apply IZR_le; lia).
  set (h := (X - rho) / rho). assert (EX : X = rho * (1 + h)) by (unfold h; field; lra).
  assert (Hh : Rabs h <= e). { unfold h, Rdiv. rewrite Rabs_mult, Rabs_inv, (Rabs_pos_eq rho) by lra. apply Rmult_le_reg_r with rho; [lra|]. rewrite Rmult_assoc, Rinv_l by lra. lra. }
  destruct (newton_root k h e ltac:(lia) He Hh ltac:(rewrite EK; exact HN)) as [NW NP]. rewrite EK in NW.
  assert (EP : W * X ^ k = (1 + h) ^ k) by (rewrite EX, Rpow_mult_distr, <- Rmult_assoc, ER; ring).
  set (P := X ^ k) in *. set (WP := W * P) in *. rewrite <- EP in NW, NP.
  assert (WB := Rabs_def2' _ _ NP). assert (P1 := bpow_gt_0 radix2 (-805)). assert (PW : 0 < W) by lra.
  assert (EN : e <= / 3000) by nra. assert (HB := Rabs_def2' _ _ Hh). assert (XB : 999 / 1000 * rho <= X <= 1001 / 1000 * rho) by (rewrite EX; split; nra).
  assert (PP : 0 < P) by (unfold P; apply pow_lt; lra).
  (* p *)
  unfold approx in Hp. rewrite mult_IZR, vv_bp in Hp. rewrite (Rabs_pos_eq P) in Hp by lra.
  assert (PB := Rabs_def2' _ _ Hp). assert (C0 : 10 * IZR n * vv <= / 1000000) by lra.
  assert (C1 : 10 * IZR n * vv * P <= / 1000000 * P) by (apply Rmult_le_compat_r; lra).
  (* r * p *)
  destruct (d_mul_any r p Nr Np) as [Nq Eq].
  { assert (VR := DNorm_hi_rel r Nr). assert (VP := DNorm_hi_rel p Np). fold W in VR. rewrite (Rabs_pos_eq W) in VR by lra. rewrite (Rabs_pos_eq (DV p)) in VP by lra. rewrite Rabs_mult.
    apply Rle_trans with (2 * W * (2 * P)); [apply Rmult_le_compat; auto using Rabs_pos; lra|]. replace (2 * W * (2 * P)) with (4 * WP) by (unfold WP; ring). assert (bp 3 <= bp 1015) by (apply bpow_le; lia). change (bp 3) with 8 in *. lra. }
  set (q := d_mul r p) in *. fold W in Eq. rewrite vv_bp in Eq. assert (WPp : Rabs (W * DV p - WP) <= 10 * IZR n * vv * WP).
  { unfold WP. replace (W * DV p - W * P) with (W * (DV p - P)) by ring. rewrite Rabs_mult, (Rabs_pos_eq W) by lra. replace (10 * IZR n * vv * (W * P)) with (W * (10 * IZR n * vv * P)) by ring. apply Rmult_le_compat_l; lra. }
  assert (C2 : 10 * IZR n * vv * WP <= / 1000000 * WP) by (apply Rmult_le_compat_r; lra).
  assert (C3 : 10 * IZR n * vv * WP <= 10 * IZR n * vv * (991 / 990)) by (apply Rmult_le_compat_l; lra).
  assert (WPB := Rabs_def2' _ _ WPp). rewrite (Rabs_pos_eq (W * DV p)) in Eq by lra.
  assert (T73 : bp (-1073) <= / 1000000 * vv). { apply Rle_trans with (bp (-126)); [apply bpow_le; lia|]. assert (K : bp (-106) = 1048576 * bp (-126)) by exact (bp_split (-126) 20 ltac:(lia)). rewrite vv_bp in K. lra. }
  assert (Q1 : Rabs (DV q - WP) <= (102 / 10 * IZR n + 102 / 10) * vv).
  { replace (DV q - WP) with ((DV q - W * DV p) + (W * DV p - WP)) by ring. eapply Rle_trans; [apply Rabs_triang|]. lra. }
  (* 1 - r p *)
  destruct one_ok as [N1 V1]. assert (B100 : 4 <= bp 100) by (change 4 with (bp 2); apply bpow_le; lia).
  assert (QB := Rabs_def2' _ _ Q1).
  destruct (sub_abs D_ONE q N1 Nq) as [Ns Es]; [rewrite V1, Rabs_R1; lra|apply Rabs_le; lra|]. rewrite V1 in Es. set (s := d_sub D_ONE q) in *.
  assert (Q2 : Rabs (1 - DV q) <= / 900) by (apply Rabs_le; lra).
  assert (S1 : Rabs (DV s - (1 - WP)) <= (102 / 10 * IZR n + 103 / 10) * vv).
  { replace (DV s - (1 - WP)) with ((DV s - (1 - DV q)) + - (DV q - WP)) by ring. eapply Rle_trans; [apply Rabs_triang|]. rewrite Rabs_Ropp. lra. }
  assert (S2 : Rabs (DV s) <= / 800). { assert (K := tri _ _ _ _ S1 (Rle_refl _)). assert (Rabs (1 - WP) <= / 990) by (apply Rabs_le; lra). lra. }
  (* x (1 - r p) *)
  assert (P27 := bpow_gt_0 radix2 (-270)).
  destruct (d_mul_any x s Nx Ns) as [Nm Em].
  { assert (VX := DNorm_hi_rel x Nx). fold X in VX. rewrite (Rabs_pos_eq X) in VX by lra. assert (VS := DNorm_hi_rel s Ns). rewrite Rabs_mult.
    apply Rle_trans with (2 * bp 270 * 1); [apply Rmult_le_compat; auto using Rabs_pos; lra|]. assert (B : bp 271 = 2 * bp 270) by exact (bp_split 270 1 ltac:(lia)). assert (bp 271 <= bp 1015) by (apply bpow_le; lia). lra. }
  set (m := d_mul x s) in *. fold X in Em. rewrite vv_bp in Em. rewrite Rabs_mult, (Rabs_pos_eq X) in Em by lra.
  assert (SX : X * Rabs (DV s) <= X * / 800) by (apply Rmult_le_compat_l; lra).
  assert (T74 : bp (-1073) <= / 1000000 * vv * X).
  { apply Rle_trans with (bp (-271) * bp (-126)); [rewrite <- bpow_plus; apply bpow_le; lia|]. assert (K : bp (-106) = 1048576 * bp (-126)) by exact (bp_split (-126) 20 ltac:(lia)). assert (K2 : bp (-270) = 2 * bp (-271)) by exact (bp_split (-271) 1 ltac:(lia)). rewrite vv_bp in K. assert (P126 := bpow_gt_0 radix2 (-126)).
    replace (/ 1000000 * vv * X) with (X * (/ 1000000 * vv)) by ring. apply Rmult_le_compat; try lra; apply bpow_ge_0. }
  assert (M1 : Rabs (DV m - X * (1 - WP)) <= X * ((102 / 10 * IZR n + 104 / 10) * vv)).
  { replace (DV m - X * (1 - WP)) with ((DV m - X * DV s) + X * (DV s - (1 - WP))) by ring. eapply Rle_trans; [apply Rabs_triang|]. rewrite (Rabs_mult X), (Rabs_pos_eq X) by lra.
    assert (X * Rabs (DV s - (1 - WP)) <= X * ((102 / 10 * IZR n + 103 / 10) * vv)) by (apply Rmult_le_compat_l; lra). lra. }
  assert (M2 : Rabs (DV m) <= X * / 700).
  { assert (K := tri _ _ _ _ Em (Rle_refl _)). rewrite Rabs_mult, (Rabs_pos_eq X) in K by lra. lra. }
  (* / n *)
  destruct (fofZ_exact n ltac:(lia)) as [Fn Vn]. destruct (d_single_norm (fofZ n) Fn) as [Nn En]. rewrite Vn in En.
  destruct (div_mid m (mkD (fofZ n) f0) Nm Nn) as [Nc Ec].
  { rewrite En, Rabs_pos_eq; lra. }
  { apply Rle_trans with (1 := M2). assert (B : bp 271 = 2 * bp 270) by exact (bp_split 270 1 ltac:(lia)). assert (bp 271 <= bp 900) by (apply bpow_le; lia). lra. }
  rewrite En in Ec. set (c := d_div m (mkD (fofZ n) f0)) in *. assert (IN : 0 < / IZR n <= / 3) by (split; [apply Rinv_0_lt_compat; lra|apply Rinv_le_contravar; lra]).
  assert (DM : Rabs (DV m / IZR n) <= X * / 2100). { unfold Rdiv. rewrite Rabs_mult, (Rabs_pos_eq (/ IZR n)) by lra. apply Rle_trans with (X * / 700 * / 3); [apply Rmult_le_compat; auto using Rabs_pos; lra|lra]. }
  assert (T75 : bp (-860) <= / 1000000 * vv * X).
  { apply Rle_trans with (bp (-271) * bp (-126)); [rewrite <- bpow_plus; apply bpow_le; lia|]. assert (K : bp (-106) = 1048576 * bp (-126)) by exact (bp_split (-126) 20 ltac:(lia)). assert (K2 : bp (-270) = 2 * bp (-271)) by exact (bp_split (-271) 1 ltac:(lia)). rewrite vv_bp in K. assert (P126 := bpow_gt_0 radix2 (-126)).
    replace (/ 1000000 * vv * X) with (X * (/ 1000000 * vv)) by ring. apply Rmult_le_compat; try lra; apply bpow_ge_0. }
  assert (D1 : Rabs (DV m / IZR n - X * (1 - WP) / IZR n) <= X * (137 / 10 * vv)).
  { replace (DV m / IZR n - X * (1 - WP) / IZR n) with ((DV m - X * (1 - WP)) * / IZR n) by (field; lra). rewrite Rabs_mult, (Rabs_pos_eq (/ IZR n)) by lra.
    apply Rle_trans with (X * ((102 / 10 * IZR n + 104 / 10) * vv) * / IZR n); [apply Rmult_le_compat_r; lra|].
    replace (X * ((102 / 10 * IZR n + 104 / 10) * vv) * / IZR n) with (X * ((102 / 10 + 104 / 10 * / IZR n) * vv)) by (field; lra). apply Rmult_le_compat_l; lra. }
  assert (D2 : Rabs (DV c - X * (1 - WP) / IZR n) <= X * (1371 / 100 * vv)).
  { replace (DV c - X * (1 - WP) / IZR n) with ((DV c - DV m / IZR n) + (DV m / IZR n - X * (1 - WP) / IZR n)) by ring. eapply Rle_trans; [apply Rabs_triang|]. lra. }
  assert (D3 : Rabs (DV c) <= X * / 2000). { assert (K := tri _ _ _ _ Ec (Rle_refl _)). lra. }
  (* x + c *)
  assert (Bc := Rabs_def2' _ _ D3).
  assert (B271 : bp 271 = 2 * bp 270) by exact (bp_split 270 1 ltac:(lia)). assert (B2 : bp 271 <= bp 1000) by (apply bpow_le; lia).
  destruct (sum_near x c X (DV c) 0 0 Nx Nc) as [[Na Ea] _]; [unfold X; rewrite Rminus_diag_eq, Rabs_R0 by reflexivity; lra|rewrite Rminus_diag_eq, Rabs_R0 by reflexivity; lra|fold X; rewrite Rabs_pos_eq; lra|apply Rabs_le; lra|].
  rewrite (Rabs_pos_eq (X + DV c)) in Ea by lra.
  split; [exact Na|]. rewrite (Rabs_pos_eq rho) by lra. unfold nroot_step. fold q s m c.
  assert (NE : X + X * (1 - WP) / IZR n - rho = rho * ((1 + h) * (1 + (1 - WP) / IZR n) - 1)) by (rewrite EX; field; lra).
  assert (NB : Rabs (X + X * (1 - WP) / IZR n - rho) <= rho * ((52 / 100 * IZR n + 1) * (e * e))) by (rewrite NE, Rabs_mult, (Rabs_pos_eq rho) by lra; apply Rmult_le_compat_l; lra).
  replace (DV (d_add x c) - rho) with ((DV (d_add x c) - (X + DV c)) + (DV c - X * (1 - WP) / IZR n) + (X + X * (1 - WP) / IZR n - rho)) by ring.
  eapply Rle_trans; [apply Rabs_triang|]. assert (TT := Rabs_triang (DV (d_add x c) - (X + DV c)) (DV c - X * (1 - WP) / IZR n)). lra.
Qed.

(** what is used of [f64::ln] and [f64::exp]: relative error 2^-52 *)
Definition root_close (lm : libm) : Prop :=
  (forall a, Fin a -> 0 < V a -> Fin (lm_ln lm a) /\ Rabs (V (lm_ln lm a) - ln (V a)) <= bpow radix2 (-52) * Rabs (ln (V a))) /\
  (forall a, Fin a -> Rabs (V a) <= 300 -> Fin (lm_exp lm a) /\ Rabs (V (lm_exp lm a) - exp (V a)) <= bpow radix2 (-52) * exp (V a)).

Lemma exp_near a b e : Rabs (a - b) <= e -> 0 <= e <= / 2000 -> Rabs (exp a - exp b) <= 1002 / 1000 * e * exp b.
Proof.
  intros H He. replace (exp a) with (exp b * exp (a - b)) by (rewrite <- exp_plus; f_equal; ring).
  replace (exp b * exp (a - b) - exp b) with (exp b * (exp (a - b) - 1)) by ring. assert (P := exp_pos b). rewrite Rabs_mult, (Rabs_pos_eq (exp b)) by lra.
  assert (K : Rabs (exp (a - b) - 1) <= 1002 / 1000 * e).
  { assert (Q := expm1_bound (a - b) ltac:(lra)). apply Rle_trans with (1 := Q). assert (P0 := Rabs_pos (a - b)). replace (1002 / 1000 * e) with (e * (1002 / 1000)) by ring. apply Rmult_le_compat; lra. }
  replace (1002 / 1000 * e * exp b) with (exp b * (1002 / 1000 * e)) by ring. apply Rmult_le_compat_l; lra.
Qed.
Definition start_err (W : R) (n : Z) : R := (152 / 100 * (Rabs (ln W) / IZR n) + 176 / 100) * bp (-52).
Lemma ln_bp e : ln (bp e) = IZR e * ln 2.
Proof. rewrite bpow_exp, ln_exp. reflexivity. Qed.
Lemma ln_window W : bp (-800) <= W <= bp 800 -> Rabs (ln W) <= 555.
Proof.
  intros H. assert (K2 : 6931 / 10000 <= ln 2 <= 6932 / 10000) by (split; consts). assert (P := bpow_gt_0 radix2 (-800)).
  assert (A : ln (bp (-800)) <= ln W) by (destruct (proj1 H) as [Q|Q]; [left; now apply ln_increasing|rewrite Q; lra]).
  assert (B : ln W <= ln (bp 800)) by (destruct (proj2 H) as [Q|Q]; [left; apply ln_increasing; lra|rewrite Q; lra]).
  rewrite ln_bp in A, B. apply Rabs_le. lra.
Qed.
Lemma nroot_start lm dbg r n : printer lm -> root_close lm -> DNorm r -> (3 <= n <= 4095)%Z -> bp (-800) <= DV r <= bp 800 ->
  exists x, d_from_f64 lm dbg (lm_exp lm (fdiv (fneg (lm_ln lm (d0 r))) (fofZ n))) = Val x /\ DNorm x /\
    Rabs (DV x - exp (- ln (DV r) / IZR n)) <= start_err (DV r) n * exp (- ln (DV r) / IZR n).
Proof.
  intros PR [CL CE] N Hn HW. set (W := DV r) in *. assert (P8 := bpow_gt_0 radix2 (-800)). assert (PW : 0 < W) by lra. assert (LW := ln_window W HW).
  assert (N3 : 3 <= IZR n <= 4095) by (split; apply IZR_le; lia).
  assert (IN : / 4096 <= / IZR n <= / 3) by (split; apply Rinv_le_contravar; lra).
  assert (VR : Rabs (V (d0 r) - W) <= 1001 / 1000 * u * W).
  { rewrite Rabs_minus_sym. assert (K := DNorm_val_rel r N). assert (L := DNorm_hi_rel r N). fold W in K, L. rewrite (Rabs_pos_eq W) in L by lra. lra. }
  destruct (ln_near W (V (d0 r)) (1001 / 1000 * u) PW ltac:(lra) VR) as [PA LA].
  destruct (CL (d0 r) ltac:(apply N) PA) as [FL EL]. set (l := lm_ln lm (d0 r)) in *. assert (B52 : bp (-52) = 2 * u) by (rewrite <- u_bp; exact (bp_split (-53) 1 ltac:(lia))).
  rewrite B52 in EL. assert (TA := tri _ _ _ _ LA (Rle_refl _)). set (L := Rabs (ln W)) in *. assert (L0 : 0 <= L) by apply Rabs_pos.
  assert (E1 : Rabs (V l - ln W) <= 2 * u * L + 101 / 100 * u).
  { replace (V l - ln W) with ((V l - ln (V (d0 r))) + (ln (V (d0 r)) - ln W)) by ring. eapply Rle_trans; [apply Rabs_triang|]. lra. }
  assert (TL := tri _ _ _ _ E1 (Rle_refl _)). fold L in TL.
  destruct (fofZ_exact n ltac:(lia)) as [Fn Vn]. destruct (fneg_ok l FL) as [Fm Vm].
  assert (QB : Rabs (V (fneg l) / V (fofZ n)) <= 256). { rewrite Vm, Vn. unfold Rdiv. rewrite Rabs_mult, Rabs_Ropp, (Rabs_pos_eq (/ IZR n)) by lra. apply Rle_trans with (556 * / 3); [apply Rmult_le_compat; auto using Rabs_pos; lra|lra]. }
  destruct (fdiv_B (fneg l) (fofZ n) 256 Fm Fn ltac:(rewrite Vn; lra) QB) as (Ft & Et & Bt).
  { change 256 with (IZR 256). apply fmt_Z. lia. }
  { change 256 with (bp 8). apply bpow_lt. lia. }
  set (t := fdiv (fneg l) (fofZ n)) in *. rewrite Vm, Vn in Et.
  assert (RE := rn_err (- V l / IZR n)). rewrite <- Et in RE.
  assert (DL : - V l / IZR n - - ln W / IZR n = - (V l - ln W) * / IZR n) by (field; lra).
  assert (AL : Rabs (- V l / IZR n) = Rabs (V l) * / IZR n) by (unfold Rdiv; rewrite Rabs_mult, Rabs_Ropp, (Rabs_pos_eq (/ IZR n)) by lra; reflexivity).
  assert (T10 : bp (-1075) <= / 100 * u * / IZR n).
  { apply Rle_trans with (bp (-80)); [apply bpow_le; lia|]. assert (K : bp (-53) = 134217728 * bp (-80)) by exact (bp_split (-80) 27 ltac:(lia)). rewrite u_bp in K. assert (P80 := bpow_gt_0 radix2 (-80)). apply Rle_trans with (/ 100 * u * / 4096); [lra|]. apply Rmult_le_compat_l; lra. }
  set (Q := L / IZR n). assert (EQ : L * / IZR n = Q) by reflexivity. assert (Q0 : 0 <= Q) by (unfold Q, Rdiv; apply Rmult_le_pos; lra).
  assert (Q1 : Q <= 185) by (unfold Q, Rdiv; apply Rle_trans with (555 * / 3); [apply Rmult_le_compat; lra|lra]).
  assert (E2 : Rabs (V t - - ln W / IZR n) <= (302 / 100 * Q + 35 / 100) * u).
  { replace (V t - - ln W / IZR n) with ((V t - - V l / IZR n) + (- V l / IZR n - - ln W / IZR n)) by ring. eapply Rle_trans; [apply Rabs_triang|].
    rewrite DL, Rabs_mult, Rabs_Ropp, (Rabs_pos_eq (/ IZR n)) by lra. rewrite AL in RE.
    assert (A1 : Rabs (V l - ln W) * / IZR n <= (2 * u * L + 101 / 100 * u) * / IZR n) by (apply Rmult_le_compat_r; lra).
    assert (A2 : Rabs (V l) * / IZR n <= (2 * u * L + 101 / 100 * u + L) * / IZR n) by (apply Rmult_le_compat_r; lra).
    replace ((2 * u * L + 101 / 100 * u) * / IZR n) with (2 * u * Q + 101 / 100 * u * / IZR n) in A1 by (rewrite <- EQ; ring).
    replace ((2 * u * L + 101 / 100 * u + L) * / IZR n) with (2 * u * Q + 101 / 100 * u * / IZR n + Q) in A2 by (rewrite <- EQ; ring). lra. }
  set (g := - ln W / IZR n) in *. destruct (CE t Ft ltac:(lra)) as [Fx Ex]. rewrite B52 in Ex. set (y := lm_exp lm t) in *.
  assert (E3 := exp_near _ _ _ E2 ltac:(lra)). set (rho := exp g) in *. assert (PR0 : 0 < rho) by apply exp_pos.
  set (E4 := 1002 / 1000 * ((302 / 100 * Q + 35 / 100) * u)) in *. assert (E4B : 0 <= E4 <= / 100000) by (unfold E4; lra).
  assert (E4R : E4 * rho <= / 100000 * rho) by (apply Rmult_le_compat_r; lra).
  assert (TE := Rabs_def2' _ _ E3). 
  assert (E5 : Rabs (V y - rho) <= (E4 + 201 / 100 * u) * rho).
  { replace (V y - rho) with ((V y - exp (V t)) + (exp (V t) - rho)) by ring. eapply Rle_trans; [apply Rabs_triang|]. lra. }
  assert (YB : Rabs (V y) <= 1001 / 1000 * rho /\ / 2 * rho <= Rabs (V y)). { assert (K := Rabs_def2' _ _ E5). rewrite Rabs_pos_eq by lra. split; lra. }
  assert (RB : bp (-300) <= rho).
  { unfold rho. rewrite bpow_exp. assert (K2 : 6931 / 10000 <= ln 2) by consts. assert (GB : - 185 <= g) by (assert (A : Rabs g <= 185) by (unfold g, Rdiv; rewrite Rabs_mult, Rabs_Ropp, (Rabs_pos_eq (/ IZR n)) by lra; exact Q1); apply Rabs_def2' in A; lra). destruct (Rle_lt_or_eq_dec (IZR (-300) * ln 2) g ltac:(lra)) as [Z|Z]; [left; now apply exp_increasing|right; f_equal; exact Z]. }
  destruct (d_from_f64_ok lm dbg y PR Fx) as (x & K1 & K2 & K3).
  { assert (P5 := bpow_gt_0 radix2 (-500)). assert (B : bp (-499) = 2 * bp (-500)) by exact (bp_split (-500) 1 ltac:(lia)). assert (bp (-499) <= bp (-300)) by (apply bpow_le; lia). lra. }
  exists x. split; [exact K1|]. split; [exact K2|]. unfold approx in K3.
  assert (B56 : bp (-56) = u / 8). { assert (K : bp (-53) = 8 * bp (-56)) by exact (bp_split (-56) 3 ltac:(lia)). rewrite u_bp in K. lra. }
  rewrite B56 in K3. replace (DV x - rho) with ((DV x - V y) + (V y - rho)) by ring. eapply Rle_trans; [apply Rabs_triang|].
  unfold start_err. fold L. fold Q. rewrite B52. apply Rle_trans with ((E4 + 201 / 100 * u) * rho + 9 * (u / 8) * (1001 / 1000 * rho)); [lra|].
  replace ((E4 + 201 / 100 * u) * rho + 9 * (u / 8) * (1001 / 1000 * rho)) with ((E4 + 201 / 100 * u + 9 * (u / 8) * (1001 / 1000)) * rho) by ring. apply Rmult_le_compat_r; [lra|]. unfold E4. lra.
Qed.
Lemma root_rho y k : 0 < y -> (0 < k)%nat -> exp (- ln (y ^ k) / INR k) = / y /\ y ^ k * (/ y) ^ k = 1.
Proof.
  intros Y K. assert (INR k <> 0) by (apply not_0_INR; lia). rewrite ln_pow by exact Y. split.
  - replace (- (INR k * ln y) / INR k) with (- ln y) by (field; auto). rewrite exp_Ropp, exp_ln by exact Y. reflexivity.
  - rewrite <- Rpow_mult_distr, Rinv_r by lra. apply pow1.
Qed.
Lemma nroot_pre lm dbg x n : DNorm x -> DV x <> 0 -> (3 <= n)%Z -> (0 < DV x \/ Z.odd n = true) -> d_pre_nroot lm dbg x n = None.
Proof.
  intros N NZ Hn H. destruct (nz_pre x N NZ) as (E1 & E2 & E3). unfold d_pre_nroot. rewrite E2, E3.
  replace (n =? 0)%Z with false by (symmetry; apply Z.eqb_neq; lia). replace (n =? 1)%Z with false by (symmetry; apply Z.eqb_neq; lia). replace (n =? 2)%Z with false by (symmetry; apply Z.eqb_neq; lia).
  destruct H as [H|H].
  - assert (K := DisplayMore.sign_value x N NZ). destruct (d_is_sign_negative x); [|reflexivity]. assert (P := Rabs_pos (DV x)). lra.
  - rewrite Z.rem_mod_nonneg by lia. rewrite Zmod_odd, H. now rewrite andb_false_r.
Qed.
Definition nroot_err (W : R) (n : Z) : R := (IZR n * ((29 / 10 * (Rabs (ln W) / IZR n) + 33 / 10) * (29 / 10 * (Rabs (ln W) / IZR n) + 33 / 10)) + 37) * vv.
Lemma d_nroot_ok lm dbg x n y : printer lm -> root_close lm -> DNorm x -> (3 <= n <= 4095)%Z -> bp (-800) <= Rabs (DV x) <= bp 800 ->
  y ^ Z.to_nat n = DV x -> 0 < y * DV x ->
  exists r, d_nroot lm dbg x n = Val r /\ rel (nroot_err (Rabs (DV x)) n) r y.
Proof.
  intros PR RC N Hn HW HY HS. assert (P8 := bpow_gt_0 radix2 (-800)). set (k := Z.to_nat n) in *.
  assert (NZ : DV x <> 0) by (intros Q; rewrite Q, Rabs_R0 in HW; lra).
  assert (EK : INR k = IZR n) by (unfold k; rewrite INR_IZR_INZ, Z2Nat.id by lia; reflexivity).
  assert (N3 : 3 <= IZR n <= 4095) by (split; apply IZR_le; lia).
  assert (OD : 0 < DV x \/ Z.odd n = true).
  { destruct (Rlt_or_le 0 (DV x)) as [P|P]; [now left|right]. destruct (Z.odd n) eqn:O; [reflexivity|exfalso].
    assert (EV : Z.even n = true) by (rewrite <- Z.negb_odd, O; reflexivity). apply Z.even_spec in EV. destruct EV as [m Em].
    assert (KK : k = (Z.to_nat m + Z.to_nat m)%nat) by (unfold k; lia). rewrite KK, pow_add in HY. assert (Q := Rle_0_sqr (y ^ Z.to_nat m)). unfold Rsqr in Q. lra. }
  unfold d_nroot. rewrite (nroot_pre lm dbg x n N NZ ltac:(lia) OD).
  destruct (d_abs_ok x ltac:(apply Fin_nan, N)) as (_ & _ & _ & AB). destruct (AB N) as [NA VA]. set (r := d_abs x) in *. rewrite <- VA in HW |- *.
  assert (PY : 0 < Rabs y). { apply Rabs_pos_lt. intros Q. rewrite Q in HS. lra. }
  assert (EY : Rabs y ^ k = DV r) by (rewrite RPow_abs, HY; symmetry; exact VA).
  destruct (root_rho (Rabs y) k PY ltac:(lia)) as [R1 R2]. rewrite EY, EK in R1. rewrite EY in R2. set (rho := / Rabs y) in *. assert (Pr : 0 < rho) by (apply Rinv_0_lt_compat; exact PY).
  destruct (nroot_start lm dbg r n PR RC NA Hn HW) as (x0 & K1 & Nx & Ex). rewrite K1. cbn [obind]. rewrite R1 in Ex.
  set (e := start_err (DV r) n) in *. assert (LW := ln_window (DV r) HW). assert (L0 := Rabs_pos (ln (DV r))).
  assert (IN : 0 < / IZR n <= / 3) by (split; [apply Rinv_0_lt_compat; lra|apply Rinv_le_contravar; lra]).
  set (Q := Rabs (ln (DV r)) / IZR n) in *. assert (QB : 0 <= Q <= 185) by (unfold Q, Rdiv; split; [apply Rmult_le_pos; lra|apply Rle_trans with (555 * / 3); [apply Rmult_le_compat; lra|lra]]).
  assert (B52 : bp (-52) = 2 * u) by (rewrite <- u_bp; exact (bp_split (-53) 1 ltac:(lia))).
  assert (Ee : e = (152 / 100 * Q + 176 / 100) * (2 * u)) by (unfold e, start_err; rewrite B52; reflexivity).
  assert (e0 : 0 <= e <= 300 * (2 * u)) by (rewrite Ee; lra).
  assert (Hne : IZR n * e <= / 1000) by (apply Rle_trans with (4095 * (300 * (2 * u))); [apply Rmult_le_compat; lra|lra]).
  (* rho's size: rho = exp g, |g| <= 185 *)
  assert (RB : bp (-268) <= rho <= bp 268).
  { rewrite <- R1. assert (G : Rabs (- ln (DV r) / IZR n) <= 185) by (unfold Rdiv; rewrite Rabs_mult, Rabs_Ropp, (Rabs_pos_eq (/ IZR n)) by lra; apply QB). apply Rabs_def2' in G.
    assert (K2 : 6931 / 10000 <= ln 2 <= 6932 / 10000) by (split; consts). rewrite !bpow_exp. split; apply Raux.exp_le; change (Z.to_nat 1) with 1%nat; cbn -[ln]; lra. }
  assert (B27 : bp (-270) <= bp (-268)) by (apply bpow_le; lia). assert (B27' : bp 268 <= bp 270) by (apply bpow_le; lia).
  assert (B80 : bp (-805) <= bp (-800)) by (apply bpow_le; lia). assert (B80' : bp 800 <= bp 805) by (apply bpow_le; lia).
  (* the power *)
  assert (E3 : e <= / 3000) by lra. assert (ER : e * rho <= / 3000 * rho) by (apply Rmult_le_compat_r; lra). assert (XB := Rabs_def2' _ _ Ex).
  assert (WIN : bp (-890) <= Rabs (DV x0) ^ k <= bp 1010).
  { rewrite Rabs_pos_eq by lra. set (h := (DV x0 - rho) / rho). assert (EX : DV x0 = rho * (1 + h)) by (unfold h; field; lra).
    assert (Hh : Rabs h <= e). { unfold h, Rdiv. rewrite Rabs_mult, Rabs_inv, (Rabs_pos_eq rho) by lra. apply Rmult_le_reg_r with rho; [lra|]. rewrite Rmult_assoc, Rinv_l by lra. lra. }
    destruct (newton_root k h e ltac:(lia) ltac:(lra) Hh ltac:(rewrite EK; exact Hne)) as [_ NP]. apply Rabs_def2' in NP.
    assert (EP : DV r * DV x0 ^ k = (1 + h) ^ k) by (rewrite EX, Rpow_mult_distr, <- Rmult_assoc, R2; ring). set (P := DV x0 ^ k) in *.
    assert (PP : 0 < P) by (unfold P; apply pow_lt; lra). assert (D0 : 0 < DV r) by lra.
    assert (I1 : bp (-800) * bp 800 = 1) by (rewrite <- bpow_plus; reflexivity). assert (P80 := bpow_gt_0 radix2 800).
    assert (S1 : bp 1010 = 1024 * bp 1000) by exact (bp_split 1000 10 ltac:(lia)). assert (S2 : bp 800 <= bp 1000) by (apply bpow_le; lia). assert (S3 : bp (-800) = 1024 * bp (-810)) by exact (bp_split (-810) 10 ltac:(lia)). assert (S4 : bp (-890) <= bp (-810)) by (apply bpow_le; lia).
    split.
    - apply Rle_trans with (bp (-810)); [exact S4|]. apply Rmult_le_reg_l with (bp 800); [exact P80|]. apply Rle_trans with (DV r * P); [|apply Rmult_le_compat_r; lra].
      replace (bp 800 * bp (-810)) with (/ 1024) by (rewrite <- bpow_plus; reflexivity). lra.
    - apply Rle_trans with (2 * bp 800); [|lra]. apply Rmult_le_reg_l with (bp (-800)); [lra|]. apply Rle_trans with (DV r * P); [apply Rmult_le_compat_r; lra|]. replace (bp (-800) * (2 * bp 800)) with (2 * (bp (-800) * bp 800)) by ring. lra. }
  destruct (powi_pos_ok dbg x0 n Nx ltac:(lia) WIN) as (p & K2 & Np & Ap). rewrite K2. cbn [obind].
  change (d_add x0 (d_div (d_mul x0 (d_sub D_ONE (d_mul r p))) (mkD (fofZ n) f0))) with (nroot_step r x0 p n).
  assert (ST := nroot_step_ok r x0 p n rho e Hn NA Nx Np Pr R2 ltac:(lra) ltac:(lra) ltac:(lra) Hne Ex Ap).
  set (f := (52 / 100 * IZR n + 1) * (e * e) + 199 / 10 * vv) in *.
  assert (ee : e * e = (152 / 100 * Q + 176 / 100) * (152 / 100 * Q + 176 / 100) * (4 * vv)) by (rewrite Ee; clearbody Q; lra).
  assert (eb : e * e <= 90000 * (4 * vv)). { rewrite ee. apply Rmult_le_compat_r; [lra|]. apply Rle_trans with (300 * 300); [apply Rmult_le_compat; lra|lra]. }
  assert (Pe : 0 <= e * e) by nra.
  assert (Fb : 0 <= f <= / 1000). { unfold f. assert ((52 / 100 * IZR n + 1) * (e * e) <= 2200 * (90000 * (4 * vv))) by (apply Rmult_le_compat; lra). assert (0 <= (52 / 100 * IZR n + 1) * (e * e)) by (apply Rmult_le_pos; lra). lra. }
  assert (FIN : 1003 / 1000 * f + 161 / 10 * vv <= nroot_err (DV r) n).
  { unfold f, nroot_err. fold Q. rewrite ee. set (A := 152 / 100 * Q + 176 / 100). set (B := 29 / 10 * Q + 33 / 10).
    assert (AB1 : 344 / 100 * (A * A) <= B * B). { unfold A, B. assert (0 <= Q * Q) by nra. clearbody Q. nra. }
    assert (AA : 0 <= A * A) by (unfold A; nra). assert (NA2 : IZR n * (344 / 100 * (A * A)) <= IZR n * (B * B)) by (apply Rmult_le_compat_l; lra).
    assert (N2 : 3 * (A * A) <= IZR n * (A * A)) by (apply Rmult_le_compat_r; lra). clearbody A B. nra. }
  assert (BR : bp (-890) <= Rabs rho <= bp 890). { rewrite Rabs_pos_eq by lra. assert (bp (-890) <= bp (-270)) by (apply bpow_le; lia). assert (bp 270 <= bp 890) by (apply bpow_le; lia). lra. }
  assert (SGN := DisplayMore.sign_value x N NZ).
  destruct (d_is_sign_negative x).
  - destruct ST as [Ns Es]. destruct (neg_ok _ _ _ Ns Es) as [Ns' Es']. assert (RR : rel f (d_neg (nroot_step r x0 p n)) (- rho)) by (split; [exact Ns'|rewrite Rabs_Ropp; exact Es']).
    exists (d_recip (d_neg (nroot_step r x0 p n))). split; [reflexivity|]. eapply rel_le; [|exact FIN].
    assert (K := rel_recip _ _ _ RR Fb ltac:(rewrite Rabs_Ropp; exact BR)). replace (/ - rho) with y in K; [exact K|].
    assert (YN : y < 0). { assert (DN : DV x < 0) by (assert (Rabs (DV x) <> 0) by (apply Rabs_no_R0; exact NZ); assert (0 <= Rabs (DV x)) by apply Rabs_pos; lra). nra. }
    unfold rho. rewrite Rabs_left by lra. field. lra.
  - exists (d_recip (nroot_step r x0 p n)). split; [reflexivity|]. eapply rel_le; [|exact FIN].
    assert (K := rel_recip _ _ _ ST Fb BR). replace (/ rho) with y in K; [exact K|].
    assert (YN : 0 < y). { assert (DN : 0 < DV x) by (assert (Rabs (DV x) <> 0) by (apply Rabs_no_R0; exact NZ); assert (0 <= Rabs (DV x)) by apply Rabs_pos; lra). nra. }
    unfold rho. rewrite Rabs_pos_eq by lra. field. lra.
Qed.
