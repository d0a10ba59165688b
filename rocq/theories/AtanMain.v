(** * Accuracy of the Double atan2, atan, asin and acos *)
From Coq Require Import ZArith Reals Lra Lia Psatz Bool.
From Flocq Require Import Core IEEE754.BinarySingleNaN.
From Verif Require Import RN F64 Prim DoubleM Spec F64Facts EFT DWAdd DAddProofs DMulProofs DDivProofs MulAny OrderProofs LawProofs ExactProofs IntProofs AbsOps ParseM AlgM ConstM BaseConst ConstProofs Exact FromProofs SqrtProofs TransM TransProofs PowProofs ExpProofs ExpThms LnThms SinLoop SinSeries SinReduce SinThms RelOps HypThms DivTiny AtanReal AtanThms SymProofs.
From Verif Require DisplayMore.
Local Open Scope R_scope.

(** what is used of [f64::atan2]: within 2^-51 of the angle, relatively *)
Definition atan2_close (lm : libm) : Prop := forall a b, Fin a -> Fin b -> bpow radix2 (-210) <= Rabs (V a) <= bpow radix2 210 -> bpow radix2 (-210) <= Rabs (V b) <= bpow radix2 210 ->
  Fin (lm_atan2 lm a b) /\ Rabs (V (lm_atan2 lm a b) - ratan2 (V a) (V b)) <= bpow radix2 (-51) * Rabs (ratan2 (V a) (V b)).

Lemma hi_ratio x : DNorm x -> Rabs (V (d0 x) - DV x) <= 1001 / 1000 * u * Rabs (DV x).
Proof. intros N. rewrite Rabs_minus_sym. assert (K := DNorm_val_rel x N). assert (L := DNorm_hi_rel x N). assert (P := Rabs_pos (DV x)). lra. Qed.
Lemma win x : DNorm x -> bp (-200) <= Rabs (DV x) <= bp 200 -> bp (-210) <= Rabs (V (d0 x)) <= bp 210 /\ DV x <> 0.
Proof.
  intros N H. assert (K := hi_ratio x N). assert (A := tri _ _ _ _ K (Rle_refl _)). assert (B := tri2 _ _ _ _ K (Rle_refl _)).
  assert (E1 : bp (-200) = 1024 * bp (-210)) by exact (bp_split (-210) 10 ltac:(lia)). assert (E2 : bp 210 = 1024 * bp 200) by exact (bp_split 200 10 ltac:(lia)).
  assert (P1 := bpow_gt_0 radix2 (-210)). assert (P2 := bpow_gt_0 radix2 200). split; [lra|]. intros Z. rewrite Z, Rabs_R0 in H. lra.
Qed.

Section A.
Context (lm : libm) (dbg : bool) (PR : printer lm) (AC : atan2_close lm).

Lemma sqr_rel x : DNorm x -> bp (-200) <= Rabs (DV x) <= bp 200 -> rel (9 * vv) (d_sqr x) (DV x * DV x).
Proof.
  intros N H. destruct (win x N H) as [W _]. destruct (d_sqr_ok x N) as [N2 E].
  - right. replace (V (d0 x) * V (d0 x)) with (Rabs (V (d0 x)) * Rabs (V (d0 x))) by (rewrite <- Rabs_mult; apply Rabs_pos_eq, Rle_0_sqr).
    assert (P1 := bpow_gt_0 radix2 (-210)). split.
    + apply Rle_trans with (bp (-210) * bp (-210)); [rewrite <- bpow_plus; apply bpow_le; lia|apply Rmult_le_compat; lra].
    + apply Rle_trans with (bp 210 * bp 210); [apply Rmult_le_compat; auto using Rabs_pos; lra|rewrite <- bpow_plus; apply bpow_le; lia].
  - split; [exact N2|]. unfold approx in E. rewrite vv_bp in E. exact E.
Qed.
Lemma norm_ok y x : DNorm y -> DNorm x -> bp (-200) <= Rabs (DV y) <= bp 200 -> bp (-200) <= Rabs (DV x) <= bp 200 ->
  bp (-200) <= sqrt (DV x * DV x + DV y * DV y) <= bp 201 /\
  exists r, d_sqrt lm dbg (d_add (d_sqr y) (d_sqr x)) = Val r /\ rel (399 / 10 * vv) r (sqrt (DV x * DV x + DV y * DV y)).
Proof.
  intros Ny Nx Hy Hx. destruct (sqr_rel y Ny Hy) as [Ny2 Ey]. destruct (sqr_rel x Nx Hx) as [Nx2 Ex].
  set (Y2 := DV y * DV y) in *. set (X2 := DV x * DV x) in *.
  assert (P1 := bpow_gt_0 radix2 (-200)). assert (P2 := bpow_gt_0 radix2 200).
  assert (SQ : forall a, bp (-200) <= Rabs a <= bp 200 -> bp (-400) <= a * a <= bp 400).
  { intros a H. replace (a * a) with (Rabs a * Rabs a) by (rewrite <- Rabs_mult; apply Rabs_pos_eq, Rle_0_sqr). split.
    - replace (bp (-400)) with (bp (-200) * bp (-200)) by (rewrite <- bpow_plus; reflexivity). apply Rmult_le_compat; lra.
    - replace (bp 400) with (bp 200 * bp 200) by (rewrite <- bpow_plus; reflexivity). apply Rmult_le_compat; auto using Rabs_pos; lra. }
  assert (BY := SQ _ Hy). assert (BX := SQ _ Hx). fold Y2 in BY. fold X2 in BX. assert (P4 := bpow_gt_0 radix2 (-400)).
  rewrite (Rabs_pos_eq Y2) in Ey by lra. rewrite (Rabs_pos_eq X2) in Ex by lra.
  assert (B1 : bp 401 = 2 * bp 400) by exact (bp_split 400 1 ltac:(lia)). assert (B2 : bp 402 <= bp 1000) by (apply bpow_le; lia). assert (B3 : bp 402 = 4 * bp 400) by exact (bp_split 400 2 ltac:(lia)).
  assert (Ty := tri _ _ _ _ Ey (Rle_refl _)). assert (Tx := tri _ _ _ _ Ex (Rle_refl _)). rewrite (Rabs_pos_eq Y2) in Ty by lra. rewrite (Rabs_pos_eq X2) in Tx by lra.
  assert (P44 := bpow_gt_0 radix2 400).
  assert (Q1 : Rabs (DV (d_sqr y)) <= bp 1000) by lra. assert (Q2 : Rabs (DV (d_sqr x)) <= bp 1000) by lra.
  destruct (sum_near _ _ _ _ _ _ Ny2 Nx2 Ey Ex Q1 Q2) as [[Na Ea] _]. rewrite (Rplus_comm Y2 X2), (Rabs_pos_eq (X2 + Y2)) in Ea by lra.
  assert (B7 : bp (-790) <= bp (-400)) by (apply bpow_le; lia). assert (B8 : bp 401 <= bp 790) by (apply bpow_le; lia).
  split.
  - split.
    + rewrite <- (sqrt_square (bp (-200))) by lra. apply sqrt_le_1_alt. rewrite <- bpow_plus. change (-200 + -200)%Z with (-400)%Z. lra.
    + rewrite <- (sqrt_square (bp 201)) by apply bpow_ge_0. apply sqrt_le_1_alt. rewrite <- bpow_plus. change (201 + 201)%Z with 402%Z. lra.
  - destruct (rel_sqrt lm dbg (151 / 10 * vv) (d_add (d_sqr y) (d_sqr x)) (X2 + Y2) PR) as (r & K1 & K2); [split; [exact Na|rewrite (Rabs_pos_eq (X2 + Y2)) by lra; lra]|lra|lra|].
    exists r. split; [exact K1|]. eapply rel_le; [exact K2|]. lra.
Qed.
Lemma quot_ok x r h : DNorm x -> rel (399 / 10 * vv) r h -> bp (-200) <= h <= bp 201 -> bp (-200) <= Rabs (DV x) <= bp 200 -> rel (562 / 10 * vv) (d_div x r) (DV x / h).
Proof.
  intros Nx Rr Hh Hx. assert (P1 := bpow_gt_0 radix2 (-200)). assert (B1 : bp (-890) <= bp (-200)) by (apply bpow_le; lia). assert (B2 : bp 201 <= bp 1000) by (apply bpow_le; lia). assert (B3 : bp 200 <= bp 1000) by (apply bpow_le; lia).
  eapply rel_le; [apply (rel_div 0 (399 / 10 * vv)); [now apply rel_self|exact Rr|lra|lra|lra|lra|]|lra].
  unfold Rdiv. rewrite Rabs_mult, Rabs_inv, (Rabs_pos_eq h) by lra. split.
  - apply Rle_trans with (bp (-200) * bp (-201)); [rewrite <- bpow_plus; apply bpow_le; lia|]. apply Rmult_le_compat; try lra; [apply bpow_ge_0|]. change (-201)%Z with (- (201))%Z. rewrite bpow_opp. apply Rinv_le_contravar; lra.
  - apply Rle_trans with (bp 200 * bp 200); [|rewrite <- bpow_plus; apply bpow_le; lia]. apply Rmult_le_compat; try apply Rabs_pos; try lra; [left; apply Rinv_0_lt_compat; lra|]. change 200%Z with (- (-200))%Z. rewrite (bpow_opp radix2 (-200)). apply Rinv_le_contravar; lra.
Qed.
Lemma start_ok y x th : DNorm y -> DNorm x -> bp (-200) <= Rabs (DV y) <= bp 200 -> bp (-200) <= Rabs (DV x) <= bp 200 -> polar (DV y) (DV x) th -> bp (-450) <= Rabs (sin th) ->
  exists z, d_from_f64 lm dbg (lm_atan2 lm (d0 y) (d0 x)) = Val z /\ DNorm z /\ Rabs (DV z - th) <= 72 / 10 * u * Rabs th.
Proof.
  intros Ny Nx Hy Hx HP HS. destruct (win y Ny Hy) as [Wy Zy]. destruct (win x Nx Hx) as [Wx Zx].
  assert (Fy := proj1 (proj1 Ny)). assert (Fx := proj1 (proj1 Nx)).
  assert (P1 := bpow_gt_0 radix2 (-210)). assert (VY : V (d0 y) <> 0) by (intros Q; rewrite Q, Rabs_R0 in Wy; lra).
  assert (HP0 := ratan2_polar (V (d0 y)) (V (d0 x)) (or_intror VY)).
  destruct (AC (d0 y) (d0 x) Fy Fx Wy Wx) as [Fa Ea]. set (t0 := ratan2 (V (d0 y)) (V (d0 x))) in *. set (a := lm_atan2 lm (d0 y) (d0 x)) in *.
  assert (D := polar_near _ _ _ _ _ _ (1001 / 1000 * u) HP HP0 Zy ltac:(lra) (hi_ratio y Ny) (hi_ratio x Nx)).
  destruct (sc1 th) as [S1 C1]. assert (SS := sin_small th). assert (PS := Rabs_pos (sin th)). assert (PC := Rabs_pos (cos th)). assert (PT := Rabs_pos th).
  assert (SC : Rabs (sin th) * Rabs (cos th) <= Rabs th * 1) by (apply Rmult_le_compat; lra).
  assert (D' : Rabs (t0 - th) <= 204 / 100 * u * Rabs th).
  { apply Rle_trans with (1 := D). apply Rle_trans with (203 / 100 * (1001 / 1000 * u) * (Rabs th * 1)); [apply Rmult_le_compat_l; lra|lra]. }
  assert (T0 := tri _ _ _ _ D' (Rle_refl _)).
  assert (B51 : bp (-51) = 4 * u) by (rewrite <- u_bp; exact (bp_split (-53) 2 ltac:(lia))). rewrite B51 in Ea.
  assert (DA : Rabs (V a - th) <= 6041 / 1000 * u * Rabs th).
  { replace (V a - th) with ((V a - t0) + (t0 - th)) by ring. eapply Rle_trans; [apply Rabs_triang|]. lra. }
  assert (TA := tri _ _ _ _ DA (Rle_refl _)). assert (TB := tri2 _ _ _ _ DA (Rle_refl _)).
  assert (B5 : bp (-450) = 1125899906842624 * bp (-500)) by exact (bp_split (-500) 50 ltac:(lia)). assert (P5 := bpow_gt_0 radix2 (-500)).
  destruct (d_from_f64_ok lm dbg a PR Fa ltac:(lra)) as (z & K1 & K2 & K3). exists z. split; [exact K1|]. split; [exact K2|].
  assert (B56 : bp (-56) = u / 8). { assert (K : bp (-53) = 8 * bp (-56)) by exact (bp_split (-56) 3 ltac:(lia)). rewrite u_bp in K. lra. }
  unfold approx in K3. rewrite B56 in K3. replace (DV z - th) with ((DV z - V a) + (V a - th)) by ring. eapply Rle_trans; [apply Rabs_triang|]. lra.
Qed.

(** the part after the special cases *)
Definition atan2_main (y x : Double) : outcome Double :=
  obind (d_sqrt lm dbg (d_add (d_sqr y) (d_sqr x))) (fun r =>
  obind (d_from_f64 lm dbg (lm_atan2 lm (d0 y) (d0 x))) (fun z => d_atan2_step lm dbg (d_div y r) (d_div x r) z)).
Lemma main_ok y x th : DNorm y -> DNorm x -> bp (-200) <= Rabs (DV y) <= bp 200 -> bp (-200) <= Rabs (DV x) <= bp 200 -> polar (DV y) (DV x) th ->
  exists r, atan2_main y x = Val r /\ DNorm r /\ Rabs (DV r - th) <= 1400 * vv /\ (Rabs th <= 9 / 100 -> Rabs (DV r - th) <= 215 * vv * Rabs th).
Proof.
  intros Ny Nx Hy Hx HP. destruct (norm_ok y x Ny Nx Hy Hx) as [BH (r & ER & RR)]. destruct (polar_sqrt _ _ _ HP) as (HH & EY & EX).
  set (h := sqrt (DV x * DV x + DV y * DV y)) in *. assert (P1 := bpow_gt_0 radix2 (-200)).
  assert (ES : DV y / h = sin th) by (rewrite EY at 1; field; lra). assert (EC : DV x / h = cos th) by (rewrite EX at 1; field; lra).
  destruct (quot_ok y r h Ny RR BH Hy) as [Nyr Eyr]. destruct (quot_ok x r h Nx RR BH Hx) as [Nxr Exr]. rewrite ES in Eyr. rewrite EC in Exr.
  assert (LS : bp (-450) <= Rabs (sin th)).
  { rewrite <- ES. unfold Rdiv. rewrite Rabs_mult, Rabs_inv, (Rabs_pos_eq h) by lra. apply Rle_trans with (bp (-200) * bp (-201)); [rewrite <- bpow_plus; apply bpow_le; lia|].
    apply Rmult_le_compat; try lra; [apply bpow_ge_0|]. change (-201)%Z with (- (201))%Z. rewrite bpow_opp. apply Rinv_le_contravar; lra. }
  destruct (start_ok y x th Ny Nx Hy Hx HP LS) as (z & EZ & Nz & Dz).
  unfold atan2_main. rewrite ER. cbn [obind]. rewrite EZ. cbn [obind].
  assert (TH : Rabs th <= 31416 / 10000). { assert (PI < 31416 / 10000) by consts. apply Rabs_le. destruct HP as [? _]. lra. }
  assert (PT := Rabs_pos th). assert (SS := sin_small th).
  assert (Tz := tri _ _ _ _ Dz (Rle_refl _)). assert (Tz2 := tri2 _ _ _ _ Dz (Rle_refl _)).
  assert (B4 : bp (-450) = 1125899906842624 * bp (-500)) by exact (bp_split (-500) 50 ltac:(lia)). assert (P5 := bpow_gt_0 radix2 (-500)). assert (B7 : bp (-700) <= bp (-500)) by (apply bpow_le; lia).
  assert (B40 : 4 <= bp 40) by (change 4 with (bp 2); apply bpow_le; lia).
  assert (DLT : 72 / 10 * u * Rabs th <= / 10000) by lra. assert (DL0 : 0 <= 72 / 10 * u * Rabs th) by lra.
  assert (DLQ : 72 / 10 * u * Rabs th * (72 / 10 * u * Rabs th) = 5184 / 100 * vv * (Rabs th * Rabs th)) by (generalize (Rabs th); intros q; lra).
  assert (B86 : bp (-859) <= vv * bp (-500)) by (rewrite <- vv_bp, <- bpow_plus; apply bpow_le; lia).
  assert (P85 : vv * bp (-500) <= / 1000000 * vv * Rabs th) by lra.
  assert (TT : Rabs th * Rabs th <= 31416 / 10000 * Rabs th) by (apply Rmult_le_compat_r; lra).
  destruct (sc1 th) as [S1 C1]. assert (PS := Rabs_pos (sin th)).
  assert (GEN : exists r', d_atan2_step lm dbg (d_div y r) (d_div x r) z = Val r' /\ DNorm r' /\ Rabs (DV r' - th) <= 1400 * vv).
  { destruct (d_sin_cos_ok lm dbg PR z Nz ltac:(lra)) as (s & c & ESC & Ns & Nc & Es & Ec).
    assert (TB : trig_bound (DV z) <= 528 * vv) by (unfold trig_bound; rewrite vv_bp; lra). assert (TP := trig_pos (DV z)).
    destruct (step_ok _ _ z s c th (562 / 10 * vv) _ _ _ lm dbg ESC Nyr Nxr Nz Ns Nc Eyr Exr ltac:(lra) Es Ec ltac:(lra) ltac:(lra) Dz ltac:(lra) ltac:(lra)) as [(r' & K1 & K2 & K3)|(r' & K1 & K2 & _ & K3)];
      exists r'; (split; [exact K1|]); (split; [exact K2|]); rewrite DLQ in K3; set (B := trig_bound (DV z)) in *;
      assert (Q : B * (72 / 10 * u * Rabs th) <= 528 * vv * / 10000) by (apply Rmult_le_compat; lra); lra. }
  destruct (Rle_or_lt (Rabs th) (9 / 100)) as [SM|SM].
  - destruct (sin_cos_small lm dbg z PR Nz ltac:(lra)) as (s & c & ESC & Ns & Nc & Es & Ec).
    assert (Es2 : Rabs (DV s - sin (DV z)) <= 693 / 10 * vv * Rabs (DV z) + 0) by lra.
    (* the accuracy of the sine is needed relative to th; it may be below vv *)
    destruct GEN as (r' & G1 & G2 & G3). exists r'. split; [exact G1|]. split; [exact G2|]. split; [exact G3|]. intros _.
    unfold d_atan2_step in G1. rewrite ESC in G1. cbn [obind] in G1.
    assert (Cth := cos_near1 th ltac:(lra)). assert (Cz := cos_near1 (DV z) ltac:(lra)).
    assert (Ry : rel (562 / 10 * vv) (d_div y r) (sin th)) by now split. assert (Rx : rel (562 / 10 * vv) (d_div x r) (cos th)) by now split.
    assert (Vy := rel_hi _ _ _ Ry ltac:(lra)). assert (Vx := rel_hi _ _ _ Rx ltac:(lra)). rewrite (Rabs_pos_eq (cos th)) in Vx by lra.
    change (fgtb (fabs (d0 (d_div x r))) (fabs (d0 (d_div y r)))) with (fltb (fabs (d0 (d_div y r))) (fabs (d0 (d_div x r)))) in G1.
    destruct (fabs_ok (d0 (d_div x r)) (proj1 (proj1 Nxr))) as [Fax Vax]. destruct (fabs_ok (d0 (d_div y r)) (proj1 (proj1 Nyr))) as [Fay Vay]. rewrite (fltb_ok _ _ Fay Fax), Vax, Vay in G1.
    destruct (Rlt_bool_spec (Rabs (V (d0 (d_div y r)))) (Rabs (V (d0 (d_div x r))))) as [LT|LT]; [|exfalso; lra].
    assert (DT : Rabs (sin th - sin (DV z)) <= 72 / 10 * u * Rabs th) by (rewrite Rabs_minus_sym; eapply Rle_trans; [apply sin_lip|exact Dz]).
    assert (EY1 : 562 / 10 * vv * Rabs (sin th) <= 562 / 10 * vv * Rabs th) by (apply Rmult_le_compat_l; lra).
    destruct (corr_ok (d_div y r) s c (sin th) (sin (DV z)) (cos (DV z)) _ _ (39 * vv) _ Nyr Ns Nc Eyr Es Ec ltac:(lra) DT ltac:(lra) ltac:(lra) S1 (proj1 (sc1 _)) ltac:(rewrite Rabs_pos_eq by lra; lra)) as [Nq Eq].
    assert (NW := newton_core (DV z - th) (sin th) (cos (DV z)) (sin (DV z)) ltac:(lra) ltac:(rewrite (Rabs_pos_eq (cos _)) by lra; lra) (proj1 (sc1 _))).
    rewrite <- (sin_minus (DV z) (DV z - th)) in NW. replace (DV z - (DV z - th)) with th in NW by ring. specialize (NW eq_refl).
    assert (DD : Rabs (DV z - th) * Rabs (DV z - th) <= 72 / 10 * u * Rabs th * (72 / 10 * u * Rabs th)) by (apply Rmult_le_compat; auto using Rabs_pos).
    assert (DQ : (DV z - th) * (DV z - th) = Rabs (DV z - th) * Rabs (DV z - th)) by (rewrite <- Rabs_mult; symmetry; apply Rabs_pos_eq; apply Rle_0_sqr).
    rewrite DQ in NW.
    assert (B59 : bp (-859) = 2 * bp (-860)) by exact (bp_split (-860) 1 ltac:(lia)). assert (P60 := bpow_gt_0 radix2 (-860)).
    assert (TS : Rabs th * Rabs th <= 9 / 100 * Rabs th) by (apply Rmult_le_compat_r; lra).
    destruct (fin_ok z _ th _ _ (72 / 10 * u * Rabs th) Nz Nq Dz ltac:(lra) ltac:(lra) Eq) as [[_ K2] _]; [lra|lra|].
    injection G1 as <-. rewrite DLQ in K2. lra.
  - destruct GEN as (r' & G1 & G2 & G3). exists r'. split; [exact G1|]. split; [exact G2|]. split; [exact G3|]. intros Q. lra.
Qed.
End A.
