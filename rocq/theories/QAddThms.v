(** * Quad addition: accuracy theorem *)
From Coq Require Import ZArith Reals List Bool Lia Lra.
From Flocq Require Import Core IEEE754.BinarySingleNaN.
From Verif Require Import F64 F64Facts Prim DoubleM QuadM RN Spec EFT SpecialProofs QuadSpec QAddAcc.
Import ListNotations.
Local Open Scope R_scope.

Lemma norm_tail q r : fmt q -> mult2 (-1074) r -> rn (q + r) = q -> Rabs (rn r) <= u * Rabs q.
Proof.
  intros Fq Mr H.
  assert (K : Rabs (rn (q + r) - (q + r)) <= / 2 * ulp radix2 fexp64 (rn (q + r))) by (apply error_le_half_ulp_round; auto with typeclass_instances).
  rewrite H in K. replace (q - (q + r)) with (- r) in K by ring. rewrite Rabs_Ropp in K.
  assert (Small : Rabs r < bp (-1074) -> rn r = 0).
  { destruct Mr as [n ->]. intros L. rewrite Rabs_mult, (Rabs_pos_eq (bp (-1074))) in L by apply bpow_ge_0.
    rewrite <- (Rmult_1_l (bp (-1074))) in L at 2. apply Rmult_lt_reg_r in L; [|apply bpow_gt_0].
    rewrite <- abs_IZR in L. apply lt_IZR in L. replace n with 0%Z by lia. rewrite Rmult_0_l. apply rn_0. }
  destruct (Req_dec q 0) as [->|Nq].
  - rewrite ulp_FLT_0 in K by easy. rewrite Small.
    + rewrite Rabs_R0. lra.
    + assert (P := bpow_gt_0 radix2 (-1074)). lra.
  - rewrite ulp_neq_0, cexp64 in K by exact Nq.
    destruct (Z_le_gt_dec (mag radix2 q - 53) (-1074)) as [L|L].
    + rewrite Z.max_r in K by exact L. rewrite Small.
      * rewrite Rabs_R0. assert (P := Rabs_pos q). lra.
      * assert (P := bpow_gt_0 radix2 (-1074)). lra.
    + rewrite Z.max_l in K by lia.
      assert (E : / 2 * bp (mag radix2 q - 53) = bp (mag radix2 q - 54)).
      { change (/ 2) with (bp (-1)). rewrite <- bpow_plus. f_equal. lia. }
      rewrite E in K.
      apply Rle_trans with (bp (mag radix2 q - 54)).
      * apply rn_abs_le; [apply fmt_bpow; lia|exact K].
      * replace (mag radix2 q - 54)%Z with (-53 + (mag radix2 q - 1))%Z by lia. rewrite bpow_plus, u_bp.
        apply Rmult_le_compat_l; [lra|]. apply bpow_mag_le, Nq.
Qed.

Lemma QNorm_dec x : QNorm x -> QDec 53 x.
Proof.
  intros ((F0 & F1 & F2 & F3) & N0 & N1 & N2). split; [repeat split; assumption|].
  change (bp (- (53))) with u. change RN with (fun x => rn x) in *. cbv beta in *.
  unfold QV in N0.
  assert (M : forall a, Fin a -> mult2 (-1074) (V a)) by (intros; apply mult2_emin; auto with fmt).
  split; [|split].
  - rewrite N1. apply norm_tail; [auto with fmt|apply mult2_plus; [apply mult2_plus|]; auto|].
    rewrite N0 at 2. f_equal. ring.
  - rewrite N2. apply norm_tail; [auto with fmt|apply mult2_plus; auto|].
    rewrite N1 at 2. f_equal. ring.
  - apply norm_lo; auto with fmt.
Qed.
Lemma QNormW_dec x : QNormW x -> QDec 53 x.
Proof.
  intros ((F0 & F1 & F2 & F3) & N0 & N1 & N2). split; [repeat split; assumption|].
  change (bp (- (53))) with u.
  split; [|split]; apply norm_lo; auto with fmt.
Qed.

(** value against leading component *)
Lemma QDec_hi k x : (40 <= k)%Z -> QDec k x -> Rabs (V (q0 x)) <= (1 + / 524288) * Rabs (QV x).
Proof.
  intros Hk (F & H1 & H2 & H3).
  assert (B : bp (- k) <= / 1099511627776) by (change (/ 1099511627776) with (bp (-40)); apply bpow_le; lia).
  assert (P := bpow_ge_0 radix2 (- k)).
  assert (Q0 := Rabs_pos (V (q0 x))). assert (Q1 := Rabs_pos (V (q1 x))). assert (Q2 := Rabs_pos (V (q2 x))).
  assert (L1 : Rabs (V (q1 x)) <= / 1099511627776 * Rabs (V (q0 x))) by (eapply Rle_trans; [exact H1|]; apply Rmult_le_compat_r; lra).
  assert (L2 : Rabs (V (q2 x)) <= / 1099511627776 * Rabs (V (q1 x))) by (eapply Rle_trans; [exact H2|]; apply Rmult_le_compat_r; lra).
  assert (L3 : Rabs (V (q3 x)) <= / 1099511627776 * Rabs (V (q2 x))) by (eapply Rle_trans; [exact H3|]; apply Rmult_le_compat_r; lra).
  assert (T : Rabs (V (q0 x)) <= Rabs (QV x) + Rabs (V (q1 x)) + Rabs (V (q2 x)) + Rabs (V (q3 x))).
  { replace (V (q0 x)) with (QV x + - V (q1 x) + - V (q2 x) + - V (q3 x)) by (unfold QV; ring).
    eapply Rle_trans; [apply Rabs_triang|]. rewrite Rabs_Ropp. apply Rplus_le_compat_r.
    eapply Rle_trans; [apply Rabs_triang|]. rewrite Rabs_Ropp. apply Rplus_le_compat_r.
    eapply Rle_trans; [apply Rabs_triang|]. rewrite Rabs_Ropp. lra. }
  lra.
Qed.

Lemma q_add_fin x y : QFin x -> QFin y -> q_add x y = q_add_core x y.
Proof.
  intros (Fx & _) (Fy & _). unfold q_add, q_pre_add, q_is_nan, q_is_infinite.
  destruct (q0 x) as [| | |]; try discriminate Fx; destruct (q0 y) as [| | |]; try discriminate Fy; reflexivity.
Qed.

Lemma q_add_acc k x y : (40 <= k <= 53)%Z -> QDec k x -> QDec k y ->
  Rabs (QV x) <= bp 999 -> Rabs (QV y) <= bp 999 ->
  QFin (q_add x y) /\
  Rabs (QV (q_add x y) - (QV x + QV y)) <= bp (10 - 2 * k) * (Rabs (QV x) + Rabs (QV y)) /\
  (bp (9 - k) * (Rabs (QV x) + Rabs (QV y)) <= Rabs (QV x + QV y) ->
   Rabs (QV (q_add x y) - (QV x + QV y)) <= bp (12 - 3 * k) * (Rabs (QV x) + Rabs (QV y))).
Proof.
  intros Hk Hx Hy Bx By.
  assert (Ix := QDec_hi k x ltac:(lia) Hx). assert (Iy := QDec_hi k y ltac:(lia) Hy).
  rewrite q_add_fin by (apply Hx || apply Hy).
  set (A := Rabs (QV x) + Rabs (QV y)) in *.
  set (M0 := Rmax (Rabs (V (q0 x))) (Rabs (V (q0 y)))).
  assert (Mx : Rabs (V (q0 x)) <= M0) by apply Rmax_l. assert (My : Rabs (V (q0 y)) <= M0) by apply Rmax_r.
  assert (PA := Rabs_pos (QV x)). assert (PB := Rabs_pos (QV y)). assert (PC := Rabs_pos (V (q0 x))).
  assert (MA : M0 <= (1 + / 524288) * A).
  { unfold M0, A. apply Rmax_lub; lra. }
  assert (PM : 0 <= M0) by lra.
  set (e := bp (- k)).
  assert (Pe : 0 < e) by apply bpow_gt_0.
  assert (Ue : u <= e) by (change u with (bp (-53)); apply bpow_le; lia).
  assert (Le : e <= / 1099511627776) by (change (/ 1099511627776) with (bp (-40)); apply bpow_le; lia).
  assert (B1000 : 2 * bp 999 = bp 1000) by (change 2 with (bp 1); rewrite <- bpow_plus; reflexivity).
  assert (HS : Scales M0 (e * M0) (e * (e * M0)) (e * (e * (e * M0)))).
  { assert (0 <= e * M0) by (apply Rmult_le_pos; lra).
    assert (0 <= e * (e * M0)) by (apply Rmult_le_pos; lra).
    assert (0 <= e * (e * (e * M0))) by (apply Rmult_le_pos; lra).
    assert (M0 <= bp 1000). { apply Rmax_lub; lra. }
    repeat split; try assumption; apply Rmult_le_compat_r; assumption. }
  assert (G : forall z, QDec k z -> Rabs (V (q0 z)) <= M0 -> QScale M0 (e * M0) (e * (e * M0)) (e * (e * (e * M0))) z).
  { intros z (F & H1 & H2 & H3) L0. fold e in H1, H2, H3.
    assert (L1 : Rabs (V (q1 z)) <= e * M0) by (eapply Rle_trans; [exact H1|]; apply Rmult_le_compat_l; lra).
    assert (L2 : Rabs (V (q2 z)) <= e * (e * M0)) by (eapply Rle_trans; [exact H2|]; apply Rmult_le_compat_l; lra).
    assert (L3 : Rabs (V (q3 z)) <= e * (e * (e * M0))) by (eapply Rle_trans; [exact H3|]; apply Rmult_le_compat_l; lra).
    assert (K : forall a b, Rabs b <= e * Rabs a -> Rabs b <= Rabs a).
    { intros a b Hab. assert (P := Rabs_pos a). assert (e * Rabs a <= 1 * Rabs a) by (apply Rmult_le_compat_r; lra). lra. }
    split; [exact F|]. do 4 (split; [assumption|]). auto. }
  destruct (q_add_core_ok _ _ _ _ x y HS (G x Hx Mx) (G y Hy My)) as (R1 & R2 & R3).
  assert (E2 : bp (10 - 2 * k) = 1024 * (e * e)).
  { unfold e. change 1024 with (bp 10). rewrite <- !bpow_plus. f_equal. lia. }
  assert (E3 : bp (12 - 3 * k) = 4096 * (e * e * e)).
  { unfold e. change 4096 with (bp 12). rewrite <- !bpow_plus. f_equal. lia. }
  assert (E1 : bp (9 - k) = 512 * e).
  { unfold e. change 512 with (bp 9). rewrite <- !bpow_plus. f_equal. }
  assert (P2 : 0 < e * e) by (apply Rmult_lt_0_compat; lra).
  assert (P3 : 0 < e * e * e) by (apply Rmult_lt_0_compat; lra).
  assert (X1 : e * M0 <= e * ((1 + / 524288) * A)) by (apply Rmult_le_compat_l; lra).
  assert (X2 : e * e * M0 <= e * e * ((1 + / 524288) * A)) by (apply Rmult_le_compat_l; lra).
  assert (X3 : e * e * e * M0 <= e * e * e * ((1 + / 524288) * A)) by (apply Rmult_le_compat_l; lra).
  assert (PA0 : 0 <= A) by (unfold A; lra).
  assert (Y1 : 0 <= e * A) by (apply Rmult_le_pos; lra).
  assert (Y2 : 0 <= e * e * A) by (apply Rmult_le_pos; lra).
  assert (Y3 : 0 <= e * e * e * A) by (apply Rmult_le_pos; lra).
  split; [exact R1|]. rewrite E1, E2, E3. split.
  - lra.
  - intros K. assert (256 * (e * M0) <= Rabs (QV x + QV y)) by lra. specialize (R3 H). lra.
Qed.
