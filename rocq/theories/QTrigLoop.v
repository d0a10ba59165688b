(** * The Taylor loops of Quad sin and cos *)
From Coq Require Import ZArith Reals List Bool Lia Lra.
From Flocq Require Import Core IEEE754.BinarySingleNaN.
From Verif Require Import F64 F64Facts Prim DoubleM QuadM AlgM RN Spec EFT SpecialProofs ExactProofs QExactProofs LawProofs QuadSpec QAddAcc QAddThms QMulAcc QMulThms QGeoAcc QGeoMul QSqrAcc QLoose QLDiv QLOps
  DDivProofs DAddProofs DMulProofs AbsOps Exact ConstM BaseConst ConstProofs TableProofs TransM ExpProofs QExpProofs SinLoop SinSeries QLogThms QTrigOps.
Import ListNotations.
Local Open Scope R_scope.
Notation uu := (u * u).

Lemma q_FRAC_PI_1024_ok : QNorm Q_FRAC_PI_1024 /\ approx (QV Q_FRAC_PI_1024) (PI / 1024) 1 (-212).
Proof.
  split; [apply qnormx_ok; vm_compute; reflexivity|].
  apply (approx_q _ 82712080459661211598412351754116085124540717817670254125635472307 26959946667150639794667015087019630673637144422540572481103610249216); [reflexivity|vm_compute; reflexivity|].
  apply rel_lin; consts.
Qed.

Lemma inv_ok i : (i < 15)%nat -> QB (/ 5) u (nth i Q_INV_FACTS Q_ZERO) /\ Rabs (QV (nth i Q_INV_FACTS Q_ZERO) - / INR (fact (i + 3))) <= uu /\ 0 <= / INR (fact (i + 3)) <= / 6.
Proof.
  intros H. assert (N := q_inv_facts_norm i H). assert (E := proj2 q_inv_facts_ok i H). unfold approx in E.
  assert (B : 0 <= / INR (fact (i + 3)) <= / 6).
  { split; [left; apply Rinv_0_lt_compat, INR_fact_lt_0|]. rewrite <- fz_3. apply Rinv_le_contravar; [apply INR_fact_lt_0|]. apply le_INR, fact_le. lia. }
  set (f := / INR (fact (i + 3))) in *. rewrite (Rabs_pos_eq f) in E by lra. change (IZR 1) with 1 in E. rewrite Rmult_1_l in E.
  assert (K : bp (-212) <= uu) by (rewrite <- u_bp, <- bpow_plus; apply bpow_le; lia). assert (P := bpow_gt_0 radix2 (-212)).
  assert (E2 : Rabs (QV (nth i Q_INV_FACTS Q_ZERO) - f) <= uu).
  { apply Rle_trans with (1 := E). apply Rle_trans with (bp (-212) * 1); [apply Rmult_le_compat_l; lra|lra]. }
  split; [|split; assumption]. assert (L := QL_geoS _ (norm_geoS _ N)). assert (LV := QL_abs (4 * u) _ ltac:(lra) ltac:(lra) L).
  assert (Q : Rabs (QV (nth i Q_INV_FACTS Q_ZERO)) <= 17 / 100) by (apply Rabs_le_inv in E2; apply Rabs_le; lra).
  apply QB_mono with (/ 5) (4 * u * / 5); [lra|lra|]. apply QL_QB; [exact L|lra|lra].
Qed.

Section Loop.
Variables (x thr : Quad) (X : R).
Hypothesis Bx : QB (/ 400000) (/ 100000 * u) x.
Hypothesis Ft : Fin (q0 thr).
Hypothesis Ht : V (q0 thr) <= / 1000000000 * u.
Hypothesis BX : Rabs X <= / 400000.
Hypothesis EX : Rabs (QV x - X) <= 13000 * uu.
Lemma step_r r W : QB (/ 600) (14 * u) r -> Rabs (QV r - W) <= 13000 * uu -> Rabs W <= / 600 -> (V (q0 r) = 0 -> Rabs (QV r * QV x) <= uu) ->
  QB (/ 50000000) (/ 30000000 * u) (q_mul r x) /\ Rabs (QV (q_mul r x) - W * X) <= 23 * uu /\ Rabs (W * X) <= / 240000000 /\ (V (q0 (q_mul r x)) = 0 -> Rabs (QV (q_mul r x)) <= uu).
Proof.
  intros Br Er BW Z.
  assert (E0 : QB (/ 50000000) (/ 30000000 * u) (q_mul r x) /\ Rabs (QV (q_mul r x) - QV r * QV x) <= uu /\ (V (q0 (q_mul r x)) = 0 -> Rabs (QV (q_mul r x)) <= uu)).
  { destruct (Req_dec (V (q0 r)) 0) as [C|C].
    - destruct (zmul r x) as [G1 G2]; [apply Br|apply Bx|exact C|]. split; [eapply QB_mono; [| |exact G1]; lra|]. rewrite G2. split; [|rewrite Rabs_R0; lra].
      rewrite Rminus_0_l, Rabs_Ropp. auto.
    - assert (B4 : 1 <= bp 400) by (change 1 with (bp 0); apply bpow_le; lia). assert (B9 : 1 <= bp 900) by (change 1 with (bp 0); apply bpow_le; lia).
      destruct (bmul (/ 600) (14 * u) (/ 400000) (/ 100000 * u) r x (/ 20000 * u) (/ 1000 * uu) Br Bx) with (N0 := / 100000000) as (G1 & G2 & G3); try lra; try exact C.
      split; [eapply QB_mono; [| |exact G2]; lra|]. split; [lra|]. intros K. specialize (G3 K). lra. }
  destruct E0 as (A1 & A2 & A3). split; [exact A1|]. split; [|split; [|exact A3]].
  - assert (K := rel_prod _ _ _ _ _ _ Er EX). assert (PX := Rabs_pos X). assert (PW := Rabs_pos W).
    assert (K1 : 13000 * uu * Rabs X <= 13000 * uu * / 400000) by (apply Rmult_le_compat_l; lra).
    assert (K2 : Rabs W * (13000 * uu) <= / 600 * (13000 * uu)) by (apply Rmult_le_compat_r; lra).
    replace (QV (q_mul r x) - W * X) with ((QV (q_mul r x) - QV r * QV x) + (QV r * QV x - W * X)) by ring. eapply Rle_trans; [apply Rabs_triang|]. lra.
  - eapply Rle_trans; [apply prod_le; eassumption|]. lra.
Qed.
Lemma step_t r i W : (i < 15)%nat -> QB (/ 50000000) (/ 30000000 * u) r -> Rabs (QV r - W) <= 23 * uu -> Rabs W <= / 240000000 -> (V (q0 r) = 0 -> Rabs (QV r) <= uu) ->
  QB (/ 30000000) (/ 20000000 * u) (q_mul r (nth i Q_INV_FACTS Q_ZERO)) /\ Rabs (QV (q_mul r (nth i Q_INV_FACTS Q_ZERO)) - W / INR (fact (i + 3))) <= 12 * uu /\ Rabs (W / INR (fact (i + 3))) <= / 1000000000.
Proof.
  intros Hi Br Er BW Z. destruct (inv_ok i Hi) as (Bv & Ev & Bf). set (v := nth i Q_INV_FACTS Q_ZERO) in *. unfold Rdiv. set (f := / INR (fact (i + 3))) in *.
  assert (Rf : Rabs f <= / 6) by (rewrite Rabs_pos_eq; lra).
  assert (E0 : QB (/ 30000000) (/ 20000000 * u) (q_mul r v) /\ Rabs (QV (q_mul r v) - QV r * QV v) <= 5 * uu).
  { destruct (Req_dec (V (q0 r)) 0) as [C|C].
    - destruct (zmul r v) as [G1 G2]; [apply Br|apply Bv|exact C|]. split; [eapply QB_mono; [| |exact G1]; lra|]. rewrite G2, Rminus_0_l, Rabs_Ropp.
      assert (K := QB_abs _ _ _ Bv). eapply Rle_trans; [apply prod_le; [apply (Z C)|exact K]|]. lra.
    - assert (B4 : 1 <= bp 400) by (change 1 with (bp 0); apply bpow_le; lia). assert (B9 : 1 <= bp 900) by (change 1 with (bp 0); apply bpow_le; lia).
      destruct (bmul (/ 50000000) (/ 30000000 * u) (/ 5) u r v (/ 50000000 * u) uu Br Bv) with (N0 := / 50000000) as (G1 & G2 & G3); try lra; try exact C.
      split; [eapply QB_mono; [| |exact G2]; lra|]. lra. }
  destruct E0 as (A1 & A2). split; [exact A1|]. split.
  - assert (K := rel_prod _ _ _ _ _ _ Er Ev). assert (PW := Rabs_pos W). assert (Pf := Rabs_pos f).
    assert (K1 : 23 * uu * Rabs f <= 23 * uu * / 6) by (apply Rmult_le_compat_l; lra).
    assert (K2 : Rabs W * uu <= / 240000000 * uu) by (apply Rmult_le_compat_r; lra).
    replace (QV (q_mul r v) - W * f) with ((QV (q_mul r v) - QV r * QV v) + (QV r * QV v - W * f)) by ring. eapply Rle_trans; [apply Rabs_triang|]. lra.
  - eapply Rle_trans; [apply prod_le; eassumption|]. lra.
Qed.
Lemma loop_okQ : forall n i s r U W e,
  (i + 2 * n <= 16)%nat -> QB (103 / 100) (18 * u) s -> Rabs (QV s) <= 1002 / 1000 - INR n / 10000 -> Rabs (QV s - U) <= e ->
  QB (/ 600) (14 * u) r -> Rabs (QV r - W) <= 13000 * uu -> Rabs W <= / 600 -> (V (q0 r) = 0 -> Rabs (QV r * QV x) <= uu) ->
  (V (q0 s) = 0 -> QV s = 0) ->
  exists m, (m <= n)%nat /\ (m = n \/ (0 < m)%nat) /\ QB (103 / 100) (18 * u) (q_taylor_loop n i x thr s r) /\
   Rabs (QV (q_taylor_loop n i x thr s r)) <= 1002 / 1000 /\ (V (q0 (q_taylor_loop n i x thr s r)) = 0 -> QV (q_taylor_loop n i x thr s r) = 0) /\
   Rabs (QV (q_taylor_loop n i x thr s r) - (U + tsum m i X W)) <= e + INR m * (12200 * uu) /\
   (m = n \/ Rabs (tlast m i X W) <= / 5000000 * u).
Proof.
  induction n as [|n IH]; intros i s r U W e Hi Bs Ss Es Br Er BW Z Zs.
  - exists 0%nat. cbn [tsum q_taylor_loop INR] in *. split; [lia|]. split; [now left|]. split; [exact Bs|]. split; [lra|]. split; [exact Zs|]. split; [|now left]. replace (U + 0) with U by ring. lra.
  - cbn [q_taylor_loop]. cbv zeta. destruct (step_r r W Br Er BW Z) as (R1 & R2 & R3 & R4). set (r' := q_mul r x) in *.
    destruct (step_t r' i (W * X) ltac:(lia) R1 R2 R3 R4) as (T1 & T2 & T3). set (t := q_mul r' (nth i Q_INV_FACTS Q_ZERO)) in *. set (T := W * X / INR (fact (i + 3))) in *.
    assert (B9 : 1000 <= bp 1000) by (apply Rle_trans with (bp 10); [cbn; lra|apply bpow_le; lia]).
    destruct (badd (103 / 100) (18 * u) s t) as (A1 & A2 & A3); try lra; [exact Bs|eapply QB_mono; [| |exact T1]; lra|].
    rewrite S_INR in Ss. set (s' := q_add s t) in *.
    assert (BT : Rabs (QV t) <= / 10000000) by (assert (K := QB_abs _ _ _ T1); lra).
    assert (PN := pos_INR n).
    assert (S' : Rabs (QV s') <= 1002 / 1000 - INR n / 10000).
    { replace (QV s') with ((QV s' - (QV s + QV t)) + (QV s + QV t)) by ring. eapply Rle_trans; [apply Rabs_triang|]. assert (K := Rabs_triang (QV s) (QV t)). lra. }
    assert (BS' : QB (103 / 100) (18 * u) s').
    { eapply QB_mono; [| |eapply QB_sharp; [exact A2|exact S']]; lra. }
    assert (E' : Rabs (QV s' - (U + T)) <= e + 12200 * uu).
    { replace (QV s' - (U + T)) with ((QV s' - (QV s + QV t)) + (QV s - U) + (QV t - T)) by ring. eapply Rle_trans; [apply Rabs_triang|]. eapply Rle_trans; [apply Rplus_le_compat_r, Rabs_triang|]. lra. }
    destruct (q_le (q_abs t) thr) eqn:LE.
    + exists 1%nat. cbn [tsum tlast INR]. split; [lia|]. split; [right; lia|]. split; [exact BS'|]. split; [lra|]. split; [exact A3|]. split.
      * fold T. replace (U + (T + 0)) with (U + T) by ring. lra.
      * right. fold T. assert (Fq : Fin (q0 t)) by apply T1. destruct (q_abs_hi t Fq) as [G1 G2]. assert (K := q_le_hi (q_abs t) thr G1 Ft). rewrite LE, G2 in K.
        assert (K2 := QB_val _ _ _ T1). assert (Rabs (QV t) <= / 6000000 * u) by (replace (QV t) with ((QV t - V (q0 t)) + V (q0 t)) by ring; eapply Rle_trans; [apply Rabs_triang|]; lra).
        replace T with (- (QV t - T) + QV t) by ring. eapply Rle_trans; [apply Rabs_triang|]. rewrite Rabs_Ropp. lra.
    + assert (W1 : Rabs (W * X) <= / 600) by lra.
      destruct (IH (S (S i)) s' r' (U + T) (W * X) (e + 12200 * uu)) as (m & M1 & M2 & M3 & M4 & M5 & M6 & M7); try assumption; try lia; try lra.
      { eapply QB_mono; [| |exact R1]; lra. }
      { intros K. specialize (R4 K). assert (K2 := QB_abs _ _ _ Bx). eapply Rle_trans; [apply prod_le; [exact R4|exact K2]|]. lra. }
      exists (S m). split; [lia|]. split; [right; lia|]. split; [exact M3|]. split; [exact M4|]. split; [exact M5|]. split.
      * cbn [tsum]. fold T. rewrite S_INR. replace (U + (T + tsum m (S (S i)) X (W * X))) with (U + T + tsum m (S (S i)) X (W * X)) by ring. lra.
      * destruct M2 as [M2|M2]; [left; lia|]. destruct M7 as [M7|M7]; [left; lia|]. right.
        destruct m as [|m]; [lia|]. exact M7.
Qed.
End Loop.
