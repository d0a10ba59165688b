(** * The Taylor loops of Double sin and cos *)
From Coq Require Import ZArith Reals Lra Lia Psatz List Bool.
From Flocq Require Import Core IEEE754.BinarySingleNaN.
From Verif Require Import RN F64 Prim DoubleM Spec F64Facts EFT DAddProofs DMulProofs DDivProofs MulAny LdexpProofs LawProofs OrderProofs AbsOps Exact ConstM BaseConst ConstProofs TableProofs AlgM TransM ExpProofs.
Local Open Scope R_scope.

(** the terms the loop adds, in real arithmetic *)
Fixpoint tsum (n i : nat) (X W : R) : R :=
  match n with
  | O => 0
  | S n' => W * X / INR (fact (i + 3)) + tsum n' (S (S i)) X (W * X)
  end.
(** the last of them *)
Fixpoint tlast (n i : nat) (X W : R) : R :=
  match n with
  | O => 0
  | S O => W * X / INR (fact (i + 3))
  | S n' => tlast n' (S (S i)) X (W * X)
  end.

Lemma rel_prod a A b B p q : Rabs (a - A) <= p -> Rabs (b - B) <= q -> Rabs (a * b - A * B) <= p * Rabs B + Rabs A * q + p * q.
Proof.
  intros H1 H2. replace (a * b - A * B) with ((a - A) * B + A * (b - B) + (a - A) * (b - B)) by ring.
  eapply Rle_trans; [apply Rabs_triang|]. eapply Rle_trans; [apply Rplus_le_compat_r, Rabs_triang|]. rewrite !Rabs_mult.
  assert (P1 := Rabs_pos (a - A)). assert (P2 := Rabs_pos (b - B)). assert (P3 := Rabs_pos B). assert (P4 := Rabs_pos A).
  apply Rplus_le_compat; [apply Rplus_le_compat|]; apply Rmult_le_compat; lra.
Qed.

Lemma d_le_hi x y : Fin (d0 x) -> Fin (d0 y) -> d_le x y = true -> V (d0 x) <= V (d0 y).
Proof.
  intros Fx Fy H. unfold d_le, d_partial_cmp in H. rewrite (fcmp_ok _ _ Fx Fy) in H. destruct (Rcompare_spec (V (d0 x)) (V (d0 y))); lra || discriminate.
Qed.
Lemma d_le_abs_hi t e TH : DNorm t -> Fin (d0 e) -> V (d0 e) <= TH -> d_le (d_abs t) e = true -> Rabs (DV t) <= 2 * TH.
Proof.
  intros Nt Fe Be H. assert (F : fis_nan (d0 t) = false) by (apply Fin_nan; apply Nt).
  destruct (d_abs_ok t F) as (_ & _ & _ & K). destruct (K Nt) as [Na Va]. apply d_le_hi in H; [|apply Na|exact Fe].
  assert (K1 := DNorm_val_rel _ Na). rewrite Va in K1. assert (P := Rabs_pos (DV t)). assert (K2 : 0 <= V (d0 (d_abs t))).
  { destruct (Rle_or_lt 0 (V (d0 (d_abs t)))) as [G|G]; [exact G|]. exfalso. assert (Lo := DNorm_lo _ Na).
    rewrite (Rabs_left (V (d0 (d_abs t)))) in Lo by exact G. unfold DV in Va at 1. apply Rabs_def2' in Lo. lra. }
  rewrite (Rabs_pos_eq (V _)) in K1 by exact K2. apply Rabs_def2' in K1. lra.
Qed.

Section Loop.
Variables (x thr : Double) (X B TH : R).
Hypothesis Nx : DNorm x.
Hypothesis Fthr : Fin (d0 thr).
Hypothesis Bthr : V (d0 thr) <= TH.
Hypothesis HX : Rabs X <= / 100.
Hypothesis EX : Rabs (DV x - X) <= 9 * vv * Rabs X + tiny.
Hypothesis HB : B <= 2.

Lemma loop_step i c W r : (i < 15)%nat -> 0 <= c <= 160 -> DNorm r -> Rabs W <= 1 -> Rabs (DV r - W) <= c * vv * Rabs W + 3 * tiny ->
  let r' := d_mul r x in let t := d_mul r' (nth i D_INV_FACTS D_ZERO) in let T := W * X / INR (fact (i + 3)) in
  DNorm r' /\ DNorm t /\ Rabs (DV r' - W * X) <= (c + 20) * vv * Rabs (W * X) + 3 * tiny /\
  Rabs (DV t - T) <= (c + 40) * vv * Rabs W * / 600 + 2 * tiny /\ Rabs T <= Rabs W * / 600.
Proof.
  intros Hi Hc Nr HR Er. cbv zeta. destruct tiny_le as [T0 T1].
  assert (PR := Rabs_pos W). assert (PX := Rabs_pos X).
  assert (CR : c * vv * Rabs W <= 160 * vv) by nra. assert (CR0 : 0 <= c * vv * Rabs W) by nra.
  assert (Bx : Rabs (DV x) <= / 99) by (assert (K := tri _ _ _ _ EX HX); lra).
  assert (Br : Rabs (DV r) <= 2) by (assert (K := tri _ _ _ _ Er HR); lra).
  destruct (mul_abs r x Nr Nx) as [N1 E1]; [apply b100; lra|apply b100; lra|].
  set (r' := d_mul r x) in *.
  assert (PRX : Rabs (W * X) = Rabs W * Rabs X) by apply Rabs_mult.
  set (w := Rabs W) in *. set (z := Rabs X) in *. assert (WZ : 0 <= w * z <= / 100) by nra.
  assert (D1 : Rabs (DV r * DV x - W * X) <= (c + 9 + / 100) * vv * (w * z) + 12 / 10 * tiny).
  { assert (K := rel_prod _ _ _ _ _ _ Er EX). fold w z in K. eapply Rle_trans; [exact K|].
    assert (c * vv * (9 * vv) * (w * z) <= / 1000 * vv * (w * z)).
    { apply Rmult_le_compat_r; [lra|]. nra. }
    assert (w * tiny <= tiny) by nra. assert (3 * tiny * z <= 3 / 100 * tiny) by nra.
    assert (c * vv * w * tiny <= / 100 * tiny) by nra. assert (3 * tiny * (9 * vv * z) <= / 100 * tiny) by nra. assert (3 * tiny * tiny <= / 100 * tiny) by nra.
    lra. }
  assert (D2 : Rabs (DV r * DV x) <= (1 + / 1000) * (w * z) + 12 / 10 * tiny).
  { assert (K := tri _ _ _ _ D1 (Rle_refl _)). rewrite PRX in K. assert ((c + 9 + / 100) * vv * (w * z) <= / 1000 * (w * z)); [|lra].
    apply Rmult_le_compat_r; [lra|]. nra. }
  assert (E1' : Rabs (DV r' - W * X) <= (c + 20) * vv * (w * z) + 3 * tiny).
  { replace (DV r' - W * X) with (DV r' - DV r * DV x + (DV r * DV x - W * X)) by ring.
    eapply Rle_trans; [apply Rabs_triang|]. assert (K2 : 10 * vv * Rabs (DV r * DV x) <= 10 * vv * ((1 + / 1000) * (w * z) + 12 / 10 * tiny)) by (apply Rmult_le_compat_l; lra).
    assert (vv * tiny <= / 1000 * tiny) by nra. assert (0 <= vv * (w * z)) by nra. lra. }
  destruct (inv_facts_abs i Hi) as [Nf [Ef Bf]].
  (* relative form of the table entry *)
  assert (Ef' : Rabs (DV (nth i D_INV_FACTS D_ZERO) - / INR (fact (i + 3))) <= 4 * vv * / INR (fact (i + 3))).
  { assert (K := proj2 d_inv_facts_ok i Hi). unfold approx in K. rewrite (Rabs_pos_eq (/ _)) in K by lra.
    change (IZR 1) with 1 in K. rewrite Rmult_1_l in K. change (-104)%Z with (-106 + 2)%Z in K. rewrite bpow_plus, vv_bp in K. change (bp 2) with 4 in K. lra. }
  set (f := nth i D_INV_FACTS D_ZERO) in *. set (G := / INR (fact (i + 3))) in *.
  assert (BF : Rabs (DV f) <= / 5). { assert (K := tri (DV f) G _ (/ 6) Ef). rewrite (Rabs_pos_eq G) in K by lra. lra. }
  assert (Q : (c + 20) * vv * (w * z) <= / 1000 * (w * z)) by (apply Rmult_le_compat_r; [lra|nra]).
  assert (Br' : Rabs (DV r') <= 2). { assert (K := tri _ _ _ _ E1' (Rle_refl _)). rewrite PRX in K. lra. }
  destruct (mul_abs r' f N1 Nf) as [N2 E2]; [apply b100; lra|apply b100; lra|].
  set (t := d_mul r' f) in *.
  split; [exact N1|]. split; [exact N2|]. split; [rewrite PRX; exact E1'|].
  assert (TB : Rabs (W * X / INR (fact (i + 3))) = w * z * G).
  { unfold Rdiv. fold G. rewrite !Rabs_mult, (Rabs_pos_eq G) by lra. reflexivity. }
  assert (WZG : 0 <= w * z * G <= w * / 600).
  { split; [repeat apply Rmult_le_pos; lra|]. rewrite Rmult_assoc. apply Rmult_le_compat_l; [lra|]. replace (/ 600) with (/ 100 * / 6) by lra. apply Rmult_le_compat; lra. }
  split; [|rewrite TB; lra].
  unfold Rdiv. fold G.
  assert (D3 : Rabs (DV r' * DV f - W * X * G) <= (c + 25) * vv * (w * z * G) + 9 / 10 * tiny).
  { assert (K := rel_prod (DV r') (W * X) (DV f) G _ _ E1' Ef'). rewrite PRX, (Rabs_pos_eq G) in K by lra. eapply Rle_trans; [exact K|].
    assert (4 * vv * G <= 4 * vv) by nra. assert (3 * tiny * G <= 3 * tiny * / 6) by nra. assert (3 * tiny * (4 * vv * G) <= 3 * tiny * / 100) by nra.
    assert ((c + 20) * vv * (w * z) * (4 * vv * G) <= / 100 * vv * (w * z * G)).
    { replace ((c + 20) * vv * (w * z) * (4 * vv * G)) with ((c + 20) * vv * (4 * vv) * (w * z * G)) by ring. apply Rmult_le_compat_r; [lra|nra]. }
    assert (0 <= vv * (w * z * G)) by nra. lra. }
  assert (TB' : Rabs (W * X * G) = w * z * G) by (rewrite <- TB; reflexivity).
  assert (D4 : Rabs (DV r' * DV f) <= (1 + / 1000) * (w * z * G) + tiny).
  { assert (K := tri _ _ _ _ D3 (Rle_refl _)). rewrite TB' in K.
    assert ((c + 25) * vv * (w * z * G) <= / 1000 * (w * z * G)); [|lra]. apply Rmult_le_compat_r; [lra|nra]. }
  assert (KK : Rabs (DV t - W * X * G) <= (c + 36) * vv * (w * z * G) + 2 * tiny).
  { replace (DV t - W * X * G) with (DV t - DV r' * DV f + (DV r' * DV f - W * X * G)) by ring.
    eapply Rle_trans; [apply Rabs_triang|]. assert (K2 : 10 * vv * Rabs (DV r' * DV f) <= 10 * vv * ((1 + / 1000) * (w * z * G) + tiny)) by (apply Rmult_le_compat_l; lra).
    assert (vv * tiny <= / 100000 * tiny) by nra. assert (0 <= vv * (w * z * G)) by nra. lra. }
  eapply Rle_trans; [exact KK|]. assert ((c + 36) * vv * (w * z * G) <= (c + 36) * vv * (w * / 600)) by (apply Rmult_le_compat_l; nra).
  assert (0 <= vv * w) by nra. lra.
Qed.

Lemma loop_ok n : forall i c e W U r s, (i + 2 * n <= 16)%nat -> 0 <= c -> c + 20 * INR n <= 160 -> DNorm r -> DNorm s -> Rabs W <= 1 ->
  Rabs (DV r - W) <= c * vv * Rabs W + 3 * tiny -> (c + 40) * Rabs W <= 50 * B -> Rabs U + Rabs W / 100 <= B ->
  0 <= e -> e + INR n * (63 / 10 * vv * B + 3 * tiny) <= / 1000 * B -> Rabs (DV s - U) <= e ->
  exists m, (m <= n)%nat /\ (n = 0%nat \/ 0 < m)%nat /\ DNorm (d_taylor_loop n i x thr s r) /\
   Rabs (DV (d_taylor_loop n i x thr s r) - (U + tsum m i X W)) <= e + INR m * (63 / 10 * vv * B + 3 * tiny) /\
   (m = n \/ Rabs (tlast m i X W) <= 2 * TH + vv * B + 2 * tiny).
Proof.
  destruct tiny_le as [T0 T1].
  induction n as [|n IH]; intros i c e W U r s Hi Hc Hc2 Nr Ns HR Er IB IS He HeB Es.
  - exists 0%nat. cbn [tsum d_taylor_loop INR]. split; [lia|]. split; [now left|]. split; [exact Ns|]. split; [|now left]. rewrite Rplus_0_r. lra.
  - rewrite S_INR in *. assert (IN := pos_INR n).
    assert (PR := Rabs_pos W). assert (PX := Rabs_pos X). assert (PS := Rabs_pos U).
    assert (B0 : 0 <= B) by lra.
    destruct (loop_step i c W r ltac:(lia) ltac:(lra) Nr HR Er) as (N1 & N2 & E1 & E2 & BT).
    cbn [d_taylor_loop]. cbv zeta. set (r' := d_mul r x) in *. set (t := d_mul r' _) in *. set (T := W * X / INR (fact (i + 3))) in *.
    assert (QQ : (c + 40) * vv * Rabs W * / 600 <= / 12 * vv * B).
    { replace ((c + 40) * vv * Rabs W * / 600) with (vv * / 600 * ((c + 40) * Rabs W)) by ring. replace (/ 12 * vv * B) with (vv * / 600 * (50 * B)) by field. apply Rmult_le_compat_l; lra. }
    assert (E2' : Rabs (DV t - T) <= / 12 * vv * B + 2 * tiny) by lra.
    assert (BT' : Rabs (U + T) + Rabs (W * X) / 100 <= B).
    { assert (K := Rabs_triang U T). rewrite (Rabs_mult W X). assert (Rabs W * Rabs X <= Rabs W * / 100) by (apply Rmult_le_compat_l; lra). lra. }
    assert (eB : e <= / 1000 * B). { assert (0 <= (INR n + 1) * (63 / 10 * vv * B + 3 * tiny)) by (apply Rmult_le_pos; lra). lra. }
    assert (Bs : Rabs (DV s) <= 3). { assert (K := tri _ _ _ B Es ltac:(lra)). lra. }
    assert (Bt : Rabs (DV t) <= 3). { assert (K := tri _ _ _ (Rabs W * / 600) E2' ltac:(lra)). assert (vv * B <= vv * 2) by nra. lra. }
    destruct (add_abs s t Ns N2) as [N3 E3]; [apply b100; lra|apply b100; lra|].
    set (s' := d_add s t) in *.
    assert (tB : 3 * tiny <= / 1000 * B). { assert (0 <= INR n * (63 / 10 * vv * B + 3 * tiny)) by (apply Rmult_le_pos; lra). assert (0 <= vv * B) by nra. lra. }
    assert (P1 : 0 <= Rabs (W * X)) by apply Rabs_pos.
    assert (Q1 : Rabs (DV s + DV t - (U + T)) <= e + (/ 12 * vv * B + 2 * tiny)).
    { replace (DV s + DV t - (U + T)) with ((DV s - U) + (DV t - T)) by ring. eapply Rle_trans; [apply Rabs_triang|]. lra. }
    assert (Q2 : Rabs (DV s + DV t) <= (1 + / 300) * B).
    { assert (K := tri _ _ _ B Q1 ltac:(lra)). assert (vv * B <= / 100000 * B) by nra. lra. }
    assert (E3' : Rabs (DV s' - (U + T)) <= e + (63 / 10 * vv * B + 3 * tiny)).
    { replace (DV s' - (U + T)) with (DV s' - (DV s + DV t) + (DV s + DV t - (U + T))) by ring. eapply Rle_trans; [apply Rabs_triang|].
      assert (6 * vv * Rabs (DV s + DV t) <= 6 * vv * ((1 + / 300) * B)) by (apply Rmult_le_compat_l; lra). assert (0 <= vv * B) by nra. lra. }
    assert (PVB : 0 <= vv * B) by nra.
    destruct (d_le (d_abs t) thr) eqn:LE.
    + exists 1%nat. cbn [tsum tlast INR]. split; [lia|]. split; [right; lia|]. split; [exact N3|]. split.
      * fold T. rewrite Rplus_0_r, Rmult_1_l. exact E3'.
      * right. fold T. apply (d_le_abs_hi _ _ TH) in LE; auto.
        replace T with (DV t - (DV t - T)) by ring. eapply Rle_trans; [apply Rabs_triang|]. rewrite Rabs_Ropp. lra.
    + assert (RX : Rabs (W * X) <= Rabs W * / 100) by (rewrite Rabs_mult; apply Rmult_le_compat_l; lra).
      destruct (IH (S (S i)) (c + 20) (e + (63 / 10 * vv * B + 3 * tiny)) (W * X) (U + T) r' s') as (m & M1 & M2 & M3 & M4 & M5); try assumption; try lra; try lia.
      * assert ((c + 60) * Rabs (W * X) <= (c + 60) * (Rabs W * / 100)) by (apply Rmult_le_compat_l; lra). assert (0 <= c * Rabs W) by (apply Rmult_le_pos; lra). lra.
      * exists (S m). split; [lia|]. split; [right; lia|]. split; [exact M3|]. split.
        -- cbn [tsum]. fold T. rewrite S_INR. replace (U + (T + tsum m (S (S i)) X (W * X))) with (U + T + tsum m (S (S i)) X (W * X)) by ring.
           eapply Rle_trans; [exact M4|]. lra.
        -- destruct M5 as [->|M5]; [now left|]. destruct m as [|m].
           ++ destruct M2 as [->|M2]; [now left|lia].
           ++ right. exact M5.
Qed.
End Loop.
