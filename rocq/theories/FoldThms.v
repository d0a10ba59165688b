(** * Accuracy of Sum and Product over any sequence (lemmas) *)
From Coq Require Import ZArith Reals List Bool Lia Lra.
From Flocq Require Import Core IEEE754.BinarySingleNaN.
From Verif Require Import F64 F64Facts Prim DoubleM QuadM RN Spec EFT DAddProofs DMulProofs DDivProofs SpecialProofs QuadSpec QAddAcc QAddThms QMulAcc QMulThms QMulFine QFallAcc QFallThms FoldSpec FoldProofs.
Import ListNotations.
Local Open Scope R_scope.

Lemma DNorm_val_abs x : DNorm x -> Rabs (DV x) <= (1 + u) * Rabs (V (d0 x)).
Proof. intros N. assert (K := DNorm_lo x N). unfold DV. eapply Rle_trans; [apply Rabs_triang|]. lra. Qed.

Lemma DNorm_ONE : DNorm D_ONE /\ DV D_ONE = 1.
Proof.
  assert (F1 : fmt 1) by (rewrite <- V_1; auto with fmt). split.
  - apply DNorm_mk with 1; [apply Fin_1|apply Fin_0| |]; rewrite (rn_id 1 F1). apply V_1. change (V f0) with 0. ring.
  - unfold DV, D_ONE; cbn [d0 d1]. rewrite V_1. change (V f0) with 0. ring.
Qed.

Lemma d_sum_ok l : Forall DNorm l -> rsum (map (fun x => Rabs (DV x)) l) <= bp 1010 ->
  INR (length l) * (12 * bp (-106)) <= 1 ->
  DNorm (d_sum l) /\
  Rabs (DV (d_sum l) - rsum (map DV l)) <= INR (length l) * (12 * bp (-106)) * rsum (map (fun x => Rabs (DV x)) l).
Proof.
  intros Hl HB Hn. unfold d_sum.
  assert (G := bpow_gt_0 radix2 (-106)).
  assert (EA : map Rabs (map DV l) = map (fun x => Rabs (DV x)) l) by apply map_map.
  replace (12 * bp (-106)) with (2 * (6 * bp (-106))) in * by ring.
  destruct (fold_sum Double DNorm DV (6 * bp (-106)) (bp 1010) ltac:(lra) d_add) with (l := l) (acc := D_ZERO) (L := @nil R) as [K1 K2].
  - intros x y Nx Ny Bx By.
    assert (Hx := DNorm_hi_rel x Nx). assert (Hy := DNorm_hi_rel y Ny).
    assert (E : bp 1015 = 32 * bp 1010) by (apply (bp_split 1010 5); lia).
    assert (G2 := bpow_gt_0 radix2 1010).
    destruct (d_add_ok x y Nx Ny) as [N A]; [unfold D15; lra|unfold D15; lra|].
    split; [exact N|]. unfold approx in A. eapply Rle_trans; [exact A|].
    apply Rmult_le_compat_l; [lra|apply Rabs_triang].
  - apply DNorm_const.
  - exact Hl.
  - cbn [app]. now rewrite EA.
  - cbn [length Nat.add]. exact Hn.
  - rewrite rsum_nil. replace (DV D_ZERO) with 0 by (unfold DV; cbn [D_ZERO d0 d1]; change (V f0) with 0; ring).
    cbn [length INR map]. rewrite Rminus_0_r, Rabs_R0. lra.
  - cbn [app length Nat.add] in K2. rewrite EA in K2. split; [exact K1|exact K2].
Qed.

Lemma d_product_ok l : Forall DNorm l ->
  (forall l1 l2, l = l1 ++ l2 -> bp (-890) <= Rabs (rprod (map DV l1)) <= bp 1010) ->
  INR (length l) * (18 * bp (-106)) <= / 2 ->
  DNorm (d_product l) /\
  Rabs (DV (d_product l) - rprod (map DV l)) <= INR (length l) * (18 * bp (-106)) * Rabs (rprod (map DV l)).
Proof.
  intros Hl HB Hn. unfold d_product.
  assert (G := bpow_gt_0 radix2 (-106)). destruct DNorm_ONE as [N1 V1].
  replace (18 * bp (-106)) with (2 * (9 * bp (-106))) in * by ring.
  destruct (fold_prod Double DNorm DNorm DV (9 * bp (-106)) (bp (-890)) (bp 1010) ltac:(lra) (bpow_gt_0 _ _) d_mul) with (l := l) (acc := D_ONE) (L := @nil R) as [K1 K2].
  - intros x y Nx Ny Bx Bxy.
    assert (Hx := DNorm_hi_rel x Nx). assert (Hy := DNorm_hi_rel y Ny).
    assert (Lx := DNorm_val_abs x Nx). assert (Ly := DNorm_val_abs y Ny).
    assert (E : bp 1015 = 32 * bp 1010) by (apply (bp_split 1010 5); lia).
    assert (E2 : bp (-890) = 1024 * bp (-900)) by (apply (bp_split (-900) 10); lia).
    assert (G2 := bpow_gt_0 radix2 1010). assert (G3 := bpow_gt_0 radix2 (-900)).
    rewrite Rabs_mult in Bxy.
    set (a := Rabs (V (d0 x))) in *. set (b := Rabs (V (d0 y))) in *.
    set (p := Rabs (DV x)) in *. set (q := Rabs (DV y)) in *.
    assert (0 <= a) by apply Rabs_pos. assert (0 <= b) by apply Rabs_pos.
    assert (0 <= p) by apply Rabs_pos. assert (0 <= q) by apply Rabs_pos.
    assert (T1 : a * b <= ((1 + 2 * u) * p) * ((1 + 2 * u) * q)) by (apply Rmult_le_compat; lra).
    assert (T2 : p * q <= ((1 + u) * a) * ((1 + u) * b)) by (apply Rmult_le_compat; lra).
    assert (0 <= a * b) by (apply Rmult_le_pos; auto). assert (0 <= p * q) by (apply Rmult_le_pos; auto).
    apply (d_mul_ok x y Nx Ny). right. rewrite Rabs_mult. fold a b. split; lra.
  - exact N1.
  - exact Hl.
  - exact HB.
  - cbn [length Nat.add]. exact Hn.
  - rewrite V1, rprod_nil, Rminus_diag_eq by reflexivity. cbn [length INR]. rewrite Rabs_R0, Rabs_R1. lra.
  - split; [exact K1|exact K2].
Qed.

Lemma QFall_ONE : QFall 52 Q_ONE /\ QV Q_ONE = 1.
Proof.
  assert (Z0 : V f0 = 0) by reflexivity.
  split.
  - split. { repeat split; try apply Fin_1; apply Fin_0. }
    unfold Q_ONE; cbn [q0 q1 q2 q3]. rewrite V_1, Z0, Rabs_R0, Rabs_R1.
    assert (G1 := bpow_gt_0 radix2 (- (52))). assert (G2 := bpow_gt_0 radix2 (- 2 * 52)). assert (G3 := bpow_gt_0 radix2 (- 3 * 52)).
    repeat split; lra.
  - unfold QV, Q_ONE; cbn [q0 q1 q2 q3]. rewrite V_1, Z0. ring.
Qed.

Lemma q_product_ok l : Forall (fun x => QDec 53 x /\ Rabs (QV x) <= bp 490) l ->
  (forall l1 l2, l = l1 ++ l2 -> bp (-490) <= Rabs (rprod (map QV l1)) <= bp 490) ->
  INR (length l) * bp (-197) <= / 2 ->
  QFall 52 (q_product l) /\
  Rabs (QV (q_product l) - rprod (map QV l)) <= INR (length l) * bp (-197) * Rabs (rprod (map QV l)).
Proof.
  intros Hl HB Hn. unfold q_product.
  assert (ED : bp (-197) = 2 * bp (-198)) by (apply (bp_split (-198) 1); lia).
  assert (G := bpow_gt_0 radix2 (-198)). destruct QFall_ONE as [N1 V1].
  rewrite ED in *.
  destruct (fold_prod Quad (QFall 52) (fun x => QDec 53 x /\ Rabs (QV x) <= bp 490) QV (bp (-198)) (bp (-490)) (bp 490) ltac:(lra) (bpow_gt_0 _ _) q_mul) with (l := l) (acc := Q_ONE) (L := @nil R) as [K1 K2].
  - intros x y Nx [Ny By] Bx Bxy.
    assert (E1 : bp 499 = 512 * bp 490) by (apply (bp_split 490 9); lia).
    assert (E2 : bp (-490) = 1024 * bp (-500)) by (apply (bp_split (-500) 10); lia).
    assert (G1 := bpow_gt_0 radix2 490). assert (G2 := bpow_gt_0 radix2 (-500)).
    apply (q_mul_fall 52); [lia|exact Nx|apply (QDec_fall 53 y); [lia|exact Ny]|lra|lra|lra].
  - exact N1.
  - exact Hl.
  - exact HB.
  - cbn [length Nat.add]. exact Hn.
  - rewrite V1, rprod_nil, Rminus_diag_eq by reflexivity. cbn [length INR]. rewrite Rabs_R0, Rabs_R1. lra.
  - split; [exact K1|exact K2].
Qed.
