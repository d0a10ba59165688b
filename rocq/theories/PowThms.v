(** * Lemmas behind P_Pow.v: combined statements and concrete instances *)
From Coq Require Import ZArith Reals Lra Lia Bool.
From Flocq Require Import Core IEEE754.BinarySingleNaN.
From Verif Require Import RN F64 Prim DoubleM QuadM Spec F64Facts DAddProofs DMulProofs Check DDivProofs PowProofs.
Local Open Scope R_scope.

Lemma sqr_accurate x : DNorm x -> sqr_window (V (d0 x)) ->
  DNorm (d_sqr x) /\ approx (DV (d_sqr x)) (DV x * DV x) 9 (-106) /\ 0 <= DV (d_sqr x).
Proof.
  intros N W. destruct (d_sqr_ok x N W) as [K1 K2]. split; [auto|split; [auto|]].
  unfold approx in K2. rewrite (Rabs_pos_eq (DV x * DV x)) in K2 by nra. 
  assert (D := d9_small). assert (0 <= DV x * DV x) by nra. apply Rabs_le_inv in K2.
  assert (9 * bp (-106) * (DV x * DV x) <= / 9007199254740992 * (DV x * DV x)) by (apply Rmult_le_compat_r; lra). lra.
Qed.
Lemma powi_special dbg x y n s :
  d_powi dbg x 0 = Val D_ONE /\ q_powi dbg y 0 = Val Q_ONE /\
  (n <> 0%Z ->
   (d0 x = B754_nan -> d_powi dbg x n = Val D_NAN) /\
   (d0 x = B754_zero s -> d_powi dbg x n =
      Val (if (n >? 0)%Z then (if s && Z.odd n then D_NEG_ZERO else D_ZERO)
           else (if s && Z.odd n then D_NEG_INFINITY else D_INFINITY))) /\
   (d0 x = B754_infinity s -> d_powi dbg x n =
      Val (if (n >? 0)%Z then (if s && Z.odd n then D_NEG_INFINITY else D_INFINITY)
           else (if s && Z.odd n then D_NEG_ZERO else D_ZERO))) /\
   (q0 y = B754_nan -> q_powi dbg y n = Val Q_NAN) /\
   (q0 y = B754_zero s -> q_powi dbg y n =
      Val (if (n >? 0)%Z then (if s && Z.odd n then Q_NEG_ZERO else Q_ZERO)
           else (if s && Z.odd n then Q_NEG_INFINITY else Q_INFINITY))) /\
   (q0 y = B754_infinity s -> q_powi dbg y n =
      Val (if (n >? 0)%Z then (if s && Z.odd n then Q_NEG_INFINITY else Q_INFINITY)
           else (if s && Z.odd n then Q_NEG_ZERO else Q_ZERO)))).
Proof.
  split; [reflexivity|]. split; [reflexivity|]. intros N.
  refine (conj _ (conj _ (conj _ (conj _ (conj _ _))))); intros E.
  - apply d_powi_nan; auto. now rewrite E.
  - now apply d_powi_zero.
  - now apply d_powi_inf.
  - apply q_powi_nan; auto. now rewrite E.
  - now apply q_powi_zero.
  - now apply q_powi_inf.
Qed.

Definition sqr_x := mkD (fofZ 3) (f2pow 1 (-60)).
Lemma V3 : V (fofZ 3) = 3. Proof. apply (fofZ_exact 3). lia. Qed.
Lemma sqr_x_norm : DNorm sqr_x. Proof. apply dnormb_ok. vm_compute. reflexivity. Qed.
Lemma bp_m900 : 0 < bp (-900) <= / 2.
Proof. split. apply bpow_gt_0. change (/ 2) with (bp (-1)). apply bpow_le; lia. Qed.
Lemma bp_890 : 1024 <= bp 890 /\ bp (-890) <= / 2 /\ bp 890 <= bp 1010 /\ bp 890 <= bp 1014.
Proof. refine (conj _ (conj _ (conj _ _))). change 1024 with (bp 10). apply bpow_le; lia. change (/ 2) with (bp (-1)). apply bpow_le; lia. apply bpow_le; lia. apply bpow_le; lia. Qed.
Lemma C04_example : let ex_three := mkD (fofZ 3) f0 in DNorm D_ONE /\ DNorm ex_three /\ V (d0 ex_three) <> 0 /\
  div_window (V (d0 D_ONE)) (V (d0 ex_three)) /\ d_eq (d_mul (d_div D_ONE ex_three) ex_three) D_ONE = true /\
  feqb (d1 (d_div D_ONE ex_three)) f0 = false.
Proof.
  assert (B := bp_m900). assert (B' := bp_890).
  cbv zeta. refine (conj _ (conj _ (conj _ (conj _ (conj _ _))))).
  - apply dnormb_ok. vm_compute. reflexivity.
  - apply dnormb_ok. vm_compute. reflexivity.
  - cbn [d0]. rewrite V3. lra.
  - right. change (d0 D_ONE) with f1. cbn [d0]. rewrite V3, V_1.
    rewrite !Rabs_pos_eq by lra. assert (bp (-900) <= / 4) by (change (/ 4) with (bp (-2)); apply bpow_le; lia). lra.
  - vm_compute. reflexivity.
  - vm_compute. reflexivity.
Qed.
Lemma C27_example : DNorm sqr_x /\ sqr_window (V (d0 sqr_x)) /\ d_eq (d_sqr sqr_x) (mkD (f2pow 9 0) (f2pow 6 (-60))) = true.
Proof.
  assert (B := bp_m900). assert (B' := bp_890).
  split; [exact sqr_x_norm|]. split; [|vm_compute; reflexivity].
  right. cbn [d0 sqr_x]. rewrite V3. lra.
Qed.
Lemma C25_example : DNorm sqr_x /\ bpow radix2 (-890) <= Rabs (DV sqr_x) ^ Z.to_nat 5 <= bpow radix2 890.
Proof.
  assert (B := bp_m900). assert (B' := bp_890).
  split; [exact sqr_x_norm|]. unfold DV. cbn [sqr_x d0 d1]. rewrite V3.
  destruct (f2pow_exact 1 (-60)) as [_ E]; try lia. rewrite E.
  assert (P := bpow_gt_0 radix2 (-60)). assert (P2 : bp (-60) <= / 2) by (change (/ 2) with (bp (-1)); apply bpow_le; lia).
  rewrite Rmult_1_l. rewrite Rabs_pos_eq by lra. change (Z.to_nat 5) with 5%nat.
  assert (1 ^ 5 <= (3 + bp (-60)) ^ 5) by (apply pow_incr; lra).
  assert ((3 + bp (-60)) ^ 5 <= 4 ^ 5) by (apply pow_incr; lra). lra.
Qed.
