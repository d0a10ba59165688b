(** * Lemmas in the exact shape of the theorems of P_Laws.v *)
From Coq Require Import ZArith Reals Lra Lia Bool.
From Flocq Require Import Core IEEE754.BinarySingleNaN.
From Verif Require Import RN F64 Prim DoubleM QuadM Spec F64Facts EFT OrderProofs Sim SymProofs ExactProofs QExactProofs LawProofs SingleProofs Witness Exact.
Local Open Scope R_scope.

Lemma d_add_single_ok a b : Fin a -> Fin b -> Rabs (V a) <= bp 1018 -> Rabs (V b) <= bp 1018 ->
  let r := d_add (d_new a f0) (d_new b f0) in DNorm r /\ DV r = V a + V b /\ V (d0 r) = RN (V a + V b).
Proof. intros Fa Fb A B. apply DIs_ok. now apply d_add_single. Qed.
Lemma d_sub_single_ok a b : Fin a -> Fin b -> Rabs (V a) <= bp 1018 -> Rabs (V b) <= bp 1018 ->
  let r := d_sub (d_new a f0) (d_new b f0) in DNorm r /\ DV r = V a - V b /\ V (d0 r) = RN (V a - V b).
Proof. intros Fa Fb A B. apply DIs_ok. now apply d_sub_single. Qed.
Lemma d_mul_single_ok a b : Fin a -> Fin b -> (V a * V b = 0 \/ bp (-969) <= Rabs (V a * V b) <= bp 1015) ->
  let r := d_mul (d_new a f0) (d_new b f0) in DNorm r /\ DV r = V a * V b /\ V (d0 r) = RN (V a * V b).
Proof. intros Fa Fb W. apply DIs_ok. now apply d_mul_single. Qed.
Lemma d_mul_nofma_single_ok k l a b : (-900 <= k <= 990)%Z -> (-900 <= l <= 990)%Z -> (-900 <= k + l <= 950)%Z ->
  Fin a -> Fin b -> Rabs (V a) <= bp k -> Rabs (V b) <= bp l -> (V a * V b = 0 \/ bp (-969) <= Rabs (V a * V b)) ->
  let r := d_mul_nofma (d_new a f0) (d_new b f0) in DNorm r /\ DV r = V a * V b /\ V (d0 r) = RN (V a * V b).
Proof. intros Hk Hl Hkl Fa Fb A B W. apply DIs_ok. now apply (d_mul_nofma_single k l). Qed.
Lemma q_add_single_ok a b : Fin a -> Fin b -> Rabs (V a) <= bp 1018 -> Rabs (V b) <= bp 1018 ->
  let r := q_add (q_new a f0 f0 f0) (q_new b f0 f0 f0) in QNorm r /\ QV r = V a + V b /\ V (q0 r) = RN (V a + V b).
Proof.
  intros Fa Fb A B r.
  destruct (q_add_single a b (conj Fa A) (conj Fb B)) as [[F0 E0] [[F1 E1] [[F2 E2] [F3 E3]]]].
  fold (q_new a f0 f0 f0) in *. fold (q_new b f0 f0 f0) in *. fold r in F0, E0, F1, E1, F2, E2, F3, E3.
  assert (Q : QV r = V a + V b) by (unfold QV; rewrite E0, E1, E2, E3; ring).
  refine (conj _ (conj Q E0)). split; [now repeat split|]. refine (conj _ (conj _ _)).
  - now rewrite Q.
  - rewrite E2, E3, !Rplus_0_r. symmetry. apply rn_id. apply V_fmt.
  - rewrite E2, E3, !Rplus_0_r. symmetry. apply rn_0.
Qed.
Ltac zabs := rewrite ?zv_ok; rewrite ?Rabs_mult.
Lemma abs_le_z a k : (-1074 <= k)%Z -> (Z.abs (zv a) <=? 2 ^ (k + 1074))%Z = true -> Rabs (V a) <= bp k.
Proof.
  intros Hk H. apply Z.leb_le, IZR_le in H. rewrite abs_IZR in H. rewrite (IZR_Zpower radix2) in H by lia.
  rewrite zv_ok, Rabs_mult, (Rabs_pos_eq (bp _)) by apply bpow_ge_0.
  replace (bp k) with (bp (k + 1074) * bp (-1074)) by (rewrite <- bpow_plus; f_equal; ring).
  apply Rmult_le_compat_r; auto. apply bpow_ge_0.
Qed.
Lemma abs_ge_z a k : (-1074 <= k)%Z -> (2 ^ (k + 1074) <=? Z.abs (zv a))%Z = true -> bp k <= Rabs (V a).
Proof.
  intros Hk H. apply Z.leb_le, IZR_le in H. rewrite abs_IZR in H. rewrite (IZR_Zpower radix2) in H by lia.
  rewrite zv_ok, Rabs_mult, (Rabs_pos_eq (bp _)) by apply bpow_ge_0.
  replace (bp k) with (bp (k + 1074) * bp (-1074)) by (rewrite <- bpow_plus; f_equal; ring).
  apply Rmult_le_compat_r; auto. apply bpow_ge_0.
Qed.
Lemma single_case_ok : let a := f1 in let b := f2pow (2 ^ 27 + 1) (-80) in
  Fin a /\ Fin b /\ Rabs (V a) <= bpow radix2 1018 /\ Rabs (V b) <= bpow radix2 1018 /\
  bpow radix2 (-969) <= Rabs (V a * V b) <= bpow radix2 1015 /\
  d_eq (d_add (d_new a f0) (d_new b f0)) (mkD (f2pow (2 ^ 52 + 1) (-52)) (f2pow (1 - 2 ^ 27) (-80))) = true.
Proof.
  intros a b.
  assert (A : Rabs (V a) <= bp 0) by (apply abs_le_z; [lia|vm_compute; reflexivity]).
  assert (A' : bp 0 <= Rabs (V a)) by (apply abs_ge_z; [lia|vm_compute; reflexivity]).
  assert (B : Rabs (V b) <= bp 0) by (apply abs_le_z; [lia|vm_compute; reflexivity]).
  assert (B' : bp (-60) <= Rabs (V b)) by (apply abs_ge_z; [lia|vm_compute; reflexivity]).
  assert (B0 : bp 0 <= bp 1018) by (apply bpow_le; lia). assert (B1 : bp (-969) <= bp (-60)) by (apply bpow_le; lia).
  assert (B2 : bp 0 <= bp 1015) by (apply bpow_le; lia). change (bp 0) with 1 in *.
  assert (E : Rabs (V a * V b) = Rabs (V b)) by (rewrite Rabs_mult; replace (Rabs (V a)) with 1 by lra; ring).
  rewrite E. refine (conj _ (conj _ (conj _ (conj _ (conj (conj _ _) _))))); try lra; vm_compute; reflexivity.
Qed.

Lemma d_add_comm_ok x y : DFin x -> DFin y ->
  Rabs (V (d0 x)) <= bp 1018 -> Rabs (V (d1 x)) <= bp 1018 ->
  Rabs (V (d0 y)) <= bp 1018 -> Rabs (V (d1 y)) <= bp 1018 -> dsame (d_add x y) (d_add y x).
Proof. intros [? ?] [? ?] ? ? ? ?. apply dsame_DRel. apply d_add_comm; now split. Qed.
Lemma d_mul_comm_refuted : exists x y, DNorm x /\ DNorm y /\ d_eq (d_mul x y) (d_mul y x) = false.
Proof. exists w_dm_x, w_dm_y. refine (conj (dnormx_ok _ _) (conj (dnormx_ok _ _) _)); vm_compute; reflexivity. Qed.
Lemma q_add_comm_refuted : exists x y, QNorm x /\ QNorm y /\ q_eq (q_add x y) (q_add y x) = false.
Proof. exists w_qa_x, w_qa_y. refine (conj (qnormx_ok _ _) (conj (qnormx_ok _ _) _)); vm_compute; reflexivity. Qed.
Lemma q_mul_comm_refuted : exists x y, QNorm x /\ QNorm y /\ q_eq (q_mul x y) (q_mul y x) = false.
Proof. exists w_qm_x, w_qm_y. refine (conj (qnormx_ok _ _) (conj (qnormx_ok _ _) _)); vm_compute; reflexivity. Qed.
Lemma q_div_sign_refuted : exists x y, QNorm x /\ QNorm y /\ q_eq (q_div (q_neg x) y) (q_neg (q_div x y)) = false.
Proof. exists w_qd_sgn_x, w_qd_sgn_y. refine (conj (qnormx_ok _ _) (conj (qnormx_ok _ _) _)); vm_compute; reflexivity. Qed.

Lemma Rel_fneg a : Rel true a (fneg a).
Proof. unfold Rel. now rewrite ext_neg. Qed.
Lemma DRel_opp x : DRel true x (d_neg x). Proof. split; apply Rel_fneg. Qed.
Lemma QRel_opp x : QRel true x (q_neg x). Proof. refine (conj _ (conj _ (conj _ _))); apply Rel_fneg. Qed.
Lemma DRel_id x : DRel false x x. Proof. split; apply Rel_refl. Qed.
Lemma QRel_id x : QRel false x x. Proof. refine (conj _ (conj _ (conj _ _))); apply Rel_refl. Qed.

Lemma d_neg_laws x y :
  d_neg (d_neg x) = x /\ DV (d_neg x) = - DV x /\ (DNorm x -> DNorm (d_neg x)) /\
  dsame (d_sub x y) (d_add x (d_neg y)) /\
  dsame (d_add (d_neg x) (d_neg y)) (d_neg (d_add x y)) /\
  dsame (d_sub (d_neg x) (d_neg y)) (d_neg (d_sub x y)) /\
  (DNorm x -> d_eq (d_sub x x) D_ZERO = true /\ d_eq (d_add x (d_neg x)) D_ZERO = true).
Proof.
  destruct (d_neg_val x) as [N1 N2].
  refine (conj (d_neg_neg x) (conj N1 (conj N2 (conj _ (conj _ (conj _ _)))))).
  - apply dsame_DRel, d_sub_add_neg.
  - apply dsame_DRel_neg. apply d_add_rel; apply DRel_opp.
  - apply dsame_DRel_neg. apply d_sub_rel; apply DRel_opp.
  - intros H. apply d_identities in H. tauto.
Qed.
Lemma q_neg_laws x y :
  q_neg (q_neg x) = x /\ QV (q_neg x) = - QV x /\ (QNorm x -> QNorm (q_neg x)) /\
  qsame (q_sub x y) (q_add x (q_neg y)) /\
  qsame (q_add (q_neg x) (q_neg y)) (q_neg (q_add x y)) /\
  qsame (q_sub (q_neg x) (q_neg y)) (q_neg (q_sub x y)) /\
  (QNormW x -> q_eq (q_sub x x) Q_ZERO = true /\ q_eq (q_add x (q_neg x)) Q_ZERO = true).
Proof.
  destruct (q_neg_val x) as [N1 N2].
  refine (conj (q_neg_neg x) (conj N1 (conj N2 (conj _ (conj _ (conj _ _)))))).
  - apply qsame_QRel, QRel_id.
  - apply qsame_QRel_neg. apply q_add_rel; apply QRel_opp.
  - apply qsame_QRel_neg. apply q_sub_rel; apply QRel_opp.
  - intros H. apply q_identities in H. tauto.
Qed.
Lemma d_signum_laws x :
  (fis_nan (d0 x) = true -> fis_nan (d0 (d_signum x)) = true) /\
  (fis_nan (d0 x) = false -> d_signum x = if fsign_neg (d0 x) then D_NEG_ONE else D_ONE) /\
  (DNorm x -> d_eq (d_mul (d_signum x) (d_abs x)) x = true).
Proof.
  refine (conj _ (conj _ (d_signum_abs x))); unfold d_signum, d_is_nan, d_is_sign_negative; intros ->; reflexivity.
Qed.
Lemma q_signum_laws x :
  (fis_nan (q0 x) = true -> fis_nan (q0 (q_signum x)) = true) /\
  (fis_nan (q0 x) = false -> q_signum x = if fsign_neg (q0 x) then Q_NEG_ONE else Q_ONE) /\
  (QNormW x -> q_eq (q_mul (q_signum x) (q_abs x)) x = true).
Proof.
  refine (conj _ (conj _ (q_signum_abs x))); unfold q_signum, q_is_nan, q_is_sign_negative; intros ->; reflexivity.
Qed.
Lemma laws_case_ok : DNorm w_dm_x /\ QNorm w_qa_x /\ QNormW w_qa_x /\ d_is_zero w_dm_x = false /\ q_is_zero w_qa_x = false /\
  DFin w_dm_y /\ Rabs (V (d0 w_dm_y)) <= bpow radix2 1018.
Proof.
  refine (conj (dnormx_ok _ _) (conj (qnormx_ok _ _) (conj (qnormwx_ok _ _) (conj _ (conj _ (conj (conj _ _) (abs_le_z _ _ _ _))))))); try lia; vm_compute; reflexivity.
Qed.
(** zero divisors: the sign of zero flips with negation *)
Lemma div_sign_hyp y : fne0 (d0 y) = false -> fsign_pos (d0 (d_neg y)) = xorb true (fsign_pos (d0 y)).
Proof. destruct y as [[s|s| |s m e h] l]; cbn; try easy; now destruct s. Qed.
Lemma d_sign_laws x y :
  dsame (d_mul (d_neg x) y) (d_neg (d_mul x y)) /\
  dsame (d_mul x (d_neg y)) (d_neg (d_mul x y)) /\
  dsame (d_mul (d_neg x) (d_neg y)) (d_mul x y) /\
  dsame (d_div (d_neg x) y) (d_neg (d_div x y)) /\
  dsame (d_div x (d_neg y)) (d_neg (d_div x y)) /\
  dsame (d_div (d_neg x) (d_neg y)) (d_div x y) /\
  dsame (d_sqr (d_neg x)) (d_sqr x).
Proof.
  assert (S : forall a b, DRel false a b -> dsame b a) by (intros a b [? ?]; split; now apply fsame_Rel).
  refine (conj _ (conj _ (conj _ (conj _ (conj _ (conj _ _)))))).
  - apply dsame_DRel_neg. apply (d_mul_rel true false); auto using DRel_opp, DRel_id.
  - apply dsame_DRel_neg. apply (d_mul_rel false true); auto using DRel_opp, DRel_id.
  - apply S. apply (d_mul_rel true true); auto using DRel_opp, DRel_id.
  - apply dsame_DRel_neg. apply (d_div_rel true false); auto using DRel_opp, DRel_id. intros _. now destruct (fsign_pos _).
  - apply dsame_DRel_neg. apply (d_div_rel false true); auto using DRel_opp, DRel_id. apply div_sign_hyp.
  - apply S. apply (d_div_rel true true); auto using DRel_opp, DRel_id. apply div_sign_hyp.
  - apply S. apply (d_sqr_rel true). apply DRel_opp.
Qed.
Lemma q_sign_laws x y :
  qsame (q_mul (q_neg x) y) (q_neg (q_mul x y)) /\
  qsame (q_mul x (q_neg y)) (q_neg (q_mul x y)) /\
  qsame (q_mul (q_neg x) (q_neg y)) (q_mul x y).
Proof.
  refine (conj _ (conj _ _)).
  - apply qsame_QRel_neg. apply (q_mul_rel true false); auto using QRel_opp, QRel_id.
  - apply qsame_QRel_neg. apply (q_mul_rel false true); auto using QRel_opp, QRel_id.
  - assert (K : QRel false (q_mul x y) (q_mul (q_neg x) (q_neg y))) by (apply (q_mul_rel true true); auto using QRel_opp).
    destruct K as [? [? [? ?]]]. refine (conj _ (conj _ (conj _ _))); now apply fsame_Rel.
Qed.
