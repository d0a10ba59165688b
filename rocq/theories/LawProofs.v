(** * Algebraic laws (lemmas) *)
From Coq Require Import ZArith Reals Lra Lia List Bool.
From Flocq Require Import Core IEEE754.BinarySingleNaN.
From Verif Require Import RN F64 Prim DoubleM QuadM Spec F64Facts EFT DAddProofs DMulProofs Check SpecialProofs OrderProofs Sim SymProofs ExactProofs QExactProofs.
Import ListNotations.
Local Open Scope R_scope.

Lemma ecmp_refl e : e <> ENan -> ecmp e e = Some Eq.
Proof. destruct e; try easy. intros _. cbn. now rewrite Rcompare_Eq. Qed.
Lemma fsame_ext a b : to_ext a = to_ext b -> fsame a b.
Proof.
  intros E. unfold fsame. rewrite feqb_ext, !ext_nan, E.
  destruct (to_ext b) eqn:K; [right; auto|left..]; rewrite ecmp_refl; easy.
Qed.
Lemma fsame_Rel a b : Rel false a b -> fsame b a.
Proof. intros H. apply fsame_ext. exact H. Qed.
Lemma fsame_Rel' a b : Rel false a b -> fsame a b.
Proof. intros H. apply fsame_ext. symmetry. exact H. Qed.
Lemma fsame_Rel_neg a b : Rel true a b -> fsame b (fneg a).
Proof. intros H. apply fsame_ext. rewrite ext_neg. exact H. Qed.
Lemma dsame_DRel x y : DRel false x y -> dsame x y.
Proof. intros [? ?]. split; now apply fsame_Rel'. Qed.
Lemma dsame_DRel_neg x y : DRel true x y -> dsame y (d_neg x).
Proof. intros [? ?]. split; now apply fsame_Rel_neg. Qed.
Lemma qsame_QRel x y : QRel false x y -> qsame x y.
Proof. intros [? [? [? ?]]]. refine (conj _ (conj _ (conj _ _))); now apply fsame_Rel'. Qed.
Lemma qsame_QRel_neg x y : QRel true x y -> qsame y (q_neg x).
Proof. intros [? [? [? ?]]]. refine (conj _ (conj _ (conj _ _))); now apply fsame_Rel_neg. Qed.

Lemma fneg_fneg a : fneg (fneg a) = a.
Proof. destruct a as [s|s| |s m e h]; try reflexivity; cbn; now rewrite negb_involutive. Qed.
Lemma d_neg_neg x : d_neg (d_neg x) = x.
Proof. destruct x. unfold d_neg; cbn. now rewrite !fneg_fneg. Qed.
Lemma q_neg_neg x : q_neg (q_neg x) = x.
Proof. destruct x. unfold q_neg; cbn. now rewrite !fneg_fneg. Qed.
Lemma V_fneg a : V (fneg a) = - V a.
Proof. unfold V, fneg. apply B2R_Bopp. Qed.
Lemma Fin_fneg a : Fin (fneg a) <-> Fin a.
Proof. unfold Fin, fneg. now rewrite is_finite_Bopp. Qed.
Lemma d_neg_val x : DV (d_neg x) = - DV x /\ (DNorm x -> DNorm (d_neg x)).
Proof.
  unfold DNorm, DFin, DV. cbn [d_neg d0 d1]. rewrite !V_fneg, !Fin_fneg. split; [ring|].
  intros [F H]. split; auto. unfold RN in *. rewrite <- Ropp_plus_distr, rn_opp. now f_equal.
Qed.
Lemma q_neg_val x : QV (q_neg x) = - QV x /\ (QNorm x -> QNorm (q_neg x)).
Proof.
  unfold QNorm, QFin, QV. cbn [q_neg q0 q1 q2 q3]. rewrite !V_fneg, !Fin_fneg. split; [ring|].
  intros [F [H1 [H2 H3]]]. unfold RN in *. split; auto.
  refine (conj _ (conj _ _)); rewrite <- !Ropp_plus_distr, rn_opp; now f_equal.
Qed.

(** x - y and x + (-y) *)
Lemma two_diff_sum a b : Rel2 false (two_diff a b) (two_sum a (fneg b)).
Proof.
  unfold two_diff, two_sum.
  assert (S : Rel false (fsub a b) (fadd a (fneg b))) by (unfold Rel; cbn; symmetry; apply fsub_fadd).
  set (s := fsub a b) in *. set (s' := fadd a (fneg b)) in *.
  assert (W : Rel false (fsub s a) (fsub s' a)) by (apply Rel_sub; auto using Rel_refl).
  set (w := fsub s a) in *. set (w' := fsub s' a) in *.
  assert (P : Rel false (fsub a (fsub s w)) (fsub a (fsub s' w'))) by (repeat apply Rel_sub; auto using Rel_refl).
  split; cbn [fst snd]; auto.
  unfold Rel in *. cbn [esg] in *. rewrite ext_sub, ext_add, P. f_equal.
  rewrite ext_sub, ext_add, ext_neg, W. now rewrite eadd_opp.
Qed.
Lemma fsign_pos_neg_inf a : fis_infinite a = true -> fsign_pos (fneg a) = negb (fsign_pos a).
Proof. now destruct a as [|[]| |]. Qed.
Lemma fis_inf_neg a : fis_infinite (fneg a) = fis_infinite a. Proof. now destruct a. Qed.
Lemma fis_nan_neg a : fis_nan (fneg a) = fis_nan a. Proof. now destruct a. Qed.
Lemma d_pre_sub_add x y : d_pre_sub x y = d_pre_add x (d_neg y).
Proof.
  unfold d_pre_sub, d_pre_add, d_is_nan, d_is_infinite, d_is_sign_positive, d_is_sign_negative.
  cbn [d_neg d0]. rewrite !sign_neg_pos, fis_inf_neg, fis_nan_neg.
  destruct (fis_nan (d0 x)), (fis_nan (d0 y)), (fis_infinite (d0 x)), (fis_infinite (d0 y)) eqn:I; try reflexivity;
  cbn [orb]; rewrite fsign_pos_neg_inf by easy; now destruct (fsign_pos (d0 x)), (fsign_pos (d0 y)).
Qed.
Lemma d_sub_add_neg x y : DRel false (d_sub x y) (d_add x (d_neg y)).
Proof.
  unfold d_sub, d_add. rewrite d_pre_sub_add.
  destruct (d_pre_add x (d_neg y)); cbn [from_pre]; [apply DRel_refl|].
  cbn [d_neg d0 d1].
  pose proof (two_diff_sum (d0 x) (d0 y)) as K. dpair K.
  pose proof (two_diff_sum (d1 x) (d1 y)) as K. dpair K.
  unfold renorm2. repeat rstep. now split.
Qed.

(** commutativity *)
Lemma d_pre_add_comm x y : d_pre_add x y = d_pre_add y x.
Proof.
  unfold d_pre_add, d_is_nan, d_is_infinite, d_is_sign_positive, d_is_sign_negative. rewrite !sign_neg_pos.
  rewrite (orb_comm (fis_nan (d0 x))).
  destruct (fis_nan (d0 y) || fis_nan (d0 x)), (fis_infinite (d0 x)), (fis_infinite (d0 y)); try reflexivity;
  now destruct (fsign_pos (d0 x)), (fsign_pos (d0 y)).
Qed.
Lemma Rel_V a b : Fin a -> Fin b -> V a = V b -> Rel false a b.
Proof. intros Fa Fb E. unfold Rel. rewrite !to_ext_fin by easy. cbn. now rewrite E. Qed.
Lemma two_sum_comm a b : Bd M18 a -> Bd M18 b -> Rel2 false (two_sum a b) (two_sum b a).
Proof.
  intros A B. destruct (two_sum_ok a b A B) as [F1 [F2 [E1 E2]]]. destruct (two_sum_ok b a B A) as [G1 [G2 [H1 H2]]].
  split; apply Rel_V; auto; rewrite ?E1, ?E2, ?H1, ?H2; now rewrite (Rplus_comm (V b)).
Qed.
Lemma d_add_comm x y : Bd M18 (d0 x) -> Bd M18 (d1 x) -> Bd M18 (d0 y) -> Bd M18 (d1 y) ->
  DRel false (d_add x y) (d_add y x).
Proof.
  intros X0 X1 Y0 Y1. unfold d_add. rewrite (d_pre_add_comm y x).
  destruct (d_pre_add x y); cbn [from_pre]; [apply DRel_refl|].
  pose proof (two_sum_comm (d0 x) (d0 y) X0 Y0) as K. dpair K.
  pose proof (two_sum_comm (d1 x) (d1 y) X1 Y1) as K. dpair K.
  unfold renorm2. repeat rstep. now split.
Qed.
Lemma ext_add_0r a b : FV b 0 -> Rel false a (fadd a b).
Proof.
  intros B. unfold Rel. cbn [esg]. destruct (is_finite a) eqn:F.
  - assert (K := FV_add_0r a b _ (FV_self a F) B). destruct K as [K1 K2]. rewrite !to_ext_fin by easy. now rewrite K2.
  - rewrite ext_add. destruct B as [B1 B2]. rewrite (to_ext_fin b) by easy. destruct a as [|[]| |]; easy.
Qed.
Lemma two_prod_comm a b : Rel2 false (two_prod a b) (two_prod b a).
Proof.
  unfold two_prod. assert (P : Rel false (fmul a b) (fmul b a)).
  { unfold Rel. cbn. rewrite !ext_mul. apply emul_comm. }
  split; cbn [fst snd]; auto. unfold Rel in *. cbn [esg] in *. rewrite !ext_fma, !ext_neg, P. apply efma_comm.
Qed.
Lemma Rel_trans_f a b c : Rel false a b -> Rel false b c -> Rel false a c.
Proof. unfold Rel. cbn. congruence. Qed.
Lemma Rel_sym_f a b : Rel false a b -> Rel false b a.
Proof. unfold Rel. cbn. congruence. Qed.
(** products commute when one factor is a single f64 *)
Lemma d_mul_comm_f64 x b : DFin x -> Fin b -> DRel false (d_mul x (mkD b f0)) (d_mul (mkD b f0) x) \/ V (d0 x) = 0 \/ V b = 0.
Proof.
  intros [F0 F1] Fb. destruct (Req_dec (V (d0 x)) 0) as [Z|Z]; [auto|]. destruct (Req_dec (V b) 0) as [Z'|Z']; [auto|].
  left. unfold d_mul. rewrite !d_pre_mul_fin by easy. cbn [from_pre d0 d1].
  pose proof (two_prod_comm (d0 x) b) as K. destruct (two_prod (d0 x) b) as [p e], (two_prod b (d0 x)) as [p' e'].
  destruct K as [K1 K2]. cbn [fst snd] in *.
  assert (C : Rel false (fmul (d1 x) b) (fmul b (d1 x))) by (unfold Rel; cbn; rewrite !ext_mul; apply emul_comm).
  assert (L : Rel false (fadd (fadd e (fmul (d0 x) f0)) (fmul (d1 x) b)) (fadd e (fmul b (d1 x)))).
  { apply Rel_add; auto. apply Rel_sym_f. apply ext_add_0r. eapply FV_mul_0r; [now apply FV_self|apply FV_0]. }
  assert (R : Rel false (fadd e (fmul b (d1 x))) (fadd (fadd e' (fmul b (d1 x))) (fmul f0 (d0 x)))).
  { eapply Rel_trans_f. apply Rel_add. exact K2. apply Rel_refl.
    apply ext_add_0r. eapply FV_mul_0l; [apply FV_0|now apply FV_self]. }
  unfold renorm2. pose proof (Rel_quick _ _ _ _ _ K1 (Rel_trans_f _ _ _ L R)) as K.
  destruct (quick_two_sum _ _), (quick_two_sum _ _). exact K.
Qed.
Lemma d_mul_comm_f64' x b : DNorm x -> Fin b -> dsame (d_mul x (mkD b f0)) (d_mul (mkD b f0) x).
Proof.
  intros N Fb. destruct (d_mul_comm_f64 x b) as [H|H]; [apply N|easy|now apply dsame_DRel|].
  assert (Q : forall a b, DFV a 0 0 -> DFV b 0 0 -> dsame a b).
  { intros u v [A1 A2] [B1 B2]. split; left; eapply FV_feqb; eauto. }
  destruct N as [F N].
  destruct (Req_dec (V (d0 x)) 0) as [Z|Z].
  - assert (Z1 := DNorm_zero x Z (conj F N)). destruct F as [F0 F1].
    assert (X : DFV x 0 0) by (split; now split).
    apply Q; [|eapply DFV_mul_0r; eauto; split; [now apply FV_self|apply FV_0]].
    unfold d_mul. rewrite d_pre_mul_zero by easy. cbn [from_pre d0]. destruct (Bool.eqb _ _); split; apply FV_zero_is.
  - assert (Zb : V b = 0) by tauto. assert (B : DFV (mkD b f0) 0 0) by (split; [now split|apply FV_0]).
    apply Q; [eapply DFV_mul_0r; eauto using DFV_self|].
    unfold d_mul. rewrite d_pre_mul_zero; auto; try apply F. cbn [from_pre d0]. destruct (Bool.eqb _ _); split; apply FV_zero_is.
Qed.

(** exact identities *)
Lemma DNorm_DFV x : DNorm x -> DFV x (V (d0 x)) (V (d1 x)) /\ rn (V (d0 x) + V (d1 x)) = V (d0 x).
Proof. intros H. split. apply DFV_self, H. now apply DNorm_norm. Qed.
Lemma DFV_zero : DFV D_ZERO 0 0. Proof. split; apply FV_0. Qed.
Lemma DFV_one : DFV D_ONE 1 0. Proof. split; [apply FV_1|apply FV_0]. Qed.
Lemma QFV_zero : QFV Q_ZERO 0 0 0 0. Proof. apply QFV_mk; apply FV_0. Qed.
Lemma QFV_one : QFV Q_ONE 1 0 0 0. Proof. apply QFV_mk; apply FV_1 || apply FV_0. Qed.
Lemma d_identities x : DNorm x ->
  d_eq (d_add x D_ZERO) x = true /\ d_eq (d_add D_ZERO x) x = true /\ d_eq (d_sub x D_ZERO) x = true /\
  d_eq (d_mul x D_ONE) x = true /\ d_eq (d_mul D_ONE x) x = true /\ d_eq (d_div x D_ONE) x = true /\
  (d_is_zero x = false -> d_eq (d_div x x) D_ONE = true) /\
  d_eq (d_sub x x) D_ZERO = true /\ d_eq (d_add x (d_neg x)) D_ZERO = true.
Proof.
  intros H. destruct (DNorm_DFV x H) as [X N]. assert (Z := DFV_zero). assert (O := DFV_one).
  refine (conj _ (conj _ (conj _ (conj _ (conj _ (conj _ (conj _ (conj _ _)))))))); try intros NZ;
  (eapply DFV_eq; [|eassumption]).
  - eapply DFV_add_0r; eauto.
  - eapply DFV_add_0l; eauto.
  - eapply DFV_sub_0r; eauto.
  - eapply DFV_mul_1r; eauto.
  - eapply DFV_mul_1l; eauto.
  - eapply DFV_div_1r; eauto.
  - eapply DFV_div_self; eauto. intros E. unfold d_is_zero in NZ.
    destruct X as [X0 _]. rewrite E in X0. now rewrite (FV_feqb0_0 _ X0) in NZ.
  - eapply DFV_sub_self; eauto.
  - eapply DFV_add_opp; eauto. destruct X. split; now apply FV_neg.
Qed.
Lemma q_identities x : QNormW x ->
  q_eq (q_add x Q_ZERO) x = true /\ q_eq (q_add Q_ZERO x) x = true /\ q_eq (q_sub x Q_ZERO) x = true /\
  q_eq (q_mul x Q_ONE) x = true /\ q_eq (q_mul Q_ONE x) x = true /\ q_eq (q_div x Q_ONE) x = true /\
  (q_is_zero x = false -> q_eq (q_div x x) Q_ONE = true) /\
  q_eq (q_sub x x) Q_ZERO = true /\ q_eq (q_add x (q_neg x)) Q_ZERO = true.
Proof.
  intros H. destruct (QNormW_chain x H) as [X N]. assert (Z := QFV_zero). assert (O := QFV_one).
  refine (conj _ (conj _ (conj _ (conj _ (conj _ (conj _ (conj _ (conj _ _)))))))); try intros NZ;
  (eapply QFV_eq; [|eassumption]).
  - eapply QFV_add_0r; eauto.
  - eapply QFV_add_0l; eauto.
  - eapply QFV_add_0r; eauto.
  - eapply QFV_mul_1r; eauto.
  - eapply QFV_mul_1l; eauto.
  - eapply QFV_div_1r; eauto.
  - eapply QFV_div_self; eauto. intros E. unfold q_is_zero in NZ.
    destruct X as [X0 _]. rewrite E in X0. now rewrite (FV_feqb0_0 _ X0) in NZ.
  - eapply QFV_sub_self; eauto.
  - eapply QFV_add_opp; eauto. now apply QFV_neg.
Qed.

(** abs, signum *)
Lemma fsign_neg_fneg a : fis_nan a = false -> fsign_neg (fneg a) = negb (fsign_neg a).
Proof. destruct a; easy. Qed.
Lemma Fin_sign_V a : Fin a -> fsign_neg a = true -> V a <= 0.
Proof. unfold Fin, V, fsign_neg. destruct a as [s|s| |[] m e h]; try easy; cbn; intros _ K; try lra. subst. apply Rlt_le. now apply F2R_lt_0. Qed.
Lemma Fin_sign_V' a : Fin a -> fsign_neg a = false -> 0 <= V a.
Proof. unfold Fin, V, fsign_neg. destruct a as [s|s| |[] m e h]; try easy; cbn; intros _ K; try lra. apply Rlt_le. now apply F2R_gt_0. Qed.
Lemma DNorm_sgn x : DNorm x -> (V (d0 x) <= 0 -> DV x <= 0) /\ (0 <= V (d0 x) -> 0 <= DV x).
Proof.
  intros [F H]. unfold RN in H. split; intros K.
  - destruct (Rle_or_lt (DV x) 0) as [|L]; auto. assert (0 <= rn (DV x)) by (apply rn_ge_0; lra).
    assert (E : V (d0 x) = 0) by lra. assert (E1 := DNorm_zero x E (conj F H)). unfold DV in *. lra.
  - destruct (Rle_or_lt 0 (DV x)) as [|L]; auto. assert (rn (DV x) <= 0) by (apply rn_le_0; lra).
    assert (E : V (d0 x) = 0) by lra. assert (E1 := DNorm_zero x E (conj F H)). unfold DV in *. lra.
Qed.
Lemma d_abs_ok x : fis_nan (d0 x) = false ->
  d_is_sign_negative (d_abs x) = false /\ d_abs (d_abs x) = d_abs x /\ d_abs (d_neg x) = d_abs x /\
  (DNorm x -> DNorm (d_abs x) /\ DV (d_abs x) = Rabs (DV x)).
Proof.
  intros Nn. unfold d_abs, d_is_sign_negative.
  assert (S : fsign_neg (d0 (d_neg x)) = negb (fsign_neg (d0 x))) by (apply fsign_neg_fneg; easy).
  destruct (fsign_neg (d0 x)) eqn:E; rewrite S; cbn [negb]; rewrite ?E, ?d_neg_neg;
  refine (conj _ (conj _ (conj _ _))); auto; intros N; destruct (DNorm_sgn x N) as [K1 K2].
  - destruct (d_neg_val x) as [H1 H2]. split; auto. rewrite H1, Rabs_left1; auto. apply K1. apply Fin_sign_V; auto. apply N.
  - split; auto. rewrite Rabs_pos_eq; auto. apply K2. apply Fin_sign_V'; auto. apply N.
Qed.
Lemma Rel_FV a b x : FV a x -> Rel false a b -> FV b x.
Proof.
  intros [F <-] R. unfold Rel in R. cbn [esg] in R. rewrite (to_ext_fin a F) in R.
  destruct (is_finite b) eqn:Fb.
  - rewrite (to_ext_fin b Fb) in R. split; auto. congruence.
  - destruct b as [|[]| |]; easy.
Qed.
Lemma d_signum_abs x : DNorm x -> d_eq (d_mul (d_signum x) (d_abs x)) x = true.
Proof.
  intros N. destruct (DNorm_DFV x N) as [X NN]. unfold d_signum, d_is_nan.
  destruct N as [[F0 F1] N]. rewrite (Fin_nan _ F0). unfold d_abs.
  destruct (d_is_sign_negative x).
  - destruct X as [X0 X1]. assert (K := d_mul_rel true true D_ONE D_NEG_ONE x (d_neg x)).
    cbn [xorb] in K. destruct K as [K0 K1].
    + assert (O := DFV_one). destruct O as [[O0 O1] [O2 O3]]. split; unfold Rel; cbn [d0 d1 D_ONE D_NEG_ONE].
      * rewrite !to_ext_fin by (apply Fin_1 || apply Fin_n1). now rewrite V_1, V_n1.
      * cbn. now rewrite Ropp_0.
    + apply DRel_neg.
    + destruct (DFV_mul_1l x D_ONE _ _ (conj X0 X1) NN DFV_one) as [M0 M1].
      eapply (DFV_eq _ _ (V (d0 x)) (V (d1 x))); [|now split].
      split.
      * now apply (Rel_FV _ _ _ M0).
      * now apply (Rel_FV _ _ _ M1).
  - eapply DFV_eq; [|exact X]. eapply DFV_mul_1l; eauto using DFV_one.
Qed.

Lemma q_abs_ok x : fis_nan (q0 x) = false ->
  q_is_sign_negative (q_abs x) = false /\ q_abs (q_abs x) = q_abs x /\ q_abs (q_neg x) = q_abs x /\
  (QNorm x -> QNorm (q_abs x) /\ QV (q_abs x) = Rabs (QV x)).
Proof.
  intros Nn. unfold q_abs, q_is_sign_negative.
  assert (S : fsign_neg (q0 (q_neg x)) = negb (fsign_neg (q0 x))) by (apply fsign_neg_fneg; easy).
  assert (G : QNorm x -> (V (q0 x) <= 0 -> QV x <= 0) /\ (0 <= V (q0 x) -> 0 <= QV x)).
  { intros [F [H0 [H1 H2]]]. unfold RN in *.
    assert (Z : V (q0 x) = 0 -> QV x = 0).
    { intros E. unfold QV in *. rewrite E in *.
      replace (0 + V (q1 x) + V (q2 x) + V (q3 x)) with (V (q1 x) + V (q2 x) + V (q3 x)) in * by ring.
      assert (E1 : V (q1 x) = 0) by congruence. rewrite E1 in *.
      replace (0 + V (q2 x) + V (q3 x)) with (V (q2 x) + V (q3 x)) in * by ring.
      assert (E2 : V (q2 x) = 0) by congruence. rewrite E2, Rplus_0_l in *.
      rewrite rn_id in H2 by auto with fmt. congruence. }
    split; intros K.
    - destruct (Rle_or_lt (QV x) 0) as [|L]; auto. assert (0 <= rn (QV x)) by (apply rn_ge_0; lra). rewrite Z; lra.
    - destruct (Rle_or_lt 0 (QV x)) as [|L]; auto. assert (rn (QV x) <= 0) by (apply rn_le_0; lra). rewrite Z; lra. }
  destruct (fsign_neg (q0 x)) eqn:E; rewrite S; cbn [negb]; rewrite ?E, ?q_neg_neg;
  refine (conj _ (conj _ (conj _ _))); auto; intros N; destruct (G N) as [K1 K2].
  - destruct (q_neg_val x) as [H1 H2]. split; auto. rewrite H1, Rabs_left1; auto. apply K1. apply Fin_sign_V; auto. apply N.
  - split; auto. rewrite Rabs_pos_eq; auto. apply K2. apply Fin_sign_V'; auto. apply N.
Qed.
Lemma q_signum_abs x : QNormW x -> q_eq (q_mul (q_signum x) (q_abs x)) x = true.
Proof.
  intros N. destruct (QNormW_chain x N) as [X C]. unfold q_signum, q_is_nan.
  rewrite (d_is_nan_FV _ _ (proj1 X)). unfold q_abs.
  destruct (q_is_sign_negative x).
  - assert (K := q_mul_rel true true Q_ONE Q_NEG_ONE x (q_neg x)).
    cbn [xorb] in K. destruct K as [K0 [K1 [K2 K3]]].
    + refine (conj _ (conj _ (conj _ _))); unfold Rel; cbn [q0 q1 q2 q3 Q_ONE Q_NEG_ONE].
      * rewrite !to_ext_fin by (apply Fin_1 || apply Fin_n1). now rewrite V_1, V_n1.
      * cbn. now rewrite Ropp_0.
      * cbn. now rewrite Ropp_0.
      * cbn. now rewrite Ropp_0.
    + apply QRel_neg.
    + destruct (QFV_mul_1l x Q_ONE _ _ _ _ X C QFV_one) as [M0 [M1 [M2 M3]]].
      eapply QFV_eq; [|exact X].
      refine (conj (Rel_FV _ _ _ M0 K0) (conj (Rel_FV _ _ _ M1 K1) (conj (Rel_FV _ _ _ M2 K2) (Rel_FV _ _ _ M3 K3)))).
  - eapply QFV_eq; [|exact X]. eapply QFV_mul_1l; eauto using QFV_one.
Qed.
