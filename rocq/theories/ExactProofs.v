(** * Evaluating f64 code whose results are exact (lemmas) *)
From Coq Require Import ZArith Reals Lra Lia List Bool.
From Flocq Require Import Core IEEE754.BinarySingleNaN.
From Verif Require Import RN F64 Prim DoubleM QuadM Spec F64Facts EFT DAddProofs DMulProofs Check SpecialProofs OrderProofs.
Import ListNotations.
Local Open Scope R_scope.

(** [FV a x]: the f64 [a] is finite and denotes [x] *)
Definition FV (a : f64) (x : R) : Prop := Fin a /\ V a = x.
Lemma FV_self a : Fin a -> FV a (V a). Proof. now split. Qed.
Lemma FV_eq a x y : FV a x -> x = y -> FV a y. Proof. now intros H <-. Qed.
Lemma FV_fmt a x : FV a x -> fmt x.
Proof. intros [_ <-]. auto with fmt. Qed.
Lemma FV_lt a x : FV a x -> Rabs x < bp 1024.
Proof. intros [_ <-]. apply V_lt_1024. Qed.
Lemma FV_0 : FV f0 0. Proof. now split. Qed.
Lemma FV_n0 : FV fn0 0. Proof. now split. Qed.
Lemma FV_1 : FV f1 1. Proof. split. apply Fin_1. apply V_1. Qed.
Lemma FV_n1 : FV fn1 (-1). Proof. split. apply Fin_n1. apply V_n1. Qed.
Lemma FV_neg a x : FV a x -> FV (fneg a) (- x).
Proof. intros [F <-]. destruct (fneg_ok a F). now split. Qed.
Lemma FV_uniq a x y : FV a x -> FV a y -> x = y. Proof. intros [_ <-] [_ <-]. reflexivity. Qed.

Lemma FV_add a b x y z : FV a x -> FV b y -> rn (x + y) = z -> Rabs z < bp 1024 -> FV (fadd a b) z.
Proof. intros [Fa <-] [Fb <-] <- H. destruct (fadd_ok a b Fa Fb H). now split. Qed.
Lemma FV_sub a b x y z : FV a x -> FV b y -> rn (x - y) = z -> Rabs z < bp 1024 -> FV (fsub a b) z.
Proof. intros [Fa <-] [Fb <-] <- H. destruct (fsub_ok a b Fa Fb H). now split. Qed.
Lemma FV_mul a b x y z : FV a x -> FV b y -> rn (x * y) = z -> Rabs z < bp 1024 -> FV (fmul a b) z.
Proof. intros [Fa <-] [Fb <-] <- H. destruct (fmul_ok a b Fa Fb H) as [? ?]. now split. Qed.
Lemma FV_div a b x y z : FV a x -> FV b y -> y <> 0 -> rn (x / y) = z -> Rabs z < bp 1024 -> FV (fdiv a b) z.
Proof. intros [Fa <-] [Fb <-] N <- H. destruct (fdiv_ok a b Fa N H) as [? ?]. now split. Qed.
Lemma FV_fma a b c x y w z : FV a x -> FV b y -> FV c w -> rn (x * y + w) = z -> Rabs z < bp 1024 -> FV (fma a b c) z.
Proof. intros [Fa <-] [Fb <-] [Fc <-] <- H. destruct (fma_ok a b c Fa Fb Fc H) as [? ?]. now split. Qed.

Lemma b1024_pos : Rabs 0 < bp 1024. Proof. rewrite Rabs_R0. apply bpow_gt_0. Qed.

(** an exact result that is one of the operands *)
Lemma FV_add_0r a b x : FV a x -> FV b 0 -> FV (fadd a b) x.
Proof. intros A B. eapply FV_add; eauto using FV_lt. rewrite Rplus_0_r. apply rn_id. eapply FV_fmt; eauto. Qed.
Lemma FV_add_0l a b x : FV a 0 -> FV b x -> FV (fadd a b) x.
Proof. intros A B. eapply FV_add; eauto using FV_lt. rewrite Rplus_0_l. apply rn_id. eapply FV_fmt; eauto. Qed.
Lemma FV_sub_0r a b x : FV a x -> FV b 0 -> FV (fsub a b) x.
Proof. intros A B. eapply FV_sub; eauto using FV_lt. rewrite Rminus_0_r. apply rn_id. eapply FV_fmt; eauto. Qed.
Lemma FV_sub_0l a b x : FV a 0 -> FV b x -> FV (fsub a b) (- x).
Proof. intros A B. eapply FV_sub; eauto using FV_lt. rewrite Rminus_0_l. apply rn_id. apply fmt_opp. eapply FV_fmt; eauto.
  rewrite Rabs_Ropp. eapply FV_lt; eauto. Qed.
Lemma FV_sub_self a b x : FV a x -> FV b x -> FV (fsub a b) 0.
Proof. intros A B. eapply FV_sub; eauto using b1024_pos. rewrite Rminus_diag_eq by reflexivity. apply rn_0. Qed.
Lemma FV_add_opp a b x : FV a x -> FV b (- x) -> FV (fadd a b) 0.
Proof. intros A B. eapply FV_add; eauto using b1024_pos. replace (x + - x) with 0 by ring. apply rn_0. Qed.
Lemma FV_mul_1r a b x : FV a x -> FV b 1 -> FV (fmul a b) x.
Proof. intros A B. eapply FV_mul; eauto using FV_lt. rewrite Rmult_1_r. apply rn_id. eapply FV_fmt; eauto. Qed.
Lemma FV_mul_1l a b x : FV a 1 -> FV b x -> FV (fmul a b) x.
Proof. intros A B. eapply FV_mul; eauto using FV_lt. rewrite Rmult_1_l. apply rn_id. eapply FV_fmt; eauto. Qed.
Lemma FV_mul_0r a b x : FV a x -> FV b 0 -> FV (fmul a b) 0.
Proof. intros A B. eapply FV_mul; eauto using b1024_pos. rewrite Rmult_0_r. apply rn_0. Qed.
Lemma FV_mul_0l a b x : FV a 0 -> FV b x -> FV (fmul a b) 0.
Proof. intros A B. eapply FV_mul; eauto using b1024_pos. rewrite Rmult_0_l. apply rn_0. Qed.
Lemma FV_div_1r a b x : FV a x -> FV b 1 -> FV (fdiv a b) x.
Proof. intros A B. eapply FV_div; eauto using FV_lt.  unfold Rdiv. rewrite Rinv_1, Rmult_1_r. apply rn_id. eapply FV_fmt; eauto. Qed.
Lemma FV_div_0l a b x : FV a 0 -> FV b x -> x <> 0 -> FV (fdiv a b) 0.
Proof. intros A B N. eapply FV_div; eauto using b1024_pos. unfold Rdiv. rewrite Rmult_0_l. apply rn_0. Qed.
Lemma FV_div_self a b x : FV a x -> FV b x -> x <> 0 -> FV (fdiv a b) 1.
Proof.
  intros A B N. eapply FV_div; eauto. unfold Rdiv. rewrite Rinv_r by easy.
  apply rn_id. apply (FV_fmt f1), FV_1. apply (FV_lt f1), FV_1.
Qed.

Definition FV2 (p : f64 * f64) (x y : R) : Prop := FV (fst p) x /\ FV (snd p) y.

(** non-overlapping pair: [two_sum] and [quick_two_sum] return it unchanged *)
Lemma two_sum_norm a b x y : FV a x -> FV b y -> rn (x + y) = x -> FV2 (two_sum a b) x y.
Proof.
  intros A B N. unfold two_sum.
  assert (S : FV (fadd a b) x) by (eapply FV_add; eauto using FV_lt).
  assert (W : FV (fsub (fadd a b) a) 0) by (eapply FV_sub_self; eauto).
  split; cbn [fst snd]; auto.
  eapply FV_add_0l; [|eapply FV_sub_0r; eauto].
  eapply FV_sub_self; eauto. eapply FV_sub_0r; eauto.
Qed.
Lemma quick_norm a b x y : FV a x -> FV b y -> rn (x + y) = x -> FV2 (quick_two_sum a b) x y.
Proof.
  intros A B N. unfold quick_two_sum.
  assert (S : FV (fadd a b) x) by (eapply FV_add; eauto using FV_lt).
  split; cbn [fst snd]; auto. eapply FV_sub_0r; eauto. eapply FV_sub_self; eauto.
Qed.
Lemma two_sum_0l a b x : FV a 0 -> FV b x -> FV2 (two_sum a b) x 0.
Proof.
  intros A B. unfold two_sum.
  assert (S : FV (fadd a b) x) by (eapply FV_add_0l; eauto).
  assert (W : FV (fsub (fadd a b) a) x) by (eapply FV_sub_0r; eauto).
  split; cbn [fst snd]; auto.
  eapply FV_add_0r; [|eapply FV_sub_self; eauto]. eapply FV_sub_self; eauto. eapply FV_sub_self; eauto.
Qed.
Lemma quick_0l a b x : FV a 0 -> FV b x -> FV2 (quick_two_sum a b) x 0.
Proof.
  intros A B. unfold quick_two_sum.
  assert (S : FV (fadd a b) x) by (eapply FV_add_0l; eauto).
  split; cbn [fst snd]; auto. eapply FV_sub_self; eauto. eapply FV_sub_0r; eauto.
Qed.
Lemma two_sum_0r a b x : FV a x -> FV b 0 -> FV2 (two_sum a b) x 0.
Proof. intros A B. apply two_sum_norm; auto. rewrite Rplus_0_r. apply rn_id. eapply FV_fmt; eauto. Qed.
Lemma quick_0r a b x : FV a x -> FV b 0 -> FV2 (quick_two_sum a b) x 0.
Proof. intros A B. apply quick_norm; auto. rewrite Rplus_0_r. apply rn_id. eapply FV_fmt; eauto. Qed.
Lemma two_sum_opp a b x : FV a x -> FV b (- x) -> FV2 (two_sum a b) 0 0.
Proof.
  intros A B. unfold two_sum.
  assert (S : FV (fadd a b) 0) by (eapply FV_add_opp; eauto).
  assert (W : FV (fsub (fadd a b) a) (- x)) by (eapply FV_sub_0l; eauto).
  split; cbn [fst snd]; auto.
  eapply FV_add_0l; [|eapply FV_sub_self; eauto]. eapply FV_sub_self; eauto.
  eapply FV_eq. eapply FV_sub_0l; eauto. ring.
Qed.
Lemma quick_opp a b x : FV a x -> FV b (- x) -> FV2 (quick_two_sum a b) 0 0.
Proof.
  intros A B. unfold quick_two_sum.
  assert (S : FV (fadd a b) 0) by (eapply FV_add_opp; eauto).
  split; cbn [fst snd]; auto. eapply FV_sub_self; eauto. eapply FV_sub_0l; eauto.
Qed.
Lemma two_sum_opp' a b x : FV a (- x) -> FV b x -> FV2 (two_sum a b) 0 0.
Proof. intros A B. eapply two_sum_opp; eauto. eapply FV_eq; eauto. ring. Qed.
Lemma quick_opp' a b x : FV a (- x) -> FV b x -> FV2 (quick_two_sum a b) 0 0.
Proof. intros A B. eapply quick_opp; eauto. eapply FV_eq; eauto. ring. Qed.
Lemma two_diff_self a b x : FV a x -> FV b x -> FV2 (two_diff a b) 0 0.
Proof.
  intros A B. unfold two_diff.
  assert (S : FV (fsub a b) 0) by (eapply FV_sub_self; eauto).
  assert (W : FV (fsub (fsub a b) a) (- x)) by (eapply FV_sub_0l; eauto).
  split; cbn [fst snd]; auto.
  assert (Z : FV (fadd b (fsub (fsub a b) a)) 0) by (eapply FV_add_opp; eauto).
  eapply FV_sub_0r; [|exact Z]. eapply FV_sub_self; eauto.
  eapply FV_eq. eapply FV_sub_0l; eauto. ring.
Qed.
Lemma two_diff_0r a b x : FV a x -> FV b 0 -> FV2 (two_diff a b) x 0.
Proof.
  intros A B. unfold two_diff.
  assert (S : FV (fsub a b) x) by (eapply FV_sub_0r; eauto).
  assert (W : FV (fsub (fsub a b) a) 0) by (eapply FV_sub_self; eauto).
  split; cbn [fst snd]; auto.
  eapply FV_sub_0r. eapply FV_sub_self; eauto. eapply FV_sub_0r; eauto. eapply FV_add_0r; eauto.
Qed.
Lemma two_diff_0l a b x : FV a 0 -> FV b x -> FV2 (two_diff a b) (- x) 0.
Proof.
  intros A B. unfold two_diff.
  assert (S : FV (fsub a b) (- x)) by (eapply FV_sub_0l; eauto).
  assert (W : FV (fsub (fsub a b) a) (- x)) by (eapply FV_sub_0r; eauto).
  split; cbn [fst snd]; auto.
  eapply FV_sub_0r; [|eapply FV_add_opp; eauto]. eapply FV_sub_self; eauto. eapply FV_sub_self; eauto.
Qed.
Lemma two_prod_exact a b x y : FV a x -> FV b y -> fmt (x * y) -> Rabs (x * y) < bp 1024 -> FV2 (two_prod a b) (x * y) 0.
Proof.
  intros A B F H. unfold two_prod.
  assert (P : FV (fmul a b) (x * y)) by (eapply FV_mul; eauto using rn_id).
  split; cbn [fst snd]; auto.
  eapply FV_fma; eauto using FV_neg, b1024_pos. replace (x * y + - (x * y)) with 0 by ring. apply rn_0.
Qed.
Lemma two_prod_1l a b x : FV a 1 -> FV b x -> FV2 (two_prod a b) x 0.
Proof.
  intros A B. replace x with (1 * x) at 1 by ring.
  apply two_prod_exact; auto; rewrite Rmult_1_l; eauto using FV_fmt, FV_lt.
Qed.
Lemma two_prod_1r a b x : FV a x -> FV b 1 -> FV2 (two_prod a b) x 0.
Proof.
  intros A B. replace x with (x * 1) at 1 by ring.
  apply two_prod_exact; auto; rewrite Rmult_1_r; eauto using FV_fmt, FV_lt.
Qed.
Lemma two_prod_0l a b x : FV a 0 -> FV b x -> FV2 (two_prod a b) 0 0.
Proof.
  intros A B. replace 0 with (0 * x) at 1 by ring.
  apply two_prod_exact; auto; rewrite Rmult_0_l; auto with fmt. apply b1024_pos.
Qed.
Lemma two_prod_0r a b x : FV a x -> FV b 0 -> FV2 (two_prod a b) 0 0.
Proof.
  intros A B. replace 0 with (x * 0) at 1 by ring.
  apply two_prod_exact; auto; rewrite Rmult_0_r; auto with fmt. apply b1024_pos.
Qed.

(** values of Doubles and Quads *)
Definition DFV (d : Double) (x y : R) : Prop := FV (d0 d) x /\ FV (d1 d) y.
Definition QFV (q : Quad) (x y z w : R) : Prop := FV (q0 q) x /\ FV (q1 q) y /\ FV (q2 q) z /\ FV (q3 q) w.
Lemma DFV_self x : DFin x -> DFV x (V (d0 x)) (V (d1 x)).
Proof. intros [? ?]. split; now apply FV_self. Qed.
Lemma QFV_self x : QFin x -> QFV x (V (q0 x)) (V (q1 x)) (V (q2 x)) (V (q3 x)).
Proof. intros [? [? [? ?]]]. repeat split; now try apply FV_self. Qed.
Lemma FV_feqb a b x : FV a x -> FV b x -> feqb a b = true.
Proof. intros [? ?] [? ?]. apply feqb_refl_V; auto. congruence. Qed.
Lemma DFV_eq a b x y : DFV a x y -> DFV b x y -> d_eq a b = true.
Proof. intros [? ?] [? ?]. unfold d_eq. apply andb_true_intro. split; eapply FV_feqb; eauto. Qed.
Lemma QFV_eq a b x y z w : QFV a x y z w -> QFV b x y z w -> q_eq a b = true.
Proof.
  intros [? [? [? ?]]] [? [? [? ?]]]. unfold q_eq.
  repeat (apply andb_true_intro; split); eapply FV_feqb; eauto.
Qed.

(** ** symbolic evaluation *)
Lemma FV_fne0_0 a : FV a 0 -> fne0 a = false.
Proof. intros [F E]. rewrite fne0_ok, E by easy. now rewrite Req_bool_true. Qed.
Lemma FV_fne0 a x : FV a x -> x <> 0 -> fne0 a = true.
Proof. intros [F E] N. rewrite fne0_ok, E by easy. now rewrite Req_bool_false. Qed.
Lemma FV_feqb0_0 a : FV a 0 -> feqb a f0 = true.
Proof. intros H. apply FV_fne0_0 in H. unfold fne0 in H. now destruct (feqb a f0). Qed.
Lemma FV_feqb0 a x : FV a x -> x <> 0 -> feqb a f0 = false.
Proof. intros H N. apply FV_fne0 in H; auto. unfold fne0 in H. now destruct (feqb a f0). Qed.
Lemma FV_abs_gt a b x y : FV a x -> FV b y -> Rabs y < Rabs x -> abs_gt a b = true.
Proof.
  intros [Fa <-] [Fb <-] H. unfold abs_gt, fgtb. change Bltb with fltb.
  destruct (fabs_ok a Fa), (fabs_ok b Fb). rewrite fltb_ok by easy. rewrite Rlt_bool_true; auto. congruence.
Qed.
Lemma FV_abs_ngt a b x y : FV a x -> FV b y -> Rabs x <= Rabs y -> abs_gt a b = false.
Proof.
  intros [Fa <-] [Fb <-] H. unfold abs_gt, fgtb. change Bltb with fltb.
  destruct (fabs_ok a Fa), (fabs_ok b Fb). rewrite fltb_ok by easy. rewrite Rlt_bool_false; auto. congruence.
Qed.

Ltac fvs := solve [ eassumption | lazymatch goal with
  | |- FV F64.f0 _ => apply FV_0
  | |- FV F64.fn0 _ => apply FV_n0
  | |- FV F64.f1 _ => apply FV_1
  | |- FV F64.fn1 _ => apply FV_n1
  | |- FV (fneg _) _ => eapply FV_neg; fvs
  | |- FV (fadd _ _) _ => solve [ eapply FV_add_0r; [fvs|fvs] | eapply FV_add_0l; [fvs|fvs] | eapply FV_add_opp; [fvs|fvs] ]
  | |- FV (fsub _ _) _ => solve [ eapply FV_sub_self; [fvs|fvs] | eapply FV_sub_0r; [fvs|fvs] | eapply FV_sub_0l; [fvs|fvs] ]
  | |- FV (fmul _ _) _ => solve [ eapply FV_mul_1r; [fvs|fvs] | eapply FV_mul_1l; [fvs|fvs]
                              | eapply FV_mul_0r; [fvs|fvs] | eapply FV_mul_0l; [fvs|fvs] ]
  | |- FV (fdiv _ _) _ => solve [ eapply FV_div_1r; [fvs|fvs] | eapply FV_div_self; [fvs|fvs|eassumption] | eapply FV_div_0l; [fvs|fvs|eassumption] ]
  end ].
Ltac fvpair K := match type of K with FV2 ?p _ _ => destruct p; destruct K; cbn [fst snd] in * end.
Ltac fvstep :=
  match goal with
  | |- context [two_sum ?a ?b] =>
      let K := fresh in eassert (K : FV2 (two_sum a b) _ _)
        by (solve [ eapply two_sum_0r; fvs | eapply two_sum_0l; fvs | eapply two_sum_opp; [fvs|fvs] | eapply two_sum_opp'; [fvs|fvs]
                  | eapply two_sum_norm; [fvs|fvs|eassumption] ]); fvpair K
  | |- context [two_diff ?a ?b] =>
      let K := fresh in eassert (K : FV2 (two_diff a b) _ _)
        by (solve [ eapply two_diff_self; [fvs|fvs] | eapply two_diff_0r; fvs | eapply two_diff_0l; fvs ]); fvpair K
  | |- context [quick_two_sum ?a ?b] =>
      let K := fresh in eassert (K : FV2 (quick_two_sum a b) _ _)
        by (solve [ eapply quick_0r; fvs | eapply quick_0l; fvs | eapply quick_opp; [fvs|fvs] | eapply quick_opp'; [fvs|fvs]
                  | eapply quick_norm; [fvs|fvs|eassumption] ]); fvpair K
  | |- context [two_prod ?a ?b] =>
      let K := fresh in eassert (K : FV2 (two_prod a b) _ _)
        by (solve [ eapply two_prod_0r; fvs | eapply two_prod_0l; fvs | eapply two_prod_1r; fvs | eapply two_prod_1l; fvs ]); fvpair K
  | |- context [fne0 ?a] => rewrite (FV_fne0_0 a) by fvs
  | |- context [fne0 ?a] => erewrite (FV_fne0 a) by (fvs || eassumption)
  end.

Lemma DFV_pre_add x y a b c d : DFV x a b -> DFV y c d -> d_pre_add x y = None.
Proof. intros [[F _] _] [[G _] _]. now apply d_pre_add_fin. Qed.
Lemma DFV_pre_sub x y a b c d : DFV x a b -> DFV y c d -> d_pre_sub x y = None.
Proof. intros [[F _] _] [[G _] _]. now apply d_pre_sub_fin. Qed.

(** x + 0, 0 + x, x - 0, x * 1, 1 * x, x / 1, x / x, x - x, x + (-x) *)
Lemma DFV_add_0r x y a b : DFV x a b -> rn (a + b) = a -> DFV y 0 0 -> DFV (d_add x y) a b.
Proof.
  intros X N Y. unfold d_add. erewrite DFV_pre_add by eauto. cbn [from_pre].
  destruct X as [X0 X1], Y as [Y0 Y1]. unfold renorm2. repeat fvstep. split; fvs.
Qed.
Lemma DFV_add_0l x y a b : DFV x a b -> rn (a + b) = a -> DFV y 0 0 -> DFV (d_add y x) a b.
Proof.
  intros X N Y. unfold d_add. erewrite DFV_pre_add by eauto. cbn [from_pre].
  destruct X as [X0 X1], Y as [Y0 Y1]. unfold renorm2. repeat fvstep. split; fvs.
Qed.
Lemma DFV_sub_0r x y a b : DFV x a b -> rn (a + b) = a -> DFV y 0 0 -> DFV (d_sub x y) a b.
Proof.
  intros X N Y. unfold d_sub. erewrite DFV_pre_sub by eauto. cbn [from_pre].
  destruct X as [X0 X1], Y as [Y0 Y1]. unfold renorm2. repeat fvstep. split; fvs.
Qed.
Lemma DFV_sub_self x y a b : DFV x a b -> DFV y a b -> DFV (d_sub x y) 0 0.
Proof.
  intros X Y. unfold d_sub. erewrite DFV_pre_sub by eauto. cbn [from_pre].
  destruct X as [X0 X1], Y as [Y0 Y1]. unfold renorm2. repeat fvstep. split; fvs.
Qed.
Lemma DFV_add_opp x y a b : DFV x a b -> DFV y (- a) (- b) -> DFV (d_add x y) 0 0.
Proof.
  intros X Y. unfold d_add. erewrite DFV_pre_add by eauto. cbn [from_pre].
  destruct X as [X0 X1], Y as [Y0 Y1]. unfold renorm2. repeat fvstep. split; fvs.
Qed.
Lemma d_is_nan_FV a x : FV a x -> fis_nan a = false.
Proof. intros [F _]. now apply Fin_nan. Qed.
Lemma d_is_inf_FV a x : FV a x -> fis_infinite a = false.
Proof. intros [F _]. now apply Fin_inf. Qed.
Lemma FV_zero_is s : FV (B754_zero s) 0.
Proof. now split. Qed.
Lemma DFV_mul_1r x y a b : DFV x a b -> rn (a + b) = a -> DFV y 1 0 -> DFV (d_mul x y) a b.
Proof.
  intros X N Y. unfold d_mul.
  destruct (Req_dec a 0) as [Z|Z].
  - assert (b = 0).
    { subst a. destruct X as [_ X1]. rewrite Rplus_0_l, rn_id in N; auto. eapply FV_fmt; eauto. }
    subst a b. rewrite d_pre_mul_zero; try (apply X || apply Y).
    destruct (Bool.eqb _ _); split; apply FV_zero_is.
  - rewrite d_pre_mul_fin; try (apply X || apply Y). 2: now rewrite (proj2 (proj1 X)).
    cbn [from_pre]. destruct X as [X0 X1], Y as [Y0 Y1]. unfold renorm2. repeat fvstep. split; fvs.
Qed.
Lemma DFV_mul_1l x y a b : DFV x a b -> rn (a + b) = a -> DFV y 1 0 -> DFV (d_mul y x) a b.
Proof.
  intros X N Y. unfold d_mul.
  rewrite d_pre_mul_fin; try (apply X || apply Y). 2: rewrite (proj2 (proj1 Y)); apply R1_neq_R0.
  cbn [from_pre]. destruct X as [X0 X1], Y as [Y0 Y1]. unfold renorm2. repeat fvstep. split; fvs.
Qed.
Lemma DFV_mul_0r x y a b : DFV x a b -> DFV y 0 0 -> DFV (d_mul x y) 0 0.
Proof.
  intros X Y. unfold d_mul.
  destruct (Req_dec a 0) as [Z|Z].
  - subst a. rewrite d_pre_mul_zero; try (apply X || apply Y). destruct (Bool.eqb _ _); split; apply FV_zero_is.
  - rewrite d_pre_mul_fin; try (apply X || apply Y). 2: now rewrite (proj2 (proj1 X)).
    cbn [from_pre]. destruct X as [X0 X1], Y as [Y0 Y1]. unfold renorm2. repeat fvstep. split; fvs.
Qed.
Lemma DFV_mulf_1r x y a b : DFV x a b -> rn (a + b) = a -> FV y 1 -> DFV (d_mul_f64 x y) a b.
Proof. intros [X0 X1] N Y. unfold d_mul_f64, renorm2. repeat fvstep. split; fvs. Qed.
Lemma DFV_mulf_0r x y a b : DFV x a b -> FV y 0 -> DFV (d_mul_f64 x y) 0 0.
Proof. intros [X0 X1] Y. unfold d_mul_f64, renorm2. repeat fvstep. split; fvs. Qed.
Lemma DFV_mulf_1l x y a : DFV x 1 0 -> FV y a -> DFV (d_mul_f64 x y) a 0.
Proof. intros [X0 X1] Y. unfold d_mul_f64, renorm2. repeat fvstep. split; fvs. Qed.
Lemma d_pre_div_fin x y : Fin (d0 x) -> Fin (d0 y) -> V (d0 y) <> 0 -> d_pre_div x y = None.
Proof.
  intros Fx Fy N. unfold d_pre_div, d_is_nan, d_is_infinite, d_is_zero.
  rewrite (Fin_nan _ Fx), (Fin_nan _ Fy), (Fin_inf _ Fx), (Fin_inf _ Fy).
  rewrite feqb_ok by (easy || apply Fin_0). now rewrite Req_bool_false.
Qed.
Lemma DFV_div_1r x y a b : DFV x a b -> rn (a + b) = a -> DFV y 1 0 -> DFV (d_div x y) a b.
Proof.
  intros X N Y. unfold d_div. rewrite d_pre_div_fin; try (apply X || apply Y).
  2: rewrite (proj2 (proj1 Y)); apply R1_neq_R0. cbn [from_pre].
  assert (Q1 : FV (fdiv (d0 x) (d0 y)) a) by (eapply FV_div_1r; apply X || apply Y).
  set (q1 := fdiv (d0 x) (d0 y)) in *.
  assert (M1 := DFV_mulf_1l _ _ _ Y Q1).
  assert (R1 : DFV (d_sub x (d_mul_f64 y q1)) b 0).
  { unfold d_sub. erewrite DFV_pre_sub by eauto. cbn [from_pre].
    destruct X as [X0 X1], M1 as [Y0 Y1]. unfold renorm2. repeat fvstep. split; fvs. }
  set (r1 := d_sub x (d_mul_f64 y q1)) in *.
  assert (Q2 : FV (fdiv (d0 r1) (d0 y)) b) by (eapply FV_div_1r; apply R1 || apply Y).
  set (q2 := fdiv (d0 r1) (d0 y)) in *.
  assert (M2 := DFV_mulf_1l _ _ _ Y Q2).
  assert (R2 := DFV_sub_self _ _ _ _ R1 M2).
  assert (Q3 : FV (fdiv (d0 (d_sub r1 (d_mul_f64 y q2))) (d0 y)) 0) by (eapply FV_div_1r; apply R2 || apply Y).
  unfold renorm3. repeat fvstep. split; fvs.
Qed.
Lemma DFV_div_self x y a b : DFV x a b -> rn (a + b) = a -> DFV y a b -> a <> 0 -> DFV (d_div x y) 1 0.
Proof.
  intros X N Y NZ. unfold d_div. rewrite d_pre_div_fin; try (apply X || apply Y).
  2: now rewrite (proj2 (proj1 Y)). cbn [from_pre].
  assert (Q1 : FV (fdiv (d0 x) (d0 y)) 1) by (eapply FV_div_self; [apply X|apply Y|easy]).
  set (q1 := fdiv (d0 x) (d0 y)) in *.
  assert (M1 := DFV_mulf_1r _ _ _ _ Y N Q1).
  assert (R1 := DFV_sub_self _ _ _ _ X M1).
  set (r1 := d_sub x (d_mul_f64 y q1)) in *.
  assert (Q2 : FV (fdiv (d0 r1) (d0 y)) 0) by (eapply FV_div_0l; [apply R1|apply Y|easy]).
  set (q2 := fdiv (d0 r1) (d0 y)) in *.
  assert (M2 := DFV_mulf_0r _ _ _ _ Y Q2).
  assert (R2 := DFV_sub_self _ _ _ _ R1 M2).
  assert (Q3 : FV (fdiv (d0 (d_sub r1 (d_mul_f64 y q2))) (d0 y)) 0) by (eapply FV_div_0l; [apply R2|apply Y|easy]).
  unfold renorm3. repeat fvstep. split; fvs.
Qed.
