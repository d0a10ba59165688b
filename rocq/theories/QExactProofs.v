(** * Exact Quad identities (lemmas) *)
From Coq Require Import ZArith Reals Lra Lia List Bool.
From Flocq Require Import Core IEEE754.BinarySingleNaN.
From Verif Require Import RN F64 Prim DoubleM QuadM Spec F64Facts EFT DAddProofs DMulProofs Check SpecialProofs OrderProofs ExactProofs.
Import ListNotations.
Local Open Scope R_scope.

Definition FV3 (p : f64 * f64 * f64) (x y z : R) : Prop := FV (fst (fst p)) x /\ FV (snd (fst p)) y /\ FV (snd p) z.

(** neighbours do not overlap *)
Definition chain4 (a b c d : R) : Prop := rn (a + b) = a /\ rn (b + c) = b /\ rn (c + d) = c.
Lemma QNormW_chain x : QNormW x -> QFV x (V (q0 x)) (V (q1 x)) (V (q2 x)) (V (q3 x)) /\
  chain4 (V (q0 x)) (V (q1 x)) (V (q2 x)) (V (q3 x)).
Proof.
  intros [F [H1 [H2 H3]]]. split; [now apply QFV_self|]. unfold chain4, RN in *.
  refine (conj _ (conj _ _)); congruence.
Qed.
Lemma chain_0 a b : fmt b -> rn (a + b) = a -> a = 0 -> b = 0.
Proof. intros F H ->. rewrite Rplus_0_l, rn_id in H; auto. Qed.

Ltac feq := match goal with H : FV ?a ?x |- context [feqb ?a F64.f0] => rewrite (FV_feqb0 a x H) by assumption end.
Ltac feq0 := match goal with |- context [feqb _ F64.f0 || feqb ?b F64.f0] => rewrite (FV_feqb0_0 b) by assumption; rewrite orb_true_r end.
Lemma acc_pass u v t x y z : FV u x -> FV v y -> FV t z -> rn (x + y) = x -> rn (y + z) = y -> y <> 0 -> z <> 0 ->
  FV3 (accumulate u v t) x y z.
Proof.
  intros U W T N1 N2 Y Z. unfold accumulate. repeat fvstep.
  feq. feq. cbn. split; [|split]; assumption.
Qed.
Lemma acc_0 u v t x y : FV u x -> FV v y -> FV t 0 -> rn (x + y) = x -> FV3 (accumulate u v t) 0 x y.
Proof.
  intros U W T N1. unfold accumulate. repeat fvstep.
  feq0. cbn. split; [|split]; auto using FV_0.
Qed.
Lemma acc_mid u v t x z : FV u x -> FV v 0 -> FV t z -> rn (x + z) = x -> FV3 (accumulate u v t) 0 x z.
Proof.
  intros U W T N1. unfold accumulate. repeat fvstep.
  feq0. cbn. split; [|split]; auto using FV_0.
Qed.
Lemma acc_first u v t z : FV u 0 -> FV v 0 -> FV t z -> FV3 (accumulate u v t) 0 z 0.
Proof.
  intros U W T. unfold accumulate. repeat fvstep.
  feq0. cbn. split; [|split]; auto using FV_0.
Qed.
Lemma acc_opp u v t x : FV u x -> FV v 0 -> FV t (- x) -> FV3 (accumulate u v t) 0 0 0.
Proof.
  intros U W T. unfold accumulate. repeat fvstep.
  feq0. cbn. split; [|split]; auto using FV_0.
Qed.
Lemma acc_opp' u v t x : FV u (- x) -> FV v 0 -> FV t x -> FV3 (accumulate u v t) 0 0 0.
Proof. intros U W T. eapply acc_opp; eauto. eapply FV_eq; eauto. ring. Qed.

Lemma qa_push_0 s out : FV s 0 -> qa_push s out = out.
Proof. intros H. unfold qa_push. now rewrite FV_fne0_0. Qed.
Lemma qa_push_1 s x out : FV s x -> x <> 0 -> qa_push s out = out ++ [s].
Proof. intros H N. unfold qa_push. now erewrite FV_fne0 by eauto. Qed.

Lemma qa_loop_cc a rx b ry u v out : Nat.ltb (length out) 4 = true ->
  qa_loop (a :: rx) (b :: ry) u v out =
  (if abs_gt a b then let '(s, y, z) := accumulate u v a in qa_loop rx (b :: ry) y z (qa_push s out)
   else let '(s, y, z) := accumulate u v b in qa_loop (a :: rx) ry y z (qa_push s out)).
Proof. intros H. cbn [qa_loop]. now rewrite H. Qed.
Lemma qa_loop_cn a rx u v out : Nat.ltb (length out) 4 = true ->
  qa_loop (a :: rx) [] u v out = let '(s, y, z) := accumulate u v a in qa_loop rx [] y z (qa_push s out).
Proof. intros H. cbn [qa_loop]. now rewrite H. Qed.
Lemma qa_loop_nc b ry u v out : Nat.ltb (length out) 4 = true ->
  qa_loop [] (b :: ry) u v out = let '(s, y, z) := accumulate u v b in qa_loop [] ry y z (qa_push s out).
Proof. intros H. cbn [qa_loop]. now rewrite H. Qed.
Lemma qa_loop_nn u v out : Nat.ltb (length out) 4 = true ->
  qa_loop [] [] u v out = (if Nat.ltb (length out) 3 then out ++ [u; v] else out ++ [u], [], []).
Proof. intros H. cbn [qa_loop]. now rewrite H. Qed.

Ltac ineq := rewrite ?Rabs_Ropp, ?Rabs_R0; solve [ assumption | apply Rabs_pos_lt; assumption | apply Rle_refl | apply Rabs_pos | lra ].
Ltac absgt a b := first [ erewrite (FV_abs_gt a b) by (first [fvs | ineq]) | erewrite (FV_abs_ngt a b) by (first [fvs | ineq]) ].
Ltac accs := solve [ eapply acc_first; fvs | eapply acc_opp; fvs | eapply acc_opp'; fvs
  | eapply acc_0; [fvs|fvs|fvs|first [eassumption | rewrite Rplus_0_r; apply rn_id; eapply FV_fmt; eassumption]]
  | eapply acc_mid; [fvs|fvs|fvs|eassumption]
  | eapply acc_pass; [fvs|fvs|fvs|eassumption|eassumption|eassumption|eassumption] ].
Ltac qstep :=
  match goal with
  | |- context [qa_take (?a :: ?rx) (?b :: ?ry)] => cbn [qa_take]; absgt a b
  | |- context [accumulate ?u ?v ?t] =>
      let K := fresh in eassert (K : FV3 (accumulate u v t) _ _ _) by accs;
      destruct (accumulate u v t) as [[? ?] ?]; destruct K as [? [? ?]]; cbn [fst snd] in *
  | |- context [qa_push ?s ?out] => first [ rewrite (qa_push_0 s out) by fvs | erewrite (qa_push_1 s _ out) by (first [fvs|eassumption]) ]; cbn [app]
  | |- context [qa_loop (?a :: ?rx) (?b :: ?ry) ?u ?v ?out] => rewrite (qa_loop_cc a rx b ry u v out) by reflexivity; absgt a b
  | |- context [qa_loop (?a :: ?rx) [] ?u ?v ?out] => rewrite (qa_loop_cn a rx u v out) by reflexivity
  | |- context [qa_loop [] (?b :: ?ry) ?u ?v ?out] => rewrite (qa_loop_nc b ry u v out) by reflexivity
  | |- context [qa_loop [] [] ?u ?v ?out] => rewrite (qa_loop_nn u v out) by reflexivity; cbn [length Nat.ltb Nat.leb app]
  | |- context [quick_two_sum ?a ?b] => fvstep
  end.

Lemma QFV_mk a b c d x y z w : FV a x -> FV b y -> FV c z -> FV d w -> QFV (mkQ a b c d) x y z w.
Proof. intros. repeat split; try apply H; try apply H0; try apply H1; apply H2. Qed.

Lemma renorm4_id a b c d x y z w : FV a x -> FV b y -> FV c z -> FV d w -> chain4 x y z w ->
  QFV (mkQ4 (renorm4 a b c d)) x y z w.
Proof.
  intros A B C D [N1 [N2 N3]]. unfold renorm4.
  assert (Z1 := chain_0 x y (FV_fmt _ _ B) N1). assert (Z2 := chain_0 y z (FV_fmt _ _ C) N2). assert (Z3 := chain_0 z w (FV_fmt _ _ D) N3).
  destruct (Req_dec y 0) as [Y|Y]; [specialize (Z2 Y); specialize (Z3 Z2); subst|
  destruct (Req_dec z 0) as [Z|Z]; [specialize (Z3 Z); subst|]];
  repeat fvstep; apply QFV_mk; fvs.
Qed.
Lemma renorm5_id a b c d e x y z w : FV a x -> FV b y -> FV c z -> FV d w -> FV e 0 -> chain4 x y z w ->
  QFV (mkQ4 (renorm5 a b c d e)) x y z w.
Proof.
  intros A B C D E [N1 [N2 N3]]. unfold renorm5.
  assert (Z1 := chain_0 x y (FV_fmt _ _ B) N1). assert (Z2 := chain_0 y z (FV_fmt _ _ C) N2). assert (Z3 := chain_0 z w (FV_fmt _ _ D) N3).
  destruct (Req_dec y 0) as [Y|Y]; [specialize (Z2 Y); specialize (Z3 Z2); subst|
  destruct (Req_dec z 0) as [Z|Z]; [specialize (Z3 Z); subst|
  destruct (Req_dec w 0) as [W|W]; [subst|]]];
  repeat fvstep; apply QFV_mk; fvs.
Qed.

Lemma q_pre_add_fin x y : Fin (q0 x) -> Fin (q0 y) -> q_pre_add x y = None.
Proof.
  intros Fx Fy. unfold q_pre_add, q_is_nan, q_is_infinite.
  now rewrite (Fin_nan _ Fx), (Fin_nan _ Fy), (Fin_inf _ Fx), (Fin_inf _ Fy).
Qed.

Lemma norm_lt a b : fmt a -> fmt b -> rn (a + b) = a -> a <> 0 -> Rabs b < Rabs a.
Proof.
  intros Fa Fb N Z. assert (K := norm_lo a b Fa Fb N). assert (P := Rabs_pos_lt a Z). lra.
Qed.

Ltac five x0 x1 x2 x3 H0 H1 H2 :=
  destruct (Req_dec x0 0) as [?|?]; [assert (x1 = 0) by auto; assert (x2 = 0) by auto; assert (x3 = 0) by auto; subst|
  destruct (Req_dec x1 0) as [?|?]; [assert (x2 = 0) by auto; assert (x3 = 0) by auto; subst|
  destruct (Req_dec x2 0) as [?|?]; [assert (x3 = 0) by auto; subst|
  destruct (Req_dec x3 0) as [?|?]; [subst|]]]].

Lemma QFV_add_0r x y a b c d : QFV x a b c d -> chain4 a b c d -> QFV y 0 0 0 0 -> QFV (q_add x y) a b c d.
Proof.
  intros [X0 [X1 [X2 X3]]] C [Y0 [Y1 [Y2 Y3]]]. unfold q_add.
  rewrite q_pre_add_fin by (apply X0 || apply Y0). cbn [from_pre].
  assert (C' := C). destruct C as [N1 [N2 N3]].
  assert (Z1 := chain_0 a b (FV_fmt _ _ X1) N1). assert (Z2 := chain_0 b c (FV_fmt _ _ X2) N2). assert (Z3 := chain_0 c d (FV_fmt _ _ X3) N3).
  unfold q_add_core, q_list, renorm2, qa_finish.
  five a b c d Z1 Z2 Z3; repeat qstep; cbn [fold_left nth]; apply renorm4_id; auto; fvs.
Qed.
Lemma QFV_add_0l x y a b c d : QFV x a b c d -> chain4 a b c d -> QFV y 0 0 0 0 -> QFV (q_add y x) a b c d.
Proof.
  intros [X0 [X1 [X2 X3]]] C [Y0 [Y1 [Y2 Y3]]]. unfold q_add.
  rewrite q_pre_add_fin by (apply X0 || apply Y0). cbn [from_pre].
  assert (C' := C). destruct C as [N1 [N2 N3]].
  assert (Z1 := chain_0 a b (FV_fmt _ _ X1) N1). assert (Z2 := chain_0 b c (FV_fmt _ _ X2) N2). assert (Z3 := chain_0 c d (FV_fmt _ _ X3) N3).
  unfold q_add_core, q_list, renorm2, qa_finish.
  five a b c d Z1 Z2 Z3; repeat qstep; cbn [fold_left nth]; apply renorm4_id; auto; fvs.
Qed.
Lemma chain_zero : chain4 0 0 0 0.
Proof. unfold chain4. rewrite Rplus_0_r, rn_0. auto. Qed.
Lemma QFV_add_opp x y a b c d : QFV x a b c d -> chain4 a b c d -> QFV y (- a) (- b) (- c) (- d) -> QFV (q_add x y) 0 0 0 0.
Proof.
  intros [X0 [X1 [X2 X3]]] C [Y0 [Y1 [Y2 Y3]]]. unfold q_add.
  rewrite q_pre_add_fin by (apply X0 || apply Y0). cbn [from_pre].
  destruct C as [N1 [N2 N3]].
  assert (Z1 := chain_0 a b (FV_fmt _ _ X1) N1). assert (Z2 := chain_0 b c (FV_fmt _ _ X2) N2). assert (Z3 := chain_0 c d (FV_fmt _ _ X3) N3).
  assert (L1 := norm_lt a b (FV_fmt _ _ X0) (FV_fmt _ _ X1) N1).
  assert (L2 := norm_lt b c (FV_fmt _ _ X1) (FV_fmt _ _ X2) N2).
  assert (L3 := norm_lt c d (FV_fmt _ _ X2) (FV_fmt _ _ X3) N3).
  unfold q_add_core, q_list, renorm2, qa_finish.
  assert (CZ := chain_zero).
  five a b c d Z1 Z2 Z3; rewrite ?Ropp_0 in *;
  repeat match goal with H : ?P -> Rabs _ < Rabs _, K : ?P |- _ => specialize (H K) end;
  repeat qstep; cbn [fold_left nth]; apply renorm4_id; auto; fvs.
Qed.

(** products with 1 *)
Ltac u3 := unfold three_three_sum, three_two_sum, four_two_sum, six_three_sum, nine_two_sum.
Lemma q_pre_mul_fin x y : Fin (q0 x) -> Fin (q0 y) -> V (q0 x) <> 0 -> q_pre_mul x y = None.
Proof.
  intros Fx Fy N. unfold q_pre_mul, q_is_nan, q_is_infinite, q_is_zero.
  rewrite (Fin_nan _ Fx), (Fin_nan _ Fy), (Fin_inf _ Fx), (Fin_inf _ Fy).
  rewrite feqb_ok by (easy || apply Fin_0). now rewrite Req_bool_false.
Qed.
Lemma q_pre_mul_zero x y : Fin (q0 x) -> Fin (q0 y) -> V (q0 x) = 0 ->
  q_pre_mul x y = Some (if Bool.eqb (fsign_pos (q0 x)) (fsign_pos (q0 y)) then Q_ZERO else Q_NEG_ZERO).
Proof.
  intros Fx Fy Hx. unfold q_pre_mul, q_is_nan, q_is_infinite, q_is_zero.
  rewrite (Fin_nan _ Fx), (Fin_nan _ Fy), (Fin_inf _ Fy).
  rewrite feqb_ok by (easy || apply Fin_0). rewrite Req_bool_true by easy. cbn [orb].
  now destruct (Bool.eqb _ _).
Qed.
Lemma QFV_zero_if (c : bool) : QFV (if c then Q_ZERO else Q_NEG_ZERO) 0 0 0 0.
Proof. destruct c; apply QFV_mk; apply FV_0 || apply FV_n0. Qed.
Lemma chain_all0 a b c d : fmt b -> fmt c -> fmt d -> chain4 a b c d -> a = 0 -> b = 0 /\ c = 0 /\ d = 0.
Proof.
  intros Fb Fc Fd [N1 [N2 N3]] A. assert (b = 0) by (eapply chain_0; eauto). assert (c = 0) by (eapply chain_0; eauto).
  assert (d = 0) by (eapply chain_0; eauto). auto.
Qed.
Lemma QFV_mul_1l x y a b c d : QFV x a b c d -> chain4 a b c d -> QFV y 1 0 0 0 -> QFV (q_mul y x) a b c d.
Proof.
  intros [X0 [X1 [X2 X3]]] C [Y0 [Y1 [Y2 Y3]]]. unfold q_mul.
  rewrite q_pre_mul_fin; try (apply X0 || apply Y0). 2: rewrite (proj2 Y0); apply R1_neq_R0. cbn [from_pre].
  unfold q_mul_core. u3. repeat fvstep. apply renorm5_id; auto; fvs.
Qed.
Lemma QFV_mul_1r x y a b c d : QFV x a b c d -> chain4 a b c d -> QFV y 1 0 0 0 -> QFV (q_mul x y) a b c d.
Proof.
  intros [X0 [X1 [X2 X3]]] C [Y0 [Y1 [Y2 Y3]]]. unfold q_mul.
  destruct (Req_dec a 0) as [Z|Z].
  - destruct (chain_all0 a b c d) as [? [? ?]]; eauto using FV_fmt. subst.
    rewrite q_pre_mul_zero; try (apply X0 || apply Y0). apply QFV_zero_if.
  - rewrite q_pre_mul_fin; try (apply X0 || apply Y0). 2: now rewrite (proj2 X0). cbn [from_pre].
    unfold q_mul_core. u3. repeat fvstep. apply renorm5_id; auto; fvs.
Qed.
Lemma QFV_mul_0r x y a b c d : QFV x a b c d -> QFV y 0 0 0 0 -> QFV (q_mul x y) 0 0 0 0.
Proof.
  intros [X0 [X1 [X2 X3]]] [Y0 [Y1 [Y2 Y3]]]. unfold q_mul.
  destruct (Req_dec a 0) as [Z|Z].
  - subst. rewrite q_pre_mul_zero; try (apply X0 || apply Y0). apply QFV_zero_if.
  - rewrite q_pre_mul_fin; try (apply X0 || apply Y0). 2: now rewrite (proj2 X0). cbn [from_pre].
    unfold q_mul_core. u3. repeat fvstep. apply renorm5_id; auto using chain_zero; fvs.
Qed.
Lemma QFV_mulf_1r x y a b c d : QFV x a b c d -> chain4 a b c d -> FV y 1 -> QFV (q_mul_f64 x y) a b c d.
Proof.
  intros [X0 [X1 [X2 X3]]] C Y. unfold q_mul_f64. u3. repeat fvstep. apply renorm5_id; auto; fvs.
Qed.
Lemma QFV_mulf_0r x y a b c d : QFV x a b c d -> FV y 0 -> QFV (q_mul_f64 x y) 0 0 0 0.
Proof.
  intros [X0 [X1 [X2 X3]]] Y. unfold q_mul_f64. u3. repeat fvstep. apply renorm5_id; auto using chain_zero; fvs.
Qed.
Lemma chain_hd a : fmt a -> chain4 a 0 0 0.
Proof. intros F. unfold chain4. rewrite !Rplus_0_r, rn_0. auto using rn_id. Qed.
Lemma QFV_mulf_1l x y a : QFV x 1 0 0 0 -> FV y a -> QFV (q_mul_f64 x y) a 0 0 0.
Proof.
  intros [X0 [X1 [X2 X3]]] Y. unfold q_mul_f64. u3. repeat fvstep. apply renorm5_id; eauto using chain_hd, FV_fmt; fvs.
Qed.
Lemma q_pre_div_fin x y : Fin (q0 x) -> Fin (q0 y) -> V (q0 y) <> 0 -> q_pre_div x y = None.
Proof.
  intros Fx Fy N. unfold q_pre_div, q_is_nan, q_is_infinite, q_is_zero.
  rewrite (Fin_nan _ Fx), (Fin_nan _ Fy), (Fin_inf _ Fx), (Fin_inf _ Fy).
  rewrite feqb_ok by (easy || apply Fin_0). now rewrite Req_bool_false.
Qed.
Lemma QFV_neg x a b c d : QFV x a b c d -> QFV (q_neg x) (- a) (- b) (- c) (- d).
Proof. intros [X0 [X1 [X2 X3]]]. apply QFV_mk; now apply FV_neg. Qed.
Lemma QFV_sub_self x y a b c d : QFV x a b c d -> chain4 a b c d -> QFV y a b c d -> QFV (q_sub x y) 0 0 0 0.
Proof. intros X C Y. unfold q_sub. eapply QFV_add_opp; eauto using QFV_neg. Qed.
(** removing the leading component *)
Lemma QFV_sub_head x y a b c d : QFV x a b c d -> chain4 a b c d -> QFV y a 0 0 0 -> QFV (q_sub x y) b c d 0.
Proof.
  intros [X0 [X1 [X2 X3]]] C Y. apply QFV_neg in Y. rewrite Ropp_0 in Y. unfold q_sub, q_add.
  destruct Y as [Y0 [Y1 [Y2 Y3]]].
  rewrite q_pre_add_fin by (apply X0 || apply Y0). cbn [from_pre].
  destruct C as [N1 [N2 N3]].
  assert (Z1 := chain_0 a b (FV_fmt _ _ X1) N1). assert (Z2 := chain_0 b c (FV_fmt _ _ X2) N2). assert (Z3 := chain_0 c d (FV_fmt _ _ X3) N3).
  assert (L1 := norm_lt a b (FV_fmt _ _ X0) (FV_fmt _ _ X1) N1).
  assert (CC : chain4 b c d 0).
  { refine (conj _ (conj _ _)); auto. rewrite Rplus_0_r. apply rn_id. eapply FV_fmt; eauto. }
  unfold q_add_core, q_list, renorm2, qa_finish.
  five a b c d Z1 Z2 Z3; rewrite ?Ropp_0 in *;
  repeat match goal with H : ?P -> Rabs _ < Rabs _, K : ?P |- _ => specialize (H K) end;
  repeat qstep; cbn [fold_left nth]; apply renorm4_id; auto; fvs.
Qed.
Lemma QFV_div_1r x y a b c d : QFV x a b c d -> chain4 a b c d -> QFV y 1 0 0 0 -> QFV (q_div x y) a b c d.
Proof.
  intros X C Y. unfold q_div. rewrite q_pre_div_fin; try (apply X || apply Y).
  2: rewrite (proj2 (proj1 Y)); apply R1_neq_R0. cbn [from_pre].
  assert (CC := C). destruct CC as [N1 [N2 N3]].
  assert (Fb : fmt b) by (eapply FV_fmt; apply X). assert (Fc : fmt c) by (eapply FV_fmt; apply X). assert (Fd : fmt d) by (eapply FV_fmt; apply X).
  assert (C1 : chain4 b c d 0) by (refine (conj _ (conj _ _)); auto; rewrite Rplus_0_r; now apply rn_id).
  assert (C2 : chain4 c d 0 0) by (refine (conj _ (conj _ _)); auto; rewrite Rplus_0_r; auto using rn_id, rn_0).
  assert (C3 := chain_hd d Fd).
  assert (Q0 : FV (fdiv (q0 x) (q0 y)) a) by (eapply FV_div_1r; apply X || apply Y).
  set (a0 := fdiv (q0 x) (q0 y)) in *.
  assert (R0 := QFV_sub_head _ _ _ _ _ _ X C (QFV_mulf_1l _ _ _ Y Q0)).
  set (r0 := q_sub x (q_mul_f64 y a0)) in *.
  assert (Q1 : FV (fdiv (q0 r0) (q0 y)) b) by (eapply FV_div_1r; apply R0 || apply Y).
  set (a1 := fdiv (q0 r0) (q0 y)) in *.
  assert (R1 := QFV_sub_head _ _ _ _ _ _ R0 C1 (QFV_mulf_1l _ _ _ Y Q1)).
  set (r1 := q_sub r0 (q_mul_f64 y a1)) in *.
  assert (Q2 : FV (fdiv (q0 r1) (q0 y)) c) by (eapply FV_div_1r; apply R1 || apply Y).
  set (a2 := fdiv (q0 r1) (q0 y)) in *.
  assert (R2 := QFV_sub_head _ _ _ _ _ _ R1 C2 (QFV_mulf_1l _ _ _ Y Q2)).
  set (r2 := q_sub r1 (q_mul_f64 y a2)) in *.
  assert (Q3 : FV (fdiv (q0 r2) (q0 y)) d) by (eapply FV_div_1r; apply R2 || apply Y).
  set (a3 := fdiv (q0 r2) (q0 y)) in *.
  assert (R3 := QFV_sub_head _ _ _ _ _ _ R2 C3 (QFV_mulf_1l _ _ _ Y Q3)).
  set (r3 := q_sub r2 (q_mul_f64 y a3)) in *.
  assert (Q4 : FV (fdiv (q0 r3) (q0 y)) 0) by (eapply FV_div_1r; apply R3 || apply Y).
  apply renorm5_id; auto.
Qed.
Lemma QFV_div_self x y a b c d : QFV x a b c d -> chain4 a b c d -> QFV y a b c d -> a <> 0 -> QFV (q_div x y) 1 0 0 0.
Proof.
  intros X C Y NZ. unfold q_div. rewrite q_pre_div_fin; try (apply X || apply Y).
  2: now rewrite (proj2 (proj1 Y)). cbn [from_pre].
  assert (Q0 : FV (fdiv (q0 x) (q0 y)) 1) by (eapply FV_div_self; [apply X|apply Y|easy]).
  set (a0 := fdiv (q0 x) (q0 y)) in *.
  assert (R0 := QFV_sub_self _ _ _ _ _ _ X C (QFV_mulf_1r _ _ _ _ _ _ Y C Q0)).
  set (r0 := q_sub x (q_mul_f64 y a0)) in *.
  assert (Q1 : FV (fdiv (q0 r0) (q0 y)) 0) by (eapply FV_div_0l; [apply R0|apply Y|easy]).
  set (a1 := fdiv (q0 r0) (q0 y)) in *.
  assert (R1 := QFV_sub_self _ _ _ _ _ _ R0 chain_zero (QFV_mulf_0r _ _ _ _ _ _ Y Q1)).
  set (r1 := q_sub r0 (q_mul_f64 y a1)) in *.
  assert (Q2 : FV (fdiv (q0 r1) (q0 y)) 0) by (eapply FV_div_0l; [apply R1|apply Y|easy]).
  set (a2 := fdiv (q0 r1) (q0 y)) in *.
  assert (R2 := QFV_sub_self _ _ _ _ _ _ R1 chain_zero (QFV_mulf_0r _ _ _ _ _ _ Y Q2)).
  set (r2 := q_sub r1 (q_mul_f64 y a2)) in *.
  assert (Q3 : FV (fdiv (q0 r2) (q0 y)) 0) by (eapply FV_div_0l; [apply R2|apply Y|easy]).
  set (a3 := fdiv (q0 r2) (q0 y)) in *.
  assert (R3 := QFV_sub_self _ _ _ _ _ _ R2 chain_zero (QFV_mulf_0r _ _ _ _ _ _ Y Q3)).
  set (r3 := q_sub r2 (q_mul_f64 y a3)) in *.
  assert (Q4 : FV (fdiv (q0 r3) (q0 y)) 0) by (eapply FV_div_0l; [apply R3|apply Y|easy]).
  apply renorm5_id; auto. apply chain_hd. apply (FV_fmt f1), FV_1.
Qed.
