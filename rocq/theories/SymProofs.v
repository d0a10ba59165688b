(** * Sign symmetry and substitution of equal values (lemmas) *)
From Coq Require Import ZArith Reals Lra Lia List Bool.
From Flocq Require Import Core IEEE754.BinarySingleNaN.
From Verif Require Import RN F64 Prim DoubleM QuadM Spec F64Facts EFT DAddProofs DMulProofs Check SpecialProofs OrderProofs Sim.
Import ListNotations.
Local Open Scope R_scope.

Lemma Rel_sign n a a' : Rel n a a' -> fne0 a = true -> fis_nan a = false -> fsign_pos a' = xorb n (fsign_pos a).
Proof.
  intros H N K. unfold Rel in H. unfold fsign_pos.
  destruct (is_finite a) eqn:Fa.
  - rewrite (to_ext_fin a Fa) in H.
    assert (Fa' : Fin a'). { destruct n; cbn in H; destruct a' as [|[]| |]; easy. }
    rewrite (to_ext_fin a' Fa') in H.
    rewrite fne0_ok in N by easy.
    assert (Na : V a <> 0). { destruct (Req_bool_spec (V a) 0); easy. }
    assert (E : V a' = if n then - V a else V a) by (destruct n; cbn in H; congruence).
    assert (Na' : V a' <> 0) by (destruct n; lra).
    rewrite (Bsign_R a), (Bsign_R a') by easy. rewrite E.
    destruct n; cbn.
    + destruct (Rlt_bool_spec (- V a) 0), (Rlt_bool_spec (V a) 0); cbn; auto; lra.
    + now destruct (Rlt_bool (V a) 0).
  - destruct a as [|s| |]; try easy. destruct a' as [s'|[]| |s' m' e' h'], s, n; cbn in *; easy.
Qed.
Lemma inf_ne0 a : fis_infinite a = true -> fne0 a = true.
Proof. now destruct a as [|[]| |]. Qed.
Lemma inf_not_nan a : fis_infinite a = true -> fis_nan a = false.
Proof. now destruct a as [|[]| |]. Qed.
Lemma sign_neg_pos a : fsign_neg a = negb (fsign_pos a).
Proof. unfold fsign_neg, fsign_pos. now rewrite negb_involutive. Qed.

Definition ORel {A} (R : A -> A -> Prop) (o o' : option A) : Prop :=
  match o, o' with None, None => True | Some a, Some b => R a b | _, _ => False end.

Lemma from_pre_rel {A} (R : A -> A -> Prop) o o' k k' :
  ORel R o o' -> (o = None -> R k k') -> R (from_pre o k) (from_pre o' k').
Proof. destruct o, o'; cbn; try easy. auto. Qed.

Lemma DRel_const n : DRel n D_NAN D_NAN /\ DRel n D_ZERO D_ZERO /\ DRel n D_ZERO D_NEG_ZERO /\
  DRel n D_NEG_ZERO D_ZERO /\ DRel n D_NEG_ZERO D_NEG_ZERO /\
  DRel false D_INFINITY D_INFINITY /\ DRel false D_NEG_INFINITY D_NEG_INFINITY /\
  DRel true D_INFINITY D_NEG_INFINITY /\ DRel true D_NEG_INFINITY D_INFINITY.
Proof. repeat split; destruct n; unfold Rel; cbn; rewrite ?Ropp_0; reflexivity. Qed.
Lemma QRel_const n : QRel n Q_NAN Q_NAN /\ QRel n Q_ZERO Q_ZERO /\ QRel n Q_ZERO Q_NEG_ZERO /\
  QRel n Q_NEG_ZERO Q_ZERO /\ QRel n Q_NEG_ZERO Q_NEG_ZERO /\
  QRel false Q_INFINITY Q_INFINITY /\ QRel false Q_NEG_INFINITY Q_NEG_INFINITY /\
  QRel true Q_INFINITY Q_NEG_INFINITY /\ QRel true Q_NEG_INFINITY Q_INFINITY.
Proof. repeat split; destruct n; unfold Rel; cbn; rewrite ?Ropp_0; reflexivity. Qed.

Ltac konst := cbn [ORel]; first [ exact I | apply (DRel_const true) | apply (DRel_const false)
   | apply (QRel_const true) | apply (QRel_const false)
   | match goal with |- DRel ?n _ _ => apply (DRel_const n) | |- QRel ?n _ _ => apply (QRel_const n) end ].
(** rewrite every test on a primed leading component into the unprimed one *)
Ltac pre_go :=
  repeat match goal with
  | H : Rel ?n ?a ?a' |- context [fis_nan ?a'] => rewrite (Rel_nan n a a' H)
  | H : Rel ?n ?a ?a' |- context [fis_infinite ?a'] => rewrite (Rel_inf n a a' H)
  | |- context [if fis_nan ?a || _ then _ else _] => destruct (fis_nan a) eqn:?; cbn [orb]
  | |- context [if fis_nan ?a then _ else _] => destruct (fis_nan a) eqn:?
  | |- context [if fis_infinite ?a then _ else _] => destruct (fis_infinite a) eqn:?
  end.

Lemma d_pre_add_rel n x x' y y' : DRel n x x' -> DRel n y y' ->
  ORel (DRel n) (d_pre_add x y) (d_pre_add x' y').
Proof.
  intros [X0 _] [Y0 _]. unfold d_pre_add, d_is_nan, d_is_infinite, d_is_sign_positive, d_is_sign_negative.
  rewrite !sign_neg_pos. pre_go; try konst;
  rewrite ?(Rel_sign _ _ _ X0), ?(Rel_sign _ _ _ Y0) by auto using inf_ne0, inf_not_nan;
  destruct n; cbn [xorb]; destruct (fsign_pos (d0 x)), (fsign_pos (d0 y)); konst.
Qed.
Lemma q_pre_add_rel n x x' y y' : QRel n x x' -> QRel n y y' ->
  ORel (QRel n) (q_pre_add x y) (q_pre_add x' y').
Proof.
  intros [X0 _] [Y0 _]. unfold q_pre_add, q_is_nan, q_is_infinite, q_is_sign_positive, q_is_sign_negative.
  rewrite !sign_neg_pos. pre_go; try konst;
  rewrite ?(Rel_sign _ _ _ X0), ?(Rel_sign _ _ _ Y0) by auto using inf_ne0, inf_not_nan;
  destruct n; cbn [xorb]; destruct (fsign_pos (q0 x)), (fsign_pos (q0 y)); konst.
Qed.
Lemma d_pre_sub_rel n x x' y y' : DRel n x x' -> DRel n y y' ->
  ORel (DRel n) (d_pre_sub x y) (d_pre_sub x' y').
Proof.
  intros [X0 _] [Y0 _]. unfold d_pre_sub, d_is_nan, d_is_infinite, d_is_sign_positive, d_is_sign_negative.
  rewrite !sign_neg_pos. pre_go; try konst;
  rewrite ?(Rel_sign _ _ _ X0), ?(Rel_sign _ _ _ Y0) by auto using inf_ne0, inf_not_nan;
  destruct n; cbn [xorb]; destruct (fsign_pos (d0 x)), (fsign_pos (d0 y)); konst.
Qed.

Lemma is_zero_ne0 a : feqb a f0 = negb (fne0 a).
Proof. unfold fne0. now rewrite negb_involutive. Qed.

Lemma d_pre_mul_rel n m x x' y y' : DRel n x x' -> DRel m y y' ->
  ORel (DRel (xorb n m)) (d_pre_mul x y) (d_pre_mul x' y').
Proof.
  intros [X0 _] [Y0 _]. unfold d_pre_mul, d_is_nan, d_is_infinite, d_is_sign_positive, d_is_zero.
  rewrite !is_zero_ne0, (Rel_ne0 _ _ _ X0), (Rel_ne0 _ _ _ Y0).
  rewrite (Rel_nan _ _ _ X0), (Rel_nan _ _ _ Y0), (Rel_inf _ _ _ X0), (Rel_inf _ _ _ Y0).
  destruct (fis_nan (d0 x)) eqn:?, (fis_nan (d0 y)) eqn:?; cbn [orb]; try konst.
  destruct (fne0 (d0 x)) eqn:?; cbn [negb];
  [|destruct (fis_infinite (d0 y)); [konst|]; repeat (destruct (Bool.eqb _ _)); konst].
  destruct (fis_infinite (d0 x)) eqn:?, (fne0 (d0 y)) eqn:?; cbn [negb];
  destruct (fis_infinite (d0 y)) eqn:?; try konst;
  try (assert (fne0 (d0 y) = true) by (now apply inf_ne0); congruence);
  rewrite (Rel_sign _ _ _ X0), (Rel_sign _ _ _ Y0) by easy;
  destruct n, m, (fsign_pos (d0 x)), (fsign_pos (d0 y)); konst.
Qed.
Lemma q_pre_mul_rel n m x x' y y' : QRel n x x' -> QRel m y y' ->
  ORel (QRel (xorb n m)) (q_pre_mul x y) (q_pre_mul x' y').
Proof.
  intros [X0 _] [Y0 _]. unfold q_pre_mul, q_is_nan, q_is_infinite, q_is_sign_positive, q_is_zero.
  rewrite !is_zero_ne0, (Rel_ne0 _ _ _ X0), (Rel_ne0 _ _ _ Y0).
  rewrite (Rel_nan _ _ _ X0), (Rel_nan _ _ _ Y0), (Rel_inf _ _ _ X0), (Rel_inf _ _ _ Y0).
  destruct (fis_nan (q0 x)) eqn:?, (fis_nan (q0 y)) eqn:?; cbn [orb]; try konst.
  destruct (fne0 (q0 x)) eqn:?; cbn [negb];
  [|destruct (fis_infinite (q0 y)); [konst|]; repeat (destruct (Bool.eqb _ _)); konst].
  destruct (fis_infinite (q0 x)) eqn:?, (fne0 (q0 y)) eqn:?; cbn [negb];
  destruct (fis_infinite (q0 y)) eqn:?; try konst;
  try (assert (fne0 (q0 y) = true) by (now apply inf_ne0); congruence);
  rewrite (Rel_sign _ _ _ X0), (Rel_sign _ _ _ Y0) by easy;
  destruct n, m, (fsign_pos (q0 x)), (fsign_pos (q0 y)); konst.
Qed.
(** division by zero: the sign of the zero counts, so it must be given *)
Lemma d_pre_div_rel n m x x' y y' : DRel n x x' -> DRel m y y' ->
  (fne0 (d0 y) = false -> fsign_pos (d0 y') = xorb m (fsign_pos (d0 y))) ->
  ORel (DRel (xorb n m)) (d_pre_div x y) (d_pre_div x' y').
Proof.
  intros [X0 _] [Y0 _] S. unfold d_pre_div, d_is_nan, d_is_infinite, d_is_sign_positive, d_is_sign_negative, d_is_zero.
  rewrite !sign_neg_pos.
  rewrite !is_zero_ne0, (Rel_ne0 _ _ _ X0), (Rel_ne0 _ _ _ Y0).
  rewrite (Rel_nan _ _ _ X0), (Rel_nan _ _ _ Y0), (Rel_inf _ _ _ X0), (Rel_inf _ _ _ Y0).
  destruct (fis_nan (d0 x)) eqn:?, (fis_nan (d0 y)) eqn:?; cbn [orb]; try konst.
  destruct (fne0 (d0 y)) eqn:?; cbn [negb].
  - destruct (fis_infinite (d0 x)) eqn:?, (fis_infinite (d0 y)) eqn:?; try konst.
    + assert (fne0 (d0 x) = true) by (now apply inf_ne0).
      rewrite (Rel_sign _ _ _ X0), (Rel_sign _ _ _ Y0) by easy;
      destruct n, m, (fsign_pos (d0 x)), (fsign_pos (d0 y)); konst.
    + repeat (destruct (Bool.eqb _ _)); konst.
  - destruct (fne0 (d0 x)) eqn:?; cbn [negb]; [|konst].
    rewrite (Rel_sign _ _ _ X0), S by easy;
    destruct n, m, (fsign_pos (d0 x)), (fsign_pos (d0 y)); konst.
Qed.
Lemma q_pre_div_rel n m x x' y y' : QRel n x x' -> QRel m y y' ->
  (fne0 (q0 y) = false -> fsign_pos (q0 y') = xorb m (fsign_pos (q0 y))) ->
  ORel (QRel (xorb n m)) (q_pre_div x y) (q_pre_div x' y').
Proof.
  intros [X0 _] [Y0 _] S. unfold q_pre_div, q_is_nan, q_is_infinite, q_is_sign_positive, q_is_sign_negative, q_is_zero.
  rewrite !sign_neg_pos.
  rewrite !is_zero_ne0, (Rel_ne0 _ _ _ X0), (Rel_ne0 _ _ _ Y0).
  rewrite (Rel_nan _ _ _ X0), (Rel_nan _ _ _ Y0), (Rel_inf _ _ _ X0), (Rel_inf _ _ _ Y0).
  destruct (fis_nan (q0 x)) eqn:?, (fis_nan (q0 y)) eqn:?; cbn [orb]; try konst.
  destruct (fne0 (q0 y)) eqn:?; cbn [negb].
  - destruct (fis_infinite (q0 x)) eqn:?, (fis_infinite (q0 y)) eqn:?; try konst.
    + assert (fne0 (q0 x) = true) by (now apply inf_ne0).
      rewrite (Rel_sign _ _ _ X0), (Rel_sign _ _ _ Y0) by easy;
      destruct n, m, (fsign_pos (q0 x)), (fsign_pos (q0 y)); konst.
    + repeat (destruct (Bool.eqb _ _)); konst.
  - destruct (fne0 (q0 x)) eqn:?; cbn [negb]; [|konst].
    rewrite (Rel_sign _ _ _ X0), S by easy;
    destruct n, m, (fsign_pos (q0 x)), (fsign_pos (q0 y)); konst.
Qed.

(** ** stepping through straight-line code *)
Ltac rsolve := repeat first [ eassumption | apply Rel_add | apply Rel_sub | apply Rel_neg | apply Rel_0
   | apply Rel_mul | match goal with |- Rel ?n f0 _ => apply (Rel_0 n) end ].
Ltac dpair K := match type of K with Rel2 _ ?p ?p' => destruct p, p'; destruct K; cbn [fst snd] in * end.
Ltac rstep :=
  match goal with
  | |- context [two_sum ?a ?b] =>
      let K := fresh in eassert (K : Rel2 _ (two_sum a b) (two_sum _ _)) by (eapply Rel_two_sum; rsolve); dpair K
  | |- context [two_diff ?a ?b] =>
      let K := fresh in eassert (K : Rel2 _ (two_diff a b) (two_diff _ _)) by (eapply Rel_two_diff; rsolve); dpair K
  | |- context [quick_two_sum ?a ?b] =>
      let K := fresh in eassert (K : Rel2 _ (quick_two_sum a b) (quick_two_sum _ _)) by (eapply Rel_quick; rsolve); dpair K
  | |- context [two_prod ?a ?b] =>
      let K := fresh in eassert (K : Rel2 _ (two_prod a b) (two_prod _ _)) by (eapply Rel_two_prod; rsolve); dpair K
  end.

Lemma d_add_rel n x x' y y' : DRel n x x' -> DRel n y y' -> DRel n (d_add x y) (d_add x' y').
Proof.
  intros X Y. unfold d_add. apply (from_pre_rel (DRel n)); [now apply d_pre_add_rel|intros _].
  destruct X as [X0 X1], Y as [Y0 Y1]. unfold renorm2. repeat rstep. now split.
Qed.
Lemma d_sub_rel n x x' y y' : DRel n x x' -> DRel n y y' -> DRel n (d_sub x y) (d_sub x' y').
Proof.
  intros X Y. unfold d_sub. apply (from_pre_rel (DRel n)); [now apply d_pre_sub_rel|intros _].
  destruct X as [X0 X1], Y as [Y0 Y1]. unfold renorm2. repeat rstep. now split.
Qed.
Lemma d_mul_rel n m x x' y y' : DRel n x x' -> DRel m y y' -> DRel (xorb n m) (d_mul x y) (d_mul x' y').
Proof.
  intros X Y. unfold d_mul. apply (from_pre_rel (DRel (xorb n m))); [now apply d_pre_mul_rel|intros _].
  destruct X as [X0 X1], Y as [Y0 Y1]. unfold renorm2.
  pose proof (Rel_mul _ _ _ _ _ _ X0 Y1). pose proof (Rel_mul _ _ _ _ _ _ X1 Y0).
  repeat rstep. now split.
Qed.
Lemma d_mul_f64_rel n m x x' y y' : DRel n x x' -> Rel m y y' -> DRel (xorb n m) (d_mul_f64 x y) (d_mul_f64 x' y').
Proof.
  intros [X0 X1] Y. unfold d_mul_f64, renorm2. pose proof (Rel_mul _ _ _ _ _ _ X1 Y).
  repeat rstep. now split.
Qed.
Lemma xor_cancel n m : xorb m (xorb n m) = n.
Proof. now destruct n, m. Qed.
Lemma d_div_rel n m x x' y y' : DRel n x x' -> DRel m y y' ->
  (fne0 (d0 y) = false -> fsign_pos (d0 y') = xorb m (fsign_pos (d0 y))) ->
  DRel (xorb n m) (d_div x y) (d_div x' y').
Proof.
  intros X Y S. unfold d_div. apply (from_pre_rel (DRel (xorb n m))); [now apply d_pre_div_rel|intros N].
  assert (NZ : fne0 (d0 y) = true).
  { unfold d_pre_div, d_is_zero in N. rewrite !is_zero_ne0 in N.
    destruct (d_is_nan x || d_is_nan y); [easy|]. destruct (fne0 (d0 y)); auto. cbn [negb] in N.
    destruct (negb (fne0 (d0 x))); [easy|]. now destruct (Bool.eqb _ _). }
  pose proof (Rel_div _ _ _ _ _ _ NZ (proj1 X) (proj1 Y)) as Q1.
  set (q1 := fdiv (d0 x) (d0 y)) in *. set (q1' := fdiv (d0 x') (d0 y')) in *.
  pose proof (d_mul_f64_rel _ _ _ _ _ _ Y Q1) as M1. rewrite xor_cancel in M1.
  pose proof (d_sub_rel _ _ _ _ _ X M1) as R1.
  set (r1 := d_sub x (d_mul_f64 y q1)) in *. set (r1' := d_sub x' (d_mul_f64 y' q1')) in *.
  pose proof (Rel_div _ _ _ _ _ _ NZ (proj1 R1) (proj1 Y)) as Q2.
  set (q2 := fdiv (d0 r1) (d0 y)) in *. set (q2' := fdiv (d0 r1') (d0 y')) in *.
  pose proof (d_mul_f64_rel _ _ _ _ _ _ Y Q2) as M2. rewrite xor_cancel in M2.
  pose proof (d_sub_rel _ _ _ _ _ R1 M2) as R2.
  pose proof (Rel_div _ _ _ _ _ _ NZ (proj1 R2) (proj1 Y)) as Q3.
  unfold renorm3. repeat rstep. now split.
Qed.
Lemma d_sqr_rel n x x' : DRel n x x' -> DRel false (d_sqr x) (d_sqr x').
Proof.
  intros X. unfold d_sqr. apply (from_pre_rel (DRel false)).
  - unfold d_pre_sqr, d_is_infinite. rewrite (Rel_inf _ _ _ (proj1 X)). destruct (fis_infinite _); konst.
  - intros _. destruct X as [X0 X1]. rewrite !two_sqr_two_prod. unfold renorm2.
    assert (E : forall a a', Rel (xorb n n) a a' -> Rel false a a') by (intros a a'; now rewrite xorb_nilpotent).
    assert (L2 : Rel n (fmul f2 (d0 x)) (fmul f2 (d0 x'))).
    { rewrite <- (xorb_false_l n) at 1. apply Rel_mul; auto using Rel_refl. }
    pose proof (Rel_two_prod _ _ _ _ _ _ X0 X0) as K. rewrite xorb_nilpotent in K. dpair K.
    pose proof (Rel_mul _ _ _ _ _ _ X1 X1) as L. apply E in L.
    pose proof (E _ _ (Rel_mul _ _ _ _ _ _ L2 X1)).
    repeat rstep. now split.
Qed.

(** ** Quad *)
Definition Rel3 n (p p' : f64 * f64 * f64) := Rel n (fst (fst p)) (fst (fst p')) /\ Rel n (snd (fst p)) (snd (fst p')) /\ Rel n (snd p) (snd p').
Lemma Rel_three_three n a a' b b' c c' : Rel n a a' -> Rel n b b' -> Rel n c c' ->
  Rel3 n (three_three_sum a b c) (three_three_sum a' b' c').
Proof. intros. unfold three_three_sum. repeat rstep. repeat split; assumption. Qed.
Lemma Rel_three_two n a a' b b' c c' : Rel n a a' -> Rel n b b' -> Rel n c c' ->
  Rel2 n (three_two_sum a b c) (three_two_sum a' b' c').
Proof. intros. unfold three_two_sum. repeat rstep. split; cbn [fst snd]; rsolve. Qed.
Lemma Rel_four_two n a a' b b' c c' d d' : Rel n a a' -> Rel n b b' -> Rel n c c' -> Rel n d d' ->
  Rel2 n (four_two_sum a b c d) (four_two_sum a' b' c' d').
Proof. intros. unfold four_two_sum. repeat rstep. split; cbn [fst snd]; rsolve. Qed.
Ltac dtriple K := match type of K with Rel3 _ ?p ?p' => destruct p as [[? ?] ?], p' as [[? ?] ?]; destruct K as [? [? ?]]; cbn [fst snd] in * end.
Ltac rstep3 :=
  match goal with
  | |- context [three_three_sum ?a ?b ?c] =>
      let K := fresh in eassert (K : Rel3 _ (three_three_sum a b c) (three_three_sum _ _ _)) by (eapply Rel_three_three; rsolve); dtriple K
  | |- context [three_two_sum ?a ?b ?c] =>
      let K := fresh in eassert (K : Rel2 _ (three_two_sum a b c) (three_two_sum _ _ _)) by (eapply Rel_three_two; rsolve); dpair K
  | |- context [four_two_sum ?a ?b ?c ?d] =>
      let K := fresh in eassert (K : Rel2 _ (four_two_sum a b c d) (four_two_sum _ _ _ _)) by (eapply Rel_four_two; rsolve); dpair K
  | _ => rstep
  end.
Lemma Rel_six_three n a a' b b' c c' d d' e e' f f' : Rel n a a' -> Rel n b b' -> Rel n c c' -> Rel n d d' -> Rel n e e' -> Rel n f f' ->
  Rel3 n (six_three_sum a b c d e f) (six_three_sum a' b' c' d' e' f').
Proof. intros. unfold six_three_sum. repeat rstep3. repeat split; cbn [fst snd]; rsolve. Qed.
Lemma Rel_nine_two n a a' b b' c c' d d' e e' f f' g g' h h' i i' : Rel n a a' -> Rel n b b' -> Rel n c c' -> Rel n d d' -> Rel n e e' -> Rel n f f' ->
  Rel n g g' -> Rel n h h' -> Rel n i i' ->
  Rel2 n (nine_two_sum a b c d e f g h i) (nine_two_sum a' b' c' d' e' f' g' h' i').
Proof. intros. unfold nine_two_sum. repeat rstep3. repeat split; cbn [fst snd]; rsolve. Qed.

Ltac rif := match goal with
  | H : Rel ?n ?a ?a' |- context [fne0 ?a'] => rewrite (Rel_ne0 n a a' H); destruct (fne0 a)
  end.
Lemma QRel4 n a a' b b' c c' d d' : Rel n a a' -> Rel n b b' -> Rel n c c' -> Rel n d d' ->
  QRel n (mkQ a b c d) (mkQ a' b' c' d').
Proof. intros. repeat split; assumption. Qed.
Lemma Rel_renorm4 n a a' b b' c c' d d' : Rel n a a' -> Rel n b b' -> Rel n c c' -> Rel n d d' ->
  QRel n (mkQ4 (renorm4 a b c d)) (mkQ4 (renorm4 a' b' c' d')).
Proof.
  intros. unfold renorm4. pose proof (Rel_0 n). set (zz := f0) in *. clearbody zz.
  repeat (rstep || rif); apply QRel4; assumption.
Qed.
Lemma Rel_renorm5 n a a' b b' c c' d d' e e' : Rel n a a' -> Rel n b b' -> Rel n c c' -> Rel n d d' -> Rel n e e' ->
  QRel n (mkQ4 (renorm5 a b c d e)) (mkQ4 (renorm5 a' b' c' d' e')).
Proof.
  intros. unfold renorm5. pose proof (Rel_0 n). set (zz := f0) in *. clearbody zz.
  repeat (rstep || rif); apply QRel4; rsolve.
Qed.
Lemma Rel_accumulate n a a' b b' c c' : Rel n a a' -> Rel n b b' -> Rel n c c' ->
  Rel3 n (accumulate a b c) (accumulate a' b' c').
Proof.
  intros. unfold accumulate. pose proof (Rel_0 n).
  pose proof (Rel_two_sum n b b' c c' ltac:(assumption) ltac:(assumption)) as K.
  destruct (two_sum b c) as [s1 r1], (two_sum b' c') as [s1' r1']. destruct K as [K1 K2]. cbn [fst snd] in *.
  pose proof (Rel_two_sum n a a' s1 s1' ltac:(assumption) ltac:(assumption)) as K.
  destruct (two_sum a s1) as [s2 r2], (two_sum a' s1') as [s2' r2']. destruct K as [K3 K4]. cbn [fst snd] in *.
  rewrite !is_zero_ne0, (Rel_ne0 _ _ _ K2), (Rel_ne0 _ _ _ K4).
  destruct (fne0 r1), (fne0 r2); cbn [negb orb]; repeat split; cbn [fst snd]; assumption.
Qed.
Definition LRel n := Forall2 (Rel n).
Definition qa_res n (r r' : list f64 * list f64 * list f64) :=
  LRel n (fst (fst r)) (fst (fst r')) /\ LRel n (snd (fst r)) (snd (fst r')) /\ LRel n (snd r) (snd r').
Lemma LRel_app n l l' m m' : LRel n l l' -> LRel n m m' -> LRel n (l ++ m) (l' ++ m').
Proof. apply Forall2_app. Qed.
Lemma LRel_push n s s' o o' : Rel n s s' -> LRel n o o' -> LRel n (qa_push s o) (qa_push s' o').
Proof.
  intros H K. unfold qa_push. rewrite (Rel_ne0 _ _ _ H). destruct (fne0 s); auto.
  apply LRel_app; auto. now repeat constructor.
Qed.
Lemma LRel_len n l l' : LRel n l l' -> length l' = length l.
Proof. induction 1; cbn; congruence. Qed.
Lemma qa_loop_rel n rx rx' (HX : LRel n rx rx') : forall ry ry' u u' v v' out out',
  LRel n ry ry' -> Rel n u u' -> Rel n v v' -> LRel n out out' ->
  qa_res n (qa_loop rx ry u v out) (qa_loop rx' ry' u' v' out').
Proof.
  induction HX as [|a a' rx rx' HA HX IHX]; intros ry ry' u u' v v' out out' HY; revert u u' v v' out out';
  induction HY as [|b b' ry ry' HB HY IHY]; intros u u' v v' out out' U W O; cbn [qa_loop];
  rewrite (LRel_len _ _ _ O); destruct (Nat.ltb (length out) 4);
  try (repeat split; cbn [fst snd]; auto; constructor; auto; fail).
  - repeat split; cbn [fst snd]; try constructor. destruct (Nat.ltb (length out) 3);
    apply LRel_app; auto; repeat constructor; auto.
  - pose proof (Rel_accumulate n _ _ _ _ _ _ U W HB) as K. dtriple K. apply IHY; auto using LRel_push.
  - pose proof (Rel_accumulate n _ _ _ _ _ _ U W HA) as K. dtriple K. apply IHX; auto using LRel_push. constructor.
  - rewrite (Rel_abs_gt _ _ _ _ _ HA HB). destruct (abs_gt a b).
    + pose proof (Rel_accumulate n _ _ _ _ _ _ U W HA) as K. dtriple K. apply IHX; auto using LRel_push. now constructor.
    + pose proof (Rel_accumulate n _ _ _ _ _ _ U W HB) as K. dtriple K. apply IHY; auto using LRel_push.
Qed.
Lemma qa_take_rel n rx rx' ry ry' : LRel n rx rx' -> LRel n ry ry' ->
  Rel n (fst (fst (qa_take rx ry))) (fst (fst (qa_take rx' ry'))) /\
  LRel n (snd (fst (qa_take rx ry))) (snd (fst (qa_take rx' ry'))) /\
  LRel n (snd (qa_take rx ry)) (snd (qa_take rx' ry')).
Proof.
  intros HX HY. destruct HX as [|a a' rx rx' HA HX], HY as [|b b' ry ry' HB HY]; cbn [qa_take].
  - repeat split; cbn [fst snd]; try constructor. apply Rel_0.
  - repeat split; cbn [fst snd]; auto. constructor.
  - repeat split; cbn [fst snd]; auto. constructor.
  - rewrite (Rel_abs_gt _ _ _ _ _ HA HB). destruct (abs_gt a b); repeat split; cbn [fst snd]; auto; now constructor.
Qed.
Lemma LRel_nth n l l' i : LRel n l l' -> Rel n (nth i l f0) (nth i l' f0).
Proof.
  intros H. revert i. induction H; intros [|i]; cbn; auto using Rel_0.
Qed.
Lemma LRel_fold n l l' : LRel n l l' -> forall s s', Rel n s s' -> Rel n (fold_left fadd l s) (fold_left fadd l' s').
Proof. induction 1; cbn; auto using Rel_add. Qed.
Lemma q_list_rel n x x' : QRel n x x' -> LRel n (q_list x) (q_list x').
Proof. intros [? [? [? ?]]]. repeat constructor; assumption. Qed.
Lemma q_add_rel n x x' y y' : QRel n x x' -> QRel n y y' -> QRel n (q_add x y) (q_add x' y').
Proof.
  intros X Y. unfold q_add. apply (from_pre_rel (QRel n)); [now apply q_pre_add_rel|intros _].
  unfold q_add_core.
  pose proof (qa_take_rel _ _ _ _ _ (q_list_rel _ _ _ X) (q_list_rel _ _ _ Y)) as K.
  destruct (qa_take (q_list x) (q_list y)) as [[u rx] ry], (qa_take (q_list x') (q_list y')) as [[u' rx'] ry'].
  cbn [fst snd] in K. destruct K as [U [RX RY]].
  pose proof (qa_take_rel _ _ _ _ _ RX RY) as K.
  destruct (qa_take rx ry) as [[v rx1] ry1], (qa_take rx' ry') as [[v' rx1'] ry1'].
  cbn [fst snd] in K. destruct K as [W [RX1 RY1]].
  unfold renorm2. pose proof (Rel_quick _ _ _ _ _ U W) as K.
  destruct (quick_two_sum u v) as [u1 v1], (quick_two_sum u' v') as [u1' v1']. destruct K as [K1 K2]. cbn [fst snd] in *.
  pose proof (qa_loop_rel n _ _ RX1 _ _ _ _ _ _ [] [] RY1 K1 K2 ltac:(constructor)) as K.
  destruct (qa_loop rx1 ry1 u1 v1 []) as [[o rx2] ry2], (qa_loop rx1' ry1' u1' v1' []) as [[o' rx2'] ry2'].
  destruct K as [K [RX2 RY2]]. cbn [fst snd] in *.
  apply Rel_renorm4; auto using LRel_nth, LRel_fold.
Qed.
Lemma q_neg_rel n x x' : QRel n x x' -> QRel n (q_neg x) (q_neg x').
Proof. intros [? [? [? ?]]]. repeat split; now apply Rel_neg. Qed.
Lemma d_neg_rel n x x' : DRel n x x' -> DRel n (d_neg x) (d_neg x').
Proof. intros [? ?]. repeat split; now apply Rel_neg. Qed.
Lemma q_sub_rel n x x' y y' : QRel n x x' -> QRel n y y' -> QRel n (q_sub x y) (q_sub x' y').
Proof. intros X Y. apply q_add_rel; auto using q_neg_rel. Qed.
Ltac rstepq :=
  match goal with
  | |- context [six_three_sum ?a ?b ?c ?d ?e ?f] =>
      let K := fresh in eassert (K : Rel3 _ (six_three_sum a b c d e f) (six_three_sum _ _ _ _ _ _)) by (eapply Rel_six_three; rsolve); dtriple K
  | |- context [nine_two_sum ?a ?b ?c ?d ?e ?f ?g ?h ?i] =>
      let K := fresh in eassert (K : Rel2 _ (nine_two_sum a b c d e f g h i) (nine_two_sum _ _ _ _ _ _ _ _ _)) by (eapply Rel_nine_two; rsolve); dpair K
  | _ => rstep3
  end.
Lemma q_mul_rel n m x x' y y' : QRel n x x' -> QRel m y y' -> QRel (xorb n m) (q_mul x y) (q_mul x' y').
Proof.
  intros X Y. unfold q_mul. apply (from_pre_rel (QRel (xorb n m))); [now apply q_pre_mul_rel|intros _].
  destruct X as [X0 [X1 [X2 X3]]], Y as [Y0 [Y1 [Y2 Y3]]]. unfold q_mul_core.
  pose proof (Rel_mul _ _ _ _ _ _ X1 Y3). pose proof (Rel_mul _ _ _ _ _ _ X2 Y2). pose proof (Rel_mul _ _ _ _ _ _ X3 Y1).
  repeat rstepq. apply Rel_renorm5; rsolve.
Qed.
