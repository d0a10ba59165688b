(** * Comparison (lemmas) *)
From Coq Require Import ZArith Reals Lra Lia List Bool.
From Flocq Require Import Core IEEE754.BinarySingleNaN.
From Verif Require Import RN F64 Prim DoubleM QuadM Spec F64Facts EFT DAddProofs DMulProofs Check SpecialProofs.
Local Open Scope R_scope.

Lemma rn_lt_inv x y : rn x < rn y -> x < y.
Proof. intros H. destruct (Rlt_le_dec x y); auto. apply rn_le in r. lra. Qed.

Lemma d_cmp_ok x y : DNorm x -> DNorm y ->
  d_partial_cmp x y = Some (Rcompare (DV x) (DV y)).
Proof.
  intros [[Fx0 Fx1] Nx] [[Fy0 Fy1] Ny]. unfold d_partial_cmp. rewrite !fcmp_ok by easy.
  destruct (Rcompare_spec (V (d0 x)) (V (d0 y))) as [H|H|H].
  - rewrite Rcompare_Lt; auto. apply rn_lt_inv. unfold RN in *. lra.
  - f_equal. unfold DV. rewrite H. symmetry. apply Rcompare_plus_l.
  - rewrite Rcompare_Gt; auto. apply rn_lt_inv. unfold RN in *. lra.
Qed.

Lemma d_ord_ok x y : DNorm x -> DNorm y ->
  d_partial_cmp x y = Some (Rcompare (DV x) (DV y)) /\
  (d_eq x y = true <-> DV x = DV y) /\
  (d_lt x y = true <-> DV x < DV y) /\ (d_le x y = true <-> DV x <= DV y) /\
  (d_gt x y = true <-> DV x > DV y) /\ (d_ge x y = true <-> DV x >= DV y).
Proof.
  intros Nx Ny. assert (C := d_cmp_ok x y Nx Ny). split; [exact C|].
  split.
  - assert (E : d_eq x y = true <-> d_partial_cmp x y = Some Eq).
    { unfold d_eq, d_partial_cmp. destruct Nx as [[Fx0 Fx1] _], Ny as [[Fy0 Fy1] _].
      rewrite !feqb_ok, !fcmp_ok by easy. unfold Req_bool. rewrite andb_true_iff.
      destruct (Rcompare (V (d0 x)) (V (d0 y))), (Rcompare (V (d1 x)) (V (d1 y))); intuition easy. }
    rewrite E, C. destruct (Rcompare_spec (DV x) (DV y)); split; intros; try easy; lra.
  - unfold d_lt, d_le, d_gt, d_ge. rewrite C.
    destruct (Rcompare_spec (DV x) (DV y)); repeat split; intros; try easy; lra.
Qed.

Lemma q_cmp_ok x y : QNorm x -> QNorm y ->
  q_partial_cmp x y = Some (Rcompare (QV x) (QV y)).
Proof.
  intros [[Fx0 [Fx1 [Fx2 Fx3]]] [Nx0 [Nx1 Nx2]]] [[Fy0 [Fy1 [Fy2 Fy3]]] [Ny0 [Ny1 Ny2]]].
  unfold q_partial_cmp. rewrite !fcmp_ok by easy. unfold RN in *.
  destruct (Rcompare_spec (V (q0 x)) (V (q0 y))) as [H|H|H].
  - rewrite Rcompare_Lt; auto. apply rn_lt_inv. lra.
  - unfold QV. rewrite H.
    destruct (Rcompare_spec (V (q1 x)) (V (q1 y))) as [H1|H1|H1].
    + rewrite Rcompare_Lt; auto. assert (V (q1 x) + V (q2 x) + V (q3 x) < V (q1 y) + V (q2 y) + V (q3 y)); [|lra].
      apply rn_lt_inv. lra.
    + rewrite H1. destruct (Rcompare_spec (V (q2 x)) (V (q2 y))) as [H2|H2|H2].
      * rewrite Rcompare_Lt; auto. assert (V (q2 x) + V (q3 x) < V (q2 y) + V (q3 y)); [|lra]. apply rn_lt_inv. lra.
      * rewrite H2. now rewrite Rcompare_plus_l.
      * rewrite Rcompare_Gt; auto. assert (V (q2 y) + V (q3 y) < V (q2 x) + V (q3 x)); [|lra]. apply rn_lt_inv. lra.
    + rewrite Rcompare_Gt; auto. assert (V (q1 y) + V (q2 y) + V (q3 y) < V (q1 x) + V (q2 x) + V (q3 x)); [|lra].
      apply rn_lt_inv. lra.
  - rewrite Rcompare_Gt; auto. apply rn_lt_inv. lra.
Qed.

Lemma q_eq_cmp x y : q_eq x y = true <-> q_partial_cmp x y = Some Eq.
Proof.
  unfold q_eq, q_partial_cmp, feqb, fcmp, Beqb, SpecFloat.SFeqb, Bcompare.
  rewrite !andb_true_iff.
  destruct (SpecFloat.SFcompare _ _) as [[]|], (SpecFloat.SFcompare _ _) as [[]|],
    (SpecFloat.SFcompare _ _) as [[]|], (SpecFloat.SFcompare _ _) as [[]|]; intuition easy.
Qed.
Lemma d_eq_cmp x y : d_eq x y = true <-> d_partial_cmp x y = Some Eq.
Proof.
  unfold d_eq, d_partial_cmp, feqb, fcmp, Beqb, SpecFloat.SFeqb, Bcompare.
  rewrite !andb_true_iff.
  destruct (SpecFloat.SFcompare _ _) as [[]|], (SpecFloat.SFcompare _ _) as [[]|]; intuition easy.
Qed.

Lemma q_ord_ok x y : QNorm x -> QNorm y ->
  q_partial_cmp x y = Some (Rcompare (QV x) (QV y)) /\
  (q_eq x y = true <-> QV x = QV y) /\
  (q_lt x y = true <-> QV x < QV y) /\ (q_le x y = true <-> QV x <= QV y) /\
  (q_gt x y = true <-> QV x > QV y) /\ (q_ge x y = true <-> QV x >= QV y).
Proof.
  intros Nx Ny. assert (C := q_cmp_ok x y Nx Ny). split; [exact C|]. split.
  - rewrite q_eq_cmp, C. destruct (Rcompare_spec (QV x) (QV y)); split; intros; try easy; lra.
  - unfold q_lt, q_le, q_gt, q_ge. rewrite C.
    destruct (Rcompare_spec (QV x) (QV y)); repeat split; intros; try easy; lra.
Qed.

(** ** Order laws for arbitrary components *)
(** an f64 as an extended real: NaN, or a point of a linear order *)
Inductive ext := ENan | ENinf | EPinf | EFin (r : R).
Definition to_ext (a : f64) : ext :=
  match a with
  | B754_nan => ENan
  | B754_infinity s => if s then ENinf else EPinf
  | _ => EFin (V a)
  end.
Definition ecmp (a b : ext) : option comparison :=
  match a, b with
  | ENan, _ | _, ENan => None
  | ENinf, ENinf | EPinf, EPinf => Some Eq
  | ENinf, _ => Some Lt | EPinf, _ => Some Gt
  | _, ENinf => Some Gt | _, EPinf => Some Lt
  | EFin x, EFin y => Some (Rcompare x y)
  end.
Lemma fcmp_ext a b : fcmp a b = ecmp (to_ext a) (to_ext b).
Proof.
  destruct (is_finite a) eqn:Fa, (is_finite b) eqn:Fb.
  - rewrite fcmp_ok by easy. destruct a as [s|s| |s m e h]; try easy; destruct b as [s'|s'| |s' m' e' h']; easy.
  - destruct b as [s'|[]| |s' m' e' h']; try easy; destruct a as [s|s| |[] m e h]; easy.
  - destruct a as [s'|[]| |s' m' e' h']; try easy; destruct b as [s|s| |[] m e h]; easy.
  - destruct a as [s'|[]| |s' m' e' h']; try easy; destruct b as [s|[]| |[] m e h]; easy.
Qed.
Definition oopp (o : option comparison) := match o with Some c => Some (CompOpp c) | None => None end.
Lemma ecmp_sym a b : ecmp b a = oopp (ecmp a b).
Proof. destruct a, b; try reflexivity. simpl. now rewrite Rcompare_sym. Qed.
Lemma ecmp_eq_l a b c : ecmp a b = Some Eq -> ecmp b c = ecmp a c.
Proof.
  destruct a, b; try easy. simpl. intros H. inversion H as [H1]. apply Rcompare_Eq_inv in H1. now subst.
Qed.
Lemma ecmp_eq_r a b c : ecmp b c = Some Eq -> ecmp a c = ecmp a b.
Proof.
  destruct b, c; try easy; simpl. intros H. inversion H as [H1]. apply Rcompare_Eq_inv in H1. now subst.
Qed.
Lemma ecmp_trans a b c o : ecmp a b = Some o -> ecmp b c = Some o -> ecmp a c = Some o.
Proof.
  destruct a, b, c; try easy; simpl; try congruence.
  destruct (Rcompare_spec r r0), (Rcompare_spec r0 r1), (Rcompare_spec r r1); intros H2 H3; try easy;
  try congruence; exfalso; inversion H2; subst; inversion H3; try lra.
Qed.

(** lexicographic comparison of two lists of components, as [partial_cmp] does *)
Fixpoint lcmp (a b : list f64) : option comparison :=
  match a, b with
  | x :: a', y :: b' => match fcmp x y with Some Eq => lcmp a' b' | c => c end
  | _, _ => Some Eq
  end.
Lemma lcmp_sym a b : lcmp b a = oopp (lcmp a b).
Proof.
  revert b; induction a as [|x a IH]; intros [|y b]; try reflexivity. cbn [lcmp].
  rewrite !fcmp_ext, (ecmp_sym (to_ext x) (to_ext y)), (IH b).
  destruct (ecmp (to_ext x) (to_ext y)) as [[]|]; reflexivity.
Qed.
Lemma lcmp_trans o a b c : length a = length b -> length b = length c ->
  lcmp a b = Some o -> lcmp b c = Some o -> lcmp a c = Some o.
Proof.
  revert b c; induction a as [|x a IH]; intros [|y b] [|z c]; try easy; cbn [lcmp length].
  intros L1 L2. rewrite !fcmp_ext.
  destruct (ecmp (to_ext x) (to_ext y)) as [c1|] eqn:E1; [|easy].
  destruct c1.
  - rewrite (ecmp_eq_l _ _ _ E1). destruct (ecmp (to_ext x) (to_ext z)) as [[]|]; auto.
    apply IH; auto.
  - intros H1. inversion H1; subst o.
    destruct (ecmp (to_ext y) (to_ext z)) as [[]|] eqn:E2; try easy; intros H2.
    + now rewrite (ecmp_eq_r _ _ _ E2), E1.
    + now rewrite (ecmp_trans _ _ _ _ E1 E2).
  - intros H1. inversion H1; subst o.
    destruct (ecmp (to_ext y) (to_ext z)) as [[]|] eqn:E2; try easy; intros H2.
    + now rewrite (ecmp_eq_r _ _ _ E2), E1.
    + now rewrite (ecmp_trans _ _ _ _ E1 E2).
Qed.

Definition dl (x : Double) := d0 x :: d1 x :: nil.
Lemma oceta (o : option comparison) : match o with Some Eq => Some Eq | c => c end = o.
Proof. now destruct o as [[]|]. Qed.
Lemma d_cmp_l x y : d_partial_cmp x y = lcmp (dl x) (dl y).
Proof. unfold d_partial_cmp. cbn [lcmp dl]. destruct (fcmp (d0 x) (d0 y)) as [[]|]; try easy. now destruct (fcmp (d1 x) (d1 y)) as [[]|]. Qed.
Lemma q_cmp_l x y : q_partial_cmp x y = lcmp (q_list x) (q_list y).
Proof.
  unfold q_partial_cmp. cbn [lcmp q_list]. destruct (fcmp (q0 x) (q0 y)) as [[]|]; try easy.
  destruct (fcmp (q1 x) (q1 y)) as [[]|]; try easy. destruct (fcmp (q2 x) (q2 y)) as [[]|]; try easy.
  now destruct (fcmp (q3 x) (q3 y)) as [[]|].
Qed.

Definition no_nan (l : list f64) : bool := forallb (fun a => negb (is_nan a)) l.
Lemma fcmp_refl a : fcmp a a = if is_nan a then None else Some Eq.
Proof.
  rewrite fcmp_ext. destruct a as [s|[]| |s m e h]; try reflexivity; cbn [to_ext ecmp is_nan];
  now rewrite Rcompare_Eq.
Qed.
Lemma lcmp_refl l : lcmp l l = if no_nan l then Some Eq else None.
Proof.
  induction l as [|x l IH]; [reflexivity|]. cbn [lcmp no_nan forallb]. rewrite fcmp_refl.
  destruct (is_nan x); cbn [negb andb]; auto.
Qed.

Lemma d_laws x y z :
  (d_eq x y = true -> d_eq y x = true) /\
  (d_eq x y = true -> d_eq y z = true -> d_eq x z = true) /\
  d_eq x x = negb (is_nan (d0 x)) && negb (is_nan (d1 x)) /\
  (d_eq x y = true <-> d_partial_cmp x y = Some Eq) /\
  d_partial_cmp y x = match d_partial_cmp x y with Some c => Some (CompOpp c) | None => None end /\
  (forall o, d_partial_cmp x y = Some o -> d_partial_cmp y z = Some o -> d_partial_cmp x z = Some o) /\
  (is_nan (d0 x) = true -> d_partial_cmp x y = None /\ d_partial_cmp y x = None).
Proof.
  assert (S : d_partial_cmp y x = oopp (d_partial_cmp x y)) by (rewrite !d_cmp_l; apply lcmp_sym).
  assert (T : forall o, d_partial_cmp x y = Some o -> d_partial_cmp y z = Some o -> d_partial_cmp x z = Some o).
  { intros o. rewrite !d_cmp_l. now apply lcmp_trans. }
  split; [|split; [|split; [|split; [|split; [|split]]]]]; auto.
  - rewrite !d_eq_cmp, S. intros ->. reflexivity.
  - rewrite !d_eq_cmp. apply T.
  - assert (K := d_eq_cmp x x). rewrite d_cmp_l, lcmp_refl in K. cbn [no_nan dl forallb] in K.
    rewrite andb_true_r in K. destruct (negb (is_nan (d0 x)) && _); destruct (d_eq x x); intuition easy.
  - apply d_eq_cmp.
  - intros Nx. rewrite S. unfold d_partial_cmp. rewrite fcmp_ext.
    now destruct (d0 x).
Qed.
Lemma q_laws x y z :
  (q_eq x y = true -> q_eq y x = true) /\
  (q_eq x y = true -> q_eq y z = true -> q_eq x z = true) /\
  q_eq x x = negb (is_nan (q0 x)) && negb (is_nan (q1 x)) && negb (is_nan (q2 x)) && negb (is_nan (q3 x)) /\
  (q_eq x y = true <-> q_partial_cmp x y = Some Eq) /\
  q_partial_cmp y x = match q_partial_cmp x y with Some c => Some (CompOpp c) | None => None end /\
  (forall o, q_partial_cmp x y = Some o -> q_partial_cmp y z = Some o -> q_partial_cmp x z = Some o) /\
  (is_nan (q0 x) = true -> q_partial_cmp x y = None /\ q_partial_cmp y x = None).
Proof.
  assert (S : q_partial_cmp y x = oopp (q_partial_cmp x y)) by (rewrite !q_cmp_l; apply lcmp_sym).
  assert (T : forall o, q_partial_cmp x y = Some o -> q_partial_cmp y z = Some o -> q_partial_cmp x z = Some o).
  { intros o. rewrite !q_cmp_l. now apply lcmp_trans. }
  split; [|split; [|split; [|split; [|split; [|split]]]]]; auto.
  - rewrite !q_eq_cmp, S. intros ->. reflexivity.
  - rewrite !q_eq_cmp. apply T.
  - assert (K := q_eq_cmp x x). rewrite q_cmp_l, lcmp_refl in K. cbn [no_nan q_list forallb] in K.
    rewrite andb_true_r in K. rewrite <- !andb_assoc.
    destruct (negb (is_nan (q0 x)) && _); destruct (q_eq x x); intuition easy.
  - apply q_eq_cmp.
  - intros Nx. rewrite S. unfold q_partial_cmp. rewrite fcmp_ext.
    now destruct (q0 x).
Qed.

(** ** Uniqueness *)
Lemma d_unique x y : DNorm x -> DNorm y -> DV x = DV y ->
  d_eq x y = true /\ V (d0 x) = V (d0 y) /\ V (d1 x) = V (d1 y).
Proof.
  intros Nx Ny E. destruct (d_ord_ok x y Nx Ny) as [_ [H _]]. split; [tauto|].
  assert (V (d0 x) = V (d0 y)) by (destruct Nx as [_ ->], Ny as [_ ->]; now rewrite E).
  split; auto. unfold DV in E. lra.
Qed.
Lemma q_unique x y : QNorm x -> QNorm y -> QV x = QV y -> q_eq x y = true.
Proof. intros Nx Ny E. destruct (q_ord_ok x y Nx Ny) as [_ [H _]]. tauto. Qed.

Lemma doc_criterion_refuted : exists x y,
  DFin x /\ DFin y /\ DV x = DV y /\
  Rabs (V (d1 x)) <= / 2 * ulp radix2 (FLT_exp (-1074) 53) (V (d0 x)) /\
  Rabs (V (d1 y)) <= / 2 * ulp radix2 (FLT_exp (-1074) 53) (V (d0 y)) /\
  d_eq x y = false /\ d_lt y x = true.
Proof.
  exists (mkD (f2pow 4503599627370497 (-52)) (f2pow (-1) (-53))), (mkD (fofZ 1) (f2pow 1 (-53))).
  unfold DFin, DV; cbn [d0 d1].
  destruct (f2pow_exact 4503599627370497 (-52)) as [F1 E1]; try lia.
  destruct (f2pow_exact (-1) (-53)) as [F2 E2]; try lia.
  destruct (f2pow_exact 1 (-53)) as [F3 E3]; try lia.
  destruct (fofZ_exact 1) as [F4 E4]; try lia.
  rewrite E1, E2, E3, E4.
  assert (U : forall r, 1 <= r < 2 -> ulp radix2 fexp64 r = bp (-52)).
  { intros r Hr. rewrite ulp_neq_0 by lra. f_equal. rewrite cexp64.
    assert (mag radix2 r = 1%Z :> Z); [|lia].
    apply mag_unique. simpl. rewrite Rabs_pos_eq by lra. lra. }
  assert (B1 : bp (-52) = / 4503599627370496) by reflexivity. 
  rewrite (U (IZR 1)) by lra. rewrite (U (IZR 4503599627370497 * bp (-52))) by (rewrite B1; lra).
  rewrite B1, u_bp. repeat split; auto; try lra.
  - rewrite Rabs_left by lra. lra.
  - rewrite Rabs_pos_eq by lra. lra.
Qed.

(** checker for QNorm: renormalising bottom-up changes nothing *)
Definition qnormb (x : Quad) : bool :=
  is_finite (q0 x) && is_finite (q1 x) && is_finite (q2 x) && is_finite (q3 x) &&
  is_finite (fadd (q0 x) (q1 x)) && feqb (fadd (q0 x) (q1 x)) (q0 x) &&
  is_finite (fadd (q1 x) (q2 x)) && feqb (fadd (q1 x) (q2 x)) (q1 x) &&
  is_finite (fadd (q2 x) (q3 x)) && feqb (fadd (q2 x) (q3 x)) (q2 x) &&
  (* no ties: doubling the tail still leaves the head alone *)
  is_finite (fadd (q0 x) (fmul f2 (q1 x))) && is_finite (fmul f2 (q1 x)) &&
  is_finite (fadd (q1 x) (fmul f2 (q2 x))) && is_finite (fmul f2 (q2 x)) &&
  feqb (fadd (q0 x) (fmul f2 (q1 x))) (q0 x) && feqb (fadd (q1 x) (fmul f2 (q2 x))) (q1 x).
Lemma rn_between a t t' : rn a = a -> rn (a + 2 * t) = a -> Rabs (t' - t) <= Rabs t -> rn (a + t') = a.
Proof.
  intros H0 H2 H. 
  destruct (Rle_lt_dec 0 t).
  - assert (0 <= t' <= 2 * t) as [A B] by (unfold Rabs in H; repeat destruct Rcase_abs; lra).
    apply Rle_antisym; [rewrite <- H2|rewrite <- H0 at 1]; apply rn_le; lra.
  - assert (2 * t <= t' <= 0) as [A B] by (unfold Rabs in H; repeat destruct Rcase_abs; lra).
    apply Rle_antisym; [rewrite <- H0|rewrite <- H2 at 1]; apply rn_le; lra.
Qed.
Lemma fmul_fin_ok a b : Fin a -> Fin b -> Fin (fmul a b) -> V (fmul a b) = rn (V a * V b).
Proof.
  intros Fa Fb F. assert (K := Bmult_correct prec emax _ _ mode_NE a b).
  change (round radix2 _ _ _) with (rn (V a * V b)) in K.
  destruct (Rlt_bool_spec (Rabs (rn (V a * V b))) (bp 1024)) as [H|H]; [apply K|].
  exfalso. unfold Fin, fmul in F. destruct (Bmult mode_NE a b); try easy;
  simpl in K; destruct (xorb (Bsign a) (Bsign b)); discriminate.
Qed.
Lemma rn_twice x : fmt x -> rn (2 * x) = 2 * x.
Proof.
  intros F. apply rn_id. destruct (mult2_cexp x F) as [n Hn].
  destruct (Req_dec x 0) as [->|Nx]. { rewrite Rmult_0_r. apply fmt_0. }
  apply (fmt_mult2 (cexp radix2 fexp64 x + 1)).
  - rewrite cexp64. lia.
  - exists n. rewrite bp_S. rewrite Hn at 1. ring.
  - rewrite Rabs_mult, (Rabs_pos_eq 2) by lra.
    replace (cexp radix2 fexp64 x + 1 + 53)%Z with (cexp radix2 fexp64 x + 53 + 1)%Z by ring.
    rewrite bp_S. apply Rmult_le_compat_l; [lra|].
    apply Rlt_le. apply Rlt_le_trans with (bp (mag radix2 x)). apply bpow_mag_gt.
    apply bpow_le. rewrite cexp64. lia.
Qed.
Lemma qnormb_ok x : qnormb x = true -> QNorm x.
Proof.
  unfold qnormb. rewrite !andb_true_iff.
  intros [[[[[[[[[[[[[[[F0 F1] F2] F3] A0] B0] A1] B1] A2] B2] A3] A4] A5] A6] B3] B4].
  assert (K := conj F0 (conj F1 (conj F2 F3))).
  apply feqb_V in B0; auto. apply feqb_V in B1; auto. apply feqb_V in B2; auto.
  apply feqb_V in B3; auto. apply feqb_V in B4; auto.
  rewrite fadd_fin_ok in B0, B1, B2, B3, B4 by auto.
  rewrite fmul_fin_ok, V_2, rn_twice in B3, B4 by auto using Fin_2 with fmt.
  assert (L1 := norm_lo _ _ (V_fmt _) (V_fmt _) B1). assert (L2 := norm_lo _ _ (V_fmt _) (V_fmt _) B2).
  split; [exact K|]. unfold RN, QV. repeat split; symmetry; auto.
  - rewrite !Rplus_assoc. apply rn_between with (V (q1 x)); auto with fmt.
    + apply rn_id; auto with fmt.
    + replace (V (q1 x) + (V (q2 x) + V (q3 x)) - V (q1 x)) with (V (q2 x) + V (q3 x)) by ring.
      assert (T := Rabs_triang (V (q2 x)) (V (q3 x))). assert (P1 := Rabs_pos (V (q1 x))). assert (P2 := Rabs_pos (V (q2 x))). lra.
  - rewrite !Rplus_assoc. apply rn_between with (V (q2 x)); auto with fmt.
    + apply rn_id; auto with fmt.
    + replace (V (q2 x) + V (q3 x) - V (q2 x)) with (V (q3 x)) by ring.
      assert (P2 := Rabs_pos (V (q2 x))). lra.
Qed.
Lemma order_example :
  let x := mkD (fofZ 3) (f2pow 1 (-60)) in let y := mkD (fofZ 3) (f2pow (-1) (-60)) in
  let q := mkQ (fofZ 3) (f2pow 1 (-60)) (f2pow (-1) (-120)) (f2pow 1 (-180)) in
  DNorm x /\ DNorm y /\ d_lt y x = true /\ QNorm q /\ q_lt (q_neg q) q = true.
Proof.
  refine (conj (dnormb_ok _ _) (conj (dnormb_ok _ _) (conj _ (conj (qnormb_ok _ _) _)))); vm_compute; reflexivity.
Qed.
