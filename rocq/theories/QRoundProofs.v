(** * floor and ceil of a Quad *)
From Coq Require Import ZArith Reals Lra Lia Bool.
From Flocq Require Import Core IEEE754.BinarySingleNaN.
From Verif Require Import RN F64 Prim DoubleM QuadM Spec F64Facts EFT SpecialProofs OrderProofs ExactProofs QExactProofs SingleProofs IntProofs RoundProofs FractProofs.
Local Open Scope R_scope.

(** [renorm4] is exact on a descending chain *)
Definition half_of (y x : R) : Prop := x <> 0 /\ Rabs y <= / 2 * bp (cexp radix2 fexp64 x).
Definition rchain (A B C D : R) : Prop :=
  (Rabs B <= Rabs A /\ C = 0 /\ D = 0) \/
  (half_of B A /\ Rabs C <= Rabs B /\ D = 0) \/
  (half_of B A /\ half_of C B /\ Rabs D <= Rabs C).

Lemma cexp_abs_le x y : y <> 0 -> Rabs y <= Rabs x -> (cexp radix2 fexp64 y <= cexp radix2 fexp64 x)%Z.
Proof. intros N H. rewrite !cexp64. assert (M := mag_le_abs radix2 y x N H). lia. Qed.
Lemma half_of_le y x : fmt x -> half_of y x -> 2 * Rabs y <= Rabs x.
Proof.
  intros F [N H]. assert (G := mult2_ge _ _ (mult2_cexp x F) N). lra.
Qed.
Lemma rn_abs_le2 z A : fmt A -> Rabs z <= Rabs A -> Rabs (rn z) <= Rabs A.
Proof. intros F H. apply rn_abs_le; auto. unfold Rabs. destruct Rcase_abs; auto using fmt_opp. Qed.
Lemma renorm4_chain a b c d A B C D : FV a A -> FV b B -> FV c C -> FV d D -> Rabs A <= bp 1000 ->
  (A <> 0 -> bp (-900) <= Rabs A) -> (B <> 0 -> bp (-900) <= Rabs B) ->
  rchain A B C D ->
  QFin (mkQ4 (renorm4 a b c d)) /\ QV (mkQ4 (renorm4 a b c d)) = A + B + C + D.
Proof.
  intros HA HB HC HD BA LA LB CH.
  assert (FA := FV_fmt _ _ HA). assert (FB := FV_fmt _ _ HB). assert (FC := FV_fmt _ _ HC). assert (FD := FV_fmt _ _ HD).
  assert (PA := Rabs_pos A). assert (PB := Rabs_pos B). assert (PC := Rabs_pos C).
  assert (m1074 : forall z, fmt z -> mult2 (-1074) z).
  { intros z F. apply mult2_le with (cexp radix2 fexp64 z). apply cexp_ge. now apply mult2_cexp. }
  assert (p1074 : 0 <= bp (-1074)) by apply bpow_ge_0.
  destruct CH as [[H1 [-> ->]]|[[H1 [H2 ->]]|[H1 [H2 H3]]]].
  - apply (renorm4_exact a b c d A B 0 0 (-1074) (-1074)); auto; rewrite ?Rplus_0_r, ?rn_0, ?Rplus_0_r, ?(rn_id B) by easy; auto using rn_fmt; try lia;
    try (rewrite ?Rminus_diag_eq by reflexivity); rewrite ?Rabs_R0; auto; try lra.
  - assert (G1 := half_of_le _ _ FA H1).
    destruct (Req_dec B 0) as [->|NB].
    { assert (C = 0). { apply Rabs_eq_R0. rewrite Rabs_R0 in H2. lra. } subst C.
      apply (renorm4_exact a b c d A 0 0 0 (-1074) (-1074)); auto; rewrite ?Rplus_0_r, ?rn_0, ?Rplus_0_r, ?rn_0; auto using fmt_0; try lia;
      try (rewrite ?Rminus_diag_eq by reflexivity); rewrite ?Rabs_R0; auto; try lra. }
    destruct H1 as [NA H1].
    assert (CA : (-1000 <= cexp radix2 fexp64 A)%Z).
    { rewrite cexp64. specialize (LA NA). assert (K := mag_ge_bpow radix2 A (-899) LA). lia. }
    assert (BS : Rabs (B + C) <= bp (cexp radix2 fexp64 A)) by (assert (T := Rabs_triang B C); lra).
    destruct (unit_err (B + C) _ CA BS) as [k [K1 [K2 [K3 K4]]]].
    assert (EX := renorm4_exact a b c d A B C 0 k (-1074)). rewrite Rplus_0_r, (rn_id C) in EX by easy.
    apply EX; auto; try lra; try lia.
    + rewrite Rabs_R0. apply bpow_ge_0.
    + rewrite Rabs_R0. now left.
    + left. apply rn_abs_le2; auto. assert (T := Rabs_triang B C). lra.
    + apply mult2_le with (cexp radix2 fexp64 A). lia. now apply mult2_cexp.
    + rewrite Rminus_diag_eq by reflexivity. rewrite Rabs_R0. exact p1074.
  - assert (G1 := half_of_le _ _ FA H1). assert (G2 := half_of_le _ _ FB H2).
    destruct H1 as [NA H1]. destruct H2 as [NB H2].
    assert (CA : (-1000 <= cexp radix2 fexp64 A)%Z).
    { rewrite cexp64. specialize (LA NA). assert (K := mag_ge_bpow radix2 A (-899) LA). lia. }
    assert (CB : (-1000 <= cexp radix2 fexp64 B)%Z).
    { rewrite cexp64. specialize (LB NB). assert (K := mag_ge_bpow radix2 B (-899) LB). lia. }
    assert (CS : Rabs (C + D) <= bp (cexp radix2 fexp64 B)) by (assert (T := Rabs_triang C D); lra).
    destruct (unit_err (C + D) _ CB CS) as [k3 [K1 [K2 [K3 K4]]]].
    assert (TB : Rabs (rn (C + D)) <= Rabs B) by (apply rn_abs_le2; auto; assert (T := Rabs_triang C D); lra).
    assert (BS : Rabs (B + rn (C + D)) <= bp (cexp radix2 fexp64 A)) by (assert (T := Rabs_triang B (rn (C + D))); lra).
    destruct (unit_err (B + rn (C + D)) _ CA BS) as [k2 [J1 [J2 [J3 J4]]]].
    assert (AB : (cexp radix2 fexp64 B <= cexp radix2 fexp64 A)%Z) by (apply cexp_abs_le; auto; lra).
    apply (renorm4_exact a b c d A B C D k2 k3); auto; try lra; try lia.
    + left. apply rn_abs_le2; auto. assert (T := Rabs_triang B (rn (C + D))). lra.
    + apply mult2_le with (cexp radix2 fexp64 A). lia. now apply mult2_cexp.
    + apply mult2_le with (cexp radix2 fexp64 A). lia. now apply mult2_cexp.
    + apply mult2_le with (cexp radix2 fexp64 B). lia. now apply mult2_cexp.
Qed.

Definition zone (h : R) : Prop := 0 < h < bp (-52) \/ h = -1 + bp (-53).
(** where Quad floor goes wrong: leading integers, then a component just above
    an integer (0 or -1), then a negative one *)
Definition qfloor_bad (h0 h1 h2 h3 : R) : Prop :=
  zone h0 /\ (h1 < 0 \/ h2 < 0 \/ h3 < 0) \/
  isint h0 /\ zone h1 /\ (h2 < 0 \/ h3 < 0) \/
  isint h0 /\ isint h1 /\ zone h2 /\ h3 < 0.

Lemma floor_abs L M : isint M -> Rabs L <= Rabs M -> Rabs (IZR (Zfloor L)) <= Rabs M.
Proof.
  intros [n ->] B. rewrite <- (abs_IZR n) in *. apply Rabs_le. apply Rabs_le_inv in B. split.
  rewrite <- opp_IZR. apply IZR_le, Zfloor_lub. rewrite opp_IZR. lra. apply Rle_trans with (2 := proj2 B). apply Zfloor_lb.
Qed.
Lemma int_900 A : isint A -> A <> 0 -> bp (-900) <= Rabs A.
Proof.
  intros I N. apply Rle_trans with (bp 0). apply bpow_le; lia. apply mult2_ge; auto. now apply isint_mult2.
Qed.
Lemma isint_floor z : isint (IZR z). Proof. now exists z. Qed.
Lemma half_norm A B T : isint A -> A <> 0 -> rn (A + T) = A -> B = rn T -> half_of B A.
Proof.
  intros I N E ->. split; auto. assert (L := lo_half A T N E).
  assert (K : (-52 <= cexp radix2 fexp64 A)%Z).
  { rewrite cexp64. assert (M := mult2_ge 0 A (proj1 (isint_mult2 A) I) N). assert (Q := mag_ge_bpow radix2 A 1 M). lia. }
  assert (EB : / 2 * bp (cexp radix2 fexp64 A) = bp (cexp radix2 fexp64 A - 1)).
  { replace (cexp radix2 fexp64 A) with (cexp radix2 fexp64 A - 1 + 1)%Z at 1 by ring. rewrite bp_S. field. }
  rewrite EB in *. apply rn_B; auto. lia.
Qed.

Lemma rn_half_min : rn (/ 2 * bp (-1074)) = 0.
Proof.
  replace (/ 2 * bp (-1074)) with (bp (-1075)) by exact (bpow_plus radix2 (-1) (-1074)).
  unfold rn, round. unfold scaled_mantissa. assert (E : cexp radix2 fexp64 (bp (-1075)) = (-1074)%Z) by (rewrite cexp64, mag_bpow; reflexivity).
  rewrite E, <- bpow_plus. change (-1075 + - -1074)%Z with (-1)%Z.
  replace (ZnearestE (bp (-1))) with 0%Z. unfold F2R; simpl; ring.
  symmetry. change (bp (-1)) with (/ 2). unfold Znearest. rewrite (Zfloor_imp 0) by (simpl; lra). rewrite Rcompare_Eq by (simpl; lra). reflexivity.
Qed.

Section QFloorLike.
Variables (f : f64 -> f64) (sg : Z).
Hypothesis Hsg : (sg = 1 \/ sg = -1)%Z.
Hypothesis Hf : forall a, Fin a -> FV (f a) (IZR sg * IZR (Zfloor (IZR sg * V a))).
Let s := IZR sg.

Lemma near_cases q : Fin q -> let H := s * V q in
  (isint H -> near_eps (f q) q = true) /\ (near_eps (f q) q = true -> isint H \/ zone H).
Proof.
  intros F H. assert (FH : fmt H) by (apply (s_fmt f sg Hsg Hf); auto; apply V_fmt).
  assert (Hh := Hf _ F). fold s in Hh. fold H in Hh.
  assert (lb := Zfloor_lb H). assert (ub := Zfloor_ub H).
  assert (Eh : V q = s * H) by (unfold H; now rewrite (s_s f sg Hsg Hf)).
  assert (NE : near_eps (f q) q = Rlt_bool (Rabs (rn (IZR (Zfloor H) - H))) (bp (-52))).
  { rewrite (near_ok _ _ (s * IZR (Zfloor H)) (s * H)); auto. 2: now split.
    - unfold s. rewrite <- Rmult_minus_distr_l, (s_rn f sg Hsg Hf), (s_abs f sg Hsg Hf). reflexivity.
    - unfold s. rewrite <- Rmult_minus_distr_l, (s_abs f sg Hsg Hf). rewrite Rabs_left1 by lra. lra. }
  rewrite NE. split.
  - intros [n ->]. rewrite Zfloor_IZR. rewrite Rminus_diag_eq, rn_0, Rabs_R0 by reflexivity. apply Rlt_bool_true, bpow_gt_0.
  - case Rlt_bool_spec; [|discriminate]. intros C _. destruct (int_dec H) as [I|I]; [now left|right].
    apply rn_lt_bp in C; [|lia]. rewrite Rabs_minus_sym, Rabs_pos_eq in C by lra. now apply nearfrac.
Qed.

Lemma q_floor_like_ok x : QNorm x -> Rabs (V (q0 x)) <= bp 1000 ->
  ~ qfloor_bad (s * V (q0 x)) (s * V (q1 x)) (s * V (q2 x)) (s * V (q3 x)) ->
  QFin (q_floor_like f x) /\ QV (q_floor_like f x) = s * IZR (Zfloor (s * QV x)).
Proof.
  intros [[F0 [F1 [F2 F3]]] [N0 [N1 N2]]] BQ NB. change RN with rn in *. unfold QV in N0.
  set (H0 := s * V (q0 x)) in *. set (H1 := s * V (q1 x)) in *. set (H2 := s * V (q2 x)) in *. set (H3 := s * V (q3 x)) in *.
  assert (fH0 : fmt H0) by (apply (s_fmt f sg Hsg Hf); auto; apply V_fmt). assert (fH1 : fmt H1) by (apply (s_fmt f sg Hsg Hf); auto; apply V_fmt).
  assert (fH2 : fmt H2) by (apply (s_fmt f sg Hsg Hf); auto; apply V_fmt). assert (fH3 : fmt H3) by (apply (s_fmt f sg Hsg Hf); auto; apply V_fmt).
  assert (SR := s_rn f sg Hsg Hf). fold s in SR. assert (SA := s_abs f sg Hsg Hf). fold s in SA. assert (SS := s_s f sg Hsg Hf). fold s in SS.
  assert (E0 : rn (H0 + (H1 + H2 + H3)) = H0).
  { unfold H0, H1, H2, H3. rewrite <- !Rmult_plus_distr_l, SR. f_equal. rewrite N0 at 2. f_equal. ring. }
  assert (E1 : rn (H1 + (H2 + H3)) = H1).
  { unfold H1, H2, H3. rewrite <- !Rmult_plus_distr_l, SR. f_equal. rewrite N1 at 2. f_equal. ring. }
  assert (E2 : rn (H2 + H3) = H2).
  { unfold H2, H3. rewrite <- !Rmult_plus_distr_l, SR. f_equal. now rewrite N2 at 2. }
  assert (EV : s * QV x = H0 + (H1 + (H2 + H3))) by (unfold QV, H0, H1, H2, H3; ring). rewrite EV.
  assert (E0' : rn (H0 + (H1 + (H2 + H3))) = H0) by (rewrite <- E0 at 2; f_equal; ring).
  assert (A0 := Hf _ F0). assert (A1 := Hf _ F1). assert (A2 := Hf _ F2). assert (A3 := Hf _ F3). fold s in A0, A1, A2, A3.
  fold H0 in A0. fold H1 in A1. fold H2 in A2. fold H3 in A3.
  destruct (near_cases _ F0) as [I0 C0]. destruct (near_cases _ F1) as [I1 C1]. destruct (near_cases _ F2) as [I2 C2].
  fold H0 in I0, C0. fold H1 in I1, C1. fold H2 in I2, C2.
  assert (B0 : Rabs H0 <= bp 1000) by (unfold H0; now rewrite SA).
  (* zeros *)
  assert (z3 : H2 = 0 -> H3 = 0). { intros Z. rewrite Z, Rplus_0_l, rn_id in E2 by easy. exact E2. }
  assert (z2 : H1 = 0 -> H2 = 0). { intros Z. rewrite Z, Rplus_0_l in E1. rewrite <- E2. exact E1. }
  assert (z1 : H0 = 0 -> H1 = 0). { intros Z. rewrite Z, Rplus_0_l in E0'. rewrite <- E1. exact E0'. }
  (* sizes *)
  assert (U := u01).
  assert (L3 : Rabs H3 <= / 2 * Rabs H2). { assert (K := norm_lo H2 H3 fH2 fH3 E2). assert (P := Rabs_pos H2). nra. }
  assert (gen : forall A T, fmt A -> fmt (rn T) -> rn (A + T) = A -> A <> 0 -> Rabs (rn T) <= / 2 * Rabs A \/ Rabs T <= / 2 * bp (-1074)).
  { intros A T FA FT E N. assert (L := lo_half A T N E). assert (C := cexp_ge A).
    assert (G := mult2_ge _ _ (mult2_cexp A FA) N).
    assert (D : (cexp radix2 fexp64 A = -1074 \/ -1074 <= cexp radix2 fexp64 A - 1)%Z) by lia. destruct D as [D|D].
    - right. now rewrite D in L.
    - left. assert (EB : / 2 * bp (cexp radix2 fexp64 A) = bp (cexp radix2 fexp64 A - 1)).
      { replace (cexp radix2 fexp64 A) with (cexp radix2 fexp64 A - 1 + 1)%Z at 1 by ring. rewrite bp_S. field. }
      apply Rle_trans with (bp (cexp radix2 fexp64 A - 1)); [|lra]. rewrite EB in L. apply rn_B; auto. }
  assert (tiny : forall T, Rabs T <= / 2 * bp (-1074) -> rn T = 0).
  { intros T HT. destruct (Req_dec (rn T) 0) as [Z|Z]; auto. exfalso. 
    assert (G : bp (-1074) <= Rabs (rn T)).
    { apply mult2_ge; auto. apply mult2_le with (cexp radix2 fexp64 (rn T)). apply cexp_ge. apply mult2_cexp, rn_fmt. }
    assert (K := err_le T 0 fmt_0). rewrite Rminus_0_r in K.
    assert (T1 := Rabs_triang T (- (T - rn T))). rewrite Rabs_Ropp in T1. replace (T + - (T - rn T)) with (rn T) in T1 by ring.
    assert (EQ : Rabs T = / 2 * bp (-1074)) by lra.
    apply Z. unfold Rabs in EQ. destruct (Rcase_abs T).
    - replace T with (- (/ 2 * bp (-1074))) by lra. rewrite rn_opp. rewrite (rn_half_min). ring.
    - rewrite EQ. apply rn_half_min. }
  assert (L2 : Rabs H2 <= / 2 * Rabs H1).
  { destruct (Req_dec H1 0) as [Z|Z]. rewrite (z2 Z), Z, Rabs_R0. lra.
    destruct (gen H1 (H2 + H3) fH1 (rn_fmt _) E1 Z) as [G|G]; rewrite ?E2 in G. exact G.
    apply tiny in G. rewrite E2 in G. rewrite G, Rabs_R0. assert (P := Rabs_pos H1). lra. }
  assert (L1 : Rabs H1 <= / 2 * Rabs H0).
  { destruct (Req_dec H0 0) as [Z|Z]. rewrite (z1 Z), Z, Rabs_R0. lra.
    destruct (gen H0 (H1 + (H2 + H3)) fH0 (rn_fmt _) E0' Z) as [G|G]; rewrite ?E1 in G. exact G.
    apply tiny in G. rewrite E1 in G. rewrite G, Rabs_R0. assert (P := Rabs_pos H0). lra. }
  assert (P0 := Rabs_pos H0). assert (P1 := Rabs_pos H1). assert (P2 := Rabs_pos H2). assert (P3 := Rabs_pos H3).
  assert (zl : forall h, zone h -> Rabs h < 1).
  { intros h [Z|Z]. rewrite Rabs_pos_eq by lra. apply Rlt_trans with (1 := proj2 Z). apply (bpow_lt radix2 _ 0); lia.
    rewrite Z. assert (bp (-53) < 1) by (apply (bpow_lt radix2 _ 0); lia). assert (0 < bp (-53)) by apply bpow_gt_0. apply Rabs_lt. lra. }
  assert (fz : forall h, Rabs h < 1 -> ~ h < 0 -> Zfloor h = 0%Z).
  { intros h Hh Hp. apply Zfloor_imp. simpl. apply Rabs_lt_inv in Hh. lra. }
  (* the renormalisation step, up to sign *)
  assert (fin : forall a b c d A B C D, FV a (s * A) -> FV b (s * B) -> FV c (s * C) -> FV d (s * D) ->
     Rabs A <= bp 1000 -> isint A -> isint B -> rchain A B C D -> A + B + C + D = IZR (Zfloor (H0 + (H1 + (H2 + H3)))) ->
     QFin (mkQ4 (renorm4 a b c d)) /\ QV (mkQ4 (renorm4 a b c d)) = s * IZR (Zfloor (H0 + (H1 + (H2 + H3))))).
  { intros a b c d A B C D Ha Hb Hc Hd BA IA IB CH EQ.
    destruct (renorm4_chain a b c d _ _ _ _ Ha Hb Hc Hd) as [R1 R2]; rewrite ?SA; auto.
    - intros N. apply int_900; auto. intros Z. apply N. rewrite Z. ring.
    - intros N. apply int_900; auto. intros Z. apply N. rewrite Z. ring.
    - assert (CS : forall y, cexp radix2 fexp64 (s * y) = cexp radix2 fexp64 y).
      { intros y. unfold cexp. f_equal. unfold s. destruct Hsg as [-> | ->]. now rewrite Rmult_1_l. replace (IZR (-1) * y) with (- y) by (simpl; ring). apply mag_opp. }
      assert (NZ : forall y, y <> 0 -> s * y <> 0). { intros y Hy Z. apply Hy. rewrite <- (SS y), Z. ring. }
      unfold rchain, half_of in *. rewrite !SA, !CS. destruct CH as [[K1 [K2 K3]]|[[K1 [K2 K3]]|[K1 [K2 K3]]]].
      + left. rewrite K2, K3. repeat split; auto; ring.
      + right; left. rewrite K3. destruct K1. repeat split; auto; ring.
      + right; right. destruct K1, K2. repeat split; auto.
    - split; [exact R1|]. rewrite R2, <- EQ. ring. }
  assert (Z0 : FV F64.f0 (s * 0)) by (rewrite Rmult_0_r; apply FV_0).
  assert (c0 : forall b, 0 <= b -> Rabs 0 <= b) by (intros; now rewrite Rabs_R0).
  assert (i1 : Rabs (IZR (Zfloor H0)) <= bp 1000).
  { rewrite bp_IZR in * by lia. assert (Q : IZR (2 ^ 1000) = Rabs (IZR (2 ^ 1000))) by (symmetry; apply Rabs_pos_eq, IZR_le; lia).
    rewrite Q in *. apply floor_abs; auto. apply isint_floor. }
  unfold q_floor_like.
  destruct (int_dec H0) as [J0|J0].
  - rewrite (I0 J0). destruct J0 as [n0 J0]. assert (K0 : IZR (Zfloor H0) = H0) by (rewrite J0, Zfloor_IZR; reflexivity).
    assert (J0' : isint H0) by (now exists n0). rewrite K0 in *.
    destruct (int_dec H1) as [J1|J1].
    + rewrite (I1 J1). destruct J1 as [n1 J1]. assert (K1 : IZR (Zfloor H1) = H1) by (rewrite J1, Zfloor_IZR; reflexivity).
      assert (J1' : isint H1) by (now exists n1). rewrite K1 in *.
      destruct (int_dec H2) as [J2|J2].
      * rewrite (I2 J2). destruct J2 as [n2 J2]. assert (K2 : IZR (Zfloor H2) = H2) by (rewrite J2, Zfloor_IZR; reflexivity).
        assert (J2' : isint H2) by (now exists n2). rewrite K2 in *.
        apply (fin _ _ _ _ H0 H1 H2 (IZR (Zfloor H3))); auto.
        { destruct (Req_dec H1 0) as [Y|Y].
          - left. rewrite (z3 (z2 Y)), (z2 Y), Y, Zfloor_IZR. auto using c0.
          - right; right. assert (Y' : H0 <> 0) by (intros Q; apply Y; auto). split; [|split].
            + apply half_norm with (H1 + (H2 + H3)); auto.
            + apply half_norm with (H2 + H3); auto.
            + apply floor_abs; auto. lra. }
        { rewrite J0, J1, J2 at 2. rewrite !Zfloor_add_int, !plus_IZR, <- J0, <- J1, <- J2. ring. }
      * assert (EF : IZR (Zfloor (H0 + (H1 + (H2 + H3)))) = H0 + H1 + IZR (Zfloor H2)).
        { rewrite J0, J1 at 1. rewrite !Zfloor_add_int, !plus_IZR, <- J0, <- J1, (floor_nonint H2 H3) by auto. ring. }
        assert (FD : FV (if near_eps (f (q2 x)) (q2 x) then f (q3 x) else F64.f0) (s * 0)).
        { destruct (near_eps (f (q2 x)) (q2 x)) eqn:NE; auto. destruct (C2 eq_refl) as [Q|Q]; [easy|].
          replace 0 with (IZR (Zfloor H3)); auto. rewrite fz; auto. assert (W := zl _ Q). lra. intros W. apply NB. right; right. auto. }
        apply (fin _ _ _ _ H0 H1 (IZR (Zfloor H2)) 0); auto.
        { right; left. assert (Y : H1 <> 0) by (intros Q; apply J2; exists 0%Z; auto). assert (Y' : H0 <> 0) by (intros Q; apply Y; auto). split; [|split; auto].
          - apply half_norm with (H1 + (H2 + H3)); auto.
          - apply floor_abs; auto. lra. }
        { rewrite EF. ring. }
    + assert (EF : IZR (Zfloor (H0 + (H1 + (H2 + H3)))) = H0 + IZR (Zfloor H1)).
      { rewrite J0 at 1. rewrite !Zfloor_add_int, !plus_IZR, <- J0, (floor_nonint H1 (H2 + H3)) by auto. ring. }
      assert (goal : forall c d, FV c (s * 0) -> FV d (s * 0) -> QFin (mkQ4 (renorm4 (f (q0 x)) (f (q1 x)) c d)) /\ QV (mkQ4 (renorm4 (f (q0 x)) (f (q1 x)) c d)) = s * IZR (Zfloor (H0 + (H1 + (H2 + H3))))).
      { intros c d Hc Hd. apply (fin _ _ _ _ H0 (IZR (Zfloor H1)) 0 0); auto.
        apply isint_floor. left. split; auto. apply floor_abs; auto. lra. rewrite EF. ring. }
      destruct (near_eps (f (q1 x)) (q1 x)) eqn:NE; auto.
      destruct (C1 eq_refl) as [Q|Q]; [easy|]. assert (W := zl _ Q).
      assert (Y2 : Zfloor H2 = 0%Z) by (apply fz; [lra|intros W'; apply NB; right; left; auto]).
      assert (Y3 : Zfloor H3 = 0%Z) by (apply fz; [lra|intros W'; apply NB; right; left; auto]). rewrite Y2 in A2. rewrite Y3 in A3.
      destruct (near_eps (f (q2 x)) (q2 x)); auto.
  - assert (EF : Zfloor (H0 + (H1 + (H2 + H3))) = Zfloor H0) by now apply floor_nonint.
    destruct (near_eps (f (q0 x)) (q0 x)) eqn:NE.
    + destruct (C0 eq_refl) as [Q|Q]; [easy|]. assert (W := zl _ Q).
      assert (Y1 : Zfloor H1 = 0%Z) by (apply fz; [lra|intros W'; apply NB; left; auto]).
      assert (Y2 : Zfloor H2 = 0%Z) by (apply fz; [lra|intros W'; apply NB; left; auto]).
      assert (Y3 : Zfloor H3 = 0%Z) by (apply fz; [lra|intros W'; apply NB; left; auto]).
      rewrite Y1 in A1. rewrite Y2 in A2. rewrite Y3 in A3.
      assert (goal : forall c d, FV c (s * 0) -> FV d (s * 0) -> QFin (mkQ4 (renorm4 (f (q0 x)) (f (q1 x)) c d)) /\ QV (mkQ4 (renorm4 (f (q0 x)) (f (q1 x)) c d)) = s * IZR (Zfloor (H0 + (H1 + (H2 + H3))))).
      { intros c d Hc Hd. apply (fin _ _ _ _ (IZR (Zfloor H0)) 0 0 0); auto using isint_floor. left. split; auto using c0, Rabs_pos. rewrite EF. ring. }
      destruct (near_eps (f (q1 x)) (q1 x)); auto. destruct (near_eps (f (q2 x)) (q2 x)); auto.
    + destruct A0 as [A0 A0']. split.
      * now repeat split.
      * unfold QV. cbn [q0 q1 q2 q3]. change (V F64.f0) with 0. rewrite A0', EF. ring.
Qed.
End QFloorLike.
