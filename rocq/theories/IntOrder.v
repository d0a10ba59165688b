(** * The conversions from 128-bit integers preserve order, although their results are not normalised *)
From Coq Require Import ZArith Reals Lra Lia Bool.
From Flocq Require Import Core IEEE754.BinarySingleNaN.
From Verif Require Import RN F64 Prim DoubleM QuadM Spec F64Facts EFT OrderProofs Sim SymProofs ExactProofs QExactProofs LawProofs SingleProofs Exact IntProofs.
Local Open Scope R_scope.

(** lexicographic order of reals *)
Definition lex4 (x0 x1 x2 x3 y0 y1 y2 y3 : R) : Prop :=
  x0 < y0 \/ x0 = y0 /\ (x1 < y1 \/ x1 = y1 /\ (x2 < y2 \/ x2 = y2 /\ x3 < y3)).
Lemma R4_mono h1 g1 n1 x0 x1 x2 x3 h2 g2 n2 y0 y1 y2 y3 :
  R4form h1 g1 n1 x0 x1 x2 x3 -> R4form h2 g2 n2 y0 y1 y2 y3 ->
  h1 <= h2 -> g1 <= g2 -> n1 < n2 ->
  (h1 < h2 -> g1 <= h2 /\ n1 <= h2 /\ h1 <= g2 /\ h1 <= n2) ->
  (g1 < g2 -> n1 <= g2 /\ g1 <= n2) ->
  (g1 = g2 -> h1 = h2 \/ (n1 <= g1 /\ g2 <= n2)) ->
  lex4 x0 x1 x2 x3 y0 y1 y2 y3.
Proof.
  intros [X0 [X1 [X2 X3]]] [Y0 [Y1 [Y2 Y3]]] Hh Hg Hn I1 I2 I3.
  assert (L0 : x0 <= y0).
  { destruct (Rle_lt_or_eq_dec _ _ Hh) as [H|H].
    - destruct (I1 H) as [? [? [? ?]]].
      assert (n1 <= g2 /\ g1 <= n2).
      { destruct (Rle_lt_or_eq_dec _ _ Hg) as [G|G]; [auto|]. destruct (I3 G); lra. }
      destruct X0 as [[_ ->]|[[_ [_ ->]]|[_ [_ ->]]]]; destruct Y0 as [[_ ->]|[[_ [_ ->]]|[_ [_ ->]]]]; apply rn_le; lra.
    - subst h2. destruct (Rle_lt_or_eq_dec _ _ Hg) as [G|G].
      + destruct (I2 G). destruct X0 as [[? ->]|[[? [_ ->]]|[? [_ ->]]]]; destruct Y0 as [[? ->]|[[? [_ ->]]|[? [_ ->]]]]; try contradiction; apply rn_le; lra.
      + subst g2. destruct X0 as [[? ->]|[[? [? ->]]|[? [? ->]]]]; destruct Y0 as [[? ->]|[[? [? ->]]|[? [? ->]]]]; try contradiction; apply rn_le; lra. }
  destruct (Rle_lt_or_eq_dec _ _ L0) as [L|E0]; [now left|]. right. split; auto. rewrite <- E0 in *. clear y0 E0 L0 X0 Y0.
  assert (L1 : x1 <= y1).
  { destruct (Rle_lt_or_eq_dec _ _ Hg) as [G|G].
    - destruct (I2 G). destruct X1 as [[_ [_ ->]]|[_ ->]]; destruct Y1 as [[_ [_ ->]]|[_ ->]]; apply rn_le; lra.
    - destruct (I3 G) as [H|[H1 H2]].
      + subst h2 g2. destruct X1 as [[? [? ->]]|[? ->]]; destruct Y1 as [[? [? ->]]|[? ->]]; try (apply rn_le; lra); exfalso; tauto.
      + destruct X1 as [[_ [_ ->]]|[_ ->]]; destruct Y1 as [[_ [_ ->]]|[_ ->]]; apply rn_le; lra. }
  destruct (Rle_lt_or_eq_dec _ _ L1) as [L|E1]; [now left|]. right. split; auto. rewrite <- E1 in *. clear y1 E1 L1 X1 Y1.
  assert (L2 : x2 <= y2) by (rewrite X2, Y2; apply rn_le; lra).
  destruct (Rle_lt_or_eq_dec _ _ L2) as [L|E2]; [now left|]. right. split; auto. rewrite <- E2 in *. lra.
Qed.

Lemma lex4_cmp x y x0 x1 x2 x3 y0 y1 y2 y3 : QFV x x0 x1 x2 x3 -> QFV y y0 y1 y2 y3 ->
  lex4 x0 x1 x2 x3 y0 y1 y2 y3 -> q_partial_cmp x y = Some Lt.
Proof.
  intros [[F0 <-] [[F1 <-] [[F2 <-] [F3 <-]]]] [[G0 <-] [[G1 <-] [[G2 <-] [G3 <-]]]].
  unfold lex4, q_partial_cmp. rewrite !fcmp_ok by assumption. unfold V.
  intros [L|[E [L|[E1 [L|[E2 L]]]]]].
  - now rewrite Rcompare_Lt.
  - rewrite Rcompare_Eq by easy. now rewrite Rcompare_Lt.
  - rewrite !Rcompare_Eq by easy. now rewrite Rcompare_Lt.
  - rewrite !Rcompare_Eq by easy. now rewrite Rcompare_Lt.
Qed.

(** the gap between a grid point and the rounded sum above it is representable *)
Lemma grid_diff B t : 0 <= B -> 0 <= t <= bp 64 -> mult2 64 B -> B <= bp 96 -> fmt t -> fmt (rn (B + t) - B).
Proof.
  intros PB [Pt Ht] MB HB Ft. destruct (Req_dec t 0) as [Z|Z].
  { subst. rewrite Rplus_0_r, rn_id. replace (B - B) with 0 by ring. apply fmt_0. apply fmt_mult2 with 64%Z; auto. lia.
    rewrite Rabs_pos_eq by easy. apply Rle_trans with (1 := HB). apply bpow_le. lia. }
  set (s := rn (B + t)). set (ct := cexp radix2 fexp64 t). assert (Mt := mult2_cexp t Ft). fold ct in Mt.
  set (k := cexp radix2 fexp64 s).
  assert (Lk : (-1074 <= k)%Z) by (unfold k; rewrite cexp64; lia).
  assert (Hs : s <= bp 97).
  { apply Rle_trans with (1 := Rle_abs _). apply rn_B. lia. rewrite Rabs_pos_eq by lra. change 97%Z with (96 + 1)%Z. rewrite bp_S. assert (bp 64 <= bp 96) by (apply bpow_le; lia). lra. }
  assert (Ps : 0 < s).
  { apply Rlt_le_trans with t. lra. unfold s. rewrite <- (rn_id t Ft) at 1. apply rn_le. lra. }
  assert (Uk : (k <= 45)%Z).
  { unfold k. rewrite cexp64. assert (mag radix2 s <= 98)%Z; [|lia]. apply mag_le_bpow. lra. rewrite Rabs_pos_eq by lra. apply Rle_lt_trans with (1 := Hs). apply bpow_lt. lia. }
  assert (Us : s < bp (k + 53)).
  { apply Rlt_le_trans with (bp (mag radix2 s)). rewrite <- (Rabs_pos_eq s) at 1 by lra. apply bpow_mag_gt. apply bpow_le. unfold k. rewrite cexp64. lia. }
  destruct (Z_le_gt_dec k ct) as [C|C].
  - assert (fmt (B + t)).
    { apply fmt_mult2 with k; auto. apply mult2_plus; [eapply mult2_le; [|exact MB]; lia|eapply mult2_le; [|exact Mt]; lia].
      rewrite Rabs_pos_eq by lra. apply Rnot_lt_le. intros H.
      assert (bp (k + 53) <= s); [|lra]. unfold s. rewrite <- (rn_id (bp (k + 53))) by (apply fmt_bpow; lia). apply rn_le. lra. }
    unfold s. rewrite rn_id by easy. now replace (B + t - B) with t by ring.
  - apply fmt_mult2 with k; auto.
    { apply mult2_minus. apply mult2_cexp. apply rn_fmt. eapply mult2_le; [|exact MB]; lia. }
    assert (Ht' : t < bp (k + 52)).
    { apply Rlt_le_trans with (bp (mag radix2 t)). rewrite <- (Rabs_pos_eq t) at 1 by lra. apply bpow_mag_gt. apply bpow_le.
      assert (E : ct = cexp radix2 fexp64 t) by reflexivity. rewrite cexp64 in E. lia. }
    assert (K := error_le_half_ulp_round radix2 fexp64 (fun x => negb (Z.even x)) (B + t)).
    change (round radix2 _ _ _) with s in K. rewrite ulp_neq_0 in K by lra. fold k in K.
    assert (K2 : bp k <= bp (k + 52)) by (apply bpow_le; lia).
    replace (k + 53)%Z with (k + 52 + 1)%Z by ring. rewrite bp_S.
    assert (0 < bp k) by apply bpow_gt_0.
    unfold Rabs in K at 1. unfold Rabs. destruct (Rcase_abs (s - (B + t))), (Rcase_abs (s - B)); lra.
Qed.

(** four base-2^32 digits *)
Definition dig (n : Z) : Prop := (0 <= n < 2 ^ 32)%Z.
Definition u128q (w x y z : Z) : Quad :=
  mkQ4 (renorm4 (fmul (fofZ w) (fpowi F64.f2 96)) (fmul (fofZ x) (fpowi F64.f2 64)) (fmul (fofZ y) (fpowi F64.f2 32)) (fofZ z)).
Lemma dig_bp n k : (0 <= k)%Z -> IZR n * bp k = IZR (n * 2 ^ k).
Proof. intros Hk. rewrite mult_IZR, <- bp_IZR by lia. ring. Qed.
Lemma rn_int n k : (0 <= k)%Z -> dig n -> rn (IZR n * bp k) = IZR n * bp k.
Proof.
  intros Hk [H1 H2]. apply rn_id, fmt_mult2 with k. lia. now exists n.
  rewrite bpow_plus, Rabs_mult, (Rabs_pos_eq (bp k)) by apply bpow_ge_0. rewrite Rmult_comm. apply Rmult_le_compat_l. apply bpow_ge_0.
  apply Rabs_int; lia.
Qed.
Lemma digit_bounds w x y z : dig w -> dig x -> dig y -> dig z ->
  let A := IZR w * bp 96 in let B := IZR x * bp 64 in let m := IZR y * bp 32 + IZR z in
  0 <= A /\ 0 <= B /\ B + bp 64 <= bp 96 /\ 0 <= m < bp 64 /\ 0 <= rn m <= bp 64 /\
  B <= rn (B + rn m) <= B + bp 64 /\ 0 <= rn (B + rn m) <= bp 96 /\ fmt (rn (B + rn m) - B).
Proof.
  intros Hw Hx Hy Hz A B m.
  assert (PA : 0 <= A) by (unfold A; rewrite dig_bp by lia; apply IZR_le; unfold dig in *; lia).
  assert (PB : 0 <= B) by (unfold B; rewrite dig_bp by lia; apply IZR_le; unfold dig in *; lia).
  assert (UB : B + bp 64 <= bp 96).
  { unfold B. rewrite dig_bp by lia. rewrite !bp_IZR by lia. rewrite <- plus_IZR. apply IZR_le. unfold dig in *; lia. }
  assert (Pm : 0 <= m < bp 64).
  { unfold m. rewrite dig_bp, bp_IZR by lia. rewrite <- plus_IZR. split; [apply IZR_le|apply IZR_lt]; unfold dig in *; lia. }
  assert (Pr : 0 <= rn m <= bp 64).
  { split. now apply rn_ge_0. rewrite <- (rn_id (bp 64)) by (apply fmt_bpow; lia). apply rn_le. lra. }
  assert (FB : rn B = B) by (apply rn_int; auto; lia).
  assert (FB1 : rn (B + bp 64) = B + bp 64).
  { apply rn_id. apply fmt_mult2 with 64%Z. lia. apply mult2_plus. now exists x. exists 1%Z. ring. rewrite Rabs_pos_eq by lra. apply Rle_trans with (1 := UB). apply bpow_le. lia. }
  assert (S : B <= rn (B + rn m) <= B + bp 64).
  { split. rewrite <- FB at 1. apply rn_le. lra. rewrite <- FB1. apply rn_le. lra. }
  repeat split; try tauto; try lra. apply grid_diff; try tauto; try lra. now exists x. apply rn_fmt.
Qed.

Lemma u128_lt w x y z w' x' y' z' :
  dig w -> dig x -> dig y -> dig z -> dig w' -> dig x' -> dig y' -> dig z' ->
  (w * 2 ^ 96 + x * 2 ^ 64 + y * 2 ^ 32 + z < w' * 2 ^ 96 + x' * 2 ^ 64 + y' * 2 ^ 32 + z')%Z ->
  q_partial_cmp (u128q w x y z) (u128q w' x' y' z') = Some Lt.
Proof.
  intros Hw Hx Hy Hz Hw' Hx' Hy' Hz' L.
  destruct (q_u128_form w x y z Hw Hx Hy Hz) as [x0 [x1 [x2 [x3 [X FX]]]]].
  destruct (q_u128_form w' x' y' z' Hw' Hx' Hy' Hz') as [y0 [y1 [y2 [y3 [Y FY]]]]].
  apply (lex4_cmp _ _ _ _ _ _ _ _ _ _ X Y). clear X Y.
  assert (D := digit_bounds w x y z Hw Hx Hy Hz). assert (D' := digit_bounds w' x' y' z' Hw' Hx' Hy' Hz').
  cbv zeta in FX, FY, D, D'.
  set (A := IZR w * bp 96) in *. set (B := IZR x * bp 64) in *. set (m := IZR y * bp 32 + IZR z) in *.
  set (A' := IZR w' * bp 96) in *. set (B' := IZR x' * bp 64) in *. set (m' := IZR y' * bp 32 + IZR z') in *.
  assert (LN : A + B + m < A' + B' + m').
  { unfold A, B, m, A', B', m'. rewrite !dig_bp by lia. rewrite <- !plus_IZR. apply IZR_lt. lia. }
  assert (CA : A = A' \/ A + bp 96 <= A').
  { destruct (Z.eq_dec w w') as [->|N]; [now left|right]. unfold A, A'. rewrite !dig_bp, bp_IZR by lia. rewrite <- plus_IZR. apply IZR_le.
    unfold dig in *. nia. }
  assert (CB : A = A' -> B = B' \/ B + bp 64 <= B').
  { intros E. apply Rmult_eq_reg_r, eq_IZR in E; [|apply Rgt_not_eq, bpow_gt_0]. subst w'.
    destruct (Z.eq_dec x x') as [->|N]; [now left|right]. unfold B, B'. rewrite !dig_bp, bp_IZR by lia. rewrite <- plus_IZR. apply IZR_le.
    unfold dig in *. nia. }
  destruct D as [PA [PB [UB [Pm [Pr [S [T F]]]]]]]. destruct D' as [PA' [PB' [UB' [Pm' [Pr' [S' [T' F']]]]]]].
  assert (FB : rn B = B) by (apply rn_int; auto; lia).
  assert (FB' : rn B' = B') by (apply rn_int; auto; lia).
  clearbody A B m A' B' m'. clear L.
  set (r := rn m) in *. set (r' := rn m') in *. set (e := rn (B + r)) in *. set (e' := rn (B' + r')) in *.
  apply (R4_mono _ _ _ _ _ _ _ _ _ _ _ _ _ _ FX FY); auto.
  - destruct CA as [E|L]; [|lra]. destruct (CB E) as [E1|L]; [|lra]. assert (r <= r') by (apply rn_le; lra).
    assert (e <= e') by (apply rn_le; lra). lra.
  - destruct CA as [E|L]; [|lra]. destruct (CB E) as [E1|L]; [|lra]. assert (r <= r') by (apply rn_le; lra). lra.
  - intros H. destruct CA as [E|L]; [|repeat split; lra]. destruct (CB E) as [E1|L]; [|repeat split; lra].
    subst A' B'. assert (H' : e < e') by lra.
    assert (Lr : r < r').
    { apply Rnot_le_lt. intros K. assert (e' <= e) by (apply rn_le; lra). lra. }
    assert (FE : forall q, rn (rn q) = rn q) by (intros q; apply rn_id, rn_fmt).
    assert (Q1 : B + r <= e').
    { apply Rnot_lt_le. intros K. assert (e' <= e); [|lra]. unfold e' at 1. rewrite <- FE. fold e'. apply rn_le. lra. }
    assert (Q2 : m <= e' - B).
    { apply Rnot_lt_le. intros K. assert (e' - B <= r). { rewrite <- (rn_id (e' - B)) by easy. apply rn_le. lra. }
      assert (r = e' - B) by lra. assert (e = e'); [|lra]. unfold e. rewrite H1. replace (B + (e' - B)) with e' by ring. apply FE. }
    assert (Q3 : e <= B + r').
    { apply Rnot_lt_le. intros K. assert (e' <= e); [|lra]. unfold e. rewrite <- FE. fold e. apply rn_le. lra. }
    assert (Q4 : e - B <= m').
    { apply Rnot_lt_le. intros K. assert (r' <= e - B). { rewrite <- (rn_id (e - B)) by easy. apply rn_le. lra. }
      assert (r' = e - B) by lra. assert (e = e'); [|lra]. unfold e'. rewrite H1. replace (B + (e - B)) with e by ring. symmetry. apply FE. }
    repeat split; lra.
  - intros H. destruct CA as [E|L]; [|repeat split; lra]. destruct (CB E) as [E1|L]; [|repeat split; lra].
    subst A' B'. assert (FE : forall q, rn (rn q) = rn q) by (intros q; apply rn_id, rn_fmt). split.
    + assert (m <= r'); [|lra]. apply Rnot_lt_le. intros K. assert (r' <= r); [|lra]. unfold r' at 1. rewrite <- FE. fold r'. apply rn_le. lra.
    + assert (r <= m'); [|lra]. apply Rnot_lt_le. intros K. assert (r' <= r); [|lra]. unfold r at 1. rewrite <- FE. fold r. apply rn_le. lra.
  - intros H. destruct CA as [E|L]; [|right; split; lra]. destruct (CB E) as [E1|L]; [|right; split; lra].
    left. subst A' B'. assert (r = r') by lra. unfold e, e'. rewrite H0. reflexivity.
Qed.

Lemma q_from_u128_u a : (0 <= a < 2 ^ 128)%Z -> exists w x y z, q_from_u128 a = u128q w x y z /\
  dig w /\ dig x /\ dig y /\ dig z /\ (a = w * 2 ^ 96 + x * 2 ^ 64 + y * 2 ^ 32 + z)%Z.
Proof.
  intros H. assert (K := split_u128_ok a H). unfold q_from_u128. destruct (split_u128 a) as [[[w x] y] z].
  exists w, x, y, z. split; [reflexivity|]. unfold dig. tauto.
Qed.
Lemma u128_order a b : (0 <= a < 2 ^ 128)%Z -> (0 <= b < 2 ^ 128)%Z ->
  q_partial_cmp (q_from_u128 a) (q_from_u128 b) = Some (Z.compare a b).
Proof.
  intros Ha Hb.
  assert (LT : forall a b, (0 <= a < 2 ^ 128)%Z -> (0 <= b < 2 ^ 128)%Z -> (a < b)%Z -> q_partial_cmp (q_from_u128 a) (q_from_u128 b) = Some Lt).
  { clear. intros a b Ha Hb L. destruct (q_from_u128_u a Ha) as [w [x [y [z [E [? [? [? [? Ea]]]]]]]]].
    destruct (q_from_u128_u b Hb) as [w' [x' [y' [z' [E' [? [? [? [? Eb]]]]]]]]]. rewrite E, E'. apply u128_lt; auto. lia. }
  destruct (Z.compare_spec a b) as [->|L|L]; auto.
  - destruct (q_from_u128_ok b Hb) as [[F0 [F1 [F2 F3]]] _]. unfold q_partial_cmp. rewrite !fcmp_ok by assumption. now rewrite !Rcompare_Eq.
  - destruct (q_laws (q_from_u128 b) (q_from_u128 a) (q_from_u128 a)) as [_ [_ [_ [_ [S _]]]]]. rewrite S, LT; auto.
Qed.
Lemma q_neg_cmp x y : QFin x -> QFin y -> q_partial_cmp (q_neg x) (q_neg y) = q_partial_cmp y x.
Proof.
  intros [F0 [F1 [F2 F3]]] [G0 [G1 [G2 G3]]]. unfold q_partial_cmp, q_neg. cbn [q0 q1 q2 q3].
  rewrite !fcmp_ok by (rewrite ?Fin_fneg; assumption). unfold Fin in *.
  assert (N : forall a : f64, B2R (fneg a) = - B2R a) by (intros; apply B2R_Bopp).
  rewrite !N.
  assert (R : forall p q, Rcompare (- p) (- q) = Rcompare q p).
  { intros. destruct (Rcompare_spec q p); [apply Rcompare_Lt|apply Rcompare_Eq|apply Rcompare_Gt]; lra. }
  rewrite !R. reflexivity.
Qed.
Lemma q_cmp_eq_r x y z : q_partial_cmp y z = Some Eq -> q_partial_cmp x z = q_partial_cmp x y.
Proof.
  rewrite !q_cmp_l. unfold q_list. cbn [lcmp]. rewrite !fcmp_ext. intros Z1.
  destruct (ecmp (to_ext (q0 y)) (to_ext (q0 z))) as [[]|] eqn:K0; try discriminate.
  destruct (ecmp (to_ext (q1 y)) (to_ext (q1 z))) as [[]|] eqn:K1; try discriminate.
  destruct (ecmp (to_ext (q2 y)) (to_ext (q2 z))) as [[]|] eqn:K2; try discriminate.
  destruct (ecmp (to_ext (q3 y)) (to_ext (q3 z))) as [[]|] eqn:K3; try discriminate.
  rewrite (ecmp_eq_r _ _ _ K0), (ecmp_eq_r _ _ _ K1), (ecmp_eq_r _ _ _ K2), (ecmp_eq_r _ _ _ K3). reflexivity.
Qed.
Lemma q_from_i128_eq a : (i128_min <= a <= i128_max)%Z ->
  q_from_i128 a = if (a <? 0)%Z then q_neg (q_from_u128 (- a)) else q_from_u128 a.
Proof.
  intros H. unfold q_from_i128, q_from_u128.
  set (b := if (a =? i128_min)%Z then (i128_max + 1)%Z else Z.abs a).
  assert (Eb : b = Z.abs a) by (unfold b; destruct (Z.eqb_spec a i128_min) as [->|]; reflexivity).
  rewrite Eb. destruct (Z.ltb_spec a 0).
  - rewrite Z.abs_neq by lia. replace (Z.sgn a) with (-1)%Z by lia. now destruct (split_u128 (- a)) as [[[w x] y] z].
  - rewrite Z.abs_eq by lia. replace (Z.sgn a =? -1)%Z with false by (symmetry; apply Z.eqb_neq; lia). now destruct (split_u128 a) as [[[w x] y] z].
Qed.
Lemma i128_order a b : (i128_min <= a <= i128_max)%Z -> (i128_min <= b <= i128_max)%Z ->
  q_partial_cmp (q_from_i128 a) (q_from_i128 b) = Some (Z.compare a b).
Proof.
  assert (LT : forall a b, (i128_min <= a <= i128_max)%Z -> (i128_min <= b <= i128_max)%Z -> (a < b)%Z ->
     q_partial_cmp (q_from_i128 a) (q_from_i128 b) = Some Lt).
  { clear. intros a b Ha Hb L. rewrite !q_from_i128_eq by assumption. unfold i128_min, i128_max in *.
    assert (U : forall c d, (0 <= c < d)%Z -> (d < 2 ^ 128)%Z -> q_partial_cmp (q_from_u128 c) (q_from_u128 d) = Some Lt).
    { intros c d H K. rewrite u128_order by lia. f_equal. apply Z.compare_lt_iff. lia. }
    assert (F : forall c, (0 <= c < 2 ^ 128)%Z -> QFin (q_from_u128 c)) by (intros c Hc; apply (q_from_u128_ok c Hc)).
    destruct (Z.ltb_spec a 0) as [A|A], (Z.ltb_spec b 0) as [B|B]; try lia.
    - rewrite q_neg_cmp by (apply F; lia). apply U; lia.
    - assert (Z0 : q_partial_cmp (q_neg (q_from_u128 (- a))) (q_neg (q_from_u128 0)) = Some Lt).
      { rewrite q_neg_cmp by (apply F; lia). apply U; lia. }
      assert (Z1 : q_partial_cmp (q_neg (q_from_u128 0)) (q_from_u128 0) = Some Eq) by (vm_compute; reflexivity).
      assert (Z2 : q_partial_cmp (q_neg (q_from_u128 (- a))) (q_from_u128 0) = Some Lt).
      { rewrite (q_cmp_eq_r _ _ _ Z1). exact Z0. }
      destruct (Z.eq_dec b 0) as [->|N]; auto.
      destruct (q_laws (q_neg (q_from_u128 (- a))) (q_from_u128 0) (q_from_u128 b)) as [_ [_ [_ [_ [_ [T _]]]]]].
      apply T; [exact Z2|]. apply U; lia.
    - apply U; lia. }
  intros Ha Hb. destruct (Z.compare_spec a b) as [->|L|L]; auto.
  - destruct (q_from_i128_ok b Hb) as [[F0 [F1 [F2 F3]]] _]. unfold q_partial_cmp. rewrite !fcmp_ok by assumption. now rewrite !Rcompare_Eq.
  - destruct (q_laws (q_from_i128 b) (q_from_i128 a) (q_from_i128 a)) as [_ [_ [_ [_ [S _]]]]]. rewrite S, LT; auto.
Qed.

(** *** lemmas in theorem shape *)
Lemma d_ints_ok :
  (forall a, (0 <= a < 2 ^ 64)%Z -> DNorm (d_from_u64 a) /\ DV (d_from_u64 a) = IZR a) /\
  (forall a, (- 2 ^ 63 <= a < 2 ^ 63)%Z -> DNorm (d_from_i64 a) /\ DV (d_from_i64 a) = IZR a) /\
  (forall a, (- 2 ^ 31 <= a < 2 ^ 32)%Z -> DNorm (d_from_small a) /\ DV (d_from_small a) = IZR a).
Proof.
  assert (G : forall r z, DIs r z -> DNorm r /\ DV r = z) by (intros r z D; apply DIs_ok in D; tauto).
  refine (conj _ (conj _ _)); intros a H.
  - now apply G, d_from_u64_is.
  - apply G, d_from_i64_is. unfold i64_min, i64_max. lia.
  - apply G, d_from_small_is. lia.
Qed.
Lemma q_ints_ok :
  (forall a, (0 <= a < 2 ^ 64)%Z -> QNorm (q_from_u64 a) /\ QV (q_from_u64 a) = IZR a) /\
  (forall a, (- 2 ^ 63 <= a < 2 ^ 63)%Z -> QNorm (q_from_i64 a) /\ QV (q_from_i64 a) = IZR a) /\
  (forall a, (- 2 ^ 31 <= a < 2 ^ 32)%Z -> QNorm (q_from_small a) /\ QV (q_from_small a) = IZR a) /\
  (forall a, (0 <= a < 2 ^ 128)%Z -> QFin (q_from_u128 a) /\ QV (q_from_u128 a) = IZR a) /\
  (forall a, (- 2 ^ 127 <= a < 2 ^ 127)%Z -> QFin (q_from_i128 a) /\ QV (q_from_i128 a) = IZR a).
Proof.
  refine (conj _ (conj _ (conj _ (conj _ _)))); intros a H.
  - now apply QIs2_ok, q_from_u64_is.
  - apply QIs2_ok, q_from_i64_is. unfold i64_min, i64_max. lia.
  - apply QIs2_ok, q_from_small_is. lia.
  - now apply q_from_u128_ok.
  - apply q_from_i128_ok. unfold i128_min, i128_max. lia.
Qed.
Lemma q_u128_norm_refuted :
  (exists a, (0 <= a < 2 ^ 128)%Z /\ ~ QNorm (q_from_u128 a)) /\
  (exists a, (0 <= a < 2 ^ 127)%Z /\ ~ QNorm (q_from_i128 a)) /\
  (exists a, (0 <= a < 2 ^ 128)%Z /\ ~ QNormW (q_from_u128 a)).
Proof.
  refine (conj _ (conj _ _)).
  - exists (2 ^ 127 + 2 ^ 74 + 1)%Z. split; [lia|]. apply qnormx_no; vm_compute; reflexivity.
  - exists (2 ^ 126 + 2 ^ 73 + 1)%Z. split; [lia|]. apply qnormx_no; vm_compute; reflexivity.
  - exists (2 ^ 127 + 2 ^ 95 + 2 ^ 74 + 2 ^ 42)%Z. split; [lia|].
    intros [_ [E _]]. 
    set (x := q_from_u128 _) in E.
    assert (K : rnis (zv (q0 x) + zv (q1 x)) (q0 x) = true).
    { apply rnis_ok. split; [vm_compute; reflexivity|]. rewrite E at 1. rewrite plus_IZR, (zv_ok (q0 x)), (zv_ok (q1 x)). f_equal. ring. }
    vm_compute in K. discriminate.
Qed.
Lemma Rcompare_Z a b : Rcompare (IZR a) (IZR b) = Z.compare a b.
Proof. apply Rcompare_IZR. Qed.
Lemma d_int_order_ok :
  (forall a b, (0 <= a < 2 ^ 64)%Z -> (0 <= b < 2 ^ 64)%Z -> d_partial_cmp (d_from_u64 a) (d_from_u64 b) = Some (Z.compare a b)) /\
  (forall a b, (- 2 ^ 63 <= a < 2 ^ 63)%Z -> (- 2 ^ 63 <= b < 2 ^ 63)%Z -> d_partial_cmp (d_from_i64 a) (d_from_i64 b) = Some (Z.compare a b)) /\
  (forall a b, (- 2 ^ 31 <= a < 2 ^ 32)%Z -> (- 2 ^ 31 <= b < 2 ^ 32)%Z -> d_partial_cmp (d_from_small a) (d_from_small b) = Some (Z.compare a b)).
Proof.
  destruct d_ints_ok as [U [I S]].
  assert (G : forall x y a b, DNorm x /\ DV x = IZR a -> DNorm y /\ DV y = IZR b -> d_partial_cmp x y = Some (Z.compare a b)).
  { intros x y a b [N E] [N' E']. rewrite (proj1 (d_ord_ok x y N N')), E, E'. now rewrite Rcompare_Z. }
  refine (conj _ (conj _ _)); intros a b H K; apply G; auto.
Qed.
Lemma q_int_order_ok :
  (forall a b, (0 <= a < 2 ^ 64)%Z -> (0 <= b < 2 ^ 64)%Z -> q_partial_cmp (q_from_u64 a) (q_from_u64 b) = Some (Z.compare a b)) /\
  (forall a b, (- 2 ^ 63 <= a < 2 ^ 63)%Z -> (- 2 ^ 63 <= b < 2 ^ 63)%Z -> q_partial_cmp (q_from_i64 a) (q_from_i64 b) = Some (Z.compare a b)) /\
  (forall a b, (- 2 ^ 31 <= a < 2 ^ 32)%Z -> (- 2 ^ 31 <= b < 2 ^ 32)%Z -> q_partial_cmp (q_from_small a) (q_from_small b) = Some (Z.compare a b)) /\
  (forall a b, (0 <= a < 2 ^ 128)%Z -> (0 <= b < 2 ^ 128)%Z -> q_partial_cmp (q_from_u128 a) (q_from_u128 b) = Some (Z.compare a b)) /\
  (forall a b, (- 2 ^ 127 <= a < 2 ^ 127)%Z -> (- 2 ^ 127 <= b < 2 ^ 127)%Z -> q_partial_cmp (q_from_i128 a) (q_from_i128 b) = Some (Z.compare a b)).
Proof.
  destruct q_ints_ok as [U [I [S _]]].
  assert (G : forall x y a b, QNorm x /\ QV x = IZR a -> QNorm y /\ QV y = IZR b -> q_partial_cmp x y = Some (Z.compare a b)).
  { intros x y a b [N E] [N' E']. rewrite (proj1 (q_ord_ok x y N N')), E, E'. now rewrite Rcompare_Z. }
  refine (conj _ (conj _ (conj _ (conj _ _)))); intros a b H K.
  1-3: apply G; auto.
  - now apply u128_order.
  - apply i128_order; unfold i128_min, i128_max; lia.
Qed.
