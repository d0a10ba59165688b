(** * Special values (lemmas) *)
From Coq Require Import ZArith Reals Lra Lia List Bool.
From Flocq Require Import Core IEEE754.BinarySingleNaN.
From Verif Require Import RN F64 Prim DoubleM QuadM Spec F64Facts EFT DAddProofs DMulProofs Check.

Lemma d_add_special x y :
  is_finite (d0 x) && is_finite (d0 y) = false -> d_add x y = mkD (fadd (d0 x) (d0 y)) f0.
Proof.
  destruct x as [x0 x1], y as [y0 y1]; cbn [d0 d1].
  destruct x0 as [[]|[]| |[] m e h], y0 as [[]|[]| |[] m' e' h']; try discriminate; intros _; reflexivity.
Qed.
Lemma d_sub_special x y :
  is_finite (d0 x) && is_finite (d0 y) = false -> d_sub x y = mkD (fsub (d0 x) (d0 y)) f0.
Proof.
  destruct x as [x0 x1], y as [y0 y1]; cbn [d0 d1].
  destruct x0 as [[]|[]| |[] m e h], y0 as [[]|[]| |[] m' e' h']; try discriminate; intros _; reflexivity.
Qed.
Lemma d_mul_special x y :
  is_finite (d0 x) && is_finite (d0 y) = false \/ feqb (d0 x) f0 = true ->
  d_mul x y = mkD (fmul (d0 x) (d0 y)) f0.
Proof.
  destruct x as [x0 x1], y as [y0 y1]; cbn [d0 d1].
  destruct x0 as [[]|[]| |[] m e h], y0 as [[]|[]| |[] m' e' h'];
    (intros [H|H]; try discriminate); reflexivity.
Qed.
Lemma d_div_special x y :
  is_finite (d0 x) && is_finite (d0 y) = false \/ feqb (d0 y) f0 = true ->
  d_div x y = mkD (fdiv (d0 x) (d0 y)) f0.
Proof.
  destruct x as [x0 x1], y as [y0 y1]; cbn [d0 d1].
  destruct x0 as [[]|[]| |[] m e h], y0 as [[]|[]| |[] m' e' h'];
    (intros [H|H]; try discriminate); reflexivity.
Qed.

Lemma q_add_special x y :
  is_finite (q0 x) && is_finite (q0 y) = false -> q_add x y = mkQ (fadd (q0 x) (q0 y)) f0 f0 f0.
Proof.
  destruct x as [x0 x1 x2 x3], y as [y0 y1 y2 y3]; cbn [q0].
  destruct x0 as [[]|[]| |[] m e h], y0 as [[]|[]| |[] m' e' h']; try discriminate; intros _; reflexivity.
Qed.
Lemma q_sub_special x y :
  is_finite (q0 x) && is_finite (q0 y) = false -> q_sub x y = mkQ (fsub (q0 x) (q0 y)) f0 f0 f0.
Proof.
  destruct x as [x0 x1 x2 x3], y as [y0 y1 y2 y3]; cbn [q0].
  destruct x0 as [[]|[]| |[] m e h], y0 as [[]|[]| |[] m' e' h']; try discriminate; intros _; reflexivity.
Qed.
Lemma q_mul_special x y :
  is_finite (q0 x) && is_finite (q0 y) = false \/ feqb (q0 x) f0 = true ->
  q_mul x y = mkQ (fmul (q0 x) (q0 y)) f0 f0 f0.
Proof.
  destruct x as [x0 x1 x2 x3], y as [y0 y1 y2 y3]; cbn [q0].
  destruct x0 as [[]|[]| |[] m e h], y0 as [[]|[]| |[] m' e' h'];
    (intros [H|H]; try discriminate); reflexivity.
Qed.
Lemma q_div_special x y :
  is_finite (q0 x) && is_finite (q0 y) = false \/ feqb (q0 y) f0 = true ->
  q_div x y = mkQ (fdiv (q0 x) (q0 y)) f0 f0 f0.
Proof.
  destruct x as [x0 x1 x2 x3], y as [y0 y1 y2 y3]; cbn [q0].
  destruct x0 as [[]|[]| |[] m e h], y0 as [[]|[]| |[] m' e' h'];
    (intros [H|H]; try discriminate); reflexivity.
Qed.

(** zero results *)
Lemma feqb_0 a : feqb a f0 = true -> exists s, a = B754_zero s.
Proof. destruct a as [s|[]| |[] m e h]; try discriminate. eauto. Qed.
Lemma Fin_cases (a : f64) : is_finite a = true -> (exists s, a = B754_zero s) \/ (exists s m e h, a = B754_finite s m e h).
Proof. destruct a as [s|[]| |s m e h]; try discriminate; eauto 8. Qed.

Lemma d_mul_zero_right x y : is_finite (d0 x) = true -> is_finite (d1 x) = true ->
  feqb (d0 y) f0 = true -> feqb (d1 y) f0 = true -> d_eq (d_mul x y) D_ZERO = true.
Proof.
  destruct x as [x0 x1], y as [y0 y1]; cbn [d0 d1]. intros F0 F1 Z0 Z1.
  apply feqb_0 in Z0 as [[] ->]; apply feqb_0 in Z1 as [[] ->];
  destruct (Fin_cases _ F0) as [[[] ->]|[[] [m [e [h ->]]]]];
  destruct (Fin_cases _ F1) as [[[] ->]|[[] [m' [e' [h' ->]]]]]; reflexivity.
Qed.

Lemma d_div_zero_left x y : is_finite (d0 y) = true -> is_finite (d1 y) = true ->
  feqb (d0 y) f0 = false ->
  feqb (d0 x) f0 = true -> feqb (d1 x) f0 = true -> d_eq (d_div x y) D_ZERO = true.
Proof.
  destruct x as [x0 x1], y as [y0 y1]; cbn [d0 d1]. intros F0 F1 N Z0 Z1.
  apply feqb_0 in Z0 as [[] ->]; apply feqb_0 in Z1 as [[] ->];
  destruct (Fin_cases _ F0) as [[s ->]|[[] [m [e [h ->]]]]]; try (now destruct s);
  destruct (Fin_cases _ F1) as [[[] ->]|[[] [m' [e' [h' ->]]]]]; reflexivity.
Qed.

(** overflow *)
Definition fmax : f64 := f2pow (2 ^ 53 - 1) 971.
Lemma overflow_refuted : exists x, DNorm x /\
    d_is_nan (d_add x x) = true /\ fadd (d0 x) (d0 x) = finf /\
    d_is_nan (d_mul x (mkD f2 f0)) = true /\ fmul (d0 x) f2 = finf.
Proof.
  exists (mkD fmax f0). split; [apply dnormb_ok; vm_compute; reflexivity|].
  vm_compute. repeat split; reflexivity.
Qed.

Lemma fadd_nan_r a : fadd a fnan = fnan. Proof. now destruct a as [[]|[]| |[] m e h]. Qed.
Lemma fsub_nan_r a : fsub a fnan = fnan. Proof. now destruct a as [[]|[]| |[] m e h]. Qed.
Lemma fadd_nan_l a : fadd fnan a = fnan. Proof. now destruct a as [[]|[]| |[] m e h]. Qed.
Lemma fsub_nan_l a : fsub fnan a = fnan. Proof. now destruct a as [[]|[]| |[] m e h]. Qed.
Lemma inf_cases (a : f64) : is_finite a = false -> (exists s, a = B754_infinity s) \/ a = fnan.
Proof. destruct a as [s|s| |s m e h]; try discriminate; eauto. Qed.
Lemma fsub_inf_fin s (a : f64) : is_finite a = true -> fsub (B754_infinity s) a = B754_infinity s.
Proof. now destruct a. Qed.

Lemma two_sum_ovf (a b : f64) : is_finite a = true -> is_finite (fadd a b) = false ->
  snd (two_sum a b) = fnan.
Proof.
  intros Fa H. unfold two_sum; cbn [snd].
  destruct (inf_cases _ H) as [[s ->]| ->].
  - rewrite (fsub_inf_fin s a) by easy. destruct s;
    change (fsub (B754_infinity _) (B754_infinity _)) with fnan; now rewrite fsub_nan_r, fadd_nan_l.
  - now rewrite !fsub_nan_l, fsub_nan_r, fadd_nan_l.
Qed.
Lemma two_diff_ovf (a b : f64) : is_finite a = true -> is_finite (fsub a b) = false ->
  snd (two_diff a b) = fnan.
Proof.
  intros Fa H. unfold two_diff; cbn [snd].
  destruct (inf_cases _ H) as [[s ->]| ->].
  - rewrite (fsub_inf_fin s a) by easy.
    destruct s; change (fsub (B754_infinity _) (B754_infinity _)) with fnan; now rewrite fsub_nan_r, fsub_nan_l.
  - now rewrite !fsub_nan_l, fsub_nan_r, fsub_nan_l.
Qed.
Lemma fadd_nonfin (a b : f64) : is_finite a = false -> is_finite (fadd a b) = false.
Proof. destruct a as [[]|[]| |[] m e h], b as [[]|[]| |[] m' e' h']; try discriminate; reflexivity. Qed.

Lemma overflow_not_finite x y : is_finite (d0 x) = true -> is_finite (d0 y) = true ->
  (is_finite (fadd (d0 x) (d0 y)) = false -> d_is_finite (d_add x y) = false) /\
  (is_finite (fsub (d0 x) (d0 y)) = false -> d_is_finite (d_sub x y) = false) /\
  (is_finite (fmul (d0 x) (d0 y)) = false -> d_is_finite (d_mul x y) = false).
Proof.
  intros Fx Fy. split; [|split]; intros H.
  - unfold d_add. rewrite d_pre_add_fin by easy. cbn [from_pre].
    assert (K := two_sum_ovf _ _ Fx H).
    destruct (two_sum (d0 x) (d0 y)) as [s0 e0]. cbn [snd] in K. rewrite K.
    destruct (two_sum (d1 x) (d1 y)) as [s1 e1]. rewrite fadd_nan_r.
    unfold quick_two_sum, renorm2. rewrite fadd_nan_r. unfold quick_two_sum. rewrite fadd_nan_l. reflexivity.
  - unfold d_sub. rewrite d_pre_sub_fin by easy. cbn [from_pre].
    assert (K := two_diff_ovf _ _ Fx H).
    destruct (two_diff (d0 x) (d0 y)) as [s0 e0]. cbn [snd] in K. rewrite K.
    destruct (two_diff (d1 x) (d1 y)) as [s1 e1]. rewrite fadd_nan_r.
    unfold quick_two_sum, renorm2. rewrite fadd_nan_r. unfold quick_two_sum. rewrite fadd_nan_l. reflexivity.
  - destruct (feqb (d0 x) f0) eqn:Zx.
    { rewrite d_mul_special by auto. exact H. }
    unfold d_mul, d_pre_mul, d_is_nan, d_is_infinite, d_is_zero. rewrite Zx.
    rewrite (Fin_nan _ Fx), (Fin_nan _ Fy), (Fin_inf _ Fx), (Fin_inf _ Fy). cbn [orb from_pre].
    unfold two_prod.
    destruct (inf_cases _ H) as [[s E]|E]; rewrite E.
    + replace (fma (d0 x) (d0 y) (fneg (B754_infinity s))) with (B754_infinity (negb s) : f64).
      2:{ destruct (Fin_cases _ Fx) as [[sx Ex]|[sx [m [e [h Ex]]]]]; rewrite Ex in *; [now destruct sx|].
          destruct (Fin_cases _ Fy) as [[sy Ey]|[sy [m' [e' [h' Ey]]]]]; rewrite Ey in *; reflexivity. }
      set (t := fadd _ (fmul (d1 x) (d0 y))).
      assert (T : t = B754_infinity (negb s) \/ t = fnan).
      { unfold t. set (m1 := fmul (d0 x) (d1 y)). set (m2 := fmul (d1 x) (d0 y)).
        destruct s; destruct m1 as [[]|[]| |[] ? ? ?]; cbn; auto;
        destruct m2 as [[]|[]| |[] ? ? ?]; cbn; auto. }
      unfold renorm2, quick_two_sum. destruct T as [-> | ->]; now destruct s.
    + unfold renorm2, quick_two_sum. rewrite fadd_nan_l. reflexivity.
Qed.

(** classification *)
Lemma normal_iff s m e h : Zlt_bool (Zpos m) (2 ^ 52) = false <->
  (bpow radix2 (-1022) <= Rabs (V (B754_finite s m e h)))%R.
Proof.
  assert (HV : Rabs (V (B754_finite s m e h)) = (IZR (Zpos m) * bpow radix2 e)%R).
  { unfold V, B2R. rewrite <- F2R_Zabs. simpl Z.abs. replace (Z.abs (cond_Zopp s (Zpos m))) with (Zpos m) by now destruct s.
    reflexivity. }
  rewrite HV. assert (P := bpow_gt_0 radix2 e).
  assert (h' := h). unfold SpecFloat.bounded in h'. apply andb_prop in h' as [C _].
  unfold SpecFloat.canonical_mantissa in C. apply Zeq_bool_eq in C.
  change (SpecFloat.fexp 53 1024) with (fun e => Z.max (e - 53) (-1074)) in C. cbv beta in C.
  rewrite Digits.Zpos_digits2_pos in C.
  assert (He : (-1074 <= e)%Z) by lia.
  split; intros H.
  - apply Z.ltb_ge in H.
    apply Rle_trans with (IZR (2 ^ 52) * bpow radix2 (-1074))%R.
    + replace (IZR (2 ^ 52)) with (bpow radix2 52) by reflexivity. rewrite <- bpow_plus. apply bpow_le. lia.
    + apply Rmult_le_compat; try (apply bpow_ge_0); try apply IZR_le; try lia. apply bpow_le. lia.
  - apply Z.ltb_ge. apply Z.le_ngt. intros Hm.
    assert (D : (Digits.Zdigits radix2 (Zpos m) <= 52)%Z) by (apply Digits.Zdigits_le_Zpower; simpl; lia).
    assert (e = -1074)%Z as -> by lia.
    apply (Rlt_irrefl (bpow radix2 (-1022))). apply Rle_lt_trans with (1 := H).
    apply Rlt_le_trans with (IZR (2 ^ 52) * bpow radix2 (-1074))%R.
    + apply Rmult_lt_compat_r. easy. apply IZR_lt. lia.
    + replace (IZR (2 ^ 52)) with (bpow radix2 52) by reflexivity. rewrite <- bpow_plus. apply bpow_le. lia.
Qed.

Lemma f_normal_iff (a : f64) : fpcat_eqb (fclassify a) FpNormal = true <->
  is_finite a = true /\ (bpow radix2 (-1022) <= Rabs (V a))%R.
Proof.
  assert (P := bpow_gt_0 radix2 (-1022)).
  destruct a as [s|s| |s m e h]; cbn [fclassify fpcat_eqb is_finite V B2R].
  - split; [easy|]. intros [_ H]. exfalso. rewrite Rabs_R0 in H. lra.
  - split; [easy|]. intros [H _]. easy.
  - split; [easy|]. intros [H _]. easy.
  - rewrite <- (normal_iff s m e h). destruct (Zlt_bool (Z.pos m) (2 ^ 52)); cbn; intuition easy.
Qed.
Lemma f_zero_iff (a : f64) : feqb a f0 = true <-> is_finite a = true /\ V a = 0%R.
Proof.
  split.
  - intros H. apply feqb_0 in H as [s ->]. now split.
  - intros [F H]. rewrite feqb_ok by easy. now apply Req_bool_true.
Qed.
Lemma f_class_sum a :
  (Nat.b2n (fis_nan a) + Nat.b2n (fis_infinite a) + Nat.b2n (fis_finite a) = 1)%nat /\
  (Nat.b2n (fis_finite a) = Nat.b2n (feqb a f0) + Nat.b2n (fpcat_eqb (fclassify a) FpSubnormal)
     + Nat.b2n (fpcat_eqb (fclassify a) FpNormal))%nat.
Proof.
  destruct a as [[]|[]| |[] m e h]; cbn [fclassify]; try (split; reflexivity);
  destruct (Zlt_bool (Z.pos m) (2 ^ 52)); split; reflexivity.
Qed.

Lemma d_classify_ok x :
  (Nat.b2n (d_is_nan x) + Nat.b2n (d_is_infinite x) + Nat.b2n (d_is_finite x) = 1)%nat /\
  (Nat.b2n (d_is_finite x) = Nat.b2n (d_is_zero x) + Nat.b2n (d_is_subnormal x) + Nat.b2n (d_is_normal x))%nat /\
  d_is_sign_negative x = negb (d_is_sign_positive x) /\
  (d_is_normal x = true <-> is_finite (d0 x) = true /\ (bpow radix2 (-1022) <= Rabs (V (d0 x)))%R) /\
  (d_is_zero x = true <-> is_finite (d0 x) = true /\ V (d0 x) = 0%R).
Proof.
  destruct (f_class_sum (d0 x)) as [A B].
  refine (conj A (conj B (conj _ (conj (f_normal_iff _) (f_zero_iff _))))).
  unfold d_is_sign_negative, d_is_sign_positive, fsign_neg, fsign_pos. now rewrite negb_involutive.
Qed.
Lemma q_classify_ok x :
  (Nat.b2n (q_is_nan x) + Nat.b2n (q_is_infinite x) + Nat.b2n (q_is_finite x) = 1)%nat /\
  (Nat.b2n (q_is_finite x) = Nat.b2n (q_is_zero x) + Nat.b2n (q_is_subnormal x) + Nat.b2n (q_is_normal x))%nat /\
  q_is_sign_negative x = negb (q_is_sign_positive x) /\
  (q_is_normal x = true <-> is_finite (q0 x) = true /\ (bpow radix2 (-1022) <= Rabs (V (q0 x)))%R) /\
  (q_is_zero x = true <-> is_finite (q0 x) = true /\ V (q0 x) = 0%R).
Proof.
  destruct (f_class_sum (q0 x)) as [A B].
  refine (conj A (conj B (conj _ (conj (f_normal_iff _) (f_zero_iff _))))).
  unfold q_is_sign_negative, q_is_sign_positive, fsign_neg, fsign_pos. now rewrite negb_involutive.
Qed.
Lemma classify_leading a b b' c c' d d' :
  d_classify (mkD a b) = d_classify (mkD a b') /\ q_classify (mkQ a b c d) = q_classify (mkQ a b' c' d').
Proof. split; reflexivity. Qed.

(** conversions *)
Lemma d_roundtrip a b :
  d_to_tuple (d_new a b) = (a, b) /\ d_to_tuple (d_from_tuple (a, b)) = (a, b) /\
  (forall x, d_from_tuple (d_to_tuple x) = x) /\
  d_to_f64 (d_new a b) = a /\
  d_index (d_new a b) 0 = Val a /\ d_index (d_new a b) 1 = Val b.
Proof. repeat split. now intros []. Qed.
Lemma d_index_panics x i : (2 <= i)%Z -> d_index x i = Panicked.
Proof. intros H. destruct i as [|p|p]; try lia. destruct p; try reflexivity; lia. Qed.
Lemma d_to_f64_nearest x : DNorm x -> V (d_to_f64 x) = RN (DV x).
Proof. intros [_ H]. exact H. Qed.
Lemma q_roundtrip a b c d :
  q_to_tuple4 (q_new a b c d) = (a, b, c, d) /\ q_to_tuple4 (q_from_tuple4 (a, b, c, d)) = (a, b, c, d) /\
  (forall x, q_from_tuple4 (q_to_tuple4 x) = x) /\
  q_to_tuple3 (q_from_tuple3 (a, b, c)) = (a, b, c) /\ q_to_tuple2 (q_from_tuple2 (a, b)) = (a, b) /\
  q_from_tuple3 (a, b, c) = q_new a b c f0 /\ q_from_tuple2 (a, b) = q_new a b f0 f0 /\
  q_to_f64 (q_new a b c d) = a /\
  q_index (q_new a b c d) 0 = Val a /\ q_index (q_new a b c d) 1 = Val b /\
  q_index (q_new a b c d) 2 = Val c /\ q_index (q_new a b c d) 3 = Val d.
Proof. repeat split. now intros []. Qed.
Lemma q_index_panics x i : (4 <= i)%Z -> q_index x i = Panicked.
Proof.
  intros H. destruct i as [|p|p]; try lia.
  destruct p as [p|p|]; try lia; destruct p as [p|p|]; try lia; try reflexivity; destruct p; try lia; reflexivity.
Qed.

Lemma d_assign_eq x r : d_assign x r = r. Proof. now destruct r. Qed.
Lemma q_assign_eq x r : q_assign x r = r. Proof. now destruct r. Qed.
Lemma d_forms x y :
  (d_add_rr x y = d_add x y /\ d_add_vr x y = d_add x y /\ d_add_rv x y = d_add x y /\ d_add_assign x y = d_add x y) /\
  (d_sub_rr x y = d_sub x y /\ d_sub_vr x y = d_sub x y /\ d_sub_rv x y = d_sub x y /\ d_sub_assign x y = d_sub x y) /\
  (d_mul_rr x y = d_mul x y /\ d_mul_vr x y = d_mul x y /\ d_mul_rv x y = d_mul x y /\ d_mul_assign x y = d_mul x y) /\
  (d_div_rr x y = d_div x y /\ d_div_vr x y = d_div x y /\ d_div_rv x y = d_div x y /\ d_div_assign x y = d_div x y) /\
  (d_rem_rr x y = d_rem x y /\ d_rem_vr x y = d_rem x y /\ d_rem_rv x y = d_rem x y /\ d_rem_assign x y = d_rem x y) /\
  d_neg_ref x = d_neg x.
Proof. repeat split; apply d_assign_eq. Qed.
Lemma q_forms x y :
  (q_add_rr x y = q_add x y /\ q_add_vr x y = q_add x y /\ q_add_rv x y = q_add x y /\ q_add_assign x y = q_add x y) /\
  (q_sub_rr x y = q_sub x y /\ q_sub_vr x y = q_sub x y /\ q_sub_rv x y = q_sub x y /\ q_sub_assign x y = q_sub x y) /\
  (q_mul_rr x y = q_mul x y /\ q_mul_vr x y = q_mul x y /\ q_mul_rv x y = q_mul x y /\ q_mul_assign x y = q_mul x y) /\
  (q_div_rr x y = q_div x y /\ q_div_vr x y = q_div x y /\ q_div_rv x y = q_div x y /\ q_div_assign x y = q_div x y) /\
  (q_rem_rr x y = q_rem x y /\ q_rem_vr x y = q_rem x y /\ q_rem_rv x y = q_rem x y /\ q_rem_assign x y = q_rem x y) /\
  q_neg_ref x = q_neg x.
Proof. repeat split; apply q_assign_eq. Qed.
