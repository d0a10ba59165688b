(** * Integer conversions (lemmas) *)
From Coq Require Import ZArith Reals Lra Lia Bool.
From Flocq Require Import Core IEEE754.BinarySingleNaN.
From Verif Require Import RN F64 Prim DoubleM QuadM Spec F64Facts EFT OrderProofs DAddProofs ExactProofs QExactProofs LawProofs SingleProofs Witness Exact LawThms.
Local Open Scope R_scope.

Lemma FV_Bd a x : FV a x -> Rabs x <= M18 -> Bd M18 a.
Proof. intros [F <-] H. now split. Qed.
Lemma quick_FV' a b x y : FV a x -> FV b y -> Rabs x <= bp 1018 -> Rabs y <= bp 1018 -> Rabs y <= Rabs x \/ x = 0 ->
  FV2 (quick_two_sum a b) (rn (x + y)) (x + y - rn (x + y)).
Proof. intros A B Hx Hy H. assert (A' := FV_Bd _ _ A Hx). assert (B' := FV_Bd _ _ B Hy). destruct A as [Fa <-], B as [Fb <-]. now apply quick_FV. Qed.

(** powers of two as computed by [fpowi] *)
Lemma FV_zv a z e : is_finite a = true -> (-1074 <= e)%Z -> (zv a = z * 2 ^ (e + 1074))%Z -> FV a (IZR z * bp e).
Proof.
  intros F He E. split; [exact F|]. rewrite zv_ok, E, mult_IZR, (IZR_Zpower radix2) by lia.
  rewrite Rmult_assoc, <- bpow_plus. do 2 f_equal. ring.
Qed.
Lemma FV_p32 : FV (fpowi f2 32) (bp 32).
Proof. replace (bp 32) with (1 * bp 32) by ring. apply FV_zv; [vm_compute; reflexivity|lia|vm_compute; reflexivity]. Qed.
Lemma FV_p64 : FV (fpowi f2 64) (bp 64).
Proof. replace (bp 64) with (1 * bp 64) by ring. apply FV_zv; [vm_compute; reflexivity|lia|vm_compute; reflexivity]. Qed.
Lemma FV_p96 : FV (fpowi f2 96) (bp 96).
Proof. replace (bp 96) with (1 * bp 96) by ring. apply FV_zv; [vm_compute; reflexivity|lia|vm_compute; reflexivity]. Qed.
Lemma FV_int n : (0 <= n < 2 ^ 32)%Z -> FV (fofZ n) (IZR n).
Proof. intros H. destruct (fofZ_exact n) as [F E]; [lia|]. now split. Qed.
Lemma bp_IZR k : (0 <= k)%Z -> bp k = IZR (2 ^ k).
Proof. intros H. symmetry. now apply (IZR_Zpower radix2). Qed.
Lemma FV_int_mul n p k : (0 <= n < 2 ^ 32)%Z -> (0 <= k <= 900)%Z -> FV p (bp k) -> FV (fmul (fofZ n) p) (IZR n * bp k).
Proof.
  intros Hn Hk P. assert (B : Rabs (IZR n * bp k) <= bp (k + 32)).
  { rewrite Rabs_mult, (Rabs_pos_eq (bp k)) by apply bpow_ge_0. rewrite Z.add_comm, bpow_plus. apply Rmult_le_compat_r. apply bpow_ge_0.
    rewrite (bp_IZR 32) by lia. rewrite Rabs_pos_eq by (apply IZR_le; lia). apply IZR_le. lia. }
  eapply FV_mul; eauto using FV_int.
  - apply rn_id. apply (fmt_mult2 k); [lia|now exists n|]. apply Rle_trans with (1 := B). apply bpow_le. lia.
  - apply Rle_lt_trans with (1 := B). apply bpow_lt. lia.
Qed.
Lemma split_u64_ok a : (0 <= a < 2 ^ 64)%Z ->
  let '(x, y) := split_u64 a in (0 <= x < 2 ^ 32)%Z /\ (0 <= y < 2 ^ 32)%Z /\ (a = x * 2 ^ 32 + y)%Z.
Proof.
  intros H. unfold split_u64. assert (K := Z.div_mod a (2 ^ 32) ltac:(lia)).
  assert (M := Z.mod_pos_bound a (2 ^ 32) ltac:(lia)). assert (P := Z.div_pos a (2 ^ 32) ltac:(lia) ltac:(lia)).
  assert (L := Z.div_lt_upper_bound a (2 ^ 32) (2 ^ 32) ltac:(lia) ltac:(lia)). lia.
Qed.
Lemma Rabs_int n k : (0 <= k)%Z -> (0 <= n <= 2 ^ k)%Z -> Rabs (IZR n) <= bp k.
Proof. intros Hk H. rewrite bp_IZR by easy. rewrite Rabs_pos_eq by (apply IZR_le; lia). apply IZR_le. lia. Qed.

Lemma u64_pair x y : (0 <= x < 2 ^ 32)%Z -> (0 <= y < 2 ^ 32)%Z ->
  let z := (x * 2 ^ 32 + y)%Z in
  FV2 (quick_two_sum (fmul (fofZ x) (fpowi f2 32)) (fofZ y)) (rn (IZR z)) (IZR z - rn (IZR z)).
Proof.
  intros Hx Hy z. assert (X := FV_int_mul x _ 32 Hx ltac:(lia) FV_p32). assert (Y := FV_int y Hy).
  assert (E : IZR z = IZR x * bp 32 + IZR y) by (unfold z; rewrite plus_IZR, mult_IZR, <- bp_IZR by lia; ring).
  assert (B : bp 64 <= bp 1018) by (apply bpow_le; lia).
  assert (E' : IZR x * bp 32 = IZR (x * 2 ^ 32)) by (rewrite mult_IZR, <- bp_IZR by lia; ring).
  rewrite E. apply quick_FV'; auto.
  - rewrite E'. apply Rle_trans with (2 := B). apply Rabs_int; lia.
  - apply Rle_trans with (2 := B). apply Rabs_int; lia.
  - destruct (Z.eq_dec x 0) as [->|N]; [right; ring|left].
    rewrite E'. rewrite !Rabs_pos_eq by (apply IZR_le; lia). apply IZR_le. lia.
Qed.
Lemma d_from_u64_is a : (0 <= a < 2 ^ 64)%Z -> DIs (d_from_u64 a) (IZR a).
Proof.
  intros H. assert (K := split_u64_ok a H). unfold d_from_u64. destruct (split_u64 a) as [x y]. destruct K as [Hx [Hy E]].
  unfold renorm2. assert (P := u64_pair x y Hx Hy). cbn zeta in P. rewrite <- E in P.
  destruct (quick_two_sum _ _) as [s e]. destruct P as [P1 P2]. now split.
Qed.
Lemma DIs_neg x z : DIs x z -> DIs (d_neg x) (- z).
Proof. intros [A B]. unfold DIs. rewrite rn_opp. split; cbn [d_neg d0 d1]. now apply FV_neg. apply FV_neg in B. eapply FV_eq; eauto. ring. Qed.
Lemma d_from_i64_is a : (i64_min <= a <= i64_max)%Z -> DIs (d_from_i64 a) (IZR a).
Proof.
  unfold i64_min, i64_max. intros H. unfold d_from_i64, renorm2.
  set (b := if (a =? i64_min)%Z then (i64_max + 1)%Z else Z.abs a).
  assert (Eb : b = Z.abs a) by (unfold b, i64_min, i64_max; destruct (Z.eqb_spec a (-9223372036854775808)) as [->|]; [reflexivity|reflexivity]).
  assert (K := split_u64_ok b ltac:(rewrite Eb; lia)). destruct (split_u64 b) as [x y]. destruct K as [Hx [Hy E]].
  assert (P := u64_pair x y Hx Hy). cbn zeta in P. rewrite <- E, Eb in P.
  destruct (quick_two_sum _ _) as [s e]. destruct P as [P1 P2]. cbn [fst snd] in *.
  assert (D : DIs (mkD s e) (IZR (Z.abs a))) by now split.
  destruct (Z.eqb_spec (Z.sgn a) (-1)) as [S|S].
  - apply DIs_neg in D. replace (IZR a) with (- IZR (Z.abs a)); [exact D|]. rewrite <- opp_IZR. f_equal. lia.
  - replace a with (Z.abs a) at 1 by lia. exact D.
Qed.
Lemma d_from_small_is a : (Z.abs a <= 2 ^ 53)%Z -> DIs (d_from_small a) (IZR a).
Proof.
  intros H. destruct (fofZ_exact a H) as [F E].
  assert (R : rn (IZR a) = IZR a) by (rewrite <- E; apply rn_id, V_fmt).
  unfold DIs. rewrite R, Rminus_diag_eq by reflexivity. split; [now split|apply FV_0].
Qed.

(** ** Quad *)
Lemma renorm4_two a b x y : FV a x -> FV b y -> Rabs x <= bp 1018 -> Rabs y <= bp 1018 -> Rabs y <= Rabs x \/ x = 0 ->
  QFV (mkQ4 (renorm4 a b f0 f0)) (rn (x + y)) (x + y - rn (x + y)) 0 0.
Proof.
  intros A B Bx By H. assert (Z := FV_0).
  assert (P := quick_FV' a b x y A B Bx By H).
  set (s := rn (x + y)) in *. set (e := x + y - s) in *.
  assert (N : rn (s + e) = s) by (unfold e, s; apply rn_split).
  assert (C : chain4 s e 0 0).
  { unfold chain4. refine (conj N (conj _ _)); rewrite Rplus_0_r; [|apply rn_0].
    apply rn_id. destruct P as [_ P2]. eapply FV_fmt; eauto. }
  unfold renorm4. 
  assert (P1 := quick_0r _ _ _ Z Z). destruct (quick_two_sum F64.f0 F64.f0) as [c1 s3]. destruct P1 as [P1a P1b]. cbn [fst snd] in *.
  assert (P2 := quick_0r _ _ _ B P1a). destruct (quick_two_sum b c1) as [c2 s2]. destruct P2 as [P2a P2b]. cbn [fst snd] in *.
  assert (P3 := quick_FV' a c2 x y A P2a Bx By H). fold s in P3. fold e in P3.
  destruct (quick_two_sum a c2) as [s0 s1]. destruct P3 as [P3a P3b]. cbn [fst snd] in *.
  destruct (Req_dec e 0) as [E|E].
  - rewrite E in *. rewrite (FV_fne0_0 _ P3b).
    assert (P4 := quick_0r _ _ _ P3a P2b). destruct (quick_two_sum s0 s2) as [t0 t1]. destruct P4 as [P4a P4b]. cbn [fst snd] in *.
    rewrite (FV_fne0_0 _ P4b).
    assert (P5 := quick_0r _ _ _ P4a P1b). destruct (quick_two_sum t0 s3) as [v0 v1]. destruct P5. now apply QFV_mk.
  - rewrite (FV_fne0 _ _ P3b E).
    assert (P4 := quick_0r _ _ _ P3b P2b). destruct (quick_two_sum s1 s2) as [t0 t1]. destruct P4 as [P4a P4b]. cbn [fst snd] in *.
    rewrite (FV_fne0_0 _ P4b).
    assert (P5 := quick_0r _ _ _ P4a P1b). destruct (quick_two_sum t0 s3) as [v0 v1]. destruct P5. now apply QFV_mk.
Qed.
Definition QIs2 (r : Quad) (z : R) : Prop := QFV r (rn z) (z - rn z) 0 0.
Lemma QIs2_ok r z : QIs2 r z -> QNorm r /\ QV r = z.
Proof.
  intros [[F0 E0] [[F1 E1] [[F2 E2] [F3 E3]]]].
  assert (Q : QV r = z) by (unfold QV; rewrite E0, E1, E2, E3; ring).
  refine (conj _ Q). split; [now repeat split|]. refine (conj _ (conj _ _)).
  - now rewrite Q.
  - rewrite E2, E3, !Rplus_0_r. symmetry. apply rn_id. apply V_fmt.
  - rewrite E2, E3, !Rplus_0_r. symmetry. apply rn_0.
Qed.
Lemma q_u64_core x y : (0 <= x < 2 ^ 32)%Z -> (0 <= y < 2 ^ 32)%Z ->
  QIs2 (mkQ4 (renorm4 (fmul (fofZ x) (fpowi f2 32)) (fofZ y) f0 f0)) (IZR (x * 2 ^ 32 + y)).
Proof.
  intros Hx Hy. assert (X := FV_int_mul x _ 32 Hx ltac:(lia) FV_p32). assert (Y := FV_int y Hy).
  assert (E' : IZR x * bp 32 = IZR (x * 2 ^ 32)) by (rewrite mult_IZR, <- bp_IZR by lia; ring).
  assert (B : bp 64 <= bp 1018) by (apply bpow_le; lia).
  rewrite E' in X. unfold QIs2. rewrite plus_IZR. apply renorm4_two; auto.
  - apply Rle_trans with (2 := B). apply Rabs_int; lia.
  - apply Rle_trans with (2 := B). apply Rabs_int; lia.
  - destruct (Z.eq_dec x 0) as [->|N]; [right; reflexivity|left].
    rewrite !Rabs_pos_eq by (apply IZR_le; lia). apply IZR_le. lia.
Qed.
Lemma q_from_u64_is a : (0 <= a < 2 ^ 64)%Z -> QIs2 (q_from_u64 a) (IZR a).
Proof.
  intros H. assert (K := split_u64_ok a H). unfold q_from_u64. destruct (split_u64 a) as [x y]. destruct K as [Hx [Hy E]].
  rewrite E. now apply q_u64_core.
Qed.
Lemma QIs2_neg x z : QIs2 x z -> QIs2 (q_neg x) (- z).
Proof.
  intros [A [B [C D]]]. unfold QIs2. rewrite rn_opp. apply FV_neg in A, B, C, D. rewrite Ropp_0 in C, D.
  apply QFV_mk; auto. eapply FV_eq; eauto. ring.
Qed.
Lemma q_from_i64_is a : (i64_min <= a <= i64_max)%Z -> QIs2 (q_from_i64 a) (IZR a).
Proof.
  unfold i64_min, i64_max. intros H. unfold q_from_i64.
  set (b := if (a =? i64_min)%Z then (i64_max + 1)%Z else Z.abs a).
  assert (Eb : b = Z.abs a) by (unfold b, i64_min, i64_max; destruct (Z.eqb_spec a (-9223372036854775808)) as [->|]; reflexivity).
  assert (K := split_u64_ok b ltac:(rewrite Eb; lia)). destruct (split_u64 b) as [x y]. destruct K as [Hx [Hy E]].
  assert (D := q_u64_core x y Hx Hy). rewrite <- E, Eb in D.
  destruct (Z.eqb_spec (Z.sgn a) (-1)) as [S|S].
  - apply QIs2_neg in D. replace (IZR a) with (- IZR (Z.abs a)); [exact D|]. rewrite <- opp_IZR. f_equal. lia.
  - replace a with (Z.abs a) at 1 by lia. exact D.
Qed.
Lemma q_from_small_is a : (Z.abs a <= 2 ^ 53)%Z -> QIs2 (q_from_small a) (IZR a).
Proof.
  intros H. destruct (fofZ_exact a H) as [F E].
  assert (R : rn (IZR a) = IZR a) by (rewrite <- E; apply rn_id, V_fmt).
  unfold QIs2. rewrite R, Rminus_diag_eq by reflexivity. apply QFV_mk; [now split|apply FV_0..].
Qed.

(** *** exactness of [renorm4] *)
Lemma mult2_ge k x : mult2 k x -> x <> 0 -> bp k <= Rabs x.
Proof.
  intros [n ->] N. rewrite Rabs_mult, (Rabs_pos_eq (bp k)) by apply bpow_ge_0.
  assert (n <> 0%Z) by (intros ->; apply N; ring). rewrite <- abs_IZR.
  assert (1 <= IZR (Z.abs n)) by (apply IZR_le; lia). assert (0 < bp k) by apply bpow_gt_0. nra.
Qed.
Lemma dom k x s : mult2 k x -> Rabs s <= bp k -> Rabs s <= Rabs x \/ x = 0.
Proof. intros M H. destruct (Req_dec x 0) as [E|E]; auto. left. apply (mult2_ge k) in M; auto. lra. Qed.
Lemma rn_B x k : (-1074 <= k)%Z -> Rabs x <= bp k -> Rabs (rn x) <= bp k.
Proof. intros Hk H. apply rn_abs_le; auto. now apply fmt_bpow. Qed.
Lemma sum_B x y k : (-1074 <= k)%Z -> Rabs x <= bp k -> Rabs y <= bp k ->
  Rabs (rn (x + y)) <= bp (k + 1) /\ Rabs (x + y - rn (x + y)) <= bp (k + 2).
Proof.
  intros Hk Hx Hy. assert (B : Rabs (x + y) <= bp (k + 1)).
  { rewrite bp_S. assert (T := Rabs_triang x y). lra. }
  assert (B' := rn_B _ (k + 1) ltac:(lia) B). split; auto.
  replace (k + 2)%Z with (k + 1 + 1)%Z by ring. rewrite (bp_S (k + 1)).
  assert (T := Rabs_triang (x + y) (- rn (x + y))). rewrite Rabs_Ropp in T. unfold Rminus. lra.
Qed.
Lemma Rabs_bp_up x k l : (k <= l)%Z -> Rabs x <= bp k -> Rabs x <= bp l.
Proof. intros H K. apply Rle_trans with (1 := K). now apply bpow_le. Qed.

(** how [renorm4] chooses its components; h, g, n: ever finer approximations of the sum *)
Definition R4form (h g n x0 x1 x2 x3 : R) : Prop :=
  (h <> rn h /\ x0 = rn h \/ h = rn h /\ g <> rn g /\ x0 = rn g \/ h = rn h /\ g = rn g /\ x0 = rn n) /\
  (h <> rn h /\ g - x0 <> rn (g - x0) /\ x1 = rn (g - x0) \/ (h = rn h \/ g - x0 = rn (g - x0)) /\ x1 = rn (n - x0)) /\
  x2 = rn (n - x0 - x1) /\ x3 = n - x0 - x1 - x2.
Section R4.
Variables (a b c d : f64) (A B C D : R) (k2 k3 : Z).
Hypotheses (HA : FV a A) (HB : FV b B) (HC : FV c C) (HD : FV d D).
Hypotheses (BA : Rabs A <= bp 1000) (BB : Rabs B <= bp 1000) (BC : Rabs C <= bp 1000) (BD : Rabs D <= bp 1000).
Let t3 := rn (C + D).
Let s3 := C + D - t3.
Let t2 := rn (B + t3).
Let s2 := B + t3 - t2.
Hypotheses (Q3 : Rabs D <= Rabs C \/ C = 0) (Q2 : Rabs t3 <= Rabs B \/ B = 0) (Q1 : Rabs t2 <= Rabs A \/ A = 0).
Hypotheses (Hk2 : (-1074 <= k2)%Z) (Hk3 : (-1074 <= k3)%Z).
Hypotheses (M2A : mult2 k2 A) (M2t : mult2 k2 t2) (S2 : Rabs s2 <= bp k2).
Hypotheses (M3A : mult2 k3 A) (M3B : mult2 k3 B) (M3t : mult2 k3 t3) (S3 : Rabs s3 <= bp k3).
Lemma renorm4_form : exists x0 x1 x2 x3,
  QFV (mkQ4 (renorm4 a b c d)) x0 x1 x2 x3 /\ R4form (A + t2) (A + B + t3) (A + B + C + D) x0 x1 x2 x3.
Proof.
  destruct (sum_B C D 1000 ltac:(lia) BC BD) as [T3 E3]. fold t3 in T3, E3. fold s3 in E3.
  destruct (sum_B B t3 1001 ltac:(lia) ltac:(eapply Rabs_bp_up; [|exact BB]; lia) T3) as [T2 E2]. fold t2 in T2, E2. fold s2 in E2.
  unfold renorm4.
  assert (P1 := quick_FV' c d C D HC HD ltac:(eapply Rabs_bp_up; [|exact BC]; lia) ltac:(eapply Rabs_bp_up; [|exact BD]; lia) Q3).
  fold t3 in P1. fold s3 in P1.
  destruct (quick_two_sum c d) as [x1 e3]. destruct P1 as [P1a P1b]. cbn [fst snd] in *.
  assert (P2 := quick_FV' b x1 B t3 HB P1a ltac:(eapply Rabs_bp_up; [|exact BB]; lia) ltac:(eapply Rabs_bp_up; [|exact T3]; lia) Q2).
  fold t2 in P2. fold s2 in P2.
  destruct (quick_two_sum b x1) as [x2 e2]. destruct P2 as [P2a P2b]. cbn [fst snd] in *.
  destruct (sum_B A t2 1002 ltac:(lia) ltac:(eapply Rabs_bp_up; [|exact BA]; lia) T2) as [T0 E1].
  assert (P3 := quick_FV' a x2 A t2 HA P2a ltac:(eapply Rabs_bp_up; [|exact BA]; lia) ltac:(eapply Rabs_bp_up; [|exact T2]; lia) Q1).
  assert (M20 : mult2 k2 (rn (A + t2))) by (apply mult2_rn; auto; now apply mult2_plus).
  assert (M21 : mult2 k2 (A + t2 - rn (A + t2))) by (apply mult2_minus; auto; now apply mult2_plus).
  assert (M3t2 : mult2 k3 t2) by (apply mult2_rn; auto; now apply mult2_plus).
  assert (M3s2 : mult2 k3 s2) by (apply mult2_minus; auto; now apply mult2_plus).
  assert (M30 : mult2 k3 (rn (A + t2))) by (apply mult2_rn; auto; now apply mult2_plus).
  assert (M31 : mult2 k3 (A + t2 - rn (A + t2))) by (apply mult2_minus; auto; now apply mult2_plus).
  assert (V3 : A + B + C + D = A + t2 + s2 + s3) by (unfold s2, s3; ring).
  assert (V4 : A + B + t3 = A + t2 + s2) by (unfold s2; ring).
  rewrite V3, V4. clear V3 V4. clearbody t2 s2 s3 t3.
  set (h := A + t2) in *.
  set (r0 := rn h) in *. set (r1 := h - r0) in *. assert (V2 : h = r0 + r1) by (unfold r1; ring).
  assert (Hr0 : r0 = rn h) by reflexivity. clearbody r0 r1 h.
  destruct (quick_two_sum a x2) as [y0 y1]. destruct P3 as [P3a P3b]. cbn [fst snd] in *.
  assert (fx : forall p x, FV p x -> x = rn x) by (intros p x [? <-]; symmetry; apply rn_id, V_fmt).
  destruct (Req_dec r1 0) as [Z1|Z1].
  - rewrite Z1 in P3b. rewrite (FV_fne0_0 _ P3b).
    destruct (sum_B r0 s2 1004 ltac:(lia) ltac:(eapply Rabs_bp_up; [|exact T0]; lia) ltac:(eapply Rabs_bp_up; [|exact E2]; lia)) as [U0 U1].
    assert (P4 := quick_FV' y0 e2 r0 s2 P3a P2b ltac:(eapply Rabs_bp_up; [|exact T0]; lia) ltac:(eapply Rabs_bp_up; [|exact E2]; lia) (dom k2 _ _ M20 S2)).
    assert (M40 : mult2 k3 (rn (r0 + s2))) by (apply mult2_rn; auto; now apply mult2_plus).
    assert (M41 : mult2 k3 (r0 + s2 - rn (r0 + s2))) by (apply mult2_minus; auto; now apply mult2_plus).
    set (v0 := rn (r0 + s2)) in *. set (v1 := r0 + s2 - v0) in *. assert (V5 : r0 + s2 = v0 + v1) by (unfold v1; ring). assert (Hv : v0 = rn (r0 + s2)) by reflexivity. clearbody v0 v1.
    destruct (quick_two_sum y0 e2) as [z0 z1]. destruct P4 as [P4a P4b]. cbn [fst snd] in *.
    destruct (Req_dec v1 0) as [Z2|Z2].
    + rewrite Z2 in P4b. rewrite (FV_fne0_0 _ P4b).
      assert (P5 := quick_FV' z0 e3 v0 s3 P4a P1b ltac:(eapply Rabs_bp_up; [|exact U0]; lia) ltac:(eapply Rabs_bp_up; [|exact E3]; lia) (dom k3 _ _ M40 S3)).
      destruct (quick_two_sum z0 e3) as [w0 w1]. destruct P5 as [P5a P5b]. cbn [fst snd] in *.
      eexists _, _, _, _. split; [apply QFV_mk; [exact P5a|exact P5b|apply FV_0|apply FV_0]|].
      assert (X1 := fx _ _ P5b). assert (X0 := fx _ _ P4a). assert (X : h = rn h) by lra.
      unfold R4form. replace (h + s2 + s3) with (v0 + s3) by lra. replace (h + s2) with v0 by lra.
      split; [|split; [|split]]; auto; try lra.
      replace (v0 + s3 - rn (v0 + s3) - (v0 + s3 - rn (v0 + s3))) with 0 by ring. now rewrite rn_0.
    + rewrite (FV_fne0 _ _ P4b Z2).
      assert (P5 := quick_FV' z1 e3 v1 s3 P4b P1b ltac:(eapply Rabs_bp_up; [|exact U1]; lia) ltac:(eapply Rabs_bp_up; [|exact E3]; lia) (dom k3 _ _ M41 S3)).
      destruct (quick_two_sum z1 e3) as [w0 w1]. destruct P5 as [P5a P5b]. cbn [fst snd] in *.
      eexists _, _, _, _. split; [apply QFV_mk; [exact P4a|exact P5a|exact P5b|apply FV_0]|].
      assert (X1 := fx _ _ P5b). assert (X : h = rn h) by lra.
      unfold R4form. replace (h + s2 + s3 - v0) with (v1 + s3) by lra. replace (h + s2) with (r0 + s2) by lra. rewrite <- Hv.
      split; [|split; [|split]]; auto; try lra.
      all: right; left; repeat split; auto; lra.
  - rewrite (FV_fne0 _ _ P3b Z1).
    destruct (sum_B r1 s2 1004 ltac:(lia) ltac:(eapply Rabs_bp_up; [|exact E1]; lia) ltac:(eapply Rabs_bp_up; [|exact E2]; lia)) as [U0 U1].
    assert (P4 := quick_FV' y1 e2 r1 s2 P3b P2b ltac:(eapply Rabs_bp_up; [|exact E1]; lia) ltac:(eapply Rabs_bp_up; [|exact E2]; lia) (dom k2 _ _ M21 S2)).
    assert (M40 : mult2 k3 (rn (r1 + s2))) by (apply mult2_rn; auto; now apply mult2_plus).
    assert (M41 : mult2 k3 (r1 + s2 - rn (r1 + s2))) by (apply mult2_minus; auto; now apply mult2_plus).
    set (v0 := rn (r1 + s2)) in *. set (v1 := r1 + s2 - v0) in *. assert (V5 : r1 + s2 = v0 + v1) by (unfold v1; ring). assert (Hv : v0 = rn (r1 + s2)) by reflexivity. clearbody v0 v1.
    destruct (quick_two_sum y1 e2) as [z0 z1]. destruct P4 as [P4a P4b]. cbn [fst snd] in *.
    destruct (Req_dec v1 0) as [Z2|Z2].
    + rewrite Z2 in P4b. rewrite (FV_fne0_0 _ P4b).
      assert (P5 := quick_FV' z0 e3 v0 s3 P4a P1b ltac:(eapply Rabs_bp_up; [|exact U0]; lia) ltac:(eapply Rabs_bp_up; [|exact E3]; lia) (dom k3 _ _ M40 S3)).
      destruct (quick_two_sum z0 e3) as [w0 w1]. destruct P5 as [P5a P5b]. cbn [fst snd] in *.
      eexists _, _, _, _. split; [apply QFV_mk; [exact P3a|exact P5a|exact P5b|apply FV_0]|].
      assert (X1 := fx _ _ P5b). assert (X : h <> rn h) by lra. assert (X0 := fx _ _ P4a).
      unfold R4form. replace (h + s2 + s3 - r0) with (v0 + s3) by lra. replace (h + s2 - r0) with v0 by lra.
      split; [|split; [|split]]; auto; try lra.
    + rewrite (FV_fne0 _ _ P4b Z2).
      assert (P5 := quick_FV' z1 e3 v1 s3 P4b P1b ltac:(eapply Rabs_bp_up; [|exact U1]; lia) ltac:(eapply Rabs_bp_up; [|exact E3]; lia) (dom k3 _ _ M41 S3)).
      destruct (quick_two_sum z1 e3) as [w0 w1]. destruct P5 as [P5a P5b]. cbn [fst snd] in *.
      eexists _, _, _, _. split; [apply QFV_mk; [exact P3a|exact P4a|exact P5a|exact P5b]|].
      assert (X : h <> rn h) by lra.
      unfold R4form. replace (h + s2 + s3 - r0 - v0) with (v1 + s3) by lra. replace (h + s2 - r0) with (r1 + s2) by lra. rewrite <- Hv.
      split; [|split; [|split]]; auto; try lra.
      all: left; repeat split; auto; lra.
Qed.
Lemma renorm4_exact : QFin (mkQ4 (renorm4 a b c d)) /\ QV (mkQ4 (renorm4 a b c d)) = A + B + C + D.
Proof.
  destruct renorm4_form as [x0 [x1 [x2 [x3 [[[F0 E0] [[F1 E1] [[F2 E2] [F3 E3]]]] [_ [_ [_ E]]]]]]]].
  split; [now repeat split|]. unfold QV. rewrite E0, E1, E2, E3, E. ring.
Qed.
End R4.

Lemma split_u128_ok a : (0 <= a < 2 ^ 128)%Z ->
  let '(w, x, y, z) := split_u128 a in
  (0 <= w < 2 ^ 32)%Z /\ (0 <= x < 2 ^ 32)%Z /\ (0 <= y < 2 ^ 32)%Z /\ (0 <= z < 2 ^ 32)%Z /\
  (a = w * 2 ^ 96 + x * 2 ^ 64 + y * 2 ^ 32 + z)%Z.
Proof.
  intros H. unfold split_u128.
  assert (P : (2 ^ 32 <> 0)%Z) by lia.
  assert (M : forall n, (0 <= n mod 2 ^ 32 < 2 ^ 32)%Z) by (intros; apply Z.mod_pos_bound; lia).
  repeat split; try apply M.
  assert (D1 := Z.div_mod a (2 ^ 32) P).
  assert (D2 := Z.div_mod (a / 2 ^ 32) (2 ^ 32) P). rewrite Z.div_div in D2 by lia.
  assert (D3 := Z.div_mod (a / (2 ^ 32 * 2 ^ 32)) (2 ^ 32) P). rewrite Z.div_div in D3 by lia.
  change (2 ^ 32 * 2 ^ 32)%Z with (2 ^ 64)%Z in *. change (2 ^ 64 * 2 ^ 32)%Z with (2 ^ 96)%Z in *.
  assert (Q : (a / 2 ^ 96 < 2 ^ 32)%Z) by (apply Z.div_lt_upper_bound; lia).
  assert (Q0 : (0 <= a / 2 ^ 96)%Z) by (apply Z.div_pos; lia).
  rewrite (Z.mod_small (a / 2 ^ 96)) by lia. lia.
Qed.
(** rounding error of a nonnegative bounded number, in units of its own last place *)
Lemma unit_err x m : (-1000 <= m)%Z -> Rabs x <= bp m ->
  exists k, (-1074 <= k)%Z /\ (k <= Z.max (m - 52) (-1074))%Z /\ mult2 k (rn x) /\ Rabs (x - rn x) <= bp k.
Proof.
  intros Hm H.
  assert (K := error_le_half_ulp_round radix2 fexp64 (fun x => negb (Z.even x)) x).
  change (round radix2 _ _ _) with (rn x) in K. 
  replace (x - rn x) with (- (rn x - x)) by ring. rewrite Rabs_Ropp.
  destruct (Req_dec (rn x) 0) as [E|E].
  - exists (-1074)%Z. rewrite E in *. rewrite ulp_FLT_0 in K by easy.
    refine (conj _ (conj _ (conj (mult2_0 _) _))); try lia. assert (0 < bp (-1074)) by apply bpow_gt_0. lra.
  - exists (cexp radix2 fexp64 (rn x)).
    assert (L : (-1074 <= cexp radix2 fexp64 (rn x))%Z) by (rewrite cexp64; lia).
    refine (conj L (conj _ (conj (mult2_cexp _ (rn_fmt x)) _))).
    + rewrite cexp64. assert (K' := rn_B x m ltac:(lia) H).
      assert (mag radix2 (rn x) <= m + 1)%Z; [|lia]. apply mag_le_bpow; auto. apply Rle_lt_trans with (1 := K'). apply bpow_lt. lia.
    + rewrite ulp_neq_0 in K by easy. assert (0 < bp (cexp radix2 fexp64 (rn x))) by apply bpow_gt_0. lra.
Qed.

Lemma q_u128_form w x y z : (0 <= w < 2 ^ 32)%Z -> (0 <= x < 2 ^ 32)%Z -> (0 <= y < 2 ^ 32)%Z -> (0 <= z < 2 ^ 32)%Z ->
  let r := mkQ4 (renorm4 (fmul (fofZ w) (fpowi f2 96)) (fmul (fofZ x) (fpowi f2 64)) (fmul (fofZ y) (fpowi f2 32)) (fofZ z)) in
  let A := IZR w * bp 96 in let B := IZR x * bp 64 in let n3 := IZR y * bp 32 + IZR z in
  exists x0 x1 x2 x3, QFV r x0 x1 x2 x3 /\ R4form (A + rn (B + rn n3)) (A + B + rn n3) (A + B + n3) x0 x1 x2 x3.
Proof.
  intros Hw Hx Hy Hz r A0 B0 n3. unfold A0, B0, n3.
  assert (W := FV_int_mul w _ 96 Hw ltac:(lia) FV_p96). assert (X := FV_int_mul x _ 64 Hx ltac:(lia) FV_p64).
  assert (Y := FV_int_mul y _ 32 Hy ltac:(lia) FV_p32). assert (Z := FV_int z Hz).
  assert (E : forall n k, (0 <= k)%Z -> IZR n * bp k = IZR (n * 2 ^ k)) by (intros n k Hk; rewrite mult_IZR, <- bp_IZR by lia; ring).
  assert (MW : mult2 96 (IZR w * bp 96)) by now exists w. assert (MX : mult2 64 (IZR x * bp 64)) by now exists x.
  assert (T3 : Rabs (IZR y * bp 32 + IZR z) <= bp 64).
  { rewrite E by lia. rewrite <- plus_IZR. apply Rabs_int; lia. }
  destruct (unit_err _ 64 ltac:(lia) T3) as [k3 [L3 [U3 [M3 S3]]]].
  assert (T3' := rn_B _ 64 ltac:(lia) T3).
  assert (P3 : 0 <= rn (IZR y * bp 32 + IZR z)).
  { apply rn_ge_0. rewrite E by lia. rewrite <- plus_IZR. apply IZR_le. lia. }
  set (t3 := rn (IZR y * bp 32 + IZR z)) in *.
  assert (T2 : Rabs (IZR x * bp 64 + t3) <= bp 96).
  { rewrite E by lia. assert (IZR (x * 2 ^ 64) <= IZR ((2 ^ 32 - 1) * 2 ^ 64)) by (apply IZR_le; nia).
    assert (0 <= IZR (x * 2 ^ 64)) by (apply IZR_le; nia).
    rewrite Rabs_pos_eq in T3' by easy. rewrite Rabs_pos_eq by lra.
    replace (bp 96) with (IZR ((2 ^ 32 - 1) * 2 ^ 64) + bp 64). lra. rewrite !bp_IZR by lia. rewrite <- plus_IZR. f_equal. }
  destruct (unit_err _ 96 ltac:(lia) T2) as [k2 [L2 [U2 [M2 S2]]]].
  assert (T2' := rn_B _ 96 ltac:(lia) T2).
  assert (DW : Rabs (rn (IZR x * bp 64 + t3)) <= Rabs (IZR w * bp 96) \/ IZR w * bp 96 = 0).
  { destruct (Req_dec (IZR w * bp 96) 0) as [Q|Q]; auto. left. apply Rle_trans with (1 := T2'). now apply mult2_ge. }
  assert (DX : Rabs t3 <= Rabs (IZR x * bp 64) \/ IZR x * bp 64 = 0).
  { destruct (Req_dec (IZR x * bp 64) 0) as [Q|Q]; auto. left. apply Rle_trans with (1 := T3'). now apply mult2_ge. }
  assert (DY : Rabs (IZR z) <= Rabs (IZR y * bp 32) \/ IZR y * bp 32 = 0).
  { destruct (Req_dec (IZR y * bp 32) 0) as [Q|Q]; auto. left. apply Rle_trans with (bp 32). apply Rabs_int; lia.
    apply mult2_ge; auto. now exists y. }
  replace (IZR w * bp 96 + IZR x * bp 64 + (IZR y * bp 32 + IZR z)) with (IZR w * bp 96 + IZR x * bp 64 + IZR y * bp 32 + IZR z) by ring.
  apply (renorm4_form _ _ _ _ _ _ _ _ k2 k3 W X Y Z); auto; fold t3; auto.
  - rewrite E by lia. apply Rabs_bp_up with 128%Z; [lia|]. apply Rabs_int; lia.
  - rewrite E by lia. apply Rabs_bp_up with 96%Z; [lia|]. apply Rabs_int; lia.
  - rewrite E by lia. apply Rabs_bp_up with 64%Z; [lia|]. apply Rabs_int; lia.
  - apply Rabs_bp_up with 32%Z; [lia|]. apply Rabs_int; lia.
  - apply mult2_le with 96%Z; auto. lia.
  - apply mult2_le with 96%Z; auto. lia.
  - apply mult2_le with 64%Z; auto. lia.
Qed.
Lemma q_u128_core w x y z : (0 <= w < 2 ^ 32)%Z -> (0 <= x < 2 ^ 32)%Z -> (0 <= y < 2 ^ 32)%Z -> (0 <= z < 2 ^ 32)%Z ->
  let r := mkQ4 (renorm4 (fmul (fofZ w) (fpowi f2 96)) (fmul (fofZ x) (fpowi f2 64)) (fmul (fofZ y) (fpowi f2 32)) (fofZ z)) in
  QFin r /\ QV r = IZR (w * 2 ^ 96 + x * 2 ^ 64 + y * 2 ^ 32 + z).
Proof.
  intros Hw Hx Hy Hz r. destruct (q_u128_form w x y z Hw Hx Hy Hz) as [x0 [x1 [x2 [x3 [[[F0 E0] [[F1 E1] [[F2 E2] [F3 E3]]]] [_ [_ [_ E]]]]]]]].
  split; [now repeat split|]. unfold QV, r. rewrite E0, E1, E2, E3, E, !plus_IZR, !mult_IZR, !bp_IZR by lia. ring.
Qed.
Lemma q_from_u128_ok a : (0 <= a < 2 ^ 128)%Z -> QFin (q_from_u128 a) /\ QV (q_from_u128 a) = IZR a.
Proof.
  intros H. assert (K := split_u128_ok a H). unfold q_from_u128. destruct (split_u128 a) as [[[w x] y] z].
  destruct K as [Hw [Hx [Hy [Hz E]]]]. rewrite E. now apply q_u128_core.
Qed.
Lemma q_from_i128_ok a : (i128_min <= a <= i128_max)%Z -> QFin (q_from_i128 a) /\ QV (q_from_i128 a) = IZR a.
Proof.
  intros H. unfold q_from_i128. 
  set (b := if (a =? i128_min)%Z then (i128_max + 1)%Z else Z.abs a).
  assert (Eb : b = Z.abs a) by (unfold b; destruct (Z.eqb_spec a i128_min) as [->|]; reflexivity).
  assert (K := split_u128_ok b ltac:(rewrite Eb; unfold i128_min, i128_max in H; lia)). destruct (split_u128 b) as [[[w x] y] z].
  destruct K as [Hw [Hx [Hy [Hz E]]]].
  assert (D := q_u128_core w x y z Hw Hx Hy Hz). cbn zeta in D. rewrite <- E, Eb in D. destruct D as [D1 D2].
  set (r := mkQ4 _) in *.
  destruct (Z.eqb_spec (Z.sgn a) (-1)) as [S|S].
  - split. unfold QFin, q_neg in *. cbn [q0 q1 q2 q3]. rewrite !Fin_fneg. exact D1.
    rewrite (proj1 (q_neg_val r)), D2, <- opp_IZR. f_equal. lia.
  - split; auto. rewrite D2. f_equal. lia.
Qed.
