(** * Accuracy of the Quad hyperbolic sine near 0 (the Taylor loop), sinh_cosh and tanh *)
From Coq Require Import ZArith Reals List Bool Lia Lra.
From Flocq Require Import Core IEEE754.BinarySingleNaN.
From Verif Require Import RN F64 F64Facts DAddProofs DMulProofs Prim DoubleM QuadM AlgM ConstM TransM ParseM FromProofs ConstProofs ConstMore Spec AbsOps QuadSpec QAccThms QGeoAcc QGeoMul ExpThms HypProofs HypThms HypMore QExprSpec QExprProofs QLoose QLOps QLDiv QLSqrt QLSq QParse QExpProofs QExpThms QLnThms QLogThms QHypThms.
Import ListNotations.
Local Open Scope R_scope.

Notation uu := (u * u).
Definition qrel (e : R) (q : Quad) (T : R) : Prop := QL (4 * u) q /\ Rabs (QV q - T) <= e * Rabs T.
Lemma qrel_le e f q T : qrel e q T -> e <= f -> qrel f q T.
Proof. intros [A B] H. split; [exact A|]. assert (P := Rabs_pos T). assert (e * Rabs T <= f * Rabs T) by (apply Rmult_le_compat_r; lra). lra. Qed.
Lemma qrel_hi e q T : qrel e q T -> e <= / 1000 -> 9 / 10 * Rabs T <= Rabs (V (q0 q)) <= 11 / 10 * Rabs T /\ 99 / 100 * Rabs T <= Rabs (QV q) <= 101 / 100 * Rabs T.
Proof.
  intros [L E] H. assert (P := Rabs_pos T). assert (A := QL_abs (4 * u) q ltac:(lra) ltac:(lra) L). assert (K : e * Rabs T <= / 1000 * Rabs T) by (apply Rmult_le_compat_r; lra).
  assert (T1 := tri _ _ _ _ E (Rle_refl _)). assert (T2 := tri2 _ _ _ _ E (Rle_refl _)). assert (PV := Rabs_pos (V (q0 q))). lra.
Qed.
Lemma prod_err a b P Q e f : Rabs (a - P) <= e * Rabs P -> Rabs (b - Q) <= f * Rabs Q -> 0 <= e <= / 1000 -> 0 <= f <= / 1000 ->
  Rabs (a * b - P * Q) <= 1001 / 1000 * (e + f) * Rabs (P * Q).
Proof.
  intros A B He Hf. assert (PP := Rabs_pos P). assert (PQ := Rabs_pos Q). rewrite Rabs_mult. replace (a * b - P * Q) with ((a - P) * (b - Q) + ((a - P) * Q + P * (b - Q))) by ring.
  eapply Rle_trans; [apply Rabs_triang|]. eapply Rle_trans; [apply Rplus_le_compat_l, Rabs_triang|]. rewrite !Rabs_mult.
  assert (K1 : Rabs (a - P) * Rabs (b - Q) <= e * Rabs P * (f * Rabs Q)) by (apply Rmult_le_compat; auto using Rabs_pos).
  assert (K2 : Rabs (a - P) * Rabs Q <= e * Rabs P * Rabs Q) by (apply Rmult_le_compat_r; auto).
  assert (K3 : Rabs P * Rabs (b - Q) <= Rabs P * (f * Rabs Q)) by (apply Rmult_le_compat_l; auto).
  assert (W : 0 <= Rabs P * Rabs Q) by now apply Rmult_le_pos. set (w := Rabs P * Rabs Q) in *.
  replace (e * Rabs P * (f * Rabs Q)) with (e * f * w) in K1 by (unfold w; ring). replace (e * Rabs P * Rabs Q) with (e * w) in K2 by (unfold w; ring). replace (Rabs P * (f * Rabs Q)) with (f * w) in K3 by (unfold w; ring).
  assert (e * f <= / 1000 * f) by (apply Rmult_le_compat_r; lra). assert (e * f * w <= / 1000 * f * w) by (apply Rmult_le_compat_r; lra). assert (0 <= e * w) by (apply Rmult_le_pos; lra). lra.
Qed.
Lemma chain_err z x y c e : Rabs (z - x) <= c * Rabs x -> Rabs (x - y) <= e * Rabs y -> 0 <= e <= / 100 -> 0 <= c -> Rabs (z - y) <= (e + 101 / 100 * c) * Rabs y.
Proof.
  intros A B He Hc. assert (P := Rabs_pos y). assert (K := tri _ _ _ _ B (Rle_refl _)). assert (e * Rabs y <= / 100 * Rabs y) by (apply Rmult_le_compat_r; lra).
  assert (c * Rabs x <= c * (101 / 100 * Rabs y)) by (apply Rmult_le_compat_l; lra). replace (z - y) with ((z - x) + (x - y)) by ring. eapply Rle_trans; [apply Rabs_triang|]. lra.
Qed.
Lemma B_small : bp (-590) <= / 1000000 /\ 2 <= bp 89 /\ bp 90 = 2 * bp 89 /\ bp (-299) = 2 * bp (-300) /\ bp 89 <= bp 299 /\ bp 300 = 2 * bp 299 /\ bp 300 <= bp 490 /\ 0 < bp (-600) /\ bp (-590) = 1024 * bp (-600).
Proof.
  split; [apply Rle_trans with (bp (-20)); [apply bpow_le; lia|change (bp (-20)) with (/ 1048576); lra]|]. split; [change 2 with (bp 1); apply bpow_le; lia|].
  split; [exact (bp_split 89 1 ltac:(lia))|]. split; [exact (bp_split (-300) 1 ltac:(lia))|]. split; [apply bpow_le; lia|]. split; [exact (bp_split 299 1 ltac:(lia))|]. split; [apply bpow_le; lia|]. split; [apply bpow_gt_0|]. exact (bp_split (-600) 10 ltac:(lia)).
Qed.
Lemma qrel_mul e f x y P Q : qrel e x P -> qrel f y Q -> 0 <= e <= / 1000 -> 0 <= f <= / 1000 -> Rabs P <= bp 299 -> Rabs Q <= bp 299 -> bp (-590) <= Rabs (P * Q) ->
  qrel (1001 / 1000 * (e + f) + 5300 * uu) (q_mul x y) (P * Q).
Proof.
  intros Rx Ry He Hf BP BQ L. destruct (qrel_hi _ _ _ Rx ltac:(lra)) as [Hx _]. destruct (qrel_hi _ _ _ Ry ltac:(lra)) as [Hy _]. destruct Rx as [Lx Ex]. destruct Ry as [Ly Ey].
  destruct B_small as (_ & _ & _ & _ & _ & B3 & B4 & B6 & B5). rewrite Rabs_mult in L. assert (PP := Rabs_pos P). assert (PQ := Rabs_pos Q).
  assert (LO : bp (-600) <= Rabs (V (q0 x)) * Rabs (V (q0 y))). { apply Rle_trans with (9 / 10 * Rabs P * (9 / 10 * Rabs Q)); [lra|]. apply Rmult_le_compat; lra. }
  destruct (q_mul_L (4 * u) x y ltac:(lra) ltac:(lra) Lx Ly ltac:(lra) ltac:(lra) LO) as [LM EM]. split; [exact LM|].
  assert (K := prod_err _ _ _ _ _ _ Ex Ey He Hf). apply Rle_trans with (1 := chain_err _ _ _ _ _ EM K ltac:(lra) ltac:(lra)). apply Rmult_le_compat_r; [apply Rabs_pos|]. lra.
Qed.
Lemma inv_err b Q f : Rabs (b - Q) <= f * Rabs Q -> Q <> 0 -> 0 <= f <= / 1000 -> b <> 0 /\ Rabs (/ b - / Q) <= 1002 / 1000 * f * Rabs (/ Q).
Proof.
  intros B NQ Hf. assert (PQ : 0 < Rabs Q) by now apply Rabs_pos_lt. assert (fq : f * Rabs Q <= / 1000 * Rabs Q) by (apply Rmult_le_compat_r; lra).
  assert (T := tri2 _ _ _ _ B (Rle_refl _)). assert (PB : 0 < Rabs b) by lra. assert (Nb : b <> 0) by (intros ->; rewrite Rabs_R0 in PB; lra). split; [exact Nb|].
  replace (/ b - / Q) with (- (b - Q) * / b * / Q) by (field; auto). rewrite !Rabs_mult, Rabs_Ropp. apply Rmult_le_compat_r; [apply Rabs_pos|]. rewrite Rabs_inv.
  apply Rmult_le_reg_r with (Rabs b); [exact PB|]. rewrite Rmult_assoc, Rinv_l, Rmult_1_r by lra. apply Rle_trans with (1 := B). rewrite (Rmult_comm (1002 / 1000)), !Rmult_assoc. apply Rmult_le_compat_l; lra.
Qed.
Lemma qrel_div e f x y P Q : qrel e x P -> qrel f y Q -> 0 <= e <= / 1000 -> 0 <= f <= / 2000 -> bp (-299) <= Rabs P <= bp 89 -> bp (-299) <= Rabs Q <= bp 299 ->
  qrel (1004 / 1000 * (e + f) + 17300 * uu) (q_div x y) (P / Q).
Proof.
  intros Rx Ry He Hf BP BQ. destruct (qrel_hi _ _ _ Rx ltac:(lra)) as [Hx _]. destruct (qrel_hi _ _ _ Ry ltac:(lra)) as [Hy _]. destruct Rx as [Lx Ex]. destruct Ry as [Ly Ey].
  destruct B_small as (_ & _ & B1 & B2 & B3 & B4 & _). assert (P3 := bpow_gt_0 radix2 (-300)).
  destruct (q_div_L (4 * u) x y ltac:(lra) ltac:(lra) Lx Ly ltac:(lra) ltac:(lra) ltac:(lra) ltac:(lra)) as [LQ EQ]. split; [exact LQ|].
  assert (NQ : Q <> 0) by (intros Z0; rewrite Z0, Rabs_R0 in BQ; lra). destruct (inv_err _ _ _ Ey NQ ltac:(lra)) as [_ EI].
  assert (K := prod_err _ _ _ _ _ _ Ex EI He ltac:(lra)). change (QV x * / QV y) with (QV x / QV y) in K. change (P * / Q) with (P / Q) in K.
  apply Rle_trans with (1 := chain_err _ _ _ _ _ EQ K ltac:(lra) ltac:(lra)). apply Rmult_le_compat_r; [apply Rabs_pos|]. lra.
Qed.

(** ** the loop *)
Lemma rnZ z : (Z.abs z <= 2 ^ 53)%Z -> rn (IZR z) = IZR z.
Proof. intros H. destruct (fofZ_exact z H) as [_ E]. rewrite <- E. apply rn_id, V_fmt. Qed.
Lemma int_step m z : (1 <= z <= 1000)%Z -> Fin m -> V m = IZR z ->
  Fin (fadd m f2) /\ V (fadd m f2) = IZR (z + 2) /\ Fin (fmul (fsub (fadd m f2) f1) (fadd m f2)) /\ V (fmul (fsub (fadd m f2) f1) (fadd m f2)) = IZR ((z + 1) * (z + 2)).
Proof.
  intros H F E. assert (BIG : IZR 100000000 < bp 1024) by (apply Rlt_le_trans with (bp 30); [change (bp 30) with (IZR (2 ^ 30)); apply IZR_lt; reflexivity|apply bpow_le; lia]).
  assert (AZ : forall a, (0 <= a < 100000000)%Z -> Rabs (rn (IZR a)) < bp 1024).
  { intros a Ha. rewrite rnZ by (change (2 ^ 53)%Z with 9007199254740992%Z; lia). rewrite Rabs_pos_eq by (apply IZR_le; lia). apply Rlt_trans with (2 := BIG). apply IZR_lt. lia. }
  assert (S1 : V m + V f2 = IZR (z + 2)) by (rewrite E, V_2, plus_IZR; reflexivity).
  destruct (fadd_ok m f2 F Fin_2) as (Fa & Va & _); [rewrite S1; apply AZ; lia|]. rewrite S1, rnZ in Va by (change (2 ^ 53)%Z with 9007199254740992%Z; lia).
  split; [exact Fa|]. split; [exact Va|]. assert (S2 : V (fadd m f2) - V f1 = IZR (z + 1)) by (rewrite Va, V_1, !plus_IZR; ring).
  destruct (fsub_ok (fadd m f2) f1 Fa Fin_1) as (Fs & Vs & _); [rewrite S2; apply AZ; lia|]. rewrite S2, rnZ in Vs by (change (2 ^ 53)%Z with 9007199254740992%Z; lia).
  assert (S3 : V (fsub (fadd m f2) f1) * V (fadd m f2) = IZR ((z + 1) * (z + 2))) by (rewrite Vs, Va, mult_IZR; reflexivity).
  destruct (fmul_ok _ _ Fs Fa) as (Fm & Vm & _); [rewrite S3; apply AZ; nia|]. rewrite S3, rnZ in Vm by (change (2 ^ 53)%Z with 9007199254740992%Z; nia). split; assumption.
Qed.

Section Loop.
Variables (lm : libm) (dbg : bool) (r thr : Quad) (X : R).
Hypothesis HX : bp (-28) <= Rabs X <= 51 / 1000.
Hypothesis Hr : qrel (2940 * uu) r (X * X).
Hypothesis Fthr : Fin (q0 thr).
Hypothesis Bthr : bp (-211) * Rabs X <= V (q0 thr) <= bp (-207) * Rabs X.

Lemma q_sinh_loop_ok n : forall k fuel m s t, (k + n = 20)%nat -> (n < fuel)%nat -> Fin m -> V m = IZR (2 * Z.of_nat k + 1) ->
  QL (18 * u) s -> Rabs (QV s - ssum X k) <= INR k * 12800 * uu * Rabs X ->
  qrel (28500 * INR k * uu) t (sterm X k) -> (k = 0%nat \/ bp (-212) * Rabs X <= Rabs (sterm X k)) ->
  exists v, q_sinh_loop fuel lm dbg m r thr s t = Val v /\ QL (18 * u) v /\ Rabs (QV v - sinh X) <= 260000 * uu * Rabs X.
Proof.
  assert (P28 := bpow_gt_0 radix2 (-28)). destruct HX as [LX UX].
  induction n as [|n IH]; intros k fuel m s t Hk Hf Fm Vm Ls Es Ht Lt.
  { exfalso. destruct Lt as [E|E]; [lia|]. replace k with 20%nat in E by lia. assert (K := sterm_pow X 20 UX). cbn [pow] in K.
    assert (B : bp (-212) = / IZR (2 ^ 212)) by reflexivity. assert (B2 : / 1000000000000000000000000000000000000000000000000000000000000000000 <= bp (-212)).
    { rewrite B. apply Rinv_le_contravar; [apply IZR_lt; reflexivity|]. apply IZR_le. vm_compute. discriminate. }
    assert (/ 1000000000000000000000000000000000000000000000000000000000000000000 * Rabs X <= bp (-212) * Rabs X) by (apply Rmult_le_compat_r; lra). lra. }
  destruct fuel as [|fuel]; [lia|]. cbn [q_sinh_loop]. cbv zeta.
  assert (KB : 0 <= INR k <= 19). { split; [apply pos_INR|]. replace 19 with (INR 19) by (cbn; lra). apply le_INR. lia. }
  destruct (int_step m (2 * Z.of_nat k + 1) ltac:(lia) Fm Vm) as (Fm' & Vm' & Fq & Vq). set (m' := fadd m f2) in *. set (qm := fmul (fsub m' f1) m') in *.
  assert (MM : ((2 * Z.of_nat k + 1 + 1) * (2 * Z.of_nat k + 1 + 2))%Z = Z.of_nat ((2 * k + 2) * (2 * k + 3))) by lia. rewrite MM in Vq. set (mm := Z.of_nat ((2 * k + 2) * (2 * k + 3))) in *.
  assert (MB : (6 <= mm <= 2000)%Z) by (unfold mm; nia). assert (MR : 6 <= IZR mm <= 2000) by (split; apply IZR_le; lia).
  rewrite (q_from_f64_int lm dbg qm Fq (ex_intro _ mm Vq)) by (rewrite Vq; lra). cbn [obind].
  destruct (single_geo qm Fq) as [GM EM]. rewrite Vq in EM. assert (Hm : qrel 0 (mkQ qm f0 f0 f0) (IZR mm)) by (split; [now apply QL_geo|rewrite EM, Rminus_diag_eq, Rabs_R0 by reflexivity; lra]).
  set (mq := mkQ qm f0 f0 f0) in *.
  assert (TB : Rabs (sterm X k) <= Rabs X). { apply Rle_trans with (1 := sterm_pow X k UX). rewrite <- (Rmult_1_l (Rabs X)) at 2. apply Rmult_le_compat_r; [apply Rabs_pos|]. replace 1 with (1 ^ k) by apply pow1. apply pow_incr. lra. }
  assert (B212 : bp (-212) <= / 1000) by (apply Rle_trans with (bp (-10)); [apply bpow_le; lia|change (bp (-10)) with (/ 1024); lra]).
  assert (TL : bp (-212) * Rabs X <= Rabs (sterm X k)). { destruct Lt as [->|E]; [rewrite sterm_0|exact E]. rewrite <- (Rmult_1_l (Rabs X)) at 2. apply Rmult_le_compat_r; lra. }
  assert (AX : Rabs (X * X) = Rabs X * Rabs X) by apply Rabs_mult.
  assert (X2L : bp (-56) <= Rabs (X * X)). { rewrite AX. replace (bp (-56)) with (bp (-28) * bp (-28)) by (rewrite <- bpow_plus; reflexivity). apply Rmult_le_compat; lra. }
  assert (X2U : Rabs (X * X) <= 1). { rewrite AX. replace 1 with (1 * 1) by ring. apply Rmult_le_compat; lra. }
  destruct B_small as (_ & C2 & _ & _ & C5 & _).
  assert (PL : bp (-296) <= Rabs (sterm X k * (X * X))).
  { rewrite Rabs_mult. replace (bp (-296)) with (bp (-212) * bp (-28) * bp (-56)) by (rewrite <- !bpow_plus; reflexivity). apply Rmult_le_compat; [apply Rmult_le_pos; apply bpow_ge_0|apply bpow_ge_0| |exact X2L].
    apply Rle_trans with (2 := TL). apply Rmult_le_compat_l; [apply bpow_ge_0|lra]. }
  assert (PU : Rabs (sterm X k * (X * X)) <= 1) by (rewrite Rabs_mult; replace 1 with (1 * 1) by ring; apply Rmult_le_compat; auto using Rabs_pos; lra).
  assert (B59 : bp (-590) <= bp (-296)) by (apply bpow_le; lia). assert (B29 : bp (-299) <= bp (-296)) by (apply bpow_le; lia).
  assert (D1 := qrel_mul _ _ _ _ _ _ Ht Hr ltac:(lra) ltac:(lra) ltac:(lra) ltac:(lra) ltac:(lra)). set (tr := q_mul t r) in *.
  assert (B29s : bp (-299) <= 1) by (change 1 with (bp 0); apply bpow_le; lia).
  assert (IU : IZR mm <= bp 299). { apply Rle_trans with (bp 11); [change (bp 11) with 2048; lra|apply bpow_le; lia]. }
  assert (MA : Rabs (IZR mm) = IZR mm) by (apply Rabs_pos_eq; lra).
  assert (D2 := qrel_div _ 0 tr mq _ _ D1 Hm ltac:(lra) ltac:(lra) ltac:(lra) ltac:(rewrite MA; lra)). set (t' := q_div tr mq) in *.
  unfold mm in D2. rewrite <- sterm_S in D2. fold mm in D2.
  assert (KS : INR (S k) = INR k + 1) by apply S_INR.
  assert (Ht' : qrel (28500 * INR (S k) * uu) t' (sterm X (S k))) by (apply qrel_le with (1 := D2); rewrite KS; lra). clear D1 D2.
  assert (TN := sterm_next X k UX). assert (PX := Rabs_pos X). assert (TNP := sterm_pow X (S k) UX).
  destruct (qrel_hi _ _ _ Ht' ltac:(rewrite KS; lra)) as [Hh' Hv']. destruct Ht' as [Lt' Et'].
  assert (R0 := sinh_rem X k UX). assert (R1 := sinh_rem X 0 UX). rewrite ssum_0, sterm_0 in R1.
  assert (SU : Rabs (ssum X k) <= 101 / 100 * Rabs X).
  { replace (ssum X k) with (- (sinh X - ssum X k) + (sinh X - X) + X) by ring. eapply Rle_trans; [apply Rabs_triang|]. eapply Rle_trans; [apply Rplus_le_compat_r, Rabs_triang|]. rewrite Rabs_Ropp. lra. }
  assert (SL : 99 / 100 * Rabs X <= Rabs (ssum X k)).
  { assert (D : Rabs (ssum X k - X) <= / 100 * Rabs X). { replace (ssum X k - X) with (- (sinh X - ssum X k) + (sinh X - X)) by ring. eapply Rle_trans; [apply Rabs_triang|]. rewrite Rabs_Ropp. lra. } assert (G := tri2 _ _ _ _ D (Rle_refl _)). lra. }
  assert (KV : INR k * 12800 * uu * Rabs X <= / 1000 * Rabs X) by (apply Rmult_le_compat_r; lra).
  assert (SB := tri _ _ _ _ Es (Rle_refl _)). assert (SB2 := tri2 _ _ _ _ Es (Rle_refl _)).
  assert (C9 : 2 <= bp 900) by (change 2 with (bp 1); apply bpow_le; lia). assert (As := QL_abs (18 * u) s ltac:(lra) ltac:(lra) Ls).
  assert (PT : 0 < Rabs X) by lra.
  (* the new partial sum *)
  assert (SM : QL (18 * u) t') by (apply QL_mono with (4 * u); [lra|exact Lt']).
  assert (T'U : Rabs (QV t') <= / 2000 * Rabs X) by lra.
  assert (CL : Rabs (QV s) <= 2 * Rabs (QV s + QV t')). { assert (G := Rabs_triang (QV s + QV t') (- QV t')). rewrite Rabs_Ropp in G. replace (QV s + QV t' + - QV t') with (QV s) in G by ring. lra. }
  assert (NSG : 0 < QV s * QV t').
  { assert (sg : 0 < X * sterm X (S k)). { unfold sterm. replace (2 * S k + 1)%nat with (S (2 * S k)) by lia. cbn [pow]. replace (X * (X * X ^ (2 * S k) / INR (fact (S (2 * S k))))) with (X * X * X ^ (2 * S k) * / INR (fact (S (2 * S k)))) by (unfold Rdiv; ring).
      apply Rmult_lt_0_compat; [|apply Rinv_0_lt_compat, INR_fact_lt_0]. rewrite pow_mult. assert (0 < X * X) by (rewrite <- (Rabs_pos_eq (X * X)) by apply Rle_0_sqr; rewrite AX; apply Rmult_lt_0_compat; lra).
      apply Rmult_lt_0_compat; [assumption|]. apply pow_lt. cbn [pow]. lra. }
    assert (E1 : Rabs (QV s - X) <= / 50 * Rabs X). { replace (QV s - X) with ((QV s - ssum X k) + (- (sinh X - ssum X k) + (sinh X - X))) by ring. eapply Rle_trans; [apply Rabs_triang|]. eapply Rle_trans; [apply Rplus_le_compat_l, Rabs_triang|]. rewrite Rabs_Ropp. lra. }
    assert (E2 : Rabs (QV t' - sterm X (S k)) <= / 50 * Rabs (sterm X (S k))) by (apply Rle_trans with (1 := Et'); apply Rmult_le_compat_r; [apply Rabs_pos|rewrite KS; lra]).
    assert (PP := prod_err _ _ _ _ _ _ E1 E2).
    replace (QV s * QV t') with ((QV s - X) * (QV t' - sterm X (S k)) + ((QV s - X) * sterm X (S k) + X * (QV t' - sterm X (S k))) + X * sterm X (S k)) by ring.
    set (w := X * sterm X (S k)) in *. assert (W : Rabs X * Rabs (sterm X (S k)) = w) by (rewrite <- Rabs_mult; apply Rabs_pos_eq; unfold w in *; lra).
    assert (Q1 : Rabs ((QV s - X) * (QV t' - sterm X (S k))) <= / 2500 * w). { rewrite Rabs_mult, <- W. replace (/ 2500 * (Rabs X * Rabs (sterm X (S k)))) with (/ 50 * Rabs X * (/ 50 * Rabs (sterm X (S k)))) by field. apply Rmult_le_compat; auto using Rabs_pos. }
    assert (Q2 : Rabs ((QV s - X) * sterm X (S k)) <= / 50 * w). { rewrite Rabs_mult, <- W, <- Rmult_assoc. apply Rmult_le_compat_r; auto using Rabs_pos. }
    assert (Q3 : Rabs (X * (QV t' - sterm X (S k))) <= / 50 * w). { rewrite Rabs_mult, <- W. replace (/ 50 * (Rabs X * Rabs (sterm X (S k)))) with (Rabs X * (/ 50 * Rabs (sterm X (S k)))) by ring. apply Rmult_le_compat_l; auto using Rabs_pos. }
    apply Rabs_def2' in Q1, Q2, Q3. lra. }
  destruct (q_add_L (18 * u) s t' ltac:(lra) ltac:(lra) Ls SM ltac:(lra) ltac:(lra) NSG) as [Ls' Es']. set (s' := q_add s t') in *.
  assert (AB : Rabs (QV s + QV t') <= 102 / 100 * Rabs X) by (eapply Rle_trans; [apply Rabs_triang|lra]).
  assert (ET : 28500 * INR (S k) * uu * Rabs (sterm X (S k)) <= 20 * 28500 * uu * (/ 2300 * Rabs X)). { apply Rmult_le_compat; [ | | |]. rewrite KS; lra. apply Rabs_pos. rewrite KS; lra. lra. }
  assert (EA : 680 * (u * (18 * u)) * Rabs (QV s + QV t') <= 12240 * uu * (102 / 100 * Rabs X)). { replace (680 * (u * (18 * u))) with (12240 * uu) by ring. apply Rmult_le_compat_l; lra. }
  assert (ES2 : Rabs (QV s' - ssum X (S k)) <= INR (S k) * 12800 * uu * Rabs X).
  { rewrite ssum_S, KS. set (kv := INR k * 12800 * uu * Rabs X) in *. replace ((INR k + 1) * 12800 * uu * Rabs X) with (kv + 12800 * uu * Rabs X) by (unfold kv; ring).
    replace (QV s' - (ssum X k + sterm X (S k))) with ((QV s' - (QV s + QV t')) + ((QV s - ssum X k) + (QV t' - sterm X (S k)))) by ring. eapply Rle_trans; [apply Rabs_triang|]. eapply Rle_trans; [apply Rplus_le_compat_l, Rabs_triang|].
    set (ux := uu * Rabs X) in *. replace (20 * 28500 * uu * (/ 2300 * Rabs X)) with (5700 / 23 * ux) in ET by (unfold ux; field). replace (12240 * uu * (102 / 100 * Rabs X)) with (62424 / 5 * ux) in EA by (unfold ux; field). replace (12800 * uu * Rabs X) with (12800 * ux) by (unfold ux; ring).
    assert (0 <= ux) by (unfold ux; apply Rmult_le_pos; lra). lra. }
  destruct (q_abs_hi t' (proj1 (proj1 Lt'))) as [Fa Va]. assert (CMPH := q_le_hi (q_abs t') thr Fa Fthr). rewrite Va in CMPH.
  assert (B207 : bp (-207) <= / 1000 * uu). { replace uu with (bp (-106)) by (rewrite <- u_bp, <- bpow_plus; reflexivity). assert (K : bp (-106) = 1024 * bp (-116)) by exact (bp_split (-116) 10 ltac:(lia)). assert (bp (-207) <= bp (-116)) by (apply bpow_le; lia). assert (G6 := bpow_gt_0 radix2 (-116)). lra. }
  assert (B7 : bp (-207) * Rabs X <= / 1000 * uu * Rabs X) by (apply Rmult_le_compat_r; lra).
  destruct (q_le (q_abs t') thr).
  - exists s'. split; [reflexivity|]. split; [exact Ls'|].
    assert (R0' := sinh_rem X (S k) UX). assert (INR (S k) * 12800 * uu * Rabs X <= 256000 * uu * Rabs X) by (apply Rmult_le_compat_r; [exact PX|rewrite KS; lra]).
    replace (QV s' - sinh X) with ((QV s' - ssum X (S k)) - (sinh X - ssum X (S k))) by ring. unfold Rminus at 1. eapply Rle_trans; [apply Rabs_triang|]. rewrite Rabs_Ropp. lra.
  - apply (IH (S k)); [lia|lia|exact Fm'| |exact Ls'|exact ES2|split; assumption|right].
    + rewrite Vm'. f_equal. lia.
    + assert (E : bp (-211) = 2 * bp (-212)) by exact (bp_split (-212) 1 ltac:(lia)). rewrite E in Bthr. lra.
Qed.
End Loop.

(** ** sinh near 0 *)
Lemma eps_geo : QL (4 * u) Q_EPSILON /\ 99 / 100 * bp (-209) <= QV Q_EPSILON <= 101 / 100 * bp (-209).
Proof.
  destruct q_epsilon_ok as [N K]. split; [apply QL_geoS, norm_geoS, N|]. assert (P := bpow_gt_0 radix2 (-209)).
  assert (K17 : bp (-217) <= / 1000) by (apply Rle_trans with (bp (-10)); [apply bpow_le; lia|change (bp (-10)) with (/ 1024); lra]).
  assert (K2 : bp (-217) * bp (-209) <= / 1000 * bp (-209)) by (apply Rmult_le_compat_r; lra). apply Rabs_def2' in K. lra.
Qed.
Lemma nz28 x : bp (-28) <= Rabs (QV x) -> QV x <> 0.
Proof. intros L E. rewrite E, Rabs_R0 in L. assert (P := bpow_gt_0 radix2 (-28)). lra. Qed.
Lemma q_sinh_small lm dbg x : QGeoS x -> bp (-28) <= Rabs (QV x) <= 502 / 10000 -> fgtb (q0 (q_abs x)) (dec 5 (-2)) = false ->
  exists v, q_sinh lm dbg x = Val v /\ QL (18 * u) v /\ Rabs (QV v - sinh (QV x)) <= 262000 * uu * Rabs (sinh (QV x)).
Proof.
  intros G [L U] BR. destruct (nz_preQ x G (nz28 x L)) as (N1 & N2 & N3). unfold q_sinh, q_pre_sinh. rewrite N1, N2, BR. assert (P28 := bpow_gt_0 radix2 (-28)).
  assert (LX := QL_geoS x G). assert (AX := QL_abs (4 * u) x ltac:(lra) ltac:(lra) LX). set (X := QV x) in *.
  assert (S0 : qrel 0 x X) by (split; [exact LX|unfold X; rewrite Rminus_diag_eq, Rabs_R0 by reflexivity; lra]).
  assert (B490 : 1 <= bp 490) by (change 1 with (bp 0); apply bpow_le; lia). assert (B299 : 1 <= bp 299) by (change 1 with (bp 0); apply bpow_le; lia).
  destruct (q_sqr_L (4 * u) x ltac:(lra) ltac:(lra) LX ltac:(lra)) as [LS ES].
  { apply Rle_trans with (bp (-30) * bp (-30)); [rewrite <- bpow_plus; apply bpow_le; lia|]. assert (B30 : bp (-28) = 4 * bp (-30)) by exact (bp_split (-30) 2 ltac:(lia)). assert (P30 := bpow_gt_0 radix2 (-30)). apply Rmult_le_compat; lra. }
  fold X in ES. assert (SQ : 0 <= X * X) by apply Rle_0_sqr.
  assert (Hr : qrel (2940 * uu) (q_sqr x) (X * X)).
  { split; [exact LS|]. rewrite (Rabs_pos_eq (X * X)) by exact SQ. apply Rle_trans with (1 := ES). apply Rmult_le_compat_r; [exact SQ|lra]. }
  destruct eps_geo as [LE VE]. assert (P9 := bpow_gt_0 radix2 (-209)). assert (B9 : bp (-209) <= 1 / 2) by (apply Rle_trans with (bp (-1)); [apply bpow_le; lia|change (bp (-1)) with (/ 2); lra]).
  assert (SE : qrel 0 Q_EPSILON (QV Q_EPSILON)) by (split; [exact LE|rewrite Rminus_diag_eq, Rabs_R0 by reflexivity; lra]).
  assert (AE : Rabs (QV Q_EPSILON) = QV Q_EPSILON) by (apply Rabs_pos_eq; lra).
  assert (PE : bp (-590) <= Rabs (X * QV Q_EPSILON)).
  { rewrite Rabs_mult, AE. apply Rle_trans with (bp (-28) * (99 / 100 * bp (-209))); [|apply Rmult_le_compat; lra]. assert (E : bp (-28) * bp (-209) = bp (-237)) by (rewrite <- bpow_plus; reflexivity).
    assert (bp (-590) <= bp (-238)) by (apply bpow_le; lia). assert (bp (-237) = 2 * bp (-238)) by exact (bp_split (-238) 1 ltac:(lia)). assert (PP := bpow_gt_0 radix2 (-238)). lra. }
  assert (TH := qrel_mul 0 0 x Q_EPSILON X (QV Q_EPSILON) S0 SE ltac:(lra) ltac:(lra) ltac:(lra) ltac:(rewrite AE; lra) PE).
  destruct (qrel_hi _ _ _ TH ltac:(lra)) as [TH1 _]. rewrite Rabs_mult, AE in TH1. destruct (q_abs_hi (q_mul x Q_EPSILON) (proj1 (proj1 (proj1 TH)))) as [Fa Va].
  assert (BT : bp (-211) * Rabs X <= V (q0 (q_abs (q_mul x Q_EPSILON))) <= bp (-207) * Rabs X).
  { rewrite Va. assert (E1 : bp (-209) = 4 * bp (-211)) by exact (bp_split (-211) 2 ltac:(lia)). assert (E2 : bp (-207) = 16 * bp (-211)) by exact (bp_split (-211) 4 ltac:(lia)). rewrite E1 in VE. rewrite E2. set (b := bp (-211)) in *. clearbody b.
    assert (Rabs X * (99 / 100 * (4 * b)) <= Rabs X * QV Q_EPSILON) by (apply Rmult_le_compat_l; lra). assert (Rabs X * QV Q_EPSILON <= Rabs X * (101 / 100 * (4 * b))) by (apply Rmult_le_compat_l; lra).
    assert (0 <= b * Rabs X) by (apply Rmult_le_pos; lra). lra. }
  assert (HX : bp (-28) <= Rabs X <= 51 / 1000) by lra. assert (FU : (20 < sinh_fuel_q)%nat) by (unfold sinh_fuel_q; lia).
  destruct (q_sinh_loop_ok lm dbg (q_sqr x) (q_abs (q_mul x Q_EPSILON)) X HX Hr Fa BT 20 0 sinh_fuel_q f1 x x eq_refl FU Fin_1) as (v & K1 & K2 & K3).
  - rewrite V_1. reflexivity.
  - apply QL_mono with (4 * u); [lra|exact LX].
  - rewrite ssum_0. unfold X. rewrite Rminus_diag_eq, Rabs_R0 by reflexivity. cbn [INR]. lra.
  - rewrite sterm_0. apply qrel_le with (1 := S0). cbn [INR]. lra.
  - left. reflexivity.
  - exists v. split; [exact K1|]. split; [exact K2|]. apply Rle_trans with (1 := K3). assert (SL := sinh_lower X ltac:(lra)). assert (uu * (996 / 1000 * Rabs X) <= uu * Rabs (sinh X)) by (apply Rmult_le_compat_l; lra). lra.
Qed.

(** ** cosh from sinh, near 0 *)
Lemma sqrt_near a b e : 1 <= a -> 1 <= b -> Rabs (a - b) <= e -> Rabs (sqrt a - sqrt b) <= e.
Proof.
  intros Ha Hb H. assert (Sa : 1 <= sqrt a) by (rewrite <- sqrt_1; apply sqrt_le_1; lra). assert (Sb : 1 <= sqrt b) by (rewrite <- sqrt_1; apply sqrt_le_1; lra).
  assert (E : a - b = (sqrt a - sqrt b) * (sqrt a + sqrt b)). { replace ((sqrt a - sqrt b) * (sqrt a + sqrt b)) with (sqrt a * sqrt a - sqrt b * sqrt b) by ring. rewrite !sqrt_sqrt by lra. reflexivity. }
  rewrite E, Rabs_mult, (Rabs_pos_eq (sqrt a + sqrt b)) in H by lra. assert (P := Rabs_pos (sqrt a - sqrt b)). apply Rle_trans with (2 := H). rewrite <- (Rmult_1_r (Rabs (sqrt a - sqrt b))) at 1. apply Rmult_le_compat_l; lra.
Qed.
Lemma q_small_cosh lm dbg s T : printer lm -> QL (18 * u) s -> Rabs (QV s - T) <= 262000 * uu * Rabs T -> bp (-29) <= Rabs T <= 51 / 1000 ->
  exists c, q_sqrt lm dbg (q_add Q_ONE (q_sqr s)) = Val c /\ QL (4 * u) c /\ Rabs (QV c - sqrt (1 + T * T)) <= 150000 * uu * sqrt (1 + T * T).
Proof.
  intros PR LS E [L U]. assert (P := Rabs_pos T). assert (P29 := bpow_gt_0 radix2 (-29)). assert (eT : 262000 * uu * Rabs T <= / 1000 * Rabs T) by (apply Rmult_le_compat_r; lra).
  assert (T1 := tri _ _ _ _ E (Rle_refl _)). assert (T2 := tri2 _ _ _ _ E (Rle_refl _)). assert (AS := QL_abs (18 * u) s ltac:(lra) ltac:(lra) LS).
  assert (B490 : 1 <= bp 490) by (change 1 with (bp 0); apply bpow_le; lia).
  destruct (q_sqr_L (18 * u) s ltac:(lra) ltac:(lra) LS ltac:(lra)) as [LQ EQ].
  { apply Rle_trans with (bp (-31) * bp (-31)); [rewrite <- bpow_plus; apply bpow_le; lia|]. assert (B30 : bp (-29) = 4 * bp (-31)) by exact (bp_split (-31) 2 ltac:(lia)). assert (P30 := bpow_gt_0 radix2 (-31)). apply Rmult_le_compat; lra. }
  assert (TT : 0 < T * T <= 2601 / 1000000).
  { assert (AA : T * T = Rabs T * Rabs T) by (rewrite <- Rabs_mult; symmetry; apply Rabs_pos_eq, Rle_0_sqr). rewrite AA. split; [apply Rmult_lt_0_compat; lra|]. replace (2601 / 1000000) with (51 / 1000 * (51 / 1000)) by lra. apply Rmult_le_compat; lra. }
  assert (PS := prod_err _ _ _ _ _ _ E E ltac:(lra) ltac:(lra)). rewrite (Rabs_pos_eq (T * T)) in PS by lra. set (S2 := QV s * QV s) in *. set (W := T * T) in *.
  assert (EW : 1001 / 1000 * (262000 * uu + 262000 * uu) * W <= / 1000 * W) by (apply Rmult_le_compat_r; lra). assert (EW2 : 1001 / 1000 * (262000 * uu + 262000 * uu) * W <= 1001 / 1000 * (262000 * uu + 262000 * uu) * (2601 / 1000000)) by (apply Rmult_le_compat_l; lra).
  assert (BS := Rabs_def2' _ _ PS). assert (PS2 : 0 < S2 <= 3 / 1000) by lra.
  assert (EQ2 : (66 * (18 * u * (18 * u)) + 470 * (u * (18 * u))) * S2 <= / 1000 * S2) by (apply Rmult_le_compat_r; lra). assert (EQ3 : (66 * (18 * u * (18 * u)) + 470 * (u * (18 * u))) * S2 <= 29844 * uu * (3 / 1000)) by (replace (66 * (18 * u * (18 * u)) + 470 * (u * (18 * u))) with (29844 * uu) by ring; apply Rmult_le_compat_l; lra).
  assert (BQ := Rabs_def2' _ _ EQ). assert (PQ : 0 < QV (q_sqr s) <= 4 / 1000) by lra. set (q := q_sqr s) in *. assert (AQ := QL_abs (4 * u) q ltac:(lra) ltac:(lra) LQ). rewrite (Rabs_pos_eq (QV q)) in AQ by lra.
  destruct QL_ONE as (LO & V1 & E1). assert (B900 : 1 <= bp 900) by (change 1 with (bp 0); apply bpow_le; lia).
  destruct (q_add_L (4 * u) Q_ONE q ltac:(lra) ltac:(lra) LO LQ ltac:(rewrite V1, Rabs_R1; lra) ltac:(lra) ltac:(rewrite E1; lra)) as [LA EA]. rewrite E1 in EA. set (a := q_add Q_ONE q) in *.
  rewrite (Rabs_pos_eq (1 + QV q)) in EA by lra. assert (EA2 : 680 * (u * (4 * u)) * (1 + QV q) <= 2720 * uu * (1004 / 1000)) by (replace (680 * (u * (4 * u))) with (2720 * uu) by ring; apply Rmult_le_compat_l; lra).
  assert (BA := Rabs_def2' _ _ EA). assert (AR : 1 <= QV a <= 2).
  { split; [|lra]. assert (D : 2720 * uu * (1 + QV q) <= QV q); [|lra]. assert (QV q >= 9 / 10 * W) by lra. assert (WL : bp (-58) <= W). { unfold W. replace (T * T) with (Rabs T * Rabs T) by (rewrite <- Rabs_mult; apply Rabs_pos_eq, Rle_0_sqr). replace (bp (-58)) with (bp (-29) * bp (-29)) by (rewrite <- bpow_plus; reflexivity). apply Rmult_le_compat; lra. }
    assert (2720 * uu * (1 + QV q) <= 2720 * uu * 2) by (apply Rmult_le_compat_l; lra). change (bp (-58)) with (/ 288230376151711744) in WL. lra. }
  assert (DA : Rabs (QV a - (1 + W)) <= 4600 * uu) by (apply Rabs_le; lra).
  assert (B91 : bp (-91) <= 1) by (change 1 with (bp 0); apply bpow_le; lia). assert (B91' : 2 <= bp 91) by (change 2 with (bp 1); apply bpow_le; lia).
  destruct (q_sqrt_L lm dbg a PR ltac:(apply QL_mono with (18 * u); [lra|exact LA]) ltac:(lra) ltac:(lra)) as (c & K1 & K2 & K3). exists c. split; [exact K1|]. split; [exact K2|].
  assert (SN := sqrt_near _ _ _ (proj1 AR) (ltac:(lra) : 1 <= 1 + W) DA). assert (S1 : 1 <= sqrt (1 + W)) by (rewrite <- sqrt_1 at 1; apply sqrt_le_1; lra).
  assert (E89 : bp (-89) = 131072 * uu) by (rewrite <- xeps_v; reflexivity). rewrite E89 in K3. set (t := sqrt (1 + W)) in *. set (z := sqrt (QV a)) in *.
  assert (UT : uu * 1 <= uu * t) by (apply Rmult_le_compat_l; lra). assert (SZ := Rabs_def2' _ _ SN). assert (K4 : 131072 * uu * z <= 131072 * uu * (101 / 100 * t)) by (apply Rmult_le_compat_l; lra).
  replace (QV c - t) with ((QV c - z) + (z - t)) by ring. eapply Rle_trans; [apply Rabs_triang|]. lra.
Qed.

(** ** both ranges together *)
Lemma dom_of x : bp (-28) <= Rabs x -> (forall k : Z, k <> 0%Z -> bp (-28) * Rabs x <= Rabs (x - IZR k * ln 2)) -> exp_dom x.
Proof. intros L H. split; [|exact H]. apply Rle_trans with (2 := L). apply bpow_le; lia. Qed.
Lemma bp_8x : bp (-85) = 2097152 * uu /\ bp (-88) = 262144 * uu /\ bp (-84) = 4194304 * uu /\ bp (-89) = 131072 * uu.
Proof.
  assert (E : bp (-106) = uu) by (rewrite <- u_bp, <- bpow_plus; reflexivity). rewrite <- E.
  split; [exact (bp_split (-106) 21 ltac:(lia))|]. split; [exact (bp_split (-106) 18 ltac:(lia))|]. split; [exact (bp_split (-106) 22 ltac:(lia))|exact (bp_split (-106) 17 ltac:(lia))].
Qed.
Lemma q_sinh_all lm dbg x : QGeoS x -> bp (-28) <= Rabs (QV x) <= 200 ->
  (forall k : Z, k <> 0%Z -> bp (-28) * Rabs (QV x) <= Rabs (QV x - IZR k * ln 2)) ->
  exists r, q_sinh lm dbg x = Val r /\ QL (500 * u) r /\ Rabs (QV r - sinh (QV x)) <= bp (-85) * Rabs (sinh (QV x)).
Proof.
  intros G [L U] D. destruct (branchQ x G) as [(B1 & _ & B2)|(B1 & _ & B2)].
  - apply (q_sinh_ok lm dbg x G B1 (conj B2 U)). now apply dom_of.
  - destruct (q_sinh_small lm dbg x G (conj L B2) B1) as (v & K1 & K2 & K3). exists v. split; [exact K1|]. split; [apply QL_mono with (2 := K2); lra|].
    apply Rle_trans with (1 := K3). destruct bp_8x as (-> & _). apply Rmult_le_compat_r; [apply Rabs_pos|lra].
Qed.
Lemma small_pair lm dbg x : printer lm -> QGeoS x -> bp (-28) <= Rabs (QV x) <= 502 / 10000 -> fgtb (q0 (q_abs x)) (dec 5 (-2)) = false -> fleb (q0 (q_abs x)) (dec 5 (-2)) = true ->
  exists s c, q_sinh_cosh lm dbg x = Val (s, c) /\ QL (18 * u) s /\ QL (4 * u) c /\
    Rabs (QV s - sinh (QV x)) <= 262000 * uu * Rabs (sinh (QV x)) /\ Rabs (QV c - cosh (QV x)) <= 150000 * uu * cosh (QV x).
Proof.
  intros PR G [L U] B1 B2. destruct (nz_preQ x G (nz28 x L)) as (N1 & N2 & N3). unfold q_sinh_cosh, q_pre_sinh_cosh. rewrite N1, N2, B2.
  destruct (q_sinh_small lm dbg x G (conj L U) B1) as (s & K1 & K2 & K3). rewrite K1. cbn [obind].
  assert (SL := sinh_lower (QV x) ltac:(lra)). assert (B : bp (-28) = 2 * bp (-29)) by exact (bp_split (-29) 1 ltac:(lia)). assert (P2 := bpow_gt_0 radix2 (-29)).
  destruct (q_small_cosh lm dbg s (sinh (QV x)) PR K2 K3 ltac:(lra)) as (c & K5 & K6 & K7). rewrite K5. cbn [obind]. rewrite cosh_sqrt in K7. exists s, c. auto 10.
Qed.
Lemma q_sinh_cosh_ok lm dbg x : printer lm -> QGeoS x -> bp (-28) <= Rabs (QV x) <= 200 ->
  (forall k : Z, k <> 0%Z -> bp (-28) * Rabs (QV x) <= Rabs (QV x - IZR k * ln 2)) ->
  exists s c, q_sinh_cosh lm dbg x = Val (s, c) /\ QFin s /\ QFin c /\
    Rabs (QV s - sinh (QV x)) <= bp (-85) * Rabs (sinh (QV x)) /\ Rabs (QV c - cosh (QV x)) <= bp (-88) * cosh (QV x).
Proof.
  intros PR G [L U] D. destruct (cosh_ge (QV x)) as (C1 & _ & _). assert (DD := dom_of _ L D). destruct (branchQ x G) as [(B1 & B3 & B2)|(B1 & B3 & B2)].
  - destruct (nz_preQ x G (nz28 x L)) as (N1 & N2 & N3). destruct (q_sinh_ok lm dbg x G B1 (conj B2 U) DD) as (r & K1 & K2 & K3).
    destruct (q_cosh_ok x G U DD) as [K4 K5]. unfold q_sinh, q_pre_sinh in K1. rewrite N1, N2, B1 in K1. cbv zeta in K1. injection K1 as <-.
    unfold q_cosh, q_pre_cosh in K4, K5. rewrite N1, N2 in K4, K5. cbn [from_pre] in K4, K5. cbv zeta in K4, K5.
    unfold q_sinh_cosh, q_pre_sinh_cosh. rewrite N1, N2, B3. cbv zeta. eexists. eexists. split; [reflexivity|]. split; [apply K2|]. split; [apply K4|]. split; [exact K3|].
    apply Rle_trans with (1 := K5). apply Rmult_le_compat_r; [lra|apply bpow_le; lia].
  - destruct (small_pair lm dbg x PR G (conj L B2) B1 B3) as (s & c & K1 & K2 & K3 & K4 & K5). exists s, c. split; [exact K1|]. split; [apply K2|]. split; [apply K3|].
    destruct bp_8x as (-> & -> & _). split; [apply Rle_trans with (1 := K4); apply Rmult_le_compat_r; [apply Rabs_pos|lra]|apply Rle_trans with (1 := K5); apply Rmult_le_compat_r; lra].
Qed.
Lemma q_tanh_all lm dbg x : printer lm -> QGeoS x -> bp (-28) <= Rabs (QV x) <= 60 ->
  (forall k : Z, k <> 0%Z -> bp (-28) * Rabs (QV x) <= Rabs (QV x - IZR k * ln 2)) ->
  exists r, q_tanh lm dbg x = Val r /\ QTame r /\ Rabs (QV r - tanh (QV x)) <= bp (-84) * Rabs (tanh (QV x)).
Proof.
  intros PR G [L U] D. destruct (branchQ x G) as [(B1 & B3 & B2)|(B1 & B3 & B2)].
  - apply (q_tanh_ok lm dbg x G B1 (conj B2 U)). now apply dom_of.
  - destruct (nz_preQ x G (nz28 x L)) as (N1 & N2 & N3). unfold q_tanh, q_pre_tanh. rewrite N1, N2, N3, B1.
    destruct (small_pair lm dbg x PR G (conj L B2) B1 B3) as (s & c & K1 & K2 & K3 & K4 & K5). rewrite K1. cbn [obind]. eexists. split; [reflexivity|].
    assert (SL := sinh_lower (QV x) ltac:(lra)). assert (CU : 1 <= cosh (QV x) <= 2). { destruct (cosh_ge (QV x)) as (C1 & _ & _). split; [exact C1|]. assert (Q := cosh_sq (QV x)). rewrite (sq_abs (sinh _)) in Q. assert (Rabs (sinh (QV x)) * Rabs (sinh (QV x)) <= 1 * 1) by (apply Rmult_le_compat; try apply Rabs_pos; lra). nra. }
    set (S := sinh (QV x)) in *. set (C := cosh (QV x)) in *. change (tanh (QV x)) with (S / C).
    assert (B28 : bp (-28) = 2 * bp (-29)) by exact (bp_split (-29) 1 ltac:(lia)). assert (P29 := bpow_gt_0 radix2 (-29)). assert (B3' : bp (-300) <= / 10 * bp (-29)). { assert (bp (-300) <= bp (-33)) by (apply bpow_le; lia). assert (bp (-29) = 16 * bp (-33)) by exact (bp_split (-33) 4 ltac:(lia)). assert (P33 := bpow_gt_0 radix2 (-33)). lra. }
    assert (B29' : bp (-29) <= / 2) by (change (/ 2) with (bp (-1)); apply bpow_le; lia).
    assert (B90 : 4 <= bp 90) by (change 4 with (bp 2); apply bpow_le; lia). assert (B30 : bp 90 <= bp 300) by (apply bpow_le; lia).
    assert (eS : 262000 * uu * Rabs S <= / 1000 * Rabs S) by (apply Rmult_le_compat_r; [apply Rabs_pos|lra]). assert (K5' : Rabs (QV c - C) <= 150000 * uu * Rabs C) by (rewrite (Rabs_pos_eq C) by lra; exact K5).
    assert (T1 := tri _ _ _ _ K4 (Rle_refl _)). assert (T2 := tri2 _ _ _ _ K4 (Rle_refl _)). assert (eC : 150000 * uu * C <= / 1000 * C) by (apply Rmult_le_compat_r; lra). assert (BC := Rabs_def2' _ _ K5).
    assert (LC2 : QL (18 * u) c) by (apply QL_mono with (2 := K3); lra). assert (AC := QL_abs (18 * u) c ltac:(lra) ltac:(lra) LC2). rewrite (Rabs_pos_eq (QV c)) in AC by lra. assert (AS := QL_abs (18 * u) s ltac:(lra) ltac:(lra) K2).
    destruct (q_div_L (18 * u) s c ltac:(lra) ltac:(lra) K2 LC2 ltac:(lra) ltac:(lra) ltac:(lra) ltac:(lra)) as [LQ EQ]. split; [apply L_tame with (2 := LQ); lra|].
    destruct (inv_err _ _ _ K5' ltac:(lra) ltac:(lra)) as [_ EI]. assert (PP := prod_err _ _ _ _ _ _ K4 EI ltac:(lra) ltac:(lra)). change (QV s * / QV c) with (QV s / QV c) in PP. change (S * / C) with (S / C) in PP.
    apply Rle_trans with (1 := chain_err _ _ _ _ _ EQ PP ltac:(lra) ltac:(lra)). destruct bp_8x as (_ & _ & -> & _). apply Rmult_le_compat_r; [apply Rabs_pos|]. lra.
Qed.
