(** * What the modelled f64 operations do, in terms of reals (lemmas) *)
From Coq Require Import ZArith Reals Lra Lia Psatz Bool.
From Flocq Require Import Core IEEE754.BinarySingleNaN.
From Verif Require Import RN F64 Prim DoubleM Spec.
Local Open Scope R_scope.

Lemma RN_rn x : RN x = rn x. Proof. reflexivity. Qed.

Lemma V_fmt a : fmt (V a).
Proof. apply (generic_format_B2R prec emax a). Qed.
#[global] Hint Resolve V_fmt rn_fmt fmt_0 : fmt.

(** finite with magnitude at most B *)
Definition Bd (B : R) (a : f64) : Prop := Fin a /\ Rabs (V a) <= B.

Lemma Rlt_ovf x B : Rabs x <= B -> fmt B -> B < bp 1024 -> Rabs (rn x) < bp 1024.
Proof. intros H F HB. apply Rle_lt_trans with B; [now apply rn_abs_le|easy]. Qed.

Section Ops.
Variables a b c : f64.
Hypothesis Fa : Fin a.
Hypothesis Fb : Fin b.

Lemma fadd_ok : Rabs (rn (V a + V b)) < bp 1024 ->
  Fin (fadd a b) /\ V (fadd a b) = rn (V a + V b) /\
  Bsign (fadd a b) = match Rcompare (V a + V b) 0 with
    | Eq => Bsign a && Bsign b | Lt => true | Gt => false end.
Proof.
  intros H. assert (K := Bplus_correct prec emax _ _ mode_NE a b Fa Fb).
  change (round radix2 _ _ _) with (rn (V a + V b)) in K.
  rewrite Rlt_bool_true in K by exact H. unfold Fin, V, fadd. tauto.
Qed.

Lemma fsub_ok : Rabs (rn (V a - V b)) < bp 1024 ->
  Fin (fsub a b) /\ V (fsub a b) = rn (V a - V b) /\
  Bsign (fsub a b) = match Rcompare (V a - V b) 0 with
    | Eq => Bsign a && negb (Bsign b) | Lt => true | Gt => false end.
Proof.
  intros H. assert (K := Bminus_correct prec emax _ _ mode_NE a b Fa Fb).
  change (round radix2 _ _ _) with (rn (V a - V b)) in K.
  rewrite Rlt_bool_true in K by exact H. unfold Fin, V, fsub. tauto.
Qed.

Lemma fmul_ok : Rabs (rn (V a * V b)) < bp 1024 ->
  Fin (fmul a b) /\ V (fmul a b) = rn (V a * V b) /\
  Bsign (fmul a b) = xorb (Bsign a) (Bsign b).
Proof.
  intros H. assert (K := Bmult_correct prec emax _ _ mode_NE a b).
  change (round radix2 _ _ _) with (rn (V a * V b)) in K.
  rewrite Rlt_bool_true in K by exact H. unfold Fin, V, fmul in *.
  rewrite Fa, Fb in K. destruct K as [K1 [K2 K3]]. repeat split; auto.
  apply K3. destruct (Bmult mode_NE a b); easy.
Qed.

Lemma fdiv_ok : V b <> 0 -> Rabs (rn (V a / V b)) < bp 1024 ->
  Fin (fdiv a b) /\ V (fdiv a b) = rn (V a / V b) /\
  Bsign (fdiv a b) = xorb (Bsign a) (Bsign b).
Proof.
  intros Hb H. assert (K := Bdiv_correct prec emax _ _ mode_NE a b Hb).
  change (round radix2 _ _ _) with (rn (V a / V b)) in K.
  rewrite Rlt_bool_true in K by exact H. unfold Fin, V, fdiv in *.
  rewrite Fa in K. destruct K as [K1 [K2 K3]]. repeat split; auto.
  apply K3. destruct (Bdiv mode_NE a b); easy.
Qed.

Hypothesis Fc : Fin c.
Lemma fma_ok : Rabs (rn (V a * V b + V c)) < bp 1024 ->
  Fin (fma a b c) /\ V (fma a b c) = rn (V a * V b + V c).
Proof.
  intros H. assert (K := Bfma_correct prec emax _ _ mode_NE a b c Fa Fb Fc).
  cbv zeta in K.
  change (round radix2 _ _ _) with (rn (V a * V b + V c)) in K.
  rewrite Rlt_bool_true in K by exact H. unfold Fin, V, fma. tauto.
Qed.

Lemma fneg_ok : Fin (fneg a) /\ V (fneg a) = - V a.
Proof. unfold Fin, V, fneg. rewrite is_finite_Bopp, B2R_Bopp. auto. Qed.

Lemma fabs_ok : Fin (fabs a) /\ V (fabs a) = Rabs (V a).
Proof. unfold Fin, V, fabs. rewrite is_finite_Babs, B2R_Babs. auto. Qed.

Lemma feqb_ok : feqb a b = Req_bool (V a) (V b).
Proof. apply Beqb_correct; auto. Qed.
Lemma fltb_ok : fltb a b = Rlt_bool (V a) (V b).
Proof. apply Bltb_correct; auto. Qed.
Lemma fleb_ok : fleb a b = Rle_bool (V a) (V b).
Proof. apply Bleb_correct; auto. Qed.
Lemma fcmp_ok : fcmp a b = Some (Rcompare (V a) (V b)).
Proof. apply Bcompare_correct; auto. Qed.
End Ops.

Lemma fsqrt_ok a : Fin a -> 0 <= V a -> Fin (fsqrt a) /\ V (fsqrt a) = rn (sqrt (V a)).
Proof.
  intros Fa Ha. destruct (Bsqrt_correct prec emax _ _ mode_NE a) as [K1 [K2 _]].
  split; [|exact K1]. unfold Fin, fsqrt. rewrite K2.
  destruct a as [s|s| |s m e h]; try easy. destruct s; [|easy].
  exfalso. unfold V in Ha. simpl in Ha.
  assert (H : F2R (Float radix2 (Z.neg m) e) < 0) by (apply F2R_lt_0; easy). lra.
Qed.

Lemma fnearbyint_ok md a : Fin a ->
  Fin (Bnearbyint md a) /\ V (Bnearbyint md a) = IZR (round_mode md (V a)).
Proof.
  intros Fa. destruct (Bnearbyint_correct prec emax _ md a) as [K1 [K2 _]].
  unfold Fin, V in *. rewrite K2. split; auto. rewrite K1.
  unfold round, F2R, scaled_mantissa, cexp, FIX_exp; simpl. now rewrite !Rmult_1_r.
Qed.

Lemma V_0 : V f0 = 0. Proof. reflexivity. Qed.
Lemma V_n0 : V fn0 = 0. Proof. reflexivity. Qed.
Lemma Fin_0 : Fin f0. Proof. reflexivity. Qed.

Lemma f2pow_ok m e : Rabs (rn (IZR m * bp e)) < bp 1024 ->
  Fin (f2pow m e) /\ V (f2pow m e) = rn (IZR m * bp e).
Proof.
  intros H. assert (K := binary_normalize_correct prec emax _ _ mode_NE m e false).
  cbv zeta in K. change (F2R _) with (IZR m * bp e) in K.
  change (round radix2 _ _ _) with (rn (IZR m * bp e)) in K.
  rewrite Rlt_bool_true in K by exact H. unfold Fin, V, f2pow. tauto.
Qed.

Lemma bp_lt_1024 e : (e < 1024)%Z -> bp e < bp 1024.
Proof. apply bpow_lt. Qed.

Lemma f2pow_exact m e : (-1074 <= e)%Z -> (e + 53 < 1024)%Z -> (Z.abs m <= 2 ^ 53)%Z ->
  Fin (f2pow m e) /\ V (f2pow m e) = IZR m * bp e.
Proof.
  intros He1 He2 Hm.
  assert (Hx : Rabs (IZR m * bp e) <= bp (e + 53)).
  { rewrite Rabs_mult, (Rabs_pos_eq (bp e)) by apply bpow_ge_0.
    rewrite Z.add_comm, bpow_plus. apply Rmult_le_compat_r. apply bpow_ge_0.
    rewrite <- (IZR_Zpower radix2 53), <- abs_IZR by lia. now apply IZR_le. }
  assert (F : fmt (IZR m * bp e)) by (apply (fmt_mult2 e); [lia|now exists m|easy]).
  assert (E := rn_id _ F).
  destruct (f2pow_ok m e) as [K1 K2]; [|rewrite K2, E; auto].
  rewrite E. apply Rle_lt_trans with (bp (e + 53)); [easy|]. now apply bpow_lt.
Qed.

Lemma fofZ_exact m : (Z.abs m <= 2 ^ 53)%Z -> Fin (fofZ m) /\ V (fofZ m) = IZR m.
Proof.
  intros H. destruct (f2pow_exact m 0) as [H1 H2]; try lia.
  split; auto. unfold fofZ. rewrite H2. simpl. ring.
Qed.

Lemma V_1 : V f1 = 1. Proof. apply (fofZ_exact 1). lia. Qed.
Lemma V_n1 : V fn1 = -1. Proof. apply (fofZ_exact (-1)). lia. Qed.
Lemma V_2 : V f2 = 2. Proof. apply (fofZ_exact 2). lia. Qed.
Lemma V_10 : V f10 = 10. Proof. apply (fofZ_exact 10). lia. Qed.
Lemma Fin_1 : Fin f1. Proof. apply (fofZ_exact 1). lia. Qed.
Lemma Fin_n1 : Fin fn1. Proof. apply (fofZ_exact (-1)). lia. Qed.
Lemma Fin_2 : Fin f2. Proof. apply (fofZ_exact 2). lia. Qed.
Lemma Fin_10 : Fin f10. Proof. apply (fofZ_exact 10). lia. Qed.
Lemma V_half : V fhalf = / 2.
Proof. destruct (f2pow_exact 1 (-1)) as [_ H]; try lia. unfold fhalf. rewrite H. simpl. lra. Qed.
Lemma Fin_half : Fin fhalf. Proof. apply (f2pow_exact 1 (-1)); lia. Qed.
Lemma V_eps : V feps = bp (-52).
Proof. destruct (f2pow_exact 1 (-52)) as [_ H]; try lia. unfold feps. rewrite H. ring. Qed.
Lemma Fin_eps : Fin feps. Proof. apply (f2pow_exact 1 (-52)); lia. Qed.

Lemma V_inj a b : Fin a -> Fin b -> V a = V b -> V a <> 0 -> a = b.
Proof.
  intros Fa Fb H Hn. apply (B2R_inj prec emax); auto.
  - destruct a; try easy. 
  - destruct b; try easy.
Qed.

Lemma feqb_refl_V a b : Fin a -> Fin b -> V a = V b -> feqb a b = true.
Proof. intros Fa Fb H. rewrite feqb_ok by auto. now apply Req_bool_true. Qed.

Lemma feqb_V a b : Fin a -> Fin b -> feqb a b = true -> V a = V b.
Proof. intros Fa Fb. rewrite feqb_ok by auto. destruct (Req_bool_spec (V a) (V b)); easy. Qed.

Lemma fne0_ok a : Fin a -> fne0 a = negb (Req_bool (V a) 0).
Proof. intros Fa. unfold fne0. rewrite feqb_ok by easy. reflexivity. Qed.

Lemma V_lt_1024 a : Rabs (V a) < bp 1024.
Proof. apply (abs_B2R_lt_emax prec emax). Qed.
