(** * Error-free transforms on the modelled f64 (lemmas) *)
From Coq Require Import ZArith Reals Lra Lia Psatz Bool.
From Flocq Require Import Core IEEE754.BinarySingleNaN.
From Verif Require Import RN F64 Prim DoubleM Spec F64Facts.
Local Open Scope R_scope.

Lemma bp_S k : bp (k + 1) = 2 * bp k.
Proof. rewrite bpow_plus. change (bp 1) with 2. ring. Qed.

Lemma Bd_add k a b : (-1074 <= k < 1023)%Z -> Bd (bp k) a -> Bd (bp k) b ->
  Bd (bp (k + 1)) (fadd a b) /\ V (fadd a b) = rn (V a + V b).
Proof.
  intros Hk [Fa Ha] [Fb Hb].
  assert (H : Rabs (rn (V a + V b)) <= bp (k + 1)).
  { apply rn_abs_le. apply fmt_bpow; lia. rewrite bp_S.
    assert (K := Rabs_triang (V a) (V b)). lra. }
  destruct (fadd_ok a b Fa Fb) as [K1 [K2 _]].
  { apply Rle_lt_trans with (1 := H). apply bpow_lt. lia. }
  rewrite K2. repeat split; auto. now rewrite K2.
Qed.

Lemma Bd_sub k a b : (-1074 <= k < 1023)%Z -> Bd (bp k) a -> Bd (bp k) b ->
  Bd (bp (k + 1)) (fsub a b) /\ V (fsub a b) = rn (V a - V b).
Proof.
  intros Hk [Fa Ha] [Fb Hb].
  assert (H : Rabs (rn (V a - V b)) <= bp (k + 1)).
  { apply rn_abs_le. apply fmt_bpow; lia. rewrite bp_S.
    assert (K := Rabs_triang (V a) (- V b)). rewrite Rabs_Ropp in K. unfold Rminus. lra. }
  destruct (fsub_ok a b Fa Fb) as [K1 [K2 _]].
  { apply Rle_lt_trans with (1 := H). apply bpow_lt. lia. }
  rewrite K2. repeat split; auto. now rewrite K2.
Qed.

Lemma Bd_mul k l a b : (-1074 <= k + l < 1024)%Z -> Bd (bp k) a -> Bd (bp l) b ->
  Bd (bp (k + l)) (fmul a b) /\ V (fmul a b) = rn (V a * V b).
Proof.
  intros Hk [Fa Ha] [Fb Hb].
  assert (H : Rabs (rn (V a * V b)) <= bp (k + l)).
  { apply rn_abs_le. apply fmt_bpow; lia. rewrite Rabs_mult, bpow_plus.
    apply Rmult_le_compat; auto using Rabs_pos. }
  destruct (fmul_ok a b Fa Fb) as [K1 [K2 _]].
  { apply Rle_lt_trans with (1 := H). apply bpow_lt. lia. }
  rewrite K2. repeat split; auto. now rewrite K2.
Qed.

Lemma Bd_le B B' a : B <= B' -> Bd B a -> Bd B' a.
Proof. intros H [F K]. split; [auto|lra]. Qed.
Lemma Bd_bp k l a : (k <= l)%Z -> Bd (bp k) a -> Bd (bp l) a.
Proof. intros H. apply Bd_le. now apply bpow_le. Qed.

Notation M18 := (bp 1018).

Ltac bd := solve [ eauto | eapply Bd_bp; [|eassumption]; lia ].

Lemma two_sum_ok a b : Bd M18 a -> Bd M18 b ->
  Fin (fst (two_sum a b)) /\ Fin (snd (two_sum a b)) /\
  V (fst (two_sum a b)) = rn (V a + V b) /\
  V (snd (two_sum a b)) = V a + V b - rn (V a + V b).
Proof.
  intros Ha Hb. unfold two_sum; cbn [fst snd].
  destruct (Bd_add 1018 a b ltac:(lia) Ha Hb) as [Bs Es]. set (s := fadd a b) in *.
  destruct (Bd_sub 1019 s a ltac:(lia)) as [Bv Ev]; [bd|bd|]. set (v := fsub s a) in *.
  destruct (Bd_sub 1020 s v ltac:(lia)) as [Bw Ew]; [bd|bd|]. set (w := fsub s v) in *.
  destruct (Bd_sub 1021 a w ltac:(lia)) as [Bx Ex]; [bd|bd|]. set (x := fsub a w) in *.
  destruct (Bd_sub 1020 b v ltac:(lia)) as [By Ey]; [bd|bd|]. set (y := fsub b v) in *.
  destruct (Bd_add 1022 x y ltac:(lia)) as [Bz Ez]; [bd|bd|].
  split; [apply Bs|]. split; [apply Bz|]. split; [exact Es|].
  rewrite Ez, Ex, Ey, Ew, Ev, Es. apply two_sum_R; auto with fmt.
Qed.

Lemma two_diff_ok a b : Bd M18 a -> Bd M18 b ->
  Fin (fst (two_diff a b)) /\ Fin (snd (two_diff a b)) /\
  V (fst (two_diff a b)) = rn (V a - V b) /\
  V (snd (two_diff a b)) = V a - V b - rn (V a - V b).
Proof.
  intros Ha Hb. unfold two_diff; cbn [fst snd].
  destruct (Bd_sub 1018 a b ltac:(lia) Ha Hb) as [Bs Es]. set (s := fsub a b) in *.
  destruct (Bd_sub 1019 s a ltac:(lia)) as [Bv Ev]; [bd|bd|]. set (v := fsub s a) in *.
  destruct (Bd_sub 1020 s v ltac:(lia)) as [Bw Ew]; [bd|bd|]. set (w := fsub s v) in *.
  destruct (Bd_sub 1021 a w ltac:(lia)) as [Bx Ex]; [bd|bd|]. set (x := fsub a w) in *.
  destruct (Bd_add 1020 b v ltac:(lia)) as [By Ey]; [bd|bd|]. set (y := fadd b v) in *.
  destruct (Bd_sub 1022 x y ltac:(lia)) as [Bz Ez]; [bd|bd|].
  split; [apply Bs|]. split; [apply Bz|]. split; [exact Es|].
  rewrite Ez, Ex, Ey, Ew, Ev, Es.
  assert (K := two_sum_R (V a) (- V b) ltac:(auto with fmt) ltac:(apply fmt_opp; auto with fmt)).
  cbv zeta in K. change (V a - V b) with (V a + - V b). rewrite <- K. f_equal.
  set (v0 := rn (rn (V a + - V b) - V a)).
  assert (E : rn (- V b - v0) = - rn (V b + v0)) by (rewrite <- rn_opp; f_equal; ring).
  rewrite E. reflexivity.
Qed.

Lemma quick_ok_gen a b : Bd M18 a -> Bd M18 b ->
  rn (V b - rn (rn (V a + V b) - V a)) = V a + V b - rn (V a + V b) ->
  Fin (fst (quick_two_sum a b)) /\ Fin (snd (quick_two_sum a b)) /\
  V (fst (quick_two_sum a b)) = rn (V a + V b) /\
  V (snd (quick_two_sum a b)) = V a + V b - rn (V a + V b).
Proof.
  intros Ha Hb HR. unfold quick_two_sum; cbn [fst snd].
  destruct (Bd_add 1018 a b ltac:(lia) Ha Hb) as [Bs Es]. set (s := fadd a b) in *.
  destruct (Bd_sub 1019 s a ltac:(lia)) as [Bv Ev]; [bd|bd|]. set (v := fsub s a) in *.
  destruct (Bd_sub 1020 b v ltac:(lia)) as [Bw Ew]; [bd|bd|].
  split; [apply Bs|]. split; [apply Bw|]. split; [exact Es|].
  now rewrite Ew, Ev, Es.
Qed.

Lemma quick_ok a b : Bd M18 a -> Bd M18 b -> Rabs (V b) <= Rabs (V a) \/ V a = 0 ->
  Fin (fst (quick_two_sum a b)) /\ Fin (snd (quick_two_sum a b)) /\
  V (fst (quick_two_sum a b)) = rn (V a + V b) /\
  V (snd (quick_two_sum a b)) = V a + V b - rn (V a + V b).
Proof.
  intros Ha Hb H. apply quick_ok_gen; auto. destruct H as [H|H].
  - apply fast_two_sum_R; auto with fmt.
  - rewrite H, Rplus_0_l, Rminus_0_r, (rn_id (rn _)), (rn_id (V b)) by auto with fmt.
    replace (V b - V b) with 0 by ring. apply rn_0.
Qed.

(** two_prod with a fused multiply-add: the error term is the exact error
    unless it underflows, in which case it is its rounding. *)
Lemma two_prod_gen k l a b : (-1074 <= k + l < 1023)%Z -> Bd (bp k) a -> Bd (bp l) b ->
  Fin (fst (two_prod a b)) /\ Fin (snd (two_prod a b)) /\
  V (fst (two_prod a b)) = rn (V a * V b) /\
  V (snd (two_prod a b)) = rn (V a * V b - rn (V a * V b)).
Proof.
  intros Hk Ha Hb. unfold two_prod; cbn [fst snd].
  destruct (Bd_mul k l a b ltac:(lia) Ha Hb) as [[Fs Bs] Es]. set (p := fmul a b) in *.
  destruct (fneg_ok p Fs) as [Fn En].
  destruct Ha as [Fa Ha], Hb as [Fb Hb].
  destruct (fma_ok a b (fneg p) Fa Fb Fn) as [Fe Ee].
  - rewrite En. apply Rle_lt_trans with (bp (k + l + 1)); [|apply bpow_lt; lia].
    apply rn_abs_le. apply fmt_bpow; lia. rewrite bp_S.
    assert (K1 : Rabs (V a * V b) <= bp (k + l)).
    { rewrite Rabs_mult, bpow_plus. apply Rmult_le_compat; auto using Rabs_pos. }
    assert (K := Rabs_triang (V a * V b) (- V p)). rewrite Rabs_Ropp in K. lra.
  - repeat split; auto. rewrite Ee, En, Es. f_equal; ring.
Qed.

Lemma two_prod_ok k l a b : (-1074 <= k + l < 1023)%Z -> Bd (bp k) a -> Bd (bp l) b ->
  (V a * V b <> 0 -> bp (-969) <= Rabs (V a * V b)) ->
  Fin (fst (two_prod a b)) /\ Fin (snd (two_prod a b)) /\
  V (fst (two_prod a b)) = rn (V a * V b) /\
  V (snd (two_prod a b)) = V a * V b - rn (V a * V b).
Proof.
  intros Hk Ha Hb Hu. destruct (two_prod_gen k l a b Hk Ha Hb) as [H1 [H2 [H3 H4]]].
  repeat split; auto. rewrite H4. apply rn_id, mul_err_fmt; auto with fmt.
Qed.

Lemma two_sqr_two_prod a : two_sqr a = two_prod a a.
Proof. reflexivity. Qed.
