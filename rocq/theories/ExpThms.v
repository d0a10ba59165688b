(** * Accuracy of Double exp, assembled *)
From Coq Require Import ZArith Reals Lra Lia Psatz List Bool.
From Flocq Require Import Core IEEE754.BinarySingleNaN Mult_error.
From Verif Require Import RN F64 Prim DoubleM Spec F64Facts EFT DAddProofs DMulProofs DDivProofs ExactProofs MulAny LdexpProofs LawProofs OrderProofs RoundProofs SqrtProofs AbsOps Exact ConstM BaseConst ConstProofs TableProofs AlgM TransM ExpProofs.
From Verif Require DisplayLog.
Local Open Scope R_scope.

(** ** reduced arguments so small that everything underflows towards zero *)
Lemma fl_le1 a : Fin a -> Rabs (V a) <= 1 -> Bd (bp 0) a.
Proof. intros F H. split; [exact F|exact H]. Qed.
Lemma inv_facts_TD i : (i < 15)%nat -> TD 0 (nth i D_INV_FACTS D_ZERO).
Proof.
  intros H. destruct (inv_facts_abs i H) as [N [E B]]. assert (K := tri _ _ _ (/ 6) E). rewrite (Rabs_pos_eq (/ _)) in K by lra.
  assert (HR := DNorm_hi_rel _ N). assert (LO := DNorm_lo _ N). destruct N as [[F0 F1] _].
  set (w := nth i D_INV_FACTS D_ZERO) in *. assert (P := Rabs_pos (DV w)). assert (P0 := Rabs_pos (V (d0 w))).
  split; apply fl_le1; auto; lra.
Qed.
Lemma loop_TD x eps : TD 0 x -> forall n i k r p t, (-900 <= k)%Z -> (k + 10 * Z.of_nat n <= 0)%Z -> (n + i < 15)%nat -> TD k r -> TD k p -> TD k t ->
  let '(r', t') := d_exp_loop n i x eps r p t in TD (k + 10 * Z.of_nat n) r' /\ TD (k + 10 * Z.of_nat n) t'.
Proof.
  intros Tx. induction n as [|n IH]; intros i k r p t Hk Hn Hi Hr Hp Ht.
  - cbn [d_exp_loop]. split; [apply (TD_up k); [lia|exact Hr]|apply (TD_up k); [lia|exact Ht]].
  - cbn [d_exp_loop]. rewrite Nat2Z.inj_succ in *.
    assert (A : TD (k + 9) (d_add r t)) by (apply TD_add; [lia|exact Hr|exact Ht]).
    assert (B : TD (k + 5) (d_mul p x)) by (apply TD_mul; [lia|exact Hp|exact Tx]).
    assert (C : TD (k + 5 + 5) (d_mul (d_mul p x) (nth (S i) D_INV_FACTS D_ZERO))) by (apply TD_mul; [lia|exact B|apply inv_facts_TD; lia]).
    destruct (d_le _ eps).
    + split; [apply (TD_up (k + 9)); [lia|exact A]|apply (TD_up (k + 5 + 5)); [lia|exact C]].
    + replace (k + 10 * Z.succ (Z.of_nat n))%Z with (k + 10 + 10 * Z.of_nat n)%Z by lia.
      apply IH; try lia; [apply (TD_up (k + 9)); [lia|exact A]|apply (TD_up (k + 5)); [lia|exact B]|apply (TD_up (k + 5 + 5)); [lia|exact C]].
Qed.
Lemma small_TD x : TD (-440) x -> TD (-366) (d_exp_small x).
Proof.
  intros T. assert (Tx : TD 0 x) by (apply (TD_up (-440)); [lia|exact T]). unfold d_exp_small.
  assert (S1 : TD (-435) (d_sqr x)) by (apply (TD_sqr (-440)); [lia|exact T]). set (p := d_sqr x) in *. clearbody p.
  assert (H1 : TD (-435) (d_mul_pwr2 p fhalf)).
  { apply (TD_pwr2 (-435)); [lia|exact S1|]. apply fl_le1; [apply Fin_half|]. rewrite V_half, Rabs_pos_eq; lra. }
  assert (R1 : TD (-426) (d_add x (d_mul_pwr2 p fhalf))) by (apply (TD_add (-435)); [lia|apply (TD_up (-440)); [lia|exact T]|exact H1]).
  assert (P1 : TD (-430) (d_mul p x)) by (apply (TD_mul (-435)); [lia|exact S1|exact Tx]).
  assert (T1 : TD (-425) (d_mul (d_mul p x) (nth 0 D_INV_FACTS D_ZERO))) by (apply (TD_mul (-430)); [lia|exact P1|apply inv_facts_TD; lia]).
  assert (K := loop_TD x (d_mul_pwr2 D_EPSILON (d0 D_INV_K)) Tx 5 0 (-425) (d_add x (d_mul_pwr2 p fhalf)) (d_mul p x) _ ltac:(lia) ltac:(lia) ltac:(lia)
    (TD_up (-426) (-425) _ ltac:(lia) R1) (TD_up (-430) (-425) _ ltac:(lia) P1) T1).
  destruct (d_exp_loop 5 0 x (d_mul_pwr2 D_EPSILON (d0 D_INV_K)) (d_add x (d_mul_pwr2 p fhalf)) (d_mul p x) (d_mul (d_mul p x) (nth 0 D_INV_FACTS D_ZERO))) as [r t].
  destruct K as [K1 K2]. apply (TD_add (-375)); [lia|exact K1|exact K2].
Qed.
Lemma square_TD n : forall k r, (-900 <= k)%Z -> (k + 14 * Z.of_nat n <= -2)%Z -> TD k r -> TD (k + 14 * Z.of_nat n) (d_exp_square n r).
Proof.
  induction n as [|n IH]; intros k r Hk Hn T; cbn [d_exp_square].
  - replace (k + 14 * Z.of_nat 0)%Z with k by lia. exact T.
  - rewrite Nat2Z.inj_succ in *. replace (k + 14 * Z.succ (Z.of_nat n))%Z with (k + 14 + 14 * Z.of_nat n)%Z by lia. apply IH; [lia|lia|].
    replace (k + 14)%Z with (k + 5 + 9)%Z by lia. apply TD_add; [lia| |apply TD_sqr; [lia|exact T]].
    apply (TD_up (k + 1)); [lia|]. apply TD_twice; [lia|exact T].
Qed.

(** ** exp of 512 times a small argument *)
Lemma core_ok x : DNorm x -> Rabs (DV x) <= / 1400 ->
  DNorm (d_add (d_exp_square 9 (d_exp_small x)) D_ONE) /\
  Rabs (DV (d_add (d_exp_square 9 (d_exp_small x)) D_ONE) - exp (512 * DV x)) <= 266 * vv.
Proof.
  intros N H. destruct (Rle_or_lt (bp (-440)) (Rabs (V (d0 x)))) as [L|L].
  - destruct (exp_small_ok x N H L) as [N1 E1]. destruct (exp_square_ok _ _ N1 H E1) as [N2 E2].
    set (r := d_exp_square 9 (d_exp_small x)) in *.
    assert (BX : Rabs (512 * DV x) <= / 2) by (rewrite Rabs_mult, (Rabs_pos_eq 512) by lra; lra).
    assert (BE := expm1_fine _ BX).
    assert (PX := Rabs_pos (DV x)). assert (B2 : Rabs (512 * DV x) <= 37 / 100) by (rewrite Rabs_mult, (Rabs_pos_eq 512) by lra; lra).
    assert (PY := Rabs_pos (512 * DV x)). set (y := Rabs (512 * DV x)) in *.
    assert (BE2 : Rabs (exp (512 * DV x) - 1) <= 6 / 10) by nra.
    assert (Br : Rabs (DV r) <= 7 / 10) by (assert (K := tri _ _ _ _ E2 BE2); lra).
    assert (ON : DNorm D_ONE /\ DV D_ONE = 1). { change D_ONE with (mkD f1 f0). destruct (d_single_norm f1 Fin_1) as [A B]. rewrite V_1 in B. auto. }
    destruct ON as [ON OV].
    destruct (add_abs r D_ONE N2 ON) as [N3 E3]; [apply b100; lra|apply b100; rewrite OV, Rabs_pos_eq; lra|]. split; [exact N3|]. rewrite OV in E3.
    replace (DV (d_add r D_ONE) - exp (512 * DV x)) with ((DV (d_add r D_ONE) - (DV r + 1)) + (DV r - (exp (512 * DV x) - 1))) by ring.
    assert (K := Rabs_triang (DV r) 1). rewrite (Rabs_pos_eq 1) in K by lra. eapply Rle_trans; [apply Rabs_triang|]. lra.
  - assert (T : TD (-440) x).
    { assert (LO := DNorm_lo x N). destruct N as [[F0 F1] _]. split; split; auto; [lra|]. assert (P := Rabs_pos (V (d0 x))). lra. }
    apply small_TD in T. apply (square_TD 9) in T; [|lia|lia]. apply TD_one in T; [|lia]. destruct T as [N1 E1]. split; [exact N1|].
    change (-366 + 14 * Z.of_nat 9 + 4)%Z with (-236)%Z in E1.
    assert (BV := DNorm_val_rel x N). assert (BX : Rabs (DV x) <= bp (-439)).
    { assert (K := tri _ _ _ _ BV (Rle_refl _)). assert (bp (-439) = 2 * bp (-440)) by exact (bp_split (-440) 1 ltac:(lia)). assert (P := Rabs_pos (V (d0 x))). lra. }
    assert (B5 : Rabs (512 * DV x) <= bp (-430)). { rewrite Rabs_mult, (Rabs_pos_eq 512) by lra. assert (bp (-430) = 512 * bp (-439)) by exact (bp_split (-439) 9 ltac:(lia)). lra. }
    assert (B6 : bp (-430) <= bp (-236)) by (apply bpow_le; lia). assert (B7 : bp (-236) <= / 100).
    { apply Rle_trans with (bp (-10)); [apply bpow_le; lia|]. change (bp (-10)) with (/ 1024). lra. }
    assert (BE := expm1_bound (512 * DV x) ltac:(lra)). assert (PY := Rabs_pos (512 * DV x)). set (y := Rabs (512 * DV x)) in *.
    assert (BE2 : Rabs (exp (512 * DV x) - 1) <= 2 * bp (-236)) by nra.
    assert (B8 : bp (-236) <= vv). { rewrite <- vv_bp. apply bpow_le. lia. }
    set (r := DV (d_add _ D_ONE)) in *.
    replace (r - exp (512 * DV x)) with ((r - 1) - (exp (512 * DV x) - 1)) by ring. eapply Rle_trans; [apply Rabs_triang|]. rewrite Rabs_Ropp. lra.
Qed.

(** ** the reduction *)
Lemma ln2_lo : Fin (d0 D_LN_2) /\ Rabs (V (d0 D_LN_2) - ln 2) <= 3 * u /\ 693 / 1000 <= V (d0 D_LN_2) <= 694 / 1000 /\ DNorm D_LN_2 /\ Rabs (DV D_LN_2 - ln 2) <= 4 * vv * ln 2 /\ 693 / 1000 <= ln 2 <= 694 / 1000.
Proof.
  destruct d_LN_2_ok as [N K]. unfold approx in K. change (IZR 1) with 1 in K. rewrite Rmult_1_l in K.
  assert (E : bp (-104) = 4 * vv) by (rewrite <- vv_bp; exact (bp_split (-106) 2 ltac:(lia))). rewrite E in K.
  assert (P : 6931 / 10000 <= ln 2 <= 6932 / 10000) by (split; consts). rewrite (Rabs_pos_eq (ln 2)) in K by lra.
  assert (VR := DNorm_val_rel _ N). assert (VH := DNorm_hi_rel _ N).
  assert (BD : Rabs (DV D_LN_2) <= 7 / 10). { replace (DV D_LN_2) with (DV D_LN_2 - ln 2 + ln 2) by ring. eapply Rle_trans; [apply Rabs_triang|]. rewrite (Rabs_pos_eq (ln 2)) by lra. lra. }
  assert (B0 : Rabs (V (d0 D_LN_2) - ln 2) <= 1 * u).
  { replace (V (d0 D_LN_2) - ln 2) with (- (DV D_LN_2 - V (d0 D_LN_2)) + (DV D_LN_2 - ln 2)) by ring. eapply Rle_trans; [apply Rabs_triang|]. rewrite Rabs_Ropp. lra. }
  split; [apply N|]. split; [lra|]. apply Rabs_def2' in B0. split; [lra|]. split; [exact N|]. split; [exact K|lra].
Qed.

Lemma fdiv_fin a b B : Fin a -> Fin b -> V b <> 0 -> Rabs (V a / V b) <= B -> fmt B -> B < bp 1024 -> Fin (fdiv a b) /\ V (fdiv a b) = rn (V a / V b).
Proof. intros Fa Fb Nb H FB LB. destruct (fdiv_ok a b Fa Nb) as (X1 & X2 & _); [eapply Rlt_ovf; eauto|auto]. Qed.
Lemma exp_m_ok a : DNorm a -> -600 <= V (d0 a) <= 708 ->
  exists m, (-867 <= m <= 1022)%Z /\ FV (d_exp_m a) (IZR m) /\ as_i32 (d_exp_m a) = m /\ Rabs (DV a - IZR m * ln 2) <= 349 / 1000.
Proof.
  intros N H. destruct ln2_lo as (FL & EL & BL & _ & _ & B2). set (L := V (d0 D_LN_2)) in *. set (A := V (d0 a)) in *.
  assert (FA : Fin (d0 a)) by apply N.
  assert (IL : 0 < / L <= 1000 / 693). { split; [apply Rinv_0_lt_compat; lra|]. replace (1000 / 693) with (/ (693 / 1000)) by lra. apply Rinv_le_contravar; lra. }
  set (q := A / L). assert (EA : q * L = A) by (unfold q; field; lra).
  assert (Bq : -866 <= q <= 10217 / 10). { split; apply Rmult_le_reg_r with L; try lra. }
  assert (Fb : fmt (bp 10)) by (apply fmt_bpow; lia). assert (Lb : bp 10 < bp 1024) by (apply bpow_lt; lia). change (bp 10) with 1024 in Fb, Lb.
  assert (Aq : Rabs q <= 1024) by (apply Rabs_le; lra).
  destruct (fdiv_fin (d0 a) (d0 D_LN_2) 1024 FA FL) as [F1 V1]; auto; [fold L; lra|]. fold A L q in V1.
  assert (S75 : bp (-1075) <= u) by (rewrite <- u_bp; apply bpow_le; lia). assert (P75 := bpow_gt_0 radix2 (-1075)).
  assert (Er := rn_err q). assert (Er' : Rabs (rn q - q) <= 1025 * u) by lra. apply Rabs_def2' in Er'.
  set (d := fdiv (d0 a) (d0 D_LN_2)) in *.
  assert (Bs : Rabs (V d + V fhalf) <= 1024) by (rewrite V_half, V1; apply Rabs_le; lra).
  destruct (fadd_ok d fhalf F1 Fin_half) as (F2 & V2 & _); [eapply Rlt_ovf; eauto|]. rewrite V_half, V1 in V2, Bs.
  assert (Es := rn_err (rn q + / 2)). assert (Es' : Rabs (rn (rn q + / 2) - (rn q + / 2)) <= 1025 * u) by lra. apply Rabs_def2' in Es'.
  set (s := fadd d fhalf) in *. set (m := Zfloor (V s)). exists m.
  assert (M1 := Zfloor_lb (V s)). assert (M2 := Zfloor_ub (V s)). fold m in M1, M2.
  assert (M1' := M1). assert (M2' := M2). rewrite V2 in M1', M2'. set (w := rn (rn q + / 2)) in *. clearbody w. set (w1 := rn q) in *. clearbody w1.
  assert (Hm : (-867 <= m <= 1022)%Z). { assert (IZR (-868) < IZR m < IZR 1023) as [? ?] by lra. split; [apply lt_IZR in H0|apply lt_IZR in H1]; lia. }
  split; [exact Hm|]. split; [apply ffloor_ok; exact F2|]. split; [apply DisplayLog.floor_i32; [exact F2|split; [exact M1|exact M2]|clearbody m; lia]|].
  assert (Hm' : -867 <= IZR m <= 1022) by (split; apply IZR_le; lia).
  assert (QM : Rabs (q - IZR m) <= 501 / 1000) by (apply Rabs_le; lra).
  assert (VR := DNorm_val_rel a N). fold A in VR. assert (AA : Rabs A <= 708) by (apply Rabs_le; lra).
  replace (DV a - IZR m * ln 2) with ((DV a - A) + ((q - IZR m) * L + IZR m * (L - ln 2))) by (rewrite <- EA; ring).
  assert (K1 : Rabs ((q - IZR m) * L) <= 501 / 1000 * (694 / 1000)) by (rewrite Rabs_mult; apply Rmult_le_compat; auto using Rabs_pos; rewrite Rabs_pos_eq; lra).
  assert (K2 : Rabs (IZR m * (L - ln 2)) <= 1022 * (3 * u)) by (rewrite Rabs_mult; apply Rmult_le_compat; auto using Rabs_pos; apply Rabs_le; lra).
  eapply Rle_trans; [apply Rabs_triang|]. assert (K := Rabs_triang ((q - IZR m) * L) (IZR m * (L - ln 2))). lra.
Qed.
Lemma inv_k_ok : DNorm D_INV_K /\ DV D_INV_K = / 512.
Proof.
  split; [apply dnormx_ok; vm_compute; reflexivity|]. rewrite zd_ok. replace (zd D_INV_K) with (2 ^ 1065)%Z by (vm_compute; reflexivity).
  change (2 ^ 1065)%Z with (radix2 ^ 1065)%Z. rewrite IZR_Zpower by lia. rewrite <- bpow_plus. change (1065 + -1074)%Z with (-9)%Z. reflexivity.
Qed.
Lemma exp_x_ok a m : DNorm a -> -600 <= V (d0 a) <= 708 -> FV (d_exp_m a) (IZR m) -> (-867 <= m <= 1022)%Z -> Rabs (DV a - IZR m * ln 2) <= 349 / 1000 ->
  DNorm (d_exp_x a) /\ Rabs (DV (d_exp_x a)) <= / 1400 /\ Rabs (512 * DV (d_exp_x a) - (DV a - IZR m * ln 2)) <= (142 / 10 * Rabs (DV a) + 12) * vv.
Proof.
  intros N H FM Hm HK. destruct ln2_lo as (_ & _ & _ & NL & EL & B2). destruct FM as [FM VM]. assert (T := tiny_le).
  destruct (d_single_norm _ FM) as [NM DM]. rewrite VM in DM. unfold d_exp_x. set (M := mkD (d_exp_m a) f0) in *.
  assert (Hm0 : -867 <= IZR m <= 1022) by (split; apply IZR_le; lia). assert (Hm' : Rabs (IZR m) <= 1022) by (apply Rabs_le; lra).
  set (L := DV D_LN_2) in *. assert (BL : Rabs L <= 695 / 1000). { apply Rabs_le. apply Rabs_def2' in EL. lra. }
  destruct (mul_abs D_LN_2 M NL NM) as [Np Ep]; [apply b100; fold L; lra|apply b100; rewrite DM; lra|]. rewrite DM in Ep. fold L in Ep.
  set (P := d_mul D_LN_2 M) in *.
  assert (PM := Rabs_pos (IZR m)). assert (PA := Rabs_pos (DV a)).
  assert (ML : Rabs (L * IZR m) <= Rabs (IZR m) * ln 2 * (1001 / 1000)).
  { rewrite Rabs_mult, Rmult_comm, Rmult_assoc. apply Rmult_le_compat_l; [lra|]. apply Rabs_le. apply Rabs_def2' in EL. lra. }
  assert (ML2 : Rabs ((L - ln 2) * IZR m) <= 4 * vv * (Rabs (IZR m) * ln 2)).
  { rewrite Rabs_mult. replace (4 * vv * (Rabs (IZR m) * ln 2)) with (4 * vv * ln 2 * Rabs (IZR m)) by ring. apply Rmult_le_compat_r; lra. }
  assert (MA : Rabs (IZR m) * ln 2 <= Rabs (DV a) + 349 / 1000).
  { replace (Rabs (IZR m) * ln 2) with (Rabs (IZR m * ln 2)) by (rewrite Rabs_mult, (Rabs_pos_eq (ln 2)) by lra; reflexivity).
    replace (IZR m * ln 2) with (DV a - (DV a - IZR m * ln 2)) by ring. eapply Rle_trans; [apply Rabs_triang|]. rewrite Rabs_Ropp. lra. }
  set (mm := Rabs (IZR m) * ln 2) in *. assert (Pmm : 0 <= mm) by (unfold mm; apply Rmult_le_pos; lra).
  assert (EP : Rabs (DV P - IZR m * ln 2) <= 1405 / 100 * vv * mm + tiny).
  { replace (DV P - IZR m * ln 2) with ((DV P - L * IZR m) + (L - ln 2) * IZR m) by ring. eapply Rle_trans; [apply Rabs_triang|]. lra. }
  assert (VA : Rabs (DV a) <= 709).
  { assert (VR := DNorm_val_rel a N). assert (Rabs (V (d0 a)) <= 708) by (apply Rabs_le; lra). assert (K := tri _ _ _ _ VR H0). lra. }
  assert (Bmm : mm <= 710) by lra.
  assert (BP : Rabs (DV P) <= 720).
  { assert (K : Rabs (IZR m * ln 2) <= 710) by (rewrite Rabs_mult, (Rabs_pos_eq (ln 2)) by lra; exact Bmm). assert (K2 := tri _ _ _ _ EP K). lra. }
  destruct (sub_abs a P N Np) as [Nk Ek]; [apply b100; lra|apply b100; lra|]. set (K := d_sub a P) in *.
  set (k := DV a - IZR m * ln 2) in *.
  assert (AP : Rabs (DV a - DV P - k) <= 1405 / 100 * vv * mm + tiny).
  { replace (DV a - DV P - k) with (- (DV P - IZR m * ln 2)) by (unfold k; ring). rewrite Rabs_Ropp. exact EP. }
  assert (BAP : Rabs (DV a - DV P) <= 35 / 100) by (assert (Q := tri _ _ _ _ AP HK); lra).
  assert (EK : Rabs (DV K - k) <= 1405 / 100 * vv * mm + tiny + 21 / 10 * vv).
  { replace (DV K - k) with ((DV K - (DV a - DV P)) + (DV a - DV P - k)) by ring. eapply Rle_trans; [apply Rabs_triang|]. lra. }
  assert (BK : Rabs (DV K) <= 351 / 1000) by (assert (Q := tri _ _ _ _ EK HK); lra).
  destruct inv_k_ok as [NI VI]. destruct (mul_abs K D_INV_K Nk NI) as [Nx Ex]; [apply b100; lra|apply b100; rewrite VI, Rabs_pos_eq; lra|].
  rewrite VI in Ex. set (X := d_mul K D_INV_K) in *. rewrite Rabs_mult, (Rabs_pos_eq (/ 512)) in Ex by lra.
  split; [exact Nx|].
  assert (EX : Rabs (512 * DV X - DV K) <= 36 / 10 * vv).
  { replace (512 * DV X - DV K) with (512 * (DV X - DV K * / 512)) by field. rewrite Rabs_mult, (Rabs_pos_eq 512) by lra. lra. }
  split.
  - assert (Q := tri _ _ _ _ EX BK). rewrite Rabs_mult, (Rabs_pos_eq 512) in Q by lra. lra.
  - replace (512 * DV X - k) with ((512 * DV X - DV K) + (DV K - k)) by ring. eapply Rle_trans; [apply Rabs_triang|].
    assert (1405 / 100 * vv * mm <= 1405 / 100 * vv * (Rabs (DV a) + 349 / 1000)) by (apply Rmult_le_compat_l; lra). lra.
Qed.

(** ** scaling by 2^m: the low word may fall below the normal range *)
Lemma fmt_scale_up x n : (0 <= n)%Z -> fmt x -> fmt (x * bp n).
Proof. intros H F. apply mult_bpow_pos_exact_FLT; auto. Qed.
Lemma ldexp_norm r m : DNorm r -> / 2 <= Rabs (V (d0 r)) <= 2 -> (-870 <= m <= 1022)%Z ->
  DNorm (d_ldexp r m) /\ Rabs (DV (d_ldexp r m) - DV r * bp m) <= bp (-1075).
Proof.
  intros N H Hm. assert (LO := DNorm_lo r N). assert (P75 := bpow_gt_0 radix2 (-1075)). assert (Pm := bpow_gt_0 radix2 m).
  assert (LT : forall a, Rabs (V a) <= 2 -> Rabs (V a * bp m) < bp 1024).
  { intros a Ha. rewrite Rabs_mult, (Rabs_pos_eq (bp m)) by lra. apply Rle_lt_trans with (bp 1 * bp m); [apply Rmult_le_compat_r; [lra|exact Ha]|]. rewrite <- bpow_plus. apply bpow_lt. lia. }
  assert (B1 : Rabs (V (d1 r)) <= 2) by lra.
  assert (EX : scales (d0 r) m -> scales (d1 r) m -> DNorm (d_ldexp r m) /\ Rabs (DV (d_ldexp r m) - DV r * bp m) <= bp (-1075)).
  { intros S0 S1. destruct (d_ldexp_ok r m N ltac:(lia) S0 S1) as [A B]. split; [exact A|]. rewrite B, Rminus_diag_eq, Rabs_R0 by reflexivity. lra. }
  destruct (Z_le_gt_dec 0 m) as [Pos|Neg].
  { apply EX; (split; [|apply LT; lra]); change RN with rn; apply rn_id, fmt_scale_up; auto using V_fmt. }
  assert (HI : bp (-871) <= Rabs (V (d0 r) * bp m)).
  { rewrite Rabs_mult, (Rabs_pos_eq (bp m)) by lra. apply Rle_trans with (bp (-1) * bp m); [rewrite <- bpow_plus; apply bpow_le; lia|]. apply Rmult_le_compat_r; [lra|]. change (bp (-1)) with (/ 2). lra. }
  assert (L0 : bp (-1022) <= bp (-871)) by (apply bpow_le; lia). assert (L1 : bp (-1022) <= / 2) by (change (/ 2) with (bp (-1)); apply bpow_le; lia).
  assert (S0 : scales (d0 r) m).
  { split; [|apply LT; lra]. change RN with rn. rewrite rn_scale by lra. now rewrite (rn_id (V (d0 r))) by apply V_fmt. }
  assert (BM : bp m <= 1) by (change 1 with (bp 0); apply bpow_le; lia).
  destruct (Rle_or_lt (bp (-1022)) (Rabs (V (d1 r) * bp m))) as [L|L].
  { apply EX; [exact S0|]. split; [|apply LT; lra]. change RN with rn. rewrite rn_scale; [now rewrite (rn_id (V (d1 r))) by apply V_fmt| |exact L].
    apply Rle_trans with (1 := L). rewrite Rabs_mult, (Rabs_pos_eq (bp m)) by lra. assert (P := Rabs_pos (V (d1 r))). nra. }
  destruct (fpowi2 m ltac:(lia)) as [Ff Vf]. destruct N as [[F0 F1] N].
  destruct (scale1 (d0 r) m ltac:(lia) F0 S0) as [A0 A0v].
  destruct (fmul_ok (d1 r) (fpowi f2 m) F1 Ff) as (A1' & A1v & _).
  { rewrite Vf. apply Rle_lt_trans with (bp (-1022)); [|apply bpow_lt; lia]. apply rn_abs_le; [apply fmt_bpow; lia|lra]. }
  rewrite Vf in A1v. set (y := V (d1 r) * bp m) in *. assert (SE := sub_err y L).
  assert (BY : Rabs (rn y) <= bp (-1022)) by (apply rn_abs_le; [apply fmt_bpow; lia|lra]).
  assert (EV : DV (d_ldexp r m) = V (d0 r) * bp m + rn y) by (unfold DV, d_ldexp; cbn [d0 d1]; rewrite A0v, A1v; reflexivity).
  assert (NZ : V (d0 r) * bp m <> 0) by (intros Z0; rewrite Z0, Rabs_R0 in HI; assert (Q := bpow_gt_0 radix2 (-871)); lra).
  split.
  - split; [split; assumption|]. rewrite EV. unfold d_ldexp; cbn [d0]. rewrite A0v. change RN with rn. symmetry. apply rn_absorb; [now apply scales_fmt|exact NZ| |].
    + assert (8 * bp (-1022) = bp (-1019)) by (symmetry; exact (bp_split (-1022) 3 ltac:(lia))).
      assert (u * bp (-871) = bp (-924)) by (rewrite <- u_bp, <- bpow_plus; reflexivity). assert (bp (-1019) <= bp (-924)) by (apply bpow_le; lia).
      assert (u * bp (-871) <= u * Rabs (V (d0 r) * bp m)) by (apply Rmult_le_compat_l; lra). lra.
    + apply Rle_trans with (2 := HI). apply bpow_le; lia.
  - rewrite EV. replace (V (d0 r) * bp m + rn y - DV r * bp m) with (rn y - y) by (unfold DV, y; ring). exact SE.
Qed.

(** ** assembled *)
Lemma one_ok : DNorm D_ONE /\ DV D_ONE = 1.
Proof. change D_ONE with (mkD f1 f0). destruct (d_single_norm f1 Fin_1) as [A B]. rewrite V_1 in B. auto. Qed.
Lemma exp_main a : DNorm a -> -600 <= V (d0 a) <= 708 ->
  let r := d_ldexp (d_add (d_exp_square 9 (d_exp_small (d_exp_x a))) D_ONE) (as_i32 (d_exp_m a)) in
  DNorm r /\ Rabs (DV r - exp (DV a)) <= (15 * Rabs (DV a) + 480) * vv * exp (DV a).
Proof.
  intros N H. destruct (exp_m_ok a N H) as (m & Hm & FM & -> & HK). destruct (exp_x_ok a m N H FM Hm HK) as (Nx & Bx & Ex).
  destruct (core_ok _ Nx Bx) as [Nr Er]. set (r := d_add _ D_ONE) in *. cbv zeta.
  set (k := DV a - IZR m * ln 2) in *. set (X := 512 * DV (d_exp_x a)) in *.
  assert (PA := Rabs_pos (DV a)).
  assert (VA : Rabs (DV a) <= 709).
  { assert (VR := DNorm_val_rel a N). assert (H0 : Rabs (V (d0 a)) <= 708) by (apply Rabs_le; lra). assert (K := tri _ _ _ _ VR H0). lra. }
  assert (KP : 65 / 100 <= exp k). { apply Rabs_def2' in HK. assert (K1 : k = 0 \/ k <> 0) by (destruct (Req_dec k 0); auto). destruct K1 as [->|NZ]; [rewrite exp_0; lra|]. assert (K := exp_ineq1 k NZ). lra. }
  assert (KU : exp k <= 16 / 10).
  { assert (K := expm1_fine k ltac:(lra)). assert (PK := Rabs_pos k). set (y := Rabs k) in *. assert (K2 : y * (1 + y / 2 + 3 / 2 * (y * y)) <= 5 / 10) by nra.
    assert (K3 := Rabs_def2' _ _ (Rle_trans _ _ _ K K2)). lra. }
  assert (ED : Rabs (exp X - exp k) <= 101 / 100 * ((142 / 10 * Rabs (DV a) + 12) * vv) * exp k).
  { replace (exp X) with (exp (X - k) * exp k) by (rewrite <- exp_plus; f_equal; ring).
    replace (exp (X - k) * exp k - exp k) with ((exp (X - k) - 1) * exp k) by ring. rewrite Rabs_mult, (Rabs_pos_eq (exp k)) by lra. apply Rmult_le_compat_r; [lra|].
    assert (K := expm1_bound (X - k) ltac:(lra)). assert (PK := Rabs_pos (X - k)). set (y := Rabs (X - k)) in *.
    apply Rle_trans with (1 := K). apply Rle_trans with (y * (101 / 100)); [apply Rmult_le_compat_l; lra|]. lra. }
  assert (ER : Rabs (DV r - exp k) <= (1435 / 100 * Rabs (DV a) + 425) * vv * exp k).
  { replace (DV r - exp k) with ((DV r - exp X) + (exp X - exp k)) by ring. eapply Rle_trans; [apply Rabs_triang|].
    assert (K : 266 * vv <= 410 * vv * exp k) by lra.
    assert (K1 : 0 <= vv * Rabs (DV a) * exp k) by (apply Rmult_le_pos; [apply Rmult_le_pos; lra|lra]).
    replace ((1435 / 100 * Rabs (DV a) + 425) * vv * exp k) with (1435 / 100 * (vv * Rabs (DV a) * exp k) + 425 * vv * exp k) by ring.
    replace (101 / 100 * ((142 / 10 * Rabs (DV a) + 12) * vv) * exp k) with (101 / 100 * (142 / 10) * (vv * Rabs (DV a) * exp k) + 101 / 100 * 12 * vv * exp k) in ED by ring.
    lra. }
  assert (BR : 6 / 10 <= DV r <= 17 / 10).
  { assert (K : (1435 / 100 * Rabs (DV a) + 425) * vv * exp k <= 20000 * vv * 2) by (apply Rmult_le_compat; [apply Rmult_le_pos; lra|lra|apply Rmult_le_compat_r; lra|lra]).
    assert (K2 := Rabs_def2' _ _ (Rle_trans _ _ _ ER K)). lra. }
  assert (BH : / 2 <= Rabs (V (d0 r)) <= 2).
  { assert (K := DNorm_hi_rel r Nr). assert (K2 := DNorm_val_rel r Nr). rewrite (Rabs_pos_eq (DV r)) in K by lra. assert (K3 : Rabs (V (d0 r)) <= 18 / 10) by lra.
    assert (K4 : Rabs (DV r - V (d0 r)) <= 2 * u) by lra. apply Rabs_def2' in K4. rewrite Rabs_pos_eq by lra. lra. }
  destruct (ldexp_norm r m Nr BH ltac:(lia)) as [Ns Es]. split; [exact Ns|].
  assert (EA : exp (DV a) = exp k * bp m) by (rewrite bpow_exp, <- exp_plus; f_equal; unfold k; change (IZR radix2) with 2; ring).
  assert (Pm := bpow_gt_0 radix2 m). rewrite EA. set (s := DV (d_ldexp r m)) in *.
  replace (s - exp k * bp m) with ((s - DV r * bp m) + (DV r - exp k) * bp m) by ring.
  assert (K1 : Rabs ((DV r - exp k) * bp m) <= (1435 / 100 * Rabs (DV a) + 425) * vv * exp k * bp m) by (rewrite Rabs_mult, (Rabs_pos_eq (bp m)) by lra; apply Rmult_le_compat_r; lra).
  assert (K2 : bp (-1075) <= vv * (exp k * bp m)).
  { apply Rle_trans with (bp (-106) * (bp (-1) * bp m)); [rewrite <- !bpow_plus; apply bpow_le; lia|]. rewrite vv_bp. apply Rmult_le_compat_l; [lra|]. apply Rmult_le_compat_r; [lra|]. change (bp (-1)) with (/ 2). lra. }
  eapply Rle_trans; [apply Rabs_triang|].
  assert (K3 : 0 <= vv * Rabs (DV a) * (exp k * bp m)) by (apply Rmult_le_pos; [apply Rmult_le_pos; lra|apply Rmult_le_pos; lra]).
  assert (K4 : 0 <= vv * (exp k * bp m)) by (apply Rmult_le_pos; [lra|apply Rmult_le_pos; lra]).
  replace ((15 * Rabs (DV a) + 480) * vv * (exp k * bp m)) with (15 * (vv * Rabs (DV a) * (exp k * bp m)) + 480 * (vv * (exp k * bp m))) by ring.
  replace ((1435 / 100 * Rabs (DV a) + 425) * vv * exp k * bp m) with (1435 / 100 * (vv * Rabs (DV a) * (exp k * bp m)) + 425 * (vv * (exp k * bp m))) in K1 by ring.
  lra.
Qed.
Lemma d_exp_ok a : DNorm a -> -600 <= V (d0 a) <= 708 ->
  DNorm (d_exp a) /\ Rabs (DV (d_exp a) - exp (DV a)) <= (15 * Rabs (DV a) + 480) * vv * exp (DV a).
Proof.
  intros N H. unfold d_exp, d_pre_exp. assert (FA : Fin (d0 a)) by apply N.
  destruct (fofZ_exact (-600) ltac:(lia)) as [F6 V6]. destruct (fofZ_exact 708 ltac:(lia)) as [F7 V7].
  rewrite (fltb_ok (d0 a) _ FA F6), V6, Rlt_bool_false by lra. change (fgtb (d0 a) (fofZ 708)) with (fltb (fofZ 708) (d0 a)).
  rewrite (fltb_ok _ (d0 a) F7 FA), V7, Rlt_bool_false by lra.
  replace (d_is_nan a) with false by (symmetry; apply Fin_nan; exact FA).
  assert (PE := exp_pos (DV a)). assert (PA := Rabs_pos (DV a)).
  destruct (d_is_zero a) eqn:EZ.
  { cbn [from_pre]. destruct one_ok as [ON OV]. split; [exact ON|]. apply feqb_V in EZ; [|exact FA|exact Fin_0].
    assert (K := DNorm_val_rel a N). rewrite EZ, V_0, Rabs_R0, Rmult_0_r in K. assert (Z0 : DV a = 0) by (apply Rabs_def2' in K; lra).
    rewrite OV, Z0, exp_0, Rminus_diag_eq, Rabs_R0 by reflexivity. lra. }
  destruct (d_eq a D_ONE) eqn:E1.
  { cbn [from_pre]. destruct one_ok as [ON OV]. apply (proj1 (proj1 (proj2 (d_ord_ok _ _ N ON)))) in E1. rewrite E1, OV.
    destruct d_E_ok as [NE AE]. split; [exact NE|]. unfold approx in AE. change (IZR 1) with 1 in AE. rewrite Rmult_1_l in AE.
    replace (bp (-104)) with (4 * vv) in AE by (rewrite <- vv_bp; symmetry; exact (bp_split (-106) 2 ltac:(lia))).
    assert (P1 := exp_pos 1). rewrite (Rabs_pos_eq (exp 1)) in AE by lra. rewrite (Rabs_pos_eq 1) by lra. lra. }
  cbn [from_pre]. apply exp_main; assumption.
Qed.
