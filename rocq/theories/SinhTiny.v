(** * The Double sinh near zero, and its termination everywhere *)
From Coq Require Import ZArith Reals Lra Lia Psatz Bool.
From Flocq Require Import Core IEEE754.BinarySingleNaN.
From Verif Require Import RN F64 Prim DoubleM Spec F64Facts EFT DWAdd DAddProofs DMulProofs DDivProofs MulAny OrderProofs LawProofs ExactProofs IntProofs AbsOps ParseM AlgM ConstM ConstProofs Exact FromProofs SqrtProofs TransM TransProofs PowProofs ExpProofs ExpThms LnThms SinSeries SinThms RelOps HypProofs HypThms HypMore DivTiny NrootProofs SymProofs.
Local Open Scope R_scope.

Lemma d_sqr_zero x : DNorm x -> Rabs (V (d0 x)) <= bp (-540) -> DNorm (d_sqr x) /\ DV (d_sqr x) = 0.
Proof.
  intros N B. destruct (d_sqr_any x N) as [N2 _]; [apply Rle_trans with (1 := B); apply bpow_le; lia|]. split; [exact N2|]. clear N2.
  assert (N' := N). destruct N' as [[Fx0 Fx1] _]. assert (PRE : d_pre_sqr x = None). { unfold d_pre_sqr, d_is_infinite. destruct (d0 x); try discriminate Fx0; reflexivity. }
  assert (Lx := DNorm_lo x N). unfold d_sqr. rewrite PRE. cbn [from_pre]. change (two_sqr (d0 x)) with (two_prod (d0 x) (d0 x)).
  set (xh := V (d0 x)) in *. set (xl := V (d1 x)) in *. assert (Ph := Rabs_pos xh). assert (Pl := Rabs_pos xl).
  assert (P540 := bpow_gt_0 radix2 (-540)). assert (B0 : bp (-1080) = bp (-540) * bp (-540)) by (rewrite <- bpow_plus; reflexivity). assert (B75 : bp (-1075) = 32 * bp (-1080)) by exact (bp_split (-1080) 5 ltac:(lia)).
  assert (Bl : Rabs xl <= bp (-540)) by lra.
  assert (Q1 : Rabs (xh * xh) <= bp (-1080)) by (rewrite Rabs_mult, B0; apply Rmult_le_compat; lra).
  assert (Q2 : Rabs (xh * xl) <= bp (-1080)) by (rewrite Rabs_mult, B0; apply Rmult_le_compat; lra).
  assert (Q3 : Rabs (xl * xl) <= bp (-1080)) by (rewrite Rabs_mult, B0; apply Rmult_le_compat; lra).
  assert (P80 := bpow_gt_0 radix2 (-1080)). assert (B9 : bp (-1080) <= bp (-900)) by (apply bpow_le; lia). assert (B93 : bp (-900) = 8 * bp (-903)) by exact (bp_split (-903) 3 ltac:(lia)). assert (B94 : bp (-1080) <= bp (-903)) by (apply bpow_le; lia).
  destruct (two_prod_m (-900) (d0 x) (d0 x) ltac:(lia) Fx0 Fx0 ltac:(fold xh; lra)) as [Fp [Fe [Ep Ee]]].
  destruct (two_prod (d0 x) (d0 x)) as [p e]. cbn [fst snd] in *. fold xh in Ep, Ee.
  assert (Vp : V p = 0) by (rewrite Ep; apply rn_tiny; lra). assert (Rp : rn (xh * xh) = 0) by (apply rn_tiny; lra). assert (Ve : V e = 0). { rewrite Ee, Rp, Rminus_0_r. apply rn_tiny; lra. }
  assert (B539 : bp (-539) = 2 * bp (-540)) by exact (bp_split (-540) 1 ltac:(lia)).
  destruct (mul_Bd (-539) f2 (d0 x) ltac:(lia) Fin_2 Fx0) as [[Fd Bd2] Ed].
  { rewrite V_2. fold xh. rewrite Rabs_mult, (Rabs_pos_eq 2) by lra. lra. }
  rewrite V_2, rn_twice in Ed by auto with fmt. fold xh in Ed. set (dx := fmul f2 (d0 x)) in *.
  assert (Q4 : Rabs (2 * xh * xl) <= 2 * bp (-1080)) by (rewrite Rmult_assoc, Rabs_mult, (Rabs_pos_eq 2) by lra; lra).
  destruct (mul_Bd (-900) dx (d1 x) ltac:(lia) Fd Fx1) as [[Fm1 Bm1] Em1]; [rewrite Ed; fold xl; lra|].
  destruct (mul_Bd (-900) (d1 x) (d1 x) ltac:(lia) Fx1 Fx1) as [[Fm2 Bm2] Em2]; [fold xl; lra|].
  rewrite Ed in Em1. fold xl in Em1, Em2. rewrite rn_tiny in Em1 by lra. rewrite rn_tiny in Em2 by lra.
  set (m1 := fmul dx (d1 x)) in *. set (m2 := fmul (d1 x) (d1 x)) in *.
  assert (Z9 : Rabs 0 <= bp (-899)) by (rewrite Rabs_R0; apply bpow_ge_0).
  destruct (Bd_add (-899) e m1 ltac:(lia)) as [[Ft Bt] Et]; [split; [exact Fe|rewrite Ve; exact Z9]|split; [exact Fm1|rewrite Em1; exact Z9]|].
  rewrite Ve, Em1, Rplus_0_r, rn_0 in Et. set (t := fadd e m1) in *.
  destruct (Bd_add (-899) t m2 ltac:(lia)) as [[Ft2 Bt2] Et2]; [split; [exact Ft|rewrite Et; exact Z9]|split; [exact Fm2|rewrite Em2; exact Z9]|].
  rewrite Et, Em2, Rplus_0_r, rn_0 in Et2. set (t2 := fadd t m2) in *.
  assert (ZM : Rabs 0 <= bp (-800)) by (rewrite Rabs_R0; apply bpow_ge_0).
  destruct (renorm_tail p t2) as [_ [RN2 _]].
  { split; [exact Fp|]. rewrite Vp, Rabs_R0. apply bpow_ge_0. }
  { split; [exact Ft2|]. rewrite Et2, Rabs_R0. apply bpow_ge_0. }
  { rewrite Vp, Et2. lra. }
  rewrite RN2, Vp, Et2. ring.
Qed.

(** one pass of the loop that stops *)
Lemma sinh_one lm dbg x : DNorm x -> DV x <> 0 -> Rabs (DV x) <= bp (-200) ->
  let t := d_div (d_mul x (d_sqr x)) (d_from_small 6) in
  DNorm t -> Rabs (DV t) <= bp (-120) * Rabs (DV x) -> DV (d_abs t) <= DV (d_abs (d_mul x D_EPSILON)) ->
  exists r, d_sinh lm dbg x = Val r /\ DNorm r /\ Rabs (DV r - sinh (DV x)) <= 7 * vv * Rabs (DV x).
Proof.
  intros N NZ H t Nt Bt LE. destruct (nz_pre x N NZ) as (E1 & E2 & E3). unfold d_sinh, d_pre_sinh. rewrite E1, E2, E3.
  assert (S1 : bp (-200) <= / 1000000) by (apply Rle_trans with (bp (-20)); [apply bpow_le; lia|change (bp (-20)) with (/ 1048576); lra]).
  destruct (branch x N) as [(B1 & B2 & B3)|(B1 & B2 & B3)]; [lra|]. rewrite B1.
  destruct sinh_fuel_d as [|f] eqn:FU; [unfold sinh_fuel_d in FU; lia|]. cbn [d_sinh_loop].
  rewrite (i32_chk_ok dbg (1 + 2)) by lia. cbn [obind]. change ((1 + 2 - 1) * (1 + 2))%Z with 6%Z. rewrite (i32_chk_ok dbg 6) by lia. cbn [obind]. fold t.
  destruct eps_ok as [Ne Be]. assert (Le := eps_lo). assert (B7 := bpow_gt_0 radix2 (-200)).
  assert (B10 : 1 <= bp 1000) by (change 1 with (bp 0); apply bpow_le; lia).
  destruct (d_mul_any x D_EPSILON N Ne) as [Nth _].
  { assert (K := DNorm_hi_rel x N). assert (K2 := DNorm_hi_rel D_EPSILON Ne). rewrite (Rabs_pos_eq (DV D_EPSILON)) in K2 by lra. rewrite Rabs_mult. apply Rle_trans with (1 * 1); [apply Rmult_le_compat; auto using Rabs_pos; lra|]. rewrite Rmult_1_l. change 1 with (bp 0). apply bpow_le. lia. }
  assert (Ft : fis_nan (d0 t) = false) by (apply Fin_nan; apply Nt). destruct (d_abs_ok t Ft) as (_ & _ & _ & K). destruct (K Nt) as [Na Va].
  assert (Fh : fis_nan (d0 (d_mul x D_EPSILON)) = false) by (apply Fin_nan; apply Nth). destruct (d_abs_ok _ Fh) as (_ & _ & _ & K'). destruct (K' Nth) as [Nb Vb].
  destruct (d_ord_ok (d_abs t) (d_abs (d_mul x D_EPSILON)) Na Nb) as (_ & _ & _ & OL & _). rewrite (proj2 OL LE).
  exists (d_add x t). split; [reflexivity|].
  assert (PX := Rabs_pos (DV x)). assert (B12 : bp (-120) * Rabs (DV x) <= / 10 * vv * Rabs (DV x)).
  { apply Rmult_le_compat_r; [exact PX|]. assert (E : bp (-106) = 16384 * bp (-120)) by exact (bp_split (-120) 14 ltac:(lia)). rewrite vv_bp in E. assert (P12 := bpow_gt_0 radix2 (-120)). lra. }
  assert (Tt : Rabs (DV t) <= bp 1000). { apply Rle_trans with (1 := Bt). lra. }
  destruct (sum_near x t (DV x) (DV t) 0 0 N Nt) as [[Ns Es] _]; [rewrite Rminus_diag_eq, Rabs_R0 by reflexivity; lra|rewrite Rminus_diag_eq, Rabs_R0 by reflexivity; lra|lra|lra|].
  split; [exact Ns|].
  assert (SR := sinh_rem (DV x) 1 ltac:(lra)). rewrite ssum_S, ssum_0, sterm_S, sterm_0 in SR. change (IZR (Z.of_nat ((2 * 0 + 2) * (2 * 0 + 3)))) with 6 in SR. set (c := DV x * (DV x * DV x) / 6) in *.
  assert (XX : DV x * DV x <= bp (-200)).
  { replace (DV x * DV x) with (Rabs (DV x) * Rabs (DV x)) by (rewrite <- Rabs_mult; apply Rabs_pos_eq, Rle_0_sqr). apply Rle_trans with (bp (-200) * 1); [apply Rmult_le_compat; lra|lra]. }
  assert (CB : Rabs c <= bp (-120) * Rabs (DV x)).
  { unfold c, Rdiv. rewrite (Rabs_mult (DV x * (DV x * DV x))), (Rabs_mult (DV x)), (Rabs_pos_eq (DV x * DV x)), (Rabs_pos_eq (/ 6)) by (try apply Rle_0_sqr; lra). assert (B13 : bp (-200) <= bp (-120)) by (apply bpow_le; lia).
    assert (Rabs (DV x) * (DV x * DV x) <= Rabs (DV x) * bp (-120)) by (apply Rmult_le_compat_l; lra). assert (0 <= Rabs (DV x) * (DV x * DV x)) by (apply Rmult_le_pos; [lra|apply Rle_0_sqr]). lra. }
  assert (TX := Rabs_triang (DV x) (DV t)).
  replace (DV (d_add x t) - sinh (DV x)) with ((DV (d_add x t) - (DV x + DV t)) + DV t - c - (sinh (DV x) - (DV x + c))) by ring.
  unfold Rminus at 1 2. eapply Rle_trans; [apply Rabs_triang|]. rewrite Rabs_Ropp. eapply Rle_trans; [apply Rplus_le_compat_r, Rabs_triang|]. rewrite Rabs_Ropp. eapply Rle_trans; [apply Rplus_le_compat_r, Rplus_le_compat_r, Rabs_triang|].
  lra.
Qed.
Lemma six_ok : DNorm (d_from_small 6) /\ DV (d_from_small 6) = 6 /\ V (d0 (d_from_small 6)) = 6.
Proof. destruct (fofZ_exact 6 ltac:(lia)) as [F E]. unfold d_from_small. destruct (d_single_norm (fofZ 6) F) as [N EV]. rewrite E in EV. auto. Qed.
Lemma d_sinh_tiny lm dbg x : DNorm x -> DV x <> 0 -> Rabs (DV x) <= bp (-200) ->
  exists r, d_sinh lm dbg x = Val r /\ DNorm r /\ Rabs (DV r - sinh (DV x)) <= 7 * vv * Rabs (DV x).
Proof.
  intros N NZ H. destruct six_ok as (N6 & E6 & V6). assert (PX := Rabs_pos_lt _ NZ). assert (KX := DNorm_hi_rel x N).
  destruct eps_ok as [Ne Be]. assert (Le := eps_lo).
  assert (S1 : bp (-200) <= / 1000000) by (apply Rle_trans with (bp (-20)); [apply bpow_le; lia|change (bp (-20)) with (/ 1048576); lra]).
  assert (M1 : Rabs (V (d0 x) * V (d0 D_EPSILON)) <= bp 1015).
  { assert (K2 := DNorm_hi_rel D_EPSILON Ne). rewrite (Rabs_pos_eq (DV D_EPSILON)) in K2 by lra. rewrite Rabs_mult. apply Rle_trans with (1 * 1); [apply Rmult_le_compat; auto using Rabs_pos; lra|]. rewrite Rmult_1_l. change 1 with (bp 0). apply bpow_le. lia. }
  destruct (d_mul_any x D_EPSILON N Ne M1) as [Nth Eth].
  assert (Fh : fis_nan (d0 (d_mul x D_EPSILON)) = false) by (apply Fin_nan; apply Nth). destruct (d_abs_ok _ Fh) as (_ & _ & _ & K'). destruct (K' Nth) as [Nb Vb].
  destruct (Rle_or_lt (Rabs (DV x)) (bp (-600))) as [T|T].
  - assert (B6 : bp (-540) = 1152921504606846976 * bp (-600)) by exact (bp_split (-600) 60 ltac:(lia)). assert (P6 := bpow_gt_0 radix2 (-600)).
    destruct (d_sqr_zero x N ltac:(lra)) as [Nr Zr]. assert (ZV : V (d0 (d_sqr x)) = 0). { assert (K := DNorm_hi_rel _ Nr). rewrite Zr, Rabs_R0 in K. assert (P := Rabs_pos (V (d0 (d_sqr x)))). destruct (Req_dec (V (d0 (d_sqr x))) 0) as [Q|Q]; [exact Q|]. assert (Z := Rabs_pos_lt _ Q). lra. }
    destruct (d_mul_ok x (d_sqr x) N Nr) as [Nm Em]; [left; rewrite ZV; ring|]. unfold approx in Em. rewrite Zr, Rmult_0_r, Rabs_R0, Rmult_0_r, Rminus_0_r in Em.
    assert (Zm : DV (d_mul x (d_sqr x)) = 0). { destruct (Req_dec (DV (d_mul x (d_sqr x))) 0) as [Q|Q]; [exact Q|]. assert (Z := Rabs_pos_lt _ Q). lra. }
    assert (ZW : V (d0 (d_mul x (d_sqr x))) = 0). { assert (K := DNorm_hi_rel _ Nm). rewrite Zm, Rabs_R0 in K. destruct (Req_dec (V (d0 (d_mul x (d_sqr x)))) 0) as [Q|Q]; [exact Q|]. assert (Z := Rabs_pos_lt _ Q). lra. }
    destruct (d_div_ok _ _ Nm N6 ltac:(rewrite V6; lra) (or_introl ZW)) as [Nt Et]. unfold approx in Et. rewrite Zm in Et; unfold Rdiv in Et; rewrite Rmult_0_l, Rabs_R0, Rmult_0_r, Rminus_0_r in Et.
    apply (sinh_one lm dbg x N NZ H Nt).
    + apply Rle_trans with (1 := Et). apply Rmult_le_pos; [apply bpow_ge_0|lra].
    + assert (Ft : fis_nan (d0 (d_div (d_mul x (d_sqr x)) (d_from_small 6))) = false) by (apply Fin_nan; apply Nt). destruct (d_abs_ok _ Ft) as (_ & _ & _ & K). destruct (K Nt) as [_ Va]. rewrite Va, Vb. apply Rle_trans with (1 := Et). apply Rabs_pos.
  - assert (P2 := bpow_gt_0 radix2 (-600)). set (A := Rabs (DV x)) in *.
    destruct (d_sqr_any x N) as [Nr Er].
    { apply Rle_trans with 1; [lra|]. change 1 with (bp 0). apply bpow_le. lia. }
    rewrite vv_bp in Er. assert (XX : DV x * DV x = A * A) by (unfold A; rewrite <- Rabs_mult; symmetry; apply Rabs_pos_eq, Rle_0_sqr). rewrite XX in Er.
    assert (A2 : A * A <= bp (-400)) by (replace (bp (-400)) with (bp (-200) * bp (-200)) by (rewrite <- bpow_plus; reflexivity); apply Rmult_le_compat; lra). assert (A0 : 0 <= A * A) by (apply Rmult_le_pos; lra).
    assert (B890 : bp (-890) <= bp (-400)) by (apply bpow_le; lia). assert (B398 : bp (-398) = 4 * bp (-400)) by exact (bp_split (-400) 2 ltac:(lia)). assert (P4 := bpow_gt_0 radix2 (-400)).
    assert (RB : Rabs (DV (d_sqr x)) <= bp (-398)). { assert (K := tri _ _ _ _ Er (Rle_refl _)). rewrite (Rabs_pos_eq (A * A)) in K by lra. lra. }
    assert (KR := DNorm_hi_rel _ Nr). assert (B39 : bp (-398) <= / 1000) by (apply Rle_trans with (bp (-10)); [apply bpow_le; lia|change (bp (-10)) with (/ 1024); lra]).
    destruct (d_mul_any x (d_sqr x) N Nr) as [Nm Em].
    { rewrite Rabs_mult. apply Rle_trans with (1 * 1); [apply Rmult_le_compat; auto using Rabs_pos; lra|]. rewrite Rmult_1_l. change 1 with (bp 0). apply bpow_le. lia. }
    rewrite vv_bp in Em. assert (TM := tri _ _ _ _ Em (Rle_refl _)). rewrite (Rabs_mult (DV x)) in TM. fold A in TM.
    assert (MB : A * Rabs (DV (d_sqr x)) <= A * bp (-398)) by (apply Rmult_le_compat_l; lra).
    assert (T73 : bp (-1073) <= bp (-398) * A). { apply Rle_trans with (bp (-398) * bp (-600)); [rewrite <- bpow_plus; apply bpow_le; lia|apply Rmult_le_compat_l; [apply bpow_ge_0|lra]]. }
    set (m := d_mul x (d_sqr x)) in *. assert (P39 := bpow_gt_0 radix2 (-398)). assert (PA := Rmult_le_pos _ _ (Rlt_le _ _ P39) (Rlt_le _ _ PX)).
    assert (MM : Rabs (DV m) <= 3 * (bp (-398) * A)) by lra.
    assert (SM : bp (-398) * A <= / 1000 * 1) by (apply Rmult_le_compat; lra).
    destruct (div_mid m (d_from_small 6) Nm N6) as [Nt Et]; [rewrite E6, Rabs_pos_eq; lra|apply Rle_trans with 1; [lra|change 1 with (bp 0); apply bpow_le; lia]|].
    rewrite E6 in Et. set (t := d_div m (d_from_small 6)) in *.
    assert (MD : Rabs (DV m / 6) <= bp (-398) * A) by (unfold Rdiv; rewrite Rabs_mult, (Rabs_pos_eq (/ 6)) by lra; lra).
    assert (T86 : bp (-860) <= bp (-250) * A). { apply Rle_trans with (bp (-250) * bp (-600)); [rewrite <- bpow_plus; apply bpow_le; lia|apply Rmult_le_compat_l; [apply bpow_ge_0|lra]]. }
    assert (BB : bp (-398) * A <= bp (-250) * A) by (apply Rmult_le_compat_r; [lra|apply bpow_le; lia]).
    assert (TB : Rabs (DV t) <= 4 * (bp (-250) * A)). { assert (K := tri _ _ _ _ Et (Rle_refl _)). lra. }
    assert (B120 : 4 * (bp (-250) * A) <= bp (-120) * A). { assert (E : bp (-248) = 4 * bp (-250)) by exact (bp_split (-250) 2 ltac:(lia)). assert (bp (-248) <= bp (-120)) by (apply bpow_le; lia). replace (4 * (bp (-250) * A)) with (bp (-248) * A) by (rewrite E; ring). apply Rmult_le_compat_r; lra. }
    apply (sinh_one lm dbg x N NZ H Nt); fold m; fold t; [exact (Rle_trans _ _ _ TB B120)|].
    assert (Ft : fis_nan (d0 t) = false) by (apply Fin_nan; apply Nt). destruct (d_abs_ok _ Ft) as (_ & _ & _ & K). destruct (K Nt) as [_ Va]. rewrite Va, Vb.
    rewrite vv_bp in Eth. assert (TH := tri2 _ _ _ _ Eth (Rle_refl _)). rewrite (Rabs_mult (DV x)), (Rabs_pos_eq (DV D_EPSILON)) in TH by lra. fold A in TH.
    assert (AE : A * (399 / 100 * vv) <= A * DV D_EPSILON) by (apply Rmult_le_compat_l; lra). assert (E : bp (-106) = 16384 * bp (-120)) by exact (bp_split (-120) 14 ltac:(lia)). rewrite vv_bp in E.
    assert (P12 := bpow_gt_0 radix2 (-120)). assert (VA : vv * A = 16384 * (bp (-120) * A)) by (rewrite E; ring). assert (B39' : bp (-398) * A <= bp (-120) * A) by (apply Rmult_le_compat_r; [lra|apply bpow_le; lia]).
    assert (0 <= A * DV D_EPSILON) by (apply Rmult_le_pos; lra). lra.
Qed.
Lemma DV_is_zero a : DNorm a -> DV a = 0 -> d_is_zero a = true.
Proof.
  intros N Z. unfold d_is_zero. apply SpecialProofs.f_zero_iff. split; [apply N|]. assert (K := DNorm_hi_rel a N). rewrite Z, Rabs_R0 in K.
  destruct (Req_dec (V (d0 a)) 0) as [Q|Q]; [exact Q|]. assert (P := Rabs_pos_lt _ Q). lra.
Qed.
(** sinh of every normalized number returns *)
Lemma d_sinh_total lm dbg x : DNorm x -> exists r, d_sinh lm dbg x = Val r.
Proof.
  intros N. destruct (Req_dec (DV x) 0) as [Z|Z].
  - assert (E : d_is_zero x = true) by (apply DV_is_zero; assumption). unfold d_sinh, d_pre_sinh. assert (d_is_nan x = false) by (apply Fin_nan; apply N). rewrite H, E. eauto.
  - destruct (Rle_or_lt (Rabs (DV x)) (bp (-200))) as [L|L].
    + destruct (d_sinh_tiny lm dbg x N Z L) as (r & K & _). eauto.
    + destruct (nz_pre x N Z) as (E1 & E2 & E3). destruct (branch x N) as [(B1 & B2 & B3)|(B1 & B2 & B3)].
      * unfold d_sinh, d_pre_sinh. rewrite E1, E2, E3, B1. eauto.
      * destruct (d_sinh_small lm dbg x N (conj (Rlt_le _ _ L) B3) B1) as (r & K & _). eauto.
Qed.
Lemma d_sinh_small_all lm dbg x : DNorm x -> Rabs (DV x) <= 49 / 1000 ->
  exists r, d_sinh lm dbg x = Val r /\ DNorm r /\ Rabs (DV r - sinh (DV x)) <= 65 * vv * Rabs (sinh (DV x)).
Proof.
  intros N H. destruct (Req_dec (DV x) 0) as [Z|Z].
  - assert (E : d_is_zero x = true) by (apply DV_is_zero; assumption). exists x. unfold d_sinh, d_pre_sinh. assert (d_is_nan x = false) by (apply Fin_nan; apply N). rewrite H0, E. split; [reflexivity|]. split; [exact N|].
    rewrite Z, sinh_0, Rminus_diag_eq, Rabs_R0 by reflexivity. lra.
  - destruct (Rle_or_lt (Rabs (DV x)) (bp (-200))) as [L|L]; [|apply d_sinh_small_ok; [exact N|lra]].
    destruct (d_sinh_tiny lm dbg x N Z L) as (r & K1 & K2 & K3). exists r. split; [exact K1|]. split; [exact K2|]. apply Rle_trans with (1 := K3). assert (K := sinh_lower (DV x) ltac:(lra)). assert (P := Rabs_pos (DV x)). lra.
Qed.
Lemma d_sinh_all lm dbg x : DNorm x -> Rabs (DV x) <= 600 ->
  exists r, d_sinh lm dbg x = Val r /\ DNorm r /\ Rabs (DV r - sinh (DV x)) <= hb (DV x) * cosh (DV x).
Proof.
  intros N H. destruct (Rle_or_lt (bp (-200)) (Rabs (DV x))) as [L|L]; [apply d_sinh_ok; [exact N|lra]|].
  assert (S1 : bp (-200) <= / 1000000) by (apply Rle_trans with (bp (-20)); [apply bpow_le; lia|change (bp (-20)) with (/ 1048576); lra]).
  destruct (d_sinh_small_all lm dbg x N ltac:(lra)) as (r & K1 & K2 & K3). exists r. split; [exact K1|]. split; [exact K2|]. apply Rle_trans with (1 := K3).
  destruct (cosh_ge (DV x)) as (C1 & _ & SC). assert (K := sinh_lower (DV x) ltac:(lra)). assert (P := Rabs_pos (DV x)). apply Rle_trans with (hb (DV x) * 1); [unfold hb; lra|]. apply Rmult_le_compat_l; [unfold hb; lra|exact C1].
Qed.
Lemma tiny_cosh lm dbg s : printer lm -> DNorm s -> Rabs (DV s) <= bp (-199) ->
  exists c, d_sqrt lm dbg (d_add D_ONE (d_sqr s)) = Val c /\ rel (36 * vv) c 1.
Proof.
  intros PR N H. assert (P := Rabs_pos (DV s)). assert (B : bp (-199) <= / 1000) by (apply Rle_trans with (bp (-10)); [apply bpow_le; lia|change (bp (-10)) with (/ 1024); lra]).
  assert (K := DNorm_hi_rel s N). destruct (d_sqr_any s N) as [N2 E2]. { apply Rle_trans with 1; [lra|]. change 1 with (bp 0). apply bpow_le. lia. }
  assert (SS : 0 <= DV s * DV s <= bp (-398)). { split; [apply Rle_0_sqr|]. rewrite sq_abs. replace (bp (-398)) with (bp (-199) * bp (-199)) by (rewrite <- bpow_plus; reflexivity). apply Rmult_le_compat; lra. }
  assert (B3 : bp (-106) = 16384 * bp (-120)) by exact (bp_split (-120) 14 ltac:(lia)). assert (B4 : bp (-398) <= bp (-120)) by (apply bpow_le; lia). assert (B5 : bp (-890) <= bp (-120)) by (apply bpow_le; lia). rewrite vv_bp in *. assert (P4 := bpow_gt_0 radix2 (-398)).
  assert (D : Rabs (DV (d_sqr s) - 0) <= / 10 * vv). { replace (DV (d_sqr s) - 0) with ((DV (d_sqr s) - DV s * DV s) + DV s * DV s) by ring. eapply Rle_trans; [apply Rabs_triang|]. rewrite (Rabs_pos_eq (DV s * DV s)) by lra. lra. }
  destruct one_ok as [N1 E1]. assert (B1000 : 4 <= bp 1000) by (change 4 with (bp 2); apply bpow_le; lia). assert (D' := D). rewrite Rminus_0_r in D'.
  destruct (sum_near D_ONE (d_sqr s) 1 0 0 (/ 10 * vv) N1 N2) as [[NA EA] _]; [rewrite E1, Rminus_diag_eq, Rabs_R0 by reflexivity; lra|exact D|rewrite E1, Rabs_R1; lra|lra|].
  rewrite Rplus_0_r, Rabs_R1 in EA.
  assert (RA : rel (67 / 10 * vv) (d_add D_ONE (d_sqr s)) 1). { split; [exact NA|]. rewrite Rabs_R1. lra. }
  assert (S1 : bp (-790) <= 1) by (change 1 with (bp 0); apply bpow_le; lia). assert (S2 : 2 <= bp 790) by (change 2 with (bp 1); apply bpow_le; lia).
  destruct (rel_sqrt lm dbg _ _ _ PR RA ltac:(lra) ltac:(lra)) as (c & K1 & K2). rewrite sqrt_1 in K2. exists c. split; [exact K1|]. apply rel_le with (1 := K2). lra.
Qed.
Lemma cosh_tiny X : Rabs X <= bp (-200) -> Rabs (cosh X - 1) <= bp (-398).
Proof.
  intros H. assert (P := Rabs_pos X). assert (S1 : bp (-200) <= / 1000000) by (apply Rle_trans with (bp (-20)); [apply bpow_le; lia|change (bp (-20)) with (/ 1048576); lra]).
  assert (K := sinh_lower X ltac:(lra)). assert (Q := cosh_sq X). destruct (cosh_ge X) as (C1 & _). rewrite (sq_abs (sinh X)) in Q.
  assert (B : bp (-398) = 4 * (bp (-200) * bp (-200))) by (rewrite <- bpow_plus; exact (bp_split (-400) 2 ltac:(lia))).
  assert (SS : Rabs (sinh X) * Rabs (sinh X) <= (2 * bp (-200)) * (2 * bp (-200))) by (apply Rmult_le_compat; lra).
  rewrite Rabs_pos_eq by lra. rewrite B. assert (0 <= (cosh X - 1) * (cosh X - 1)) by apply Rle_0_sqr. lra.
Qed.
Lemma d_sinh_cosh_tiny lm dbg x : printer lm -> DNorm x -> DV x <> 0 -> Rabs (DV x) <= bp (-200) ->
  exists s c, d_sinh_cosh lm dbg x = Val (s, c) /\ DNorm s /\ Rabs (DV s - sinh (DV x)) <= 7 * vv * Rabs (DV x) /\ rel (37 * vv) c (cosh (DV x)).
Proof.
  intros PR N NZ H. destruct (nz_pre x N NZ) as (E1 & E2 & E3).
  assert (S1 : bp (-200) <= / 1000000) by (apply Rle_trans with (bp (-20)); [apply bpow_le; lia|change (bp (-20)) with (/ 1048576); lra]).
  destruct (branch x N) as [(B1 & B2 & B3)|(B1 & B2 & B3)]; [lra|]. unfold d_sinh_cosh, d_pre_sinh_cosh. rewrite E1, E2, B2.
  destruct (d_sinh_tiny lm dbg x N NZ H) as (s & K1 & K2 & K3). rewrite K1. cbn [obind]. assert (SL := sinh_lower (DV x) ltac:(lra)). assert (P := Rabs_pos (DV x)).
  assert (T1 := tri _ _ _ _ K3 (Rle_refl _)). assert (B : bp (-199) = 2 * bp (-200)) by exact (bp_split (-200) 1 ltac:(lia)).
  destruct (tiny_cosh lm dbg s PR K2 ltac:(lra)) as (c & K5 & K6). rewrite K5. cbn [obind]. exists s, c. split; [reflexivity|]. split; [exact K2|]. split; [exact K3|].
  destruct K6 as [Nc Ec]. split; [exact Nc|]. rewrite Rabs_R1 in Ec. assert (CT := cosh_tiny _ H). destruct (cosh_ge (DV x)) as (C1 & _). rewrite (Rabs_pos_eq (cosh _)) by lra.
  assert (B4 : bp (-106) = 16384 * bp (-120)) by exact (bp_split (-120) 14 ltac:(lia)). assert (B5 : bp (-398) <= bp (-120)) by (apply bpow_le; lia). rewrite vv_bp in B4. assert (P4 := bpow_gt_0 radix2 (-120)).
  replace (DV c - cosh (DV x)) with ((DV c - 1) - (cosh (DV x) - 1)) by ring. unfold Rminus at 1. eapply Rle_trans; [apply Rabs_triang|]. rewrite Rabs_Ropp. lra.
Qed.
Lemma zero_pre x : DNorm x -> DV x = 0 -> d_is_nan x = false /\ d_is_zero x = true.
Proof. intros N Z. split; [apply Fin_nan; apply N|]. apply DV_is_zero; assumption. Qed.
Lemma d_sinh_cosh_all lm dbg x : printer lm -> DNorm x -> Rabs (DV x) <= 600 ->
  exists s c, d_sinh_cosh lm dbg x = Val (s, c) /\ DNorm s /\ DNorm c /\ Rabs (DV s - sinh (DV x)) <= hb (DV x) * cosh (DV x) /\ Rabs (DV c - cosh (DV x)) <= hb (DV x) * cosh (DV x).
Proof.
  intros PR N U. destruct (Rle_or_lt (bp (-200)) (Rabs (DV x))) as [L|L]; [apply d_sinh_cosh_ok; [exact PR|exact N|lra]|]. destruct (cosh_ge (DV x)) as (C1 & _ & SC). assert (P := Rabs_pos (DV x)).
  assert (S1 : bp (-200) <= / 1000000) by (apply Rle_trans with (bp (-20)); [apply bpow_le; lia|change (bp (-20)) with (/ 1048576); lra]).
  assert (HB : 505 * vv * cosh (DV x) <= hb (DV x) * cosh (DV x)) by (apply Rmult_le_compat_r; [lra|unfold hb; lra]).
  destruct (Req_dec (DV x) 0) as [Z|Z].
  - destruct (zero_pre x N Z) as [E1 E2]. exists D_ZERO, D_ONE. destruct one_ok as [N1 E1']. unfold d_sinh_cosh, d_pre_sinh_cosh. rewrite E1, E2. split; [reflexivity|].
    assert (N0 : DNorm D_ZERO /\ DV D_ZERO = 0). { assert (F : Fin f0) by reflexivity. destruct (d_single_norm f0 F) as [NN EE]. split; [exact NN|]. change D_ZERO with (mkD f0 f0). rewrite EE. reflexivity. }
    destruct N0 as [N0 V0]. split; [exact N0|]. split; [exact N1|]. rewrite V0, E1', Z, sinh_0, cosh_0. replace (0 - 0) with 0 by ring. replace (1 - 1) with 0 by ring. rewrite Rabs_R0. unfold hb. rewrite Rabs_R0. lra.
  - destruct (d_sinh_cosh_tiny lm dbg x PR N Z ltac:(lra)) as (s & c & K1 & K2 & K3 & K4 & K5). exists s, c. split; [exact K1|]. split; [exact K2|]. split; [exact K4|].
    rewrite (Rabs_pos_eq (cosh _)) in K5 by lra. split; lra.
Qed.
Lemma d_tanh_all lm dbg x : printer lm -> DNorm x -> Rabs (DV x) <= 600 ->
  exists r, d_tanh lm dbg x = Val r /\ DNorm r /\ Rabs (DV r - tanh (DV x)) <= 600 * vv.
Proof.
  intros PR N U. destruct (Rle_or_lt (bp (-200)) (Rabs (DV x))) as [L|L]. { destruct (d_tanh_ok lm dbg x PR N (conj L U)) as (r & K1 & K2 & K3 & _). eauto. }
  destruct (cosh_ge (DV x)) as (C1 & _ & SC). assert (P := Rabs_pos (DV x)). assert (S1 : bp (-200) <= / 1000000) by (apply Rle_trans with (bp (-20)); [apply bpow_le; lia|change (bp (-20)) with (/ 1048576); lra]).
  destruct (Req_dec (DV x) 0) as [Z|Z].
  - destruct (zero_pre x N Z) as [E1 E2]. exists D_ZERO. unfold d_tanh, d_pre_tanh. rewrite E1, E2. split; [reflexivity|].
    assert (N0 : DNorm D_ZERO /\ DV D_ZERO = 0). { assert (F : Fin f0) by reflexivity. destruct (d_single_norm f0 F) as [NN EE]. split; [exact NN|]. change D_ZERO with (mkD f0 f0). rewrite EE. reflexivity. }
    destruct N0 as [N0 V0]. split; [exact N0|]. rewrite V0, Z. unfold tanh. rewrite sinh_0. unfold Rdiv. rewrite Rmult_0_l, Rminus_diag_eq, Rabs_R0 by reflexivity. lra.
  - destruct (nz_pre x N Z) as (E1 & E2 & E3). unfold d_tanh, d_pre_tanh. rewrite E1, E2, E3. destruct (branch x N) as [(B1 & B2 & B3)|(B1 & B2 & B3)]; [lra|]. rewrite B1.
    destruct (d_sinh_cosh_tiny lm dbg x PR N Z ltac:(lra)) as (s & c & K1 & K2 & K3 & K4 & K5). rewrite K1. cbn [obind]. eexists. split; [reflexivity|].
    assert (CT := cosh_tiny (DV x) ltac:(lra)). assert (CT' := Rabs_def2' _ _ CT). assert (B4 : bp (-398) <= / 1000000) by (apply Rle_trans with (2 := S1); apply bpow_le; lia).
    rewrite (Rabs_pos_eq (cosh _)) in K5 by lra. assert (K5' := Rabs_def2' _ _ K5). assert (SL := sinh_lower (DV x) ltac:(lra)). assert (T1 := tri _ _ _ _ K3 (Rle_refl _)).
    assert (B9 : 1 <= bp 900) by (change 1 with (bp 0); apply bpow_le; lia).
    destruct (div_mid s c K2 K4) as [NQ EQ]; [rewrite Rabs_pos_eq; lra|lra|]. split; [exact NQ|].
    assert (Q1 : Rabs (DV s / DV c) <= 2 * Rabs (DV s)). { unfold Rdiv. rewrite Rabs_mult, Rmult_comm. apply Rmult_le_compat_r; [apply Rabs_pos|]. rewrite Rabs_inv, Rabs_pos_eq by lra. replace 2 with (/ / 2) by field. apply Rinv_le_contravar; lra. }
    assert (Q2 : Rabs (tanh (DV x)) <= Rabs (sinh (DV x))). { unfold tanh, Rdiv. rewrite Rabs_mult, Rabs_inv, (Rabs_pos_eq (cosh _)) by lra. rewrite <- (Rmult_1_r (Rabs (sinh (DV x)))) at 2. apply Rmult_le_compat_l; [apply Rabs_pos|]. rewrite <- Rinv_1. apply Rinv_le_contravar; lra. }
    assert (B5 : bp (-106) = 16384 * bp (-120)) by exact (bp_split (-120) 14 ltac:(lia)). assert (B6 : bp (-200) <= bp (-120)) by (apply bpow_le; lia). assert (B7 : bp (-860) <= bp (-120)) by (apply bpow_le; lia). rewrite vv_bp in B5. assert (P4 := bpow_gt_0 radix2 (-120)).
    assert (TQ := tri _ _ _ _ EQ (Rle_refl _)). unfold Rminus at 1. eapply Rle_trans; [apply Rabs_triang|]. rewrite Rabs_Ropp. lra.
Qed.
