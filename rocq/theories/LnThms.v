(** * Accuracy of Double ln, log10, log2, log and powf *)
From Coq Require Import ZArith Reals Lra Lia Psatz List Bool.
From Flocq Require Import Core IEEE754.BinarySingleNaN.
From Verif Require Import RN F64 Prim DoubleM Spec F64Facts EFT DAddProofs DMulProofs DDivProofs ExactProofs MulAny LdexpProofs LawProofs OrderProofs RoundProofs SqrtProofs AbsOps Exact ConstM BaseConst ConstProofs ConstMore AlgM TransM TransProofs ExpProofs ExpThms.
Local Open Scope R_scope.

Lemma DNorm_in lo hi x : fmt lo -> fmt hi -> DNorm x -> lo <= DV x <= hi -> lo <= V (d0 x) <= hi.
Proof.
  intros Fl Fh [_ E] H. rewrite E. change RN with rn. assert (K1 := rn_le _ _ (proj1 H)). assert (K2 := rn_le _ _ (proj2 H)). rewrite (rn_id lo Fl) in K1. rewrite (rn_id hi Fh) in K2. lra.
Qed.
Lemma fmt_Z z : (Z.abs z <= 2 ^ 53)%Z -> fmt (IZR z).
Proof. intros H. rewrite <- (proj2 (fofZ_exact z H)). apply V_fmt. Qed.
Lemma d_exp_okv a : DNorm a -> -600 <= DV a <= 708 ->
  DNorm (d_exp a) /\ Rabs (DV (d_exp a) - exp (DV a)) <= (15 * Rabs (DV a) + 480) * vv * exp (DV a).
Proof. intros N H. apply d_exp_ok; [exact N|]. apply DNorm_in; auto; apply fmt_Z; lia. Qed.

(** ** one Newton step *)
Definition nstep (a x : Double) : Double := d_sub (d_add x (d_mul a (d_exp (d_neg x)))) D_ONE.
Definition eta (l : R) : R := (272 / 10 * Rabs l + 499) * vv.
Lemma nstep_ok a x l e : DNorm a -> DNorm x -> DV a = exp l -> -7079 / 10 <= l <= 5999 / 10 -> Rabs (DV x - l) <= e -> e <= / 100000000 ->
  DNorm (nstep a x) /\ Rabs (DV (nstep a x) - l) <= 3 * (e * e) + eta l.
Proof.
  intros Na Nx Ea Hl He Le. unfold nstep. destruct (d_neg_val x) as [Vn Nn]. specialize (Nn Nx).
  set (X := DV x) in *. set (z := X - l) in *. assert (EX : X = l + z) by (unfold z; ring).
  assert (Pz := Rabs_pos z). assert (Bz := Rabs_def2' _ _ He).
  destruct (d_exp_okv (d_neg x) Nn) as [NE EE]; [rewrite Vn; lra|]. rewrite Vn, Rabs_Ropp in EE.
  set (E := d_exp (d_neg x)) in *. assert (PX := Rabs_pos X). assert (Pl := Rabs_pos l).
  assert (XL : Rabs X <= Rabs l + / 100000000). { rewrite EX. eapply Rle_trans; [apply Rabs_triang|]. lra. }
  assert (BX : Rabs X <= 708) by (apply Rabs_le; lra). assert (Bl : Rabs l <= 708) by (apply Rabs_le; lra).
  assert (PE := exp_pos (- X)). assert (PA : 0 < DV a) by (rewrite Ea; apply exp_pos).
  assert (AE : DV a * exp (- X) = exp (- z)) by (rewrite Ea, <- exp_plus; f_equal; lra).
  assert (TZ : Rabs (exp (- z) - 1 + z) <= 3 * (e * e)).
  { assert (K := exp_tail0 1 (- z)). rewrite Rabs_Ropp in K. specialize (K ltac:(lra)). cbn [esum fact pow Nat.mul Nat.add] in K. change (INR 1) with 1 in K.
    replace (exp (- z) - 1 + z) with (exp (- z) - (1 + - z * 1 / 1)) by field. apply Rle_trans with (1 := K).
    assert (Rabs z * Rabs z <= e * e) by (apply Rmult_le_compat; lra). lra. }
  assert (E2 : e * e <= / 100000000 * / 100000000) by (apply Rmult_le_compat; lra).
  assert (PZ : 9999999 / 10000000 <= exp (- z) <= 10000001 / 10000000) by (apply Rabs_def2' in TZ; lra).
  assert (R1 : Rabs (DV a * DV E - exp (- z)) <= (15 * Rabs X + 480) * vv * (10000001 / 10000000)).
  { rewrite <- AE. replace (DV a * DV E - DV a * exp (- X)) with (DV a * (DV E - exp (- X))) by ring. rewrite Rabs_mult, (Rabs_pos_eq (DV a)) by lra.
    apply Rle_trans with (DV a * ((15 * Rabs X + 480) * vv * exp (- X))); [apply Rmult_le_compat_l; lra|].
    replace (DV a * ((15 * Rabs X + 480) * vv * exp (- X))) with ((15 * Rabs X + 480) * vv * (DV a * exp (- X))) by ring. rewrite AE.
    apply Rmult_le_compat_l; lra. }
  assert (BP : Rabs (DV a * DV E) <= 1000001 / 1000000). { apply Rle_trans with (exp (- z) + (15 * Rabs X + 480) * vv * (10000001 / 10000000)); [|lra]. apply Rabs_le. apply Rabs_def2' in R1. lra. }
  destruct (d_mul_any a E Na NE) as [Np Ep].
  { assert (Ha := DNorm_hi_rel a Na). assert (Hb := DNorm_hi_rel E NE). rewrite Rabs_mult.
    apply Rle_trans with ((1 + 2 * u) * Rabs (DV a) * ((1 + 2 * u) * Rabs (DV E))); [apply Rmult_le_compat; auto using Rabs_pos|].
    replace ((1 + 2 * u) * Rabs (DV a) * ((1 + 2 * u) * Rabs (DV E))) with ((1 + 2 * u) * (1 + 2 * u) * (Rabs (DV a) * Rabs (DV E))) by ring. rewrite <- Rabs_mult.
    apply Rle_trans with 4; [|change 4 with (bp 2); apply bpow_le; lia]. apply Rle_trans with ((1 + 2 * u) * (1 + 2 * u) * 2); [apply Rmult_le_compat_l; lra|lra]. }
  rewrite vv_bp in Ep. set (p := d_mul a E) in *.
  assert (T73 : bp (-1073) <= vv). { rewrite <- vv_bp. apply bpow_le. lia. }
  assert (EP : Rabs (DV p - exp (- z)) <= (151 / 10 * Rabs X + 492) * vv).
  { replace (DV p - exp (- z)) with ((DV p - DV a * DV E) + (DV a * DV E - exp (- z))) by ring. eapply Rle_trans; [apply Rabs_triang|]. lra. }
  assert (Bp : Rabs (DV p) <= 1001 / 1000). { apply Rabs_def2' in EP. apply Rabs_le. lra. }
  destruct (add_abs x p Nx Np) as [Ns Es]; [apply b100; fold X; lra|apply b100; lra|]. fold X in Es. set (s := d_add x p) in *.
  assert (BS : Rabs (X + DV p) <= Rabs X + 1001 / 1000) by (assert (K := Rabs_triang X (DV p)); lra).
  destruct one_ok as [NO VO].
  assert (Bs : Rabs (DV s) <= 720) by (assert (K := tri _ _ _ _ Es BS); lra).
  destruct (sub_abs s D_ONE Ns NO) as [Nr Er]; [apply b100; lra|apply b100; rewrite VO, Rabs_pos_eq; lra|]. split; [exact Nr|]. rewrite VO in Er.
  set (r := d_sub s D_ONE) in *.
  assert (BR : Rabs (DV s - 1) <= Rabs X + 1 / 100).
  { replace (DV s - 1) with ((DV s - (X + DV p)) + (X + ((DV p - exp (- z)) + (exp (- z) - 1)))) by ring.
    assert (K1 : Rabs (exp (- z) - 1) <= / 1000) by (apply Rabs_le; lra).
    assert (K2 := Rabs_triang (DV s - (X + DV p)) (X + ((DV p - exp (- z)) + (exp (- z) - 1)))).
    assert (K3 := Rabs_triang X ((DV p - exp (- z)) + (exp (- z) - 1))). assert (K4 := Rabs_triang (DV p - exp (- z)) (exp (- z) - 1)). lra. }
  replace (DV r - l) with ((DV r - (DV s - 1)) + ((DV s - (X + DV p)) + ((DV p - exp (- z)) + (exp (- z) - 1 + z)))) by (rewrite EX; ring).
  assert (K2 := Rabs_triang (DV r - (DV s - 1)) ((DV s - (X + DV p)) + ((DV p - exp (- z)) + (exp (- z) - 1 + z)))).
  assert (K3 := Rabs_triang (DV s - (X + DV p)) ((DV p - exp (- z)) + (exp (- z) - 1 + z))). assert (K4 := Rabs_triang (DV p - exp (- z)) (exp (- z) - 1 + z)).
  unfold eta. lra.
Qed.

(** ** 2.powi(k) for any k *)
Definition big (a : f64) : Prop := a = B754_infinity false \/ (Fin a /\ 1 <= V a).
Lemma big_sign a : Fin a -> 1 <= V a -> Bsign a = false.
Proof.
  intros F H. destruct a as [s|s| |s m e h]; try discriminate; unfold V, B2R in H; [lra|]. destruct s; [|reflexivity].
  assert (K : F2R (Float radix2 (cond_Zopp true (Zpos m)) e) < 0) by (apply F2R_lt_0; reflexivity). lra.
Qed.
Lemma fmul_big a b : big a -> big b -> big (fmul a b).
Proof.
  intros [->|[Fa Ha]] [->|[Fb Hb]].
  - left. reflexivity.
  - left. assert (S := big_sign b Fb Hb). destruct b as [s|s| |s m e h]; try discriminate; unfold V, B2R in Hb; [lra|]. cbn in S. subst s. reflexivity.
  - left. assert (S := big_sign a Fa Ha). destruct a as [s|s| |s m e h]; try discriminate; unfold V, B2R in Ha; [lra|]. cbn in S. subst s. reflexivity.
  - assert (K := Bmult_correct prec emax _ _ mode_NE a b). change (round radix2 _ _ _) with (rn (V a * V b)) in K.
    destruct (Rlt_bool (Rabs (rn (V a * V b))) (bpow radix2 emax)) eqn:L.
    + destruct K as (K1 & K2 & _). right. split.
      * unfold Fin, fmul in *. rewrite K2, Fa, Fb. reflexivity.
      * change (V (fmul a b)) with (B2R (Bmult mode_NE a b)). rewrite K1. rewrite <- (rn_id 1) by (change 1 with (bp 0); apply fmt_bpow; lia). apply rn_le. nra.
    + left. rewrite (big_sign a Fa Ha), (big_sign b Fb Hb) in K. change (fmul a b) with (Bmult mode_NE a b).
      destruct (Bmult mode_NE a b) as [s|s| |s m e h]; cbn in K; try discriminate. injection K as ->. reflexivity.
Qed.
Lemma powi_big p : forall r a, big r -> big a -> big (powi_loop r a p).
Proof. induction p as [p IH|p IH|]; intros r a Hr Ha; cbn [powi_loop]; [apply IH; now apply fmul_big|apply IH; [exact Hr|now apply fmul_big]|now apply fmul_big]. Qed.
Lemma fpowi2_le k z : (z <= k)%Z -> (0 <= k <= 1023)%Z -> Fin (fpowi f2 z) /\ 0 <= V (fpowi f2 z) <= bp k.
Proof.
  intros H Hk. destruct (Z_le_gt_dec (-1023) z) as [L|L].
  - destruct (fpowi2 z ltac:(lia)) as [F E]. rewrite E. split; [exact F|]. split; [apply bpow_ge_0|apply bpow_le; exact H].
  - assert (P1 : 1 <= bp k) by (change 1 with (bp 0); apply bpow_le; lia).
    destruct z as [|p|p]; try lia. cbn [fpowi].
    assert (B : big (powi_loop f1 f2 p)) by (apply powi_big; right; split; [apply Fin_1|rewrite V_1; lra|apply Fin_2|rewrite V_2; lra]).
    destruct B as [->|[F V1]].
    + replace (fdiv f1 (B754_infinity false)) with f0 by (vm_compute; reflexivity). split; [exact Fin_0|]. rewrite V_0. lra.
    + set (w := powi_loop f1 f2 p) in *. assert (Q : 0 < V f1 / V w <= 1).
      { rewrite V_1. unfold Rdiv. rewrite Rmult_1_l. split; [apply Rinv_0_lt_compat; lra|]. rewrite <- Rinv_1. apply Rinv_le_contravar; lra. }
      assert (F1' : fmt 1) by (change 1 with (bp 0); apply fmt_bpow; lia).
      destruct (fdiv_fin f1 w 1 Fin_1 F ltac:(lra)) as [Fd Vd]; [rewrite Rabs_pos_eq; lra|exact F1'|change 1 with (bp 0); apply bpow_lt; lia|].
      split; [exact Fd|]. rewrite Vd. assert (K := rn_le _ _ (proj2 Q)). rewrite (rn_id 1 F1') in K. assert (K2 := rn_ge_0 _ (Rlt_le _ _ (proj1 Q))). lra.
Qed.

(** ** the loop *)
Lemma d_lt_hi x y : Fin (d0 x) -> Fin (d0 y) -> d_lt x y = true -> V (d0 x) <= V (d0 y).
Proof.
  intros Fx Fy H. unfold d_lt, d_partial_cmp in H. rewrite (fcmp_ok _ _ Fx Fy) in H.
  destruct (Rcompare_spec (V (d0 x)) (V (d0 y))); lra.
Qed.
Lemma eta_le l : -7079 / 10 <= l <= 5999 / 10 -> 0 <= eta l <= 20000 * vv.
Proof. intros H. unfold eta. assert (Rabs l <= 708) by (apply Rabs_le; lra). assert (P := Rabs_pos l). split; [apply Rmult_le_pos; lra|apply Rmult_le_compat_r; lra]. Qed.
Lemma ln_loop_ok a eps l : DNorm a -> DV a = exp l -> -7079 / 10 <= l <= 5999 / 10 -> Fin (d0 eps) -> V (d0 eps) <= bp (-80) ->
  forall n x, DNorm x -> Rabs (DV x - l) <= / 1000000000000000000 -> 
  DNorm (d_ln_loop n a eps x) /\ Rabs (DV (d_ln_loop n a eps x) - l) <= eta l + vv.
Proof.
  intros Na Ea Hl Fe He. assert (Le := eta_le l Hl). induction n as [|n IH]; intros x Nx Hx; cbn [d_ln_loop]; fold (nstep a x);
    destruct (nstep_ok a x l _ Na Nx Ea Hl Hx ltac:(lra)) as [Nr Er]; set (r := nstep a x) in *.
  - destruct (d_lt _ _); (split; [exact Nr|lra]).
  - destruct (d_lt _ _); [split; [exact Nr|lra]|]. apply IH; [exact Nr|lra].
Qed.
Lemma ln_first a eps l n x : DNorm a -> DV a = exp l -> -7079 / 10 <= l <= 5999 / 10 -> Fin (d0 eps) -> V (d0 eps) <= bp (-80) -> DNorm x ->
  Rabs (DV x - l) <= / 100000000000 -> DNorm (d_ln_loop (S n) a eps x) /\ Rabs (DV (d_ln_loop (S n) a eps x) - l) <= eta l + vv.
Proof.
  intros Na Ea Hl Fe He Nx Hx. assert (Le := eta_le l Hl). cbn [d_ln_loop]. fold (nstep a x).
  destruct (nstep_ok a x l _ Na Nx Ea Hl Hx ltac:(lra)) as [Nr Er].
  destruct (d_lt (d_abs (d_sub x (nstep a x))) eps) eqn:LT.
  - split; [exact Nr|]. set (r := nstep a x) in *. assert (BX : Rabs (DV x) <= 720). { apply Rabs_def2' in Hx. apply Rabs_le. lra. }
    assert (BR : Rabs (DV r) <= 720). { apply Rabs_def2' in Er. apply Rabs_le. lra. }
    destruct (sub_abs x r Nx Nr) as [Nd Ed]; [apply b100; lra|apply b100; lra|]. set (d := d_sub x r) in *.
    destruct (d_abs_ok d) as (_ & _ & _ & K); [apply Fin_nan; apply Nd|]. destruct (K Nd) as [Nb Vb].
    apply d_lt_hi in LT; [|apply Nb|exact Fe]. assert (HV := DNorm_val_rel _ Nb). rewrite Vb in HV.
    assert (E80 : bp (-80) = / 1208925819614629174706176) by reflexivity.
    assert (SG : 0 <= V (d0 (d_abs d))). { destruct Nb as [_ E]. rewrite E. change RN with rn. apply rn_ge_0. rewrite Vb. apply Rabs_pos. }
    assert (BD : Rabs (DV d) <= 2 * bp (-80)). { rewrite (Rabs_pos_eq (V (d0 (d_abs d)))) in HV by exact SG. apply Rabs_def2' in HV. lra. }
    assert (XR : Rabs (DV x - DV r) <= 3 * bp (-80)).
    { assert (Ed' : Rabs (DV d - (DV x - DV r)) <= 6 * vv * 1440). { apply Rle_trans with (1 := Ed). apply Rmult_le_compat_l; [lra|]. eapply Rle_trans; [apply Rabs_triang|]. rewrite Rabs_Ropp. lra. }
      assert (K1 := tri2 _ _ _ _ Ed' BD). lra. }
    assert (XL : Rabs (DV x - l) <= / 1000000000000000000).
    { replace (DV x - l) with ((DV x - DV r) + (DV r - l)) by ring. eapply Rle_trans; [apply Rabs_triang|]. lra. }
    destruct (nstep_ok a x l _ Na Nx Ea Hl XL ltac:(lra)) as [_ Er']. fold r in Er'. lra.
  - apply (ln_loop_ok a eps l Na Ea Hl Fe He); [exact Nr|lra].
Qed.

(** ** what is assumed of f64's own ln and log2 *)
Definition log_close (lm : libm) : Prop :=
  (forall a, Fin a -> 0 < V a -> Fin (lm_ln lm a) /\ Rabs (V (lm_ln lm a) - ln (V a)) <= bpow radix2 (-40)) /\
  (forall a, Fin a -> 0 <= V a <= 1024 -> fgtb (lm_log2 lm a) (fofZ 10) = false).
Lemma as_i32_le10 a : fgtb a (fofZ 10) = false -> (i32_min <= as_i32 (ffloor a) <= 10)%Z.
Proof.
  intros H. unfold as_i32, i32_min. destruct a as [s|s| |s m e h].
  - destruct s; vm_compute; split; discriminate.
  - destruct s; [vm_compute; split; discriminate|]. vm_compute in H. discriminate.
  - vm_compute; split; discriminate.
  - set (a := B754_finite s m e h) in *. assert (Fa : Fin a) by reflexivity.
    destruct (fnearbyint_ok mode_DN a Fa) as [Ff Vf]. change (Bnearbyint mode_DN a) with (ffloor a) in *.
    assert (L : V a <= 10).
    { destruct (Rle_or_lt (V a) 10) as [L|L]; auto. rewrite (fgt_c a 10) in H by (auto; lia). discriminate. }
    clearbody a. cbn [round_mode] in Vf.
    assert (T : Btrunc (ffloor a) = Zfloor (V a)).
    { apply eq_IZR. rewrite (Btrunc_correct prec emax _ (ffloor a)). change (B2R (ffloor a)) with (V (ffloor a)). rewrite Vf.
      rewrite round_generic; auto with typeclass_instances. apply generic_format_FIX. exists (Float radix2 (Zfloor (V a)) 0); cbn; [unfold F2R; cbn; ring|reflexivity]. }
    assert (B : (Zfloor (V a) <= 10)%Z) by (apply le_IZR; eapply Rle_trans; [apply Zfloor_lb|exact L]).
    unfold sat. destruct (ffloor a) as [s'|s'| |s' m' e' h']; try easy; rewrite T; lia.
Qed.
Lemma DNorm_pos_hi a : DNorm a -> 0 < DV a -> 0 < V (d0 a).
Proof.
  intros N H. assert (K := DNorm_val_rel a N). destruct (Rle_or_lt (V (d0 a)) 0) as [L|L]; [|exact L]. rewrite (Rabs_left1 (V (d0 a))) in K by exact L.
  apply Rabs_def2' in K. lra.
Qed.
Lemma ln_ratio a : DNorm a -> 0 < DV a -> Rabs (ln (V (d0 a)) - ln (DV a)) <= 4 * u.
Proof.
  intros N H. assert (P := DNorm_pos_hi a N H). assert (K := DNorm_val_rel a N). rewrite (Rabs_pos_eq (V (d0 a))) in K by lra.
  set (h := V (d0 a)) in *. set (D := DV a) in *. set (t := (D - h) / h).
  assert (Et : D = h * (1 + t)) by (unfold t; field; lra).
  assert (Bt : Rabs t <= u). { unfold t, Rdiv. rewrite Rabs_mult, (Rabs_pos_eq (/ h)) by (left; now apply Rinv_0_lt_compat).
    apply Rmult_le_reg_r with h; [exact P|]. rewrite Rmult_assoc, Rinv_l by lra. lra. }
  apply Rabs_def2' in Bt. rewrite Et, ln_mult by lra. replace (ln h - (ln h + ln (1 + t))) with (- ln (1 + t)) by ring. rewrite Rabs_Ropp.
  apply Rabs_le. split.
  - assert (K1 := exp_ineq1_le (- (4 * u))). rewrite <- (ln_exp (- (4 * u))).
    destruct (Rle_or_lt (exp (- (4 * u))) (1 + t)) as [L|L]; [destruct L as [L|L]; [left; apply ln_increasing; [apply exp_pos|exact L]|rewrite L; lra]|].
    exfalso. assert (K2 := exp_ineq1_le (4 * u)). assert (K3 : exp (4 * u) * exp (- (4 * u)) = 1) by (rewrite <- exp_plus, Rplus_opp_r; apply exp_0).
    assert (K4 : exp (- (4 * u)) <= / (1 + 4 * u)).
    { apply Rmult_le_reg_l with (1 + 4 * u); [lra|]. rewrite Rinv_r by lra. rewrite <- K3. apply Rmult_le_compat_r; [left; apply exp_pos|lra]. }
    lra.
  - assert (K1 := exp_ineq1_le (4 * u)). rewrite <- (ln_exp (4 * u)). left. apply ln_increasing; lra.
Qed.
Lemma eps_small k : (k <= 12)%Z -> Fin (d0 (d_mul_pwr2 D_EPSILON (fpowi f2 k))) /\ V (d0 (d_mul_pwr2 D_EPSILON (fpowi f2 k))) <= bp (-80).
Proof.
  intros H. destruct (fpowi2_le 12 k H ltac:(lia)) as [F B]. cbn [d0 d_mul_pwr2].
  assert (E : Fin (d0 D_EPSILON) /\ 0 <= V (d0 D_EPSILON) <= bp (-100)).
  { assert (N : DNorm D_EPSILON) by (apply dnormx_ok; vm_compute; reflexivity). split; [apply N|].
    assert (K := proj2 d_epsilon_refuted). unfold DV in K. change (d1 D_EPSILON) with f0 in K. rewrite V_0, Rplus_0_r in K.
    assert (P := bpow_gt_0 radix2 (-104)). assert (E16 : bp (-100) = 16 * bp (-104)) by exact (bp_split (-104) 4 ltac:(lia)).
    change (bp (-49)) with (/ 562949953421312) in K. apply Rabs_def2' in K. lra. }
  destruct E as [Fe Be]. assert (PB : 0 <= V (d0 D_EPSILON) * V (fpowi f2 k) <= bp (-80)).
  { split; [apply Rmult_le_pos; lra|]. apply Rle_trans with (bp (-100) * bp 12); [apply Rmult_le_compat; lra|]. rewrite <- bpow_plus. apply bpow_le. lia. }
  destruct (fmul_ok _ _ Fe F) as (Fm & Vm & _).
  { eapply Rlt_ovf; [rewrite Rabs_pos_eq; [apply PB|lra]|apply fmt_bpow; lia|apply bpow_lt; lia]. }
  split; [exact Fm|]. rewrite Vm. rewrite <- (rn_id (bp (-80))) by (apply fmt_bpow; lia). apply rn_le. lra.
Qed.
Lemma d_ln_ok lm dbg a : log_close lm -> DNorm a -> 0 < DV a -> -7079 / 10 <= ln (DV a) <= 5999 / 10 ->
  exists r, d_ln lm dbg a = Val r /\ DNorm r /\ Rabs (DV r - ln (DV a)) <= (272 / 10 * Rabs (ln (DV a)) + 500) * vv.
Proof.
  intros [C1 C2] N P Hl. unfold d_ln, d_pre_ln. assert (FA : Fin (d0 a)) by apply N. assert (PH := DNorm_pos_hi a N P).
  set (l := ln (DV a)) in *. assert (EL : DV a = exp l) by (unfold l; now rewrite exp_ln). assert (Pl := Rabs_pos l).
  replace (d_is_nan a) with false by (symmetry; apply Fin_nan; exact FA).
  replace (d_is_sign_negative a) with false.
  2: { symmetry. unfold d_is_sign_negative. destruct (d0 a) as [s|s| |s m e h]; try discriminate; unfold V, B2R in PH; [lra|]. destruct s; [|reflexivity].
       assert (K : F2R (Float radix2 (cond_Zopp true (Zpos m)) e) < 0) by (apply F2R_lt_0; reflexivity). lra. }
  replace (d_is_zero a) with false.
  2: { symmetry. unfold d_is_zero. destruct (feqb (d0 a) f0) eqn:Q; [|reflexivity]. apply feqb_V in Q; auto using Fin_0. rewrite V_0 in Q. lra. }
  replace (d_is_infinite a) with false.
  2: { symmetry. unfold d_is_infinite. destruct (d0 a); try discriminate; reflexivity. }
  destruct (d_eq a D_ONE) eqn:E1.
  { destruct one_ok as [ON OV]. apply (proj1 (proj1 (proj2 (d_ord_ok _ _ N ON)))) in E1. rewrite OV in E1. exists D_ZERO. split; [reflexivity|].
    split; [apply DNorm_const|]. unfold l. rewrite E1, ln_1, Rabs_R0. replace (DV D_ZERO - 0) with 0 by (unfold DV; cbn [d0 d1 D_ZERO]; change (V _) with 0; ring). rewrite Rabs_R0. lra. }
  destruct (C1 _ FA PH) as [F0 V0]. set (x0 := lm_ln lm (d0 a)) in *. cbn [d0].
  assert (LR := ln_ratio a N P). fold l in LR. change (bpow radix2 (-40)) with (/ 1099511627776) in V0.
  assert (X0 : Rabs (V x0 - l) <= / 100000000000).
  { replace (V x0 - l) with ((V x0 - ln (V (d0 a))) + (ln (V (d0 a)) - l)) by ring. eapply Rle_trans; [apply Rabs_triang|]. lra. }
  destruct (fabs_ok x0 F0) as [Fx Vx].
  assert (K := as_i32_le10 _ (C2 (fabs x0) Fx ltac:(rewrite Vx; split; [apply Rabs_pos|apply Rabs_def2' in X0; apply Rabs_le; lra]))).
  set (k := as_i32 _) in *. rewrite i32_chk_in by (unfold i32_min, i32_max in *; lia). cbn [obind].
  destruct (eps_small (k + 2) ltac:(lia)) as [Fe Be]. destruct (d_single_norm x0 F0) as [Nx Dx].
  eexists. split; [reflexivity|].
  destruct (ln_first a (d_mul_pwr2 D_EPSILON (fpowi f2 (k + 2))) l 5 (mkD x0 f0) N EL Hl Fe Be Nx) as [R1 R2]; [rewrite Dx; exact X0|].
  split; [exact R1|]. unfold eta in R2. lra.
Qed.

(** ** quotients of logarithms *)
Lemma log_div L M l m rho : DNorm L -> DNorm M -> Rabs l <= 708 -> bp (-30) <= Rabs m <= 708 -> Rabs (DV L - l) <= (272 / 10 * Rabs l + 500) * vv ->
  Rabs (DV M - m) <= rho * vv * Rabs m -> 0 <= rho <= bp 50 -> (DV L = 0 \/ bp (-200) <= Rabs (DV L)) ->
  DNorm (d_div L M) /\ Rabs (DV (d_div L M) - l / m) <= ((44 + 2 * rho) * Rabs l + 501) * vv / Rabs m.
Proof.
  intros NL NM Bl Bm EL EM Hr HL. change (bp 50) with 1125899906842624 in Hr. assert (B30 : bp (-30) = / 1073741824) by reflexivity.
  assert (Pl := Rabs_pos l). assert (Pm : 0 < Rabs m) by (assert (Q := bpow_gt_0 radix2 (-30)); lra).
  assert (RV : 0 <= rho * vv <= / 10000000000000000) by (split; [apply Rmult_le_pos; lra|]; apply Rle_trans with (1125899906842624 * vv); [apply Rmult_le_compat_r; lra|lra]).
  assert (RM : rho * vv * Rabs m <= / 10000000000000000 * Rabs m) by (apply Rmult_le_compat_r; lra).
  assert (MM : 999999 / 1000000 * Rabs m <= Rabs (DV M) <= 1000001 / 1000000 * Rabs m).
  { assert (K1 := tri _ _ _ _ EM (Rle_refl _)). assert (K2 := tri2 _ _ _ _ EM (Rle_refl _)). lra. }
  assert (M0 : DV M <> 0) by (intros Q; rewrite Q, Rabs_R0 in MM; lra). assert (m0 : m <> 0) by (intros Q; rewrite Q, Rabs_R0 in Pm; lra).
  assert (HM := DNorm_hi_rel M NM). assert (VM := DNorm_val_rel M NM). assert (HLr := DNorm_hi_rel L NL). assert (VL := DNorm_val_rel L NL).
  assert (H0 : bp (-31) <= Rabs (V (d0 M)) <= bp 10).
  { change (bp 10) with 1024. assert (E31 : bp (-31) = / 2147483648) by reflexivity. assert (P := Rabs_pos (V (d0 M))). assert (K := tri _ _ _ _ VM (Rle_refl _)). lra. }
  assert (NZ : V (d0 M) <> 0) by (intros Q; rewrite Q, Rabs_R0 in H0; assert (Q2 := bpow_gt_0 radix2 (-31)); lra).
  assert (BL : Rabs (DV L) <= 709). { assert (K := tri _ _ _ _ EL (Rle_refl _)). lra. }
  assert (W : div_window (V (d0 L)) (V (d0 M))).
  { destruct HL as [Z0|G]; [left; rewrite Z0, Rabs_R0 in HLr; apply Rabs_def2' in HLr; lra|right].
    assert (GL : bp (-201) <= Rabs (V (d0 L)) <= bp 10).
    { change (bp 10) with 1024. assert (P := Rabs_pos (V (d0 L))). assert (K := tri _ _ _ _ VL (Rle_refl _)). assert (bp (-200) = 2 * bp (-201)) by exact (bp_split (-201) 1 ltac:(lia)). lra. }
    assert (A : bp (-900) <= bp (-201)) by (apply bpow_le; lia). assert (B : bp 10 <= bp 1010) by (apply bpow_le; lia).
    split; [lra|]. unfold Rdiv. rewrite Rabs_mult, Rabs_inv.
    assert (I1 : bp (-10) <= / Rabs (V (d0 M)) <= bp 31).
    { change (-10)%Z with (- (10))%Z. change 31%Z with (- (-31))%Z. rewrite !bpow_opp. assert (Q := bpow_gt_0 radix2 (-31)). split; apply Rinv_le_contravar; lra. }
    assert (Q1 := bpow_gt_0 radix2 (-201)). assert (Q2 := bpow_gt_0 radix2 (-10)). split.
    - apply Rle_trans with (bp (-201) * bp (-10)); [rewrite <- bpow_plus; apply bpow_le; lia|]. apply Rmult_le_compat; lra.
    - apply Rle_trans with (bp 10 * bp 31); [apply Rmult_le_compat; lra|]. rewrite <- bpow_plus. apply bpow_le. lia. }
  destruct (d_div_ok L M NL NM NZ W) as [NQ EQ]. split; [exact NQ|]. unfold approx in EQ. rewrite vv_bp in EQ. set (Q := DV (d_div L M)) in *.
  set (im := / Rabs m). assert (Pim : 0 < im) by (apply Rinv_0_lt_compat; exact Pm).
  assert (IM : Rabs (/ DV M) <= 100001 / 100000 * im).
  { rewrite Rabs_inv. unfold im. replace (100001 / 100000 * / Rabs m) with (/ (100000 / 100001 * Rabs m)) by (field; lra). apply Rinv_le_contravar; lra. }
  assert (D1 : Rabs (DV L / DV M - l / m) <= (Rabs (DV L - l) + rho * vv * Rabs l) * (100001 / 100000 * im)).
  { replace (DV L / DV M - l / m) with (((DV L - l) - l * (DV M - m) / m) * / DV M) by (field; auto).
    rewrite Rabs_mult. apply Rmult_le_compat; auto using Rabs_pos. eapply Rle_trans; [apply Rabs_triang|]. rewrite Rabs_Ropp. apply Rplus_le_compat_l.
    unfold Rdiv. rewrite !Rabs_mult, Rabs_inv. fold im. apply Rle_trans with (Rabs l * (rho * vv * Rabs m) * im); [apply Rmult_le_compat_r; [lra|]; apply Rmult_le_compat_l; lra|].
    unfold im. right. field. lra. }
  assert (D2 : Rabs (DV L / DV M) <= (Rabs l * (1000001 / 1000000) + / 1000000) * (100001 / 100000 * im)).
  { unfold Rdiv. rewrite Rabs_mult. apply Rmult_le_compat; auto using Rabs_pos. assert (K := tri _ _ _ _ EL (Rle_refl _)). lra. }
  replace (Q - l / m) with ((Q - DV L / DV M) + (DV L / DV M - l / m)) by ring. eapply Rle_trans; [apply Rabs_triang|].
  change (((44 + 2 * rho) * Rabs l + 501) * vv / Rabs m) with (((44 + 2 * rho) * Rabs l + 501) * vv * im).
  assert (R1 : rho * vv * Rabs l = rho * (vv * Rabs l)) by ring. assert (P1 : 0 <= vv * Rabs l) by (apply Rmult_le_pos; lra). assert (P2 : 0 <= rho * (vv * Rabs l)) by (apply Rmult_le_pos; lra).
  apply Rle_trans with (16 * vv * ((Rabs l * (1000001 / 1000000) + / 1000000) * (100001 / 100000 * im)) + ((272 / 10 * Rabs l + 500) * vv + rho * vv * Rabs l) * (100001 / 100000 * im)).
  - apply Rplus_le_compat; [apply Rle_trans with (1 := EQ); apply Rmult_le_compat_l; lra|]. apply Rle_trans with (1 := D1). apply Rmult_le_compat_r; lra.
  - rewrite R1. replace (((44 + 2 * rho) * Rabs l + 501) * vv * im) with ((44 * (vv * Rabs l) + 2 * (rho * (vv * Rabs l)) + 501 * vv) * im) by ring.
    replace (16 * vv * ((Rabs l * (1000001 / 1000000) + / 1000000) * (100001 / 100000 * im)) + ((272 / 10 * Rabs l + 500) * vv + rho * (vv * Rabs l)) * (100001 / 100000 * im))
      with ((16 * (vv * Rabs l * (1000001 / 1000000) + vv * / 1000000) + (272 / 10 * (vv * Rabs l) + 500 * vv + rho * (vv * Rabs l))) * (100001 / 100000) * im) by ring.
    apply Rmult_le_compat_r; lra.
Qed.

Lemma div_zero_num M : DNorm M -> V (d0 M) <> 0 -> DNorm (d_div D_ZERO M) /\ DV (d_div D_ZERO M) = 0.
Proof.
  intros N NZ. destruct (d_div_zero D_ZERO M (DNorm_const false false) N NZ eq_refl) as [[F0 V0] [F1 V1]].
  assert (E : DV (d_div D_ZERO M) = 0) by (unfold DV; rewrite V0, V1; ring). split; [|exact E]. split; [now split|]. rewrite E, V0. change RN with rn. symmetry. apply rn_0.
Qed.
Lemma ln_zero a : 0 < a -> ln a = 0 -> a = 1.
Proof. intros P H. rewrite <- (exp_ln a P), H. apply exp_0. Qed.
(** the logarithm of [a] is not tiny, or it is exactly 1 *)
Definition away (a : R) : Prop := a = 1 \/ bpow radix2 (-80) <= Rabs (ln a).
Lemma ln_away lm dbg a r : log_close lm -> DNorm a -> 0 < DV a -> -7079 / 10 <= ln (DV a) <= 5999 / 10 -> away (DV a) -> d_ln lm dbg a = Val r ->
  DV r = 0 \/ bp (-200) <= Rabs (DV r).
Proof.
  intros C N P H A E. destruct (d_ln_ok lm dbg a C N P H) as (r' & E' & Nr & Er). rewrite E in E'. injection E' as <-.
  destruct A as [E1|G].
  - left. unfold d_ln in E. destruct one_ok as [ON OV].
    assert (Q : d_eq a D_ONE = true) by (apply (proj2 (proj1 (proj2 (d_ord_ok _ _ N ON)))); rewrite OV; exact E1).
    assert (PH := DNorm_pos_hi a N P). assert (FA : Fin (d0 a)) by apply N.
    assert (EP : d_pre_ln a = Some D_ZERO).
    { unfold d_pre_ln. replace (d_is_nan a) with false by (symmetry; apply Fin_nan; exact FA). rewrite Q.
      replace (d_is_sign_negative a) with false.
      2: { symmetry. unfold d_is_sign_negative. destruct (d0 a) as [s|s| |s m e h]; try discriminate; unfold V, B2R in PH; [lra|]. destruct s; [|reflexivity].
           assert (K : F2R (Float radix2 (cond_Zopp true (Zpos m)) e) < 0) by (apply F2R_lt_0; reflexivity). lra. }
      replace (d_is_zero a) with false.
      2: { symmetry. unfold d_is_zero. destruct (feqb (d0 a) f0) eqn:Q0; [|reflexivity]. apply feqb_V in Q0; auto using Fin_0. rewrite V_0 in Q0. lra. }
      replace (d_is_infinite a) with false; [reflexivity|]. symmetry. unfold d_is_infinite. destruct (d0 a); try discriminate; reflexivity. }
    rewrite EP in E. injection E as <-. unfold DV; cbn [d0 d1 D_ZERO]. change (V _) with 0. ring.
  - right. assert (Bl : Rabs (ln (DV a)) <= 708) by (apply Rabs_le; lra). assert (Pl := Rabs_pos (ln (DV a))).
    assert (K := tri2 (DV r) (ln (DV a)) _ _ Er (Rle_refl _)). 
    assert (E8 : bp (-80) = / 1208925819614629174706176) by reflexivity. assert (bp (-200) <= bp (-81)) by (apply bpow_le; lia).
    assert (E81 : bp (-81) = / 2417851639229258349412352) by reflexivity. lra.
Qed.
Lemma const_log b bt : DNorm b -> approx (DV b) bt 1 (-104) -> 0 < bt -> Rabs (DV b - bt) <= 4 * vv * Rabs bt.
Proof.
  intros N A P. unfold approx in A. change (IZR 1) with 1 in A. rewrite Rmult_1_l in A.
  replace (bp (-104)) with (4 * vv) in A by (rewrite <- vv_bp; symmetry; exact (bp_split (-106) 2 ltac:(lia))). exact A.
Qed.
Lemma log_base lm dbg a b bt : log_close lm -> DNorm a -> 0 < DV a -> -7079 / 10 <= ln (DV a) <= 5999 / 10 -> away (DV a) ->
  DNorm b -> approx (DV b) bt 1 (-104) -> / 2 <= bt <= 3 ->
  exists r, (let* l := d_ln lm dbg a in Val (d_div l b)) = Val r /\ DNorm r /\ Rabs (DV r - ln (DV a) / bt) <= (52 * Rabs (ln (DV a)) + 501) * vv / bt.
Proof.
  intros C N P H A Nb Ab Bb. destruct (d_ln_ok lm dbg a C N P H) as (L & E & NL & EL). rewrite E. cbn [obind]. eexists. split; [reflexivity|].
  assert (K : bp (-30) <= / 2) by (change (/ 2) with (bp (-1)); apply bpow_le; lia).
  destruct (log_div L b (ln (DV a)) bt 4 NL Nb) as [N1 E1].
  - apply Rabs_le. lra.
  - rewrite Rabs_pos_eq by lra. lra.
  - exact EL.
  - apply const_log; auto. lra.
  - split; [lra|]. change (bp 50) with 1125899906842624. lra.
  - now apply (ln_away lm dbg a).
  - split; [exact N1|]. rewrite (Rabs_pos_eq bt) in E1 by lra. replace (44 + 2 * 4) with 52 in E1 by ring. exact E1.
Qed.
Lemma d_log10_ok lm dbg a : log_close lm -> DNorm a -> 0 < DV a -> -7079 / 10 <= ln (DV a) <= 5999 / 10 -> away (DV a) ->
  exists r, d_log10 lm dbg a = Val r /\ DNorm r /\ Rabs (DV r - ln (DV a) / ln 10) <= (52 * Rabs (ln (DV a)) + 501) * vv / ln 10.
Proof. intros. destruct d_LN_10_ok as [A B]. apply log_base; auto. split; consts. Qed.
Lemma d_log2_ok lm dbg a : log_close lm -> DNorm a -> 0 < DV a -> -7079 / 10 <= ln (DV a) <= 5999 / 10 -> away (DV a) ->
  exists r, d_log2 lm dbg a = Val r /\ DNorm r /\ Rabs (DV r - ln (DV a) / ln 2) <= (52 * Rabs (ln (DV a)) + 501) * vv / ln 2.
Proof. intros. destruct d_LN_2_ok as [A B]. apply log_base; auto. split; consts. Qed.
Lemma pos_not_neg b : DNorm b -> 0 < DV b -> d_is_sign_negative b = false /\ d_is_zero b = false /\ d_is_nan b = false /\ d_is_infinite b = false.
Proof.
  intros N P. assert (PH := DNorm_pos_hi b N P). assert (FA : Fin (d0 b)) by apply N.
  unfold d_is_sign_negative, d_is_zero, d_is_nan, d_is_infinite. repeat split.
  - destruct (d0 b) as [s|s| |s m e h]; try discriminate; unfold V, B2R in PH; [lra|]. destruct s; [|reflexivity].
    assert (K : F2R (Float radix2 (cond_Zopp true (Zpos m)) e) < 0) by (apply F2R_lt_0; reflexivity). lra.
  - destruct (feqb (d0 b) f0) eqn:Q0; [|reflexivity]. apply feqb_V in Q0; auto using Fin_0. rewrite V_0 in Q0. lra.
  - apply Fin_nan. exact FA.
  - destruct (d0 b); try discriminate; reflexivity.
Qed.
(** log in any base not too close to 1 *)
Lemma d_log_ok lm dbg a b : log_close lm -> DNorm a -> 0 < DV a -> -7079 / 10 <= ln (DV a) <= 5999 / 10 -> away (DV a) ->
  DNorm b -> 0 < DV b -> -7079 / 10 <= ln (DV b) <= 5999 / 10 -> bpow radix2 (-30) <= Rabs (ln (DV b)) ->
  exists r, d_log lm dbg a b = Val r /\ DNorm r /\
    Rabs (DV r - ln (DV a) / ln (DV b)) <= ((100 + 1000 / Rabs (ln (DV b))) * Rabs (ln (DV a)) + 501) * vv / Rabs (ln (DV b)).
Proof.
  intros C Na Pa Ha Aa Nb Pb Hb Gb. unfold d_log, d_pre_log.
  destruct (pos_not_neg a Na Pa) as (_ & _ & -> & _). destruct (pos_not_neg b Nb Pb) as (-> & -> & _ & _). cbn [orb].
  destruct (d_ln_ok lm dbg a C Na Pa Ha) as (L & E & NL & EL). destruct (d_ln_ok lm dbg b C Nb Pb Hb) as (M & E' & NM & EM).
  rewrite E, E'. cbn [obind]. eexists. split; [reflexivity|]. set (m := ln (DV b)) in *. set (l := ln (DV a)) in *.
  assert (Pm : 0 < Rabs m) by (assert (Q := bpow_gt_0 radix2 (-30)); lra). assert (B30 : bp (-30) = / 1073741824) by reflexivity.
  assert (IM : 0 < / Rabs m <= 1073741824). { split; [now apply Rinv_0_lt_compat|]. rewrite <- (Rinv_inv 1073741824), <- B30. apply Rinv_le_contravar; [apply bpow_gt_0|exact Gb]. }
  destruct (log_div L M l m (272 / 10 + 500 / Rabs m) NL NM) as [N1 E1].
  - apply Rabs_le. lra.
  - split; [exact Gb|]. apply Rabs_le. lra.
  - exact EL.
  - apply Rle_trans with (1 := EM). right. field. lra.
  - change (bp 50) with 1125899906842624. unfold Rdiv. split; lra.
  - now apply (ln_away lm dbg a).
  - split; [exact N1|]. apply Rle_trans with (1 := E1). unfold Rdiv. apply Rmult_le_compat_r; [lra|]. apply Rmult_le_compat_r; [lra|]. apply Rplus_le_compat_r.
    apply Rmult_le_compat_r; [apply Rabs_pos|]. lra.
Qed.

(** ** powers with a Double exponent *)
Lemma d_powf_ok lm dbg x n : log_close lm -> DNorm x -> 0 < DV x -> -7079 / 10 <= ln (DV x) <= 5999 / 10 -> DNorm n -> Rabs (DV n) <= bpow radix2 60 ->
  -599 <= DV n * ln (DV x) <= 707 ->
  exists r, d_powf lm dbg x n = Val r /\ DNorm r /\
    Rabs (DV r - Rpower (DV x) (DV n)) <= (53 * Rabs (DV n * ln (DV x)) + 510 * Rabs (DV n) + 490) * vv * Rpower (DV x) (DV n).
Proof.
  intros C Nx Px Hx Nn Bn Hp. unfold d_powf, d_pre_powf, Rpower. destruct (pos_not_neg x Nx Px) as (_ & -> & _ & _).
  replace (d_is_infinite n) with false. 2: { symmetry. unfold d_is_infinite. assert (F : Fin (d0 n)) by apply Nn. destruct (d0 n); try discriminate; reflexivity. }
  destruct (d_ln_ok lm dbg x C Nx Px Hx) as (L & -> & NL & EL). cbn [obind]. eexists. split; [reflexivity|].
  set (l := ln (DV x)) in *. set (N := DV n) in *. assert (Pl := Rabs_pos l). assert (PN := Rabs_pos N). assert (Bl : Rabs l <= 708) by (apply Rabs_le; lra).
  assert (BN : Rabs N <= 1152921504606846976) by exact Bn.
  assert (BL : Rabs (DV L) <= 709) by (assert (K := tri _ _ _ _ EL (Rle_refl _)); lra).
  destruct (mul_abs n L Nn NL) as [Np Ep]; [apply Rle_trans with (1 := Bn); apply bpow_le; lia|apply b100; lra|]. fold N in Ep. assert (T := tiny_le).
  set (p := d_mul n L) in *. set (w := N * l) in *.
  assert (AW : Rabs w = Rabs N * Rabs l) by (unfold w; apply Rabs_mult). assert (Pw := Rabs_pos w). assert (Bw : Rabs w <= 707) by (apply Rabs_le; lra).
  assert (D1 : Rabs (N * DV L - w) <= (272 / 10 * Rabs w + 500 * Rabs N) * vv).
  { unfold w at 1. replace (N * DV L - N * l) with (N * (DV L - l)) by ring. rewrite Rabs_mult, AW.
    replace ((272 / 10 * (Rabs N * Rabs l) + 500 * Rabs N) * vv) with (Rabs N * ((272 / 10 * Rabs l + 500) * vv)) by ring. apply Rmult_le_compat_l; lra. }
  assert (D2 : Rabs (N * DV L) <= Rabs w + 1 / 1000000) by (assert (K := tri _ _ _ _ D1 (Rle_refl _)); lra).
  assert (D3 : Rabs (DV p - w) <= (373 / 10 * Rabs w + 501 * Rabs N + 1) * vv).
  { replace (DV p - w) with ((DV p - N * DV L) + (N * DV L - w)) by ring. eapply Rle_trans; [apply Rabs_triang|]. lra. }
  assert (D4 : Rabs (DV p - w) <= / 1000000) by lra.
  destruct (d_exp_okv p Np) as [NE EE]; [apply Rabs_def2' in D4; lra|]. split; [exact NE|].
  assert (BP : Rabs (DV p) <= Rabs w + 1 / 1000000) by (assert (K := tri _ _ _ _ D4 (Rle_refl _)); lra).
  assert (PE := exp_pos w).
  assert (EQ : exp (DV p) = exp (DV p - w) * exp w) by (rewrite <- exp_plus; f_equal; ring).
  assert (K := expm1_bound (DV p - w) ltac:(lra)). assert (PP := Rabs_pos (DV p - w)).
  assert (K1 : Rabs (exp (DV p - w) - 1) <= Rabs (DV p - w) * (1001 / 1000)) by (apply Rle_trans with (1 := K); apply Rmult_le_compat_l; lra).
  assert (EU : exp (DV p - w) <= 1001 / 1000). { assert (K1' := Rabs_def2' _ _ K1). lra. }
  assert (F1 : Rabs (exp (DV p) - exp w) <= Rabs (DV p - w) * (1001 / 1000) * exp w).
  { rewrite EQ. replace (exp (DV p - w) * exp w - exp w) with ((exp (DV p - w) - 1) * exp w) by ring. rewrite Rabs_mult, (Rabs_pos_eq (exp w)) by lra. apply Rmult_le_compat_r; lra. }
  assert (F2 : (15 * Rabs (DV p) + 480) * vv * exp (DV p) <= (15 * Rabs w + 481) * vv * (1001 / 1000) * exp w).
  { rewrite EQ, <- Rmult_assoc. apply Rmult_le_compat_r; [lra|]. apply Rmult_le_compat; [assert (Q := Rabs_pos (DV p)); apply Rmult_le_pos; lra|left; apply exp_pos|apply Rmult_le_compat_r; lra|exact EU]. }
  set (r := d_exp p) in *. replace (DV r - exp w) with ((DV r - exp (DV p)) + (exp (DV p) - exp w)) by ring. eapply Rle_trans; [apply Rabs_triang|].
  assert (F3 : Rabs (DV p - w) * (1001 / 1000) * exp w <= (373 / 10 * Rabs w + 501 * Rabs N + 1) * vv * (1001 / 1000) * exp w) by (apply Rmult_le_compat_r; [lra|]; apply Rmult_le_compat_r; lra).
  apply Rle_trans with (((15 * Rabs w + 481) * vv * (1001 / 1000) + (373 / 10 * Rabs w + 501 * Rabs N + 1) * vv * (1001 / 1000)) * exp w); [lra|].
  apply Rmult_le_compat_r; lra.
Qed.
