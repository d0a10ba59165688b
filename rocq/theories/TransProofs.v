(** * Special values of roots, exponentials, logarithms, trigonometry *)
From Coq Require Import ZArith Reals Lra Lia List Bool.
From Flocq Require Import Core IEEE754.BinarySingleNaN.
From Verif Require Import RN F64 Prim DoubleM QuadM Spec F64Facts SpecialProofs ParseM AlgM ConstM TransM.
Import ListNotations.
Local Open Scope R_scope.

Lemma lt_true x y : x < y -> Rlt_bool x y = true. Proof. apply Rlt_bool_true. Qed.
Lemma fz n : (Z.abs n <= 2 ^ 53)%Z -> Fin (fofZ n) /\ V (fofZ n) = IZR n. Proof. apply fofZ_exact. Qed.
Lemma flt_c a n : (Z.abs n <= 2 ^ 53)%Z -> Fin a -> V a < IZR n -> fltb a (fofZ n) = true.
Proof. intros N F H. destruct (fz n N) as [F' E]. rewrite fltb_ok by assumption. rewrite E. now apply Rlt_bool_true. Qed.
Lemma fgt_c a n : (Z.abs n <= 2 ^ 53)%Z -> Fin a -> IZR n < V a -> fgtb a (fofZ n) = true.
Proof. intros N F H. destruct (fz n N) as [F' E]. unfold fgtb. change Bltb with fltb. rewrite fltb_ok by assumption. rewrite E. now apply Rlt_bool_true. Qed.
Lemma fge_c a n : (Z.abs n <= 2 ^ 53)%Z -> Fin a -> IZR n <= V a -> fgeb a (fofZ n) = true.
Proof. intros N F H. destruct (fz n N) as [F' E]. unfold fgeb. change Bleb with fleb. rewrite fleb_ok by assumption. rewrite E. now apply Rle_bool_true. Qed.
Lemma flt_c' a n : (Z.abs n <= 2 ^ 53)%Z -> Fin a -> IZR n <= V a -> fltb a (fofZ n) = false.
Proof. intros N F H. destruct (fz n N) as [F' E]. rewrite fltb_ok by assumption. rewrite E. now apply Rlt_bool_false. Qed.
Lemma fgt_c' a n : (Z.abs n <= 2 ^ 53)%Z -> Fin a -> V a <= IZR n -> fgtb a (fofZ n) = false.
Proof. intros N F H. destruct (fz n N) as [F' E]. unfold fgtb. change Bltb with fltb. rewrite fltb_ok by assumption. rewrite E. now apply Rlt_bool_false. Qed.

(** ** sqrt, nroot *)
Lemma d_sqrt_special lm dbg : (forall s l, d_sqrt lm dbg (mkD (B754_zero s) l) = Val (mkD (B754_zero s) l)) /\
  (forall x, d_is_sign_negative x = true -> d_is_zero x = false -> d_sqrt lm dbg x = Val D_NAN) /\
  (forall l, d_sqrt lm dbg (mkD finf l) = Val D_INFINITY).
Proof.
  split; [|split].
  - intros [] l; reflexivity.
  - intros x H Z'. unfold d_sqrt, d_pre_sqrt. now rewrite Z', H.
  - intros l; reflexivity.
Qed.
Lemma q_sqrt_special lm dbg : (forall s b c d, q_sqrt lm dbg (mkQ (B754_zero s) b c d) = Val Q_ZERO) /\
  (forall x, q_is_sign_negative x = true -> q_is_zero x = false -> q_sqrt lm dbg x = Val Q_NAN) /\
  (forall b c d, q_sqrt lm dbg (mkQ finf b c d) = Val Q_INFINITY).
Proof.
  split; [|split].
  - intros [] b c d; reflexivity.
  - intros x H Z'. unfold q_sqrt, q_pre_sqrt. now rewrite Z', H.
  - intros b c d; reflexivity.
Qed.

Lemma rem2 n : (Z.rem n 2 =? 0)%Z = Z.even n.
Proof.
  rewrite (Z.rem_eq n 2) by lia. destruct (Z.even n) eqn:E.
  - apply Z.eqb_eq. apply Z.even_spec in E. destruct E as [k ->]. rewrite Z.mul_comm, Z.quot_mul by lia. lia.
  - apply Z.eqb_neq. intros H. assert (E' : n = (2 * (n ÷ 2))%Z) by lia. rewrite E' in E. rewrite Z.even_mul in E. discriminate.
Qed.

(** the table of an odd or even root *)
Lemma d_nroot_special lm dbg n :
  (forall x, d_nroot lm dbg x 0 = Val D_NAN) /\ (forall x, d_nroot lm dbg x 1 = Val x) /\
  (n <> 0%Z -> n <> 1%Z -> forall s l, d_nroot lm dbg (mkD (B754_zero s) l) n =
     Val (mkD (if (n <? 0)%Z then B754_infinity (s && Z.odd n) else B754_zero (s && Z.odd n)) f0)) /\
  (n <> 0%Z -> n <> 1%Z -> forall s l, d_nroot lm dbg (mkD (B754_infinity s) l) n =
     Val (if s && Z.even n then D_NAN else mkD (if (n <? 0)%Z then B754_zero s else B754_infinity s) f0)) /\
  (n <> 0%Z -> Z.even n = true -> forall x, d_is_sign_negative x = true -> d_is_zero x = false -> d_nroot lm dbg x n = Val D_NAN) /\
  (forall x, d_is_zero x = false -> d_nroot lm dbg x 2 = d_sqrt lm dbg x).
Proof.
  split; [reflexivity|]. split; [reflexivity|].
  assert (OE : Z.odd n = negb (Z.even n)) by now rewrite Z.negb_even.
  split; [|split; [|split]].
  - intros N0 N1 s l. unfold d_nroot, d_pre_nroot. rewrite (proj2 (Z.eqb_neq n 0) N0), (proj2 (Z.eqb_neq n 1) N1).
    replace (d_is_zero _) with true by now destruct s.
    rewrite rem2, OE. destruct (Z.ltb_spec n 0), (Z.gtb_spec n 0); try lia; destruct (Z.even n), s; reflexivity.
  - intros N0 N1 s l. unfold d_nroot, d_pre_nroot. rewrite (proj2 (Z.eqb_neq n 0) N0), (proj2 (Z.eqb_neq n 1) N1).
    replace (d_is_zero _) with false by now destruct s.
    rewrite rem2. destruct (Z.ltb_spec n 0), (Z.gtb_spec n 0); try lia; destruct (Z.even n), s; reflexivity.
  - intros N0 EV x S Z'. unfold d_nroot, d_pre_nroot. rewrite (proj2 (Z.eqb_neq n 0) N0).
    destruct (Z.eqb_spec n 1) as [->|N1]; [discriminate|]. rewrite Z', rem2, EV, S.
    destruct (d_is_infinite x); [|reflexivity]. unfold d_is_sign_positive, fsign_pos. unfold d_is_sign_negative, fsign_neg in S. now rewrite S.
  - intros x Z'. unfold d_nroot, d_pre_nroot. cbn [Z.eqb]. rewrite Z'.
    unfold d_sqrt at 2. unfold d_pre_sqrt. rewrite Z'.
    change (Z.rem 2 2 =? 0)%Z with true. unfold d_is_sign_positive, fsign_pos, d_is_sign_negative, fsign_neg. cbn [Z.gtb Z.compare Pos.compare Pos.compare_cont].
    destruct (d_is_infinite x) eqn:I; destruct (Bsign (d0 x)) eqn:S; cbn [negb andb]; try reflexivity.
    unfold d_sqrt, d_pre_sqrt. now rewrite Z', I; unfold d_is_sign_negative, fsign_neg; rewrite S.
Qed.
Lemma q_nroot_special lm dbg n :
  (forall x, q_nroot lm dbg x 0 = Val Q_NAN) /\ (forall x, q_nroot lm dbg x 1 = Val x) /\
  (n <> 0%Z -> n <> 1%Z -> forall s b c d, q_nroot lm dbg (mkQ (B754_zero s) b c d) n =
     Val (mkQ (if (n <? 0)%Z then B754_infinity (s && Z.odd n) else B754_zero (s && Z.odd n)) f0 f0 f0)) /\
  (n <> 0%Z -> n <> 1%Z -> forall s b c d, q_nroot lm dbg (mkQ (B754_infinity s) b c d) n =
     Val (if s && Z.even n then Q_NAN else mkQ (if (n <? 0)%Z then B754_zero s else B754_infinity s) f0 f0 f0)) /\
  (n <> 0%Z -> Z.even n = true -> forall x, q_is_sign_negative x = true -> q_is_zero x = false -> q_nroot lm dbg x n = Val Q_NAN) /\
  (forall x, q_is_zero x = false -> q_nroot lm dbg x 2 = q_sqrt lm dbg x).
Proof.
  split; [reflexivity|]. split; [reflexivity|].
  assert (OE : Z.odd n = negb (Z.even n)) by now rewrite Z.negb_even.
  split; [|split; [|split]].
  - intros N0 N1 s b c d. unfold q_nroot, q_pre_nroot. rewrite (proj2 (Z.eqb_neq n 0) N0), (proj2 (Z.eqb_neq n 1) N1).
    replace (q_is_zero _) with true by now destruct s.
    rewrite rem2, OE. destruct (Z.ltb_spec n 0), (Z.gtb_spec n 0); try lia; destruct (Z.even n), s; reflexivity.
  - intros N0 N1 s b c d. unfold q_nroot, q_pre_nroot. rewrite (proj2 (Z.eqb_neq n 0) N0), (proj2 (Z.eqb_neq n 1) N1).
    replace (q_is_zero _) with false by now destruct s.
    rewrite rem2. destruct (Z.ltb_spec n 0), (Z.gtb_spec n 0); try lia; destruct (Z.even n), s; reflexivity.
  - intros N0 EV x S Z'. unfold q_nroot, q_pre_nroot. rewrite (proj2 (Z.eqb_neq n 0) N0).
    destruct (Z.eqb_spec n 1) as [->|N1]; [discriminate|]. rewrite Z', rem2, EV, S.
    destruct (q_is_infinite x); [|reflexivity]. unfold q_is_sign_positive, fsign_pos. unfold q_is_sign_negative, fsign_neg in S. now rewrite S.
  - intros x Z'. unfold q_nroot, q_pre_nroot. cbn [Z.eqb]. rewrite Z'.
    unfold q_sqrt at 2. unfold q_pre_sqrt. rewrite Z'.
    change (Z.rem 2 2 =? 0)%Z with true. unfold q_is_sign_positive, fsign_pos, q_is_sign_negative, fsign_neg. cbn [Z.gtb Z.compare Pos.compare Pos.compare_cont].
    destruct (q_is_infinite x) eqn:I; destruct (Bsign (q0 x)) eqn:S; cbn [negb andb]; try reflexivity.
    unfold q_sqrt, q_pre_sqrt. now rewrite Z', I; unfold q_is_sign_negative, fsign_neg; rewrite S.
Qed.

(** ** exp *)
Lemma fin_not_nan (a : f64) : Fin a -> fis_nan a = false. Proof. now destruct a. Qed.
(** decide the leading tests of a pre_ function by computation, never the values *)
Ltac bools :=
  repeat match goal with
  | |- (if ?b then _ else _) = _ =>
      first [ replace b with true by (vm_compute; reflexivity) | replace b with false by (vm_compute; reflexivity) ]; cbv iota
  end; try reflexivity.
Lemma d_exp_pre x r : d_pre_exp x = Some r -> d_exp x = r. Proof. unfold d_exp. now intros ->. Qed.
Lemma q_exp_pre x r : q_pre_exp x = Some r -> q_exp x = r. Proof. unfold q_exp. now intros ->. Qed.
Lemma d_exp_special :
  (forall l, d_exp (mkD fnan l) = D_NAN) /\ (forall s l, d_exp (mkD (B754_zero s) l) = D_ONE) /\
  (forall l, d_exp (mkD finf l) = D_INFINITY) /\ (forall l, d_exp (mkD fninf l) = D_ZERO) /\
  (forall x, Fin (d0 x) -> V (d0 x) < -600 -> d_exp x = D_ZERO) /\
  (forall x, Fin (d0 x) -> 708 < V (d0 x) -> d_exp x = D_INFINITY) /\
  d_exp D_ONE = D_E.
Proof.
  split; [|split; [|split; [|split; [|split; [|split]]]]].
  - reflexivity.
  - intros s l. apply d_exp_pre. unfold d_pre_exp. destruct s; bools.
  - intros l. apply d_exp_pre. unfold d_pre_exp. bools.
  - intros l. apply d_exp_pre. unfold d_pre_exp. bools.
  - intros x F H. unfold d_exp, d_pre_exp. rewrite flt_c; auto; lia.
  - intros x F H. unfold d_exp, d_pre_exp. rewrite flt_c' by (auto; try lia; lra). rewrite fgt_c; auto; lia.
  - apply d_exp_pre. unfold d_pre_exp. bools.
Qed.
Lemma q_exp_special :
  (forall b c d, q_exp (mkQ fnan b c d) = Q_NAN) /\ (forall s b c d, q_exp (mkQ (B754_zero s) b c d) = Q_ONE) /\
  (forall b c d, q_exp (mkQ finf b c d) = Q_INFINITY) /\ (forall b c d, q_exp (mkQ fninf b c d) = Q_ZERO) /\
  (forall x, Fin (q0 x) -> V (q0 x) < -470 -> q_exp x = Q_ZERO) /\
  (forall x, Fin (q0 x) -> 709 <= V (q0 x) -> q_exp x = Q_INFINITY) /\
  q_exp Q_ONE = Q_E.
Proof.
  split; [|split; [|split; [|split; [|split; [|split]]]]].
  - reflexivity.
  - intros s b c d. apply q_exp_pre. unfold q_pre_exp. destruct s; bools.
  - intros b c d. apply q_exp_pre. unfold q_pre_exp. bools.
  - intros b c d. apply q_exp_pre. unfold q_pre_exp. bools.
  - intros x F H. unfold q_exp, q_pre_exp. rewrite flt_c; auto; lia.
  - intros x F H. unfold q_exp, q_pre_exp. rewrite flt_c' by (auto; try lia; lra). rewrite fge_c; auto; lia.
  - apply q_exp_pre. unfold q_pre_exp. bools.
Qed.

(** ** logarithms *)
Lemma d_ln_special lm dbg :
  (forall l, d_ln lm dbg (mkD fnan l) = Val D_NAN) /\
  (forall x, d_is_sign_negative x = true -> d_ln lm dbg x = Val D_NAN) /\
  (forall l, d_ln lm dbg (mkD f0 l) = Val D_NEG_INFINITY) /\
  (forall l, d_ln lm dbg (mkD finf l) = Val D_INFINITY) /\
  d_ln lm dbg D_ONE = Val D_ZERO.
Proof.
  split; [|split; [|split; [|split]]]; try reflexivity.
  - intros x H. unfold d_ln, d_pre_ln. rewrite H. now destruct (d_is_nan x).
Qed.
Lemma q_ln_special lm dbg :
  (forall b c d, q_ln lm dbg (mkQ fnan b c d) = Val Q_NAN) /\
  (forall x, q_is_sign_negative x = true -> q_ln lm dbg x = Val Q_NAN) /\
  (forall b c d, q_ln lm dbg (mkQ f0 b c d) = Val Q_NEG_INFINITY) /\
  (forall b c d, q_ln lm dbg (mkQ finf b c d) = Val Q_INFINITY) /\
  q_ln lm dbg Q_ONE = Val Q_ZERO.
Proof.
  split; [|split; [|split; [|split]]]; try reflexivity.
  - intros x H. unfold q_ln, q_pre_ln. rewrite H. now destruct (q_is_nan x).
Qed.
Lemma d_log_special lm dbg :
  (forall x, d_is_sign_negative x = true -> d_log10 lm dbg x = Val D_NAN /\ d_log2 lm dbg x = Val D_NAN) /\
  (forall l, d_log10 lm dbg (mkD fnan l) = Val D_NAN /\ d_log2 lm dbg (mkD fnan l) = Val D_NAN) /\
  (forall l, d_log10 lm dbg (mkD f0 l) = Val D_NEG_INFINITY /\ d_log2 lm dbg (mkD f0 l) = Val D_NEG_INFINITY) /\
  (forall l, d_log10 lm dbg (mkD finf l) = Val D_INFINITY /\ d_log2 lm dbg (mkD finf l) = Val D_INFINITY) /\
  d_log10 lm dbg D_ONE = Val D_ZERO /\ d_log2 lm dbg D_ONE = Val D_ZERO /\
  (forall l b, d_log lm dbg (mkD fnan l) b = Val D_NAN) /\
  (forall x b, d_is_sign_negative b = true \/ d_is_zero b = true -> d_log lm dbg x b = Val D_NAN).
Proof.
  destruct (d_ln_special lm dbg) as [N [S [O [I On]]]].
  split; [|split; [|split; [|split; [|split; [|split; [|split]]]]]].
  - intros x H. unfold d_log10, d_log2. rewrite (S x H). split; vm_compute; reflexivity.
  - intros l. split; vm_compute; reflexivity.
  - intros l. split; vm_compute; reflexivity.
  - intros l. split; vm_compute; reflexivity.
  - vm_compute; reflexivity.
  - vm_compute; reflexivity.
  - reflexivity.
  - intros x b H. unfold d_log, d_pre_log. destruct (d_is_nan x); [reflexivity|].
    destruct H as [-> | ->]; rewrite ?orb_true_r; reflexivity.
Qed.
Lemma q_log_special lm dbg :
  (forall x, q_is_sign_negative x = true -> q_log10 lm dbg x = Val Q_NAN /\ q_log2 lm dbg x = Val Q_NAN) /\
  (forall b c d, q_log10 lm dbg (mkQ fnan b c d) = Val Q_NAN /\ q_log2 lm dbg (mkQ fnan b c d) = Val Q_NAN) /\
  (forall b c d, q_log10 lm dbg (mkQ f0 b c d) = Val Q_NEG_INFINITY /\ q_log2 lm dbg (mkQ f0 b c d) = Val Q_NEG_INFINITY) /\
  (forall b c d, q_log10 lm dbg (mkQ finf b c d) = Val Q_INFINITY /\ q_log2 lm dbg (mkQ finf b c d) = Val Q_INFINITY) /\
  q_log10 lm dbg Q_ONE = Val Q_ZERO /\ q_log2 lm dbg Q_ONE = Val Q_ZERO /\
  (forall x b c d, q_log lm dbg (mkQ fnan b c d) x = Val Q_NAN) /\
  (forall x b, q_is_sign_negative b = true \/ q_is_zero b = true -> q_log lm dbg x b = Val Q_NAN).
Proof.
  destruct (q_ln_special lm dbg) as [N [S [O [I On]]]].
  split; [|split; [|split; [|split; [|split; [|split; [|split]]]]]].
  - intros x H. unfold q_log10, q_log2. rewrite (S x H). split; vm_compute; reflexivity.
  - intros b c d. split; vm_compute; reflexivity.
  - intros b c d. split; vm_compute; reflexivity.
  - intros b c d. split; vm_compute; reflexivity.
  - vm_compute; reflexivity.
  - vm_compute; reflexivity.
  - reflexivity.
  - intros x b H. unfold q_log, q_pre_log. destruct (q_is_nan x); [reflexivity|].
    destruct H as [-> | ->]; rewrite ?orb_true_r; reflexivity.
Qed.

(** the logarithm itself panics only if k + 2 overflows *)
Definition log2_bounded (lm : libm) : Prop :=
  (forall a, Fin a -> 0 < V a -> Fin (lm_ln lm a)) /\
  (forall a, Fin a -> fgtb (lm_log2 lm a) (fofZ 2048) = false).
Lemma as_i32_le a : fgtb a (fofZ 2048) = false -> (i32_min <= as_i32 (ffloor a) <= 2048)%Z.
Proof.
  intros H. unfold as_i32, i32_min. destruct a as [s|s| |s m e h].
  - destruct s; vm_compute; split; discriminate.
  - destruct s; [vm_compute; split; discriminate|]. vm_compute in H. discriminate.
  - vm_compute; split; discriminate.
  - set (a := B754_finite s m e h) in *. assert (Fa : Fin a) by reflexivity.
    destruct (fnearbyint_ok mode_DN a Fa) as [Ff Vf]. change (Bnearbyint mode_DN a) with (ffloor a) in *.
    assert (L : V a <= 2048).
    { destruct (Rle_or_lt (V a) 2048) as [L|L]; auto. rewrite (fgt_c a 2048) in H by (auto; lia). discriminate. }
    clearbody a. cbn [round_mode] in Vf.
    assert (T : Btrunc (ffloor a) = Zfloor (V a)).
    { apply eq_IZR. rewrite (Btrunc_correct prec emax _ (ffloor a)). change (B2R (ffloor a)) with (V (ffloor a)). rewrite Vf.
      rewrite round_generic; auto with typeclass_instances. apply generic_format_FIX. exists (Float radix2 (Zfloor (V a)) 0); cbn; [unfold F2R; cbn; ring|reflexivity]. }
    assert (B : (Zfloor (V a) <= 2048)%Z) by (apply le_IZR; eapply Rle_trans; [apply Zfloor_lb|exact L]).
    unfold sat. destruct (ffloor a) as [s'|s'| |s' m' e' h']; try easy; rewrite T; lia.
Qed.
Lemma i32_chk_in dbg z : (i32_min <= z <= i32_max)%Z -> i32_chk dbg z = Val z.
Proof. intros H. unfold i32_chk. replace ((i32_min <=? z)%Z && (z <=? i32_max)%Z) with true; [reflexivity|]. symmetry. apply andb_true_iff. split; apply Z.leb_le; lia. Qed.
Lemma i32_chk_release z : i32_chk false z = Val z \/ i32_chk false z = Val (wrap32 z).
Proof. unfold i32_chk. destruct ((i32_min <=? z)%Z && (z <=? i32_max)%Z); auto. Qed.

Lemma d_ln_total lm dbg x : dbg = false \/ log2_bounded lm -> exists r, d_ln lm dbg x = Val r.
Proof.
  intros H. unfold d_ln. destruct (d_pre_ln x) as [r|] eqn:P; [eauto|].
  assert (Fx : Fin (d0 x) /\ 0 < V (d0 x)).
  { unfold d_pre_ln, d_is_nan, d_is_sign_negative, d_is_zero, d_is_infinite in P.
    destruct (d0 x) as [[]|[]| |[] m e h]; try discriminate P. split; [reflexivity|]. unfold V, B2R. now apply F2R_gt_0. }
  cbn zeta. destruct H as [-> | [HL H2]].
  - destruct (i32_chk_release (as_i32 (ffloor (lm_log2 lm (fabs (d0 (mkD (lm_ln lm (d0 x)) f0))))) + 2)) as [-> | ->]; cbn [obind]; eauto.
  - rewrite i32_chk_in; [cbn [obind]; eauto|]. cbn [d0].
    destruct (fabs_ok (lm_ln lm (d0 x))) as [Fa _]; [apply HL; tauto|].
    pose proof (as_i32_le _ (H2 _ Fa)). unfold i32_min, i32_max in *. lia.
Qed.
Lemma q_ln_total lm dbg x : dbg = false \/ log2_bounded lm -> exists r, q_ln lm dbg x = Val r.
Proof.
  intros H. unfold q_ln. destruct (q_pre_ln x) as [r|] eqn:P; [eauto|].
  assert (Fx : Fin (q0 x) /\ 0 < V (q0 x)).
  { unfold q_pre_ln, q_is_nan, q_is_sign_negative, q_is_zero, q_is_infinite in P.
    destruct (q0 x) as [[]|[]| |[] m e h]; try discriminate P. split; [reflexivity|]. unfold V, B2R. now apply F2R_gt_0. }
  cbn zeta. destruct H as [-> | [HL H2]].
  - destruct (i32_chk_release (as_i32 (ffloor (lm_log2 lm (fabs (q0 (mkQ (lm_ln lm (q0 x)) f0 f0 f0))))) + 2)) as [-> | ->]; cbn [obind]; eauto.
  - rewrite i32_chk_in; [cbn [obind]; eauto|]. cbn [q0].
    destruct (fabs_ok (lm_ln lm (q0 x))) as [Fa _]; [apply HL; tauto|].
    pose proof (as_i32_le _ (H2 _ Fa)). unfold i32_min, i32_max in *. lia.
Qed.

(** ** powf *)
Lemma d_nan_hi x : d_is_nan x = true -> d0 x = fnan. Proof. destruct x as [[]]; easy. Qed.
Lemma q_nan_hi x : q_is_nan x = true -> q0 x = fnan. Proof. destruct x as [[]]; easy. Qed.
Lemma d_powf_special lm dbg :
  (forall s s' l l', d_powf lm dbg (mkD (B754_zero s) l) (mkD (B754_zero s') l') = Val D_NAN) /\
  (forall s l n, d_is_zero n = false -> d_powf lm dbg (mkD (B754_zero s) l) n =
     Val (if d_is_sign_negative n then D_INFINITY else D_ZERO)) /\
  (forall x, d_is_zero x = false -> d_is_sign_negative x = true -> forall n, d_is_infinite n = false -> d_powf lm dbg x n = Val D_NAN) /\
  (forall l n, d_is_infinite n = false -> d_powf lm dbg (mkD fnan l) n = Val D_NAN) /\
  (forall s l, d_powf lm dbg D_ONE (mkD (B754_infinity s) l) = Val D_NAN) /\
  (forall x, d_is_zero x = false -> d_eq x D_ONE = false -> forall s l, d_powf lm dbg x (mkD (B754_infinity s) l) = Val (if s then D_ZERO else D_INFINITY)) /\
  (forall n, DFin n -> d_powf lm dbg D_ONE n = Val D_ONE).
Proof.
  destruct (d_ln_special lm dbg) as [LN [LS [LO [LI L1]]]].
  assert (NM : forall n, d_exp (d_mul n D_NAN) = D_NAN).
  { intros n. rewrite d_mul_special.
    - replace (fmul (d0 n) (d0 D_NAN)) with fnan by now destruct (d0 n) as [[]|[]| |[]]. apply d_exp_special.
    - left. now rewrite andb_false_r. }
  split; [|split; [|split; [|split; [|split; [|split]]]]].
  - intros [] [] l l'; reflexivity.
  - intros s l n H. unfold d_powf, d_pre_powf. replace (d_is_zero _) with true by now destruct s.
    rewrite H. unfold d_is_sign_positive, fsign_pos, d_is_sign_negative, fsign_neg. now destruct (Bsign (d0 n)).
  - intros x Z' S n I. unfold d_powf, d_pre_powf. rewrite Z', I, (LS x S). cbn [obind]. now rewrite NM.
  - intros l n I. unfold d_powf, d_pre_powf. rewrite I. change (d_is_zero (mkD fnan l)) with false. cbv iota. rewrite LN. cbn [obind]. now rewrite NM.
  - intros [] l; reflexivity.
  - intros x Z' E s l. unfold d_powf, d_pre_powf. rewrite Z', E. now destruct s.
  - intros n [F0 F1]. unfold d_powf, d_pre_powf. change (d_is_zero D_ONE) with false. cbv iota.
    replace (d_is_infinite n) with false by (unfold d_is_infinite; now destruct (d0 n)). rewrite L1. cbn [obind]. f_equal.
    assert (E : d_eq (d_mul n D_ZERO) D_ZERO = true) by (apply d_mul_zero_right; auto).
    apply andb_true_iff in E. destruct E as [E _]. destruct (feqb_0 _ E) as [s Es].
    destruct (d_mul n D_ZERO) as [a b]. cbn in Es. subst a. apply d_exp_special.
Qed.
