(** * Real-number facts about binary64 rounding (no model content) *)
From Coq Require Import ZArith Reals Lra Lia Psatz.
From Flocq Require Import Core Relative Plus_error Mult_error Sterbenz Pff2Flocq.
Local Open Scope R_scope.

Notation fexp64 := (FLT_exp (-1074) 53).
Notation rn := (round radix2 fexp64 ZnearestE).
Notation fmt := (generic_format radix2 fexp64).
Notation bp := (bpow radix2).
(** unit roundoff 2^-53 *)
Notation u := (/ 9007199254740992).

#[global] Instance P53 : Prec_gt_0 53. Proof. easy. Qed.
#[global] Instance VE64 : Valid_exp fexp64. Proof. apply FLT_exp_valid. easy. Qed.
#[global] Instance ME64 : Monotone_exp fexp64. Proof. apply FLT_exp_monotone. Qed.

Lemma u_bp : bp (-53) = u. Proof. reflexivity. Qed.
Lemma u_ro_u : u_ro radix2 53 = u.
Proof. unfold u_ro. change (-53 + 1)%Z with (-52)%Z. simpl. lra. Qed.

Lemma rn_fmt x : fmt (rn x).
Proof. apply generic_format_round; auto with typeclass_instances. Qed.
Lemma rn_id x : fmt x -> rn x = x.
Proof. apply round_generic; auto with typeclass_instances. Qed.
Lemma rn_0 : rn 0 = 0.
Proof. apply round_0; auto with typeclass_instances. Qed.
Lemma rn_opp x : rn (- x) = - rn x.
Proof. apply round_NE_opp. Qed.
Lemma rn_le x y : x <= y -> rn x <= rn y.
Proof. apply round_le; auto with typeclass_instances. Qed.
Lemma fmt_opp x : fmt x -> fmt (- x).
Proof. apply generic_format_opp. Qed.
Lemma fmt_0 : fmt 0.
Proof. apply generic_format_0. Qed.
Lemma fmt_abs x : fmt x -> fmt (Rabs x).
Proof. apply generic_format_abs. Qed.
Lemma rn_abs x : rn (Rabs x) = Rabs (rn x).
Proof. apply round_NE_abs; auto with typeclass_instances. Qed.

Lemma fmt_bpow e : (-1074 <= e)%Z -> fmt (bp e).
Proof. intros H. apply generic_format_bpow. unfold FLT_exp. lia. Qed.

Lemma rn_abs_le x y : fmt y -> Rabs x <= y -> Rabs (rn x) <= y.
Proof. intros Fy H. apply abs_round_le_generic; auto with typeclass_instances. Qed.
Lemma rn_abs_ge x y : fmt y -> y <= Rabs x -> y <= Rabs (rn x).
Proof. intros Fy H. apply abs_round_ge_generic; auto with typeclass_instances. Qed.

Lemma rn_ge_0 x : 0 <= x -> 0 <= rn x.
Proof. intros H. rewrite <- rn_0. now apply rn_le. Qed.
Lemma rn_le_0 x : x <= 0 -> rn x <= 0.
Proof. intros H. rewrite <- rn_0. now apply rn_le. Qed.

(** multiples of a power of two *)
Definition mult2 (k : Z) (x : R) : Prop := exists n : Z, x = IZR n * bp k.

Lemma mult2_0 k : mult2 k 0.
Proof. exists 0%Z. simpl. ring. Qed.
Lemma mult2_plus k x y : mult2 k x -> mult2 k y -> mult2 k (x + y).
Proof. intros [n ->] [m ->]. exists (n + m)%Z. rewrite plus_IZR. ring. Qed.
Lemma mult2_opp k x : mult2 k x -> mult2 k (- x).
Proof. intros [n ->]. exists (- n)%Z. rewrite opp_IZR. ring. Qed.
Lemma mult2_minus k x y : mult2 k x -> mult2 k y -> mult2 k (x - y).
Proof. intros Hx Hy. apply mult2_plus; [easy|now apply mult2_opp]. Qed.
Lemma mult2_mul k l x y : mult2 k x -> mult2 l y -> mult2 (k + l) (x * y).
Proof. intros [n ->] [m ->]. exists (n * m)%Z. rewrite mult_IZR, bpow_plus. ring. Qed.
Lemma mult2_le k l x : (k <= l)%Z -> mult2 l x -> mult2 k x.
Proof.
  intros H [n ->]. exists (n * 2 ^ (l - k))%Z.
  rewrite mult_IZR, (IZR_Zpower radix2) by lia.
  replace (bp l) with (bp (l - k) * bp k) by (rewrite <- bpow_plus; f_equal; lia). ring.
Qed.
Lemma mult2_IZR n : mult2 0 (IZR n).
Proof. exists n. simpl. ring. Qed.
Lemma mult2_int x : mult2 0 x -> exists n, x = IZR n.
Proof. intros [n ->]. exists n. simpl. ring. Qed.

Lemma cexp64 x : cexp radix2 fexp64 x = Z.max (mag radix2 x - 53) (-1074).
Proof. reflexivity. Qed.

Lemma mult2_cexp x : fmt x -> mult2 (cexp radix2 fexp64 x) x.
Proof. intros F. exists (Ztrunc (scaled_mantissa radix2 fexp64 x)). exact F. Qed.

Lemma mult2_emin x : fmt x -> mult2 (-1074) x.
Proof. intros F. eapply mult2_le; [|apply mult2_cexp, F]. rewrite cexp64. lia. Qed.

(** a multiple of 2^k at most 2^(k+53) is representable *)
Lemma fmt_mult2 k x : (-1074 <= k)%Z -> mult2 k x -> Rabs x <= bp (k + 53) -> fmt x.
Proof.
  intros Hk [n ->] Hx.
  assert (Hp := bpow_gt_0 radix2 k).
  rewrite Rabs_mult, (Rabs_pos_eq (bp k)) in Hx by lra.
  rewrite Z.add_comm, bpow_plus in Hx.
  assert (Hn : Rabs (IZR n) <= bp 53) by (apply Rmult_le_reg_r with (bp k); lra).
  rewrite <- (IZR_Zpower radix2 53), <- abs_IZR in Hn by lia. apply le_IZR in Hn.
  destruct (Z.eq_dec (Z.abs n) (Zpower radix2 53)) as [He|He].
  - assert (Hb : fmt (bp (53 + k))) by (apply fmt_bpow; lia).
    destruct (Z.abs_eq_or_opp n) as [Ha|Ha]; rewrite Ha in He.
    + rewrite He, (IZR_Zpower radix2) by lia. now rewrite <- bpow_plus.
    + replace n with (- Zpower radix2 53)%Z by lia.
      rewrite opp_IZR, (IZR_Zpower radix2) by lia.
      replace (- bp 53 * bp k) with (- bp (53 + k)) by (rewrite bpow_plus; ring).
      now apply fmt_opp.
  - apply generic_format_FLT. exists (Float radix2 n k); simpl; auto.
    change (Zpower radix2 53) with (2 ^ 53)%Z in *. simpl. lia.
Qed.

(** rounding keeps a value on a grid *)
Lemma mult2_rn k x : (-1074 <= k)%Z -> mult2 k x -> mult2 k (rn x).
Proof.
  intros Hk Hx.
  destruct (Rle_lt_dec (Rabs x) (bp (k + 53))) as [H|H].
  - rewrite rn_id; auto. now apply (fmt_mult2 k).
  - assert (Hr : bp (k + 53) <= Rabs (rn x)) by (apply rn_abs_ge; [apply fmt_bpow; lia|lra]).
    apply mult2_le with (2 := mult2_cexp _ (rn_fmt x)).
    rewrite cexp64.
    assert (k + 53 < mag radix2 (rn x))%Z by (now apply mag_gt_bpow). lia.
Qed.

Lemma int_rn x : mult2 0 x -> mult2 0 (rn x).
Proof. apply mult2_rn. lia. Qed.

(** ** Relative error *)
Lemma plus_ex x y : fmt x -> fmt y ->
  Rabs (rn (x + y) - (x + y)) <= u * Rabs (x + y) /\
  Rabs (rn (x + y) - (x + y)) <= u * Rabs (rn (x + y)).
Proof.
  intros Fx Fy. split.
  - destruct (FLT_plus_error_N_ex radix2 (-1074) 53 (fun x => negb (Z.even x)) x y Fx Fy) as [e [He1 He2]].
    change (Znearest _) with ZnearestE in He2. rewrite He2.
    replace ((x + y) * (1 + e) - (x + y)) with (e * (x + y)) by ring.
    rewrite Rabs_mult. apply Rmult_le_compat_r. apply Rabs_pos.
    eapply Rle_trans. apply He1. rewrite <- u_ro_u. apply u_rod1pu_ro_le_u_ro.
  - destruct (FLT_plus_error_N_round_ex radix2 (-1074) 53 (fun x => negb (Z.even x)) x y Fx Fy) as [e [He1 He2]].
    change (Znearest _) with ZnearestE in He2. rewrite u_ro_u in He1.
    replace (rn (x + y) - (x + y)) with (- (e * rn (x + y))) by lra.
    rewrite Rabs_Ropp, Rabs_mult. apply Rmult_le_compat_r. apply Rabs_pos. exact He1.
Qed.

Lemma rn_rel x : bp (-1022) <= Rabs x -> Rabs (rn x - x) <= u * Rabs x.
Proof.
  intros H.
  eapply Rle_trans. apply (relative_error_N_FLT radix2 (-1074) 53 eq_refl (fun x => negb (Z.even x)) x).
  - simpl. exact H.
  - change (-53 + 1)%Z with (-52)%Z. change (bp (-52)) with (/ 4503599627370496).
    apply Rmult_le_compat_r. apply Rabs_pos. change (bp (- (53) + 1)) with (/ 4503599627370496). lra.
Qed.

(** general bound with the underflow term 2^-1075 *)
Lemma rn_err x : Rabs (rn x - x) <= u * Rabs x + bp (-1075).
Proof.
  destruct (Rle_lt_dec (bp (-1022)) (Rabs x)) as [H|H].
  - assert (H1 := rn_rel x H). assert (H2 := bpow_gt_0 radix2 (-1075)). lra.
  - assert (H1 : Rabs (rn x - x) <= / 2 * ulp radix2 fexp64 x) by (apply error_le_half_ulp; auto with typeclass_instances).
    assert (H2 : ulp radix2 fexp64 x <= bp (-1074)).
    { destruct (Req_dec x 0) as [->|Hx].
      - rewrite (ulp_FLT_small radix2 (-1074) 53). lra. rewrite Rabs_R0. apply bpow_gt_0.
      - rewrite ulp_neq_0 by easy. apply bpow_le. rewrite cexp64.
        assert (mag radix2 x <= -1022)%Z by (now apply mag_le_bpow). lia. }
    assert (H3 : bp (-1074) = 2 * bp (-1075)).
    { change (-1074)%Z with (1 + -1075)%Z. rewrite bpow_plus. reflexivity. }
    assert (H4 := Rabs_pos x). lra.
Qed.

(** error of a sum / product is representable *)
Lemma plus_err_fmt x y : fmt x -> fmt y -> fmt (x + y - rn (x + y)).
Proof.
  intros Fx Fy. replace (x + y - rn (x + y)) with (- (rn (x + y) - (x + y))) by ring.
  apply fmt_opp. apply plus_error; auto with typeclass_instances.
Qed.

Lemma mul_err_fmt x y : fmt x -> fmt y -> (x * y <> 0 -> bp (-969) <= Rabs (x * y)) ->
  fmt (x * y - rn (x * y)).
Proof.
  intros Fx Fy H. replace (x * y - rn (x * y)) with (- (rn (x * y) - (x * y))) by ring.
  apply fmt_opp. apply mult_error_FLT; auto with typeclass_instances.
Qed.

(** ** Error-free transforms *)
Lemma two_sum_R a b : fmt a -> fmt b ->
  let s := rn (a + b) in
  let v := rn (s - a) in
  rn (rn (a - rn (s - v)) + rn (b - v)) = a + b - s.
Proof.
  intros Fa Fb s v.
  assert (H := TwoSum_correct (-1074) 53 (fun x => negb (Z.even x)) eq_refl).
  assert (H' : forall x, negb (Z.even x) = negb (negb (Z.even (- (x + 1))))).
  { intros x. rewrite Z.even_opp, Z.even_add. simpl. now destruct (Z.even x). }
  assert (Hm : (-1074 <= 0)%Z) by lia.
  specialize (H Hm H' a b Fa Fb). fold s v in H. lra.
Qed.


(** Fast2Sum when |b| <= |a| *)
Lemma fast_two_sum_R a b : fmt a -> fmt b -> Rabs b <= Rabs a ->
  rn (b - rn (rn (a + b) - a)) = a + b - rn (a + b).
Proof.
  intros Fa Fb Hab.
  assert (H := Fast2Sum_correct (-1074) 53 (fun x => negb (Z.even x)) eq_refl).
  assert (H' : forall x, negb (Z.even x) = negb (negb (Z.even (- (x + 1))))).
  { intros x. rewrite Z.even_opp, Z.even_add. simpl. now destruct (Z.even x). }
  assert (Hm : (-1074 <= 0)%Z) by lia.
  specialize (H Hm H' a b Fa Fb Hab).
  assert (E : rn (rn (a + b) - a) = - rn (a - rn (a + b))) by (rewrite <- rn_opp; f_equal; ring).
  rewrite E. replace (b - - rn (a - rn (a + b))) with (b + rn (a - rn (a + b))) by ring. lra.
Qed.

(** Fast2Sum when a and b lie on a common grid on which b fits *)
Lemma fast_two_sum_grid k a b : fmt a -> fmt b -> (-1074 <= k)%Z ->
  mult2 k a -> mult2 k b -> Rabs b <= bp (k + 53) - bp k ->
  rn (b - rn (rn (a + b) - a)) = a + b - rn (a + b).
Proof.
  intros Fa Fb Hk Ma Mb Hb.
  destruct (Rle_lt_dec (Rabs b) (Rabs a)) as [Hab|Hab].
  { now apply fast_two_sum_R. }
  assert (Hp := bpow_gt_0 radix2 k).
  set (s := rn (a + b)).
  assert (Ms : mult2 k s) by (apply mult2_rn; [lia|now apply mult2_plus]).
  assert (Fd : fmt (s - a)).
  { apply (fmt_mult2 k); [lia|now apply mult2_minus|].
    destruct (Rle_lt_dec (Rabs (a + b)) (bp (k + 53))) as [H|H].
    - assert (s = a + b) as -> by (apply rn_id, (fmt_mult2 k); [lia|now apply mult2_plus|easy]).
      replace (a + b - a) with b by ring. lra.
    - assert (He : Rabs (s - (a + b)) <= bp k).
      { assert (H1 : Rabs (s - (a + b)) <= / 2 * ulp radix2 fexp64 (a + b)) by (apply error_le_half_ulp; auto with typeclass_instances).
        assert (H2 : ulp radix2 fexp64 (a + b) <= 2 * bp k); [|lra].
        replace (2 * bp k) with (bp (1 + k)) by (rewrite bpow_plus; reflexivity).
        assert (H3 : a + b <> 0). { intros E. rewrite E, Rabs_R0 in H. assert (H4 := bpow_gt_0 radix2 (k + 53)). lra. }
        rewrite ulp_neq_0 by easy. apply bpow_le. rewrite cexp64.
        assert (mag radix2 (a + b) <= k + 54)%Z; [|lia].
        apply mag_le_bpow; [easy|].
        replace (k + 54)%Z with (1 + (k + 53))%Z by ring. rewrite (bpow_plus radix2 1). change (bp 1) with 2.
        assert (H5 := Rabs_triang a b). lra. }
      replace (s - a) with (s - (a + b) + b) by ring.
      assert (H5 := Rabs_triang (s - (a + b)) b). lra. }
  rewrite (rn_id (s - a)) by easy. replace (b - (s - a)) with (a + b - s) by ring.
  apply rn_id. now apply plus_err_fmt.
Qed.

(** Sterbenz *)
Lemma sterbenz_R a b : fmt a -> fmt b -> b / 2 <= a <= 2 * b -> fmt (a - b).
Proof. intros. apply sterbenz; auto with typeclass_instances. Qed.

(** the low word of a rounded sum *)
Lemma norm_lo h l : fmt h -> fmt l -> rn (h + l) = h -> Rabs l <= u * Rabs h.
Proof.
  intros Fh Fl H. destruct (plus_ex h l Fh Fl) as [_ H2]. rewrite H in H2.
  replace (h - (h + l)) with (- l) in H2 by ring. now rewrite Rabs_Ropp in H2.
Qed.
